(** Runs on a host that ends them at a given call. *)
From Coq Require Import ZArith List Bool Lia Wf_nat.
From Verif Require Import Word Value Numeric Float Mem Store Regs IR Machine Wasm Decoder Check Sim Restrict WasmPrims PrimFacts Soundness Correct ExecFacts WorldProofs TraceSpec.
Import ListNotations.
Open Scope nat_scope.

(** ** the specification: the stopped run is the run, or has been stopped *)
Section Stopped.
  Variables (P : prims) (k : nat) (host : hostfn) (M : smodule).
  Notation stop := (stopping k host).
  Definition sr (a b : out) : Prop := (exists l, a = OExit 0 l /\ k <= length l) \/ a = b.
  Lemma sr_refl a : sr a a. Proof. now right. Qed.
  Hint Resolve sr_refl : core.
  Lemma sr_finish l a b k1 k2 : sr a b -> (forall vs x, sr (k1 vs x) (k2 vs x)) -> sr (finish l a k1) (finish l b k2).
  Proof. intros [(lg & -> & L)| ->] K; [left; cbn; eauto|]. destruct b as [| [|d] | | | | | | ]; cbn; auto. Qed.
  Lemma sr_host w t args x k1 k2 : (forall vs x, sr (k1 vs x) (k2 vs x)) -> sr (do_host stop w t args x k1) (do_host host w t args x k2).
  Proof.
    intros K. unfold do_host. cbv zeta. generalize ((w, args, mem_view (x_inst x)) :: x_log x : list event). intros log.
    unfold stopping. destruct (Nat.leb_spec k (length log)) as [H|H]; [left; eexists; split; [reflexivity|exact H]|].
    destruct (host log); auto. destruct (host_vals _ _); auto.
  Qed.
  Lemma sr_call n d args x k1 k2 :
    match n with O => True | S n' => forall c ls stk x, sr (exec P stop M n' ls c stk x) (exec P host M n' ls c stk x) end ->
    (forall vs x, sr (k1 vs x) (k2 vs x)) -> sr (callf P stop M n d args x k1) (callf P host M n d args x k2).
  Proof.
    intros IHn K. unfold callf. destruct n as [|n]; auto.
    destruct (p_defaults P (sf_locals d)) as [ds| |]; auto. apply sr_finish; auto.
  Qed.
  Lemma exec_stopped n : forall c ls stk x, sr (exec P stop M n ls c stk x) (exec P host M n ls c stk x).
  Proof.
    induction n as [n IHn] using lt_wf_ind.
    assert (IH1 : match n with O => True | S n' => forall c ls stk x, sr (exec P stop M n' ls c stk x) (exec P host M n' ls c stk x) end)
      by (destruct n; auto).
    clear IHn.
    induction c as [|b c IHk|lp ps rs body IHb c IHk|ps rs th IHt c IHk|ps rs th IHt el IHe c IHk|d c IHk|d c IHk|ds d c IHk|c IHk|c IHk|f c IHk|ty tb c IHk];
      intros ls stk x; try (right; destruct n; reflexivity).
    - rewrite !exec_basic. destruct (bexec P b stk x) as [[[]| |]|]; cbn [lift]; auto.
    - rewrite !exec_block. destruct (take (length ps) stk) as [[args rest]|]; [|auto].
      destruct (IHb ((if lp then length ps else length rs) :: ls) args x) as [(l & -> & L) | ->]; [left; eauto|].
      match goal with |- sr (match ?o with _ => _ end) _ => destruct o as [vs y|[|d] vs y|vs y|t l|z l| | | ] end; auto.
      destruct lp; auto. destruct n; auto.
    - rewrite !exec_if. destruct stk as [|cv stk]; auto. destruct (is_true cv) as [b|]; auto. destruct (take (length ps) stk) as [[args rest]|]; auto.
      destruct b; auto. destruct (IHt (length rs :: ls) args x) as [(l & -> & L) | ->]; [left; eauto|].
      match goal with |- sr (match ?o with _ => _ end) _ => destruct o as [vs y|[|d] vs y|vs y|t l|z l| | | ] end; auto.
    - rewrite !exec_ifelse. destruct stk as [|cv stk]; auto. destruct (is_true cv) as [b|]; auto. destruct (take (length ps) stk) as [[args rest]|]; auto.
      assert (H : sr (if b then exec P stop M n (length rs :: ls) th args x else exec P stop M n (length rs :: ls) el args x)
                     (if b then exec P host M n (length rs :: ls) th args x else exec P host M n (length rs :: ls) el args x)) by (destruct b; auto).
      destruct H as [(l & -> & L) | ->]; [left; eauto|].
      match goal with |- sr (match ?o with _ => _ end) _ => destruct o as [vs y|[|d] vs y|vs y|t l|z l| | | ] end; auto.
    - rewrite !exec_brif. destruct stk as [|cv stk]; auto. destruct (is_true cv) as [[|]|]; auto; destruct (nth_error ls d); auto.
    - rewrite !exec_call. destruct (nth_error (sm_funcs M) f) as [fn|]; auto. destruct (take _ stk) as [[args rest]|]; auto. destruct fn as [d|w t].
      + apply sr_call; auto.
      + apply sr_host; auto.
    - rewrite !exec_callind. destruct stk as [|[i| | | | | ] stk]; auto. destruct (nth_error (sm_types M) ty) as [t|]; auto. destruct (take _ stk) as [[args rest]|]; auto.
      destruct (p_func P (i_tables (x_inst x)) tb i) as [f| |]; auto.
      destruct (nth_error (sm_funcs M) f) as [fn|] eqn:Nf; auto. destruct (ftype_eqb _ _); auto. destruct fn as [d|w tt].
      + apply sr_call; auto.
      + destruct (p_ind_host P); auto. apply sr_host; auto.
  Qed.
  Lemma invoke_stopped n f args s : sr (invoke P stop M n f args s) (invoke P host M n f args s).
  Proof. unfold invoke. destruct (nth_error (sm_funcs M) f) as [[d|]|]; auto. apply sr_finish; auto. apply exec_stopped. Qed.
End Stopped.
Lemma clear_stopped hf k host SM f args s : (forall n, clear hf host SM n f args s) -> forall n, clear hf (stopping k host) SM n f args s.
Proof.
  intros C n K. destruct (invoke_stopped (guarded SM (wasm_prims hf)) k host SM n f args s) as [(l & E & _)|E]; [congruence|].
  rewrite K in E. symmetry in E. exact (C n E).
Qed.

(** ** the machine *)
Section Machine.
  Variables (hf : hostfp) (M : modul).
  Lemma step_call host c l : next_call hf M c = Some l -> exists w args r v, l = (w, args, mem_view (d_inst (s_d v))) :: c_log c /\ step hf host M c = call_host host c v w args r.
  Proof.
    unfold next_call, step. destruct (nth_error (md_funcs M) (c_fn c)) as [[fd|]|]; try discriminate.
    destruct (hstep hf M (fd_code fd) (c_v c)) as [v|v|[|w a r|f a rs] v| |]; try discriminate. intros H. injection H as <-. eauto 8.
  Qed.
  Lemma step_stops k host c l : next_call hf M c = Some l -> k <= length l -> step hf (stopping k host) M c = SExit 0 l.
  Proof.
    intros N L. destruct (step_call (stopping k host) c l N) as (w & args & r & v & E & ->). unfold call_host. cbv zeta. rewrite <- E.
    unfold stopping. now rewrite (proj2 (Nat.leb_le _ _) L).
  Qed.
  (** a step without a call does not look at the host and leaves the history *)
  Lemma step_nocall h1 h2 c : next_call hf M c = None -> step hf h2 M c = step hf h1 M c /\ (forall l, slog (step hf h1 M c) = Some l -> l = c_log c).
  Proof.
    unfold next_call, step. destruct (nth_error (md_funcs M) (c_fn c)) as [[fd|]|]; try (split; [auto|discriminate]).
    destruct (hstep hf M (fd_code fd) (c_v c)) as [v|v|[|w a r|f a rs] v| |]; intros N; try discriminate N; (split; [reflexivity|]); intros l H.
    - cbn in H. congruence.
    - now apply leave_log in H.
    - now apply leave_log in H.
    - destruct (nth_error (md_funcs M) f) as [[g|]|]; [now apply enter_log in H|cbn in H; congruence|discriminate].
    - cbn in H. congruence.
    - discriminate.
  Qed.
  Lemma step_call_log host c l l' : next_call hf M c = Some l -> slog (step hf host M c) = Some l' -> l' = l.
  Proof.
    intros N H. destruct (step_call host c l N) as (w & args & r & v & -> & E). rewrite E in H. unfold call_host in H. cbv zeta in H.
    destruct (host _) as [| | |z|o ws]; cbn in H; try discriminate; try congruence.
    apply slog_res in H as [(rf & _ & H)|H]; auto. cbn in H. congruence.
  Qed.
  Lemma next_cons c l : next_call hf M c = Some l -> exists e, l = e :: c_log c.
  Proof. intros N. destruct (step_call (fun _ => HoErr) c l N) as (w & a & r & v & -> & _). eauto. Qed.
  (** a stopped run: before its last call the run, and it ends by that call *)
  Lemma stop_ends k host m c c' l : steps hf host M m c = inl c' -> next_call hf M c' = Some l -> length l = k -> steps hf (stopping k host) M (S m) c = inr (Exited 0 l).
  Proof.
    intros H N L. destruct (next_cons _ _ N) as (e & ->). cbn [length] in L.
    assert (E : steps hf (stopping k host) M m c = inl c').
    { rewrite <- H. assert (SL : steps_log (steps hf host M m c) = Some (c_log c')) by now rewrite H.
      refine (proj1 (steps_hosts hf host (stopping k host) M (fun l => length l < k) _ _ m c _ SL _)); [| |lia].
      - intros e0 l0 H0. cbn [length] in H0. lia.
      - intros l0 L0. unfold stopping. now rewrite (proj2 (Nat.leb_gt _ _) L0). }
    assert (G : forall m c, steps hf (stopping k host) M m c = inl c' -> steps hf (stopping k host) M (S m) c = inr (Exited 0 (e :: c_log c'))).
    { induction m0 as [|m0 IH]; intros c1 E1.
      - cbn [steps] in E1. injection E1 as ->. cbn [steps]. rewrite (step_stops k host c' _ N); [reflexivity|cbn [length]; lia].
      - cbn [steps] in E1. change (steps hf (stopping k host) M (S (S m0)) c1) with
          (match step hf (stopping k host) M c1 with SNext c2 => steps hf (stopping k host) M (S m0) c2 | SDone vs s l => inr (Done vs s l) | SExit z l => inr (Exited z l) | STrap t l => inr (Trapped t l) | SUB => inr Undefined end).
        destruct (step hf (stopping k host) M c1); try discriminate. now apply IH. }
    now apply G.
  Qed.
  Lemma stop_made k host m : forall c o l, steps hf (stopping k host) M m c = inr o -> o <> Undefined -> calls_of o = l -> length l = k -> length (c_log c) < k ->
    o = Exited 0 l /\ exists m' c', steps hf host M m' c = inl c' /\ next_call hf M c' = Some l.
  Proof.
    induction m as [|m IH]; intros c o l H NU CO L LC; [discriminate|]. cbn [steps] in H.
    assert (SL : forall r, step hf (stopping k host) M c = r -> forall l', slog r = Some l' -> l' = c_log c \/ next_call hf M c = Some l').
    { intros r <- l' S. destruct (next_call hf M c) as [l1|] eqn:N; [right; f_equal; symmetry; eapply step_call_log; eauto|].
      left. destruct (step_nocall (stopping k host) host c N) as [_ K]. now apply K. }
    assert (FIN : forall l', next_call hf M c = Some l' -> length l' = k -> step hf (stopping k host) M c = SExit 0 l' /\ exists m' c', steps hf host M m' c = inl c' /\ next_call hf M c' = Some l').
    { intros l' N L'. split; [apply step_stops; auto; lia|]. exists 0, c. auto. }
    destruct (step hf (stopping k host) M c) as [c1|vs s lg|z lg|t lg|] eqn:ST.
    - assert (LC1 : length (c_log c1) < k).
      { destruct (SL _ eq_refl _ eq_refl) as [-> |N]; auto. destruct (next_cons _ _ N) as (e & E).
        destruct (Nat.lt_ge_cases (length (c_log c1)) k) as [|GE]; auto. rewrite (step_stops k host c _ N GE) in ST. discriminate. }
      destruct (IH c1 o l H NU CO L LC1) as (E & m' & c' & E1 & E2). split; auto. exists (S m'), c'. split; auto.
      assert (SH : step hf host M c = step hf (stopping k host) M c).
      { refine (proj1 (step_hosts hf (stopping k host) host M (fun l => length l < k) _ _ c (c_log c1) _ LC1)).
        - intros e0 l0 H0. cbn [length] in H0. lia.
        - intros l0 L0. unfold stopping. now rewrite (proj2 (Nat.leb_gt _ _) L0).
        - now rewrite ST. }
      cbn [steps]. rewrite SH, ST. exact E1.
    - injection H as <-. cbn in CO. subst lg. destruct (SL _ eq_refl _ eq_refl) as [-> |N]; [lia|]. destruct (FIN _ N L) as [E _]. discriminate.
    - injection H as <-. cbn in CO. subst lg. destruct (SL _ eq_refl _ eq_refl) as [-> |N]; [lia|]. destruct (FIN _ N L) as [E X]. injection E as ->. auto.
    - injection H as <-. cbn in CO. subst lg. destruct (SL _ eq_refl _ eq_refl) as [-> |N]; [lia|]. destruct (FIN _ N L) as [E _]. discriminate.
    - congruence.
  Qed.
End Machine.
