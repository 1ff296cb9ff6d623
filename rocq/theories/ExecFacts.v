(** Consequences of the simulation: termination, budgets, dead code, straight-line code. *)
From Coq Require Import ZArith List Bool Lia.
From Verif Require Import Word Value Numeric Float Mem Store Regs IR Machine Wasm WasmTyping WasmPrims PrimFacts Decoder Check
  BasicSim Sim Dyn Restrict Agree Soundness Correct.
Import ListNotations.
Open Scope nat_scope.

(** ** budgets *)
Section Budget.
  Variable hf : hostfp.
  Variable host : hostfn.
  Variable M : modul.
  Lemma steps_stable n : forall c o k, steps hf host M n c = inr o -> steps hf host M (n + k) c = inr o.
  Proof.
    induction n as [|n IH]; intros c o k H; [discriminate|]. cbn [steps Nat.add] in *. destruct (step hf host M c); auto.
  Qed.
  Lemma steps_unique n m c o o' : steps hf host M n c = inr o -> steps hf host M m c = inr o' -> o = o'.
  Proof.
    intros H1 H2. apply (steps_stable n _ _ m) in H1. apply (steps_stable m _ _ n) in H2. rewrite Nat.add_comm in H2. congruence.
  Qed.
  Lemma steps_running n m c o c' : steps hf host M n c = inr o -> steps hf host M m c = inl c' -> m < n.
  Proof.
    intros H1 H2. destruct (Nat.lt_ge_cases m n) as [|H]; auto. apply (steps_stable n _ _ (m - n)) in H1.
    replace (n + (m - n)) with m in H1 by lia. congruence.
  Qed.
End Budget.

(** the outcome of the machine a specification outcome stands for *)
Definition as_outcome (o : out) : option outcome :=
  match o with
  | ONorm vals x => Some (Done vals (x_inst x) (x_log x))
  | OTrap t l => Some (Trapped t l)
  | OExit z l => Some (Exited z l)
  | _ => None
  end.
Lemma ends_outcome hf host M n c0 o : ends_as hf host M n c0 o ->
  (exists r, as_outcome o = Some r /\ exists m, steps hf host M m c0 = inr r) \/
  (o = OFuel /\ exists m c', n <= m /\ steps hf host M m c0 = inl c').
Proof. destruct o; cbn; try tauto; eauto. Qed.

(** ** dead code *)
(** equal up to code after an unconditional transfer of control *)
Inductive live_eq : code -> code -> Prop :=
| LNil : live_eq CNil CNil
| LBasic b k k' : live_eq k k' -> live_eq (CBasic b k) (CBasic b k')
| LBlock lp ps rs b b' k k' : live_eq b b' -> live_eq k k' -> live_eq (CBlock lp ps rs b k) (CBlock lp ps rs b' k')
| LIf ps rs b b' k k' : live_eq b b' -> live_eq k k' -> live_eq (CIf ps rs b k) (CIf ps rs b' k')
| LIfElse ps rs b b' e e' k k' : live_eq b b' -> live_eq e e' -> live_eq k k' ->
    live_eq (CIfElse ps rs b e k) (CIfElse ps rs b' e' k')
| LBr d k k' : live_eq (CBr d k) (CBr d k')
| LBrIf d k k' : live_eq k k' -> live_eq (CBrIf d k) (CBrIf d k')
| LBrTable ds d k k' : live_eq (CBrTable ds d k) (CBrTable ds d k')
| LReturn k k' : live_eq (CReturn k) (CReturn k')
| LUnreachable k k' : live_eq (CUnreachable k) (CUnreachable k')
| LCall f k k' : live_eq k k' -> live_eq (CCall f k) (CCall f k')
| LCallInd ty tb k k' : live_eq k k' -> live_eq (CCallInd ty tb k) (CCallInd ty tb k').
Definition live_func (f f' : sfunc) : Prop :=
  match f, f' with
  | SWasi w t, SWasi w' t' => w = w' /\ t = t'
  | SWasm d, SWasm d' => sf_type d = sf_type d' /\ sf_locals d = sf_locals d' /\ live_eq (sf_body d) (sf_body d')
  | _, _ => False
  end.
Definition live_mod (M M' : smodule) : Prop := sm_types M = sm_types M' /\ Forall2 live_func (sm_funcs M) (sm_funcs M').

Section Live.
  Variable P : prims.
  Variable host : hostfn.
  Variables M M' : smodule.
  Hypothesis HM : live_mod M M'.
  Lemma live_nth f : match nth_error (sm_funcs M) f, nth_error (sm_funcs M') f with
                     | Some a, Some b => live_func a b | None, None => True | _, _ => False end.
  Proof.
    destruct HM as [_ H]. revert f. induction H as [|a b la lb H1 H2 IH]; intros [|f]; cbn; auto. exact (IH f).
  Qed.
  Lemma lift_ext log r k k' : (forall s x, k s x = k' s x) -> lift log r k = lift log r k'.
  Proof. intros H. destruct r as [[]| |]; cbn; auto. Qed.
  Lemma finish_ext l o k k' : (forall s x, k s x = k' s x) -> finish l o k = finish l o k'.
  Proof. intros H. destruct o as [| [|] | | | | | |]; cbn; auto. Qed.
  Lemma host_ext w t args x k k' : (forall s x, k s x = k' s x) -> do_host host w t args x k = do_host host w t args x k'.
  Proof. intros H. unfold do_host. cbv zeta. destruct (host _); auto. destruct (host_vals _ _); auto. Qed.

  Definition live_at (n : nat) : Prop := forall c c', live_eq c c' -> forall ls stk x, exec P host M n ls c stk x = exec P host M' n ls c' stk x.
  Lemma live_call n d d' args x k k' : match n with O => True | S n => live_at n end -> live_func (SWasm d) (SWasm d') ->
    (forall s x, k s x = k' s x) -> callf P host M n d args x k = callf P host M' n d' args x k'.
  Proof.
    intros IH (T & L & B) K. unfold callf. destruct n as [|n]; auto. rewrite T, L. destruct (p_defaults P (sf_locals d')); auto.
    rewrite (IH _ _ B). now apply finish_ext.
  Qed.
  Lemma exec_live n : live_at n.
  Proof.
    induction n as [n IHn] using lt_wf_ind.
    assert (IH1 : match n with O => True | S n => live_at n end) by (destruct n; auto). clear IHn.
    intros c c' H. induction H as [|b k k' H IH|lp ps rs b b' k k' Hb IHb Hk IHk|ps rs b b' k k' Hb IHb Hk IHk|ps rs b b' e e' k k' Hb IHb He IHe Hk IHk
      |d k k'|d k k' H IH|ds d k k'|k k'|k k'|f k k' H IH|ty tb k k' H IH]; intros ls stk x; try (destruct n; reflexivity).
    - rewrite !exec_basic. destruct (bexec P b stk x); auto. apply lift_ext. auto.
    - rewrite !exec_block. destruct (take (length ps) stk) as [[args rest]|]; auto. rewrite IHb.
      match goal with |- match ?o with _ => _ end = _ => destruct o as [vs y|[|d] vs y|vs y|t l|z l| | | ] end; auto.
      destruct lp; auto. destruct n; auto. apply IH1. now constructor.
    - rewrite !exec_if. destruct stk as [|cv stk]; auto. destruct (is_true cv) as [[|]|]; auto; destruct (take (length ps) stk) as [[args rest]|]; auto. rewrite IHb.
      match goal with |- match ?o with _ => _ end = _ => destruct o as [vs y|[|d] vs y|vs y|t l|z l| | | ] end; auto.
    - rewrite !exec_ifelse. destruct stk as [|cv stk]; auto. destruct (is_true cv) as [q|]; auto; destruct (take (length ps) stk) as [[args rest]|]; auto. rewrite IHb, IHe.
      match goal with |- match ?o with _ => _ end = _ => destruct o as [vs y|[|d] vs y|vs y|t l|z l| | | ] end; auto.
    - rewrite !exec_brif. destruct stk as [|cv stk]; auto. destruct (is_true cv) as [[|]|]; auto. destruct (nth_error ls d); auto.
    - rewrite !exec_call. pose proof (live_nth f) as L. destruct (nth_error (sm_funcs M) f) as [fn|], (nth_error (sm_funcs M') f) as [fn'|]; try tauto.
      assert (T : sfunc_type fn = sfunc_type fn') by (destruct fn, fn'; cbn in L |- *; tauto).
      rewrite T. destruct (take _ stk) as [[args rest]|]; auto. destruct fn as [d|w t], fn' as [d'|w' t']; cbn in L; try tauto.
      + apply live_call; auto.
      + destruct L as [<- <-]. apply host_ext. auto.
    - rewrite !exec_callind. rewrite (proj1 HM). destruct stk as [|[i| | | | | ] stk]; auto. destruct (nth_error (sm_types M') ty) as [t|]; auto.
      destruct (take _ stk) as [[args rest]|]; auto. destruct (p_func P _ tb i) as [f| |]; auto.
      pose proof (live_nth f) as L. destruct (nth_error (sm_funcs M) f) as [fn|], (nth_error (sm_funcs M') f) as [fn'|]; try tauto.
      assert (T : sfunc_type fn = sfunc_type fn') by (destruct fn, fn'; cbn in L |- *; tauto).
      rewrite T. destruct (ftype_eqb _ t); auto. destruct fn as [d|w u], fn' as [d'|w' u']; cbn in L; try tauto.
      + apply live_call; auto.
      + destruct L as [<- <-]. destruct (p_ind_host P); auto. apply host_ext. auto.
  Qed.
  Lemma invoke_live n f args s : invoke P host M n f args s = invoke P host M' n f args s.
  Proof.
    unfold invoke. pose proof (live_nth f) as L.
    destruct (nth_error (sm_funcs M) f) as [[d|w t]|], (nth_error (sm_funcs M') f) as [[d'|w' t']|]; try (cbn in L; tauto).
    destruct L as (T & Lo & B). rewrite T, Lo. now rewrite (exec_live n _ _ B).
  Qed.
End Live.

(** ** straight-line code *)
Fixpoint straight (c : code) : bool := match c with CNil => true | CBasic _ k => straight k | _ => false end.
Lemma straight_fuel P host M c : straight c = true -> forall n ls stk x, exec P host M n ls c stk x <> OFuel /\
  exec P host M n ls c stk x = exec P host M 0 ls c stk x.
Proof.
  induction c as [|b k IH| | | | | | | | | |]; try discriminate; intros S n ls stk x.
  - split; [destruct n; discriminate|destruct n; reflexivity].
  - rewrite !exec_basic. destruct (bexec P b stk x) as [r|]; [|split; [discriminate|auto]].
    destruct r as [[stk' x']| |]; cbn [lift]; [apply IH; auto|split; [discriminate|auto]|split; [discriminate|auto]].
Qed.
Lemma straight_invoke P host M f d args s : nth_error (sm_funcs M) f = Some (SWasm d) -> straight (sf_body d) = true ->
  forall n, invoke P host M n f args s <> OFuel /\ invoke P host M n f args s = invoke P host M 0 f args s.
Proof.
  intros N S n. unfold invoke. rewrite N.
  destruct (straight_fuel P host M _ S n [length (snd (sf_type d))] [] {| x_loc := args ++ map (fun t => default_of (class_of t)) (sf_locals d);
                           x_inst := s; x_log := [] |}) as [H1 H2]. rewrite <- H2. split; auto.
  destruct (exec _ _ _ n _ _ _ _) as [|[|]| | | | | |]; cbn; congruence.
Qed.

(** ** the budget of the specification *)
Section Budget.
  Variables (P : prims) (host : hostfn) (M : smodule).
  Definition lf (a b : out) : Prop := a = OFuel \/ a = b.
  Lemma lf_refl a : lf a a. Proof. now right. Qed.
  Lemma lf_fuel b : lf OFuel b. Proof. now left. Qed.
  Hint Resolve lf_refl lf_fuel : core.
  Lemma lf_finish l a b k1 k2 : lf a b -> (forall vs x, lf (k1 vs x) (k2 vs x)) -> lf (finish l a k1) (finish l b k2).
  Proof. intros [->| ->] K; [now left|]. destruct b as [| [|d] | | | | | | ]; cbn; auto. Qed.
  Lemma lf_host w t args x k1 k2 : (forall vs x, lf (k1 vs x) (k2 vs x)) -> lf (do_host host w t args x k1) (do_host host w t args x k2).
  Proof. intros K. unfold do_host. cbv zeta. destruct (host _); auto. destruct (host_vals _ _); auto. Qed.
  Lemma lf_call n d args x k1 k2 :
    match n with O => True | S n' => forall c ls stk x, lf (exec P host M n' ls c stk x) (exec P host M n ls c stk x) end ->
    (forall vs x, lf (k1 vs x) (k2 vs x)) -> lf (callf P host M n d args x k1) (callf P host M (S n) d args x k2).
  Proof.
    intros IHn K. unfold callf. destruct n as [|n]; auto.
    destruct (p_defaults P (sf_locals d)) as [ds| |]; auto. apply lf_finish; auto.
  Qed.
  Lemma exec_budget n : forall c ls stk x, lf (exec P host M n ls c stk x) (exec P host M (S n) ls c stk x).
  Proof.
    induction n as [n IHn] using lt_wf_ind.
    assert (IH1 : match n with O => True | S n' => forall c ls stk x, lf (exec P host M n' ls c stk x) (exec P host M n ls c stk x) end)
      by (destruct n; auto).
    clear IHn.
    induction c as [|b k IHk|lp ps rs body IHb k IHk|ps rs th IHt k IHk|ps rs th IHt el IHe k IHk|d k IHk|d k IHk|ds d k IHk|k IHk|k IHk|f k IHk|ty tb k IHk];
      intros ls stk x; try (right; destruct n; reflexivity).
    - rewrite !exec_basic. destruct (bexec P b stk x) as [[[]| |]|]; cbn [lift]; auto.
    - rewrite !exec_block. destruct (take (length ps) stk) as [[args rest]|]; [|auto].
      destruct (IHb ((if lp then length ps else length rs) :: ls) args x) as [-> | ->]; [now left|].
      match goal with |- lf (match ?o with _ => _ end) _ => destruct o as [vs y|[|d] vs y|vs y|t l|z l| | | ] end; auto.
      destruct lp; auto. destruct n; auto.
    - rewrite !exec_if. destruct stk as [|cv stk]; auto. destruct (is_true cv) as [b|]; auto. destruct (take (length ps) stk) as [[args rest]|]; auto.
      destruct b; auto. destruct (IHt (length rs :: ls) args x) as [-> | ->]; [now left|].
      match goal with |- lf (match ?o with _ => _ end) _ => destruct o as [vs y|[|d] vs y|vs y|t l|z l| | | ] end; auto.
    - rewrite !exec_ifelse. destruct stk as [|cv stk]; auto. destruct (is_true cv) as [b|]; auto. destruct (take (length ps) stk) as [[args rest]|]; auto.
      assert (H : lf (if b then exec P host M n (length rs :: ls) th args x else exec P host M n (length rs :: ls) el args x)
                     (if b then exec P host M (S n) (length rs :: ls) th args x else exec P host M (S n) (length rs :: ls) el args x)) by (destruct b; auto).
      destruct H as [-> | ->]; [now left|].
      match goal with |- lf (match ?o with _ => _ end) _ => destruct o as [vs y|[|d] vs y|vs y|t l|z l| | | ] end; auto.
    - rewrite !exec_brif. destruct stk as [|cv stk]; auto. destruct (is_true cv) as [[|]|]; auto; destruct (nth_error ls d); auto.
    - rewrite !exec_call. destruct (nth_error (sm_funcs M) f) as [fn|]; auto. destruct (take _ stk) as [[args rest]|]; auto. destruct fn as [d|w t].
      + apply lf_call; auto.
      + apply lf_host; auto.
    - rewrite !exec_callind. destruct stk as [|[i| | | | | ] stk]; auto. destruct (nth_error (sm_types M) ty) as [t|]; auto. destruct (take _ stk) as [[args rest]|]; auto.
      destruct (p_func P (i_tables (x_inst x)) tb i) as [f| |]; auto.
      destruct (nth_error (sm_funcs M) f) as [fn|] eqn:Nf; auto. destruct (ftype_eqb _ _); auto. destruct fn as [d|w tt].
      + apply lf_call; auto.
      + destruct (p_ind_host P); auto. apply lf_host; auto.
  Qed.
  Lemma invoke_budget f args s : forall n m, n <= m -> invoke P host M n f args s <> OFuel -> invoke P host M m f args s = invoke P host M n f args s.
  Proof.
    intros n m L. induction L as [|m L IH]; intros H; auto. rewrite <- IH by exact H.
    assert (K : lf (invoke P host M m f args s) (invoke P host M (S m) f args s)).
    { unfold invoke. destruct (nth_error (sm_funcs M) f) as [[d|]|]; auto. apply lf_finish; auto. apply exec_budget. }
    destruct K as [K|K]; auto. rewrite IH in K by exact H. contradiction.
  Qed.
End Budget.
(** a run that ends clear of the excluded points is clear with every budget *)
Lemma clear_all hf host SM n f args s : clear hf host SM n f args s ->
  invoke (guarded SM (wasm_prims hf)) host SM n f args s <> OFuel -> forall m, clear hf host SM m f args s.
Proof.
  intros C H m. unfold clear in *. destruct (Nat.le_ge_cases n m) as [L|L].
  - now rewrite (invoke_budget _ _ _ _ _ _ n m L H).
  - intros K. apply C. rewrite <- K. apply invoke_budget; [exact L|]. rewrite K. discriminate.
Qed.
