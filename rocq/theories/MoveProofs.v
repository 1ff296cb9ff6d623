(** Runs with hosts that agree on the calls that are made; histories of processes with such hosts. *)
From Coq Require Import ZArith List Bool Lia.
From Coq Require String.
From Verif Require Import Word Value Float Mem WasmMem Store Regs IR Machine Runtime SimState RuntimeProofs Module Load WorldProofs TraceSpec TraceProofs Codec FileSpec.
Import ListNotations.
Open Scope nat_scope.

Definition rlog (o : rout) : option (list event) :=
  match o with RRun st | RCheckpoint st => Some (r_log st) | RDone _ _ l | RExit _ l | RTrap _ l => Some l | RUB => None end.
Lemma rlog_res {A} lg (r : res A) k l : rlog (rres lg r k) = Some l -> (exists a, r = Ok a /\ rlog (k a) = Some l) \/ l = lg.
Proof. destruct r as [a|t|]; cbn; intros H; [left; eauto|right; congruence|discriminate]. Qed.

Section Runs.
  Variables (hf : hostfp) (h1 h2 : hostfn) (M : modul) (A : list event -> Prop).
  Hypothesis closed : forall e l, A (e :: l) -> A l.
  Hypothesis same : forall l, A l -> h2 l = h1 l.
  Lemma round_hosts E D en0 k st : forall l, (match run_round hf h1 M E D en0 k st with Some o => rlog o | None => Some (r_log st) end) = Some l -> A l ->
    run_round hf h2 M E D en0 k st = run_round hf h1 M E D en0 k st /\ A (r_log st).
  Proof.
    intros l H Al. unfold run_round in *. destruct (r_frames st) as [|[en f] rest]; [cbn in H; injection H as <-; auto|].
    destruct (nth_error (md_funcs M) (f_fn f)) as [[fd|]|]; [|cbn in H; discriminate..].
    destruct (dispatch D hf M E (fd_code fd) k _ _) as [[o t]|]; [|injection H as <-; auto].
    destruct o as [v|y v|x|v|]; [|destruct y as [|w a r|g a rs]|cbn in H; injection H as <-; auto|cbn in H; injection H as <-; auto|discriminate].
    - split; auto. destruct rest as [|[en' g] rest'].
      + apply rlog_res in H as [(a & _ & H)| ->]; auto. cbn in H. injection H as <-. auto.
      + apply rlog_res in H as [(a & _ & H)| ->]; auto. apply rlog_res in H as [(b & _ & H)| ->]; auto. cbn in H. injection H as <-. auto.
    -   split; auto. destruct rest as [|[en' g] rest'].
        * apply rlog_res in H as [(a & _ & H)| ->]; auto. cbn in H. injection H as <-. auto.
        * apply rlog_res in H as [(a & _ & H)| ->]; auto. apply rlog_res in H as [(b & _ & H)| ->]; auto. cbn in H. injection H as <-. auto.
    - cbv zeta in *. set (lg := (w, a, mem_view (d_inst (s_d v))) :: r_log st) in *.
        assert (AL : A lg). { destruct (h1 lg) as [| | |z|o ws]; try (cbn in H; try discriminate; injection H as <-; exact Al).
          apply rlog_res in H as [(rf & _ & H)| ->]; auto. cbn in H. injection H as <-. exact Al. }
        rewrite (same _ AL). split; auto. now apply closed in AL.
    - split; auto. destruct (nth_error (md_funcs M) g) as [[gd|]|]; [|cbn in H; injection H as <-; auto|discriminate].
        apply rlog_res in H as [(ds & _ & H)| ->]; auto. cbn in H. injection H as <-. auto.
  Qed.
  Lemma loop_hosts E D en0 k n : forall st l, rlog (run_loop hf h1 M E D en0 k n st) = Some l -> A l ->
    run_loop hf h2 M E D en0 k n st = run_loop hf h1 M E D en0 k n st /\ A (r_log st).
  Proof.
    induction n as [|n IH]; intros st l H Al; cbn [run_loop] in *; [cbn in H; injection H as <-; auto|].
    destruct (run_round hf h1 M E D en0 k st) as [o|] eqn:R.
    - destruct o as [st'|vs s lg|z lg|t lg|st'|].
      + destruct (IH st' l H Al) as [E1 A1]. destruct (round_hosts E D en0 k st (r_log st')) as [E2 A2]; [now rewrite R|exact A1|]. rewrite E2, R. auto.
      + destruct (round_hosts E D en0 k st l) as [E2 A2]; [now rewrite R|exact Al|]. rewrite E2, R. auto.
      + destruct (round_hosts E D en0 k st l) as [E2 A2]; [now rewrite R|exact Al|]. rewrite E2, R. auto.
      + destruct (round_hosts E D en0 k st l) as [E2 A2]; [now rewrite R|exact Al|]. rewrite E2, R. auto.
      + destruct (round_hosts E D en0 k st l) as [E2 A2]; [now rewrite R|exact Al|]. rewrite E2, R. auto.
      + discriminate.
    - destruct (round_hosts E D en0 k st l) as [E2 A2]; [now rewrite R|exact Al|]. rewrite E2, R. auto.
  Qed.
  Lemma run_hosts E D en0 k n st l : rlog (run hf h1 M E D en0 k n st) = Some l -> A l ->
    run hf h2 M E D en0 k n st = run hf h1 M E D en0 k n st /\ A (r_log st).
  Proof. intros H Al. unfold run in *. exact (loop_hosts E D en0 k n _ l H Al). Qed.
End Runs.

Lemma restore_log M s g log t st : restore M s g log t = Some st -> r_log st = log.
Proof.
  unfold restore. intros H. repeat match type of H with match ?x with _ => _ end = _ => destruct x; try discriminate end; injection H as <-; reflexivity.
Qed.
Section Sessions.
  Variables (hf : hostfp) (h1 h2 : hostfn) (sg : nat -> ftype) (ff : cls -> list Z -> option Z) (z : lz4) (F : list payload) (name : String.string) (ps : list (list Z)).
  Variable A : list event -> Prop.
  Hypothesis closed : forall e l, A (e :: l) -> A l.
  Hypothesis same : forall l, A l -> h2 l = h1 l.
  Lemma session_hosts how E D cr k n st : session hf h1 sg ff z how E D cr k n F name ps = inr (RCheckpoint st) -> A (r_log st) ->
    session hf h2 sg ff z how E D cr k n F name ps = inr (RCheckpoint st) /\ A (calls_before how).
  Proof.
    unfold session. destruct (instance sg F) as [x|]; [|discriminate]. intros H Al. destruct how as [|b log t].
    - destruct (get_export_func x name) as [f|]; [|discriminate]. destruct (parse_params ff ps) as [args|]; [|discriminate].
      destruct (start (mi_modul x) (mi_inst x) f args) as [s0|t|] eqn:ST; try discriminate. injection H as H.
      destruct (run_hosts hf h1 h2 (mi_modul x) A closed same E D cr k n s0 (r_log st)) as [E1 A1]; [now rewrite H|exact Al|].
      rewrite E1, H. split; auto. assert (L : r_log s0 = []); [|now rewrite L in A1].
      clear -ST. unfold start in ST. destruct (nth_error _ _) as [[fd|]|]; try discriminate. repeat (destruct (Nat.eqb _ _); try discriminate).
      repeat match type of ST with bind ?r _ = _ => destruct r; try discriminate; cbn [bind] in ST end. injection ST as <-. reflexivity.
    - unfold restore_bytes in *.
      destruct (get c_file b) as [[fl r]|]; [|discriminate]. destruct (restore (mi_modul x) (mi_inst x) (image_of z fl) log t) as [s0|] eqn:RS; [|match type of H with context[restore ?a ?b ?c ?d ?e] => destruct (restore a b c d e) end; discriminate H].
      destruct (Nat.ltb _ _); [discriminate|]. injection H as H.
      destruct (run_hosts hf h1 h2 (mi_modul x) A closed same E D cr k n s0 (r_log st)) as [E1 A1]; [now rewrite H|exact Al|].
      rewrite E1, H. split; auto. cbn [calls_before]. now rewrite <- (restore_log _ _ _ _ _ _ RS).
  Qed.
  Lemma history_hosts how : history hf h1 sg ff z F name ps how -> A (calls_before how) -> history hf h2 sg ff z F name ps how.
  Proof.
    induction 1 as [|how E D k n st b HI IH SS CB SB]; intros Al; [constructor|].
    destruct (session_hosts how E D true k n st SS Al) as [S2 A2]. econstructor; eauto.
  Qed.
End Sessions.
Lemma history_stopping hf host sg ff z F name ps k how : history hf host sg ff z F name ps how -> length (calls_before how) < k -> history hf (stopping k host) sg ff z F name ps how.
Proof.
  intros HI L. refine (history_hosts hf host (stopping k host) sg ff z F name ps (fun l => length l < k) _ _ how HI L).
  - intros e l0 H0. cbn [length] in H0. lia.
  - intros l0 L0. unfold stopping. now rewrite (proj2 (Nat.leb_gt _ _) L0).
Qed.

(** a call in the history was made *)
Lemma log_step hf host M c c' : step hf host M c = SNext c' -> c_log c' = c_log c \/ next_call hf M c = Some (c_log c').
Proof.
  intros S. destruct (next_call hf M c) as [l1|] eqn:N.
  - right. f_equal. symmetry. eapply step_call_log; eauto. now rewrite S.
  - left. destruct (step_nocall hf M host host c N) as [_ K]. apply K. now rewrite S.
Qed.
Lemma made_before hf host M n : forall c c', steps hf host M n c = inl c' -> c_log c' <> c_log c ->
  exists m c1, steps hf host M m c = inl c1 /\ next_call hf M c1 = Some (c_log c').
Proof.
  induction n as [|n IH]; intros c c' H NE; cbn [steps] in H; [injection H as <-; congruence|].
  destruct (step hf host M c) as [c1| | | |] eqn:ST; try discriminate.
  destruct (log_step hf host M c c1 ST) as [E|E].
  - destruct (IH c1 c' H) as (m & c2 & S2 & N2); [congruence|]. exists (S m), c2. split; auto. cbn [steps]. now rewrite ST.
  - assert (DEC : c_log c' = c_log c1 \/ length (c_log c1) < length (c_log c')).
    { clear -H. revert c1 H. induction n as [|n IHn]; intros c1 H; cbn [steps] in H; [injection H as <-; auto|].
      destruct (step hf host M c1) as [c2| | | |] eqn:ST; try discriminate. destruct (IHn c2 H) as [E|L]; destruct (log_step hf host M c1 c2 ST) as [E2|E2].
      - left. congruence.
      - right. destruct (next_cons hf M _ _ E2) as (e & E3). rewrite E, E3. cbn. lia.
      - right. now rewrite <- E2.
      - right. destruct (next_cons hf M _ _ E2) as (e & E3). rewrite E3 in L. cbn in L. lia. }
    destruct DEC as [EQ|L].
    + exists 0, c. split; [reflexivity|]. now rewrite EQ.
    + destruct (IH c1 c' H) as (m & c2 & S2 & N2); [intros X2; rewrite X2 in L; lia|]. exists (S m), c2. split; auto. cbn [steps]. now rewrite ST.
Qed.
