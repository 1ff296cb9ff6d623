(** The run loop with either dispatcher refines the instruction-level machine.  Proofs only. *)
From Coq Require Import ZArith List Bool Lia.
From Verif Require Import Word Value Float Mem Store Regs IR Machine Decoder Layout Properties_Layout ExecFacts SimState Runtime.
Import ListNotations.
Open Scope nat_scope.

(** ** the dispatchers agree where the label stack has its proper height *)
Lemma agree_advance hf M E C n : code_ok C -> forall p v, lv C v -> loop_dispatch hf M E C n p v = tco_advance hf M E C n p v.
Proof.
  intros K. induction n as [|n IH]; intros p v V; cbn [loop_dispatch tco_advance]; auto. destruct (poll E p) as [[] p']; auto.
  pose proof V as (V1 & V2 & V3). destruct (Nat.leb_spec (length C) (s_pc v)) as [L|L].
  - assert (EQ : s_pc v = length C) by lia. specialize (V2 EQ). unfold hstep.
    destruct (nth_error C (s_pc v)) eqn:N; [exfalso; assert (s_pc v < length C) by (apply nth_error_Some; congruence); lia|].
    rewrite EQ, Nat.eqb_refl. cbn [handled]. destruct (s_labels v) as [|l [|]]; cbn in V2; auto; lia.
  - pose proof (hstep_lv hf M C v K V) as H. destruct (hstep hf M C v); cbn [handled]; auto.
Qed.
Lemma agree_tco hf M E C n : code_ok C -> forall p v, lv C v -> tco_dispatch hf M E C n p v = tco_advance hf M E C n p v.
Proof.
  intros K p v V. destruct n as [|n]; cbn [tco_dispatch tco_advance]; auto. destruct (poll E p) as [[] p']; auto.
  pose proof V as (V1 & V2 & V3). destruct (Nat.leb_spec (length C) (s_pc v)) as [L|L]; auto.
  assert (EQ : s_pc v = length C) by lia. unfold hstep.
  destruct (nth_error C (s_pc v)) eqn:N; [exfalso; assert (s_pc v < length C) by (apply nth_error_Some; congruence); lia|].
  rewrite EQ, Nat.eqb_refl. reflexivity.
Qed.
Lemma dispatch_advance D hf M E C n p v : code_ok C -> lv C v -> dispatch D hf M E C n p v = tco_advance hf M E C n p v.
Proof. intros K V. destruct D; cbn [dispatch]; auto using agree_advance, agree_tco. Qed.

(** ** one frame *)
Definition at_v (c : config) (v : vs) : config := {| c_v := v; c_fn := c_fn c; c_n := c_n c; c_callers := c_callers c; c_log := c_log c |}.
Section Frame.
  Variables (hf : hostfp) (host : hostfn) (M : modul) (E : penv).
  Variables (c : config) (fd : fdef).
  Hypothesis NF : nth_error (md_funcs M) (c_fn c) = Some (FWasm fd).
  Lemma step_at v v' : hstep hf M (fd_code fd) v = HNext v' -> step hf host M (at_v c v) = SNext (at_v c v').
  Proof. intros H. unfold step. cbn [at_v c_fn c_v]. rewrite NF, H. reflexivity. Qed.
  Lemma advance_steps n : forall p v,
    match tco_advance hf M E (fd_code fd) n p v with
    | None => exists v', steps hf host M n (at_v c v) = inl (at_v c v')
    | Some (DCheckpoint v', _) => exists j, steps hf host M j (at_v c v) = inl (at_v c v')
    | Some (DHalt v', _) => exists j v1, steps hf host M j (at_v c v) = inl (at_v c v1) /\ hstep hf M (fd_code fd) v1 = HHalt v'
    | Some (DYield y v', _) => exists j v1, steps hf host M j (at_v c v) = inl (at_v c v1) /\ hstep hf M (fd_code fd) v1 = HYield y v'
    | Some (DTrap t, _) => exists j v1, steps hf host M j (at_v c v) = inl (at_v c v1) /\ hstep hf M (fd_code fd) v1 = HTrap t
    | Some (DUB, _) => exists j v1, steps hf host M j (at_v c v) = inl (at_v c v1) /\ hstep hf M (fd_code fd) v1 = HUB
    end.
  Proof.
    induction n as [|n IH]; intros p v; cbn [tco_advance]. { exists v. reflexivity. }
    destruct (poll E p) as [[] p']. { exists 0. reflexivity. }
    destruct (hstep hf M (fd_code fd) v) as [v1|v1|y v1|t|] eqn:H; cbn [handled]; try (exists 0, v; split; [reflexivity|exact H]).
    specialize (IH p' v1). pose proof (step_at _ _ H) as ST.
    destruct (tco_advance hf M E (fd_code fd) n p' v1) as [[[] t]|]; cbn [steps];
      repeat match goal with H : exists _, _ |- _ => destruct H | H : _ /\ _ |- _ => destruct H end.
    6: eexists; rewrite ST; eassumption.
    4: eexists (S _); cbn [steps]; rewrite ST; eassumption.
    all: eexists (S _), _; cbn [steps]; rewrite ST; split; eassumption.
  Qed.
End Frame.

(** ** one round *)
Definition config_of (st : rstate) : option config :=
  match r_frames st with
  | [] => None
  | (_, f) :: rest => Some {| c_v := resume f (r_rf st) (r_inst st) (f_ptr f); c_fn := f_fn f; c_n := f_n f;
                              c_callers := map snd rest; c_log := r_log st |}
  end.
(** a runtime state standing for a machine configuration *)
Definition rel (st : rstate) (c : config) : Prop := exists c1, config_of st = Some c1 /\ csim c1 c.
Lemma F2_refl l : Forall2 fsim l l. Proof. induction l; constructor; auto using fsim_refl. Qed.
Lemma F2_trans a b : Forall2 fsim a b -> forall c, Forall2 fsim b c -> Forall2 fsim a c.
Proof.
  induction 1 as [|x y a b H1 H2 IH]; intros c H; inversion H; subst; constructor; auto.
  destruct H1. match goal with H : fsim y _ |- _ => destruct H end. constructor; congruence.
Qed.
Lemma dsim_trans a b c : dsim a b -> dsim b c -> dsim a c.
Proof. intros [] []. constructor; unfold inst_sim in *; congruence. Qed.
Lemma vsim_trans a b c : vsim a b -> vsim b c -> vsim a c.
Proof. intros [] []. constructor; try congruence. eauto using dsim_trans. Qed.
Lemma csim_trans a b c : csim a b -> csim b c -> csim a c.
Proof. intros [] []. constructor; try congruence; eauto using vsim_trans, F2_trans. Qed.
Lemma vsim_sym a b : vsim a b -> vsim b a.
Proof. intros [[] ? ? ?]. constructor; auto. constructor; auto. unfold inst_sim in *; auto. Qed.
Lemma csim_sym a b : csim a b -> csim b a.
Proof.
  intros [V F N C L]. constructor; auto using vsim_sym. clear -C. induction C as [|x y l l' H1 H2 IH]; constructor; auto. destruct H1. constructor; auto.
Qed.

Lemma hstep_ret_labels hf M C v y v' : hstep hf M C v = HYield y v' -> s_labels v' = s_labels v.
Proof.
  unfold hstep. destruct (nth_error C (s_pc v)) as [i|]; [|destruct (Nat.eqb _ _); discriminate].
  intros H. destruct i; try discriminate H;
    try (match type of H with context[dstep hf ?i ?d] => destruct (dstep hf i d) as [[]|] end; discriminate H);
    unfold branch, end_halt in H;
    repeat match type of H with
    | hres ?r _ = _ => destruct r; cbn [hres] in H; try discriminate H
    | (if ?b then _ else _) = _ => destruct b; try discriminate H
    | match ?x with _ => _ end = _ => destruct x; try discriminate H
    | HYield _ _ = HYield _ _ => injection H as <- <-; reflexivity
    end.
Qed.

Section Round.
  Variables (hf : hostfp) (host : hostfn) (M : modul) (E : penv) (D : variant) (en0 : bool).
  Hypothesis MO : mod_ok M.
  Lemma round_sound k st c r : config_of st = Some c -> levels M c -> cptr c ->
    run_round hf host M E D en0 k st = r ->
    match r with
    | None => exists c', steps hf host M k c = inl c'
    | Some (RRun st') => exists j c', steps hf host M (S j) c = inl c' /\ rel st' c'
    | Some (RCheckpoint st') => exists j c', steps hf host M j c = inl c' /\ rel st' c'
    | Some (RDone vals s l) => exists j, steps hf host M j c = inr (Done vals s l)
    | Some (RExit z l) => exists j, steps hf host M j c = inr (Exited z l)
    | Some (RTrap t l) => exists j, steps hf host M j c = inr (Trapped t l)
    | Some RUB => exists j, steps hf host M j c = inr Undefined
    end.
  Proof.
    intros CO LV CP RR. unfold config_of in CO. destruct (r_frames st) as [|[en f] rest] eqn:FS; [discriminate|]. injection CO as <-.
    set (c := {| c_v := _ |}) in *. destruct LV as ((fd & NF & LVC) & FA). unfold run_round in RR. rewrite FS in RR.
    change (f_fn f) with (c_fn c) in RR. rewrite NF in RR. change (resume f (r_rf st) (r_inst st) (f_ptr f)) with (c_v c) in RR.
    rewrite dispatch_advance in RR by (eauto using (MO _ _ NF)).
    pose proof (advance_steps hf host M E c fd NF k {| p_en := en; p_cnt := 0; p_t := r_t st |} (c_v c)) as AD.
    change (at_v c (c_v c)) with c in AD.
    destruct (tco_advance hf M E (fd_code fd) k {| p_en := en; p_cnt := 0; p_t := r_t st |} (c_v c)) as [[o t]|]; [|subst r; destruct AD; eauto].
    assert (REACH : forall j v, steps hf host M j c = inl (at_v c v) -> lv (fd_code fd) v /\ ptr_ok (s_d v)).
    { intros j v H. split; [|exact (cptr_steps hf host M j c _ CP H)].
      assert (L : levels M (at_v c v)). { assert (L0 : levels M c) by (split; eauto). clear -MO L0 H. revert L0 H. generalize c at 1 2 as c0. intros c0. revert c0.
        induction j as [|j IH]; intros c0 L0 H; cbn [steps] in H; [congruence|]. destruct (step hf host M c0) eqn:S; try discriminate. eauto using levels_step. }
      destruct L as ((fd' & NF' & L) & _). cbn [at_v c_fn] in NF'. rewrite NF in NF'. injection NF' as <-. exact L. }
    assert (NEXT : forall j c1 o1, steps hf host M j c = inl c1 -> step hf host M c1 = o1 ->
              steps hf host M (S j) c = match o1 with SNext c2 => inl c2 | SDone a s l => inr (Done a s l) | SExit z l => inr (Exited z l) | STrap x l => inr (Trapped x l) | SUB => inr Undefined end).
    { intros j. clear -hf. generalize c as c0. induction j as [|j IH]; intros c0 c1 o1 H1 H2; cbn [steps] in *.
      - injection H1 as <-. rewrite H2. destruct o1; reflexivity.
      - destruct (step hf host M c0) eqn:S; try discriminate. rewrite (IH _ _ _ H1 H2). reflexivity. }
    assert (LEAVE : forall j v1 v', steps hf host M j c = inl (at_v c v1) -> step hf host M (at_v c v1) = leave c v' ->
       r = Some (match rest with
                | [] => rres (r_log st) (rf_get_vals (d_rf (s_d v')) (firstn (f_n f) (s_ret v'))) (fun vals => RDone vals (d_inst (s_d v')) (r_log st))
                | (en', g) :: rest' =>
                    rres (r_log st) (rf_get_vals (d_rf (s_d v')) (s_ret v')) (fun vals =>
                    rres (r_log st) (rf_set_vals (rf_restore (d_rf (s_d v'))) (f_res g) vals) (fun rf =>
                      RRun {| r_rf := rf; r_frames := (en', with_res (with_ptr g (cur_ptr (d_inst (s_d v')))) []) :: rest';
                              r_inst := d_inst (s_d v'); r_log := r_log st; r_t := t |}))
                end) ->
       match r with
       | None => exists c', steps hf host M k c = inl c'
       | Some (RRun st') => exists j c', steps hf host M (S j) c = inl c' /\ rel st' c'
       | Some (RCheckpoint st') => exists j c', steps hf host M j c = inl c' /\ rel st' c'
       | Some (RDone vals s l) => exists j, steps hf host M j c = inr (Done vals s l)
       | Some (RExit z l) => exists j, steps hf host M j c = inr (Exited z l)
       | Some (RTrap t l) => exists j, steps hf host M j c = inr (Trapped t l)
       | Some RUB => exists j, steps hf host M j c = inr Undefined
       end).
    { intros j v1 v' H1 H2 ->. pose proof (NEXT _ _ _ H1 H2) as H3. unfold leave in H3. cbn [c c_callers c_log c_n] in H3.
      destruct rest as [|[en' g] rest']; cbn [map] in H3.
      - destruct (rf_get_vals _ _); cbn [rres sres] in *; eauto.
      - cbn [snd] in H3. destruct (rf_get_vals _ _); cbn [rres sres] in *; eauto. destruct (rf_set_vals _ _ _); cbn [rres sres] in *; eauto.
        exists j. eexists. split; [exact H3|]. eexists. split; [reflexivity|].
        constructor; cbn; auto using F2_refl. constructor; cbn; auto. constructor; cbn; auto; reflexivity. }
    destruct o as [v'|[|w args rr|g args rs] v'|x|v'|].
    - destruct AD as (j & v1 & H1 & H2). eapply (LEAVE j v1 v'); eauto. unfold step. cbn [at_v c_fn c_v]. rewrite NF, H2. reflexivity.
    - destruct AD as (j & v1 & H1 & H2). eapply (LEAVE j v1 v'); eauto. unfold step. cbn [at_v c_fn c_v]. rewrite NF, H2. reflexivity.
    - destruct AD as (j & v1 & H1 & H2). destruct (REACH _ _ H1) as [L1 P1].
      assert (ST : step hf host M (at_v c v1) = call_host host (at_v c v1) v' w args rr). { unfold step. cbn [at_v c_fn c_v]. rewrite NF, H2. reflexivity. }
      pose proof (NEXT _ _ _ H1 ST) as H3. subst r.
      assert (PO : ptr_ok (s_d v')). { pose proof (hstep_sim hf M (fd_code fd) v1 v1 (vsim_refl _ P1)) as X. rewrite H2 in X. destruct X as [_ [[] _ _ _]]. auto. }
      assert (NE : s_labels v' <> []). { rewrite (hstep_ret_labels _ _ _ _ _ _ H2). intros X. pose proof (level_ne _ _ _ (MO _ _ NF) L1) as Y. rewrite X in Y. apply Y. reflexivity. }
      unfold call_host in H3. cbn [at_v c c_log] in H3. destruct (host _) as [| | |z|o ws]; cbn [rres sres] in *; eauto. cbn [set_inst d_rf] in H3.
      match type of H3 with context [sres _ ?r _] => destruct r as [rf| |] end; cbn [rres sres] in *; eauto.
      exists j. eexists. split; [exact H3|]. eexists. split; [reflexivity|]. constructor; cbn; auto using F2_refl.
      constructor; cbn; auto using set_ip_labs, set_ip_top. constructor; cbn; auto; try reflexivity; unfold ptr_ok; cbn; rewrite writes_ptr; exact PO.
    - destruct AD as (j & v1 & H1 & H2). destruct (REACH _ _ H1) as [L1 P1].
      assert (ST : step hf host M (at_v c v1) = match nth_error (md_funcs M) g with
          | Some (FWasm gd) => enter (at_v c v1) v' g gd args rs | Some (FWasi _ _) => STrap TBadOperand (c_log c) | None => SUB end). { unfold step. cbn [at_v c_fn c_v]. rewrite NF, H2. reflexivity. }
      pose proof (NEXT _ _ _ H1 ST) as H3. subst r. destruct (nth_error (md_funcs M) g) as [[gd|]|]; cbn [c c_log] in H3; eauto.
      unfold enter in H3. cbn [at_v c c_log c_callers] in H3. destruct (default_locals _); cbn [rres sres] in *; eauto.
      assert (NE : s_labels v' <> []). { rewrite (hstep_ret_labels _ _ _ _ _ _ H2). intros X. pose proof (level_ne _ _ _ (MO _ _ NF) L1) as Y. rewrite X in Y. apply Y. reflexivity. }
      exists j. eexists. split; [exact H3|]. eexists. split; [reflexivity|]. constructor; cbn; auto.
      + constructor; cbn; auto. constructor; cbn; auto; reflexivity.
      + constructor; [|apply F2_refl]. constructor; cbn; auto.
    - destruct AD as (j & v1 & H1 & H2). subst r. exists (S j). apply (NEXT _ _ (STrap x (r_log st)) H1). unfold step. cbn [at_v c_fn c_v]. rewrite NF, H2. reflexivity.
    - destruct AD as (j & H1). destruct (REACH _ _ H1) as [L1 P1]. subst r. exists j. eexists. split; [exact H1|]. eexists. split; [reflexivity|].
      assert (NE : s_labels v' <> []). { intros X. pose proof (level_ne _ _ _ (MO _ _ NF) L1) as Y. rewrite X in Y. apply Y. reflexivity. }
      constructor; cbn; auto using F2_refl. constructor; cbn; auto using set_ip_labs, set_ip_top. constructor; cbn; auto; try reflexivity.
    - destruct AD as (j & v1 & H1 & H2). subst r. exists (S j). apply (NEXT _ _ SUB H1). unfold step. cbn [at_v c_fn c_v]. rewrite NF, H2. reflexivity.
  Qed.
End Round.

(** ** whole runs *)
Lemma levels_sim M c c' : csim c c' -> levels M c -> levels M c'.
Proof.
  intros [[D L R P] F N C G] ((fd & NF & V) & FA). split.
  - exists fd. split; [congruence|]. unfold lv in *. rewrite <- P, <- (labs_len _ _ L). exact V.
  - clear -C FA. revert FA. induction C as [|f f' fs fs' H1 H2 IH]; intros FA; constructor; inversion FA; subst; auto.
    destruct H1 as [A _ B G _ _ _]. match goal with H : exists _, _ |- _ => destruct H as (fd & X & Y) end. exists fd. rewrite <- A, <- G, <- (labs_len _ _ B). auto.
Qed.
(** the outcome of a run, without the identity of the memory allocation *)
Definition observe (r : rout) : option outcome :=
  match r with
  | RDone vals s l => Some (Done vals (erase s) l)
  | RExit z l => Some (Exited z l)
  | RTrap t l => Some (Trapped t l)
  | RUB => Some Undefined
  | RRun _ | RCheckpoint _ => None
  end.
Definition erase_out (o : outcome) : outcome := match o with Done vals s l => Done vals (erase s) l | o => o end.
Lemma osim_erase o o' : osim o o' <-> erase_out o = erase_out o'.
Proof.
  destruct o, o'; cbn; unfold inst_sim; split; intros H; try contradiction; try discriminate; auto.
  - destruct H as (-> & H & ->). now rewrite H.
  - assert (X : forall v s l v' s' l', Done v (erase s) l = Done v' (erase s') l' -> v = v' /\ erase s = erase s' /\ l = l').
    { clear. intros v s l v' s' l' H. remember (erase s). remember (erase s'). injection H. auto. }
    now apply X.
  - destruct H as [-> ->]. reflexivity.
  - injection H as -> ->. auto.
  - destruct H as [-> ->]. reflexivity.
  - injection H as -> ->. auto.
Qed.
Section Whole.
  Variables (hf : hostfp) (host : hostfn) (M : modul) (E : penv) (D : variant) (en0 : bool).
  Hypothesis MO : mod_ok M.
  Lemma levels_steps n : forall c c', levels M c -> steps hf host M n c = inl c' -> levels M c'.
  Proof. induction n as [|n IH]; intros c c' L H; cbn [steps] in H; [congruence|]. destruct (step hf host M c) eqn:S; try discriminate. eauto using levels_step. Qed.
  Lemma steps_app a : forall b c c1, steps hf host M a c = inl c1 -> steps hf host M (a + b) c = steps hf host M b c1.
  Proof. induction a as [|a IH]; intros b c c1 H; cbn [steps Nat.add] in *; [congruence|]. destruct (step hf host M c); try discriminate. auto. Qed.
  Lemma steps_le a b c c1 : b <= a -> steps hf host M a c = inl c1 -> exists c2, steps hf host M b c = inl c2.
  Proof.
    intros L H. destruct (steps hf host M b c) as [c2|o] eqn:X; eauto. apply (steps_stable hf host M b _ _ (a - b)) in X. replace (b + (a - b)) with a in X by lia. congruence.
  Qed.
  Lemma run_sound k n : forall st c, rel st c -> levels M c ->
    match run_loop hf host M E D en0 k n st with
    | RRun _ => exists j c', Nat.min k n <= j /\ steps hf host M j c = inl c'
    | RCheckpoint st' => exists j c', steps hf host M j c = inl c' /\ rel st' c'
    | r => exists j o, steps hf host M j c = inr o /\ observe r = Some (erase_out o)
    end.
  Proof.
    induction n as [|n IH]; intros st c RL LV; cbn [run_loop].
    { exists 0, c. split; [lia|reflexivity]. }
    destruct RL as (c1 & CO & CS). pose proof (csim_ptr _ _ CS) as [P1 _]. pose proof (levels_sim M c c1 (csim_sym _ _ CS) LV) as LV1.
    pose proof (round_sound hf host M E D en0 MO k st c1 _ CO LV1 P1 eq_refl) as RS.
    assert (FIN : forall j o, steps hf host M j c1 = inr o -> exists o', steps hf host M j c = inr o' /\ erase_out o = erase_out o').
    { intros j o H. pose proof (steps_sim hf host M j _ _ CS) as X. rewrite H in X. destruct (steps hf host M j c) as [|o']; [contradiction|]. exists o'. split; auto. now apply osim_erase. }
    assert (MID : forall j d, steps hf host M j c1 = inl d -> exists d', steps hf host M j c = inl d' /\ csim d d').
    { intros j d H. pose proof (steps_sim hf host M j _ _ CS) as X. rewrite H in X. destruct (steps hf host M j c) as [d'|]; [|contradiction]. eauto. }
    destruct (run_round hf host M E D en0 k st) as [[st'|vals s l|z l|t l|st'|]|].
    - destruct RS as (j & d & H & (c2 & C2 & S2)). destruct (MID _ _ H) as (d' & H' & S').
      assert (RL' : rel st' d') by (exists c2; split; auto; eapply csim_trans; eauto).
      assert (LV' : levels M d') by exact (levels_steps (S j) c d' LV H').
      specialize (IH st' d' RL' LV'). destruct (run_loop hf host M E D en0 k n st') as [st2|? ? ?|? ?|? ?|st2|].
      + destruct IH as (i & c' & L & I). exists (S j + i), c'. split; [lia|]. rewrite (steps_app _ _ _ _ H'); auto.
      + destruct IH as (i & o & I & O). exists (S j + i), o. split; auto. rewrite (steps_app _ _ _ _ H'); auto.
      + destruct IH as (i & o & I & O). exists (S j + i), o. split; auto. rewrite (steps_app _ _ _ _ H'); auto.
      + destruct IH as (i & o & I & O). exists (S j + i), o. split; auto. rewrite (steps_app _ _ _ _ H'); auto.
      + destruct IH as (i & c' & I & O). exists (S j + i), c'. split; auto. rewrite (steps_app _ _ _ _ H'); auto.
      + destruct IH as (i & o & I & O). exists (S j + i), o. split; auto. rewrite (steps_app _ _ _ _ H'); auto.
    - destruct RS as (j & H). destruct (FIN _ _ H) as (o' & H' & EQ). exists j, o'. split; auto. cbn [observe]. rewrite <- EQ. reflexivity.
    - destruct RS as (j & H). destruct (FIN _ _ H) as (o' & H' & EQ). exists j, o'. split; auto. cbn [observe]. rewrite <- EQ. reflexivity.
    - destruct RS as (j & H). destruct (FIN _ _ H) as (o' & H' & EQ). exists j, o'. split; auto. cbn [observe]. rewrite <- EQ. reflexivity.
    - destruct RS as (j & d & H & (c2 & C2 & S2)). destruct (MID _ _ H) as (d' & H' & S'). exists j, d'. split; auto. exists c2. split; auto. eapply csim_trans; eauto.
    - destruct RS as (j & H). destruct (FIN _ _ H) as (o' & H' & EQ). exists j, o'. split; auto. cbn [observe]. rewrite <- EQ. reflexivity.
    - destruct RS as (d & H). destruct (MID _ _ H) as (d' & H' & S'). exists k, d'. split; [lia|auto].
  Qed.
  (** a run that is never stopped for a checkpoint ends exactly as the machine does *)
  Lemma run_complete st c : rel st c -> levels M c -> (forall k n st', run_loop hf host M E D en0 k n st <> RCheckpoint st') ->
    forall o, (exists j o', steps hf host M j c = inr o' /\ erase_out o' = o) <-> (exists k n, observe (run_loop hf host M E D en0 k n st) = Some o).
  Proof.
    intros RL LV NC o. split.
    - intros (j & o' & H & <-). exists j, j. pose proof (run_sound j j st c RL LV) as RS. pose proof (NC j j) as NC'.
      destruct (run_loop hf host M E D en0 j j st) as [st2|? ? ?|? ?|? ?|st2|].
      + destruct RS as (i & c' & L & I). apply (steps_le i j) in I as (c2 & I); [congruence|lia].
      + destruct RS as (i & o & I & O). rewrite O. f_equal. f_equal. eapply steps_unique; eauto.
      + destruct RS as (i & o & I & O). rewrite O. f_equal. f_equal. eapply steps_unique; eauto.
      + destruct RS as (i & o & I & O). rewrite O. f_equal. f_equal. eapply steps_unique; eauto.
      + now destruct (NC' st2).
      + destruct RS as (i & o & I & O). rewrite O. f_equal. f_equal. eapply steps_unique; eauto.
    - intros (k & n & H). pose proof (run_sound k n st c RL LV) as RS.
      destruct (run_loop hf host M E D en0 k n st) as [st2|? ? ?|? ?|? ?|st2|]; try discriminate H;
        destruct RS as (i & o' & I & O); exists i, o'; split; auto; congruence.
  Qed.
End Whole.

(** ** starting, flags, polls *)
Lemma outermost_snd e fs : map snd (set_outermost e fs) = map snd fs.
Proof.
  unfold set_outermost. destruct (rev fs) as [|[b f] r] eqn:R.
  - apply (f_equal (@rev _)) in R. rewrite rev_involutive in R. now rewrite R.
  - apply (f_equal (@rev _)) in R. rewrite rev_involutive in R. subst fs. cbn. rewrite !map_app. reflexivity.
Qed.
Definition armed (e : bool) (st : rstate) : rstate :=
  {| r_rf := r_rf st; r_frames := set_outermost e (r_frames st); r_inst := r_inst st; r_log := r_log st; r_t := r_t st |}.
Lemma config_of_snd st st' : r_rf st = r_rf st' -> map snd (r_frames st) = map snd (r_frames st') -> r_inst st = r_inst st' -> r_log st = r_log st' ->
  config_of st = config_of st'.
Proof.
  intros A B C D. unfold config_of. destruct (r_frames st) as [|[b f] r], (r_frames st') as [|[b' f'] r']; cbn in B; try discriminate; auto.
  injection B as -> B. now rewrite A, B, C, D.
Qed.
Lemma rel_armed e st c : rel (armed e st) c <-> rel st c.
Proof. unfold rel. rewrite (config_of_snd (armed e st) st); cbn; auto using outermost_snd. tauto. Qed.
Lemma start_initial M s f args st : start M s f args = Ok st -> exists c, initial M s f args = Ok c /\ rel st c.
Proof.
  unfold start, initial. destruct (nth_error (md_funcs M) f) as [[fd|]|]; try discriminate. destruct (Nat.eqb _ _); try discriminate.
  intros H. injection H as <-. eexists. split; [reflexivity|]. eexists. split; [reflexivity|]. constructor; cbn; auto. constructor; cbn; auto. constructor; cbn; auto; reflexivity.
Qed.
Lemma levels_initial M s f args c : mod_ok M -> initial M s f args = Ok c -> levels M c.
Proof.
  intros MO H. unfold initial in H. destruct (nth_error (md_funcs M) f) as [[fd|]|] eqn:N; try discriminate. destruct (Nat.eqb _ _); [|discriminate]. injection H as <-.
  split; [|constructor]. exists fd. split; auto. unfold lv, level. cbn. rewrite height_0. destruct (MO _ _ N) as (_ & L & _). lia.
Qed.

(** polls that find nothing *)
Definition quiet (E : penv) (en : bool) : Prop := en = false \/ forall t, request E t = false.
Lemma poll_quiet E p : quiet E (p_en p) -> fst (poll E p) = false /\ p_en (snd (poll E p)) = p_en p.
Proof.
  intros Q. unfold poll. destruct (p_en p) eqn:EN; cbn; [|auto]. destruct Q as [Q|Q]; [discriminate|]. rewrite Q.
  destruct (atomics E); cbn; rewrite ?andb_false_r; auto.
Qed.
Lemma advance_quiet hf M E C n : forall p v, quiet E (p_en p) -> forall v' t, tco_advance hf M E C n p v <> Some (DCheckpoint v', t).
Proof.
  induction n as [|n IH]; intros p v Q v' t; cbn [tco_advance]; [discriminate|]. pose proof (poll_quiet E p Q) as [A B]. destruct (poll E p) as [b p']. cbn in A, B. subst b.
  destruct (hstep hf M C v); cbn [handled]; try discriminate. apply IH. now rewrite B.
Qed.
Lemma loop_quiet hf M E C n : forall p v, quiet E (p_en p) -> forall v' t, loop_dispatch hf M E C n p v <> Some (DCheckpoint v', t).
Proof.
  induction n as [|n IH]; intros p v Q v' t; cbn [loop_dispatch]; [discriminate|]. pose proof (poll_quiet E p Q) as [A B]. destruct (poll E p) as [b p']. cbn in A, B. subst b.
  destruct (Nat.leb _ _).
  - destruct (s_labels v) as [|l [|]]; try discriminate. destruct (Nat.leb _ _ && _); try discriminate. apply IH. now rewrite B.
  - destruct (hstep hf M C v); cbn [handled]; try discriminate. apply IH. now rewrite B.
Qed.
Lemma dispatch_quiet D hf M E C n p v v' t : quiet E (p_en p) -> dispatch D hf M E C n p v <> Some (DCheckpoint v', t).
Proof.
  intros Q. destruct D; cbn [dispatch]; [now apply loop_quiet|]. destruct n as [|n]; cbn [tco_dispatch]; [discriminate|].
  pose proof (poll_quiet E p Q) as [A B]. destruct (poll E p) as [b p']. cbn in A, B. subst b. destruct (Nat.leb _ _); [discriminate|].
  destruct (hstep hf M C v); cbn [handled]; try discriminate. apply advance_quiet. now rewrite B.
Qed.
(** every frame's flag is one of the given *)
Definition flags (st : rstate) (P : bool -> Prop) : Prop := Forall (fun f => P (fst f)) (r_frames st).
Lemma round_flags hf host M E D en0 k st st' P : flags st P -> P en0 -> run_round hf host M E D en0 k st = Some (RRun st') -> flags st' P.
Proof.
  unfold flags, run_round. intros F P0 H. destruct (r_frames st) as [|[en f] rest]; [discriminate|]. inversion F as [|? ? F1 F2]; subst.
  destruct (nth_error (md_funcs M) (f_fn f)) as [[fd|]|]; try discriminate. destruct (dispatch _ _ _ _ _ _ _ _) as [[o t]|]; [|discriminate].
  destruct o as [v|[|w a r|g a rs] v|x|v|]; try discriminate; try (injection H as H).
  1,2: destruct rest as [|[en' g] rest']; [destruct (rf_get_vals _ _); discriminate|]; destruct (rf_get_vals _ _); cbn [rres] in H; try discriminate;
    destruct (rf_set_vals _ _ _); cbn [rres] in H; try discriminate; injection H as <-; inversion F2; subst; constructor; auto.
  - destruct (host _); try discriminate. match type of H with rres _ ?r _ = _ => destruct r end; cbn [rres] in H; try discriminate. injection H as <-. constructor; auto.
  - destruct (nth_error (md_funcs M) g) as [[gd|]|]; try discriminate. destruct (default_locals _); cbn [rres] in H; try discriminate. injection H as <-. repeat constructor; auto.
Qed.
Lemma run_quiet hf host M E D en0 k n : forall st, flags st (quiet E) -> quiet E en0 -> forall st', run_loop hf host M E D en0 k n st <> RCheckpoint st'.
Proof.
  induction n as [|n IH]; intros st F Q st'; cbn [run_loop]; [discriminate|].
  destruct (run_round hf host M E D en0 k st) as [[st1|? ? ?|? ?|? ?|st1|]|] eqn:R; try discriminate.
  - apply IH; auto. eapply round_flags; eauto.
  - exfalso. unfold run_round in R. unfold flags in F. destruct (r_frames st) as [|[en f] rest]; [discriminate|]. inversion F as [|? ? F1 F2]; subst.
    destruct (nth_error (md_funcs M) (f_fn f)) as [[fd|]|]; try discriminate.
    destruct (dispatch _ _ _ _ _ _ _ _) as [[o t]|] eqn:DI; [|discriminate]. destruct o as [v|[|w a r|g a rs] v|x|v|]; try discriminate.
    1,2: injection R as R; destruct rest as [|[en' g] rest']; [destruct (rf_get_vals _ _); discriminate|]; destruct (rf_get_vals _ _); cbn [rres] in R; try discriminate; destruct (rf_set_vals _ _ _); discriminate.
    + injection R as R. destruct (host _); try discriminate. match type of R with rres _ ?r _ = _ => destruct r end; discriminate.
    + injection R as R. destruct (nth_error (md_funcs M) g) as [[gd|]|]; try discriminate. destruct (default_locals _); discriminate.
    + eapply dispatch_quiet in DI; auto.
Qed.
Lemma armed_flags e st (P : bool -> Prop) : flags st P -> P e -> flags (armed e st) P.
Proof.
  unfold flags, armed. cbn. unfold set_outermost. intros F Pe. destruct (rev (r_frames st)) as [|[b f] r] eqn:R; [constructor|].
  apply (f_equal (@rev _)) in R. rewrite rev_involutive in R. rewrite R in F. cbn in *. apply Forall_app in F as [F1 F2]. apply Forall_app. split; auto.
Qed.
(** the environment does not matter when polling is disabled *)
Lemma poll_off E E' p : p_en p = false -> poll E p = poll E' p.
Proof. intros H. unfold poll. now rewrite H. Qed.
Lemma poll_off_en E p : p_en p = false -> p_en (snd (poll E p)) = false.
Proof. intros H. unfold poll. rewrite H. cbn. auto. Qed.
Lemma advance_off hf M E E' C n : forall p v, p_en p = false -> tco_advance hf M E C n p v = tco_advance hf M E' C n p v.
Proof.
  induction n as [|n IH]; intros p v Q; cbn [tco_advance]; auto. rewrite (poll_off E E' p Q). pose proof (poll_off_en E' p Q). destruct (poll E' p) as [[] p']; auto.
  destruct (hstep hf M C v); cbn [handled]; auto.
Qed.
Lemma loop_off hf M E E' C n : forall p v, p_en p = false -> loop_dispatch hf M E C n p v = loop_dispatch hf M E' C n p v.
Proof.
  induction n as [|n IH]; intros p v Q; cbn [loop_dispatch]; auto. rewrite (poll_off E E' p Q). pose proof (poll_off_en E' p Q). destruct (poll E' p) as [[] p']; auto.
  destruct (Nat.leb _ _).
  - destruct (s_labels v) as [|l [|]]; auto. destruct (Nat.leb _ _ && _); auto.
  - destruct (hstep hf M C v); cbn [handled]; auto.
Qed.
Lemma dispatch_off D hf M E E' C n p v : p_en p = false -> dispatch D hf M E C n p v = dispatch D hf M E' C n p v.
Proof.
  intros Q. destruct D; cbn [dispatch]; [now apply loop_off|]. destruct n as [|n]; cbn [tco_dispatch]; auto.
  rewrite (poll_off E E' p Q). pose proof (poll_off_en E' p Q). destruct (poll E' p) as [[] p']; auto. destruct (Nat.leb _ _); auto.
  destruct (hstep hf M C v); cbn [handled]; auto using advance_off.
Qed.
Lemma run_off hf host M E E' D k n : forall st, flags st (fun b => b = false) -> run_loop hf host M E D false k n st = run_loop hf host M E' D false k n st.
Proof.
  induction n as [|n IH]; intros st F; cbn [run_loop]; auto.
  assert (R : run_round hf host M E D false k st = run_round hf host M E' D false k st).
  { unfold run_round. unfold flags in F. destruct (r_frames st) as [|[en f] rest]; auto. inversion F as [|? ? F1 F2]; subst. cbn in F1. subst en.
    destruct (nth_error (md_funcs M) (f_fn f)) as [[fd|]|]; auto. rewrite (dispatch_off D hf M E E') by reflexivity. reflexivity. }
  rewrite R. destruct (run_round hf host M E' D false k st) as [[st1|? ? ?|? ?|? ?|st1|]|] eqn:RR; auto. apply IH. eapply round_flags; eauto.
Qed.
