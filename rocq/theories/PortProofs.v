(** Executions on hosts with different floating point (no modelled code): for Properties_Port.v. *)
From Coq Require Import ZArith List Bool Lia.
From Verif Require Import Word Value Numeric Float FloatProofs Mem WasmNum WasmFloat WasmMem Store Regs RegsProofs IR Machine Wasm WasmPrims PrimFacts Soundness Decoder Check FrameFacts ExecFacts Runtime SimState RuntimeProofs MigrationProofs Layout Properties_Layout Properties_Runtime EmitTyped RangeProofs RoundSpec RoundProofs Properties_Ieee NanSpec.
Import ListNotations.
Open Scope nat_scope.

Section Two.
  Variables (hf hf' : hostfp).
  Hypotheses (S1 : standard_fp hf) (S2 : standard_fp hf').
  Lemma nan_f f z : ~ nan_value (fval f z) -> is_num (ff f) z. Proof. destruct f; cbn; auto. Qed.
  Lemma sop_agree o s args : Forall2 has_type (sop_args o) args ->
    (rounding o = true -> forall s' v, sop_eval hf o s args = Ok (s', Some v) -> ~ nan_value v) ->
    sop_eval hf' o s args = sop_eval hf o s args.
  Proof.
    intros A N. destruct (C71_determined hf' hf S2 S1) as (DB & DU & DC & DD & DP).
    destruct o as [o|o|c|op off|op off| | | |k| |k|t i|t i|t| |t e|t e|t e]; try reflexivity.
    - destruct o as [w o|w|f [r| |]]; try reflexivity. cbn [sop_args op1_arg] in A. apply f2_1 in A as (a & -> & A).
      destruct (flt_arg f a A) as (z & -> & Hz & _). cbn [sop_eval op1_eval] in *. rewrite payload_f in *.
      specialize (N eq_refl _ _ eq_refl). apply nan_f in N. rewrite (DU (ff f) r z (in_formats f) Hz (or_intror N)). reflexivity.
    - destruct o as [w o|w o|f [r| | |]|f o]; try reflexivity. cbn [sop_args op2_arg] in A. apply f2_2 in A as (a & b & -> & A & B).
      destruct (flt_arg f a A) as (z & -> & Hz & _). destruct (flt_arg f b B) as (y & -> & Hy & _). cbn [sop_eval op2_eval bind] in *. rewrite !payload_f in *.
      specialize (N eq_refl _ _ eq_refl). apply nan_f in N. rewrite (DB (ff f) r z y (in_formats f) Hz Hy (or_intror N)). reflexivity.
    - destruct c; try reflexivity; cbn [sop_args cvt_arg] in A; apply f2_1 in A as (a & -> & A).
      + cbn [sop_eval cvt_eval bind]. now rewrite (DC (ff f) _ (in_formats f)).
      + destruct (flt_arg FT64 a A) as (z & -> & Hz & _). cbn [sop_eval cvt_eval bind fval payload] in *.
        specialize (N eq_refl _ _ eq_refl). rewrite (DD z Hz (or_intror N)). reflexivity.
      + destruct (flt_arg FT32 a A) as (z & -> & Hz & _). cbn [sop_eval cvt_eval bind fval payload] in *.
        specialize (N eq_refl _ _ eq_refl). rewrite (DP z Hz (or_intror N)). reflexivity.
  Qed.
  Lemma dstep_agree i d : fine i -> dok d ->
    (forall o t srcs args s v, i = IOp o t srcs -> rounding o = true -> read_all d (map class_of (sop_args o)) srcs = Ok args -> sop_eval hf o (d_inst d) args = Ok (s, Some v) -> ~ nan_value v) ->
    dstep hf' i d = dstep hf i d.
  Proof.
    intros FI D N. destruct i; try reflexivity. cbn [dstep]. destruct (_ && _); [reflexivity|]. f_equal.
    destruct (read_all d (map class_of (sop_args o)) srcs) as [args| |] eqn:R; try reflexivity. cbn [bind].
    destruct FI as [_ FI]. rewrite (sop_agree o (d_inst d) args); [reflexivity | eapply read_all_dok; eauto |]. intros RO s' v E. eapply N; eauto.
  Qed.
  Lemma hstep_agree M C v : Forall fine C -> dok (s_d v) ->
    (forall o t srcs args s x, nth_error C (s_pc v) = Some (IOp o t srcs) -> rounding o = true -> read_all (s_d v) (map class_of (sop_args o)) srcs = Ok args -> sop_eval hf o (d_inst (s_d v)) args = Ok (s, Some x) -> ~ nan_value x) ->
    hstep hf' M C v = hstep hf M C v.
  Proof.
    intros CK D N. unfold hstep. destruct (nth_error C (s_pc v)) as [i|] eqn:NI; [|reflexivity].
    assert (FI : fine i) by (rewrite Forall_forall in CK; apply CK; eapply nth_error_In; eauto).
    assert (E : dstep hf' i (s_d v) = dstep hf i (s_d v)) by (apply dstep_agree; auto; intros; subst; eapply N; eauto).
    destruct i; try reflexivity; now rewrite E.
  Qed.
End Two.

(** ** values stay in the ranges of their types *)
Lemma branch_dok v n t src tgt v' : dok (s_d v) -> hv (branch v n t src tgt) = Some v' -> dok (s_d v').
Proof.
  intros [A O B G]. unfold branch. intros H. apply hres_inv in H as (rf & H1 & H). injection H as <-.
  assert (K : rok rf /\ off_ok rf).
  { destruct src; [injection H1 as <-; auto|]. destruct tgt; [injection H1 as <-; auto|]. split; [eapply rok_copies; eauto|eapply off_wr; [eapply wr_copies; eauto|exact O]]. }
  destruct K. constructor; cbn; auto.
Qed.
Lemma end_halt_dok n v src v' : dok (s_d v) -> hv (end_halt n v src) = Some v' -> dok (s_d v').
Proof. intros D H. unfold end_halt in H. apply hres_inv in H as (rs & H1 & H). injection H as <-. exact D. Qed.
Lemma hstep_dok hf M C v v' : hostfp_ok hf -> Forall fine C -> dok (s_d v) -> hv (hstep hf M C v) = Some v' -> dok (s_d v').
Proof.
  intros HF CK D. unfold hstep. destruct (nth_error C (s_pc v)) as [i|] eqn:N; [|destruct (Nat.eqb _ _); intros H; [injection H as <-; auto|discriminate]].
  assert (FI : fine i) by (rewrite Forall_forall in CK; apply CK; eapply nth_error_In; eauto).
  intros H. destruct i;
    try (match type of H with context[dstep hf ?i ?d] => destruct (dstep hf i d) as [[d'| |]|] eqn:E; try discriminate H; injection H as <-; cbn [s_d]; eapply dstep_dok; eauto end; fail);
    try (hinv H; injection H as <-; exact D).
  - destruct (Nat.leb _ _); [eapply end_halt_dok; eauto|]. apply hres_inv in H as (rf & H1 & H). cbn zeta in H.
    assert (V' : dok (set_rf (s_d v) rf)).
    { destruct D as [A O B G]. constructor; cbn; auto; [eapply rok_copies; eauto|eapply off_wr; [eapply wr_copies; eauto|exact O]]. }
    destruct (_ && _); [eapply end_halt_dok; [|exact H]; exact V'|]. injection H as <-. exact V'.
  - eapply branch_dok; eauto.
  - apply hres_inv in H as (k & _ & H). destruct (Z.eqb _ _); [injection H as <-; auto|eapply branch_dok; eauto].
  - apply hres_inv in H as (k & _ & H). match type of H with context [match ?x with (_, _) => _ end] => destruct x as [[dd tt] rr] end. eapply branch_dok; eauto.
Qed.
Lemma hstep_args hf M C v g args rs v' : dok (s_d v) -> hstep hf M C v = HYield (YInvoke g args rs) v' -> Forall val_ok args.
Proof.
  intros D H. pose proof D as [A _ _ _]. unfold hstep in H. destruct (nth_error C (s_pc v)) as [i|]; [|destruct (Nat.eqb _ _); discriminate].
  destruct i;
    try (match type of H with context[dstep hf ?i ?d] => destruct (dstep hf i d) as [[d'| |]|]; discriminate H end; fail);
    try discriminate H; unfold branch, end_halt in H;
    repeat match type of H with
    | hres ?r _ = _ => destruct r eqn:?; cbn [hres] in H; try discriminate H
    | match ?x with _ => _ end = _ => destruct x eqn:?; try discriminate H
    | (if ?b then _ else _) = _ => destruct b; try discriminate H
    end; injection H; intros; subst; eapply rok_get_vals; eauto.
Qed.
Record cgood (M : modul) (c : config) : Prop := { cd_v : dok (s_d (c_v c)); cd_f : Forall (fun f => Forall val_ok (f_loc f)) (c_callers c) }.
Lemma step_good hf host M c c' : hostfp_ok hf -> host_ok host -> fines M -> cgood M c -> step hf host M c = SNext c' -> cgood M c'.
Proof.
  intros HF HO FM [D FS] H. unfold step in H. destruct (nth_error (md_funcs M) (c_fn c)) as [[fd|]|] eqn:NF; try discriminate.
  pose proof (FM _ _ NF) as CK. pose proof (hstep_dok hf M (fd_code fd) (c_v c)) as HD.
  assert (LV : forall v, dok (s_d v) -> leave c v = SNext c' -> cgood M c').
  { intros v [A O B G] L. unfold leave in L. destruct (c_callers c) as [|f fs].
    - destruct (rf_get_vals _ _); discriminate.
    - inversion FS; subst. destruct (rf_get_vals _ _) as [vals| |] eqn:E1; cbn [sres] in L; try discriminate. destruct (rf_set_vals _ _ _) as [rf| |] eqn:E2; cbn [sres] in L; try discriminate. injection L as <-.
      constructor; cbn; auto. constructor; cbn; auto.
      + eapply rok_set_vals; [apply rok_restore; exact A|eapply rok_get_vals; eauto|exact E2].
      + eapply off_wr; [eapply wr_set_vals; exact E2|]. now apply off_restore. }
  destruct (hstep hf M (fd_code fd) (c_v c)) as [v|v|[|w args r|g args rs] v|t|] eqn:HS; try discriminate.
  - injection H as <-. constructor; cbn; auto.
  - apply (LV v); [apply (HD v HF CK D eq_refl) | exact H].
  - apply (LV v); [apply (HD v HF CK D eq_refl) | exact H].
  - specialize (HD v HF CK D eq_refl). pose proof HD as [A O B G]. unfold call_host in H. destruct (host _) as [| | |z|ov ws] eqn:HH; try discriminate. destruct (HO _ _ _ HH) as [HO1 HO2].
    destruct (match r with Some _ => _ | None => _ end) as [rf| |] eqn:G1; cbn [sres] in H; try discriminate. injection H as <-.
    constructor; cbn; auto. constructor; cbn; auto.
    + destruct r as [r|]; [|injection G1 as <-; auto]. destruct ov as [x|]; [|injection G1 as <-; auto]. eapply rok_set_val; eauto.
    + destruct r as [r|]; [|injection G1 as <-; auto]. destruct ov as [x|]; [|injection G1 as <-; auto]. eapply off_wr; [eapply wr_set_val; exact G1|auto].
    + now apply writes_iok.
  - specialize (HD v HF CK D eq_refl). pose proof HD as [A O B G]. destruct (nth_error (md_funcs M) g) as [[gd|]|]; try discriminate.
    unfold enter in H. destruct (default_locals _) as [ds| |] eqn:DL; cbn [sres] in H; try discriminate. injection H as <-.
    constructor; cbn; auto. constructor; cbn; auto using rok_save, off_save. apply Forall_app. split; [eapply hstep_args; [exact D | exact HS] | eapply default_locals_ok; eauto].
Qed.
Lemma initial_good M s f args c : Forall val_ok args -> iok s -> initial M s f args = Ok c -> cgood M c.
Proof.
  intros A I H. unfold initial in H. destruct (nth_error _ _) as [[fd|]|]; try discriminate. destruct (Nat.eqb _ _); [|discriminate]. injection H as <-.
  constructor; cbn; auto. constructor; cbn; auto.
  - apply rok_save. intros []; constructor.
  - apply off_save. split; cbn; auto.
  - apply Forall_app. split; auto. apply Forall_forall. intros x X. apply in_map_iff in X as (t & <- & _). apply (proj2 (isv_default (class_of t))).
Qed.

(** ** the same execution *)
Lemma step_agree hf hf' host M c : standard_fp hf -> standard_fp hf' -> fines M -> cgood M c -> ~ makes_nan hf M c -> step hf' host M c = step hf host M c.
Proof.
  intros S1 S2 FM [D _] N. unfold step. destruct (nth_error (md_funcs M) (c_fn c)) as [[fd|]|] eqn:NF; try reflexivity.
  rewrite (hstep_agree hf hf' S1 S2 M (fd_code fd) (c_v c)); auto.
  - eapply FM; eauto.
  - intros o t srcs args s x NI RO RA SE NV. apply N. exists fd, o, t, srcs, args, s, x. auto 10.
Qed.
Lemma steps_agree hf hf' host M : standard_fp hf -> standard_fp hf' -> hostfp_ok hf -> host_ok host -> fines M -> forall n c, cgood M c ->
  (forall k c', k < n -> steps hf host M k c = inl c' -> ~ makes_nan hf M c') -> steps hf' host M n c = steps hf host M n c.
Proof.
  intros S1 S2 HF HO FM. induction n as [|n IH]; intros c G N; [reflexivity|]. cbn [steps].
  rewrite (step_agree hf hf' host M c S1 S2 FM G); [|apply (N 0 c); [lia | reflexivity]].
  destruct (step hf host M c) as [c1| | | |] eqn:E; try reflexivity. apply IH; [eapply step_good; eauto|].
  intros k c' L K. apply (N (S k) c'); [lia|]. cbn [steps]. now rewrite E.
Qed.

(** ** the same run loop *)
Lemma makes_nan_sim hf M c c' : csim c c' -> makes_nan hf M c -> makes_nan hf M c'.
Proof.
  intros [[D _ _ P] F _ _ _] (fd & o & t & srcs & args & s & v & X1 & X2 & X3 & X4 & X5 & X6).
  pose proof (sop_eval_erase hf o _ _ args (ds_inst _ _ D)) as E. rewrite X5 in E. cbn [eres] in E.
  destruct (sop_eval hf o (d_inst (s_d (c_v c'))) args) as [[s' v']| |] eqn:E'; cbn [eres] in E; try discriminate E.
  apply (f_equal (fun r => match r with Ok (_, x) => x | _ => None end)) in E. cbn beta iota in E. subst v'.
  exists fd, o, t, srcs, args, s', v. rewrite <- F, <- P, <- (read_all_sim _ _ D). auto 10.
Qed.
Lemma nan_free_sim hf host M c c' : csim c c' -> nan_free hf host M c -> nan_free hf host M c'.
Proof.
  intros S N n d' H X. pose proof (steps_sim hf host M n _ _ S) as Y. rewrite H in Y.
  destruct (steps hf host M n c) as [d|] eqn:E; [|contradiction]. exact (N n d E (makes_nan_sim hf M d' d (csim_sym _ _ Y) X)).
Qed.
Lemma iok_sim s s' : inst_sim s s' -> iok s -> iok s'.
Proof.
  unfold inst_sim, erase. intros H [A B C]. injection H as HM HG _ HD. constructor; [rewrite <- HG; exact A | | rewrite <- HD; exact C].
  intros m E. rewrite E in HM. destruct (i_mem s) as [m0|] eqn:E0; [|discriminate HM]. cbn [option_map] in HM. injection HM as HM _. rewrite <- HM. exact (B m0 eq_refl).
Qed.
Lemma cgood_sim M c c' : csim c c' -> cgood M c -> cgood M c'.
Proof.
  intros [[D _ _ P] F _ CS _] [[A O B G] FS]. pose proof D as [D1 D2 D3 _ _]. constructor.
  - constructor; [rewrite <- D1; exact A | rewrite <- D1; exact O | rewrite <- D2; exact B | eapply iok_sim; eauto].
  - clear -CS FS. induction CS as [|x y l l' S CS IH]; [constructor|]. inversion FS; subst. constructor; auto. now rewrite <- (fs_loc _ _ S).
Qed.
Lemma nan_free_steps hf host M j c c1 : nan_free hf host M c -> steps hf host M j c = inl c1 -> nan_free hf host M c1.
Proof. intros N H n c' H'. apply (N (j + n)). rewrite (steps_app hf host M _ _ _ _ H). exact H'. Qed.
Lemma cgood_steps hf host M : hostfp_ok hf -> host_ok host -> fines M -> forall n c c', cgood M c -> steps hf host M n c = inl c' -> cgood M c'.
Proof.
  intros HF HO FM. induction n as [|n IH]; intros c c' G H; cbn [steps] in H; [injection H as <-; exact G|].
  destruct (step hf host M c) as [c1| | | |] eqn:E; try discriminate H. eapply IH; [eapply step_good; eauto|exact H].
Qed.
Section TwoRuns.
  Variables (hf hf' : hostfp) (host : hostfn) (M : modul) (E : penv) (D : variant).
  Hypotheses (S1 : standard_fp hf) (S2 : standard_fp hf') (HF : hostfp_ok hf) (HO : host_ok host) (MO : mod_ok M) (FM : fines M).
  Lemma advance_agree c fd : nth_error (md_funcs M) (c_fn c) = Some (FWasm fd) -> forall n p v, cgood M (at_v c v) -> nan_free hf host M (at_v c v) ->
    tco_advance hf' M E (fd_code fd) n p v = tco_advance hf M E (fd_code fd) n p v.
  Proof.
    intros NF. induction n as [|n IH]; intros p v G N; cbn [tco_advance]; [reflexivity|]. destruct (poll E p) as [[] p']; [reflexivity|].
    assert (A : hstep hf' M (fd_code fd) v = hstep hf M (fd_code fd) v).
    { apply (hstep_agree hf hf' S1 S2); [exact (FM _ _ NF) | exact (cd_v _ _ G) |]. intros o t srcs args s x NI RO RA SE NV.
      apply (N 0 _ eq_refl). exists fd, o, t, srcs, args, s, x. auto 10. }
    rewrite A. destruct (hstep hf M (fd_code fd) v) as [v1|v1|y v1|t|] eqn:H; cbn [handled]; try reflexivity.
    pose proof (step_at hf host M c fd NF v v1 H) as ST. apply IH; [eapply step_good; eauto|].
    apply (nan_free_steps hf host M 1 (at_v c v)); auto. cbn [steps]. now rewrite ST.
  Qed.
  Lemma round_agree en0 k st c : config_of st = Some c -> levels M c -> cgood M c -> nan_free hf host M c ->
    run_round hf' host M E D en0 k st = run_round hf host M E D en0 k st.
  Proof.
    intros CO LV G N. unfold config_of in CO. unfold run_round. destruct (r_frames st) as [|[en f] rest]; [reflexivity|]. injection CO as <-.
    destruct (nth_error (md_funcs M) (f_fn f)) as [[fd|]|] eqn:NF; try reflexivity.
    pose proof (MO _ _ NF) as CK. destruct LV as [(fd' & NF' & LV) _]. cbn [c_fn c_v] in *. rewrite NF in NF'. injection NF' as <-.
    rewrite !(dispatch_advance D _ M E (fd_code fd)) by assumption.
    match type of G with cgood M ?c => pose proof (advance_agree c fd NF k {| p_en := en; p_cnt := 0; p_t := r_t st |} (c_v c) G N) as A end.
    cbn [c_v] in A. rewrite A. reflexivity.
  Qed.
  Lemma loop_agree en0 k n : forall st c, rel st c -> levels M c -> cgood M c -> nan_free hf host M c ->
    run_loop hf' host M E D en0 k n st = run_loop hf host M E D en0 k n st.
  Proof.
    induction n as [|n IH]; intros st c RL LV G N; cbn [run_loop]; [reflexivity|].
    destruct RL as (c1 & CO & CS). pose proof (csim_sym _ _ CS) as CS'. pose proof (csim_ptr _ _ CS) as [P1 _]. pose proof (levels_sim M c c1 CS' LV) as LV1.
    pose proof (cgood_sim M _ _ CS' G) as G1. pose proof (nan_free_sim hf host M _ _ CS' N) as N1.
    rewrite (round_agree en0 k st c1 CO LV1 G1 N1). pose proof (round_sound hf host M E D en0 MO k st c1 _ CO LV1 P1 eq_refl) as RS.
    destruct (run_round hf host M E D en0 k st) as [[st'|vals s l|z l|t l|st'|]|]; try reflexivity.
    destruct RS as (j & d & H & RL'). apply (IH st' d RL'); [eapply levels_steps; eauto|eapply cgood_steps; eauto|eapply nan_free_steps; eauto].
  Qed.
  Lemma run_agree en0 k n st c : rel st c -> levels M c -> cgood M c -> nan_free hf host M c ->
    run hf' host M E D en0 k n st = run hf host M E D en0 k n st.
  Proof. intros RL LV G N. apply (loop_agree en0 k n (armed en0 st) c); auto. now apply rel_armed. Qed.
End TwoRuns.
