(** Facts about frames: what one step may do to the register file, the label stack and the
    suspended callers, for arbitrary (not only translated) code.  Proofs only; no modelled code. *)
From Coq Require Import ZArith List Bool Lia.
From Verif Require Import Word Value Mem MemProofs Store Regs IR Machine RegsProofs Sim.
Import ListNotations.
Open Scope nat_scope.

(** ** what an instruction may do to the register file *)
(** same frames, same sizes, nothing below the running frame's window touched *)
Definition wr (rf rf' : regfile) : Prop :=
  rf_stack rf' = rf_stack rf /\ rf_cur rf' = rf_cur rf /\
  forall c, length (sget (rf_vecs rf') c) = length (sget (rf_vecs rf) c) /\
            forall p, p < sget (rf_cur rf) c -> nth_error (sget (rf_vecs rf') c) p = nth_error (sget (rf_vecs rf) c) p.
Lemma wr_refl rf : wr rf rf.
Proof. repeat split; auto. Qed.
Lemma wr_trans a b c : wr a b -> wr b c -> wr a c.
Proof.
  intros (S1 & C1 & H1) (S2 & C2 & H2). split; [congruence|]. split; [congruence|]. intros k.
  destruct (H1 k) as [L1 N1], (H2 k) as [L2 N2]. split; [congruence|]. intros p P. rewrite N2 by (rewrite C1; auto). auto.
Qed.
Lemma wr_set rf c i v rf' : rf_set rf c i v = Ok rf' -> wr rf rf'.
Proof.
  intros H. apply rf_set_inv in H as [L ->]. split; [reflexivity|]. split; [reflexivity|]. intros k. cbn [rf_vecs].
  rewrite sget_sset. destruct (cls_eqb c k) eqn:E; [apply StoreProofs.cls_eqb_eq in E; subst|auto].
  rewrite upd_length. split; auto. intros p P. apply upd_nth_ne. lia.
Qed.
Ltac inv H := inversion H; subst; clear H.
Lemma bind_inv {A B} (r : res A) (k : A -> res B) b : (let* x := r in k x) = Ok b -> exists a, r = Ok a /\ k a = Ok b.
Proof. destruct r; cbn; try discriminate; eauto. Qed.
Lemma wr_copies src : forall rf dst rf', rf_copies rf src dst = Ok rf' -> wr rf rf'.
Proof.
  induction src as [|s src IH]; intros rf [|d dst] rf' H; cbn in H; try (inv H; apply wr_refl).
  apply bind_inv in H as (rf1 & H1 & H2). apply (wr_trans _ rf1); eauto. unfold rf_copy in H1.
  destruct (cls_eqb _ _); [|inv H1; apply wr_refl]. apply bind_inv in H1 as (v & _ & H1). eapply wr_set; eauto.
Qed.
Lemma wr_set_val rf r v rf' : rf_set_val rf r v = Ok rf' -> wr rf rf'.
Proof.
  unfold rf_set_val. destruct (r_cls r); intros H; try (eapply wr_set; eassumption); try (inv H; apply wr_refl).
  destruct (cls_eqb _ _); [eapply wr_set; eassumption|inv H; apply wr_refl].
Qed.
Lemma wr_set_vals rs : forall rf vs rf', rf_set_vals rf rs vs = Ok rf' -> wr rf rf'.
Proof.
  induction rs as [|r rs IH]; intros rf [|v vs] rf' H; cbn in H; try (inv H; apply wr_refl).
  apply bind_inv in H as (rf1 & H1 & H2). apply (wr_trans _ rf1); eauto using wr_set_val.
Qed.
(** a call's results touch only the registers named to receive them *)
Lemma set_vals_other rs : forall rf vs rf' c i, rf_set_vals rf rs vs = Ok rf' -> ~ In (R c i) rs -> rf_get rf' c i = rf_get rf c i.
Proof.
  induction rs as [|r rs IH]; intros rf [|v vs] rf' c i H N; cbn in H; try (inv H; reflexivity).
  apply bind_inv in H as (rf1 & H1 & H2). rewrite (IH _ _ _ _ _ H2) by (intros X; apply N; right; auto).
  assert (D : (r_cls r, r_idx r) <> (c, i)). { intros X. apply N. left. destruct r; cbn in *. congruence. }
  unfold rf_set_val in H1. destruct (r_cls r) eqn:E; try (eapply get_set_other; eassumption); [|inv H1; auto].
  destruct (cls_eqb _ _); [eapply get_set_other; eassumption|inv H1; auto].
Qed.
Lemma wr_write d c t v d' : write d c t v = Ok d' -> wr (d_rf d) (d_rf d').
Proof.
  destruct t; cbn [write]; intros H.
  - apply bind_inv in H as (rf & H1 & H2). inv H2. cbn. eapply wr_set; eauto.
  - destruct (Nat.ltb _ _); inv H; apply wr_refl.
Qed.
Lemma wr_dstep hf i d d' : dstep hf i d = Some (Ok d') -> wr (d_rf d) (d_rf d').
Proof.
  destruct i; cbn [dstep]; intros H; try discriminate; apply f_equal with (f := fun o => match o with Some x => x | None => UB end) in H.
  - apply bind_inv in H as (v & _ & H). eapply wr_write; eauto.
  - destruct (_ && _); [discriminate|]. apply bind_inv in H as (a & _ & H). apply bind_inv in H as (r & _ & H).
    unfold write_opt in H. destruct (sop_res _), d0, (snd r), (sets_ptr o); try (inv H; apply wr_refl); apply wr_write in H; exact H.
  - unfold do_select in H. apply bind_inv in H as (k & _ & H). apply bind_inv in H as (v & _ & H). apply bind_inv in H as (rf & H & E).
    inv E. cbn. eapply wr_set; eauto.
  - destruct (nth_error _ _) as [[]|]; try (inv H; apply wr_refl). eapply wr_write; eauto.
  - apply bind_inv in H as (v & _ & H). eapply wr_write; eauto.
  - inv H. apply wr_refl.
Qed.

(** ** what an instruction may do to the control part *)
Definition hv (o : hout) : option vs :=
  match o with HNext v | HHalt v | HYield _ v => Some v | _ => None end.
Definition hok (v v' : vs) : Prop :=
  wr (d_rf (s_d v)) (d_rf (s_d v')) /\ (s_labels v <> [] -> s_labels v' <> []).
Lemma hres_inv {A} (r : res A) k v : hv (hres r k) = Some v -> exists a, r = Ok a /\ hv (k a) = Some v.
Proof. destruct r; cbn; try discriminate; eauto. Qed.
Lemma pop_to_ne ls n : ls <> [] -> pop_to ls n <> [].
Proof.
  intros H E. unfold pop_to, truncate in E. apply (f_equal (@length _)) in E. rewrite skipn_length in E.
  destruct ls; [congruence|]. cbn [length] in E. lia.
Qed.
Lemma branch_ok v n t src tgt v' : hv (branch v n t src tgt) = Some v' -> hok v v'.
Proof.
  unfold branch. intros H. apply hres_inv in H as (rf & H & E). cbn in E. inv E. split; cbn.
  - destruct src, tgt; try (inv H; apply wr_refl). eapply wr_copies; eauto.
  - apply pop_to_ne.
Qed.
Lemma hstep_ok hf M code v v' : hv (hstep hf M code v) = Some v' -> hok v v'.
Proof.
  unfold hstep. destruct (nth_error code (s_pc v)) as [i|].
  2:{ destruct (Nat.eqb _ _); cbn; intros H; inv H. split; [apply wr_refl|auto]. }
  destruct i; try (
    match goal with |- context[dstep hf ?i ?d] => destruct (dstep hf i d) as [[d'| |]|] eqn:E end; cbn; intros H; inv H;
    apply wr_dstep in E; split; cbn; auto).
  - intros H. apply hres_inv in H as (a & _ & H). cbn in H. inv H. split; [apply wr_refl|auto].
  - intros H. apply hres_inv in H as (k & _ & H). apply hres_inv in H as (g & _ & H).
    destruct (nth_error (md_funcs M) g); [|discriminate]. destruct (nth_error (md_types M) ty); [|discriminate]. destruct (ftype_eqb _ _); [|discriminate].
    apply hres_inv in H as (a & _ & H). apply hres_inv in H as (r & _ & H). cbn in H. inv H. split; [apply wr_refl|auto].
  - destruct (nth_error (md_funcs M) f); [|discriminate]. intros H. apply hres_inv in H as (a & _ & H). apply hres_inv in H as (r & _ & H).
    cbn in H. inv H. split; [apply wr_refl|auto].
  - intros H. apply hres_inv in H as (a & _ & H). cbn in H. inv H. split; [apply wr_refl|auto].
  - cbn [hv]. intros H. inv H. split; [apply wr_refl|]. cbn [s_labels]. destruct (s_labels v) as [|? [|]]; cbn; congruence.
  - cbn. intros H. inv H. split; [apply wr_refl|]. cbn. discriminate.
  - intros H. apply hres_inv in H as (k & _ & H). destruct (negb _); [|destruct has_else]; cbn in H; inv H;
      (split; [apply wr_refl|cbn; auto; discriminate]).
  - destruct (Nat.leb_spec (length (s_labels v)) 1).
    + unfold end_halt. intros H0. apply hres_inv in H0 as (rs & _ & H0). cbn in H0. inv H0. split; [apply wr_refl|auto].
    + intros H0. apply hres_inv in H0 as (rf & R & H0).
      assert (N : tl (s_labels v) <> []) by (destruct (s_labels v) as [|? [|]]; cbn in *; try lia; discriminate).
      apply wr_copies in R. destruct (_ && _).
      * unfold end_halt in H0. apply hres_inv in H0 as (rs & _ & H0). cbn in H0. inv H0. split; cbn; auto.
      * cbn in H0. inv H0. split; cbn; auto.
  - apply branch_ok.
  - intros H. apply hres_inv in H as (k & _ & H). destruct (Z.eqb _ _); [inv H; split; [apply wr_refl|auto]|]. eapply branch_ok; eauto.
  - intros H. apply hres_inv in H as (k & _ & H).
    destruct (if (cast_u 32 (payload k) <? Z.of_nat (length targets))%Z then nth _ targets default else default) as [[n t] tg].
    eapply branch_ok; eauto.
  - discriminate.
Qed.
(** a call instruction itself changes nothing but [pc] *)
Lemma invoke_yield hf M code v f args rs v' : hstep hf M code v = HYield (YInvoke f args rs) v' -> v' = goto v (S (s_pc v)).
Proof.
  unfold hstep. destruct (nth_error code (s_pc v)) as [i|]; [|destruct (Nat.eqb _ _); discriminate].
  assert (HR : forall A (r : res A) k y w, hres r k = HYield y w -> exists a, r = Ok a /\ k a = HYield y w).
  { intros A [] k y w E; cbn in E; try discriminate; eauto. }
  assert (BR : forall n t s g y w, branch v n t s g <> HYield y w).
  { intros n t s g y w E. apply HR in E as (a & _ & E). discriminate. }
  destruct i; try (match goal with |- context[dstep hf ?i ?d] => destruct (dstep hf i d) as [[]|] end; discriminate); try discriminate; intros H.
  - apply HR in H as (a & _ & H). discriminate.
  - apply HR in H as (k & _ & H). apply HR in H as (g & _ & H). destruct (nth_error (md_funcs M) g); [|discriminate].
    destruct (nth_error (md_types M) ty); [|discriminate]. destruct (ftype_eqb _ _); [|discriminate].
    apply HR in H as (a & _ & H). apply HR in H as (r & _ & H). now inv H.
  - destruct (nth_error (md_funcs M) _); [|discriminate]. apply HR in H as (a & _ & H). apply HR in H as (r & _ & H). now inv H.
  - apply HR in H as (a & _ & H). discriminate.
  - apply HR in H as (k & _ & H). destruct (negb _); [|destruct has_else]; discriminate.
  - destruct (Nat.leb _ _); [apply HR in H as (? & _ & H); discriminate|]. apply HR in H as (rf & _ & H). destruct (_ && _); [|discriminate].
    apply HR in H as (? & _ & H); discriminate.
  - destruct (BR _ _ _ _ _ _ H).
  - apply HR in H as (k & _ & H). destruct (Z.eqb _ _); [discriminate|]. destruct (BR _ _ _ _ _ _ H).
  - apply HR in H as (k & _ & H).
    destruct (if (cast_u 32 (payload k) <? Z.of_nat (length targets))%Z then nth _ targets default else default) as [[n t] tg].
    destruct (BR _ _ _ _ _ _ H).
Qed.

(** ** one machine step *)
Inductive move (M : modul) (c c' : config) : Prop :=
| MvSame : hok (c_v c) (c_v c') -> c_fn c' = c_fn c -> c_n c' = c_n c -> c_callers c' = c_callers c -> move M c c'
| MvCall f fd args rs ds : nth_error (md_funcs M) f = Some (FWasm fd) -> default_locals (fd_locals fd) = Ok ds ->
    c_v c' = {| s_d := {| d_rf := rf_save (d_rf (s_d (c_v c))) (fd_alloc fd); d_loc := args ++ ds; d_inst := d_inst (s_d (c_v c));
                          d_ptr := cur_ptr (d_inst (s_d (c_v c))) |};
                s_labels := [new_label]; s_ret := []; s_pc := 0 |} ->
    c_callers c' = suspend c (goto (c_v c) (S (s_pc (c_v c)))) rs :: c_callers c -> c_fn c' = f -> move M c c'
| MvRet v f fs vals rf : hok (c_v c) v -> c_callers c = f :: fs ->
    rf_get_vals (d_rf (s_d v)) (s_ret v) = Ok vals -> rf_set_vals (rf_restore (d_rf (s_d v))) (f_res f) vals = Ok rf ->
    c_v c' = resume f rf (d_inst (s_d v)) (cur_ptr (d_inst (s_d v))) -> c_fn c' = f_fn f -> c_callers c' = fs -> c_n c' = f_n f -> move M c c'.
Lemma sres_inv {A} l (r : res A) k c : sres l r k = SNext c -> exists a, r = Ok a /\ k a = SNext c.
Proof. destruct r; cbn; try discriminate; eauto. Qed.
Lemma leave_move M c v c' : hok (c_v c) v -> leave c v = SNext c' -> move M c c'.
Proof.
  intros K H. unfold leave in H. destruct (c_callers c) as [|f fs] eqn:E.
  - apply sres_inv in H as (a & _ & H). discriminate.
  - apply sres_inv in H as (vals & H1 & H). apply sres_inv in H as (rf & H2 & H). inv H. eapply MvRet; eauto.
Qed.
Lemma step_move hf host M c c' : step hf host M c = SNext c' -> move M c c'.
Proof.
  unfold step. destruct (nth_error (md_funcs M) (c_fn c)) as [[fd|]|] eqn:N; try discriminate.
  pose proof (hstep_ok hf M (fd_code fd) (c_v c)) as K. destruct (hstep hf M (fd_code fd) (c_v c)) as [v|v|y v| |] eqn:E; try discriminate;
    specialize (K v eq_refl).
  - intros H. inv H. apply MvSame; auto.
  - apply leave_move; auto.
  - destruct y as [|w args r|f args rs].
    + apply leave_move; auto.
    + unfold call_host. destruct (host _); try discriminate. intros H. apply sres_inv in H as (rf & H1 & H). inv H. apply MvSame; auto.
      destruct K as [K1 K2]. split; cbn; auto. eapply wr_trans; eauto. destruct r0, r; try (inv H1; apply wr_refl); cbn in H1; eapply wr_set_val; eauto.
    + apply invoke_yield in E as ->. destruct (nth_error (md_funcs M) f) as [[g|]|] eqn:F; try discriminate.
      unfold enter. intros H. apply sres_inv in H as (ds & D & H). inv H. eapply MvCall; eauto; reflexivity.
Qed.

(** ** reachable configurations are well framed *)
Definition framed (c : config) : Prop :=
  (exists st, rf_stack (d_rf (s_d (c_v c))) = rf_cur (d_rf (s_d (c_v c))) :: st /\ length st = length (c_callers c)) /\
  s_labels (c_v c) <> [] /\ Forall (fun f => f_labels f <> []) (c_callers c).
Lemma set_ip_ne ls pc : ls <> [] -> set_ip ls pc <> [].
Proof. destruct ls; cbn; congruence. Qed.
Lemma framed_step hf host M c c' : framed c -> step hf host M c = SNext c' -> framed c'.
Proof.
  intros ((st & S & L) & LN & FA) H. apply step_move in H. destruct H as [(W & LB) Hf Hn HC|f fd args rs ds HF HD HV HC Hf|v f fs vals rf (W & LB) HC HG HS HV Hf HC' Hn].
  - destruct W as (W1 & W2 & _). split; [exists st; rewrite W1, W2, HC; auto|]. split; auto. rewrite HC; auto.
  - unfold framed. rewrite HV. split; cbn; [eexists; split; [reflexivity|]; rewrite HC; cbn; rewrite S; cbn; auto|].
    split; [discriminate|]. rewrite HC. constructor; auto. cbn. apply set_ip_ne; auto.
  - unfold framed. rewrite HV, HC'. apply wr_set_vals in HS as (S1 & S2 & _). destruct W as (W1 & W2 & _). rewrite HC in L, FA. inv FA.
    split; cbn; auto. rewrite S1, S2. unfold rf_restore. cbn [rf_stack rf_cur]. rewrite W1, S. cbn [tl].
    destruct st as [|o st]; [discriminate|]. exists st. split; auto.
Qed.
Lemma framed_steps hf host M n : forall c c', framed c -> steps hf host M n c = inl c' -> framed c'.
Proof.
  induction n as [|n IH]; intros c c' F H; cbn [steps] in H; [inv H; auto|].
  destruct (step hf host M c) eqn:E; try discriminate. apply (IH c0); auto. eapply framed_step; eauto.
Qed.
Lemma framed_initial M s f args c : initial M s f args = Ok c -> framed c.
Proof.
  unfold initial. destruct (nth_error _ _) as [[fd|]|]; try discriminate. destruct (Nat.eqb _ _); [|discriminate]. intros H. inv H.
  split; cbn; [eexists; split; reflexivity|]. split; [discriminate|constructor].
Qed.

(** ** a call in progress *)
(** [sts]: offsets pushed since the call, oldest is the callee's own *)
Definition during (c : config) (rs : list reg) (c' : config) : Prop :=
  let rf := d_rf (s_d (c_v c)) in let rf' := d_rf (s_d (c_v c')) in
  exists G st, c_callers c' = G ++ suspend c (goto (c_v c) (S (s_pc (c_v c)))) rs :: c_callers c /\
    length st = length G /\
    rf_stack rf' = st ++ sbuild (fun k => length (sget (rf_vecs rf) k)) :: rf_stack rf /\
    Forall (fun o => forall k, length (sget (rf_vecs rf) k) <= sget o k) st /\
    forall k, length (sget (rf_vecs rf) k) <= length (sget (rf_vecs rf') k) /\
              forall p, p < length (sget (rf_vecs rf) k) -> nth_error (sget (rf_vecs rf') k) p = nth_error (sget (rf_vecs rf) k) p.
Definition returned (c : config) (rs : list reg) (c' : config) : Prop :=
  c_fn c' = c_fn c /\ c_n c' = c_n c /\ c_callers c' = c_callers c /\
  d_loc (s_d (c_v c')) = d_loc (s_d (c_v c)) /\
  s_labels (c_v c') = set_ip (s_labels (c_v c)) (S (s_pc (c_v c))) /\ s_pc (c_v c') = S (s_pc (c_v c)) /\ s_ret (c_v c') = s_ret (c_v c) /\
  exists vals, rf_set_vals (d_rf (s_d (c_v c))) rs vals = Ok (d_rf (s_d (c_v c'))).
Lemma nth_error_eq {A} (l m : list A) : length l = length m -> (forall p, p < length l -> nth_error m p = nth_error l p) -> l = m.
Proof.
  revert m. induction l as [|x l IH]; intros [|y m] L H; cbn in L; try discriminate; auto.
  specialize (H 0 ltac:(cbn; lia)) as H0. cbn in H0. inv H0. f_equal. apply IH; [lia|]. intros p P. exact (H (S p) ltac:(cbn; lia)).
Qed.
Lemma nth_error_firstn_lt {A} (l : list A) n p : p < n -> nth_error (firstn n l) p = nth_error l p.
Proof. revert l p. induction n as [|n IH]; intros [|x l] [|p] H; cbn; auto; try lia. apply IH. lia. Qed.
Lemma during_step hf host M c rs c1 c2 : framed c -> framed c1 -> during c rs c1 -> step hf host M c1 = SNext c2 ->
  during c rs c2 \/ returned c rs c2.
Proof.
  intros F F1 (G & st & HC & L & ST & OF & KEEP) H. pose proof F1 as ((st1 & S1 & _) & _ & _).
  apply step_move in H. destruct H as [(W & LB) Hf Hn HC2|f fd args rs' ds HF HD HV HC2 Hf|v f fs vals rf (W & LB) HC2 HG HS HV Hf HC' Hn].
  - left. destruct W as (W1 & W2 & W3). exists G, st. rewrite HC2, W1. repeat split; auto.
    + destruct (W3 k) as [WL _]. rewrite WL. apply KEEP.
    + intros p P. destruct (W3 k) as [_ WN]. destruct (KEEP k) as [_ KN]. rewrite WN, KN; auto.
      destruct st as [|o st]; cbn [app] in ST; rewrite S1 in ST; injection ST as E1 E2; rewrite E1.
      * rewrite sget_sbuild. auto.
      * inversion OF as [|? ? OF1 OF2]. specialize (OF1 k). lia.
  - left. exists (suspend c1 (goto (c_v c1) (S (s_pc (c_v c1)))) rs' :: G). eexists (_ :: st). rewrite HC2, HC, HV. cbn [d_rf s_d rf_stack rf_save].
    split; [reflexivity|]. split; [cbn; lia|]. split; [cbn; rewrite ST; reflexivity|]. split.
    + constructor; auto. intros k. rewrite sget_sbuild. apply KEEP.
    + intros k. cbn [rf_vecs rf_save]. rewrite sget_sbuild, app_length. destruct (KEEP k) as [KL KN]. split; [lia|].
      intros p P. rewrite nth_error_app1 by lia. auto.
  - destruct W as (W1 & W2 & W3). pose proof (wr_set_vals _ _ _ _ HS) as (V1 & V2 & V3).
    assert (TOP : exists o, rf_stack (d_rf (s_d v)) = o :: tl (rf_stack (d_rf (s_d v))) /\ (forall k, length (sget (rf_vecs (d_rf (s_d (c_v c)))) k) <= sget o k) /\ rf_cur (d_rf (s_d (c_v c1))) = o).
    { rewrite W1, ST. destruct st as [|o st]; cbn.
      - eexists. split; [reflexivity|]. split; [intros k; rewrite sget_sbuild; lia|]. rewrite ST in S1. cbn in S1. congruence.
      - inv OF. eexists. split; [reflexivity|]. split; [auto|]. rewrite ST in S1. cbn in S1. congruence. }
    destruct TOP as (o & TO & TB & TC).
    assert (PRE : forall k p, p < length (sget (rf_vecs (d_rf (s_d (c_v c)))) k) ->
              nth_error (sget (rf_vecs (rf_restore (d_rf (s_d v)))) k) p = nth_error (sget (rf_vecs (d_rf (s_d (c_v c)))) k) p).
    { intros k p P. unfold rf_restore. cbn [rf_vecs]. rewrite TO. rewrite sget_sbuild. specialize (TB k).
      rewrite nth_error_firstn_lt by lia. destruct (W3 k) as [_ WN]. destruct (KEEP k) as [_ KN]. rewrite WN, KN; auto. rewrite TC. lia. }
    assert (LEN : forall k, length (sget (rf_vecs (d_rf (s_d (c_v c)))) k) <= length (sget (rf_vecs (rf_restore (d_rf (s_d v)))) k)).
    { intros k. unfold rf_restore. cbn [rf_vecs]. rewrite TO, sget_sbuild, firstn_length. specialize (TB k). destruct (W3 k) as [WL _].
      destruct (KEEP k) as [KL _]. lia. }
    destruct G as [|g G].
    + right. destruct st; [|discriminate]. cbn [app] in *. rewrite HC in HC2. injection HC2 as EF EFS. subst f.
      destruct F as ((st0 & S0 & _) & LN & _).
      assert (RF : rf_restore (d_rf (s_d v)) = d_rf (s_d (c_v c))).
      { unfold rf_restore. rewrite W1, ST. cbn [tl]. rewrite S0. destruct (d_rf (s_d (c_v c))) as [vv ss cc] eqn:ERF. cbn [rf_vecs rf_stack rf_cur] in *.
        subst ss. f_equal. apply six_ext. intros k. rewrite !sget_sbuild.
        apply nth_error_eq.
        - rewrite firstn_length. destruct (W3 k) as [WL _]. destruct (KEEP k) as [KL _]. rewrite WL. lia.
        - intros p P. rewrite firstn_length in P. rewrite nth_error_firstn_lt by lia. symmetry. specialize (PRE k p ltac:(lia)).
          unfold rf_restore in PRE. cbn [rf_vecs] in PRE. rewrite W1, ST, !sget_sbuild in PRE. rewrite nth_error_firstn_lt in PRE by lia. exact PRE. }
      rewrite RF in HS. unfold returned. rewrite HV, Hf, HC', Hn, <- EFS. cbn. repeat split; auto; [|eauto].
      destruct (s_labels (c_v c)); cbn; congruence.
    + left. destruct st as [|o' st]; [discriminate|]. exists G, st. rewrite HC in HC2. cbn [app] in HC2. injection HC2 as EF EFS. rewrite HV. cbn [resume s_d d_rf].
      split; [congruence|]. split; [cbn in L; lia|]. rewrite V1. unfold rf_restore at 1. cbn [rf_stack]. rewrite W1, ST. split; [reflexivity|].
      inversion OF as [|? ? OF1 OF2 EQ]. subst. split; auto. intros k. destruct (V3 k) as [VL VN]. rewrite VL. split; [apply LEN|].
      intros p P. rewrite VN; [apply PRE; auto|]. unfold rf_restore. cbn [rf_cur]. rewrite W1, ST. cbn [tl app].
      destruct st as [|o2 st]; cbn [app]; [rewrite sget_sbuild; auto|]. inv OF2. specialize (H1 k). lia.
Qed.
