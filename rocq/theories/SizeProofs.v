(** The size of the interpreter's state. Proofs only. *)
From Coq Require Import ZArith List Bool Lia.
From Verif Require Import Word Value Mem MemProofs Store StoreProofs Regs IR Machine RegsProofs Wasm Decoder Check Sim FrameFacts Layout Properties_Layout Runtime SimState RuntimeProofs SizeSpec.
Import ListNotations.
Open Scope nat_scope.

(** ** registers *)
Fixpoint stacked (M : modul) (fs : list nat) (st : list (six nat)) : Prop :=
  match fs, st with
  | [], [] => True
  | f :: fs, o :: st => (forall k, sget o k = list_sum (map (slots M k) fs)) /\ stacked M fs st
  | _, _ => False
  end.
Definition rsized (M : modul) (fs : list nat) (rf : regfile) : Prop :=
  (forall k, length (sget (rf_vecs rf) k) = list_sum (map (slots M k) fs)) /\ stacked M fs (rf_stack rf).
Lemma wr_rsized M fs rf rf' : wr rf rf' -> rsized M fs rf -> rsized M fs rf'.
Proof. intros (S & _ & L) [A B]. split; [|now rewrite S]. intros k. destruct (L k) as [-> _]. apply A. Qed.
Lemma save_rsized M fs rf f fd : nth_error (md_funcs M) f = Some (FWasm fd) -> rsized M fs rf -> rsized M (f :: fs) (rf_save rf (fd_alloc fd)).
Proof.
  intros N [A B]. unfold rf_save. split; cbn [rf_vecs rf_stack].
  - intros k. rewrite sget_sbuild, app_length, repeat_length, A. cbn [map list_sum fold_right]. unfold slots at 2. rewrite N. unfold list_sum. lia.
  - split; auto. intros k. now rewrite sget_sbuild.
Qed.
Lemma restore_rsized M f fs rf : rsized M (f :: fs) rf -> rsized M fs (rf_restore rf).
Proof.
  intros [A B]. unfold rf_restore. destruct (rf_stack rf) as [|o st] eqn:E; [contradiction|]. destruct B as [B1 B2]. split; cbn [rf_vecs rf_stack tl]; auto.
  intros k. rewrite sget_sbuild, firstn_length, B1, A. cbn [map list_sum fold_right]. unfold list_sum. lia.
Qed.
Lemma stacked_len M fs : forall st, stacked M fs st -> length st = length fs.
Proof. induction fs as [|f fs IH]; intros [|o st] H; cbn in *; try contradiction; auto. destruct H as [_ H]. now rewrite (IH _ H). Qed.
Lemma step_rsized hf host M c c' : step hf host M c = SNext c' -> rsized M (active c) (d_rf (s_d (c_v c))) -> rsized M (active c') (d_rf (s_d (c_v c'))).
Proof.
  intros S K. apply step_move in S. unfold active in *. destruct S as [[W _] F _ C|f fd args rs ds N _ V C F|v f fs vals rf [W _] C _ SV V F C' _].
  - rewrite F, C. eapply wr_rsized; eauto.
  - rewrite F, C, V. cbn [s_d d_rf map suspend f_fn]. now apply save_rsized.
  - rewrite F, C', V. unfold resume. cbn [s_d d_rf]. rewrite C in K. cbn [map] in K. eapply wr_rsized; [eapply wr_set_vals; eauto|]. eapply restore_rsized. eapply wr_rsized; eauto.
Qed.
Lemma steps_rsized hf host M n : forall c c', steps hf host M n c = inl c' -> rsized M (active c) (d_rf (s_d (c_v c))) -> rsized M (active c') (d_rf (s_d (c_v c'))).
Proof.
  induction n as [|n IH]; intros c c' H K; cbn [steps] in H; [now injection H as <-|].
  destruct (step hf host M c) as [c1| | | |] eqn:S; try discriminate. eapply IH; eauto. eapply step_rsized; eauto.
Qed.
Lemma initial_rsized M s f args c : initial M s f args = Ok c -> rsized M (active c) (d_rf (s_d (c_v c))).
Proof.
  unfold initial. destruct (nth_error (md_funcs M) f) as [[fd|]|] eqn:N; try discriminate. destruct (Nat.eqb _ _); [|discriminate]. intros H. injection H as <-.
  unfold active. cbn [c_fn c_callers c_v s_d d_rf map]. apply save_rsized; auto. split; [|exact Logic.I]. intros k. destruct k; reflexivity.
Qed.

(** ** locals, labels, result registers *)
Definition call_len (i : instr) : nat := match i with ICall _ ps _ | ICallInd _ _ _ ps _ => length ps | _ => 0 end.
Definition func_calls (f : func) : nat := match f with FWasm fd => list_sum (map call_len (fd_code fd)) | _ => 0 end.
Definition calls_in (M : modul) : nat := list_sum (map func_calls (md_funcs M)).
Lemma in_sum {A} (g : A -> nat) l x : In x l -> g x <= list_sum (map g l).
Proof. unfold list_sum. induction l as [|y l IH]; cbn; [contradiction|]. intros [-> |H]; [lia|]. specialize (IH H). lia. Qed.
Lemma get_vals_len rs : forall rf vals, rf_get_vals rf rs = Ok vals -> length vals = length rs.
Proof.
  induction rs as [|r rs IH]; intros rf vals H; cbn in H; [now injection H as <-|].
  apply bind_inv in H as (v & _ & H). apply bind_inv in H as (vs & H1 & H). injection H as <-. cbn. f_equal. eauto.
Qed.
Lemma write_loc d c t v d' : write d c t v = Ok d' -> length (d_loc d') = length (d_loc d).
Proof.
  destruct t; cbn [write]; intros H.
  - apply bind_inv in H as (rf & H1 & H2). now injection H2 as <-.
  - destruct (Nat.ltb _ _); [|discriminate]. injection H as <-. cbn. apply upd_length.
Qed.
Lemma dstep_loc hf i d d' : dstep hf i d = Some (Ok d') -> length (d_loc d') = length (d_loc d).
Proof.
  destruct i; cbn [dstep]; intros H; try discriminate; apply f_equal with (f := fun o => match o with Some x => x | None => UB end) in H.
  - apply bind_inv in H as (v & _ & H). eapply write_loc; eauto.
  - destruct (_ && _); [discriminate|]. apply bind_inv in H as (a & _ & H). apply bind_inv in H as (r & _ & H).
    unfold write_opt in H. destruct (sop_res _), d0, (snd r), (sets_ptr o); try (inv H; reflexivity); apply write_loc in H; exact H.
  - unfold do_select in H. apply bind_inv in H as (k & _ & H). apply bind_inv in H as (v & _ & H). apply bind_inv in H as (rf & H & E).
    inv E. reflexivity.
  - destruct (nth_error _ _) as [[]|]; try (inv H; reflexivity). eapply write_loc; eauto.
  - apply bind_inv in H as (v & _ & H). eapply write_loc; eauto.
  - inv H. reflexivity.
Qed.
Definition small_v (v v' : vs) : Prop := length (d_loc (s_d v')) = length (d_loc (s_d v)) /\ (length (s_ret v) <= 8 -> length (s_ret v') <= 8).
Lemma arrayvec8_len rs rs' : arrayvec8 rs = Ok rs' -> length rs' <= 8.
Proof. unfold arrayvec8. destruct (Nat.leb_spec (length rs) 8); [|discriminate]. intros H0. now injection H0 as <-. Qed.
Lemma branch_small v n t src tgt v' : hv (branch v n t src tgt) = Some v' -> small_v v v'.
Proof. unfold branch. intros H. apply hres_inv in H as (rf & H & E). cbn in E. inv E. split; cbn; auto. Qed.
Lemma halt_small len v src v0 v' : hv (end_halt len v src) = Some v' -> small_v v0 v -> small_v v0 v'.
Proof. unfold end_halt. intros H [A B]. apply hres_inv in H as (rs & R & H). cbn in H. inv H. split; cbn; auto. intros _. eapply arrayvec8_len; eauto. Qed.
Lemma hstep_small hf M code v v' : hv (hstep hf M code v) = Some v' -> small_v v v'.
Proof.
  unfold hstep. destruct (nth_error code (s_pc v)) as [i|].
  2:{ destruct (Nat.eqb _ _); cbn; intros H; inv H. split; auto. }
  destruct i; try (
    match goal with |- context[dstep hf ?i ?d] => destruct (dstep hf i d) as [[d'| |]|] eqn:E end; cbn; intros H; inv H;
    apply dstep_loc in E; split; cbn; auto).
  - intros H. apply hres_inv in H as (a & _ & H). cbn in H. inv H. split; auto.
  - intros H. apply hres_inv in H as (k & _ & H). apply hres_inv in H as (g & _ & H).
    destruct (nth_error (md_funcs M) g); [|discriminate]. destruct (nth_error (md_types M) ty); [|discriminate]. destruct (ftype_eqb _ _); [|discriminate].
    apply hres_inv in H as (a & _ & H). apply hres_inv in H as (r & _ & H). cbn in H. inv H. split; auto.
  - destruct (nth_error (md_funcs M) f); [|discriminate]. intros H. apply hres_inv in H as (a & _ & H). apply hres_inv in H as (r & _ & H).
    cbn in H. inv H. split; auto.
  - intros H. apply hres_inv in H as (a & R & H). cbn in H. inv H. split; cbn; auto. intros _. eapply arrayvec8_len; eauto.
  - cbn [hv]. intros H. inv H. split; auto.
  - cbn. intros H. inv H. split; auto.
  - intros H. apply hres_inv in H as (k & _ & H). destruct (negb _); [|destruct has_else]; cbn in H; inv H; split; auto.
  - destruct (Nat.leb_spec (length (s_labels v)) 1).
    + intros H0. eapply halt_small; eauto. split; auto.
    + intros H0. apply hres_inv in H0 as (rf & R & H0). destruct (_ && _).
      * eapply halt_small; eauto. split; auto.
      * cbn in H0. inv H0. split; cbn; auto.
  - apply branch_small.
  - intros H. apply hres_inv in H as (k & _ & H). destruct (Z.eqb _ _); [inv H; split; auto|]. eapply branch_small; eauto.
  - intros H. apply hres_inv in H as (k & _ & H).
    destruct (if (cast_u 32 (payload k) <? Z.of_nat (length targets))%Z then nth _ targets default else default) as [[n t] tg].
    eapply branch_small; eauto.
  - discriminate.
Qed.
Lemma invoke_args hf M code v f args rs v' : hstep hf M code v = HYield (YInvoke f args rs) v' -> length args <= list_sum (map call_len code) /\ length rs <= 8.
Proof.
  unfold hstep. destruct (nth_error code (s_pc v)) as [i|] eqn:N; [|destruct (Nat.eqb _ _); discriminate]. apply nth_error_In in N.
  assert (HR : forall A (r : res A) k y w, hres r k = HYield y w -> exists a, r = Ok a /\ k a = HYield y w).
  { intros A [] k y w E; cbn in E; try discriminate; eauto. }
  assert (BR : forall n t s g y w, branch v n t s g <> HYield y w).
  { intros n t s g y w E. apply HR in E as (a & _ & E). discriminate. }
  pose proof (in_sum call_len code _ N) as IS.
  destruct i; try (match goal with |- context[dstep hf ?i ?d] => destruct (dstep hf i d) as [[]|] end; discriminate); try discriminate; intros H.
  - apply HR in H as (a & _ & H). discriminate.
  - apply HR in H as (k & _ & H). apply HR in H as (g & _ & H). destruct (nth_error (md_funcs M) g); [|discriminate].
    destruct (nth_error (md_types M) ty); [|discriminate]. destruct (ftype_eqb _ _); [|discriminate].
    apply HR in H as (a & GA & H). apply HR in H as (r & GR & H). inv H. cbn [call_len] in IS. apply get_vals_len in GA. apply arrayvec8_len in GR. lia.
  - destruct (nth_error (md_funcs M) _); [|discriminate]. apply HR in H as (a & GA & H). apply HR in H as (r & GR & H). inv H. cbn [call_len] in IS. apply get_vals_len in GA. apply arrayvec8_len in GR. lia.
  - apply HR in H as (a & _ & H). discriminate.
  - apply HR in H as (k & _ & H). destruct (negb _); [|destruct has_else]; discriminate.
  - destruct (Nat.leb _ _); [apply HR in H as (? & _ & H); discriminate|]. apply HR in H as (rf & _ & H). destruct (_ && _); [|discriminate].
    apply HR in H as (? & _ & H); discriminate.
  - destruct (BR _ _ _ _ _ _ H).
  - apply HR in H as (k & _ & H). destruct (Z.eqb _ _); [discriminate|]. destruct (BR _ _ _ _ _ _ H).
  - apply HR in H as (k & _ & H).
    destruct (if (cast_u 32 (payload k) <? Z.of_nat (length targets))%Z then nth _ targets default else default) as [[n t] tg].
    destruct (BR _ _ _ _ _ _ H).
Qed.
Definition locals_of (M : modul) (f : nat) : nat :=
  match nth_error (md_funcs M) f with Some (FWasm fd) => length (fst (fd_type fd)) + length (fd_locals fd) + calls_in M | _ => 0 end.
Record lsized (M : modul) (c : config) : Prop := {
  ls_loc : length (d_loc (s_d (c_v c))) <= locals_of M (c_fn c);
  ls_ret : length (s_ret (c_v c)) <= 8;
  ls_callers : Forall (fun f => length (f_loc f) <= locals_of M (f_fn f) /\ length (f_ret f) <= 8 /\ length (f_res f) <= 8) (c_callers c) }.
Lemma default_locals_len ts : forall ds, default_locals ts = Ok ds -> length ds = length ts.
Proof.
  induction ts as [|t ts IH]; intros ds H; cbn in H; [now injection H as <-|].
  destruct t; cbn in H; try discriminate; apply bind_inv in H as (d & H1 & H); injection H as <-; cbn; f_equal; eauto.
Qed.
Lemma step_lsized hf host M c c' : step hf host M c = SNext c' -> lsized M c -> lsized M c'.
Proof.
  intros S [A B C]. unfold step in S. destruct (nth_error (md_funcs M) (c_fn c)) as [[fd|]|] eqn:N; try discriminate.
  pose proof (hstep_small hf M (fd_code fd) (c_v c)) as K.
  assert (LEAVE : forall v, leave c v = SNext c' -> small_v (c_v c) v -> lsized M c').
  { intros v X _. unfold leave in X. destruct (c_callers c) as [|f fs]; [apply sres_inv in X as (? & _ & X); discriminate|].
    apply sres_inv in X as (vals & _ & X). apply sres_inv in X as (rf & _ & X). injection X as <-. inversion C as [|? ? (C1 & C2 & C3) C4]; subst.
    constructor; cbn; auto. }
  destruct (hstep hf M (fd_code fd) (c_v c)) as [v|v|[|w a r|f a rs] v| |] eqn:HS; try discriminate; try (specialize (K v eq_refl); destruct K as [K1 K2]).
  - injection S as <-. constructor; cbn; auto. now rewrite K1.
  - eapply LEAVE; eauto. split; auto.
  - eapply LEAVE; eauto. split; auto.
  - unfold call_host in S. destruct (host _); try discriminate. apply sres_inv in S as (rf & _ & S). injection S as <-. constructor; cbn; auto. now rewrite K1.
  - pose proof (invoke_args _ _ _ _ _ _ _ _ HS) as [IA IR]. apply nth_error_In in N. pose proof (in_sum func_calls _ _ N) as IS. cbn [func_calls] in IS. fold (calls_in M) in IS.
    destruct (nth_error (md_funcs M) f) as [[g|]|] eqn:F; try discriminate. unfold enter in S. apply sres_inv in S as (ds & D & S). injection S as <-. apply default_locals_len in D.
    constructor; cbn [c_v s_d d_loc c_fn s_ret c_callers].
    + unfold locals_of. rewrite F, app_length, D. lia.
    + cbn. lia.
    + constructor; auto. cbn [suspend f_loc f_fn f_ret f_res]. rewrite K1. auto.
Qed.
Lemma steps_lsized hf host M n : forall c c', steps hf host M n c = inl c' -> lsized M c -> lsized M c'.
Proof.
  induction n as [|n IH]; intros c c' H K; cbn [steps] in H; [now injection H as <-|].
  destruct (step hf host M c) as [c1| | | |] eqn:S; try discriminate. eapply IH; eauto. eapply step_lsized; eauto.
Qed.
Lemma initial_lsized M s f args c : initial M s f args = Ok c -> lsized M c.
Proof.
  unfold initial. destruct (nth_error (md_funcs M) f) as [[fd|]|] eqn:N; try discriminate. destruct (Nat.eqb (length args) _) eqn:L; [|discriminate]. intros H. injection H as <-.
  apply Nat.eqb_eq in L. constructor; cbn [c_v s_d d_loc c_fn s_ret c_callers]; [|cbn; lia|constructor]. unfold locals_of. rewrite N, app_length, map_length, L. lia.
Qed.
(** blocks *)
Definition openers (C : list instr) : nat := length (filter opener C).
Lemma height_openers C : forall n, (height C n <= Z.of_nat (openers C))%Z.
Proof.
  unfold openers. induction C as [|i C IH]; intros [|n]; cbn [height filter length]; try lia. specialize (IH n).
  destruct i; cbn [opener delta length]; lia.
Qed.
Lemma level_len C p n : level C p n -> n <= S (openers C).
Proof.
  intros (A & B & D). pose proof (height_openers C p). destruct (Nat.eq_dec p (length C)) as [E|E]; [rewrite (B E); lia|]. specialize (A ltac:(lia)). lia.
Qed.
Definition blocks_of (M : modul) (f : nat) : nat := match nth_error (md_funcs M) f with Some (FWasm fd) => S (openers (fd_code fd)) | _ => 0 end.
Lemma levels_blocks M c : levels M c -> length (s_labels (c_v c)) <= blocks_of M (c_fn c) /\ Forall (fun f => length (f_labels f) <= blocks_of M (f_fn f)) (c_callers c).
Proof.
  intros ((fd & N & L) & F). split; [unfold blocks_of; rewrite N; eapply level_len; eauto|]. eapply Forall_impl; [|exact F].
  intros f (g & N' & L'). unfold blocks_of. rewrite N'. eapply level_len; eauto.
Qed.

(** ** the whole *)
Definition all_slots (M : modul) (f : nat) : nat := list_sum (map (fun k => slots M k f) classes).
Definition cost (M : modul) (f : nat) : nat := all_slots M f + 6 + locals_of M f + blocks_of M f + 16.
Definition top_cost (M : modul) : nat := list_sum (map (cost M) (seq 0 (length (md_funcs M)))) + 22.
Lemma cost_le M f : cost M f <= top_cost M.
Proof.
  unfold top_cost. destruct (Nat.lt_ge_cases f (length (md_funcs M))) as [L|G].
  - pose proof (in_sum (cost M) (seq 0 (length (md_funcs M))) f). assert (In f (seq 0 (length (md_funcs M)))) by (apply in_seq; lia). specialize (H H0). lia.
  - apply nth_error_None in G. unfold cost, all_slots, locals_of, blocks_of, slots. rewrite G. cbn. lia.
Qed.
Lemma sum_add (g h : nat -> nat) l : list_sum (map (fun x => g x + h x) l) = list_sum (map g l) + list_sum (map h l).
Proof. unfold list_sum. induction l; cbn; lia. Qed.
Lemma list_sum_cons x l : list_sum (x :: l) = x + list_sum l. Proof. reflexivity. Qed.
Lemma regs_sum M fs rf : rsized M fs rf -> regs_size rf = list_sum (map (fun f => all_slots M f + 6) fs).
Proof.
  intros [A B]. unfold regs_size. apply stacked_len in B. rewrite B.
  assert (E : list_sum (map (fun k => length (sget (rf_vecs rf) k)) classes) = list_sum (map (all_slots M) fs)).
  { unfold classes, all_slots. cbn [map]. rewrite !A. clear. unfold list_sum. induction fs as [|f fs IH]; [reflexivity|]. cbn [map fold_right] in *. rewrite <- IH. unfold classes. cbn [map fold_right]. lia. }
  rewrite E, sum_add. clear. induction fs as [|f fs IH]; [reflexivity|]. cbn [map length]. rewrite !list_sum_cons in *. lia.
Qed.
Lemma size_cost M c : rsized M (active c) (d_rf (s_d (c_v c))) -> lsized M c -> levels M c -> config_size c <= list_sum (map (cost M) (active c)).
Proof.
  intros R [L1 L2 L3] LV. apply levels_blocks in LV as [B1 B2]. unfold config_size. rewrite (regs_sum _ _ _ R).
  assert (E : list_sum (map (cost M) (active c)) = list_sum (map (fun f => all_slots M f + 6) (active c)) + list_sum (map (fun f => locals_of M f + blocks_of M f + 16) (active c))).
  { rewrite <- sum_add. f_equal. apply map_ext. intros f. unfold cost. lia. }
  rewrite E. unfold active at 3. cbn [map]. rewrite list_sum_cons.
  assert (K : list_sum (map frame_size (c_callers c)) <= list_sum (map (fun f => locals_of M f + blocks_of M f + 16) (map f_fn (c_callers c)))).
  { clear -L3 B2. induction (c_callers c) as [|f fs IH]; [cbn; lia|]. inversion L3 as [|? ? (A1 & A2 & A3) A4]; subst. inversion B2; subst. cbn [map]. rewrite !list_sum_cons.
    unfold frame_size. specialize (IH A4). match goal with H : Forall _ fs |- _ => specialize (IH H) end. unfold frame_size in IH. lia. }
  lia.
Qed.
Lemma cost_sum M fs : list_sum (map (cost M) fs) <= top_cost M * length fs.
Proof. induction fs as [|f fs IH]; cbn [map length]; [cbn; lia|]. rewrite list_sum_cons. pose proof (cost_le M f). lia. Qed.

(** ** states of the runtime *)
Definition top_clean (st : rstate) : Prop := match r_frames st with (_, f) :: _ => f_res f = [] | [] => True end.
Lemma round_clean hf host M E D en0 k st o : top_clean st -> run_round hf host M E D en0 k st = Some o -> match o with RRun st' | RCheckpoint st' => top_clean st' | _ => True end.
Proof.
  intros T H. unfold run_round, top_clean in *. destruct (r_frames st) as [|[en f] rest]; [injection H as <-; exact Logic.I|].
  destruct (nth_error (md_funcs M) (f_fn f)) as [[fd|]|]; [|injection H as <-; exact Logic.I..].
  destruct (dispatch D hf M E (fd_code fd) k _ _) as [[q t]|]; [|discriminate]. injection H as <-.
  assert (RET : forall v, match (match rest with
                | [] => rres (r_log st) (rf_get_vals (d_rf (s_d v)) (firstn (f_n f) (s_ret v))) (fun vals => RDone vals (d_inst (s_d v)) (r_log st))
                | (en', g) :: rest' =>
                    rres (r_log st) (rf_get_vals (d_rf (s_d v)) (s_ret v)) (fun vals =>
                    rres (r_log st) (rf_set_vals (rf_restore (d_rf (s_d v))) (f_res g) vals) (fun rf =>
                      RRun {| r_rf := rf; r_frames := (en', with_res (with_ptr g (cur_ptr (d_inst (s_d v)))) []) :: rest';
                              r_inst := d_inst (s_d v); r_log := r_log st; r_t := t |}))
                end) with RRun st' | RCheckpoint st' => match r_frames st' with (_, f) :: _ => f_res f = [] | [] => True end | _ => True end).
  { intros v. destruct rest as [|[en' g] rest']; (destruct (rf_get_vals _ _); cbn [rres]; auto). destruct (rf_set_vals _ _ _); cbn [rres r_frames with_res f_res]; auto. }
  destruct q as [v|[|w a r|g a rs] v|x|v|]; auto; try apply RET.
  - cbv zeta. destruct (host _) as [| | |z|o ws]; auto. match goal with |- match rres _ ?r _ with _ => _ end => destruct r end; cbn [rres r_frames write_back f_res]; auto.
  - destruct (nth_error (md_funcs M) g) as [[gd|]|]; auto. destruct (default_locals _); cbn [rres r_frames f_res]; auto.
Qed.
Lemma loop_clean hf host M E D en0 k n : forall st, top_clean st -> match run_loop hf host M E D en0 k n st with RRun st' | RCheckpoint st' => top_clean st' | _ => True end.
Proof.
  induction n as [|n IH]; intros st T; cbn [run_loop]; auto. pose proof (round_clean hf host M E D en0 k st) as K.
  destruct (run_round _ _ _ _ _ _ _ _) as [[st'| | | |st'|]|]; auto.
  - exact (IH st' (K _ T eq_refl)).
  - exact (K _ T eq_refl).
Qed.
Lemma outermost_clean en0 fs : match fs with (_, f) :: _ => f_res f = [] | [] => True end -> match set_outermost en0 fs with (_, f) :: _ => f_res f = [] | [] => True end.
Proof.
  unfold set_outermost. destruct (rev fs) as [|[b f] r] eqn:E; auto. apply (f_equal (@rev _)) in E. rewrite rev_involutive in E. cbn [rev] in *. subst fs.
  destruct (rev r) as [|[b' f'] r']; cbn; auto.
Qed.
Lemma run_clean hf host M E D en0 k n st : top_clean st -> match run hf host M E D en0 k n st with RRun st' | RCheckpoint st' => top_clean st' | _ => True end.
Proof. intros T. unfold run. apply loop_clean. unfold top_clean. cbn [r_frames]. now apply outermost_clean. Qed.
Lemma restore_clean M s st g log t st' : top_clean st -> checkpoint st = Some g -> restore M s g log t = Some st' -> top_clean st'.
Proof.
  unfold checkpoint, top_clean. intros T C R. destruct (ser_state st); [|discriminate]. injection C as <-.
  unfold restore in R. cbn [g_mem g_globals g_funcs g_rf g_frames] in R.
  match type of R with match ?x with _ => _ end = _ => destruct x; [|discriminate] end. match type of R with match ?x with _ => _ end = _ => destruct x; [|discriminate] end.
  destruct (forallb _ _); [|discriminate]. injection R as <-. cbn [r_frames]. destruct (r_frames st) as [|[b f] fs]; cbn; auto.
Qed.
Lemma rel_size st c : rel st c -> top_clean st -> state_size st = config_size c /\ length (r_frames st) = length (active c).
Proof.
  intros (c1 & CO & [[[R L _ _ _] LB RT _] _ _ CS _]) T. unfold config_of in CO. unfold top_clean in T. unfold state_size, config_size, active. destruct (r_frames st) as [|[b f] rest]; [discriminate|].
  injection CO as <-. cbn [c_v c_callers resume s_d d_rf d_loc s_labels s_ret] in *. rewrite <- R, <- L, <- RT. cbn [map snd length]. rewrite !list_sum_cons. unfold frame_size at 1. rewrite T.
  assert (LL : length (f_labels f) = length (s_labels (c_v c))) by (apply (f_equal (@length _)) in LB; unfold labs in LB; now rewrite !map_length in LB).
  rewrite LL. cbn [length].
  assert (K : list_sum (map (fun p : bool * frame => frame_size (snd p)) rest) = list_sum (map frame_size (c_callers c)) /\ length rest = length (c_callers c)).
  { remember (map snd rest) as l eqn:E. revert rest E. clear -CS. induction CS as [|x y l l' H F IH]; intros [|[b' g] rest] E; try discriminate; auto.
    cbn [map snd] in *. injection E as E1 E2. subst x. destruct (IH _ E2) as [K1 K2]. rewrite !list_sum_cons, K1. split; [|cbn; now rewrite K2]. f_equal.
    destruct H as [_ HL HB _ HR HS _]. unfold frame_size. apply (f_equal (@length _)) in HB. unfold labs in HB. rewrite !map_length in HB. now rewrite HL, HB, HR, HS. }
  destruct K as [-> ->]. rewrite map_length. split; lia.
Qed.
