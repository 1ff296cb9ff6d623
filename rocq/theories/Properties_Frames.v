(** Properties of frames, registers and single instructions, for arbitrary modules and code:
    C17, C18, C19, C25, C26, C36, C40. *)
From Coq Require Import ZArith List Bool Lia.
From Verif Require Import Word Value WasmNum Mem MemProofs Store Regs IR Machine RegsProofs Sim FrameFacts Wasm WasmTyping Check Restrict Correct Examples.
Import ListNotations.
Open Scope nat_scope.

(** ** C36 typed registers *)
(** A register is named by class and index; [frame_has rf c i]: the running frame owns it. *)
Definition frame_has (rf : regfile) (c : cls) (i : nat) : Prop := sget (rf_cur rf) c + i < length (sget (rf_vecs rf) c).
Definition wop := (cls * nat * val)%type.
Fixpoint w_run (rf : regfile) (h : list wop) : res regfile :=
  match h with [] => Ok rf | (c, i, v) :: h => let* rf := rf_set rf c i v in w_run rf h end.
(** the value most recently written to register (c, i) *)
Fixpoint last_w (c : cls) (i : nat) (h : list wop) : option val :=
  match h with
  | [] => None
  | (c', j, v) :: h => match last_w c i h with
                       | Some v => Some v
                       | None => if cls_eqb c c' && Nat.eqb i j then Some v else None
                       end
  end.
(** Any history of writes: a read gives the last value written to that very register, or what was
    there before; exactly the registers the frame owns can be read and written. *)
Theorem C36_typed_registers : forall h rf rf', w_run rf h = Ok rf' ->
  (forall c i, rf_get rf' c i = match last_w c i h with Some v => Ok v | None => rf_get rf c i end) /\
  (forall c i, frame_has rf' c i <-> frame_has rf c i).
Proof.
  induction h as [|[[c j] v] h IH]; intros rf rf' H; cbn [w_run] in H; [injection H as ->; split; [auto|reflexivity]|].
  apply bind_inv in H as (rf1 & S1 & H). destruct (IH _ _ H) as [G F]. split.
  - intros c0 i. rewrite G. cbn [last_w]. destruct (last_w c0 i h); auto.
    destruct (cls_eqb c0 c && Nat.eqb i j) eqn:E.
    + apply andb_true_iff in E as [E1 E2]. apply StoreProofs.cls_eqb_eq in E1. apply Nat.eqb_eq in E2. subst. eapply get_set_same; eauto.
    + eapply get_set_other; [exact S1|]. intros X. injection X as -> ->. rewrite StoreProofs.cls_eqb_refl, Nat.eqb_refl in E. discriminate.
  - intros c0 i. rewrite F. apply wr_set in S1 as (_ & C1 & L1). unfold frame_has. rewrite C1. destruct (L1 c0) as [-> _]. reflexivity.
Qed.
Theorem C36_owned : forall rf c i, (frame_has rf c i <-> exists v, rf_get rf c i = Ok v) /\
  (forall v, frame_has rf c i <-> exists rf', rf_set rf c i v = Ok rf').
Proof.
  intros rf c i. unfold frame_has. split.
  - split; [|intros [v H]; eapply rf_get_lt; eauto]. intros L. unfold rf_get. destruct (nth_error _ _) eqn:E; [cbn; eauto|].
    apply nth_error_None in E. lia.
  - intros v. split; [|intros [rf' H]; now apply rf_set_inv in H]. intros L. unfold rf_set. apply Nat.ltb_lt in L. rewrite L. eauto.
Qed.
(** the dynamically typed interface used for call results *)
Theorem C36_set_val : forall rf r v rf', rf_set_val rf r v = Ok rf' -> val_cls v = r_cls r -> r_cls r <> CV128 ->
  rf_get_val rf' r = Ok v /\ forall r', r' <> r -> rf_get_val rf' r' = rf_get_val rf r'.
Proof.
  intros rf r v rf' H E N. assert (S : rf_set rf (r_cls r) (r_idx r) v = Ok rf').
  { unfold rf_set_val in H. rewrite E in H. destruct (r_cls r); cbn in H; auto. congruence. }
  split; [eapply get_set_same; eauto|]. intros [c i] D. eapply get_set_other; eauto. destruct r; cbn. congruence.
Qed.
(** a v128 value written through that interface is lost *)
Theorem C36_set_val_v128_refuted : exists rf rf' v, rf_set_val rf (R CV128 0) v = Ok rf' /\ val_cls v = CV128 /\ frame_has rf CV128 0 /\
  rf_get_val rf' (R CV128 0) <> Ok v.
Proof.
  exists (rf_save rf_new (sbuild (fun _ => 1))). eexists. exists (VV128 1). split; [reflexivity|]. split; [reflexivity|]. split; [cbv; lia|].
  vm_compute. discriminate.
Qed.
Example C36_example : exists rf', w_run (rf_save rf_new (sbuild (fun _ => 2))) [(CI32, 1, VI32 7); (CI64, 1, VI64 8); (CI32, 0, VI32 9); (CI32, 1, VI32 3)] = Ok rf' /\
  rf_get rf' CI32 1 = Ok (VI32 3) /\ rf_get rf' CI64 1 = Ok (VI64 8) /\ rf_get rf' CF32 1 = Ok (VF32 0).
Proof. eexists. split; [reflexivity|]. repeat split. Qed.

(** ** C19 transfers are parallel moves *)
(** The copying loop has the effect of a parallel move whenever no register is read after it has
    been written. *)
Theorem C19_copy_partial : forall src dst rf rf',
  rf_copies rf src dst = Ok rf' -> Forall2 (fun s d => r_cls s = r_cls d) src dst -> NoDup dst ->
  (forall i j s d, i < j -> nth_error dst i = Some d -> nth_error src j = Some s -> d <> s) ->
  (forall i s d, nth_error src i = Some s -> nth_error dst i = Some d -> rf_get_val rf' d = rf_get_val rf s) /\
  (forall r, ~ In r dst -> rf_get_val rf' r = rf_get_val rf r).
Proof.
  induction src as [|s src IH]; intros dst rf rf' H F N C; inversion F as [|? d ? dst' E F' X1 X2]; subst; cbn [rf_copies] in H.
  - injection H as ->. split; auto. intros [|i] ? ? X; discriminate.
  - apply bind_inv in H as (rf1 & H1 & H2). unfold rf_copy in H1. rewrite E, StoreProofs.cls_eqb_refl in H1. apply bind_inv in H1 as (v & G & S1).
    inversion N as [|? ? N1 N2]; subst.
    destruct (IH _ _ _ H2 F' N2) as [A B].
    { intros i j s0 d0 L X Y. apply (C (S i) (S j)); auto; lia. }
    assert (O : forall r, r <> d -> rf_get_val rf1 r = rf_get_val rf r).
    { intros r D. eapply get_set_other; [exact S1|]. destruct r, d; cbn. congruence. }
    split.
    + intros [|i] s0 d0 X Y; cbn in X, Y.
      * injection X as <-. injection Y as <-. rewrite B by auto. unfold rf_get_val. rewrite (get_set_same _ _ _ _ _ S1), E. auto.
      * rewrite (A i s0 d0) by auto. apply O. intros ->. apply (C 0 (S i) d d); auto; lia.
    + intros r D. rewrite B by (intros X; apply D; right; auto). apply O. intros ->. apply D. now left.
Qed.
Lemma number_nth ts : forall s i r, nth_error (number_regs s ts) i = Some r ->
  exists t, nth_error ts i = Some t /\ r = R (class_of t) (u16 (sget s (class_of t) + count_cls (class_of t) (firstn i ts))).
Proof.
  induction ts as [|t ts IH]; intros s [|i] r H; cbn in H; try discriminate.
  - injection H as <-. exists t. split; [reflexivity|]. cbn [firstn]. unfold count_cls. cbn [filter length]. rewrite Nat.add_0_r. reflexivity.
  - destruct (IH _ _ _ H) as (t' & A & ->). exists t'. split; auto. cbn [firstn]. unfold count_cls. cbn [filter].
    unfold incr. rewrite sget_sset. destruct (cls_eqb (class_of t) (class_of t')) eqn:E; cbn [length]; auto.
    apply StoreProofs.cls_eqb_eq in E. rewrite E. do 2 f_equal; lia.
Qed.
Lemma count_mono c ts : forall i j, i < j -> j <= length ts -> forall t, nth_error ts i = Some t -> class_of t = c ->
  count_cls c (firstn i ts) < count_cls c (firstn j ts).
Proof.
  intros i j L J t H E. replace j with (i + (j - i)) by lia. rewrite <- (firstn_skipn i (firstn (i + (j - i)) ts)).
  rewrite firstn_firstn. replace (Nat.min i (i + (j - i))) with i by lia. unfold count_cls. rewrite filter_app, app_length.
  enough (0 < length (filter (fun t0 => cls_eqb (class_of t0) c) (skipn i (firstn (i + (j - i)) ts)))) by lia.
  assert (IN : In t (skipn i (firstn (i + (j - i)) ts))).
  { apply nth_error_In with (n := 0). rewrite <- (nth_error_firstn_lt ts (i + (j - i)) i ltac:(lia)) in H.
    clear -H. revert H. generalize (firstn (i + (j - i)) ts) as l. induction i; intros [|x l] H; cbn in *; auto; discriminate. }
  assert (IF : In t (filter (fun t0 => cls_eqb (class_of t0) c) (skipn i (firstn (i + (j - i)) ts)))).
  { apply filter_In. split; auto. rewrite E. apply StoreProofs.cls_eqb_refl. }
  destruct (filter _ _); [destruct IF|cbn; lia].
Qed.
(** Block ends (and returns): both lists number the result types class by class from a base; the
    target base is the stack height at the block's start, the source base is at least that.  The
    loop then is a parallel move, whatever the overlap. *)
Theorem C19_block_results : forall ts (hi lo : six nat) rf rf',
  (forall c, sget lo c <= sget hi c) -> (forall c, (Z.of_nat (sget hi c + length ts) <= 65536)%Z) ->
  rf_copies rf (number_regs hi ts) (number_regs lo ts) = Ok rf' ->
  (forall i s d, nth_error (number_regs hi ts) i = Some s -> nth_error (number_regs lo ts) i = Some d -> rf_get_val rf' d = rf_get_val rf s) /\
  (forall r, ~ In r (number_regs lo ts) -> rf_get_val rf' r = rf_get_val rf r).
Proof.
  intros ts hi lo rf rf' LE SM H.
  assert (CB : forall c l, count_cls c l <= length l). { intros c l. unfold count_cls. induction l as [|x l IHl]; cbn; auto. destruct (cls_eqb _ _); cbn; lia. }
  assert (FL : forall i t, nth_error ts i = Some t -> length (firstn i ts) < length ts).
  { intros i t X. rewrite firstn_length. assert (i < length ts) by (apply nth_error_Some; congruence). lia. }
  apply C19_copy_partial; auto.
  - clear -H. revert hi lo H. induction ts as [|t ts IH]; intros hi lo H; cbn; constructor; auto.
    cbn [number_regs rf_copies] in H. apply bind_inv in H as (rf1 & H1 & H2). clear H1. revert IH H2. clear. intros IH H2.
    clear H2. generalize (incr hi (class_of t)) (incr lo (class_of t)). clear IH. induction ts; intros; cbn; constructor; auto.
  - apply NoDup_nth_error. intros i j Hi E. destruct (Nat.lt_total i j) as [L|[|L]]; auto; exfalso.
    + destruct (nth_error (number_regs lo ts) i) eqn:A; [|apply nth_error_None in A; lia]. symmetry in E.
      apply number_nth in A as (t & A1 & A2). apply number_nth in E as (t' & E1 & E2). rewrite A2 in E2. injection E2 as EC EI.
      specialize (SM (class_of t)). specialize (LE (class_of t)). pose proof (FL _ _ A1). pose proof (FL _ _ E1).
      pose proof (CB (class_of t) (firstn i ts)). pose proof (CB (class_of t') (firstn j ts)). rewrite <- EC in *.
      rewrite !u16_small in EI by lia. assert (j < length ts) by (apply nth_error_Some; congruence).
      pose proof (count_mono (class_of t) ts i j L ltac:(lia) t A1 eq_refl). lia.
    + destruct (nth_error (number_regs lo ts) i) eqn:A; [|apply nth_error_None in A; lia]. symmetry in E.
      apply number_nth in A as (t & A1 & A2). apply number_nth in E as (t' & E1 & E2). rewrite A2 in E2. injection E2 as EC EI.
      specialize (SM (class_of t)). specialize (LE (class_of t)). pose proof (FL _ _ A1). pose proof (FL _ _ E1).
      pose proof (CB (class_of t) (firstn i ts)). pose proof (CB (class_of t') (firstn j ts)). rewrite <- EC in *.
      rewrite !u16_small in EI by lia. assert (i < length ts) by (apply nth_error_Some; congruence).
      pose proof (count_mono (class_of t) ts j i L ltac:(lia) t' E1 (eq_sym EC)). lia.
  - intros i j s d L A B E. subst d. apply number_nth in A as (t & A1 & A2). apply number_nth in B as (t' & B1 & B2). rewrite A2 in B2. injection B2 as EC EI.
    pose proof (SM (class_of t)). pose proof (LE (class_of t)). pose proof (FL _ _ A1). pose proof (FL _ _ B1).
    pose proof (CB (class_of t) (firstn i ts)). pose proof (CB (class_of t') (firstn j ts)). rewrite <- EC in *.
    rewrite !u16_small in EI by lia. assert (j < length ts) by (apply nth_error_Some; congruence).
    pose proof (count_mono (class_of t) ts i j L ltac:(lia) t A1 eq_refl). lia.
Qed.
(** in general the loop is not a parallel move: exchanging two registers loses one value *)
Theorem C19_swap_refuted : exists rf rf', rf_copies rf [R CI32 0; R CI32 1] [R CI32 1; R CI32 0] = Ok rf' /\
  rf_get_val rf (R CI32 0) = Ok (VI32 5) /\ rf_get_val rf (R CI32 1) = Ok (VI32 6) /\
  rf_get_val rf' (R CI32 1) = Ok (VI32 5) /\ rf_get_val rf' (R CI32 0) = Ok (VI32 5).
Proof.
  exists (RF (sset (sbuild (fun _ => [])) CI32 [VI32 5; VI32 6]) [sbuild (fun _ => 0)] (sbuild (fun _ => 0))). eexists.
  split; [vm_compute; reflexivity|]. repeat split.
Qed.
(** overlapping, mixed classes *)
Example C19_example : exists rf', let ts := [TI32; TI64; TI32] in
  let rf := RF (sset (sset (sbuild (fun _ => [])) CI32 [VI32 1; VI32 2; VI32 3]) CI64 [VI64 4; VI64 5]) [sbuild (fun _ => 0)] (sbuild (fun _ => 0)) in
  rf_copies rf (number_regs (sbuild (fun _ => 1)) ts) (number_regs (sbuild (fun _ => 0)) ts) = Ok rf' /\
  rf_get_vals rf' [R CI32 0; R CI64 0; R CI32 1] = Ok [VI32 2; VI64 5; VI32 3].
Proof. eexists. split; [vm_compute; reflexivity|]. reflexivity. Qed.

(** ** C18 caller isolation *)
Definition regs (c : config) (k : cls) : list val := sget (rf_vecs (d_rf (s_d (c_v c)))) k.
Definition locals (c : config) : list val := d_loc (s_d (c_v c)).
Definition reg_of (c : config) (k : cls) (i : nat) : res val := rf_get (d_rf (s_d (c_v c))) k i.
Definition depth (c : config) : nat := length (c_callers c).
(** Any module, any code, any host.  [c1] is the configuration a call made from [c] has just
    produced, [c2] a later one, the call not having returned in between.  While the call is in
    progress the caller's frame is kept as it was and no register that existed at the call has
    changed (those of [c] itself and of every older frame); once it has returned, the caller goes
    on behind the call with its locals, and all registers but those named for the results. *)
Theorem C18_caller_isolation : forall hf host M s f args c0 n0 c c1 fr n c2,
  initial M s f args = Ok c0 -> steps hf host M n0 c0 = inl c ->
  step hf host M c = SNext c1 -> c_callers c1 = fr :: c_callers c ->
  steps hf host M n c1 = inl c2 ->
  (forall j cj, j < n -> steps hf host M j c1 = inl cj -> depth c < depth cj) ->
  (depth c < depth c2 ->
     f_loc fr = locals c /\ (exists G, c_callers c2 = G ++ fr :: c_callers c) /\
     forall k p, p < length (regs c k) -> nth_error (regs c2 k) p = nth_error (regs c k) p) /\
  (depth c2 <= depth c ->
     c_fn c2 = c_fn c /\ c_callers c2 = c_callers c /\ locals c2 = locals c /\ s_pc (c_v c2) = S (s_pc (c_v c)) /\
     length (s_labels (c_v c2)) = length (s_labels (c_v c)) /\
     (forall k i, ~ In (R k i) (f_res fr) -> reg_of c2 k i = reg_of c k i) /\
     forall k, length (regs c2 k) = length (regs c k) /\
       forall p, p < sget (rf_cur (d_rf (s_d (c_v c)))) k -> nth_error (regs c2 k) p = nth_error (regs c k) p).
Proof.
  intros hf host M s f args c0 n0 c c1 fr n c2 I0 H0 H1 HC H2 NR.
  assert (F : framed c) by (eapply framed_steps; [eapply framed_initial; eauto|eauto]).
  assert (D1 : during c (f_res fr) c1 /\ fr = suspend c (goto (c_v c) (S (s_pc (c_v c)))) (f_res fr)).
  { pose proof (step_move _ _ _ _ _ H1) as X. destruct X as [_ _ _ X|g fd a rs ds HF HD HV X Hf|v g fs vals rf _ X _ _ _ _ Y _].
    - rewrite HC in X. apply (f_equal (@length _)) in X. cbn in X. lia.
    - rewrite HC in X. injection X as ->. split; [|reflexivity]. exists [], []. cbn [app]. split; [exact HC|]. split; [reflexivity|].
      rewrite HV. cbn [s_d d_rf rf_save rf_stack rf_vecs]. split; [reflexivity|]. split; [constructor|]. intros k. rewrite sget_sbuild, app_length. split; [lia|].
      intros p P. now rewrite nth_error_app1.
    - rewrite HC in Y. rewrite <- Y in X. apply (f_equal (@length _)) in X. cbn in X. lia. }
  destruct D1 as [D1 EF].
  assert (Z : during c (f_res fr) c2 \/ returned c (f_res fr) c2).
  { assert (F1 : framed c1) by (eapply framed_step; eauto). clear H1 HC H0 I0 EF. revert c1 D1 F1 H2 NR.
    induction n as [|n IH]; intros c1 D1 F1 H2 NR; cbn [steps] in H2; [injection H2 as <-; auto|].
    destruct (step hf host M c1) as [c1'| | | |] eqn:E; try discriminate.
    assert (F1' : framed c1') by (eapply framed_step; eauto).
    destruct (during_step _ _ _ _ _ _ _ F F1 D1 E) as [D|R].
    - apply (IH c1'); auto. intros j cj L X. apply (NR (S j)); [lia|]. cbn [steps]. now rewrite E.
    - destruct n as [|n]; [cbn in H2; injection H2 as <-; auto|].
      specialize (NR 1 c1' ltac:(lia)). cbn [steps] in NR. rewrite E in NR. specialize (NR eq_refl).
      destruct R as (_ & _ & R & _). unfold depth in NR. rewrite R in NR. lia. }
  split; intros L.
  - destruct Z as [(G & st & Z1 & Z2 & Z3 & Z4 & Z5)|(_ & _ & R & _)]; [|unfold depth in L; rewrite R in L; lia].
    split; [rewrite EF; reflexivity|]. split; [exists G; rewrite EF; exact Z1|]. intros k p P. apply Z5; auto.
  - destruct Z as [(G & st & Z1 & _)|R]; [unfold depth in L; rewrite Z1, app_length in L; cbn in L; lia|].
    destruct R as (R1 & _ & R2 & R3 & R4 & R5 & _ & vals & R7).
    split; [exact R1|]. split; [exact R2|]. split; [exact R3|]. split; [exact R5|]. split.
    + rewrite R4. destruct (s_labels (c_v c)); auto.
    + split; [intros k i N; eapply set_vals_other; eauto|]. apply wr_set_vals in R7 as (_ & _ & R7). exact R7.
Qed.
(** the caller keeps a local and a register (holding 7) across the call *)
Definition p_caller : smodule :=
  {| sm_types := [];
     sm_funcs := [ func [TI32] [TI32] [] [i32c 7; drop; get 0; get 0; CCall 1; isub];
                   func [TI32] [TI32] [] [i32c 1; set 0; get 0] ] |}.
Example C18_example : exists M c0 c c1 fr c2, compile p_caller = Some M /\ initial M inst0 0 [VI32 2] = Ok c0 /\
  steps hf0 host0 M 3 c0 = inl c /\ step hf0 host0 M c = SNext c1 /\ c_callers c1 = fr :: c_callers c /\
  steps hf0 host0 M 5 c1 = inl c2 /\ depth c2 = depth c /\ locals c2 = [VI32 2] /\ reg_of c2 CI32 1 = Ok (VI32 1) /\ reg_of c CI32 1 = Ok (VI32 2) /\ f_res fr = [R CI32 1].
Proof.
  do 6 eexists. split; [vm_compute; reflexivity|]. split; [vm_compute; reflexivity|]. split; [vm_compute; reflexivity|].
  split; [vm_compute; reflexivity|]. split; [vm_compute; reflexivity|]. split; [vm_compute; reflexivity|]. repeat split.
Qed.

(** ** C17 call_indirect *)
Definition at_instr (M : modul) (c : config) (i : instr) : Prop :=
  exists fd, nth_error (md_funcs M) (c_fn c) = Some (FWasm fd) /\ nth_error (fd_code fd) (s_pc (c_v c)) = Some i.
(** what the standard lets the call reach: entry number [k] (unsigned) of the table is a reference
    to a function whose type is the immediate's *)
Definition may_call (M : modul) (s : inst) (ty tb : nat) (k : Z) (f : nat) : Prop :=
  exists tbl fn, nth_error (i_tables s) tb = Some tbl /\ nth_error tbl (Z.to_nat (unsigned 32 k)) = Some (RFunc f) /\
    nth_error (md_funcs M) f = Some fn /\ nth_error (md_types M) ty = Some (func_type fn).
Lemma ftype_eqb_iff a b : ftype_eqb a b = true <-> a = b.
Proof.
  split; [apply Soundness.ftype_eqb_eq|]. intros <-. destruct a as [p r]. unfold ftype_eqb, vts_eqb. cbn.
  assert (H : forall l, forallb (fun p0 : valtype * valtype => valtype_eqb (fst p0) (snd p0)) (combine l l) = true).
  { induction l as [|t l IH]; cbn; auto. rewrite IH. now destruct t. }
  now rewrite !Nat.eqb_refl, !H.
Qed.
Lemma cast_unsigned k : in_s 32 k -> cast_u 32 k = unsigned 32 k.
Proof. apply NumericProofs.unsigned_cast_u. lia. Qed.
Theorem C17_call_indirect : forall hf host M c ty tb idx ps rs k,
  at_instr M c (ICallInd ty tb idx ps rs) -> reg_of c CI32 idx = Ok (VI32 k) -> in_s 32 k ->
  (* control goes nowhere else *)
  (forall c', step hf host M c = SNext c' ->
     exists f, may_call M (d_inst (s_d (c_v c))) ty tb k f /\ c_fn c' = f /\ depth c' = S (depth c) /\
       s_pc (c_v c') = 0 /\ d_inst (s_d (c_v c')) = d_inst (s_d (c_v c)) /\ c_log c' = c_log c) /\
  (* null, out of range, wrong type: a trap, nothing having been called or logged *)
  ((forall f, ~ may_call M (d_inst (s_d (c_v c))) ty tb k f) -> exists t, step hf host M c = STrap t (c_log c)) /\
  (* and a function of the right type is reached with the arguments *)
  (forall f fd args ds, may_call M (d_inst (s_d (c_v c))) ty tb k f -> nth_error (md_funcs M) f = Some (FWasm fd) ->
     rf_get_vals (d_rf (s_d (c_v c))) ps = Ok args -> length rs <= 8 -> default_locals (fd_locals fd) = Ok ds ->
     exists c', step hf host M c = SNext c' /\ c_fn c' = f /\ locals c' = args ++ ds).
Proof.
  intros hf host M c ty tb idx ps rs k (fd & NF & NI) G K. unfold reg_of in G.
  unfold step. rewrite NF. unfold hstep. rewrite NI, G. cbn [hres payload]. unfold table_func. rewrite cast_unsigned by auto.
  split; [|split].
  - intros c' H. destruct (nth_error (i_tables (d_inst (s_d (c_v c)))) tb) as [tbl|] eqn:T; [|discriminate].
    destruct (nth_error tbl (Z.to_nat (unsigned 32 k))) as [[|f|]|] eqn:R; try discriminate. cbn [hres] in H.
    destruct (nth_error (md_funcs M) f) as [fn|] eqn:F; [|discriminate]. destruct (nth_error (md_types M) ty) as [t|] eqn:Y; [|discriminate].
    destruct (ftype_eqb (func_type fn) t) eqn:E; [|discriminate]. apply ftype_eqb_iff in E. subst t.
    destruct (rf_get_vals (d_rf (s_d (c_v c))) ps) as [args| |]; try discriminate. cbn [hres] in H.
    destruct (arrayvec8 rs) as [rs'| |]; try discriminate. cbn [hres] in H. rewrite F in H. destruct fn as [g|]; [|discriminate].
    unfold enter in H. apply sres_inv in H as (ds & D & H). injection H as <-. exists f. cbn. split; [exists tbl, (FWasm g); auto|]. repeat split.
  - intros N. destruct (nth_error (i_tables (d_inst (s_d (c_v c)))) tb) as [tbl|] eqn:T; [|cbn; eauto].
    destruct (nth_error tbl (Z.to_nat (unsigned 32 k))) as [[|f|]|] eqn:R; cbn [hres]; eauto.
    destruct (nth_error (md_funcs M) f) as [fn|] eqn:F; [|eauto]. destruct (nth_error (md_types M) ty) as [t|] eqn:Y; [|eauto].
    destruct (ftype_eqb (func_type fn) t) eqn:E; [|eauto]. apply ftype_eqb_iff in E. subst t. destruct (N f). exists tbl, fn. auto.
  - intros f g args ds (tbl & fn & T & R & F & Y) F' A L D. rewrite T, R. cbn [hres]. rewrite F, Y.
    replace (ftype_eqb (func_type fn) (func_type fn)) with true by (symmetry; now apply ftype_eqb_iff). rewrite A. cbn [hres].
    unfold arrayvec8. apply Nat.leb_le in L. rewrite L. cbn [hres]. rewrite F'. unfold enter. rewrite D. cbn. eexists. split; [reflexivity|]. auto.
Qed.
(** entry 0: right type; 1: wrong type; 2: null; 3: outside *)
Definition p_ind : smodule :=
  {| sm_types := [([], [TI32])];
     sm_funcs := [ func [] [TI32] [] [i32c 11]; func [TI32] [TI32] [] [get 0]; func [TI32] [TI32] [] [get 0; CCallInd 0 0] ] |}.
Definition inst_ind : inst := {| i_mem := i_mem inst0; i_globals := []; i_tables := [[RFunc 0; RFunc 1; RNull]]; i_datas := i_datas inst0 |}.
Example C17_example : (exists x l, runm p_ind 2 [VI32 0] inst_ind 60 = Some (inr (Done [VI32 11] x l))) /\
  runm p_ind 2 [VI32 1] inst_ind 60 = Some (inr (Trapped TTypeMismatch [])) /\ runm p_ind 2 [VI32 2] inst_ind 60 = Some (inr (Trapped THost [])) /\
  runm p_ind 2 [VI32 (-1)] inst_ind 60 = Some (inr (Trapped THost [])).
Proof. split; [do 2 eexists; vm_compute; reflexivity|]. repeat split. Qed.

(** ** C25 br_table, one instruction *)
(** br_table acts exactly as a br to the selected entry: entry k if k, read as unsigned, is below
    the number of entries, the default otherwise. *)
Theorem C25_selection : forall hf M code v ts dflt idx src k d t tgt,
  nth_error code (s_pc v) = Some (IBrTable ts dflt idx src) -> rf_get (d_rf (s_d v)) CI32 idx = Ok (VI32 k) -> in_s 32 k ->
  (nth_error ts (Z.to_nat (unsigned 32 k)) = Some (d, t, tgt) \/ (Z.of_nat (length ts) <= unsigned 32 k)%Z /\ dflt = (d, t, tgt)) ->
  hstep hf M code v = hstep hf M (upd code (s_pc v) (IBr d t src tgt)) v.
Proof.
  intros hf M code v ts dflt idx src k d t tgt NI G IK SEL. unfold hstep.
  assert (L : s_pc v < length code) by (apply nth_error_Some; congruence).
  rewrite NI, upd_nth_eq by auto. rewrite G. cbn [hres payload]. rewrite cast_unsigned by auto.
  assert (U : (0 <= unsigned 32 k)%Z) by (rewrite <- cast_unsigned by auto; apply Z.mod_pos_bound; reflexivity).
  destruct SEL as [SEL|[SEL ->]].
  - assert (K : Z.to_nat (unsigned 32 k) < length ts) by (apply nth_error_Some; congruence).
    replace (unsigned 32 k <? Z.of_nat (length ts))%Z with true by (symmetry; apply Z.ltb_lt; lia).
    erewrite nth_error_nth by exact SEL. reflexivity.
  - replace (unsigned 32 k <? Z.of_nat (length ts))%Z with false by (symmetry; apply Z.ltb_ge; lia). reflexivity.
Qed.

(** ** C26 calls *)
(** A direct call: arguments in order, declared locals zero, callee's registers zero, execution at
    the callee's first instruction. *)
Theorem C26_call_enters : forall hf host M c f ps rs args fd,
  at_instr M c (ICall f ps rs) -> nth_error (md_funcs M) f = Some (FWasm fd) ->
  rf_get_vals (d_rf (s_d (c_v c))) ps = Ok args -> length rs <= 8 ->
  forallb (fun t => negb (is_ref t)) (fd_locals fd) = true ->
  exists c' fr, step hf host M c = SNext c' /\ c_fn c' = f /\ s_pc (c_v c') = 0 /\
    locals c' = args ++ map (fun t => default_of (class_of t)) (fd_locals fd) /\
    c_callers c' = fr :: c_callers c /\ f_res fr = rs /\ f_fn fr = c_fn c /\
    (forall k i, i < sget (fd_alloc fd) k -> reg_of c' k i = Ok (default_of k)) /\
    d_inst (s_d (c_v c')) = d_inst (s_d (c_v c)) /\ c_log c' = c_log c.
Proof.
  intros hf host M c f ps rs args fd (g & NF & NI) F A L NR. unfold step. rewrite NF. unfold hstep. rewrite NI, F, A. cbn [hres].
  unfold arrayvec8. apply Nat.leb_le in L. rewrite L. cbn [hres]. rewrite F. unfold enter.
  assert (D : default_locals (fd_locals fd) = Ok (map (fun t => default_of (class_of t)) (fd_locals fd))).
  { clear -NR. induction (fd_locals fd) as [|t ts IH]; cbn in *; auto. apply andb_true_iff in NR as [N1 N2]. rewrite IH by auto. now destruct t. }
  rewrite D. cbn [sres]. do 2 eexists. split; [reflexivity|]. cbn. repeat (split; [reflexivity|]). split; [|auto].
  intros k i Hi. unfold reg_of, rf_get. cbn [c_v s_d d_rf rf_save rf_vecs rf_cur]. rewrite !sget_sbuild. rewrite nth_error_app2 by lia.
  replace (length (sget (rf_vecs (d_rf (s_d (c_v c)))) k) + i - length (sget (rf_vecs (d_rf (s_d (c_v c)))) k)) with i by lia.
  rewrite nth_error_repeat by auto. reflexivity.
Qed.
Lemma set_get_vals rs : forall rf vals rf', rf_set_vals rf rs vals = Ok rf' -> Forall2 (fun r x => val_cls x = r_cls r /\ r_cls r <> CV128) rs vals ->
  NoDup rs -> rf_get_vals rf' rs = Ok vals.
Proof.
  induction rs as [|r rs IH]; intros rf vals rf' H F N; inversion F as [|? v ? vs [E1 E2] F' X1 X2]; subst; [reflexivity|].
  cbn [rf_set_vals] in H. apply bind_inv in H as (rf1 & H1 & H2). inversion N as [|? ? N1 N2]; subst. cbn [rf_get_vals].
  destruct (C36_set_val _ _ _ _ H1 E1 E2) as [G _]. unfold rf_get_val at 1. destruct r as [rc ri]; cbn [r_cls r_idx] in *.
  rewrite (set_vals_other _ _ _ _ _ _ H2 N1). unfold rf_get_val in G. cbn in G. rewrite G. cbn [bind].
  rewrite (IH _ _ _ H2 F' N2). reflexivity.
Qed.
(** Leaving a function (end of body or return): the values of the result registers reach the
    caller's receiving registers in order; the caller continues where it was suspended. *)
Theorem C26_return_delivers : forall hf host M c fd v fr fs vals,
  nth_error (md_funcs M) (c_fn c) = Some (FWasm fd) ->
  (hstep hf M (fd_code fd) (c_v c) = HHalt v \/ hstep hf M (fd_code fd) (c_v c) = HYield YReturn v) ->
  c_callers c = fr :: fs -> rf_get_vals (d_rf (s_d v)) (s_ret v) = Ok vals ->
  forall c', step hf host M c = SNext c' ->
    c_fn c' = f_fn fr /\ c_callers c' = fs /\ locals c' = f_loc fr /\ d_inst (s_d (c_v c')) = d_inst (s_d v) /\ c_log c' = c_log c /\
    (Forall2 (fun r x => val_cls x = r_cls r /\ r_cls r <> CV128) (f_res fr) vals -> NoDup (f_res fr) ->
       rf_get_vals (d_rf (s_d (c_v c'))) (f_res fr) = Ok vals).
Proof.
  intros hf host M c fd v fr fs vals NF HS HC G c' ST. unfold step in ST. rewrite NF in ST.
  assert (ST' : leave c v = SNext c') by (destruct HS as [HS|HS]; rewrite HS in ST; exact ST). clear ST HS.
  unfold leave in ST'. rewrite HC, G in ST'. cbn [sres] in ST'. apply sres_inv in ST' as (rf & R & ST'). injection ST' as <-. cbn.
  repeat (split; [reflexivity|]). intros F N. eapply set_get_vals; eauto.
Qed.

(** ** C40 select *)
(** the handler: register [t] receives the first operand if the condition is not zero, the second
    otherwise; nothing else changes *)
Theorem C40_select : forall hf M code v c t v1 v2 kr k x1 x2,
  nth_error code (s_pc v) = Some (ISelect c t v1 v2 kr) ->
  rf_get (d_rf (s_d v)) CI32 kr = Ok (VI32 k) -> rf_get (d_rf (s_d v)) c v1 = Ok x1 -> rf_get (d_rf (s_d v)) c v2 = Ok x2 ->
  frame_has (d_rf (s_d v)) c t ->
  exists v', hstep hf M code v = HNext v' /\ s_pc v' = S (s_pc v) /\ s_labels v' = s_labels v /\ d_loc (s_d v') = d_loc (s_d v) /\
    d_inst (s_d v') = d_inst (s_d v) /\ rf_get (d_rf (s_d v')) c t = Ok (if Z.eqb k 0 then x2 else x1) /\
    forall c' i, (c', i) <> (c, t) -> rf_get (d_rf (s_d v')) c' i = rf_get (d_rf (s_d v)) c' i.
Proof.
  intros hf M code v c t v1 v2 kr k x1 x2 NI G G1 G2 FH. unfold hstep. rewrite NI. cbn [dstep]. unfold do_select. rewrite G. cbn [bind payload].
  replace (rf_get (d_rf (s_d v)) c (if Z.eqb k 0 then v2 else v1)) with (Ok (if Z.eqb k 0 then x2 else x1)) by (destruct (Z.eqb k 0); auto).
  cbn [bind]. apply (proj2 (C36_owned _ _ _) (if Z.eqb k 0 then x2 else x1)) in FH as [rf' S1]. rewrite S1. cbn [bind].
  eexists. split; [reflexivity|]. cbn. repeat (split; [reflexivity|]). split; [eapply get_set_same; eauto|].
  intros c' i D. eapply get_set_other; eauto.
Qed.
