(** Property theorems C72: the execution of a program that makes no NaN is the same on every machine with IEEE 754
    floating point, also when it is moved between such machines. *)
From Coq Require Import ZArith List Bool Lia.
From Verif Require Import Word Value Numeric Float FloatProofs Mem WasmNum WasmFloat Store Regs IR Machine Wasm Soundness PrimFacts Decoder Check Runtime SimState RuntimeProofs MigrationProofs Layout Properties_Layout Properties_Runtime EmitTyped RangeProofs Ieee RoundSpec RoundProofs Properties_Ieee NanSpec PortProofs Examples ExecFacts EmitProofs.
Import ListNotations.
Open Scope nat_scope.

Lemma module_fines SM M : compile SM = Some M -> forallb (oksrc (fun _ => true) val_okb) (sm_funcs SM) = true -> fines M.
Proof. intros C O x fd NX. apply (f_compile val_okb _ _ C O) in NX. apply NX. Qed.

(** every prefix of the execution, instruction by instruction: same states, memory, host calls and end *)
Theorem C72_same_execution : forall hf hf' host SM M s f args c0, standard_fp hf -> standard_fp hf' -> hostfp_ok hf -> host_ok host ->
  compile SM = Some M -> forallb (oksrc (fun _ => true) val_okb) (sm_funcs SM) = true ->
  Forall val_ok args -> iok s -> initial M s f args = Ok c0 ->
  forall n, (forall k c, k < n -> steps hf host M k c0 = inl c -> ~ makes_nan hf M c) -> steps hf' host M n c0 = steps hf host M n c0.
Proof.
  intros hf hf' host SM M s f args c0 S1 S2 HF HO C O A I IN n N.
  eapply steps_agree; eauto using module_fines, initial_good.
Qed.
Print Assumptions C72_same_execution.

(** the whole run loop, with checkpoints in between: whatever machines it has been carried across, the program ends
    as it does on the first one undisturbed *)
Section Carried.
  Variables (hf : hostfp) (host : hostfn) (SM : smodule) (M : modul) (s : inst) (f : nat) (args : list val) (st0 : rstate) (c0 : config).
  Hypotheses (S1 : standard_fp hf) (HF : hostfp_ok hf) (HO : host_ok host) (C : compile SM = Some M)
    (O : forallb (oksrc (fun _ => true) val_okb) (sm_funcs SM) = true) (A : Forall val_ok args) (I : iok s)
    (ST : start M s f args = Ok st0) (IN : initial M s f args = Ok c0) (NF : nan_free hf host M c0).
  Lemma same hf' n : standard_fp hf' -> steps hf' host M n c0 = steps hf host M n c0.
  Proof. intros S2. eapply C72_same_execution; eauto. Qed.
  Lemma carried_rel st : carried host M s st0 st -> exists j c, steps hf host M j c0 = inl c /\ rel st c /\ flags st (fun b => b = false).
  Proof.
    pose proof (compile_ok _ _ C) as MO. destruct (start_initial _ _ _ _ _ ST) as (c0' & I' & RL0). rewrite IN in I'. injection I' as <-.
    pose proof (levels_initial _ _ _ _ _ MO IN) as L0.
    induction 1 as [|hf1 E D en k n st st1 g st2 SF MG (j & c & SC & RL & FL) RUN CK TB DT RS].
    - exists 0, c0. split; [reflexivity|]. split; auto. eapply (runnable_flags hf M). econstructor; eauto.
    - pose proof (levels_steps hf host M MO _ _ _ L0 SC) as LV. assert (SC1 : steps hf1 host M j c0 = inl c) by now rewrite same.
      pose proof (run_sound hf1 host M E D en MO k n (armed en st) c) as S. change (run_loop hf1 host M E D en k n (armed en st) = RCheckpoint st1) in RUN. rewrite RUN in S.
      destruct S as (i & c1 & X1 & X2); [now apply rel_armed|auto|].
      assert (SC2 : steps hf host M (j + i) c0 = inl c1).
      { rewrite <- (same hf1) by exact SF. rewrite (steps_app hf1 host M _ _ _ _ SC1). exact X1. }
      exists (j + i), c1. split; [exact SC2|].
      assert (SH : shape s (r_inst st1)).
      { eapply shape_trans; [|apply shape_sym, inst_sim_shape, (rel_inst _ _ X2)]. eapply shape_trans; [|eapply steps_shape; exact SC2].
        pose proof IN as IN'. unfold initial in IN'. destruct (nth_error _ _) as [[fd|]|]; try discriminate. destruct (Nat.eqb _ _); [|discriminate]. injection IN' as <-. apply shape_refl. }
      destruct (restore_checkpoint M s st1 g c1 (r_log st1) (r_t st1) CK X2 (levels_steps hf1 host M MO _ _ _ LV X1) SH (eq_sym TB) (eq_sym DT) eq_refl) as (st2' & RS' & RL' & FL' & _).
      rewrite RS in RS'. injection RS' as <-. auto.
  Qed.
  Lemma carried_outcome st : carried host M s st0 st -> forall hf' E D E' D' o, standard_fp hf' ->
    (exists k n, observe (run hf host M E D false k n st0) = Some o) <-> (exists k n, observe (run hf' host M E' D' false k n st) = Some o).
  Proof.
    intros MG hf' E D E' D' o SF. pose proof (compile_ok _ _ C) as MO.
    destruct (carried_rel st MG) as (j & c & SC & RL & FL). pose proof (levels_initial _ _ _ _ _ MO IN) as L0. pose proof (levels_steps hf host M MO _ _ _ L0 SC) as LV.
    rewrite <- (C41_dispatcher hf host SM M s f args c0 st0 E D false C IN ST (or_introl eq_refl) o).
    change (run hf' host M E' D' false) with (fun k n st => run_loop hf' host M E' D' false k n (armed false st)). cbv beta.
    rewrite <- (run_complete hf' host M E' D' false MO (armed false st) c).
    - assert (SC1 : steps hf' host M j c0 = inl c) by now rewrite same.
      split; intros (m & o' & H & E0).
      + exists m, o'. split; auto. rewrite <- (same hf') in H by exact SF. destruct (Nat.lt_ge_cases m j) as [L|L].
        * exfalso. destruct (steps_le hf' host M j m c0 c ltac:(lia) SC1) as (c2 & X). congruence.
        * pose proof (steps_stable hf' host M m c0 o' j H) as X. rewrite Nat.add_comm, (steps_app hf' host M _ _ _ _ SC1) in X. exact X.
      + exists (j + m), o'. split; auto. rewrite <- (same hf') by exact SF. rewrite (steps_app hf' host M _ _ _ _ SC1). exact H.
    - now apply rel_armed.
    - exact LV.
    - intros k n st'. apply run_quiet; [|now left]. eapply Forall_impl; [|apply (armed_flags false st (fun b => b = false)); auto]. intros x ->. now left.
  Qed.
End Carried.
Theorem C72_moved : forall hf host SM M s f args st0, standard_fp hf -> hostfp_ok hf -> host_ok host ->
  compile SM = Some M -> forallb (oksrc (fun _ => true) val_okb) (sm_funcs SM) = true ->
  Forall val_ok args -> iok s -> start M s f args = Ok st0 -> (forall c0, initial M s f args = Ok c0 -> nan_free hf host M c0) ->
  forall st hf' E D E' D' o, carried host M s st0 st -> standard_fp hf' ->
  (exists k n, observe (run hf host M E D false k n st0) = Some o) <-> (exists k n, observe (run hf' host M E' D' false k n st) = Some o).
Proof.
  intros hf host SM M s f args st0 S1 HF HO C O A I ST NF st hf' E D E' D' o MG SF.
  destruct (start_initial _ _ _ _ _ ST) as (c0 & IN & _). eapply (carried_outcome hf host SM M s f args st0 c0); eauto.
Qed.
Print Assumptions C72_moved.

(** ** NaN patterns are machine-dependent, and programs can see them: the condition is needed *)
(** the same arithmetic with the other sign on every NaN *)
Definition turn (F : fmt) (r : Z) : Z := if is_nan F r then Ieee.signed F (negb (fsign F r)) (r mod 2 ^ (fw F - 1))%Z else r.
Definition other : hostfp :=
  {| h_bin := fun F o a b => turn F (h_bin ieee F o a b); h_round := fun F o a => turn F (h_round ieee F o a);
     h_of_int := h_of_int ieee; h_demote := fun a => turn F32 (h_demote ieee a); h_promote := fun a => turn F64 (h_promote ieee a) |}.
Section Turn.
  Open Scope Z_scope.
  Variable F : fmt.
  Hypothesis HF : fmt_ok F.
  Lemma turn_num r : is_nan F r = false -> turn F r = r. Proof. unfold turn. now intros ->. Qed.
  Lemma turn_nan G args r : propagated G F args r -> propagated G F args (turn F r).
  Proof.
    intros (I & [D T] & K). pose proof (proj2 (is_nan_num F HF r I) D) as N.
    destruct (nan_shape F HF r I N) as (t & Ht & E & Fm).
    assert (U : 0 <= finf F + t < 2 ^ (fw F - 1)) by (pose proof (top_pow F HF); pose proof (finf_range F HF); unfold finf in *; nia).
    assert (ET : turn F r = Ieee.signed F (negb (fsign F r)) (finf F + t)).
    { unfold turn. rewrite N. f_equal. rewrite E. now apply signed_low. }
    assert (Tt : Z.testbit t (fm F - 1) = true).
    { rewrite <- Fm. unfold fmant. rewrite Z.mod_pow2_bits_low; [exact T | lia]. }
    destruct (nan_in F HF (negb (fsign F r)) t Ht Tt) as [I' A']. rewrite ET. split; [exact I'|]. split; [exact A'|].
    intros Q. specialize (K Q). apply (canonical_shape F HF r I N) in K. rewrite Fm in K.
    unfold canonical_nan. rewrite (signed_low F HF) by exact U. unfold finf. lia.
  Qed.
  Lemma turn_same r : in_u (fw F) r -> ieee_decode F r <> NNan -> turn F r = r.
  Proof. intros I D. apply turn_num. destruct (is_nan F r) eqn:N; auto. now apply (is_nan_num F HF r I) in N. Qed.
  Lemma turn_rounded x r : rounded F x r -> rounded F x (turn F r).
  Proof. intros R. pose proof R as (I & v & V & _). rewrite turn_same; auto. intros D. unfold reading in V. now rewrite D in V. Qed.
  Lemma turn_inf t r : infinity F t r -> infinity F t (turn F r).
  Proof. intros [I D]. rewrite turn_same; [now split | exact I | congruence]. Qed.
  Lemma turn_zero t r : zero F t r -> zero F t (turn F r).
  Proof. intros (I & D & Sg). rewrite turn_same; [exact (conj I (conj D Sg)) | exact I |]. intros E. now rewrite E in D. Qed.
  Lemma turn_operand a r : in_u (fw F) a -> ieee_decode F a <> NNan -> r = a -> turn F r = a.
  Proof. intros I D ->. now apply turn_same. Qed.
  Lemma turn_arith o a b r : in_u (fw F) a -> in_u (fw F) b -> arith F o a b r -> arith F o a b (turn F r).
  Proof.
    intros Ia Ib. destruct o; cbn [arith]; unfold fadd, fsub, fmul, fdiv;
      destruct (ieee_decode F a) eqn:Da, (ieee_decode F b) eqn:Db;
      repeat match goal with |- context [if ?c then _ else _] => destruct c end;
      first [apply turn_nan | apply turn_rounded | apply turn_inf | apply turn_zero | apply turn_operand; [assumption | congruence]].
  Qed.
  Lemma turn_unary o a r : in_u (fw F) a -> unary F o a r -> unary F o a (turn F r).
  Proof.
    intros Ia. destruct o; cbn [unary]; unfold fint, fsqrt; destruct (ieee_decode F a) eqn:Da;
      repeat match goal with |- context [if ?c then _ else _] => destruct c end;
      first [apply turn_nan | apply turn_rounded | apply turn_operand; [assumption | congruence] | idtac];
      intros (I & Sg & v & n & D & Q); (rewrite turn_same; [split; [exact I|]; split; [exact Sg|]; exists v, n; split; [exact D | exact Q] | exact I | congruence]).
  Qed.
  Lemma turn_refloat G a r : refloat G F a r -> refloat G F a (turn F r).
  Proof.
    unfold refloat. destruct (ieee_decode G a); [apply turn_nan | apply turn_inf |]. match goal with |- context [if ?c then _ else _] => destruct c end; [apply turn_zero | apply turn_rounded].
  Qed.
End Turn.
Lemma other_standard : standard_fp other.
Proof.
  constructor; cbn [other h_bin h_round h_of_int h_demote h_promote].
  - intros F o a b HF Ha Hb. destruct (formats_ok F HF) as [K _]. apply turn_arith; auto. now apply (sf_arith ieee ieee_standard).
  - intros F o a HF Ha. destruct (formats_ok F HF) as [K _]. apply turn_unary; auto. now apply (sf_unary ieee ieee_standard).
  - apply (sf_convert ieee ieee_standard).
  - intros a Ha. apply turn_refloat; [apply F32_ok|]. now apply (sf_demote ieee ieee_standard).
  - intros a Ha. apply turn_refloat; [apply F64_ok|]. now apply (sf_promote ieee ieee_standard).
Qed.
(** 0 / 0, read as an integer *)
Definition p_nan := one [] [TI32] [] [CBasic (BConst (VF32 0)); CBasic (BConst (VF32 0)); CBasic (BOp (SNum2 (B_flt FT32 (FBarith Fdiv)))); CBasic (BOp (SCvt (C_f2i W32)))].
Definition results (o : config + outcome) : option (list val) := match o with inr (Done vs _ _) => Some vs | _ => None end.
Definition go (hf : hostfp) (SM : smodule) (args : list val) : option (list val) :=
  match compile SM with
  | Some M => match initial M inst0 0 args with Ok c => results (steps hf (fun _ => HoErr) M 20 c) | _ => None end
  | None => None
  end.
Theorem C72_nan_visible : exists hf hf', standard_fp hf /\ standard_fp hf' /\
  go hf p_nan [] = Some [VI32 2143289344] /\ go hf' p_nan [] = Some [VI32 (-4194304)].
Proof.
  exists ieee, other. split; [exact ieee_standard|]. split; [exact other_standard|]. split; vm_compute; reflexivity.
Qed.
Print Assumptions C72_nan_visible.


(** ** a program that meets the conditions: 0.1 added up n times in a loop, stopped twice *)
Definition makes_nanb (hf : hostfp) (M : modul) (c : config) : bool :=
  match nth_error (md_funcs M) (c_fn c) with
  | Some (FWasm fd) =>
      match nth_error (fd_code fd) (s_pc (c_v c)) with
      | Some (IOp o t srcs) =>
          rounding o &&
          match read_all (s_d (c_v c)) (map class_of (sop_args o)) srcs with
          | Ok args => match sop_eval hf o (d_inst (s_d (c_v c))) args with
                       | Ok (_, Some (VF32 b)) => match ieee_decode F32 b with NNan => true | _ => false end
                       | Ok (_, Some (VF64 b)) => match ieee_decode F64 b with NNan => true | _ => false end
                       | _ => false
                       end
          | _ => false
          end
      | _ => false
      end
  | _ => false
  end.
Lemma makes_nanb_ok hf M c : makes_nan hf M c -> makes_nanb hf M c = true.
Proof.
  intros (fd & o & t & srcs & args & s & v & X1 & X2 & X3 & X4 & X5 & X6). unfold makes_nanb. rewrite X1, X2, X3, X4, X5. cbn [andb].
  destruct v; cbn [nan_value] in X6; try contradiction; now rewrite X6.
Qed.
Fixpoint clean (hf : hostfp) (host : hostfn) (M : modul) (n : nat) (c : config) : bool :=
  negb (makes_nanb hf M c) && match n with O => false | S n' => match step hf host M c with SNext c' => clean hf host M n' c' | _ => true end end.
Lemma clean_ok hf host M n : forall c, clean hf host M n c = true -> nan_free hf host M c.
Proof.
  induction n as [|n IH]; intros c H; cbn [clean] in H; apply andb_prop in H; destruct H as [H1 H2]; [discriminate H2|].
  intros k c' R N. destruct k as [|k]; cbn [steps] in R.
  - injection R as <-. apply makes_nanb_ok in N. rewrite N in H1. discriminate H1.
  - destruct (step hf host M c) as [c1| | | |]; try discriminate R. exact (IH c1 H2 k c' R N).
Qed.
Definition p_tenths := func [TI32] [TF64] [TF64]
  [loop [] [] [get 1; CBasic (BConst (VF64 4591870180066957722)); CBasic (BOp (SNum2 (B_flt FT64 (FBarith Fadd)))); set 1; get 0; i32c 1; isub; tee 0; CBrIf 0]; get 1].
Definition m_tenths : smodule := {| sm_funcs := [p_tenths]; sm_types := [] |}.
Definition M_tenths : modul := Eval vm_compute in match compile m_tenths with Some M => M | None => {| md_funcs := []; md_types := [] |} end.
(** ten times 0.1 is not 1 but 0x3FEFFFFFFFFFFFFF, wherever it is computed *)
Example C72_example : compile m_tenths = Some M_tenths /\ forallb (oksrc (fun _ => true) val_okb) (sm_funcs m_tenths) = true /\
  Forall val_ok [VI32 10] /\ iok inst0 /\ standard_fp ieee /\ standard_fp other /\ hostfp_ok ieee /\ host_ok (fun _ => HoErr) /\
  exists st0 st, start M_tenths inst0 0 [VI32 10] = Ok st0 /\
    (forall c0, initial M_tenths inst0 0 [VI32 10] = Ok c0 -> nan_free ieee (fun _ => HoErr) M_tenths c0) /\
    carried (fun _ => HoErr) M_tenths inst0 st0 st /\
    (exists k n, observe (run ieee (fun _ => HoErr) M_tenths never TailCall false k n st) = Some (Done [VF64 4607182418800017407] inst0 [])).
Proof.
  split; [vm_compute; reflexivity|]. split; [vm_compute; reflexivity|]. split; [apply Forall_cons; [split; vm_compute; congruence | apply Forall_nil]|].
  split; [|split; [exact ieee_standard|]; split; [exact other_standard|]; split; [exact ieee_ok|]; split].
  - constructor; cbn; [constructor | intros m H; discriminate H | constructor].
  - intros log o ws H. discriminate H.
  - do 2 eexists. split; [vm_compute; reflexivity|]. split; [|split].
    + intros c0 H. apply (clean_ok _ _ _ 200). vm_compute in H. injection H as <-. vm_compute. reflexivity.
    + eapply (CarMore _ _ _ _ other (asked 40 true) TailCall true 100 100 _ _ _ _ other_standard).
      * eapply (CarMore _ _ _ _ other (asked 20 true) LoopStyle true 100 100 _ _ _ _ other_standard); [apply CarNone| | | | |]; vm_compute; reflexivity.
      * vm_compute; reflexivity.
      * vm_compute; reflexivity.
      * vm_compute; reflexivity.
      * vm_compute; reflexivity.
      * vm_compute; reflexivity.
    + exists 100, 100. vm_compute. reflexivity.
Qed.
