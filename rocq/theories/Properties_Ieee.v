(** Property theorems C71: floating-point instructions compute what the standard says, on a host whose arithmetic
    is IEEE 754's (RoundSpec.v), and the arithmetic of Ieee.v is such. *)
From Coq Require Import ZArith QArith List Bool Lia.
From Verif Require Import Word Value Mem Float WasmNum WasmFloat Regs IR PrimFacts Ieee RoundSpec FloatProofs RoundProofs NumFacts.
Import ListNotations.
Open Scope Z_scope.

Definition is_num (F : fmt) (b : Z) : Prop := ieee_decode F b <> NNan.

(** the computed arithmetic is the standard's, for all patterns of both formats and all integers *)
Theorem C71_arithmetic : standard_fp ieee.
Proof. exact ieee_standard. Qed.
Print Assumptions C71_arithmetic.

(** the standard leaves no choice but the NaN pattern: two hosts that follow it agree on everything else *)
Theorem C71_determined : forall hf hf', standard_fp hf -> standard_fp hf' ->
  (forall F o a b, In F formats -> in_u (fw F) a -> in_u (fw F) b ->
     is_num F (h_bin hf F o a b) \/ is_num F (h_bin hf' F o a b) -> h_bin hf F o a b = h_bin hf' F o a b) /\
  (forall F o a, In F formats -> in_u (fw F) a ->
     is_num F (h_round hf F o a) \/ is_num F (h_round hf' F o a) -> h_round hf F o a = h_round hf' F o a) /\
  (forall F z, In F formats -> h_of_int hf F z = h_of_int hf' F z) /\
  (forall a, in_u 64 a -> is_num F32 (h_demote hf a) \/ is_num F32 (h_demote hf' a) -> h_demote hf a = h_demote hf' a) /\
  (forall a, in_u 32 a -> is_num F64 (h_promote hf a) \/ is_num F64 (h_promote hf' a) -> h_promote hf a = h_promote hf' a).
Proof.
  intros hf hf' A B. unfold is_num.
  assert (T : forall F r r', same F r r' -> ieee_decode F r <> NNan \/ ieee_decode F r' <> NNan -> r = r').
  { intros F r r' [E | [E E']] [N|N]; congruence. }
  split; [|split; [|split; [|split]]].
  - intros F o a b HF Ha Hb. apply T. destruct (formats_ok F HF) as [K _].
    eapply (arith_same F K); [apply (sf_arith hf A) | apply (sf_arith hf' B)]; auto.
  - intros F o a HF Ha. apply T. destruct (formats_ok F HF) as [K _].
    eapply (unary_same F K); [exact Ha | apply (sf_unary hf A) | apply (sf_unary hf' B)]; auto.
  - intros F z HF. destruct (formats_ok F HF) as [K _].
    eapply (convert_same F K); [apply (sf_convert hf A) | apply (sf_convert hf' B)]; auto.
  - intros a Ha. apply T. eapply (refloat_same F64 F32); [apply F32_ok | apply (sf_demote hf A) | apply (sf_demote hf' B)]; auto.
  - intros a Ha. apply T. eapply (refloat_same F32 F64); [apply F64_ok | apply (sf_promote hf A) | apply (sf_promote hf' B)]; auto.
Qed.
Print Assumptions C71_determined.

(** the instructions *)
Lemma in_formats f : In (ff f) formats. Proof. destruct f; cbn; auto. Qed.
Lemma payload_f f z : payload (fval f z) = z. Proof. now destruct f. Qed.
Theorem C71_instructions : forall hf s, standard_fp hf ->
  (forall f o a b, in_u (fw (ff f)) a -> in_u (fw (ff f)) b -> exists r,
     sop_eval hf (SNum2 (B_flt f (FBarith o))) s [fval f a; fval f b] = Ok (s, Some (fval f r)) /\ arith (ff f) o a b r) /\
  (forall f o a, in_u (fw (ff f)) a -> exists r,
     sop_eval hf (SNum1 (U_flt f (FUround o))) s [fval f a] = Ok (s, Some (fval f r)) /\ unary (ff f) o a r) /\
  (forall f w i, in_u (wz w) i -> exists r r',
     sop_eval hf (SCvt (C_convert f w Sx)) s [ival w (WasmNum.signed (wz w) i)] = Ok (s, Some (fval f r)) /\
     convert (ff f) (WasmNum.signed (wz w) i) r /\
     sop_eval hf (SCvt (C_convert f w Ux)) s [ival w (WasmNum.signed (wz w) i)] = Ok (s, Some (fval f r')) /\
     convert (ff f) i r') /\
  (forall a, in_u 64 a -> exists r, sop_eval hf (SCvt C_demote) s [VF64 a] = Ok (s, Some (VF32 r)) /\ refloat F64 F32 a r) /\
  (forall a, in_u 32 a -> exists r, sop_eval hf (SCvt C_promote) s [VF32 a] = Ok (s, Some (VF64 r)) /\ refloat F32 F64 a r).
Proof.
  intros hf s A. split; [|split; [|split; [|split]]].
  - intros f o a b Ha Hb. eexists. split; [cbn [sop_eval op2_eval bind]; rewrite !payload_f; reflexivity|]. apply (sf_arith hf A); auto using in_formats.
  - intros f o a Ha. eexists. split; [cbn [sop_eval op1_eval]; rewrite !payload_f; reflexivity|]. apply (sf_unary hf A); auto using in_formats.
  - intros f w i Hi. exists (h_of_int hf (ff f) (WasmNum.signed (wz w) i)), (h_of_int hf (ff f) i).
    assert (P : payload (ival w (WasmNum.signed (wz w) i)) = WasmNum.signed (wz w) i) by now destruct w.
    assert (C : cast_u (wz w) (WasmNum.signed (wz w) i) = i).
    { unfold cast_u, WasmNum.signed. destruct (i <? _); [now apply Z.mod_small|].
      replace (i - 2 ^ wz w) with (i + (-1) * 2 ^ wz w) by lia. rewrite Z.mod_add by (destruct w; cbn; lia). now apply Z.mod_small. }
    split; [|split; [|split]].
    + cbn [sop_eval cvt_eval bind conv_src]. now rewrite P.
    + apply (sf_convert hf A), in_formats.
    + cbn [sop_eval cvt_eval bind conv_src]. now rewrite P, C.
    + apply (sf_convert hf A), in_formats.
  - intros a Ha. eexists. split; [reflexivity|]. now apply (sf_demote hf A).
  - intros a Ha. eexists. split; [reflexivity|]. now apply (sf_promote hf A).
Qed.
Print Assumptions C71_instructions.

(** what no rounding is: promotion keeps the value and the sign and demotion undoes it; integers of at most 24 (53)
    bits, so every i32 as an f64, are converted exactly *)
Theorem C71_exact : forall hf, standard_fp hf ->
  (forall a q, in_u 32 a -> ieee_decode F32 a = NFin q ->
     exists v, ieee_decode F64 (h_promote hf a) = NFin v /\ (v == q)%Q /\ sign_bit F64 (h_promote hf a) = sign_bit F32 a) /\
  (forall a, in_u 32 a -> is_num F32 a -> h_demote hf (h_promote hf a) = a) /\
  (forall z, Z.abs z <= 2 ^ 24 -> exists v, ieee_decode F32 (h_of_int hf F32 z) = NFin v /\ (v == inject_Z z)%Q) /\
  (forall z, Z.abs z <= 2 ^ 53 -> exists v, ieee_decode F64 (h_of_int hf F64 z) = NFin v /\ (v == inject_Z z)%Q).
Proof.
  intros hf A. split; [|split; [|split]].
  - intros a q Ha D. destruct (promote_value a q _ Ha D (sf_promote hf A a Ha)) as (_ & Sg & v & Dv & V). eauto.
  - intros a Ha N. pose proof (sf_promote hf A a Ha) as P. exact (demote_promote a _ _ Ha N P (sf_demote hf A _ (refloat_in _ _ _ _ P))).
  - intros z Hz. destruct (formats_ok F32) as [K B]; [cbn; auto|]. apply (integer_exact F32 K B); [exact Hz | apply (sf_convert hf A); cbn; auto].
  - intros z Hz. destruct (formats_ok F64) as [K B]; [cbn; auto|]. apply (integer_exact F64 K B); [exact Hz | apply (sf_convert hf A); cbn; auto].
Qed.
Print Assumptions C71_exact.

(** 0.1 + 0.2, 1 / 3, sqrt 2, overflow, underflow to a subnormal and to zero, ties, 2.5 to the even neighbour, -0, NaN *)
Example C71_ex :
  h_bin ieee F64 Fadd 4591870180066957722 4596373779694328218 = 4599075939470750516 /\
  h_bin ieee F64 Fdiv 4607182418800017408 4613937818241073152 = 4599676419421066581 /\
  h_round ieee F64 Fsqrt 4611686018427387904 = 4609047870845172685 /\
  h_bin ieee F32 Fmul 0x7F7FFFFF 0x40000000 = 0x7F800000 /\
  h_bin ieee F32 Fmul 1 0x3F000000 = 0 /\ h_bin ieee F32 Fmul 3 0x3F000000 = 2 /\ h_bin ieee F32 Fmul 0x00800000 0x3F000000 = 0x00400000 /\
  h_round ieee F32 Fnearest 0x40200000 = 0x40000000 /\ h_round ieee F32 Fceil 0xBF000000 = 0x80000000 /\
  h_bin ieee F32 Fsub 0 0 = 0 /\ h_bin ieee F32 Fadd 0x80000000 0x80000000 = 0x80000000 /\
  h_round ieee F32 Fsqrt 0xBF800000 = 0x7FC00000 /\ h_of_int ieee F32 16777217 = 0x4B800000 /\ h_of_int ieee F32 (-16777219) = 0xCB800002 /\
  h_demote ieee 4591870180066957722 = 0x3DCCCCCD /\ h_promote ieee 1 = 3936146074321813504.
Proof. vm_compute. repeat split. Qed.
