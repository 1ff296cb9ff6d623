(** Property theorems C01-C09, C43.  Each is closed by the lemma that proves it. *)
From Coq Require Import ZArith List Bool QArith Lia.
From Verif Require Import Word Numeric WasmNum Float WasmFloat NumFacts.
Import ListNotations.
Open Scope Z_scope.

(** C01: add, sub, mul, and, or, xor: both widths, all operands; the handler returns [Ok], the
    result is an N-bit value and it is the WebAssembly result. *)
Theorem C01_integer_arithmetic : forall w op a b,
  w = 32 \/ w = 64 -> In op [Iadd; Isub; Imul; Iand; Ior; Ixor] -> in_s w a -> in_s w b ->
  exists v, binop w op a b = Ok v /\ in_s w v /\
            wasm_ibinop w op (unsigned w a) (unsigned w b) = Some (unsigned w v).
Proof. exact arith_ok. Qed.
Print Assumptions C01_integer_arithmetic.
Example C01_ex : in_s 32 (- 2 ^ 31) /\ in_s 32 (-1) /\ binop 32 Iadd (- 2 ^ 31) (-1) = Ok (2 ^ 31 - 1)
  /\ binop 64 Ixor (-1) (2 ^ 40) = Ok (-1 - 2 ^ 40).
Proof. repeat split; vm_compute; congruence. Qed.

(** C02 *)
Theorem C02_division : forall w op a b,
  w = 32 \/ w = 64 -> In op [Idiv_s; Idiv_u; Irem_s; Irem_u] -> in_s w a -> in_s w b ->
  (exists v, binop w op a b = Ok v /\ in_s w v /\
            wasm_ibinop w op (unsigned w a) (unsigned w b) = Some (unsigned w v)) \/
  (exists t, binop w op a b = Trap t /\ wasm_ibinop w op (unsigned w a) (unsigned w b) = None).
Proof. exact div_ok. Qed.
Print Assumptions C02_division.
(** ... and the trap set and the results spelled out for the signed pair. *)
Theorem C02_signed_division_plain : forall w a b, w = 32 \/ w = 64 -> in_s w a -> in_s w b ->
  ((exists t, binop w Idiv_s a b = Trap t) <-> b = 0 \/ (a = - 2 ^ (w - 1) /\ b = -1)) /\
  (b <> 0 -> ~ (a = - 2 ^ (w - 1) /\ b = -1) -> binop w Idiv_s a b = Ok (Z.quot a b)) /\
  ((exists t, binop w Irem_s a b = Trap t) <-> b = 0) /\
  (b <> 0 -> binop w Irem_s a b = Ok (Z.rem a b)).
Proof. exact div_plain. Qed.
Print Assumptions C02_signed_division_plain.
Example C02_ex : binop 32 Idiv_s (-7) 2 = Ok (-3) /\ binop 32 Irem_s (-7) 2 = Ok (-1)
  /\ binop 64 Irem_s (- 2 ^ 63) (-1) = Ok 0 /\ binop 64 Idiv_s (- 2 ^ 63) (-1) = Trap THost
  /\ binop 32 Idiv_u (-1) 2 = Ok (2 ^ 31 - 1) /\ binop 32 Irem_u 5 0 = Trap THost.
Proof. repeat split. Qed.

(** C03 *)
Theorem C03_shifts_rotates : forall w op a b,
  w = 32 \/ w = 64 -> In op [Ishl; Ishr_s; Ishr_u; Irotl; Irotr] -> in_s w a -> in_s w b ->
  exists v, binop w op a b = Ok v /\ in_s w v /\
            wasm_ibinop w op (unsigned w a) (unsigned w b) = Some (unsigned w v).
Proof. exact shift_ok. Qed.
Print Assumptions C03_shifts_rotates.
Example C03_ex : binop 32 Ishl 1 33 = Ok 2 /\ binop 32 Ishr_s (-8) (-31) = Ok (-4)
  /\ binop 64 Irotl (- 2 ^ 63) 65 = Ok 1 /\ binop 64 Irotr 1 1 = Ok (- 2 ^ 63).
Proof. repeat split. Qed.

(** C04 *)
Theorem C04_comparisons : forall w op a b, w = 32 \/ w = 64 -> in_s w a -> in_s w b ->
  relop w op a b = wasm_irelop w op (unsigned w a) (unsigned w b).
Proof. exact rel_ok. Qed.
Print Assumptions C04_comparisons.
Theorem C04_eqz : forall w a, w = 32 \/ w = 64 -> in_s w a -> eqz w a = wasm_eqz (unsigned w a).
Proof. exact eqz_ok. Qed.
Print Assumptions C04_eqz.
Theorem C04_result_is_0_or_1 : forall w op a b, relop w op a b = 0 \/ relop w op a b = 1.
Proof. exact rel_result_i32. Qed.
Print Assumptions C04_result_is_0_or_1.
Example C04_ex : relop 32 Ilt_s (-1) 0 = 1 /\ relop 32 Ilt_u (-1) 0 = 0 /\ relop 64 Ige_u (-1) 7 = 1.
Proof. repeat split. Qed.

(** C05 *)
Theorem C05_bit_counting : forall w op a,
  w = 32 \/ w = 64 -> In op [Iclz; Ictz; Ipopcnt] -> in_s w a ->
  in_s w (unop w op a) /\ unsigned w (unop w op a) = wasm_iunop w op (unsigned w a).
Proof. exact bits_ok. Qed.
Print Assumptions C05_bit_counting.
Example C05_ex : unop 32 Iclz 0 = 32 /\ unop 64 Ictz 0 = 64 /\ unop 64 Ipopcnt (-1) = 64 /\ unop 32 Ictz 40 = 3.
Proof. repeat split. Qed.

(** C06 *)
Theorem C06_sign_extension : forall w op a,
  w = 32 \/ w = 64 -> In op [Iext8; Iext16; Iext32] -> (op = Iext32 -> w = 64) -> in_s w a ->
  in_s w (unop w op a) /\ unsigned w (unop w op a) = wasm_iunop w op (unsigned w a).
Proof. exact NumFacts.ext_ok. Qed.
Print Assumptions C06_sign_extension.
Theorem C06_wrap_extend : forall a,
  (in_s 64 a -> in_s 32 (i32_wrap_i64 a) /\ unsigned 32 (i32_wrap_i64 a) = wasm_wrap (unsigned 64 a)) /\
  (in_s 32 a -> in_s 64 (i64_extend_i32_s a) /\
                unsigned 64 (i64_extend_i32_s a) = wasm_extend_s 32 64 (unsigned 32 a)) /\
  (in_s 32 a -> in_s 64 (i64_extend_i32_u a) /\
                unsigned 64 (i64_extend_i32_u a) = wasm_extend_u (unsigned 32 a)) /\
  (in_s 32 a -> i32_wrap_i64 (i64_extend_i32_s a) = a /\ i32_wrap_i64 (i64_extend_i32_u a) = a).
Proof. exact convs_ok. Qed.
Print Assumptions C06_wrap_extend.
Example C06_ex : unop 32 Iext8 255 = -1 /\ i64_extend_i32_u (-1) = 2 ^ 32 - 1 /\ i32_wrap_i64 (2 ^ 32 + 5) = 5.
Proof. repeat split. Qed.

(** C07: the full statement is [forall F s w b, trunc_agrees F s w b (handler)].  It holds for the
    four i64 instructions and for the two i32.trunc_f64 instructions, and for i32.trunc_f32_s/u at
    every pattern but one each, where it is refuted (the handler does not trap on 2^31 / 2^32). *)
Theorem C07_trunc_i64 : forall F s b, F = F32 \/ F = F64 -> in_u (fw F) b ->
  trunc_agrees F s 64 b (conv_i64_trunc F s b).
Proof. exact trunc64_ok. Qed.
Print Assumptions C07_trunc_i64.
Theorem C07_trunc_i32_partial : forall F s b, F = F32 \/ F = F64 -> in_u (fw F) b ->
  (F = F32 -> b <> match s with Sx => 0x4F000000 | Ux => 0x4F800000 end) ->
  trunc_agrees F s 32 b (conv_i32_trunc F s b).
Proof. exact trunc32_ok. Qed.
Print Assumptions C07_trunc_i32_partial.
Theorem C07_i32_trunc_f32_s_refuted :
  exists b, in_u 32 b /\ ~ trunc_agrees F32 Sx 32 b (conv_i32_trunc F32 Sx b).
Proof. exact trunc32_refuted. Qed.
Print Assumptions C07_i32_trunc_f32_s_refuted.
Theorem C07_i32_trunc_f32_u_refuted :
  exists b, in_u 32 b /\ ~ trunc_agrees F32 Ux 32 b (conv_i32_trunc F32 Ux b).
Proof. exact trunc32u_refuted. Qed.
Print Assumptions C07_i32_trunc_f32_u_refuted.
Example C07_ex : in_u 32 0x4EFFFFFF /\ conv_i32_trunc F32 Sx 0x4EFFFFFF = Ok 2147483520
  /\ conv_i32_trunc F64 Sx 0xC1E0000000000000 = Ok (- 2 ^ 31)
  /\ conv_i32_trunc F64 Sx 0x41E0000000000000 = Trap TIntOverflow
  /\ conv_i64_trunc F32 Ux 0x7FC00000 = Trap TInvalidConv.
Proof. repeat split; vm_compute; congruence. Qed.

(** C08 *)
Theorem C08_trunc_sat : forall w F s b, w = 32 \/ w = 64 -> F = F32 \/ F = F64 -> in_u (fw F) b ->
  in_s w (conv_trunc_sat w F s b) /\
  (match s with Sx => conv_trunc_sat w F s b | Ux => unsigned w (conv_trunc_sat w F s b) end)
  = wasm_trunc_sat s w (ieee_decode F b).
Proof. exact sat_ok. Qed.
Print Assumptions C08_trunc_sat.
Example C08_ex : conv_trunc_sat 32 F32 Sx 0x4F000000 = 2 ^ 31 - 1 /\ conv_trunc_sat 32 F32 Ux 0xBF800000 = 0
  /\ conv_trunc_sat 64 F64 Sx 0x7FF8000000000000 = 0 /\ conv_trunc_sat 32 F64 Ux 0x41EFFFFFFFE00000 = -1.
Proof. repeat split; vm_compute; reflexivity. Qed.

(** C09 *)
Theorem C09_float_comparisons : forall F op a b,
  F = F32 \/ F = F64 -> in_u (fw F) a -> in_u (fw F) b ->
  (f_relop F op a b = 1 /\ wasm_frel op (ieee_decode F a) (ieee_decode F b)) \/
  (f_relop F op a b = 0 /\ ~ wasm_frel op (ieee_decode F a) (ieee_decode F b)).
Proof. exact relf_ok. Qed.
Print Assumptions C09_float_comparisons.
Theorem C09_min_max : forall F a b, F = F32 \/ F = F64 -> in_u (fw F) a -> in_u (fw F) b ->
  wasm_fmin F a b (f_min F a b) /\ wasm_fmax F a b (f_max F a b).
Proof. exact minmax_ok. Qed.
Print Assumptions C09_min_max.
Theorem C09_sign_operations : forall F a b, F = F32 \/ F = F64 -> in_u (fw F) a -> in_u (fw F) b ->
  (in_u (fw F) (f_abs F a) /\ in_u (fw F) (f_neg F a) /\ in_u (fw F) (f_copysign F a b)) /\
  forall k, 0 <= k < fw F ->
  Z.testbit (f_abs F a) k = (if k =? fw F - 1 then false else Z.testbit a k) /\
  Z.testbit (f_neg F a) k = (if k =? fw F - 1 then negb (Z.testbit a k) else Z.testbit a k) /\
  Z.testbit (f_copysign F a b) k = (if k =? fw F - 1 then Z.testbit b k else Z.testbit a k).
Proof. exact signops_ok. Qed.
Print Assumptions C09_sign_operations.
Example C09_ex : f_min F32 0 0x80000000 = 0x80000000 /\ f_max F32 0x80000000 0 = 0
  /\ f_min F64 0x7FF8000000000001 0 = 0x7FF8000000000000 /\ f_relop F32 Feq 0 0x80000000 = 1
  /\ f_relop F32 Fne 0x7FC00000 0x7FC00000 = 1 /\ f_neg F32 0x7FA00001 = 0xFFA00001.
Proof. repeat split; vm_compute; reflexivity. Qed.

(** C43 (reinterpretation half; constants reach operands in Properties_Compile.v) *)
Theorem C43_reinterpret : forall w b z, w = 32 \/ w = 64 ->
  (in_u w b -> in_s w (reinterpret_f2i w b) /\ reinterpret_i2f w (reinterpret_f2i w b) = b /\
               unsigned w (reinterpret_f2i w b) = b) /\
  (in_s w z -> in_u w (reinterpret_i2f w z) /\ reinterpret_f2i w (reinterpret_i2f w z) = z /\
               reinterpret_i2f w z = unsigned w z).
Proof. exact reinterpret_ok. Qed.
Print Assumptions C43_reinterpret.
Example C43_ex : reinterpret_f2i 32 0xFFA00001 = 0xFFA00001 - 2 ^ 32 /\ in_u 32 0xFFA00001.
Proof. repeat split; vm_compute; congruence. Qed.

(** The integer constants the truncation handlers compare with are rounded to the nearest float, ties to
    even: with p digits of precision and 2^p <= |z|, the result is +-m * 2^s with m of p digits (or 2^p). *)
Theorem C07_constants_rounded : forall F z, 1 <= fprec F -> 2 ^ fprec F <= Z.abs z ->
  exists m s, int_as_float F z = Z.sgn z * (m * 2 ^ s) /\ 0 <= s /\ 2 ^ (fprec F - 1) <= m <= 2 ^ fprec F /\
    2 * Z.abs (int_as_float F z - z) <= 2 ^ s /\ (2 * Z.abs (int_as_float F z - z) = 2 ^ s -> Z.even m = true).
Proof.
  intros F z P H. unfold int_as_float. destruct (Z.ltb_spec (Z.abs z) (2 ^ fprec F)) as [?|_]; [lia|].
  set (p := fprec F) in *. set (a := Z.abs z) in *. assert (0 < 2 ^ p) by (apply Z.pow_pos_nonneg; lia).
  set (s := Z.log2 a - (p - 1)).
  assert (L : p <= Z.log2 a) by (apply Z.log2_le_pow2; lia).
  assert (S1 : 1 <= s) by (unfold s; lia).
  destruct (Z.log2_spec a ltac:(lia)) as [L1 L2].
  assert (E1 : 2 ^ Z.log2 a = 2 ^ (p - 1) * 2 ^ s) by (rewrite <- Z.pow_add_r by lia; f_equal; unfold s; lia).
  assert (E2 : 2 ^ Z.succ (Z.log2 a) = 2 ^ p * 2 ^ s) by (rewrite <- Z.pow_add_r by lia; f_equal; unfold s; lia).
  assert (S2 : 2 ^ s = 2 * 2 ^ (s - 1)) by (rewrite <- (Z.pow_succ_r 2 (s - 1)) by lia; f_equal; lia).
  assert (S3 : 0 < 2 ^ (s - 1)) by (apply Z.pow_pos_nonneg; lia).
  pose proof (Z.div_mod a (2 ^ s) ltac:(lia)) as DM. pose proof (Z.mod_pos_bound a (2 ^ s) ltac:(lia)) as MB.
  set (q := a / 2 ^ s) in *. set (r := a mod 2 ^ s) in *.
  assert (Q1 : 2 ^ (p - 1) <= q) by (apply Z.div_le_lower_bound; lia).
  assert (Q2 : q < 2 ^ p) by (apply Z.div_lt_upper_bound; lia).
  set (q' := if (2 ^ (s - 1) <? r) || (r =? 2 ^ (s - 1)) && Z.odd q then q + 1 else q).
  assert (ZS : z = Z.sgn z * a) by (unfold a; rewrite Z.mul_comm; symmetry; apply Z.abs_sgn). 
  assert (AB : forall x, Z.abs (Z.sgn z * x - z) = Z.abs (x - a)).
  { intros x. rewrite ZS at 2. rewrite <- Z.mul_sub_distr_l, Z.abs_mul. destruct z; cbn [Z.sgn]; [cbn in a; lia| |]; change (Z.abs 1) with 1; change (Z.abs (-1)) with 1; lia. }
  exists q', s. rewrite !AB. split; [reflexivity|]. split; [lia|].
  unfold q'. destruct (Z.ltb_spec (2 ^ (s - 1)) r); cbn [orb]; [|destruct (Z.eqb_spec r (2 ^ (s - 1))); cbn [andb]; [destruct (Z.odd q) eqn:O|]].
  - split; [lia|]. replace ((q + 1) * 2 ^ s - a) with (2 ^ s - r) by lia. split; [rewrite Z.abs_eq by lia; lia|]. rewrite Z.abs_eq by lia. lia.
  - split; [lia|]. replace ((q + 1) * 2 ^ s - a) with (2 ^ s - r) by lia. split; [rewrite Z.abs_eq by lia; lia|]. intros _. rewrite Z.even_add, <- Z.negb_odd, O. reflexivity.
  - split; [lia|]. replace (q * 2 ^ s - a) with (- r) by lia. split; [rewrite Z.abs_opp, Z.abs_eq by lia; lia|]. intros _. rewrite <- Z.negb_odd, O. reflexivity.
  - split; [lia|]. replace (q * 2 ^ s - a) with (- r) by lia. split; [rewrite Z.abs_opp, Z.abs_eq by lia; lia|]. rewrite Z.abs_opp, Z.abs_eq by lia. lia.
Qed.
(** [i32::MAX as f32] is 2^31, [u32::MAX as f32] is 2^32: the cause of the refuted part of C07; as f64 they are exact. *)
Example C07_constants_ex : int_as_float F32 (2 ^ 31 - 1) = 2 ^ 31 /\ int_as_float F32 (2 ^ 32 - 1) = 2 ^ 32 /\ int_as_float F64 (2 ^ 31 - 1) = 2 ^ 31 - 1
  /\ 2 ^ fprec F32 <= Z.abs (2 ^ 31 - 1).
Proof. repeat split; vm_compute; congruence. Qed.
