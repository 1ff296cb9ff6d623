(** Final lemmas for the numeric properties, in the form the property theorems state. *)
From Coq Require Import ZArith List Bool Lia QArith.
From Verif Require Import Word Numeric WasmNum NumericProofs Float WasmFloat FloatProofs.
Import ListNotations.
Open Scope Z_scope.

Lemma binop_ok w op a b : w = 32 \/ w = 64 -> in_s w a -> in_s w b -> ok_bin w op a b (binop w op a b).
Proof. intros [->| ->] Ha Hb; [apply i32_binop_ok|apply i64_binop_ok]; auto. Qed.

Lemma total_ok w op a b : w = 32 \/ w = 64 -> In op (total_ops ++ shift_ops) -> in_s w a -> in_s w b ->
  exists v, binop w op a b = Ok v /\ in_s w v /\
            wasm_ibinop w op (unsigned w a) (unsigned w b) = Some (unsigned w v).
Proof.
  intros Hw Hop Ha Hb. pose proof (binop_ok w op a b Hw Ha Hb) as H. unfold ok_bin in H.
  destruct (binop w op a b) as [v|t|] eqn:E; [exists v; auto| |tauto].
  exfalso. simpl in Hop. repeat (destruct Hop as [<-|Hop]; [discriminate H|]). contradiction.
Qed.
Lemma arith_ok w op a b : w = 32 \/ w = 64 -> In op total_ops -> in_s w a -> in_s w b ->
  exists v, binop w op a b = Ok v /\ in_s w v /\
            wasm_ibinop w op (unsigned w a) (unsigned w b) = Some (unsigned w v).
Proof. intros; apply total_ok; auto. apply in_or_app; auto. Qed.
Lemma shift_ok w op a b : w = 32 \/ w = 64 -> In op shift_ops -> in_s w a -> in_s w b ->
  exists v, binop w op a b = Ok v /\ in_s w v /\
            wasm_ibinop w op (unsigned w a) (unsigned w b) = Some (unsigned w v).
Proof. intros; apply total_ok; auto. apply in_or_app; auto. Qed.
Lemma div_ok w op a b : w = 32 \/ w = 64 -> In op div_ops -> in_s w a -> in_s w b ->
  (exists v, binop w op a b = Ok v /\ in_s w v /\
            wasm_ibinop w op (unsigned w a) (unsigned w b) = Some (unsigned w v)) \/
  (exists t, binop w op a b = Trap t /\ wasm_ibinop w op (unsigned w a) (unsigned w b) = None).
Proof.
  intros Hw _ Ha Hb. pose proof (binop_ok w op a b Hw Ha Hb) as H. unfold ok_bin in H.
  destruct (binop w op a b) as [v|t|] eqn:E; [left; exists v; auto|right; exists t; auto|tauto].
Qed.
(** the trap condition and results in plain arithmetic, not through the spec function *)
Lemma div_plain w a b : w = 32 \/ w = 64 -> in_s w a -> in_s w b ->
  ((exists t, binop w Idiv_s a b = Trap t) <-> b = 0 \/ (a = - 2 ^ (w - 1) /\ b = -1)) /\
  (b <> 0 -> ~ (a = - 2 ^ (w - 1) /\ b = -1) -> binop w Idiv_s a b = Ok (Z.quot a b)) /\
  ((exists t, binop w Irem_s a b = Trap t) <-> b = 0) /\
  (b <> 0 -> binop w Irem_s a b = Ok (Z.rem a b)).
Proof.
  intros Hw [Ha1 Ha2] [Hb1 Hb2].
  assert (HD : binop w Idiv_s a b = div_signed w a b) by (destruct Hw as [->| ->]; reflexivity).
  assert (HR : binop w Irem_s a b = wrapping_rem w a b) by (destruct Hw as [->| ->]; reflexivity).
  rewrite HD, HR. unfold div_signed, wrapping_rem.
  destruct (Z.eqb_spec b 0) as [Hb|Hb].
  { repeat split; intros; try tauto; try congruence; try (eexists; reflexivity); destruct H; discriminate || tauto. }
  destruct ((a =? - 2 ^ (w - 1)) && (b =? -1)) eqn:E.
  - apply andb_prop in E. destruct E as [E1 E2]. apply Z.eqb_eq in E1, E2.
    repeat split; intros; try tauto; try (eexists; reflexivity).
    + destruct H; discriminate.
    + f_equal. subst. change (-1) with (-(1)). rewrite Z.rem_opp_r by lia. now rewrite Z.rem_1_r.
  - assert (~ (a = - 2 ^ (w - 1) /\ b = -1)).
    { intros [-> ->]. rewrite !Z.eqb_refl in E. discriminate. }
    repeat split; intros; try tauto; destruct H0; discriminate || tauto.
Qed.

Lemma rel_ok w op a b : w = 32 \/ w = 64 -> in_s w a -> in_s w b ->
  relop w op a b = wasm_irelop w op (unsigned w a) (unsigned w b).
Proof. intros [->| ->] Ha Hb; [apply i32_relop_ok|apply i64_relop_ok]; auto. Qed.
Lemma eqz_ok w a : w = 32 \/ w = 64 -> in_s w a ->
  eqz w a = wasm_eqz (unsigned w a).
Proof. intros [->| ->] Ha; [apply i32_eqz_ok|apply i64_eqz_ok]; auto. Qed.
Lemma rel_result_i32 w op a b : relop w op a b = 0 \/ relop w op a b = 1.
Proof. unfold relop. destruct (w =? 32), op; unfold i32_relop, i64_relop, b2z; match goal with |- context[if ?c then 1 else 0] => destruct c end; auto. Qed.

Lemma bits_ok w op a : w = 32 \/ w = 64 -> In op [Iclz; Ictz; Ipopcnt] -> in_s w a ->
  in_s w (unop w op a) /\ unsigned w (unop w op a) = wasm_iunop w op (unsigned w a).
Proof.
  intros [->| ->] Hop Ha; [apply i32_unop_ok|apply i64_unop_ok]; auto.
  all: simpl in Hop; intros ->; repeat (destruct Hop as [Hop|Hop]; [discriminate Hop|]); contradiction.
Qed.
Lemma ext_ok w op a : w = 32 \/ w = 64 -> In op [Iext8; Iext16; Iext32] -> (op = Iext32 -> w = 64) -> in_s w a ->
  in_s w (unop w op a) /\ unsigned w (unop w op a) = wasm_iunop w op (unsigned w a).
Proof. intros [->| ->] Hop Hx Ha; [apply i32_unop_ok|apply i64_unop_ok]; auto. intros E; specialize (Hx E); discriminate. Qed.
Lemma convs_ok a : 
  (in_s 64 a -> in_s 32 (i32_wrap_i64 a) /\ unsigned 32 (i32_wrap_i64 a) = wasm_wrap (unsigned 64 a)) /\
  (in_s 32 a -> in_s 64 (i64_extend_i32_s a) /\
                unsigned 64 (i64_extend_i32_s a) = wasm_extend_s 32 64 (unsigned 32 a)) /\
  (in_s 32 a -> in_s 64 (i64_extend_i32_u a) /\
                unsigned 64 (i64_extend_i32_u a) = wasm_extend_u (unsigned 32 a)) /\
  (in_s 32 a -> i32_wrap_i64 (i64_extend_i32_s a) = a /\ i32_wrap_i64 (i64_extend_i32_u a) = a).
Proof.
  split; [|split; [|split]].
  - apply wrap_ok.
  - apply extend_s_ok.
  - apply extend_u_ok.
  - intros [H1 H2]. unfold i32_wrap_i64, i64_extend_i32_s, i64_extend_i32_u.
    assert (E : forall z, cast_s 32 (cast_s 64 z) = cast_s 32 z).
    { intros z. assert (HC : cast_s 64 z mod 2^32 = z mod 2^32).
      { apply mod_eq_add; [lia|]. unfold cast_s. pose proof (Z.div_mod z (2^64) ltac:(lia)).
        destruct (_ <? _); [exists (- (z/2^64) * 2^32)|exists (- (z/2^64) * 2^32 - 2^32)]; lia. }
      unfold cast_s at 1 3. now rewrite HC. }
    rewrite !E. split; [apply cast_s_id; unfold in_s; lia|].
    assert (HC : cast_u 32 a mod 2^32 = a mod 2^32) by (unfold cast_u; apply Z.mod_mod; lia).
    rewrite <- (cast_s_id 32 a) at 2 by (unfold in_s; lia). unfold cast_s. now rewrite HC.
Qed.

(** C07 *)
Lemma ok_trunc_to_plain F s w b r : ok_trunc F s w b r -> trunc_agrees F s w b r.
Proof.
  unfold ok_trunc, trunc_agrees, int_value. destruct r as [v|t|]; intros H; [left; exists v; tauto|right; exists t; tauto|tauto].
Qed.
Lemma trunc64_ok F s b : F = F32 \/ F = F64 -> in_u (fw F) b ->
  trunc_agrees F s 64 b (conv_i64_trunc F s b).
Proof. intros. now apply ok_trunc_to_plain, conv_i64_trunc_ok. Qed.
Lemma trunc32_ok F s b : F = F32 \/ F = F64 -> in_u (fw F) b ->
  (F = F32 -> b <> match s with Sx => 0x4F000000 | Ux => 0x4F800000 end) ->
  trunc_agrees F s 32 b (conv_i32_trunc F s b).
Proof. intros. now apply ok_trunc_to_plain, conv_i32_trunc_ok. Qed.
Lemma trunc32_refuted :
  exists b, in_u 32 b /\ ~ trunc_agrees F32 Sx 32 b (conv_i32_trunc F32 Sx b).
Proof.
  exists 0x4F000000. split; [unfold in_u; lia|]. rewrite conv_i32_trunc_f32_s_bug.
  intros [(v & Hv & Hr & Hw)|(t & Ht & _)]; [|discriminate]. injection Hv as <-.
  vm_compute in Hw. destruct Hw as [[[_ H] _]|[_ H]]; discriminate.
Qed.
Lemma trunc32u_refuted :
  exists b, in_u 32 b /\ ~ trunc_agrees F32 Ux 32 b (conv_i32_trunc F32 Ux b).
Proof.
  exists 0x4F800000. split; [unfold in_u; lia|]. rewrite conv_i32_trunc_f32_u_bug.
  intros [(v & Hv & Hr & Hw)|(t & Ht & _)]; [|discriminate]. injection Hv as <-.
  vm_compute in Hw. destruct Hw as [[[_ H] _]|[_ H]]; discriminate.
Qed.
Lemma fmt_cases F : F = F32 \/ F = F64 -> fmt_ok F.
Proof. intros [->| ->]; [apply F32_ok|apply F64_ok]. Qed.
Lemma relf_ok F op a b : F = F32 \/ F = F64 -> in_u (fw F) a -> in_u (fw F) b ->
  (f_relop F op a b = 1 /\ wasm_frel op (ieee_decode F a) (ieee_decode F b)) \/
  (f_relop F op a b = 0 /\ ~ wasm_frel op (ieee_decode F a) (ieee_decode F b)).
Proof. intros. apply f_relop_ok; auto using fmt_cases. Qed.
Lemma minmax_ok F a b : F = F32 \/ F = F64 -> in_u (fw F) a -> in_u (fw F) b ->
  wasm_fmin F a b (f_min F a b) /\ wasm_fmax F a b (f_max F a b).
Proof. intros. split; [apply f_min_ok|apply f_max_ok]; auto using fmt_cases. Qed.
Lemma signops_ok F a b : F = F32 \/ F = F64 -> in_u (fw F) a -> in_u (fw F) b ->
  (in_u (fw F) (f_abs F a) /\ in_u (fw F) (f_neg F a) /\ in_u (fw F) (f_copysign F a b)) /\
  forall k, 0 <= k < fw F ->
  Z.testbit (f_abs F a) k = (if k =? fw F - 1 then false else Z.testbit a k) /\
  Z.testbit (f_neg F a) k = (if k =? fw F - 1 then negb (Z.testbit a k) else Z.testbit a k) /\
  Z.testbit (f_copysign F a b) k = (if k =? fw F - 1 then Z.testbit b k else Z.testbit a k).
Proof.
  intros HF Ha Hb. split; [apply f_sign_range; auto using fmt_cases|]. intros k Hk.
  split; [|split]; [apply f_abs_ok|apply f_neg_ok|apply f_copysign_ok]; auto using fmt_cases.
Qed.
Lemma sat_ok w F s b : w = 32 \/ w = 64 -> F = F32 \/ F = F64 -> in_u (fw F) b ->
  in_s w (conv_trunc_sat w F s b) /\
  (match s with Sx => conv_trunc_sat w F s b | Ux => unsigned w (conv_trunc_sat w F s b) end)
  = wasm_trunc_sat s w (ieee_decode F b).
Proof. intros. exact (trunc_sat_ok w F s b H H0 H1). Qed.
Lemma reinterpret_ok w b z : w = 32 \/ w = 64 ->
  (in_u w b -> in_s w (reinterpret_f2i w b) /\ reinterpret_i2f w (reinterpret_f2i w b) = b /\
               unsigned w (reinterpret_f2i w b) = b) /\
  (in_s w z -> in_u w (reinterpret_i2f w z) /\ reinterpret_f2i w (reinterpret_i2f w z) = z /\
               reinterpret_i2f w z = unsigned w z).
Proof. intros Hw. apply reinterpret_roundtrip. lia. Qed.
