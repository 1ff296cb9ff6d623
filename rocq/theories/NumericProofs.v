(** Proofs that the integer handlers of Numeric.v implement WasmNum.v. *)
From Coq Require Import ZArith List Bool Lia ZifyBool ZifyNat.
From Verif Require Import Word Numeric WasmNum.
Import ListNotations.
Open Scope Z_scope.
Ltac Zify.zify_post_hook ::= Z.div_mod_to_equations.

(** ** words *)
Lemma pow_half w : 0 < w -> 2 ^ w = 2 * 2 ^ (w - 1).
Proof. intros. replace w with (Z.succ (w-1)) at 1 by lia. rewrite Z.pow_succ_r by lia. lia. Qed.
Lemma pow_pos w : 0 <= w -> 0 < 2 ^ w.
Proof. intros. apply Z.pow_pos_nonneg; lia. Qed.

Lemma cast_s_range w z : 0 < w -> in_s w (cast_s w z).
Proof.
  intros Hw. unfold in_s, cast_s. pose proof (pow_half w Hw). pose proof (pow_pos (w-1) ltac:(lia)).
  pose proof (Z.mod_pos_bound z (2^w) ltac:(lia)).
  destruct (Z.ltb_spec (z mod 2^w) (2^(w-1))); lia.
Qed.
Lemma cast_u_range w z : 0 <= w -> in_u w (cast_u w z).
Proof. intros. unfold in_u, cast_u. apply Z.mod_pos_bound, pow_pos; lia. Qed.
Lemma cast_s_mod w z : 0 < w -> (cast_s w z) mod 2 ^ w = z mod 2 ^ w.
Proof.
  intros Hw. unfold cast_s. pose proof (pow_pos w ltac:(lia)).
  destruct (Z.ltb_spec (z mod 2^w) (2^(w-1))).
  - apply Z.mod_mod; lia.
  - replace (z mod 2^w - 2^w) with (z mod 2^w + (-1) * 2^w) by lia.
    rewrite Z.mod_add by lia. apply Z.mod_mod; lia.
Qed.
Lemma cast_s_id w z : 0 < w -> in_s w z -> cast_s w z = z.
Proof.
  intros Hw [H1 H2]. unfold cast_s. pose proof (pow_half w Hw).
  destruct (Z.leb_spec 0 z).
  - rewrite Z.mod_small by lia. destruct (Z.ltb_spec z (2^(w-1))); lia.
  - replace (z mod 2^w) with (z + 2^w).
    2:{ rewrite <- (Z.mod_add z 1 (2^w)) by lia. rewrite Z.mod_small; lia. }
    destruct (Z.ltb_spec (z+2^w) (2^(w-1))); lia.
Qed.
Lemma unsigned_mod w z : 0 < w -> in_s w z -> unsigned w z = z mod 2 ^ w.
Proof.
  intros Hw [H1 H2]. unfold unsigned. pose proof (pow_half w Hw).
  destruct (Z.ltb_spec z 0).
  - rewrite <- (Z.mod_add z 1 (2^w)) by lia. rewrite Z.mod_small; lia.
  - rewrite Z.mod_small; lia.
Qed.
Lemma unsigned_cast w z : 0 < w -> unsigned w (cast_s w z) = z mod 2 ^ w.
Proof. intros. rewrite unsigned_mod by auto using cast_s_range. now apply cast_s_mod. Qed.
Lemma unsigned_cast_u w z : 0 < w -> in_s w z -> cast_u w z = unsigned w z.
Proof. intros. symmetry. now apply unsigned_mod. Qed.
Lemma signed_unsigned w z : 0 < w -> in_s w z -> signed w (unsigned w z) = z.
Proof.
  intros Hw [H1 H2]. pose proof (pow_half w Hw). unfold signed, unsigned.
  destruct (Z.ltb_spec z 0).
  - destruct (Z.ltb_spec (z+2^w) (2^(w-1))); lia.
  - destruct (Z.ltb_spec z (2^(w-1))); lia.
Qed.
Lemma unsigned_signed w z : 0 < w -> in_u w z -> unsigned w (signed w z) = z.
Proof.
  intros Hw [H1 H2]. pose proof (pow_half w Hw). unfold signed, unsigned.
  destruct (Z.ltb_spec z (2^(w-1))).
  - destruct (Z.ltb_spec z 0); lia.
  - destruct (Z.ltb_spec (z-2^w) 0); lia.
Qed.
Lemma signed_range w z : 0 < w -> in_u w z -> in_s w (signed w z).
Proof.
  intros Hw [H1 H2]. pose proof (pow_half w Hw). unfold signed, in_s.
  destruct (Z.ltb_spec z (2^(w-1))); lia.
Qed.
Lemma unsigned_range w z : 0 < w -> in_s w z -> in_u w (unsigned w z).
Proof. intros. rewrite unsigned_mod by auto. apply cast_u_range; lia. Qed.
Lemma cast_s_signed w z : cast_s w z = signed w (z mod 2^w).
Proof. reflexivity. Qed.
Lemma unsigned_inj w a b : 0 < w -> in_s w a -> in_s w b -> unsigned w a = unsigned w b -> a = b.
Proof. intros Hw Ha Hb H. rewrite <- (signed_unsigned w a), <- (signed_unsigned w b) by auto. congruence. Qed.

(** ** bit sequences *)
Lemma ibits_length n i : length (ibits n i) = n.
Proof. revert i; induction n; simpl; auto. Qed.
Lemma ibits_nth n i k : nth k (ibits n i) false = (Nat.ltb k n) && Z.testbit i (Z.of_nat k).
Proof.
  revert i k; induction n as [|n IH]; intros i k; cbn [ibits].
  - destruct k; reflexivity.
  - destruct k as [|k].
    + cbn [nth]. rewrite Z.bit0_odd. reflexivity.
    + cbn [nth]. rewrite IH. rewrite Nat2Z.inj_succ.
      rewrite <- (Z.div2_bits i) by lia. reflexivity.
Qed.
Lemma of_bits_range l : 0 <= of_bits l < 2 ^ Z.of_nat (length l).
Proof.
  induction l as [|b l IH]; cbn [of_bits length]; [simpl; lia|].
  rewrite Nat2Z.inj_succ, Z.pow_succ_r by lia. destruct b; lia.
Qed.
Lemma of_bits_testbit l k : Z.testbit (of_bits l) (Z.of_nat k) = nth k l false.
Proof.
  revert k; induction l as [|b l IH]; intros k.
  - cbn [of_bits]. rewrite Z.bits_0. destruct k; reflexivity.
  - cbn [of_bits]. destruct k as [|k].
    + cbn [nth]. rewrite Z.bit0_odd. destruct b.
      * rewrite Z.odd_add_mul_2. reflexivity.
      * rewrite Z.odd_add_mul_2. reflexivity.
    + cbn [nth]. rewrite Nat2Z.inj_succ, <- (Z.div2_bits (_ + _)) by lia.
      replace (((if b then 1 else 0) + 2 * of_bits l) / 2) with (of_bits l); [apply IH|].
      destruct b; lia.
Qed.
Lemma testbit_high a w k : 0 <= w -> 0 <= a < 2 ^ w -> w <= k -> Z.testbit a k = false.
Proof.
  intros Hw Ha Hk. destruct (Z.eq_dec a 0) as [->|Hn]; [apply Z.bits_0|].
  apply Z.bits_above_log2; [lia|]. pose proof (proj1 (Z.log2_lt_pow2 a w ltac:(lia)) ltac:(lia)). lia.
Qed.
(** two w-bit values with equal low bits are equal *)
Lemma eq_bits w a b : 0 <= w -> in_u w a -> in_u w b ->
  (forall k, 0 <= k < w -> Z.testbit a k = Z.testbit b k) -> a = b.
Proof.
  intros Hw Ha Hb H. apply Z.bits_inj'. intros k Hk. destruct (Z.ltb_spec k w); [auto|].
  rewrite (testbit_high a w), (testbit_high b w) by (unfold in_u in *; lia). reflexivity.
Qed.
Lemma map2_length {A B C} (f : A -> B -> C) l m : length l = length m -> length (map2 f l m) = length l.
Proof. revert m; induction l as [|a l IH]; intros [|b m] H; simpl in *; try lia. rewrite IH; lia. Qed.
Lemma map2_nth {A B C} (f : A -> B -> C) l m k a b : length l = length m ->
  nth k (map2 f l m) (f a b) = f (nth k l a) (nth k m b).
Proof. revert m k; induction l as [|x l IH]; intros [|y m] [|k] H; simpl in *; try lia; auto. Qed.

Lemma bitwise_testbit w f a b k : 0 <= w -> f false false = false -> 0 <= k < w ->
  Z.testbit (bitwise w f a b) k = f (Z.testbit a k) (Z.testbit b k).
Proof.
  intros Hw Hf Hk. unfold bitwise, width. rewrite <- (Z2Nat.id k) by lia.
  rewrite of_bits_testbit. rewrite <- Hf.
  rewrite map2_nth by (now rewrite !ibits_length). rewrite !ibits_nth.
  replace (Z.to_nat k <? Z.to_nat w)%nat with true by (symmetry; apply Nat.ltb_lt; lia). reflexivity.
Qed.
Lemma bitwise_range w f a b : 0 <= w -> in_u w (bitwise w f a b).
Proof.
  intros Hw. unfold bitwise, in_u.
  pose proof (of_bits_range (map2 f (ibits (width w) a) (ibits (width w) b))) as H.
  rewrite map2_length in H by now rewrite !ibits_length. rewrite ibits_length in H.
  unfold width in *. rewrite Z2Nat.id in H; lia.
Qed.
Lemma mod_testbit z w k : 0 <= k < w -> Z.testbit (z mod 2^w) k = Z.testbit z k.
Proof. intros. apply Z.mod_pow2_bits_low; lia. Qed.

Lemma in_s_land w a b : 0 < w -> in_s w a -> in_s w b -> in_s w (Z.land a b).
Proof.
  intros Hw Ha Hb.
  assert (Hsign : forall z, in_s w z <-> forall k, w - 1 <= k -> Z.testbit z k = Z.testbit z (w-1)).
  { intros z. split.
    - intros [H1 H2] k Hk. destruct (Z.ltb_spec z 0).
      + assert (Hx : forall j, w-1 <= j -> Z.testbit z j = true).
        { intros j Hj. replace z with (-(-z)) by lia. rewrite Z.bits_opp by lia.
          rewrite (testbit_high (Z.pred (-z)) (w-1)) by lia. reflexivity. }
        rewrite !Hx by lia. reflexivity.
      + rewrite !(testbit_high z (w-1)) by lia. reflexivity.
    - intros H. destruct (Z.ltb_spec z 0) as [Hz|Hz].
      + assert (Ht : Z.testbit z (w-1) = true).
        { destruct (proj1 (Z.bits_iff_neg_ex z) Hz) as [k0 Hk0].
          rewrite <- (H (Z.max (k0+1) (w-1)) ltac:(lia)). apply Hk0. lia. }
        assert (Hp : Z.pred (-z) < 2^(w-1)).
        { destruct (Z.eq_dec (Z.pred (-z)) 0) as [->|Hne]; [apply pow_pos; lia|].
          apply Z.log2_lt_pow2; [lia|]. destruct (Z.ltb_spec (Z.log2 (Z.pred (-z))) (w-1)); [auto|].
          exfalso. pose proof (Z.bit_log2 (Z.pred (-z)) ltac:(lia)) as Hb1.
          assert (Z.testbit z (Z.log2 (Z.pred (-z))) = false).
          { replace z with (-(-z)) at 1 by lia. rewrite Z.bits_opp by (apply Z.log2_nonneg). now rewrite Hb1. }
          rewrite H in H1 by lia. congruence. }
        unfold in_s. lia.
      + assert (Ht : Z.testbit z (w-1) = false).
        { destruct (proj1 (Z.bits_iff_nonneg_ex z) Hz) as [k0 Hk0].
          rewrite <- (H (Z.max (k0+1) (w-1)) ltac:(lia)). apply Hk0. lia. }
        assert (Hp : z < 2^(w-1)).
        { destruct (Z.eq_dec z 0) as [->|Hne]; [apply pow_pos; lia|].
          apply Z.log2_lt_pow2; [lia|]. destruct (Z.ltb_spec (Z.log2 z) (w-1)); [auto|].
          exfalso. pose proof (Z.bit_log2 z ltac:(lia)) as Hb1. rewrite H in Hb1 by lia. congruence. }
        unfold in_s. lia. }
  rewrite Hsign in *. intros k Hk. rewrite !Z.land_spec, Ha, Hb by auto. reflexivity.
Qed.
Lemma in_s_lnot w a : in_s w a -> in_s w (Z.lnot a).
Proof. unfold in_s, Z.lnot. lia. Qed.
Lemma in_s_lor w a b : 0 < w -> in_s w a -> in_s w b -> in_s w (Z.lor a b).
Proof.
  intros. replace (Z.lor a b) with (Z.lnot (Z.land (Z.lnot a) (Z.lnot b))).
  - auto using in_s_lnot, in_s_land.
  - rewrite Z.lnot_land, !Z.lnot_involutive. reflexivity.
Qed.
Lemma in_s_lxor w a b : 0 < w -> in_s w a -> in_s w b -> in_s w (Z.lxor a b).
Proof.
  intros. replace (Z.lxor a b) with (Z.lor (Z.land a (Z.lnot b)) (Z.land (Z.lnot a) b)).
  - auto 10 using in_s_lnot, in_s_land, in_s_lor.
  - apply Z.bits_inj'. intros k Hk. rewrite Z.lor_spec, !Z.land_spec, !Z.lnot_spec, Z.lxor_spec by lia.
    destruct (Z.testbit a k), (Z.testbit b k); reflexivity.
Qed.

Lemma bitwise_correct w f (g : Z -> Z -> Z) a b : 0 < w -> f false false = false ->
  in_s w a -> in_s w b -> in_s w (g a b) ->
  (forall k, 0 <= k -> Z.testbit (g a b) k = f (Z.testbit a k) (Z.testbit b k)) ->
  bitwise w f (unsigned w a) (unsigned w b) = unsigned w (g a b).
Proof.
  intros Hw Hf Ha Hb Hg Hk. apply (eq_bits w); [lia| |apply unsigned_range; auto|].
  - apply bitwise_range; lia.
  - intros k Hkk. rewrite bitwise_testbit by (auto; lia).
    rewrite !unsigned_mod by auto. rewrite !mod_testbit by lia. now rewrite Hk by lia.
Qed.

(** ** rotates *)
Lemma rotl_correct w a k : 0 < w -> in_s w a -> 0 <= k < w ->
  of_bits (rotl_list (Z.to_nat k) (ibits (width w) (unsigned w a))) =
  (Z.lor (Z.shiftl (cast_u w a) k) (Z.shiftr (cast_u w a) (w - k))) mod 2 ^ w.
Proof.
  intros Hw Ha Hk. apply (eq_bits w); [lia| | |].
  - pose proof (of_bits_range (rotl_list (Z.to_nat k) (ibits (width w) (unsigned w a)))) as H.
    unfold rotl_list in H. rewrite app_length, skipn_length, firstn_length, ibits_length in H.
    unfold in_u, rotl_list, width in *. rewrite ibits_length in *.
    replace (Z.of_nat _) with w in H by lia. exact H.
  - unfold in_u. apply Z.mod_pos_bound, pow_pos; lia.
  - intros j Hj. rewrite mod_testbit by lia. rewrite Z.lor_spec, Z.shiftl_spec, Z.shiftr_spec by lia.
    rewrite <- (Z2Nat.id j) at 1 by lia. rewrite of_bits_testbit. unfold rotl_list.
    rewrite ibits_length. unfold width.
    rewrite (unsigned_cast_u w a) by auto.
    pose proof (unsigned_range w a Hw Ha) as Hu. set (u := unsigned w a) in *. clearbody u.
    destruct (Z.ltb_spec j k).
    + rewrite app_nth1 by (rewrite skipn_length, ibits_length; lia).
      assert (Hn : forall (l : list bool) n m, nth m (skipn n l) false = nth (n+m) l false).
      { clear. intros l n. revert l. induction n; intros [|x l] m; simpl; auto. destruct m; auto. }
      rewrite Hn, ibits_nth.
      replace (_ <? _)%nat with true by (symmetry; apply Nat.ltb_lt; lia).
      rewrite (Z.testbit_neg_r u (j-k)) by lia. cbn [andb orb]. f_equal. lia.
    + rewrite app_nth2 by (rewrite skipn_length, ibits_length; lia).
      rewrite skipn_length, ibits_length.
      assert (Hn : forall (l : list bool) n m, (m < n)%nat -> nth m (firstn n l) false = nth m l false).
      { clear. intros l n. revert l. induction n; intros [|x l] m H; simpl; auto; try lia.
        destruct m; auto. apply IHn. lia. }
      rewrite Hn by lia. rewrite ibits_nth.
      replace (_ <? _)%nat with true by (symmetry; apply Nat.ltb_lt; lia).
      rewrite (testbit_high u w (j+(w-k))) by (unfold in_u in *; lia). rewrite orb_false_r.
      cbn [andb]. f_equal. lia.
Qed.
Lemma rotr_correct w a k : 0 < w -> in_s w a -> 0 <= k < w ->
  of_bits (rotr_list (Z.to_nat k) (ibits (width w) (unsigned w a))) =
  (Z.lor (Z.shiftr (cast_u w a) k) (Z.shiftl (cast_u w a) (w - k))) mod 2 ^ w.
Proof.
  intros Hw Ha Hk. apply (eq_bits w); [lia| | |].
  - pose proof (of_bits_range (rotr_list (Z.to_nat k) (ibits (width w) (unsigned w a)))) as H.
    unfold rotr_list in H. rewrite app_length, skipn_length, firstn_length, ibits_length in H.
    unfold in_u, rotr_list, width in *.
    replace (Z.of_nat _) with w in H by lia. exact H.
  - unfold in_u. apply Z.mod_pos_bound, pow_pos; lia.
  - intros j Hj. rewrite mod_testbit by lia. rewrite Z.lor_spec, Z.shiftl_spec, Z.shiftr_spec by lia.
    rewrite <- (Z2Nat.id j) at 1 by lia. rewrite of_bits_testbit. unfold rotr_list. unfold width.
    rewrite (unsigned_cast_u w a) by auto.
    pose proof (unsigned_range w a Hw Ha) as Hu. set (u := unsigned w a) in *. clearbody u.
    destruct (Z.ltb_spec j (w-k)).
    + rewrite app_nth1 by (rewrite skipn_length, ibits_length; lia).
      assert (Hn : forall (l : list bool) n m, nth m (skipn n l) false = nth (n+m) l false).
      { clear. intros l n. revert l. induction n; intros [|x l] m; simpl; auto. destruct m; auto. }
      rewrite Hn, ibits_nth.
      replace (_ <? _)%nat with true by (symmetry; apply Nat.ltb_lt; lia).
      rewrite (Z.testbit_neg_r u (j-(w-k))) by lia. rewrite orb_false_r. cbn [andb]. f_equal. lia.
    + rewrite app_nth2 by (rewrite skipn_length, ibits_length; lia).
      rewrite skipn_length, ibits_length.
      assert (Hn : forall (l : list bool) n m, (m < n)%nat -> nth m (firstn n l) false = nth m l false).
      { clear. intros l n. revert l. induction n; intros [|x l] m H; simpl; auto; try lia.
        destruct m; auto. apply IHn. lia. }
      rewrite Hn by lia. rewrite ibits_nth.
      replace (_ <? _)%nat with true by (symmetry; apply Nat.ltb_lt; lia).
      rewrite (testbit_high u w (j+k)) by (unfold in_u in *; lia).
      cbn [andb orb]. f_equal. lia.
Qed.

(** ** counting *)
Lemma ibits_snoc n i : ibits (S n) i = ibits n i ++ [Z.testbit i (Z.of_nat n)].
Proof.
  apply (nth_ext _ _ false false).
  - rewrite app_length, !ibits_length. simpl. lia.
  - intros k Hk. rewrite ibits_length in Hk. rewrite ibits_nth.
    destruct (Nat.ltb_spec k n).
    + rewrite app_nth1 by (rewrite ibits_length; lia). rewrite ibits_nth.
      replace (k <? S n)%nat with true by (symmetry; apply Nat.ltb_lt; lia).
      replace (k <? n)%nat with true by (symmetry; apply Nat.ltb_lt; lia). reflexivity.
    + rewrite app_nth2 by (rewrite ibits_length; lia). rewrite ibits_length.
      replace k with n by lia. rewrite Nat.sub_diag. cbn [nth].
      replace (n <? S n)%nat with true by (symmetry; apply Nat.ltb_lt; lia). reflexivity.
Qed.
Lemma count_prefix_le b l : 0 <= count_prefix b l <= Z.of_nat (length l).
Proof. induction l as [|x l IH]; cbn [count_prefix length]; [lia|]. destruct (Bool.eqb x b); lia. Qed.
Lemma count_true_le l : 0 <= count_true l <= Z.of_nat (length l).
Proof. induction l as [|x l IH]; cbn [count_true length]; [lia|]. destruct x; lia. Qed.

Lemma clz_zero n : count_prefix false (rev (ibits n 0)) = Z.of_nat n.
Proof.
  induction n as [|n IH]; [reflexivity|]. rewrite ibits_snoc, rev_app_distr. cbn [rev app count_prefix].
  rewrite Z.bits_0. cbn [Bool.eqb]. rewrite IH. lia.
Qed.
Lemma clz_pos n u : 0 < u < 2 ^ Z.of_nat n ->
  count_prefix false (rev (ibits n u)) = Z.of_nat n - 1 - Z.log2 u.
Proof.
  induction n as [|n IH]; [simpl; lia|]. intros Hu.
  rewrite ibits_snoc, rev_app_distr. cbn [rev app count_prefix].
  rewrite Nat2Z.inj_succ, Z.pow_succ_r in Hu by lia.
  destruct (Z.ltb_spec u (2 ^ Z.of_nat n)) as [Hlt|Hge].
  - rewrite (testbit_high u (Z.of_nat n)) by lia. cbn [Bool.eqb]. rewrite IH by lia. lia.
  - assert (Hl : Z.log2 u = Z.of_nat n).
    { apply Z.log2_unique; [lia|]. rewrite Z.pow_succ_r by lia. lia. }
    rewrite <- Hl at 1. rewrite Z.bit_log2 by lia. cbn [Bool.eqb]. lia.
Qed.
Lemma ctz_zero n : count_prefix false (ibits n 0) = Z.of_nat n.
Proof.
  induction n as [|n IH]; [reflexivity|]. cbn [ibits count_prefix]. change (Z.odd 0) with false.
  cbn [Bool.eqb]. change (0/2) with 0. rewrite IH. lia.
Qed.
Lemma ctz_pos n p : Zpos p < 2 ^ Z.of_nat n -> count_prefix false (ibits n (Zpos p)) = pos_ctz p.
Proof.
  revert p; induction n as [|n IH]; intros p Hp; [simpl in Hp; lia|].
  rewrite Nat2Z.inj_succ, Z.pow_succ_r in Hp by lia.
  cbn [ibits count_prefix]. destruct p as [q|q|]; cbn [Z.odd Bool.eqb pos_ctz]; try reflexivity.
  replace (Zpos q~0 / 2) with (Zpos q) by (rewrite (Pos2Z.inj_xO q); lia).
  rewrite IH by lia. reflexivity.
Qed.
Lemma popcnt_zero n : count_true (ibits n 0) = 0.
Proof. induction n as [|n IH]; [reflexivity|]. cbn [ibits count_true]. change (Z.odd 0) with false. change (0/2) with 0. lia. Qed.
Lemma popcnt_pos n p : Zpos p < 2 ^ Z.of_nat n -> count_true (ibits n (Zpos p)) = pos_popcount p.
Proof.
  revert p; induction n as [|n IH]; intros p Hp; [simpl in Hp; lia|].
  rewrite Nat2Z.inj_succ, Z.pow_succ_r in Hp by lia.
  cbn [ibits count_true]. destruct p as [q|q|]; cbn [Z.odd pos_popcount].
  - replace (Zpos q~1 / 2) with (Zpos q) by (rewrite (Pos2Z.inj_xI q); lia). rewrite IH; lia.
  - replace (Zpos q~0 / 2) with (Zpos q) by (rewrite (Pos2Z.inj_xO q); lia). rewrite IH; lia.
  - change (1/2) with 0. rewrite popcnt_zero. reflexivity.
Qed.

Lemma unop_counts w a : 0 < w -> in_s w a ->
  leading_zeros w a = count_prefix false (rev (ibits (width w) (unsigned w a))) /\
  trailing_zeros w a = count_prefix false (ibits (width w) (unsigned w a)) /\
  count_ones w a = count_true (ibits (width w) (unsigned w a)).
Proof.
  intros Hw Ha. unfold leading_zeros, trailing_zeros, count_ones. rewrite unsigned_cast_u by auto.
  pose proof (unsigned_range w a Hw Ha) as Hu. unfold in_u in Hu. unfold width.
  destruct (unsigned w a) as [|p|p] eqn:E.
  - rewrite clz_zero, ctz_zero, popcnt_zero. lia.
  - rewrite clz_pos, ctz_pos, popcnt_pos by (rewrite ?Z2Nat.id; lia). lia.
  - lia.
Qed.

(** ** binary operators, generic in the width *)
Definition ok_bin (w : Z) (op : ibinop) (a b : Z) (r : res Z) : Prop :=
  match r with
  | Ok v => in_s w v /\ wasm_ibinop w op (unsigned w a) (unsigned w b) = Some (unsigned w v)
  | Trap _ => wasm_ibinop w op (unsigned w a) (unsigned w b) = None
  | UB => False
  end.

Lemma unsigned_zero w b : 0 < w -> in_s w b -> (unsigned w b =? 0) = (b =? 0).
Proof.
  intros Hw [H1 H2]. pose proof (pow_half w Hw). unfold unsigned. destruct (Z.ltb_spec b 0); lia.
Qed.
Lemma mod_eq_add w x y : 0 < w -> (exists k, x = y + k * 2^w) -> x mod 2^w = y mod 2^w.
Proof. intros Hw [k ->]. pose proof (pow_pos w ltac:(lia)). apply Z.mod_add. lia. Qed.
Lemma unsigned_congr w a : exists k, unsigned w a = a + k * 2^w.
Proof. unfold unsigned. destruct (a <? 0); [exists 1|exists 0]; lia. Qed.

Lemma add_ok w a b : 0 < w -> in_s w a -> in_s w b -> ok_bin w Iadd a b (Ok (wrapping_add w a b)).
Proof.
  intros Hw Ha Hb. split; [apply cast_s_range; auto|]. unfold wrapping_add. cbn [wasm_ibinop].
  rewrite unsigned_cast by auto. f_equal. apply mod_eq_add; auto.
  destruct (unsigned_congr w a) as [k ->], (unsigned_congr w b) as [k' ->]. exists (k+k'). lia.
Qed.
Lemma sub_ok w a b : 0 < w -> in_s w a -> in_s w b -> ok_bin w Isub a b (Ok (wrapping_sub w a b)).
Proof.
  intros Hw Ha Hb. split; [apply cast_s_range; auto|]. unfold wrapping_sub. cbn [wasm_ibinop].
  rewrite unsigned_cast by auto. f_equal. apply mod_eq_add; auto.
  destruct (unsigned_congr w a) as [k ->], (unsigned_congr w b) as [k' ->]. exists (k-k'+1). lia.
Qed.
Lemma mul_ok w a b : 0 < w -> in_s w a -> in_s w b -> ok_bin w Imul a b (Ok (wrapping_mul w a b)).
Proof.
  intros Hw Ha Hb. split; [apply cast_s_range; auto|]. unfold wrapping_mul. cbn [wasm_ibinop].
  rewrite unsigned_cast by auto. f_equal. apply mod_eq_add; auto.
  destruct (unsigned_congr w a) as [k ->], (unsigned_congr w b) as [k' ->].
  exists (k*b+a*k'+k*k'*2^w). ring.
Qed.
Lemma and_ok w a b : 0 < w -> in_s w a -> in_s w b -> ok_bin w Iand a b (Ok (Z.land a b)).
Proof.
  intros Hw Ha Hb. split; [apply in_s_land; auto|]. cbn [wasm_ibinop]. f_equal.
  apply bitwise_correct; auto using in_s_land. intros; apply Z.land_spec.
Qed.
Lemma or_ok w a b : 0 < w -> in_s w a -> in_s w b -> ok_bin w Ior a b (Ok (Z.lor a b)).
Proof.
  intros Hw Ha Hb. split; [apply in_s_lor; auto|]. cbn [wasm_ibinop]. f_equal.
  apply bitwise_correct; auto using in_s_lor. intros; apply Z.lor_spec.
Qed.
Lemma xor_ok w a b : 0 < w -> in_s w a -> in_s w b -> ok_bin w Ixor a b (Ok (Z.lxor a b)).
Proof.
  intros Hw Ha Hb. split; [apply in_s_lxor; auto|]. cbn [wasm_ibinop]. f_equal.
  apply bitwise_correct; auto using in_s_lxor. intros; apply Z.lxor_spec.
Qed.

(** quotients stay in range except MIN / -1 *)
Lemma quot_range w a b : 0 < w -> in_s w a -> in_s w b -> b <> 0 ->
  - 2 ^ (w-1) <= Z.quot a b <= 2 ^ (w-1) /\ (Z.quot a b = 2^(w-1) <-> a = - 2^(w-1) /\ b = -1).
Proof.
  intros Hw [Ha1 Ha2] [Hb1 Hb2] Hb. pose proof (pow_pos (w-1) ltac:(lia)) as Hp.
  set (M := 2^(w-1)) in *. clearbody M.
  assert (Hq : Z.abs (Z.quot a b) <= Z.abs a /\ (Z.abs (Z.quot a b) = Z.abs a -> a = 0 \/ Z.abs b = 1)).
  { rewrite <- Z.quot_abs by lia. rewrite Z.quot_div_nonneg by lia.
    set (x := Z.abs a). set (y := Z.abs b). assert (0 <= x) by lia. assert (1 <= y) by lia.
    split.
    - apply Z.div_le_upper_bound; [lia|]. nia.
    - intros He. destruct (Z.eq_dec x 0); [lia|]. right.
      destruct (Z.eq_dec y 1); [auto|]. pose proof (Z.div_lt x y ltac:(lia) ltac:(lia)). lia. }
  destruct Hq as [Hq1 Hq2]. split; [lia|]. split.
  - intros He. assert (Ha : a = -M) by lia. split; [auto|].
    destruct (Hq2 ltac:(lia)) as [|Hb']; [lia|].
    assert (b = 1 \/ b = -1) as [-> | ->] by lia; [|reflexivity].
    rewrite Z.quot_1_r in He. lia.
  - intros [-> ->]. change (-1) with (-(1)). rewrite Z.quot_opp_opp by lia. apply Z.quot_1_r.
Qed.
Lemma div_s_ok w a b : 0 < w -> in_s w a -> in_s w b -> ok_bin w Idiv_s a b (div_signed w a b).
Proof.
  intros Hw Ha Hb. unfold div_signed, ok_bin. cbn [wasm_ibinop].
  rewrite unsigned_zero, !signed_unsigned by auto.
  destruct (Z.eqb_spec b 0) as [|Hb0]; [reflexivity|].
  destruct (quot_range w a b Hw Ha Hb Hb0) as [[Hr1 Hr2] Hr].
  destruct ((a =? - 2 ^ (w - 1)) && (b =? -1)) eqn:E.
  - apply andb_prop in E. destruct E as [E1 E2]. apply Z.eqb_eq in E1, E2.
    destruct Hr as [_ Hr]. rewrite Hr by auto. now rewrite Z.eqb_refl.
  - assert (Hne : Z.quot a b <> 2^(w-1)).
    { intros Hq. apply Hr in Hq. destruct Hq as [-> ->]. rewrite !Z.eqb_refl in E. discriminate. }
    destruct (Z.eqb_spec (Z.quot a b) (2^(w-1))); [contradiction|].
    split; [unfold in_s; lia|reflexivity].
Qed.
Lemma rem_s_ok w a b : 0 < w -> in_s w a -> in_s w b -> ok_bin w Irem_s a b (wrapping_rem w a b).
Proof.
  intros Hw Ha Hb. unfold wrapping_rem, ok_bin. cbn [wasm_ibinop].
  rewrite unsigned_zero, !signed_unsigned by auto. pose proof (pow_pos (w-1) ltac:(lia)) as Hp.
  destruct (Z.eqb_spec b 0) as [|Hb0]; [reflexivity|].
  destruct ((a =? - 2 ^ (w - 1)) && (b =? -1)) eqn:E.
  - apply andb_prop in E. destruct E as [E1 E2]. apply Z.eqb_eq in E1, E2. subst.
    split; [unfold in_s; lia|]. change (-1) with (-(1)). rewrite Z.rem_opp_opp by lia.
    rewrite Z.rem_1_r. reflexivity.
  - split; [|reflexivity]. unfold in_s in *. pose proof (Z.rem_bound_abs a b Hb0).
    destruct (Z.leb_spec 0 a).
    + pose proof (Z.rem_nonneg a b Hb0 ltac:(lia)). lia.
    + pose proof (Z.rem_nonpos a b Hb0 ltac:(lia)). lia.
Qed.
Lemma div_u_ok w a b : 0 < w -> in_s w a -> in_s w b ->
  ok_bin w Idiv_u a b (let* q := div_unsigned (cast_u w a) (cast_u w b) in Ok (cast_s w q)).
Proof.
  intros Hw Ha Hb. unfold div_unsigned. rewrite !unsigned_cast_u by auto.
  pose proof (unsigned_range w a Hw Ha) as [Hu1 Hu2]. pose proof (unsigned_range w b Hw Hb) as [Hv1 Hv2].
  unfold ok_bin. cbn [wasm_ibinop]. destruct (Z.eqb_spec (unsigned w b) 0) as [E|E]; cbn [bind]; [reflexivity|].
  split; [apply cast_s_range; auto|]. rewrite unsigned_cast by auto. rewrite Z.mod_small; [reflexivity|].
  split; [apply Z.div_pos; lia|]. apply Z.div_lt_upper_bound; [lia|]. nia.
Qed.
Lemma rem_u_ok w a b : 0 < w -> in_s w a -> in_s w b ->
  ok_bin w Irem_u a b (let* q := rem_unsigned (cast_u w a) (cast_u w b) in Ok (cast_s w q)).
Proof.
  intros Hw Ha Hb. unfold rem_unsigned. rewrite !unsigned_cast_u by auto.
  pose proof (unsigned_range w a Hw Ha) as [Hu1 Hu2]. pose proof (unsigned_range w b Hw Hb) as [Hv1 Hv2].
  unfold ok_bin. cbn [wasm_ibinop]. destruct (Z.eqb_spec (unsigned w b) 0) as [E|E]; cbn [bind]; [reflexivity|].
  split; [apply cast_s_range; auto|]. rewrite unsigned_cast by auto.
  rewrite (Z.mod_small (_ mod _)).
  - f_equal. rewrite (Z.mod_eq (unsigned w a)) by lia. lia.
  - pose proof (Z.mod_pos_bound (unsigned w a) (unsigned w b) ltac:(lia)). lia.
Qed.

(** shift counts: masking before or after truncation to 32 bits is the same *)
Lemma count_mask w b : w = 32 \/ w = 64 -> in_s w b -> (cast_u 32 b) mod w = (unsigned w b) mod w.
Proof.
  intros Hw Hb. rewrite unsigned_mod by (auto; lia). unfold cast_u.
  assert (H : forall p, 6 <= p -> (b mod 2^p) mod w = b mod w).
  { intros p Hp. symmetry. assert (Hd : exists q, 2^p = q * w /\ 0 < q).
    { destruct Hw as [-> | ->].
      - exists (2^(p-5)). replace p with (p-5+5) at 1 by lia. rewrite Z.pow_add_r by lia.
        pose proof (pow_pos (p-5) ltac:(lia)). lia.
      - exists (2^(p-6)). replace p with (p-6+6) at 1 by lia. rewrite Z.pow_add_r by lia.
        pose proof (pow_pos (p-6) ltac:(lia)). lia. }
    destruct Hd as (q & -> & Hq).
    rewrite (Z.mul_comm q w), Z.rem_mul_r by lia.
    rewrite (Z.mul_comm w), Z.mod_add by lia. rewrite Z.mod_mod by lia. reflexivity. }
  rewrite !H by lia. reflexivity.
Qed.
Lemma shl_ok w a b : w = 32 \/ w = 64 -> in_s w a -> in_s w b ->
  ok_bin w Ishl a b (Ok (wrapping_shl w a (cast_u 32 b))).
Proof.
  intros Hw Ha Hb. split; [apply cast_s_range; lia|]. unfold wrapping_shl. cbn [wasm_ibinop].
  rewrite unsigned_cast, count_mask by (auto; lia). set (k := unsigned w b mod w).
  assert (0 <= k < w) by (apply Z.mod_pos_bound; lia).
  rewrite Z.shiftl_mul_pow2 by lia. f_equal. apply mod_eq_add; [lia|].
  destruct (unsigned_congr w a) as [j ->]. exists (j * 2^k). ring.
Qed.
Lemma shr_s_range w a k : 0 < w -> in_s w a -> 0 <= k -> in_s w (a / 2^k).
Proof.
  intros Hw [H1 H2] Hk. pose proof (pow_pos k Hk). split.
  - apply Z.div_le_lower_bound; [lia|]. nia.
  - apply Z.div_lt_upper_bound; [lia|]. pose proof (pow_pos (w-1) ltac:(lia)). nia.
Qed.
Lemma shr_s_ok w a b : w = 32 \/ w = 64 -> in_s w a -> in_s w b ->
  ok_bin w Ishr_s a b (Ok (wrapping_shr w a (cast_u 32 b))).
Proof.
  intros Hw Ha Hb. unfold wrapping_shr, ok_bin. cbn [wasm_ibinop].
  rewrite count_mask by (auto; lia). set (k := unsigned w b mod w).
  assert (0 <= k < w) by (apply Z.mod_pos_bound; lia).
  rewrite Z.shiftr_div_pow2 by lia. rewrite signed_unsigned by (auto; lia).
  split; [apply shr_s_range; auto; lia|reflexivity].
Qed.
Lemma shr_u_ok w a b : w = 32 \/ w = 64 -> in_s w a -> in_s w b ->
  ok_bin w Ishr_u a b (Ok (cast_s w (wrapping_shr w (cast_u w a) (cast_u 32 b)))).
Proof.
  intros Hw Ha Hb. unfold wrapping_shr, ok_bin. cbn [wasm_ibinop]. split; [apply cast_s_range; lia|].
  rewrite count_mask by (auto; lia). set (k := unsigned w b mod w).
  assert (0 <= k < w) by (apply Z.mod_pos_bound; lia).
  rewrite Z.shiftr_div_pow2 by lia. rewrite unsigned_cast by lia. rewrite unsigned_cast_u by (auto; lia).
  rewrite Z.mod_small; [reflexivity|]. pose proof (pow_pos k ltac:(lia)).
  pose proof (unsigned_range w a ltac:(lia) Ha) as [Hu1 Hu2]. split; [apply Z.div_pos; lia|].
  apply Z.div_lt_upper_bound; [lia|]. nia.
Qed.
Lemma rotl_ok w a b : w = 32 \/ w = 64 -> in_s w a -> in_s w b ->
  ok_bin w Irotl a b (Ok (rotate_left w a (cast_u 32 b))).
Proof.
  intros Hw Ha Hb. split; [apply cast_s_range; lia|]. unfold rotate_left. cbn [wasm_ibinop].
  rewrite count_mask by (auto; lia). set (k := unsigned w b mod w).
  assert (0 <= k < w) by (apply Z.mod_pos_bound; lia).
  rewrite rotl_correct by (auto; lia). rewrite unsigned_cast by lia. reflexivity.
Qed.
Lemma rotr_ok w a b : w = 32 \/ w = 64 -> in_s w a -> in_s w b ->
  ok_bin w Irotr a b (Ok (rotate_right w a (cast_u 32 b))).
Proof.
  intros Hw Ha Hb. split; [apply cast_s_range; lia|]. unfold rotate_right. cbn [wasm_ibinop].
  rewrite count_mask by (auto; lia). set (k := unsigned w b mod w).
  assert (0 <= k < w) by (apply Z.mod_pos_bound; lia).
  rewrite rotr_correct by (auto; lia). rewrite unsigned_cast by lia. reflexivity.
Qed.

Ltac binops :=
  first [apply add_ok | apply sub_ok | apply mul_ok | apply and_ok | apply or_ok | apply xor_ok
  | apply div_s_ok | apply rem_s_ok | apply div_u_ok | apply rem_u_ok
  | apply shl_ok | apply shr_s_ok | apply shr_u_ok | apply rotl_ok | apply rotr_ok ]; auto; lia.

Lemma i32_binop_ok op a b : in_s 32 a -> in_s 32 b -> ok_bin 32 op a b (i32_binop op a b).
Proof. intros Ha Hb. destruct op; cbn [i32_binop]; binops. Qed.
Lemma i64_binop_ok op a b : in_s 64 a -> in_s 64 b -> ok_bin 64 op a b (i64_binop op a b).
Proof. intros Ha Hb. destruct op; cbn [i64_binop]; binops. Qed.

(** ** comparisons *)
Lemma unsigned_eqb w a b : 0 < w -> in_s w a -> in_s w b -> (unsigned w a =? unsigned w b) = (a =? b).
Proof.
  intros Hw Ha Hb. destruct (Z.eqb_spec a b) as [->|H]; [apply Z.eqb_refl|].
  apply Z.eqb_neq. intros E. apply H. eapply unsigned_inj; eauto.
Qed.
Lemma i32_relop_ok op a b : in_s 32 a -> in_s 32 b ->
  i32_relop op a b = wasm_irelop 32 op (unsigned 32 a) (unsigned 32 b).
Proof.
  intros Ha Hb. unfold i32_relop, wasm_irelop.
  rewrite !unsigned_cast_u, !signed_unsigned, unsigned_eqb by (auto; lia).
  rewrite ?Z.gtb_ltb, ?Z.geb_leb. destruct op; reflexivity.
Qed.
Lemma i64_relop_ok op a b : in_s 64 a -> in_s 64 b ->
  i64_relop op a b = wasm_irelop 64 op (unsigned 64 a) (unsigned 64 b).
Proof.
  intros Ha Hb. unfold i64_relop, wasm_irelop.
  rewrite !unsigned_cast_u, !signed_unsigned, unsigned_eqb by (auto; lia).
  rewrite ?Z.gtb_ltb, ?Z.geb_leb. destruct op; reflexivity.
Qed.
Lemma i32_eqz_ok a : in_s 32 a -> i32_eqz a = wasm_eqz (unsigned 32 a).
Proof. intros Ha. unfold i32_eqz, wasm_eqz. rewrite unsigned_zero by (auto; lia). reflexivity. Qed.
Lemma i64_eqz_ok a : in_s 64 a -> i64_eqz a = wasm_eqz (unsigned 64 a).
Proof. intros Ha. unfold i64_eqz, wasm_eqz. rewrite unsigned_zero by (auto; lia). reflexivity. Qed.

(** ** unary *)
Lemma in_s_mono w w' z : 0 < w <= w' -> in_s w z -> in_s w' z.
Proof.
  intros Hw [H1 H2]. pose proof (Z.pow_le_mono_r 2 (w-1) (w'-1) ltac:(lia) ltac:(lia)).
  unfold in_s. lia.
Qed.
Lemma ext_ok m w a : 0 < m <= w -> in_s w a ->
  in_s w (cast_s m a) /\ unsigned w (cast_s m a) = wasm_extend_s m w (unsigned w a).
Proof.
  intros Hm Ha. split; [apply (in_s_mono m); auto using cast_s_range; apply cast_s_range; lia|].
  unfold wasm_extend_s. f_equal. rewrite cast_s_signed. f_equal.
  destruct (unsigned_congr w a) as [k ->]. symmetry. apply mod_eq_add; [lia|].
  exists (k * 2^(w-m)). rewrite <- Z.mul_assoc, <- Z.pow_add_r by lia.
  replace (w-m+m) with w by lia. reflexivity.
Qed.
Lemma count_ok w (a c : Z) : w = 32 \/ w = 64 -> 0 <= c <= w -> cast_s w c = c /\ unsigned w c = c.
Proof.
  intros Hw Hc. assert (in_s w c) by (destruct Hw as [-> | ->]; unfold in_s; cbn; lia).
  split; [apply cast_s_id; auto; lia|]. unfold unsigned. destruct (Z.ltb_spec c 0); lia.
Qed.
Lemma counts_range w a : 0 < w -> in_s w a -> 0 <= leading_zeros w a <= w /\ 0 <= trailing_zeros w a <= w /\ 0 <= count_ones w a <= w.
Proof.
  intros Hw Ha. destruct (unop_counts w a Hw Ha) as (-> & -> & ->).
  pose proof (count_prefix_le false (rev (ibits (width w) (unsigned w a)))) as H1.
  pose proof (count_prefix_le false (ibits (width w) (unsigned w a))) as H2.
  pose proof (count_true_le (ibits (width w) (unsigned w a))) as H3.
  rewrite ?rev_length, ibits_length in *. unfold width in *. lia.
Qed.
Definition ok_un (w : Z) (op : iunop) (a r : Z) : Prop :=
  in_s w r /\ unsigned w r = wasm_iunop w op (unsigned w a).
Lemma counts_ok w a : w = 32 \/ w = 64 -> in_s w a ->
  ok_un w Iclz a (cast_s w (leading_zeros w a)) /\ ok_un w Ictz a (cast_s w (trailing_zeros w a)) /\
  ok_un w Ipopcnt a (cast_s w (count_ones w a)).
Proof.
  intros Hw Ha. destruct (unop_counts w a ltac:(lia) Ha) as (H1 & H2 & H3).
  destruct (counts_range w a ltac:(lia) Ha) as (R1 & R2 & R3). unfold ok_un. cbn [wasm_iunop].
  rewrite <- H1, <- H2, <- H3.
  destruct (count_ok w a _ Hw R1) as [E1 F1], (count_ok w a _ Hw R2) as [E2 F2], (count_ok w a _ Hw R3) as [E3 F3].
  repeat split; try (apply cast_s_range; lia); congruence.
Qed.
Lemma i32_unop_ok op a : op <> Iext32 -> in_s 32 a -> ok_un 32 op a (i32_unop op a).
Proof.
  intros Hop Ha. destruct (counts_ok 32 a ltac:(auto) Ha) as (H1 & H2 & H3).
  destruct op; cbn [i32_unop]; auto; try (apply ext_ok; auto; lia). contradiction.
Qed.
Lemma i64_unop_ok op a : in_s 64 a -> ok_un 64 op a (i64_unop op a).
Proof.
  intros Ha. destruct (counts_ok 64 a ltac:(auto) Ha) as (H1 & H2 & H3).
  destruct op; cbn [i64_unop]; auto; (apply ext_ok; auto; lia).
Qed.

(** ** width conversions *)
Lemma wrap_ok a : in_s 64 a ->
  in_s 32 (i32_wrap_i64 a) /\ unsigned 32 (i32_wrap_i64 a) = wasm_wrap (unsigned 64 a).
Proof.
  intros Ha. unfold i32_wrap_i64, wasm_wrap. split; [apply cast_s_range; lia|].
  rewrite unsigned_cast by lia. symmetry. apply mod_eq_add; [lia|].
  destruct (unsigned_congr 64 a) as [k ->]. exists (k * 2^32). change (2^64) with (2^32*2^32). ring.
Qed.
Lemma extend_s_ok a : in_s 32 a ->
  in_s 64 (i64_extend_i32_s a) /\ unsigned 64 (i64_extend_i32_s a) = wasm_extend_s 32 64 (unsigned 32 a).
Proof.
  intros Ha. unfold i64_extend_i32_s. assert (in_s 64 a) by (apply (in_s_mono 32); auto; lia).
  rewrite cast_s_id by (auto; lia). split; auto. unfold wasm_extend_s.
  rewrite Z.mod_small by (apply (unsigned_range 32); auto; lia). rewrite signed_unsigned by (auto; lia). reflexivity.
Qed.
Lemma extend_u_ok a : in_s 32 a ->
  in_s 64 (i64_extend_i32_u a) /\ unsigned 64 (i64_extend_i32_u a) = wasm_extend_u (unsigned 32 a).
Proof.
  intros Ha. unfold i64_extend_i32_u, wasm_extend_u. split; [apply cast_s_range; lia|].
  rewrite unsigned_cast, unsigned_cast_u by (auto; lia).
  pose proof (unsigned_range 32 a ltac:(lia) Ha) as [H1 H2]. apply Z.mod_small. cbn in *. lia.
Qed.
