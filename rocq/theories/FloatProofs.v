(** Proofs relating Float.v to WasmFloat.v. *)
From Coq Require Import ZArith QArith Qround Qpower Bool Lia ZifyBool Qfield Setoid.
From Verif Require Import Word NumericProofs WasmNum Float WasmFloat.
Open Scope Z_scope.

Definition fmt_ok (F : fmt) : Prop := fw F = 1 + fe F + fm F /\ 2 <= fe F /\ 1 <= fm F.
Lemma F32_ok : fmt_ok F32. Proof. unfold fmt_ok; simpl; lia. Qed.
Lemma F64_ok : fmt_ok F64. Proof. unfold fmt_ok; simpl; lia. Qed.

Lemma sign_testbit w b : 0 < w -> in_u w b -> Z.testbit b (w-1) = (2^(w-1) <=? b).
Proof.
  intros Hw [H1 H2]. pose proof (pow_half w Hw). pose proof (pow_pos (w-1) ltac:(lia)).
  destruct (Z.leb_spec (2^(w-1)) b).
  - replace (w-1) with (Z.log2 b); [apply Z.bit_log2; lia|].
    apply Z.log2_unique; [lia|]. replace (Z.succ (w-1)) with w by lia. lia.
  - apply (testbit_high b (w-1)); lia.
Qed.

Lemma Qpow2_pos k : 0 <= k -> (Qpower 2 k == inject_Z (2^k))%Q.
Proof. intros Hk. rewrite Zpower_Qpower by auto. reflexivity. Qed.
Lemma injZ_pow_nz k : 0 <= k -> ~ (inject_Z (2^k) == 0)%Q.
Proof.
  intros Hk H. pose proof (pow_pos k Hk). unfold Qeq, inject_Z in H. simpl in H. lia.
Qed.
Lemma Qpow2_sub a b : 0 <= a -> 0 <= b -> (Qpower 2 (a-b) == inject_Z (2^a) / inject_Z (2^b))%Q.
Proof.
  intros Ha Hb. unfold Z.sub. rewrite Qpower_plus by (intros H; discriminate H).
  rewrite Qpower_opp, !Qpow2_pos by auto. reflexivity.
Qed.

Definition num_of_cls (F : fmt) (c : fcls) (x : fnum) : Prop :=
  match c, x with
  | CNan, NNan | CNinf, NInf true | CPinf, NInf false => True
  | CFin z, NFin q => (q == inject_Z z / inject_Z (2 ^ fscale F))%Q
  | _, _ => False
  end.

Lemma fscale_pos F : fmt_ok F -> 0 <= fscale F.
Proof.
  intros (H1 & H2 & H3). unfold fscale.
  pose proof (Z.pow_le_mono_r 2 1 (fe F - 1) ltac:(lia) ltac:(lia)). lia.
Qed.

Lemma decode_classify F b : fmt_ok F -> in_u (fw F) b ->
  num_of_cls F (classify F b) (ieee_decode F b).
Proof.
  intros HF Hb. pose proof HF as (Hw & He & Hm). unfold classify, ieee_decode, is_nan, is_inf.
  rewrite sign_testbit by (auto; lia). fold (fsign F b).
  rewrite !Z.land_ones, Z.shiftr_div_pow2 by lia. fold (fexpo F b) (fmant F b).
  rewrite Z.ones_equiv. replace (Z.pred (2^fe F)) with (2^fe F - 1) by lia.
  pose proof (pow_pos (fm F) ltac:(lia)) as Hpm.
  assert (He0 : 0 <= fexpo F b) by (apply Z.mod_pos_bound, pow_pos; lia).
  assert (Hb1 : 2 <= 2 ^ (fe F - 1)) by (pose proof (Z.pow_le_mono_r 2 1 (fe F - 1) ltac:(lia) ltac:(lia)); lia).
  destruct (fexpo F b =? 2^fe F - 1) eqn:Ee; cbn [andb].
  - destruct (fmant F b =? 0); cbn [negb]; [|exact I]. destruct (fsign F b); exact I.
  - unfold fmag.
    assert (Hs : (inject_Z (2^fscale F) == inject_Z (2^(2^(fe F-1)-2)) * inject_Z (2^fm F))%Q).
    { unfold fscale. rewrite Z.pow_add_r by lia. now rewrite inject_Z_mult. }
    pose proof (injZ_pow_nz (fm F) ltac:(lia)) as N1.
    pose proof (injZ_pow_nz (2^(fe F-1)-2) ltac:(lia)) as N2.
    destruct (Z.eqb_spec (fexpo F b) 0) as [E0|E0]; cbn [num_of_cls].
    + rewrite Hs. unfold fbias. replace (1 - (2^(fe F-1)-1)) with (0 - (2^(fe F-1)-2)) by lia.
      rewrite Qpow2_sub by lia. change (inject_Z (2^0)) with 1%Q.
      destruct (fsign F b); cbn [sgnq]; rewrite ?inject_Z_opp; field; auto.
    + rewrite Hs. unfold fbias. replace (fexpo F b - (2^(fe F-1)-1)) with ((fexpo F b - 1) - (2^(fe F-1)-2)) by lia.
      rewrite Qpow2_sub by lia.
      destruct (fsign F b); cbn [sgnq]; rewrite ?inject_Z_opp, inject_Z_mult, inject_Z_plus; field; auto.
Qed.

Lemma scale_lt S x y : 0 < S -> (inject_Z x / inject_Z S < inject_Z y / inject_Z S)%Q <-> x < y.
Proof.
  intros HS. unfold Qdiv. rewrite Qmult_lt_r.
  - now rewrite <- Zlt_Qlt.
  - apply Qinv_lt_0_compat. change 0%Q with (inject_Z 0). now rewrite <- Zlt_Qlt.
Qed.
Lemma scale_eq S x y : 0 < S -> (inject_Z x / inject_Z S == inject_Z y / inject_Z S)%Q <-> x = y.
Proof.
  intros HS. split; [|now intros ->]. intros H.
  destruct (Z.lt_trichotomy x y) as [Hl|[He|Hl]]; auto; apply (scale_lt S) in Hl; auto;
    rewrite H in Hl; exfalso; revert Hl; apply Qlt_irrefl.
Qed.

Lemma cls_lt_num F c d x y : fmt_ok F -> num_of_cls F c x -> num_of_cls F d y ->
  cls_lt c d = true <-> num_lt x y.
Proof.
  intros HF Hc Hd. pose proof (pow_pos _ (fscale_pos F HF)).
  destruct c, d, x as [|[]|], y as [|[]|]; cbn in *; try contradiction; try (split; [discriminate|contradiction]); try tauto.
  rewrite Hc, Hd, scale_lt by auto. apply Z.ltb_lt.
Qed.
Lemma cls_eq_num F c d x y : fmt_ok F -> num_of_cls F c x -> num_of_cls F d y ->
  cls_eq c d = true <-> num_eq x y.
Proof.
  intros HF Hc Hd. pose proof (pow_pos _ (fscale_pos F HF)).
  destruct c, d, x as [|[]|], y as [|[]|]; cbn in *; try contradiction; try (split; [discriminate|try contradiction; discriminate]); try tauto.
  rewrite Hc, Hd, scale_eq by auto. apply Z.eqb_eq.
Qed.

Section Cmp.
Context (F : fmt) (HF : fmt_ok F) (a b : Z) (Ha : in_u (fw F) a) (Hb : in_u (fw F) b).
Lemma f_lt_num : f_lt F a b = true <-> num_lt (ieee_decode F a) (ieee_decode F b).
Proof. eapply cls_lt_num; eauto using decode_classify. Qed.
Lemma f_gt_num : f_lt F b a = true <-> num_lt (ieee_decode F b) (ieee_decode F a).
Proof. eapply cls_lt_num; eauto using decode_classify. Qed.
Lemma f_eq_num : f_eq F a b = true <-> num_eq (ieee_decode F a) (ieee_decode F b).
Proof. eapply cls_eq_num; eauto using decode_classify. Qed.
Lemma is_nan_num : is_nan F a = true <-> ieee_decode F a = NNan.
Proof.
  pose proof (decode_classify F a HF Ha) as H. unfold classify in H.
  destruct (is_nan F a); [|destruct (is_inf F a); [destruct (fsign F a)|]];
    destruct (ieee_decode F a) as [|[]|]; cbn in H; try contradiction; split; auto; discriminate.
Qed.
End Cmp.

Lemma num_eq_sym x y : num_eq x y <-> num_eq y x.
Proof. destruct x, y; cbn; try tauto; split; intros H; symmetry; auto. Qed.

Lemma f_relop_ok F op a b : fmt_ok F -> in_u (fw F) a -> in_u (fw F) b ->
  (f_relop F op a b = 1 /\ wasm_frel op (ieee_decode F a) (ieee_decode F b)) \/
  (f_relop F op a b = 0 /\ ~ wasm_frel op (ieee_decode F a) (ieee_decode F b)).
Proof.
  intros HF Ha Hb. pose proof (f_lt_num F HF a b Ha Hb) as L. pose proof (f_gt_num F HF a b Ha Hb) as G.
  pose proof (f_eq_num F HF a b Ha Hb) as E. pose proof (f_eq_num F HF b a Hb Ha) as E'.
  pose proof (num_eq_sym (ieee_decode F a) (ieee_decode F b)) as S.
  unfold f_relop, f_le, cls_le. fold (f_lt F a b) (f_lt F b a) (f_eq F a b) (f_eq F b a).
  destruct op, (f_lt F a b), (f_lt F b a), (f_eq F a b), (f_eq F b a);
    cbn [wasm_frel negb orb b2z]; intuition congruence.
Qed.

(** equal non-NaN numbers that are not both zero have equal patterns *)
Lemma b_fields F b : fmt_ok F -> in_u (fw F) b ->
  b = (if fsign F b then 2^(fw F - 1) else 0) + fexpo F b * 2^fm F + fmant F b.
Proof.
  intros (Hw & He & Hm) [H1 H2]. unfold fsign, fexpo, fmant.
  pose proof (pow_pos (fm F) ltac:(lia)) as Pm. pose proof (pow_pos (fe F) ltac:(lia)) as Pe.
  assert (Hp : 2^(fw F - 1) = 2^fe F * 2^fm F) by (rewrite Hw, <- Z.pow_add_r by lia; f_equal; lia).
  pose proof (pow_half (fw F) ltac:(lia)) as Hh.
  pose proof (Z.div_mod b (2^fm F) ltac:(lia)) as D.
  pose proof (Z.mod_pos_bound b (2^fm F) Pm) as Bm.
  destruct (Z.leb_spec (2^(fw F-1)) b).
  - assert (Hd : 2^fe F <= b / 2^fm F < 2 * 2^fe F).
    { split; [apply Z.div_le_lower_bound; lia|apply Z.div_lt_upper_bound; lia]. }
    rewrite (Z.mod_eq (b / 2^fm F)) by lia.
    replace (b / 2^fm F / 2^fe F) with 1; [lia|]. apply Z.div_unique with (b/2^fm F - 2^fe F); lia.
  - rewrite Z.mod_small; [lia|]. split; [apply Z.div_pos; lia|apply Z.div_lt_upper_bound; lia].
Qed.
Lemma fexpo_range F b : fmt_ok F -> 0 <= fexpo F b < 2^fe F.
Proof. intros (_ & He & _). apply Z.mod_pos_bound, pow_pos. lia. Qed.
Lemma fmant_range F b : fmt_ok F -> 0 <= fmant F b < 2^fm F.
Proof. intros (_ & _ & Hm). apply Z.mod_pos_bound, pow_pos. lia. Qed.
Lemma fmag_nonneg F b : fmt_ok F -> 0 <= fmag F b.
Proof.
  intros HF. pose proof (fexpo_range F b HF). pose proof (fmant_range F b HF). unfold fmag.
  destruct (Z.eqb_spec (fexpo F b) 0); [lia|].
  pose proof (pow_pos (fexpo F b - 1) ltac:(lia)). nia.
Qed.
Lemma fmag_inj F a b : fmt_ok F -> fmag F a = fmag F b -> fexpo F a = fexpo F b /\ fmant F a = fmant F b.
Proof.
  intros HF. pose proof (fexpo_range F a HF) as Ea. pose proof (fmant_range F a HF) as Ma.
  pose proof (fexpo_range F b HF) as Eb. pose proof (fmant_range F b HF) as Mb. unfold fmag.
  generalize dependent (fexpo F a). generalize dependent (fexpo F b).
  generalize dependent (fmant F a). generalize dependent (fmant F b). intros mb Hmb ma Hma eb Heb ea Hea.
  assert (Hp : 0 < 2^fm F) by lia.
  assert (Hlt : forall x y m n, 0 <= m < 2^fm F -> 0 <= n < 2^fm F -> 0 < x -> x < y ->
     (2^fm F + m) * 2^(x-1) < (2^fm F + n) * 2^(y-1)).
  { intros x y m n Hm Hn Hx Hxy.
    pose proof (Z.pow_le_mono_r 2 (Z.succ (x-1)) (y-1) ltac:(lia) ltac:(lia)) as Hle.
    rewrite Z.pow_succ_r in Hle by lia. pose proof (pow_pos (x-1) ltac:(lia)). nia. }
  destruct (Z.eqb_spec ea 0), (Z.eqb_spec eb 0); intros H.
  - lia.
  - exfalso. pose proof (pow_pos (eb-1) ltac:(lia)). nia.
  - exfalso. pose proof (pow_pos (ea-1) ltac:(lia)). nia.
  - destruct (Z.lt_trichotomy ea eb) as [Hl|[He|Hl]].
    + specialize (Hlt ea eb ma mb). lia.
    + subst. pose proof (pow_pos (eb-1) ltac:(lia)). nia.
    + specialize (Hlt eb ea mb ma). lia.
Qed.
Lemma fmag_zero F b : fmt_ok F -> fmag F b = 0 -> fexpo F b = 0 /\ fmant F b = 0.
Proof.
  intros HF. pose proof (fexpo_range F b HF). pose proof (fmant_range F b HF). unfold fmag.
  destruct (Z.eqb_spec (fexpo F b) 0); [lia|]. pose proof (pow_pos (fexpo F b - 1) ltac:(lia)). nia.
Qed.
Lemma classify_zero F : fmt_ok F -> classify F 0 = CFin 0.
Proof.
  intros (Hw & He & Hm). pose proof (pow_pos (fe F) ltac:(lia)). pose proof (pow_pos (fm F) ltac:(lia)).
  pose proof (pow_pos (fw F - 1) ltac:(lia)).
  assert (He0 : fexpo F 0 = 0) by (unfold fexpo; rewrite Z.div_0_l, Z.mod_0_l by lia; reflexivity).
  assert (Hm0 : fmant F 0 = 0) by (unfold fmant; rewrite Z.mod_0_l by lia; reflexivity).
  unfold classify, is_nan, is_inf, fmag, fsign. rewrite He0, Hm0.
  pose proof (Z.pow_le_mono_r 2 2 (fe F) ltac:(lia) ltac:(lia)).
  replace (0 =? 2^fe F - 1) with false by lia. cbn [andb].
  replace (2^(fw F - 1) <=? 0) with false by lia. reflexivity.
Qed.
Lemma f_eq_cases F a b : fmt_ok F -> in_u (fw F) a -> in_u (fw F) b ->
  f_eq F a b = true -> (f_eq F a 0 = true /\ f_eq F b 0 = true) \/ a = b.
Proof.
  intros HF Ha Hb. unfold f_eq. rewrite (classify_zero F HF). unfold classify.
  pose proof (b_fields F a HF Ha) as Pa. pose proof (b_fields F b HF Hb) as Pb.
  pose proof (fmag_nonneg F a HF). pose proof (fmag_nonneg F b HF).
  destruct (is_nan F a) eqn:Na; [discriminate|]. destruct (is_nan F b) eqn:Nb.
  { destruct (is_inf F a), (fsign F a); discriminate. }
  destruct (is_inf F a) eqn:Ia, (is_inf F b) eqn:Ib.
  - unfold is_inf in *. apply andb_prop in Ia, Ib. destruct Ia as [I1 I2], Ib as [I3 I4].
    apply Z.eqb_eq in I1, I2, I3, I4. rewrite I1, I2 in Pa. rewrite I3, I4 in Pb.
    destruct (fsign F a), (fsign F b); cbn; try discriminate; intros _; right; congruence.
  - destruct (fsign F a), (fsign F b); discriminate.
  - destruct (fsign F a), (fsign F b); discriminate.
  - cbn [cls_eq]. intros H1. apply Z.eqb_eq in H1.
    destruct (fsign F a) eqn:Sa, (fsign F b) eqn:Sb.
    + right. destruct (fmag_inj F a b HF) as [Q1 Q2]; [lia|]. rewrite Q1, Q2 in Pa. congruence.
    + left. rewrite !Z.eqb_eq. lia.
    + left. rewrite !Z.eqb_eq. lia.
    + right. destruct (fmag_inj F a b HF) as [Q1 Q2]; [lia|]. rewrite Q1, Q2 in Pa. congruence.
Qed.
Lemma f_eq_zero_pattern F a : fmt_ok F -> in_u (fw F) a -> f_eq F a 0 = true ->
  a = if fsign F a then fnegzero F else 0.
Proof.
  intros HF Ha. unfold f_eq. rewrite (classify_zero F HF). unfold classify.
  destruct (is_nan F a); [discriminate|]. destruct (is_inf F a); [destruct (fsign F a); discriminate|].
  cbn [cls_eq]. intros H. apply Z.eqb_eq in H. pose proof (b_fields F a HF Ha) as Pa.
  assert (Hz : fmag F a = 0) by (destruct (fsign F a); lia).
  destruct (fmag_zero F a HF Hz) as [Q1 Q2]. rewrite Q1, Q2 in Pa. unfold fnegzero.
  destruct (fsign F a); lia.
Qed.

Lemma sign_bit_fsign F b : fmt_ok F -> in_u (fw F) b -> sign_bit F b = fsign F b.
Proof. intros (H & He & Hm) Hb. unfold sign_bit. now rewrite sign_testbit by (auto; lia). Qed.
Lemma fnan_canonical F : fmt_ok F -> canonical_nan F (fnan F).
Proof.
  intros (Hw & He & Hm). unfold canonical_nan, fnan. apply Z.mod_small.
  pose proof (pow_pos (fe F) ltac:(lia)). pose proof (pow_pos (fm F - 1) ltac:(lia)).
  pose proof (pow_half (fm F) ltac:(lia)).
  assert (Hp : 2^(fw F - 1) = 2^fe F * 2^fm F) by (rewrite Hw, <- Z.pow_add_r by lia; f_equal; lia).
  nia.
Qed.
Lemma fsign_zeros F : fmt_ok F -> in_u (fw F) 0 /\ in_u (fw F) (fnegzero F) /\ fsign F 0 = false /\ fsign F (fnegzero F) = true.
Proof.
  intros (Hw & He & Hm). unfold fnegzero, fsign, in_u. pose proof (pow_half (fw F) ltac:(lia)).
  pose proof (pow_pos (fw F - 1) ltac:(lia)). repeat split; lia.
Qed.

Section MinMax.
Context (F : fmt) (HF : fmt_ok F) (a b : Z) (Ha : in_u (fw F) a) (Hb : in_u (fw F) b).
Lemma num_lt_not_eq x y : num_lt x y -> ~ num_eq x y.
Proof. destruct x as [|[]|], y as [|[]|]; cbn; try tauto; try congruence. intros H E. rewrite E in H. revert H. apply Qlt_irrefl. Qed.
Lemma num_lt_asym x y : num_lt x y -> ~ num_lt y x.
Proof. destruct x as [|[]|], y as [|[]|]; cbn; try tauto. intros H E. revert H. apply Qle_not_lt, Qlt_le_weak, E. Qed.
Lemma zeros_eq : f_eq F a 0 && f_eq F b 0 = true -> f_eq F a b = true.
Proof.
  unfold f_eq. rewrite (classify_zero F HF). intros H. apply andb_prop in H. destruct H as [H1 H2].
  destruct (classify F a), (classify F b); cbn in *; try discriminate. lia.
Qed.
Lemma f_min_ok : wasm_fmin F a b (f_min F a b).
Proof.
  pose proof (f_lt_num F HF a b Ha Hb) as L. pose proof (f_gt_num F HF a b Ha Hb) as G.
  pose proof (f_eq_num F HF a b Ha Hb) as E.
  pose proof (is_nan_num F HF a Ha) as Na. pose proof (is_nan_num F HF b Hb) as Nb.
  pose proof (num_lt_not_eq (ieee_decode F a) (ieee_decode F b)) as NE.
  pose proof (num_lt_not_eq (ieee_decode F b) (ieee_decode F a)) as NE'. rewrite num_eq_sym in NE'.
  pose proof (num_lt_asym (ieee_decode F a) (ieee_decode F b)) as AS.
  pose proof (fsign_zeros F HF) as (Z1 & Z2 & Z3 & Z4).
  unfold wasm_fmin, f_min.
  destruct (is_nan F a) eqn:A, (is_nan F b) eqn:B; cbn [orb];
    try (split; [intros _; apply fnan_canonical; auto|intros; intuition congruence]).
  split; [intuition congruence|]. intros _ _.
  destruct (f_eq F a 0 && f_eq F b 0) eqn:Z.
  - pose proof (zeros_eq Z) as ZE. rewrite ZE in E. apply andb_prop in Z. destruct Z as [Za Zb].
    pose proof (f_eq_zero_pattern F a HF Ha Za) as Pa. pose proof (f_eq_zero_pattern F b HF Hb Zb) as Pb.
    split; [intros H; exfalso; apply (NE H), E; auto|]. split; [intros H; exfalso; apply (NE' H), E; auto|].
    intros _. rewrite !sign_bit_fsign by (auto; destruct (fsign F a || fsign F b); auto).
    destruct (fsign F a) eqn:Sa, (fsign F b) eqn:Sb; cbn [orb]; split; auto.
  - unfold rust_min. rewrite <- L, <- G, <- E in *. destruct (f_lt F b a) eqn:G1.
    + split; [intros H; exfalso; apply (AS H); auto|]. split; [auto|]. intros H. exfalso. apply NE'; auto.
    + split; [auto|]. split; [discriminate|]. intros H.
      destruct (f_eq_cases F a b HF Ha Hb H) as [[H1 H2]|H1]; [rewrite H1, H2 in Z; discriminate|].
      subst b. split; [auto|]. now destruct (sign_bit F a).
Qed.
Lemma f_max_ok : wasm_fmax F a b (f_max F a b).
Proof.
  pose proof (f_lt_num F HF a b Ha Hb) as L. pose proof (f_gt_num F HF a b Ha Hb) as G.
  pose proof (f_eq_num F HF a b Ha Hb) as E.
  pose proof (is_nan_num F HF a Ha) as Na. pose proof (is_nan_num F HF b Hb) as Nb.
  pose proof (num_lt_not_eq (ieee_decode F a) (ieee_decode F b)) as NE.
  pose proof (num_lt_not_eq (ieee_decode F b) (ieee_decode F a)) as NE'. rewrite num_eq_sym in NE'.
  pose proof (num_lt_asym (ieee_decode F b) (ieee_decode F a)) as AS.
  pose proof (fsign_zeros F HF) as (Z1 & Z2 & Z3 & Z4).
  unfold wasm_fmax, f_max.
  destruct (is_nan F a) eqn:A, (is_nan F b) eqn:B; cbn [orb];
    try (split; [intros _; apply fnan_canonical; auto|intros; intuition congruence]).
  split; [intuition congruence|]. intros _ _.
  destruct (f_eq F a 0 && f_eq F b 0) eqn:Z.
  - pose proof (zeros_eq Z) as ZE. rewrite ZE in E. apply andb_prop in Z. destruct Z as [Za Zb].
    pose proof (f_eq_zero_pattern F a HF Ha Za) as Pa. pose proof (f_eq_zero_pattern F b HF Hb Zb) as Pb.
    split; [intros H; exfalso; apply (NE H), E; auto|]. split; [intros H; exfalso; apply (NE' H), E; auto|].
    intros _. rewrite !sign_bit_fsign by (auto; destruct (negb (fsign F a) || negb (fsign F b)); auto).
    destruct (fsign F a) eqn:Sa, (fsign F b) eqn:Sb; cbn [orb negb andb]; split; auto.
  - unfold rust_max. rewrite <- L, <- G, <- E in *. destruct (f_lt F a b) eqn:G1.
    + split; [auto|]. split; [intros H; exfalso; apply (AS H); auto|]. intros H. exfalso. apply NE; auto.
    + split; [discriminate|]. split; [auto|]. intros H.
      destruct (f_eq_cases F a b HF Ha Hb H) as [[H1 H2]|H1]; [rewrite H1, H2 in Z; discriminate|].
      subst b. split; [auto|]. now destruct (sign_bit F a).
Qed.
End MinMax.

(** sign manipulation, bit by bit *)
Lemma f_abs_ok F a k : fmt_ok F -> in_u (fw F) a -> 0 <= k < fw F ->
  Z.testbit (f_abs F a) k = if k =? fw F - 1 then false else Z.testbit a k.
Proof.
  intros (Hw & He & Hm) Ha Hk. unfold f_abs. destruct (Z.eqb_spec k (fw F - 1)) as [->|].
  - apply Z.mod_pow2_bits_high. lia.
  - apply Z.mod_pow2_bits_low. lia.
Qed.
Lemma f_neg_ok F a k : fmt_ok F -> in_u (fw F) a -> 0 <= k < fw F ->
  Z.testbit (f_neg F a) k = if k =? fw F - 1 then negb (Z.testbit a k) else Z.testbit a k.
Proof.
  intros (Hw & He & Hm) [Ha1 Ha2] Hk. unfold f_neg. rewrite mod_testbit by lia.
  pose proof (pow_half (fw F) ltac:(lia)) as Hh. pose proof (pow_pos (fw F - 1) ltac:(lia)) as Hp.
  destruct (Z.eqb_spec k (fw F - 1)) as [->|].
  - rewrite (sign_testbit (fw F) a) by (unfold in_u; lia).
    rewrite <- (mod_testbit _ (fw F)) by lia.
    rewrite sign_testbit by (lia || apply cast_u_range; lia).
    destruct (Z.leb_spec (2^(fw F-1)) a).
    + replace ((a + 2^(fw F-1)) mod 2^fw F) with (a - 2^(fw F-1)).
      * cbn [negb]. apply Z.leb_gt. lia.
      * rewrite <- (Z.mod_add _ (-1)) by lia. symmetry. rewrite Z.mod_small; lia.
    + rewrite Z.mod_small by lia. cbn [negb]. apply Z.leb_le. lia.
  - rewrite <- (mod_testbit _ (fw F - 1)) by lia. rewrite <- (mod_testbit a (fw F - 1)) by lia. f_equal.
    rewrite <- (Z.mul_1_l (2^(fw F-1))) at 1. rewrite Z.mod_add by lia. reflexivity.
Qed.
Lemma f_copysign_ok F a b k : fmt_ok F -> in_u (fw F) a -> in_u (fw F) b -> 0 <= k < fw F ->
  Z.testbit (f_copysign F a b) k = if k =? fw F - 1 then Z.testbit b k else Z.testbit a k.
Proof.
  intros HF Ha Hb Hk. pose proof HF as (Hw & He & Hm). unfold f_copysign.
  pose proof (pow_half (fw F) ltac:(lia)) as Hh. pose proof (pow_pos (fw F - 1) ltac:(lia)) as Hp.
  pose proof (Z.mod_pos_bound a (2^(fw F-1)) Hp) as Hr.
  destruct (Z.eqb_spec k (fw F - 1)) as [->|].
  - rewrite (sign_testbit _ b) by (auto; lia). fold (fsign F b).
    rewrite sign_testbit by (try lia; unfold in_u; destruct (fsign F b); lia).
    destruct (fsign F b); [apply Z.leb_le|apply Z.leb_gt]; lia.
  - rewrite <- (mod_testbit _ (fw F - 1)) by lia. rewrite <- (mod_testbit a (fw F - 1)) by lia. f_equal.
    destruct (fsign F b).
    + rewrite <- (Z.mul_1_l (2^(fw F-1))) at 2. rewrite Z.mod_add, Z.mod_mod by lia. reflexivity.
    + rewrite Z.add_0_r, Z.mod_mod by lia. reflexivity.
Qed.
Lemma f_sign_range F a b : fmt_ok F -> in_u (fw F) a -> in_u (fw F) b ->
  in_u (fw F) (f_abs F a) /\ in_u (fw F) (f_neg F a) /\ in_u (fw F) (f_copysign F a b).
Proof.
  intros (Hw & He & Hm) Ha Hb. pose proof (pow_half (fw F) ltac:(lia)). pose proof (pow_pos (fw F - 1) ltac:(lia)) as Hp.
  pose proof (Z.mod_pos_bound a (2^(fw F-1)) Hp). unfold in_u, f_abs, f_neg, f_copysign.
  pose proof (Z.mod_pos_bound (a + 2^(fw F-1)) (2^fw F) ltac:(lia)).
  destruct (fsign F b); lia.
Qed.

(** ** truncation to integers *)
Lemma q_trunc_scaled S z q : 0 < S -> (q == inject_Z z / inject_Z S)%Q -> q_trunc q = Z.quot z S.
Proof.
  intros HS Hq. unfold q_trunc. pose proof (Zdiv_Qdiv z S) as D. pose proof (Zdiv_Qdiv (-z) S) as D'.
  destruct (Qle_bool 0 q) eqn:E.
  - rewrite (Qfloor_comp _ _ Hq), <- D. apply Qle_bool_iff in E. rewrite Hq in E.
    assert (0 <= z).
    { destruct (Z.ltb_spec z 0) as [Hl|]; auto. apply (scale_lt S) in Hl; auto.
      change (inject_Z 0) with 0%Q in Hl. unfold Qdiv at 2 in Hl. rewrite Qmult_0_l in Hl.
      exfalso. revert Hl. now apply Qle_not_lt. }
    rewrite Z.quot_div_nonneg by lia. reflexivity.
  - assert (z < 0).
    { destruct (Z.ltb_spec z 0) as [|Hl]; auto. exfalso.
      assert (Qle_bool 0 q = true); [|congruence]. apply Qle_bool_iff. rewrite Hq.
      unfold Qdiv. apply Qmult_le_0_compat.
      - change 0%Q with (inject_Z 0). now rewrite <- Zle_Qle.
      - apply Qinv_le_0_compat. change 0%Q with (inject_Z 0). rewrite <- Zle_Qle. lia. }
    rewrite (Qceiling_comp _ _ Hq). unfold Qceiling.
    assert (Hn : (- (inject_Z z / inject_Z S) == inject_Z (-z) / inject_Z S)%Q).
    { rewrite inject_Z_opp. unfold Qdiv. ring. }
    rewrite (Qfloor_comp _ _ Hn), <- D'. replace z with (-(-z)) at 2 by lia.
    rewrite Z.quot_opp_l by lia. rewrite Z.quot_div_nonneg by lia. reflexivity.
Qed.

Lemma trunc_cmp S z n : 0 < S ->
  (Z.quot z S * S <? n * S) = (Z.quot z S <? n) /\ (n * S <? Z.quot z S * S) = (n <? Z.quot z S) /\
  (n * S =? Z.quot z S * S) = (n =? Z.quot z S).
Proof. intros. repeat split; nia. Qed.

(** the constants the code compares with *)
Lemma const32 : int_as_float F32 (i_min 32) = -2^31 /\ int_as_float F32 (i_max 32) = 2^31 /\
  int_as_float F32 (u_max 32) = 2^32 /\ int_as_float F32 (i_min 64) = -2^63 /\
  int_as_float F32 (i_max 64) = 2^63 /\ int_as_float F32 (u_max 64) = 2^64.
Proof. repeat split; vm_compute; reflexivity. Qed.
Lemma const64 : int_as_float F64 (i_min 32) = -2^31 /\ int_as_float F64 (i_max 32) = 2^31-1 /\
  int_as_float F64 (u_max 32) = 2^32-1 /\ int_as_float F64 (i_min 64) = -2^63 /\
  int_as_float F64 (i_max 64) = 2^63 /\ int_as_float F64 (u_max 64) = 2^64.
Proof. repeat split; vm_compute; reflexivity. Qed.

Lemma classify_nan F b : is_nan F b = false -> classify F b <> CNan.
Proof. unfold classify. intros ->. destruct (is_inf F b), (fsign F b); discriminate. Qed.

(** interpretation of an iN result as the mathematical integer of the given signedness *)
Definition int_value (s : sx) (w z : Z) : Z := match s with Sx => z | Ux => unsigned w z end.

Definition ok_trunc (F : fmt) (s : sx) (w b : Z) (r : res Z) : Prop :=
  match r with
  | Ok v => in_s w v /\ wasm_trunc s w (ieee_decode F b) (Some (int_value s w v))
  | Trap _ => wasm_trunc s w (ieee_decode F b) None
  | UB => False
  end.

Lemma sat_id lo hi z : lo <= z <= hi -> sat lo hi z = z.
Proof. intros. unfold sat. destruct (Z.ltb_spec z lo), (Z.ltb_spec hi z); lia. Qed.

(** one generic statement: bounds tests that are exact on integers give the right conversion *)
Lemma trunc_generic F s w b (bad : Z -> bool) : fmt_ok F -> in_u (fw F) b -> 1 < w ->
  (forall n, classify F b = CFin n -> bad (Z.quot n (2^fscale F)) = false <-> in_range s w (Z.quot n (2^fscale F))) ->
  ok_trunc F s w b
   (match classify F b with
    | CNan => Trap TInvalidConv
    | CNinf | CPinf => Trap TIntOverflow
    | CFin z => if bad (Z.quot z (2^fscale F)) then Trap TIntOverflow
                else Ok (match s with Sx => sat (i_min w) (i_max w) (Z.quot z (2^fscale F))
                                 | Ux => cast_s w (sat 0 (u_max w) (Z.quot z (2^fscale F))) end)
    end).
Proof.
  intros HF Hb Hw Hbad. pose proof (decode_classify F b HF Hb) as D.
  pose proof (pow_pos _ (fscale_pos F HF)) as HS.
  unfold ok_trunc.
  destruct (classify F b) as [| |z|]; destruct (ieee_decode F b) as [|[]|q]; cbn [num_of_cls] in D; try contradiction;
    cbn [wasm_trunc]; try reflexivity.
  pose proof (q_trunc_scaled _ z q HS D) as Hq. specialize (Hbad z eq_refl).
  destruct (bad (Z.quot z (2^fscale F))) eqn:E.
  - right. rewrite Hq. split; [|reflexivity]. intros H. apply Hbad in H. congruence.
  - assert (Hin : in_range s w (Z.quot z (2^fscale F))) by (apply Hbad; auto).
    cbn [wasm_trunc]. rewrite Hq. set (n := Z.quot z (2^fscale F)) in *. clearbody n.
    destruct s; cbn [in_range int_value] in *; unfold i_min, i_max, u_max.
    + rewrite sat_id by lia. split; [exact Hin|]. left; auto.
    + rewrite sat_id by lia. split; [apply cast_s_range; lia|]. left. split; [auto|].
      rewrite unsigned_cast by lia. rewrite Z.mod_small by lia. reflexivity.
Qed.

Lemma is_nan_classify F b : (match classify F b with CNan => true | _ => false end) = is_nan F b.
Proof. unfold classify. destruct (is_nan F b), (is_inf F b), (fsign F b); reflexivity. Qed.

Lemma cls_cast_trunc F lo hi z : 0 < 2^fscale F ->
  cls_cast F lo hi (cls_trunc F (CFin z)) = sat lo hi (Z.quot z (2^fscale F)).
Proof. intros. cbn [cls_cast cls_trunc]. now rewrite Z.quot_mul by lia. Qed.

Lemma conv_i64_trunc_ok F s b : F = F32 \/ F = F64 -> in_u (fw F) b ->
  ok_trunc F s 64 b (conv_i64_trunc F s b).
Proof.
  intros HF Hb. assert (HFo : fmt_ok F) by (destruct HF; subst; auto using F32_ok, F64_ok).
  pose proof (pow_pos _ (fscale_pos F HFo)) as HS.
  assert (C : int_as_float F (i_min 64) = -2^63 /\ int_as_float F (i_max 64) = 2^63 /\ int_as_float F (u_max 64) = 2^64).
  { destruct HF; subst; [destruct const32 as (?&?&?&?&?&?)|destruct const64 as (?&?&?&?&?&?)]; auto. }
  destruct C as (C1 & C2 & C3).
  pose (bad := fun n => match s with Sx => (n <? -2^63) || (2^63 <=? n) | Ux => (n <? 0) || (2^64 <=? n) end).
  assert (Hx : conv_i64_trunc F s b = match classify F b with
    | CNan => Trap TInvalidConv
    | CNinf | CPinf => Trap TIntOverflow
    | CFin z => if bad (Z.quot z (2^fscale F)) then Trap TIntOverflow
                else Ok (match s with Sx => sat (i_min 64) (i_max 64) (Z.quot z (2^fscale F))
                                 | Ux => cast_s 64 (sat 0 (u_max 64) (Z.quot z (2^fscale F))) end)
    end).
  { unfold conv_i64_trunc, const_f. rewrite C1, C2, C3, <- is_nan_classify.
    destruct (classify F b) as [| |z|]; [reflexivity|destruct s; reflexivity| |destruct s; reflexivity].
    rewrite !cls_cast_trunc by auto. unfold bad.
    destruct s; cbn [cls_trunc]; unfold cls_le; cbn [cls_lt cls_eq].
    - destruct (trunc_cmp (2^fscale F) z (-2^63) HS) as (T1 & _ & _).
      destruct (trunc_cmp (2^fscale F) z (2^63) HS) as (_ & T2 & T3). rewrite T1, T2, T3.
      replace ((2^63 <? Z.quot z (2^fscale F)) || (2^63 =? Z.quot z (2^fscale F))) with (2^63 <=? Z.quot z (2^fscale F)) by lia.
      reflexivity.
    - destruct (trunc_cmp (2^fscale F) z 0 HS) as (T1 & _ & _). rewrite Z.mul_0_l in T1.
      destruct (trunc_cmp (2^fscale F) z (2^64) HS) as (_ & T2 & T3). rewrite T1, T2, T3.
      replace ((2^64 <? Z.quot z (2^fscale F)) || (2^64 =? Z.quot z (2^fscale F))) with (2^64 <=? Z.quot z (2^fscale F)) by lia.
      reflexivity. }
  rewrite Hx. apply trunc_generic; auto; [lia|]. intros n _. unfold bad. destruct s; cbn [in_range]; lia.
Qed.

Lemma conv_i32_trunc_ok F s b : F = F32 \/ F = F64 -> in_u (fw F) b ->
  (F = F32 -> b <> match s with Sx => 0x4F000000 | Ux => 0x4F800000 end) ->
  ok_trunc F s 32 b (conv_i32_trunc F s b).
Proof.
  intros HF Hb Hne. assert (HFo : fmt_ok F) by (destruct HF; subst; auto using F32_ok, F64_ok).
  pose proof (pow_pos _ (fscale_pos F HFo)) as HS.
  set (hs := int_as_float F (i_max 32)). set (hu := int_as_float F (u_max 32)).
  assert (C : int_as_float F (i_min 32) = -2^31 /\ (F = F32 /\ hs = 2^31 /\ hu = 2^32 \/ F = F64 /\ hs = 2^31-1 /\ hu = 2^32-1)).
  { unfold hs, hu. destruct HF; subst; [destruct const32 as (?&?&?&?&?&?)|destruct const64 as (?&?&?&?&?&?)]; auto. }
  destruct C as (C1 & C2).
  pose (bad := fun n => match s with Sx => (n <? -2^31) || (hs <? n) | Ux => (n <? 0) || (hu <? n) end).
  assert (Hx : conv_i32_trunc F s b = match classify F b with
    | CNan => Trap TInvalidConv
    | CNinf | CPinf => Trap TIntOverflow
    | CFin z => if bad (Z.quot z (2^fscale F)) then Trap TIntOverflow
                else Ok (match s with Sx => sat (i_min 32) (i_max 32) (Z.quot z (2^fscale F))
                                 | Ux => cast_s 32 (sat 0 (u_max 32) (Z.quot z (2^fscale F))) end)
    end).
  { unfold conv_i32_trunc, const_f. fold hs hu. rewrite C1, <- is_nan_classify.
    destruct (classify F b) as [| |z|]; [reflexivity|destruct s; reflexivity| |destruct s; reflexivity].
    rewrite !cls_cast_trunc by auto. unfold bad.
    destruct s; cbn [cls_trunc]; unfold cls_le; cbn [cls_lt cls_eq].
    - destruct (trunc_cmp (2^fscale F) z (-2^31) HS) as (T1 & _ & _).
      destruct (trunc_cmp (2^fscale F) z hs HS) as (_ & T2 & T3). rewrite T1, T2. reflexivity.
    - destruct (trunc_cmp (2^fscale F) z 0 HS) as (T1 & _ & _). rewrite Z.mul_0_l in T1.
      destruct (trunc_cmp (2^fscale F) z hu HS) as (_ & T2 & T3). rewrite T1, T2. reflexivity. }
  rewrite Hx. apply trunc_generic; auto; [lia|]. intros n Hn. unfold bad.
  destruct C2 as [(EF & E1 & E2)|(EF & E1 & E2)].
  2:{ rewrite E1, E2. destruct s; cbn [in_range]; lia. }
  specialize (Hne EF). subst F. rewrite E1, E2.
  assert (Hx2 : Z.quot n (2^fscale F32) <> match s with Sx => 2^31 | Ux => 2^32 end).
  { intros Hq. apply Hne. clear Hx bad Hne E1 E2 C1 hs hu HF.
    set (k := match s with Sx => 31 | Ux => 32 end).
    assert (Hk : match s with Sx => 2^31 | Ux => 2^32 end = 2^k) by (destruct s; reflexivity).
    assert (Hpat : match s with Sx => 0x4F000000 | Ux => 0x4F800000 end = (k+127) * 2^23) by (destruct s; reflexivity).
    rewrite Hpat. rewrite Hk in Hq. assert (Hk2 : 31 <= k <= 32) by (destruct s; subst k; lia). clearbody k. clear Hk Hpat s.
    unfold classify in Hn. destruct (is_nan F32 b); [discriminate|].
    destruct (is_inf F32 b); [destruct (fsign F32 b); discriminate|]. injection Hn as Hn.
    pose proof (fexpo_range F32 b F32_ok) as Re. pose proof (fmant_range F32 b F32_ok) as Rm.
    pose proof (fmag_nonneg F32 b F32_ok) as Rg.
    pose proof (b_fields F32 b F32_ok Hb) as Fb. change (fscale F32) with 149 in *. change (fm F32) with 23 in *.
    change (fe F32) with 8 in *.
    assert (Hpk : 0 < 2^k) by (apply pow_pos; lia).
    destruct (fsign F32 b).
    { exfalso. subst n. rewrite Z.quot_opp_l in Hq by lia. pose proof (Z.quot_pos (fmag F32 b) (2^149) Rg ltac:(lia)). lia. }
    subst n. rewrite Z.quot_div_nonneg in Hq by lia.
    assert (Hr : 2^k * 2^149 <= fmag F32 b < (2^k + 1) * 2^149).
    { pose proof (Z.div_mod (fmag F32 b) (2^149) ltac:(lia)) as Dv.
      pose proof (Z.mod_pos_bound (fmag F32 b) (2^149) ltac:(lia)). rewrite Hq in Dv. lia. }
    rewrite <- Z.pow_add_r in Hr by lia. rewrite Z.mul_add_distr_r, <- Z.pow_add_r in Hr by lia.
    unfold fmag in Hr. destruct (Z.eqb_spec (fexpo F32 b) 0) as [E0|E0].
    { exfalso. pose proof (Z.pow_le_mono_r 2 23 (k+149) ltac:(lia) ltac:(lia)). change (fm F32) with 23 in Rm. lia. }
    change (fm F32) with 23 in *.
    set (e := fexpo F32 b) in *. set (m := fmant F32 b) in *. clearbody e m.
    assert (He : e = k + 127).
    { destruct (Z.lt_trichotomy e (k+127)) as [Hl|[He|Hl]]; [|auto|]; exfalso.
      - pose proof (Z.pow_le_mono_r 2 (e-1) (k+125) ltac:(lia) ltac:(lia)) as Hp.
        replace (k+149) with ((k+125)+24) in Hr by lia. rewrite (Z.pow_add_r 2 (k+125) 24) in Hr by lia.
        change (2^24) with 16777216 in Hr. change (2^23) with 8388608 in *.
        pose proof (pow_pos (e-1) ltac:(lia)). nia.
      - pose proof (Z.pow_le_mono_r 2 (k+127) (e-1) ltac:(lia) ltac:(lia)) as Hp.
        replace (k+149) with ((k+126)+23) in Hr by lia. rewrite (Z.pow_add_r 2 (k+126) 23) in Hr by lia.
        replace (k+127) with (Z.succ (k+126)) in Hp by lia. rewrite (Z.pow_succ_r 2 (k+126)) in Hp by lia.
        pose proof (Z.pow_le_mono_r 2 149 (k+126) ltac:(lia) ltac:(lia)).
        change (2^23) with 8388608 in *. pose proof (pow_pos (k+126) ltac:(lia)). nia. }
    subst e. replace (k+127-1) with (k+126) in Hr by lia.
    replace (k+149) with ((k+126)+23) in Hr by lia. rewrite (Z.pow_add_r 2 (k+126) 23) in Hr by lia.
    pose proof (Z.pow_le_mono_r 2 150 (k+126) ltac:(lia) ltac:(lia)) as H150.
    change (2^150) with (2 * 2^149) in H150. pose proof (pow_pos 149 ltac:(lia)).
    assert (m = 0) by nia. subst m. lia. }
  destruct s; cbn [in_range]; lia.
Qed.

(** the two boundary patterns where the code does not trap *)
Lemma conv_i32_trunc_f32_s_bug : conv_i32_trunc F32 Sx 0x4F000000 = Ok (2^31 - 1).
Proof. vm_compute. reflexivity. Qed.
Lemma conv_i32_trunc_f32_u_bug : conv_i32_trunc F32 Ux 0x4F800000 = Ok (-1).
Proof. vm_compute. reflexivity. Qed.
Lemma conv_i32_trunc_bug_value :
  (exists q, ieee_decode F32 0x4F000000 = NFin q /\ (q == inject_Z (2^31))%Q) /\
  (exists q, ieee_decode F32 0x4F800000 = NFin q /\ (q == inject_Z (2^32))%Q).
Proof. split; eexists; split; vm_compute; reflexivity. Qed.

(** ** saturating *)
Lemma trunc_sat_ok w F s b : w = 32 \/ w = 64 -> F = F32 \/ F = F64 -> in_u (fw F) b ->
  in_s w (conv_trunc_sat w F s b) /\
  int_value s w (conv_trunc_sat w F s b) = wasm_trunc_sat s w (ieee_decode F b).
Proof.
  intros Hw HF Hb. assert (HFo : fmt_ok F) by (destruct HF; subst; auto using F32_ok, F64_ok).
  pose proof (pow_pos _ (fscale_pos F HFo)) as HS.
  pose proof (decode_classify F b HFo Hb) as D.
  set (K := 2^fscale F) in *.
  assert (C : int_as_float F (i_min w) = i_min w /\ (int_as_float F (i_max w) = i_max w \/ int_as_float F (i_max w) = i_max w + 1) /\
              (int_as_float F (u_max w) = u_max w \/ int_as_float F (u_max w) = u_max w + 1)).
  { destruct HF, Hw; subst F w; vm_compute; auto. }
  destruct C as (C1 & C2 & C3).
  assert (Hlim : 0 < i_max w < u_max w /\ i_min w = - i_max w - 1 /\ u_max w = 2 * i_max w + 1).
  { unfold i_max, i_min, u_max. destruct Hw; subst w; vm_compute; repeat split; discriminate || reflexivity. }
  assert (Hrl : range_lo s w = match s with Sx => i_min w | Ux => 0 end) by reflexivity.
  assert (Hrh : range_hi s w = match s with Sx => i_max w | Ux => u_max w end) by reflexivity.
  assert (Hu : forall n, 0 <= n <= u_max w -> unsigned w (cast_s w n) = n).
  { intros n Hn. rewrite unsigned_cast by lia. apply Z.mod_small. unfold u_max in Hn. lia. }
  assert (His : forall n, i_min w <= n <= i_max w -> in_s w n) by (intros n; unfold i_min, i_max, in_s; lia).
  unfold conv_trunc_sat. rewrite <- is_nan_classify. unfold wasm_trunc_sat. rewrite Hrl, Hrh. clear Hrl Hrh.
  unfold const_f. fold K. rewrite C1.
  set (ms := int_as_float F (i_max w)) in *. set (mu := int_as_float F (u_max w)) in *. clearbody ms mu.
  set (imax := i_max w) in *. set (imin := i_min w) in *. set (umax := u_max w) in *.
  assert (H0 : cast_s w 0 = 0) by (apply cast_s_id; [lia|apply His; lia]).
  assert (Hcs : forall n, in_s w (cast_s w n)) by (intros; apply cast_s_range; lia).
  destruct (classify F b) as [| |z|]; destruct (ieee_decode F b) as [|[]|q]; cbn [num_of_cls] in D; try contradiction;
    unfold cls_le; cbn [cls_lt cls_eq orb].
  - destruct s; cbn [int_value]; (split; [apply His; lia|]); [lia|]. reflexivity.
  - destruct s; cbn [int_value]; (split; [apply His; lia|]); [lia|]. reflexivity.
  - fold K in D. pose proof (q_trunc_scaled K z q HS D) as Hq. rewrite Hq.
    rewrite cls_cast_trunc by exact HS. rewrite cls_cast_trunc by exact HS. fold K. clear D Hq.
    pose proof (Z.quot_rem' z K) as Hqr. pose proof (Z.rem_bound_abs z K ltac:(lia)) as Hrb.
    set (n := Z.quot z K) in *.
    assert (Hsg : (0 <= z -> 0 <= Z.rem z K /\ 0 <= n) /\ (z <= 0 -> Z.rem z K <= 0 /\ n <= 0)).
    { split; intros Hz; split.
      - apply Z.rem_nonneg; lia.
      - apply Z.quot_pos; lia.
      - apply Z.rem_nonpos; lia.
      - unfold n. replace z with (-(-z)) by lia. rewrite Z.quot_opp_l by lia.
        pose proof (Z.quot_pos (-z) K). lia. }
    destruct Hsg as [Sg1 Sg2]. set (r := Z.rem z K) in *. clearbody n r.
    destruct s; cbn [int_value].
    + destruct ((z <? imin * K) || (z =? imin * K)) eqn:E1.
      { assert (Hle : n <= imin) by nia. split; [apply His; lia|]. lia. }
      destruct ((ms * K <? z) || (ms * K =? z)) eqn:E2.
      { assert (Hge : imax <= n) by nia. split; [apply His; lia|]. lia. }
      assert (Hmid : imin <= n <= imax) by nia. rewrite sat_id by lia. split; [apply His; lia|lia].
    + destruct ((z <? 0) || (z =? 0)) eqn:E1.
      { split; [apply His; lia|]. assert (n <= 0) by lia. change (unsigned w 0) with 0. lia. }
      destruct ((mu * K <? z) || (mu * K =? z)) eqn:E2.
      { split; [auto|]. assert (Hge : umax <= n) by nia. rewrite Hu by lia. lia. }
      assert (Hmid : 0 <= n <= umax) by nia. rewrite sat_id by lia. split; [auto|]. rewrite Hu by lia. lia.
  - destruct s; cbn [int_value].
    + split; [apply His; lia|reflexivity].
    + split; [auto|]. apply Hu. lia.
Qed.

(** ** reinterpretation *)
Lemma reinterpret_roundtrip w b z : 0 < w ->
  (in_u w b -> in_s w (reinterpret_f2i w b) /\ reinterpret_i2f w (reinterpret_f2i w b) = b /\
               unsigned w (reinterpret_f2i w b) = b) /\
  (in_s w z -> in_u w (reinterpret_i2f w z) /\ reinterpret_f2i w (reinterpret_i2f w z) = z /\
               reinterpret_i2f w z = unsigned w z).
Proof.
  intros Hw. unfold reinterpret_f2i, reinterpret_i2f, cast_u. split.
  - intros Hb. split; [apply cast_s_range; auto|]. rewrite cast_s_mod, unsigned_cast by auto.
    rewrite Z.mod_small by exact Hb. auto.
  - intros Hz. split; [apply (cast_u_range w z); lia|]. rewrite <- unsigned_mod by auto. split; [|auto].
    rewrite cast_s_signed. rewrite Z.mod_small by (apply unsigned_range; auto). apply signed_unsigned; auto.
Qed.
