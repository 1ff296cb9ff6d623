(** Proofs relating Ieee.v to RoundSpec.v. *)
From Coq Require Import ZArith QArith Qabs Qround Qpower Bool List Lia ZifyBool Qfield Setoid Morphisms Lqa.
From Verif Require Import Word NumericProofs WasmNum Float WasmFloat FloatProofs Ieee RoundSpec.
Import ListNotations.
Open Scope Z_scope.

(** ** numbers *)
Record cut (x : number) : Prop := {
  c_eq : forall p p', (p == p')%Q -> x p = x p';
  c_up : forall p p', (p < p')%Q -> x p <> Gt -> x p' = Lt;
  c_dn : forall p p', (p' < p)%Q -> x p <> Lt -> x p' = Gt
}.
Lemma rational_cut q : cut (rational q).
Proof.
  unfold rational. split; intros p p' H.
  - now rewrite H.
  - rewrite <- Qlt_alt. intros A. now apply Qle_lt_trans with p; [apply Qle_alt|].
  - rewrite <- Qgt_alt. intros A. now apply Qlt_le_trans with p; [|apply Qge_alt].
Qed.
Lemma root_alt q p : (0 <= q)%Q ->
  (root q p = Lt <-> (0 <= p /\ q < p * p)%Q) /\ (root q p = Gt <-> (p < 0 \/ p * p < q)%Q).
Proof.
  intros Hq. unfold root. destruct (p ?= 0)%Q eqn:A.
  1, 3: rewrite <- Qlt_alt, <- Qgt_alt.
  - apply Qeq_alt in A. split; split; intros H; [split; lra | tauto | tauto | destruct H; lra].
  - apply Qgt_alt in A. split; split; intros H; [split; lra | tauto | tauto | destruct H; lra].
  - apply Qlt_alt in A. split; split; intros H; [discriminate | lra | tauto | reflexivity].
Qed.
Lemma root_cut q : (0 <= q)%Q -> cut (root q).
Proof.
  intros Hq. split; intros p p' H.
  - unfold root. rewrite H. destruct (p' ?= 0)%Q; auto; now rewrite H.
  - intros N. apply (root_alt q p' Hq). destruct (root_alt q p Hq) as [_ G].
    assert (K : ~ (p < 0 \/ p * p < q)%Q) by tauto.
    assert (P : (0 <= p)%Q) by (destruct (Qlt_le_dec p 0); tauto).
    assert (Q : (q <= p * p)%Q) by (destruct (Qlt_le_dec (p * p) q); tauto).
    split; [lra|]. apply Qle_lt_trans with (p * p)%Q; auto. apply Qmult_lt_compat_nonneg; split; auto.
  - intros N. apply (root_alt q p' Hq). destruct (root_alt q p Hq) as [L _].
    destruct (Qlt_le_dec p' 0) as [A|A]; [now left | right].
    assert (Q : (p * p <= q)%Q) by (destruct (Qlt_le_dec q (p * p)); auto; exfalso; apply N, L; split; auto; lra).
    apply Qlt_le_trans with (p * p)%Q; auto. apply Qmult_lt_compat_nonneg; split; auto.
Qed.
Definition flip (x : number) : number := fun p => CompOpp (x (- p)%Q).
Lemma nearer_flip x v v' e : cut x -> nearer x v v' e -> nearer (flip x) (- v)%Q (- v')%Q e.
Proof.
  intros C. unfold nearer, flip. rewrite (c_eq x C (- ((- v + - v') / 2))%Q ((v + v') / 2)%Q) by field.
  assert (A : (- v ?= - v')%Q = CompOpp (v ?= v')%Q).
  { destruct (v ?= v')%Q eqn:E; cbn [CompOpp].
    - apply Qeq_alt in E. apply Qeq_alt. lra.
    - rewrite <- Qlt_alt in E. rewrite <- Qgt_alt. lra.
    - rewrite <- Qgt_alt in E. rewrite <- Qlt_alt. lra. }
  rewrite A. destruct (v ?= v')%Q; cbn [CompOpp]; auto;
    intros [-> | [-> ?]]; cbn; auto.
Qed.

(** ** patterns in order *)
Section Format.
  Variable F : fmt.
  Hypothesis HF : fmt_ok F.
  Notation S := (fscale F).
  Notation M := (2 ^ fm F).

  Definition mag (u : Z) : Z :=
    if u / M =? 0 then u mod M else (M + u mod M) * 2 ^ (u / M - 1).
  Lemma M_pos : 2 <= M.
  Proof. destruct HF as (_ & _ & H). pose proof (Z.pow_le_mono_r 2 1 (fm F) ltac:(lia) H). lia. Qed.
  Lemma S_pos : 0 <= S. Proof. now apply fscale_pos. Qed.
  Lemma mag_step u : 0 <= u -> mag (u + 1) = mag u + 2 ^ (Z.max (u / M) 1 - 1).
  Proof.
    intros Hu. pose proof M_pos as Mp. unfold mag.
    pose proof (Z.div_mod u M ltac:(lia)) as D. pose proof (Z.mod_pos_bound u M ltac:(lia)) as B.
    pose proof (Z.div_pos u M Hu ltac:(lia)) as Q.
    set (a := u / M) in *. set (t := u mod M) in *.
    destruct (Z.eq_dec (t + 1) M) as [E|E].
    - assert (A1 : (u + 1) / M = a + 1) by (symmetry; apply Z.div_unique with 0; lia).
      assert (A2 : (u + 1) mod M = 0) by (symmetry; apply Z.mod_unique with (a + 1); lia).
      rewrite A1, A2. replace (a + 1 =? 0) with false by lia. replace (a + 1 - 1) with a by lia.
      destruct (Z.eqb_spec a 0) as [->|N].
      + cbn. lia.
      + rewrite Z.max_l by lia. replace a with (Z.succ (a - 1)) at 1 by lia. rewrite Z.pow_succ_r by lia.
        pose proof (pow_pos (a - 1) ltac:(lia)). nia.
    - assert (A1 : (u + 1) / M = a) by (symmetry; apply Z.div_unique with (t + 1); lia).
      assert (A2 : (u + 1) mod M = t + 1) by (symmetry; apply Z.mod_unique with a; lia).
      rewrite A1, A2. destruct (Z.eqb_spec a 0) as [->|N].
      + cbn. lia.
      + rewrite Z.max_l by lia. lia.
  Qed.
  Lemma mag_mono u u' : 0 <= u -> u < u' -> mag u < mag u'.
  Proof.
    intros Hu H. replace u' with (u + 1 + (u' - u - 1)) by lia.
    assert (K : 0 <= u' - u - 1) by lia. revert K. generalize (u' - u - 1). clear H u'.
    apply natlike_ind.
    - rewrite Z.add_0_r, mag_step by auto. pose proof (pow_pos (Z.max (u / M) 1 - 1) ltac:(lia)). lia.
    - intros z Hz IH. replace (u + 1 + Z.succ z) with (u + 1 + z + 1) by lia. rewrite (mag_step (u + 1 + z)) by lia.
      pose proof (pow_pos (Z.max ((u + 1 + z) / M) 1 - 1) ltac:(lia)). lia.
  Qed.
  Lemma mag_le u u' : 0 <= u -> u <= u' -> mag u <= mag u'.
  Proof. intros Hu H. destruct (Z.eq_dec u u') as [->|]; [lia|]. pose proof (mag_mono u u' Hu ltac:(lia)). lia. Qed.
  Lemma mag_0 : mag 0 = 0. Proof. pose proof M_pos. unfold mag. now rewrite Z.div_0_l, Z.mod_0_l by lia. Qed.
  Lemma mag_nonneg u : 0 <= u -> 0 <= mag u.
  Proof. intros H. rewrite <- mag_0. now apply mag_le. Qed.

  Lemma top_pow : 2 ^ (fw F - 1) = 2 ^ fe F * M.
  Proof. destruct HF as (Hw & He & Hm). rewrite Hw, <- Z.pow_add_r by lia. f_equal. lia. Qed.
  Lemma finf_range : 0 < finf F < 2 ^ (fw F - 1).
  Proof.
    rewrite top_pow. unfold finf. pose proof M_pos. destruct HF as (_ & He & _).
    pose proof (Z.pow_le_mono_r 2 2 (fe F) ltac:(lia) He). nia.
  Qed.
  Lemma signed_in s u : 0 <= u < 2 ^ (fw F - 1) -> in_u (fw F) (signed F s u).
  Proof.
    intros H. destruct HF as (Hw & He & Hm). pose proof (pow_half (fw F) ltac:(lia)). unfold in_u, signed.
    destruct s; lia.
  Qed.
  (** the fields of a pattern *)
  Lemma fields s u : 0 <= u < 2 ^ (fw F - 1) ->
    fsign F (signed F s u) = s /\ fexpo F (signed F s u) = u / M /\ fmant F (signed F s u) = u mod M.
  Proof.
    intros H. pose proof top_pow as T. pose proof M_pos as Mp. destruct HF as (_ & He & Hm).
    pose proof (pow_pos (fe F) ltac:(lia)) as Pe.
    assert (D : 0 <= u / M < 2 ^ fe F).
    { split; [apply Z.div_pos; lia|]. apply Z.div_lt_upper_bound; lia. }
    unfold fsign, fexpo, fmant, signed. destruct s; repeat split; try lia.
    - rewrite T, Z.div_add by lia. replace (u / M + 2 ^ fe F) with (u / M + 1 * 2 ^ fe F) by lia.
      rewrite Z.mod_add by lia. apply Z.mod_small; lia.
    - rewrite T, Z.mod_add by lia. reflexivity.
    - rewrite Z.add_0_r. apply Z.mod_small; lia.
    - now rewrite Z.add_0_r.
  Qed.
  Lemma unsigned_of a : in_u (fw F) a -> exists u, 0 <= u < 2 ^ (fw F - 1) /\ a = signed F (fsign F a) u.
  Proof.
    intros [A B]. destruct HF as (Hw & He & Hm). pose proof (pow_half (fw F) ltac:(lia)).
    unfold fsign, signed. destruct (Z.leb_spec (2 ^ (fw F - 1)) a).
    - exists (a - 2 ^ (fw F - 1)). lia.
    - exists a. lia.
  Qed.
  Lemma fmag_mag s u : 0 <= u < 2 ^ (fw F - 1) -> fmag F (signed F s u) = mag u.
  Proof. intros H. destruct (fields s u H) as (_ & A & B). unfold fmag, mag. now rewrite A, B. Qed.
  Lemma finf_div u : 0 <= u < 2 ^ (fw F - 1) -> (u / M = 2 ^ fe F - 1 <-> finf F <= u).
  Proof.
    intros H. pose proof top_pow as T. pose proof M_pos as Mp. unfold finf.
    pose proof (Z.div_mod u M ltac:(lia)) as D. pose proof (Z.mod_pos_bound u M ltac:(lia)) as B.
    assert (u / M < 2 ^ fe F) by (apply Z.div_lt_upper_bound; lia). nia.
  Qed.
  Lemma nan_iff s u : 0 <= u < 2 ^ (fw F - 1) -> is_nan F (signed F s u) = (finf F <? u).
  Proof.
    intros H. pose proof (fields s u H) as (_ & A & B). pose proof (finf_div u H) as D. unfold is_nan. rewrite A, B.
    pose proof M_pos. pose proof (Z.div_mod u M ltac:(lia)). unfold finf in *. nia.
  Qed.
  Lemma inf_iff s u : 0 <= u < 2 ^ (fw F - 1) -> is_inf F (signed F s u) = (u =? finf F).
  Proof.
    intros H. pose proof (fields s u H) as (_ & A & B). pose proof (finf_div u H) as D. unfold is_inf. rewrite A, B.
    pose proof M_pos. pose proof (Z.div_mod u M ltac:(lia)). unfold finf in *. nia.
  Qed.

  (** halves of the smallest positive number *)
  Definition sc (z : Z) : Q := (inject_Z z / inject_Z (2 ^ (S + 1)))%Q.
  Definition sg (s : bool) (z : Z) : Z := if s then - z else z.
  Lemma S1_pos : 0 < 2 ^ (S + 1). Proof. apply pow_pos. pose proof S_pos. lia. Qed.
  Lemma sc_lt a b : a < b -> (sc a < sc b)%Q.
  Proof. intros H. apply scale_lt; auto. apply S1_pos. Qed.
  Lemma sc_lt_inv a b : (sc a < sc b)%Q -> a < b.
  Proof. intros H. apply scale_lt in H; auto. apply S1_pos. Qed.
  Lemma sc_eq_inv a b : (sc a == sc b)%Q -> a = b.
  Proof. intros H. apply scale_eq in H; auto. apply S1_pos. Qed.
  Lemma sc_half z : (inject_Z z / inject_Z (2 ^ S) == sc (2 * z))%Q.
  Proof.
    unfold sc. pose proof S_pos. rewrite Z.pow_add_r, inject_Z_mult, inject_Z_mult by lia. change (inject_Z (2 ^ 1)) with (2 # 1)%Q.
    change (inject_Z 2) with (2 # 1)%Q. pose proof (injZ_pow_nz S ltac:(lia)). field. auto.
  Qed.
  Lemma limit_mag : (Qpower 2 (2 ^ (fe F - 1)) == sc (2 * mag (finf F)))%Q.
  Proof.
    rewrite <- sc_half. pose proof HF as (_ & He & Hm). pose proof M_pos as Mp. pose proof S_pos.
    pose proof (Z.pow_le_mono_r 2 1 (fe F - 1) ltac:(lia) ltac:(lia)) as K.
    assert (P : 2 ^ fe F = 2 * 2 ^ (fe F - 1)) by (rewrite <- Z.pow_succ_r by lia; f_equal; lia).
    unfold mag, finf. rewrite Z.div_mul, Z.mod_mul by lia. replace (2 ^ fe F - 1 =? 0) with false by lia.
    rewrite Z.add_0_r, <- Z.pow_add_r by lia. rewrite <- Qpow2_sub by lia.
    replace (fm F + (2 ^ fe F - 1 - 1) - S) with (2 ^ (fe F - 1)); [reflexivity|]. unfold fscale. lia.
  Qed.
  Lemma reading_of s u : 0 <= u < 2 ^ (fw F - 1) ->
    if u <=? finf F then exists v, reading F (signed F s u) = Some v /\ (v == sc (sg s (2 * mag u)))%Q
    else reading F (signed F s u) = None.
  Proof.
    intros H. pose proof (decode_classify F _ HF (signed_in s u H)) as D. unfold classify in D.
    rewrite nan_iff, inf_iff, fmag_mag in D by auto. destruct (fields s u H) as (Sg & _). rewrite Sg in D.
    unfold reading. destruct (Z.leb_spec u (finf F)).
    - replace (finf F <? u) with false in D by lia. destruct (Z.eqb_spec u (finf F)) as [->|N].
      + exists (sgnq s * Qpower 2 (2 ^ (fe F - 1)))%Q.
        destruct s, (ieee_decode F _) as [|[]|]; cbn in D; try contradiction; (split; [reflexivity|]);
          rewrite limit_mag; unfold sc, sgnq, sg; rewrite ?inject_Z_opp; unfold Qdiv; ring.
      + destruct (ieee_decode F _) as [|[]|q]; cbn in D; try contradiction. exists q. split; [reflexivity|].
        rewrite D, sc_half. destruct s; cbn [sg]; unfold sc; rewrite ?inject_Z_mult, ?inject_Z_opp, ?inject_Z_mult; unfold Qdiv; ring.
    - replace (finf F <? u) with true in D by lia. now destruct (ieee_decode F _) as [|[]|].
  Qed.

  (** ** local nearness is nearness *)
  Definition mid (u : Z) : Q := sc (mag u + mag (u + 1)).
  Lemma mid_lt u u' : 0 <= u < u' -> (mid u < mid u')%Q.
  Proof. intros H. apply sc_lt. pose proof (mag_mono u u' ltac:(lia) ltac:(lia)). pose proof (mag_mono (u + 1) (u' + 1) ltac:(lia) ltac:(lia)). lia. Qed.
  Lemma sc_middle a b v w : (v == sc (2 * a))%Q -> (w == sc (2 * b))%Q -> ((v + w) / 2 == sc (a + b))%Q.
  Proof.
    intros -> ->. unfold sc. rewrite inject_Z_plus, !inject_Z_mult. change (inject_Z 2) with (2 # 1)%Q.
    pose proof (injZ_pow_nz (S + 1) ltac:(pose proof S_pos; lia)). field. auto.
  Qed.
  Definition below (y : number) (p : Q) (u : Z) : Prop := y p = Lt \/ (y p = Eq /\ Z.even u = true).
  Definition above (y : number) (p : Q) (u : Z) : Prop := y p = Gt \/ (y p = Eq /\ Z.even u = true).
  Lemma signed_even s u : Z.even (signed F s u) = Z.even u.
  Proof.
    destruct HF as (Hw & He & Hm). unfold signed. destruct s; [|now rewrite Z.add_0_r].
    rewrite Z.even_add. replace (fw F - 1) with (Z.succ (fw F - 2)) by lia. rewrite Z.pow_succ_r by lia.
    rewrite Z.even_mul. cbn. now destruct (Z.even u).
  Qed.
  Lemma zero_iff s u : 0 <= u < 2 ^ (fw F - 1) -> is_zero_num (ieee_decode F (signed F s u)) <-> u = 0.
  Proof.
    intros H. pose proof (decode_classify F _ HF (signed_in s u H)) as D. unfold classify in D.
    rewrite nan_iff, inf_iff, fmag_mag in D by auto. pose proof finf_range.
    destruct (Z.ltb_spec (finf F) u).
    { destruct (ieee_decode F _) as [|[]|]; cbn in *; try contradiction. split; [tauto|lia]. }
    destruct (Z.eqb_spec u (finf F)).
    { destruct (fsign F _), (ieee_decode F _) as [|[]|]; cbn in *; try contradiction; split; try tauto; lia. }
    destruct (ieee_decode F _) as [|[]|q]; cbn in D |- *; try contradiction. rewrite D, sc_half.
    split.
    - intros E. change 0%Q with (inject_Z 0) in E. assert (Z0 : (sc 0 == 0)%Q) by (unfold sc; reflexivity).
      rewrite <- Z0 in E. apply sc_eq_inv in E. destruct (Z.eq_dec u 0); auto.
      pose proof (mag_mono 0 u ltac:(lia) ltac:(lia)). rewrite mag_0 in *. destruct (fsign F _); lia.
    - intros ->. rewrite mag_0. destruct (fsign F _); reflexivity.
  Qed.
  Lemma sc_0 : (sc 0 == 0)%Q. Proof. reflexivity. Qed.
  Lemma local_nearer y u s' u' : cut y -> y 0%Q = Gt -> 0 <= u <= finf F -> 0 <= u' <= finf F ->
    (0 < u -> above y (mid (u - 1)) u) -> (u < finf F -> below y (mid u) u) ->
    nearer y (sc (2 * mag u)) (sc (sg s' (2 * mag u'))) (Z.even u).
  Proof.
    intros C P U U' Lo Hi. unfold nearer.
    assert (Mi : ((sc (2 * mag u) + sc (sg s' (2 * mag u'))) / 2 == sc (mag u + sg s' (mag u')))%Q).
    { apply sc_middle; [reflexivity|]. destruct s'; cbn [sg]; [|reflexivity]. now replace (- (2 * mag u')) with (2 * - mag u') by lia. }
    rewrite (c_eq y C _ _ Mi). pose proof (mag_nonneg u ltac:(lia)). pose proof (mag_nonneg u' ltac:(lia)).
    destruct (sc (2 * mag u) ?= sc (sg s' (2 * mag u')))%Q eqn:E; auto.
    - apply Qlt_alt, sc_lt_inv in E. destruct s'; cbn [sg] in *; [lia|].
      assert (L : u < u'). { destruct (Z_lt_dec u u'); auto. pose proof (mag_le u' u ltac:(lia) ltac:(lia)). lia. }
      specialize (Hi ltac:(lia)). destruct (Z.eq_dec u' (u + 1)) as [->|N]; [exact Hi|].
      left. apply (c_up y C (mid u)); [|destruct Hi as [-> | [-> _]]; discriminate].
      apply sc_lt. pose proof (mag_mono (u + 1) u' ltac:(lia) ltac:(lia)). lia.
    - apply Qgt_alt, sc_lt_inv in E. destruct (Z.eq_dec u 0) as [->|N].
      + rewrite mag_0 in *. left. apply (c_dn y C 0%Q); [|rewrite P; discriminate].
        rewrite <- sc_0. apply sc_lt. destruct s'; cbn [sg] in *; lia.
      + specialize (Lo ltac:(lia)). unfold mid in Lo. replace (u - 1 + 1) with u in Lo by lia.
        pose proof (mag_nonneg (u - 1) ltac:(lia)). pose proof (mag_mono (u - 1) u ltac:(lia) ltac:(lia)).
        destruct (Z.eq_dec (sg s' (mag u')) (mag (u - 1))) as [E2|N2].
        * rewrite E2, Z.add_comm. exact Lo.
        * left. apply (c_dn y C (mid (u - 1))); unfold mid; replace (u - 1 + 1) with u by lia;
            [|destruct Lo as [-> | [-> _]]; discriminate].
          apply sc_lt. destruct s'; cbn [sg] in *.
          -- lia.
          -- assert (u' < u). { destruct (Z_lt_dec u' u); auto. pose proof (mag_le u u' ltac:(lia) ltac:(lia)). lia. }
             pose proof (mag_le u' (u - 1) ltac:(lia) ltac:(lia)). lia.
  Qed.
  Lemma nearer_eq x v v' w w' e : cut x -> (v == w)%Q -> (v' == w')%Q -> nearer x w w' e -> nearer x v v' e.
  Proof.
    intros C A B. unfold nearer. assert (E : ((v + v') / 2 == (w + w') / 2)%Q) by (now rewrite A, B).
    rewrite (c_eq x C _ _ E), A, B. auto.
  Qed.
  Lemma sc_sg s z : (sc (sg s z) == sgnq s * sc z)%Q.
  Proof. destruct s; cbn [sg sgnq]; unfold sc; rewrite ?inject_Z_opp; unfold Qdiv; ring. Qed.
  Lemma sg_neg s z : sg (negb s) z = - sg s z. Proof. destruct s; cbn [sg negb]; lia. Qed.
  Definition orient (s : bool) (y : number) : number := if s then flip y else y.
  Lemma sc_neg z : (sc (- z) == - sc z)%Q.
  Proof. unfold sc. rewrite inject_Z_opp. unfold Qdiv. ring. Qed.
  Lemma flip_cut y : cut y -> cut (flip y).
  Proof.
    intros C. unfold flip. split; intros p p' H.
    - f_equal. apply (c_eq y C). now rewrite H.
    - intros N. rewrite (c_dn y C (- p) (- p')%Q); [reflexivity | lra |]. intros E. rewrite E in N. now apply N.
    - intros N. rewrite (c_up y C (- p) (- p')%Q); [reflexivity | lra |]. intros E. rewrite E in N. now apply N.
  Qed.
  Lemma local_rounded s y u : cut y -> y 0%Q = Gt -> 0 <= u <= finf F ->
    (0 < u -> above y (mid (u - 1)) u) -> (u < finf F -> below y (mid u) u) ->
    rounded F (orient s y) (signed F s u).
  Proof.
    intros C P U Lo Hi. pose proof finf_range. pose proof (reading_of s u ltac:(lia)) as R.
    replace (u <=? finf F) with true in R by lia. destruct R as (v & R & V).
    split; [apply signed_in; lia|]. exists v. split; [exact R|]. split.
    - intros r' v' I' R'. destruct (unsigned_of r' I') as (u' & U' & E'). rewrite E' in R'.
      pose proof (reading_of (fsign F r') u' U') as Q. destruct (Z.leb_spec u' (finf F)); [|congruence].
      destruct Q as (v2 & Q & V2). assert (v2 = v') by congruence. subst v2. rewrite signed_even.
      destruct s; cbn [orient].
      + apply (nearer_eq _ _ _ (- sc (2 * mag u)) (- sc (sg (negb (fsign F r')) (2 * mag u')))%Q).
        * now apply flip_cut.
        * rewrite V. cbn [sg]. apply sc_neg.
        * rewrite V2, sg_neg, sc_neg. lra.
        * apply nearer_flip; auto. apply local_nearer; auto; lia.
      + apply (nearer_eq _ _ _ (sc (2 * mag u)) (sc (sg (fsign F r') (2 * mag u')))); auto. apply local_nearer; auto; lia.
    - intros _. rewrite sign_bit_fsign by (auto; apply signed_in; lia). destruct (fields s u ltac:(lia)) as (-> & _).
      destruct s; cbn [orient]; unfold flip; [|now rewrite P]. rewrite (c_eq y C (- 0)%Q 0%Q), P by lra. reflexivity.
  Qed.
  (** with numbers too large for the format *)
  Lemma min_rounded s y u : cut y -> y 0%Q = Gt -> 0 <= u ->
    (0 < u -> above y (mid (u - 1)) u) -> below y (mid u) u ->
    rounded F (orient s y) (signed F s (Z.min (finf F) u)).
  Proof.
    intros C P U Lo Hi. pose proof finf_range. destruct (Z.le_gt_cases u (finf F)) as [L|L].
    - rewrite Z.min_r by lia. apply local_rounded; auto; lia.
    - rewrite Z.min_l by lia. apply local_rounded; auto; try lia. intros _. left.
      apply (c_dn y C (mid (u - 1))); [apply mid_lt; lia|]. destruct (Lo ltac:(lia)) as [-> | [-> _]]; discriminate.
  Qed.

  (** ** [nearest] *)
  Definition pat (k E : Z) : Z := if k <? M then k else (E + 1) * M + (k - M).
  Lemma pat_facts k E : 0 <= E -> 0 <= k <= 2 * M -> (0 < E -> M <= k) ->
    0 <= pat k E /\ mag (pat k E) = k * 2 ^ E /\ Z.even (pat k E) = Z.even k /\
    (k + 1) * 2 ^ E <= mag (pat k E + 1) /\
    (0 < pat k E -> M < k \/ E = 0 -> mag (pat k E - 1) = (k - 1) * 2 ^ E).
  Proof.
    intros HE Hk HM. pose proof M_pos as Mp. pose proof (pow_pos E HE) as PE. destruct HF as (_ & _ & Hm).
    assert (ME : Z.even M = true) by (replace (fm F) with (Z.succ (fm F - 1)) by lia; now rewrite Z.pow_succ_r, Z.even_mul by lia).
    unfold pat. destruct (Z.ltb_spec k M) as [L|L].
    - assert (E = 0) by lia. subst E. rewrite Z.pow_0_r, !Z.mul_1_r.
      assert (A : mag k = k) by (unfold mag; now rewrite Z.div_small, Z.mod_small by lia).
      split; [lia|]. split; [exact A|]. split; [reflexivity|]. split.
      + rewrite mag_step by lia. rewrite A. pose proof (pow_pos (Z.max (k / M) 1 - 1) ltac:(lia)). lia.
      + intros K0 _. unfold mag. now rewrite Z.div_small, Z.mod_small by lia.
    - assert (Q : 0 <= (E + 1) * M + (k - M)) by nia.
      assert (A : mag ((E + 1) * M + (k - M)) = k * 2 ^ E).
      { unfold mag. destruct (Z.eq_dec k (2 * M)) as [->|N].
        - replace ((E + 1) * M + (2 * M - M)) with ((E + 2) * M) by lia. rewrite Z.div_mul, Z.mod_mul by lia.
          replace (E + 2 =? 0) with false by lia. replace (E + 2 - 1) with (Z.succ E) by lia. rewrite Z.pow_succ_r by lia. lia.
        - rewrite (Z.add_comm _ (k - M)), Z.div_add, Z.mod_add, Z.div_small, Z.mod_small by lia.
          replace (0 + (E + 1) =? 0) with false by lia. replace (0 + (E + 1) - 1) with E by lia. lia. }
      split; [exact Q|]. split; [exact A|]. split.
      { rewrite Z.even_add, Z.even_mul, ME, orb_true_r, Z.even_sub, ME. now destruct (Z.even k). }
      split.
      { rewrite mag_step by lia. rewrite A.
        assert (E <= Z.max (((E + 1) * M + (k - M)) / M) 1 - 1).
        { rewrite (Z.add_comm _ (k - M)), Z.div_add by lia. pose proof (Z.div_pos (k - M) M ltac:(lia) ltac:(lia)). lia. }
        pose proof (Z.pow_le_mono_r 2 E _ ltac:(lia) H). lia. }
      intros P HK. destruct (Z.eq_dec k M) as [->|N].
      + assert (E = 0) by lia. subst E. replace ((0 + 1) * M + (M - M) - 1) with (M - 1) by lia.
        unfold mag. rewrite Z.div_small, Z.mod_small by lia. cbn. lia.
      + replace ((E + 1) * M + (k - M) - 1) with ((k - M - 1) + (E + 1) * M) by lia. unfold mag.
        rewrite Z.div_add, Z.mod_add, Z.div_small, Z.mod_small by lia.
        replace (0 + (E + 1) =? 0) with false by lia. replace (0 + (E + 1) - 1) with E by lia. lia.
  Qed.
  Lemma pw a i e : 0 <= i -> (inject_Z (a * 2 ^ i) * Qpower 2 e == inject_Z a * Qpower 2 (e + i))%Q.
  Proof.
    intros H. rewrite inject_Z_mult, Qpower_plus by (intros A; discriminate A). rewrite (Qpow2_pos i H). ring.
  Qed.
  Lemma sc_pw a i : 0 <= i -> (sc (a * 2 ^ i) == inject_Z a * Qpower 2 (i - (S + 1)))%Q.
  Proof.
    intros H. pose proof S_pos. unfold sc. rewrite inject_Z_mult, Qpow2_sub by lia. unfold Qdiv. ring.
  Qed.
  Lemma tie h (o b : bool) : (2 * h <? 2 * h) || ((2 * h =? 2 * h) && (false || o)) = b -> o = b.
  Proof. now rewrite Z.ltb_irrefl, Z.eqb_refl. Qed.
  Lemma nearest_rounded s y m e (more : bool) : cut y -> y 0%Q = Gt -> 0 < m ->
    (forall k, y (inject_Z k * Qpower 2 e)%Q = if more then (if k <=? m then Gt else Lt) else (m ?= k)%Z) ->
    (more = true -> fm F < Z.log2 m) ->
    rounded F (orient s y) (nearest F s m e more).
  Proof.
    intros C P Hm Hy Hmore. pose proof M_pos as Mp. pose proof S_pos as Sp. pose proof HF as (_ & _ & Hf).
    destruct (Z.log2_spec m Hm) as [L1 L2]. pose proof (Z.log2_nonneg m) as L0.
    unfold nearest. replace (m =? 0) with false by lia.
    set (q := Z.max (e + Z.log2 m - fm F) (- S)). set (E := q + S). assert (HE : 0 <= E) by lia.
    match goal with |- context [if ?c <? M then ?c else _] => set (k := c) end.
    replace (q + S + 1) with (E + 1) by lia. fold (pat k E).
    destruct (Z.leb_spec q e) as [Q|Q]; subst k.
    - (* exact *)
      destruct more; [specialize (Hmore eq_refl); lia|].
      set (k := m * 2 ^ (e - q)). pose proof (pow_pos (e - q) ltac:(lia)) as Pq.
      assert (K : 0 <= k <= 2 * M /\ (0 < E -> M <= k)).
      { assert (K1 : 2 ^ (Z.log2 m + (e - q)) <= k < 2 ^ (Z.succ (Z.log2 m) + (e - q))) by (unfold k; rewrite !Z.pow_add_r by lia; nia).
        assert (K2 : 2 ^ (Z.succ (Z.log2 m) + (e - q)) <= 2 ^ (Z.succ (fm F))) by (apply Z.pow_le_mono_r; lia).
        rewrite (Z.pow_succ_r 2 (fm F)) in K2 by lia. split; [lia|]. intros HE'.
        replace (Z.log2 m + (e - q)) with (fm F) in K1 by lia. lia. }
      destruct (pat_facts k E HE (proj1 K) (proj2 K)) as (U & A & _ & _ & _).
      assert (V : y (sc (2 * mag (pat k E))) = Eq).
      { rewrite A. rewrite (c_eq y C _ (inject_Z m * Qpower 2 e)%Q), Hy, Z.compare_refl; [reflexivity|].
        replace (2 * (k * 2 ^ E)) with (m * 2 ^ (1 + (e - q) + E)) by (unfold k; rewrite !Z.pow_add_r by lia; lia).
        rewrite sc_pw by lia. replace (1 + (e - q) + E - (S + 1)) with e by lia. reflexivity. }
      apply min_rounded; auto.
      + intros H0. left. apply (c_dn y C (sc (2 * mag (pat k E)))); [|rewrite V; discriminate]. unfold mid. apply sc_lt.
        replace (pat k E - 1 + 1) with (pat k E) by lia. pose proof (mag_mono (pat k E - 1) (pat k E) ltac:(lia) ltac:(lia)). lia.
      + left. apply (c_up y C (sc (2 * mag (pat k E)))); [|rewrite V; discriminate]. unfold mid. apply sc_lt.
        pose proof (mag_mono (pat k E) (pat k E + 1) ltac:(lia) ltac:(lia)). lia.
    - (* rounded *)
      set (h := 2 ^ (q - 1 - e)). assert (Hh : 0 < h) by (apply pow_pos; lia).
      assert (Dh : 2 ^ (q - e) = 2 * h) by (unfold h; rewrite <- Z.pow_succ_r by lia; f_equal; lia). rewrite Dh.
      set (n := m / (2 * h)). pose proof (Z.div_mod m (2 * h) ltac:(lia)) as D. fold n in D.
      pose proof (Z.mod_pos_bound m (2 * h) ltac:(lia)) as B. set (r := m mod (2 * h)) in *.
      assert (N : 0 <= n < 2 * M /\ (0 < E -> M <= n)).
      { split.
        - split; [apply Z.div_pos; lia|]. apply Z.div_lt_upper_bound; [lia|].
          apply Z.lt_le_trans with (2 ^ Z.succ (Z.log2 m)); auto. rewrite <- Dh.
          replace (2 * M) with (2 ^ Z.succ (fm F)) by (rewrite Z.pow_succ_r by lia; lia).
          rewrite <- Z.pow_add_r by lia. apply Z.pow_le_mono_r; lia.
        - intros HE'. apply Z.div_le_lower_bound; [lia|]. rewrite <- Dh, <- Z.pow_add_r by lia.
          replace (q - e + fm F) with (Z.log2 m) by lia. lia. }
      (* comparisons in halves of the last place *)
      assert (Y : forall a, y (sc (a * 2 ^ E)) = if more then (if a * h <=? m then Gt else Lt) else (m ?= a * h)%Z).
      { intros a. rewrite <- Hy. apply (c_eq y C). rewrite sc_pw by lia. unfold h. rewrite pw by lia.
        replace (E - (S + 1)) with (e + (q - 1 - e)) by lia. reflexivity. }
      clearbody r n h. clear Hy L1 L2 L0.
      set (up := (2 * h <? 2 * r) || ((2 * r =? 2 * h) && (more || Z.odd n))).
      assert (K : 0 <= (if up then n + 1 else n) <= 2 * M /\ (0 < E -> M <= if up then n + 1 else n)) by (destruct up; lia).
      destruct (pat_facts _ E HE (proj1 K) (proj2 K)) as (U & A & Ev & Nx & Pv). set (u := pat (if up then n + 1 else n) E) in *.
      pose proof (pow_pos E HE) as PE.
      assert (Odd : Z.even n = negb (Z.odd n)) by (rewrite Z.negb_odd; reflexivity).
      apply min_rounded; auto.
      + intros H0. unfold mid. replace (u - 1 + 1) with u by lia. destruct up eqn:Up.
        * rewrite (Pv H0) by (destruct (Z.eq_dec E 0); [now right | left; lia]). rewrite A.
          replace ((n + 1 - 1) * 2 ^ E + (n + 1) * 2 ^ E) with ((2 * n + 1) * 2 ^ E) by lia.
          unfold above. rewrite Y, Ev. replace (Z.even (n + 1)) with (Z.odd n) by (rewrite Z.add_1_r, Z.even_succ; reflexivity).
          unfold up in Up. clear up u U A Ev Nx Pv K H0 Y. destruct more.
          -- left. replace ((2 * n + 1) * h <=? m) with true by nia. reflexivity.
          -- destruct (Z.compare_spec m ((2 * n + 1) * h)); [assert (r = h) by lia; subst r; right; split; [auto | exact (tie h _ _ Up)] | assert (r < h) by lia; lia | left; auto].
        * left. apply (c_dn y C (sc (2 * n * 2 ^ E))).
          -- apply sc_lt. rewrite A. pose proof (mag_mono (u - 1) u ltac:(lia) ltac:(lia)). lia.
          -- rewrite Y. destruct more; [replace (2 * n * h <=? m) with true by nia; discriminate|].
             rewrite Z.compare_lt_iff. nia.
      + destruct up eqn:Up.
        * left. apply (c_up y C (sc (2 * (n + 1) * 2 ^ E))).
          -- unfold mid. apply sc_lt. lia.
          -- rewrite Y. destruct more; [replace (2 * (n + 1) * h <=? m) with false by nia; discriminate|].
             rewrite Z.compare_gt_iff. nia.
        * assert (T : below y (sc ((2 * n + 1) * 2 ^ E)) u).
          { unfold below. rewrite Y, Ev, Odd. unfold up in Up. destruct more.
            - left. replace ((2 * n + 1) * h <=? m) with false by nia. reflexivity.
            - destruct (Z.compare_spec m ((2 * n + 1) * h)); [assert (r = h) by lia; subst r; right; split; [auto | now rewrite (tie h _ _ Up)] | left; auto | assert (h < r) by lia; lia]. }
          unfold mid. destruct (Z.eq_dec (mag u + mag (u + 1)) ((2 * n + 1) * 2 ^ E)) as [-> | X]; [exact T|].
          left. apply (c_up y C (sc ((2 * n + 1) * 2 ^ E))); [apply sc_lt; lia|].
          destruct T as [-> | [-> _]]; discriminate.
  Qed.

  (** ** uniqueness *)
  Lemma between x v w v' e e' : cut x -> (v < w)%Q -> (w < v')%Q ->
    nearer x v w e -> nearer x v' w e' -> nearer x v v' e -> nearer x v' v e' -> False.
  Proof.
    intros C A B. unfold nearer.
    rewrite (proj1 (Qlt_alt v w) A), (proj1 (Qgt_alt v' w) B), (proj1 (Qlt_alt v v')), (proj1 (Qgt_alt v' v)) by (eapply Qlt_trans; eauto).
    intros H1 H2 H3 H4. assert (K : x ((v + v') / 2)%Q = Lt).
    { apply (c_up x C ((v + w) / 2)%Q); [|destruct H1 as [-> | [-> _]]; discriminate].
      apply Qmult_lt_r; [reflexivity | lra]. }
    rewrite (c_eq x C ((v' + v) / 2)%Q ((v + v') / 2)%Q), K in H4 by field. destruct H4 as [H4 | [H4 _]]; discriminate.
  Qed.
  Lemma reading_inv r v : in_u (fw F) r -> reading F r = Some v ->
    exists u, 0 <= u <= finf F /\ r = signed F (fsign F r) u /\ (v == sc (sg (fsign F r) (2 * mag u)))%Q.
  Proof.
    intros Hr R. destruct (unsigned_of r Hr) as (u & U & E). pose proof (reading_of (fsign F r) u U) as Q.
    rewrite <- E in Q. destruct (Z.leb_spec u (finf F)); [|congruence]. destruct Q as (v' & Q & V).
    exists u. repeat split; try lia; auto. assert (v' = v) by congruence. now subst.
  Qed.
  Lemma sc_cmp a b v w : (v == sc a)%Q -> (w == sc b)%Q -> (v < w)%Q <-> a < b.
  Proof. intros -> ->. split; [apply sc_lt_inv | apply sc_lt]. Qed.
  Lemma not_below x r r' : cut x -> rounded F x r -> rounded F x r' ->
    forall v v', reading F r = Some v -> reading F r' = Some v' -> ~ (v < v')%Q.
  Proof.
    intros C (I & v0 & R & N & _) (I' & v0' & R' & N' & _) v v' E E' L.
    assert (v0 = v) by congruence. assert (v0' = v') by congruence. subst v0 v0'.
    destruct (reading_inv r v I R) as (u & U & Er & V). destruct (reading_inv r' v' I' R') as (u' & U' & Er' & V').
    set (s := fsign F r) in *. set (s' := fsign F r') in *.
    assert (No : forall s1 u1 w, 0 <= u1 <= finf F -> (w == sc (sg s1 (2 * mag u1)))%Q -> (v < w)%Q -> (w < v')%Q -> False).
    { intros s1 u1 w U1 W A B. pose proof finf_range. pose proof (reading_of s1 u1 ltac:(lia)) as Q.
      replace (u1 <=? finf F) with true in Q by lia. destruct Q as (w' & Q & W').
      assert (WW : (w == w')%Q) by (now rewrite W, W'). rewrite WW in A, B.
      pose proof (signed_in s1 u1 ltac:(lia)) as I1.
      exact (between x v w' v' _ _ C A B (N _ _ I1 Q) (N' _ _ I1 Q) (N _ _ I' R') (N' _ _ I R)). }
    assert (Par : Z.even u = true /\ Z.even u' = true).
    { specialize (N _ _ I' R'). specialize (N' _ _ I R). unfold nearer in N, N'.
      rewrite (proj1 (Qlt_alt v v') L) in N. rewrite (proj1 (Qgt_alt v' v) L) in N'.
      rewrite (c_eq x C ((v' + v) / 2)%Q ((v + v') / 2)%Q) in N' by field.
      rewrite Er, signed_even in N. rewrite Er', signed_even in N'.
      destruct N as [N | [N ?]], N' as [N' | [N' ?]]; try congruence. auto. }
    rewrite (sc_cmp _ _ _ _ V V') in L. pose proof (mag_nonneg u ltac:(lia)). pose proof (mag_nonneg u' ltac:(lia)).
    assert (Odd : forall z, Z.even (z + 1) = negb (Z.even z)) by (intros z; rewrite Z.add_1_r, Z.even_succ, <- Z.negb_even; reflexivity).
    assert (Z1 : forall z, (sc (sg false (2 * mag z)) == sc (2 * mag z))%Q) by (intros; reflexivity).
    destruct s, s'; cbn [sg] in *.
    - (* both negative: u' < u *)
      assert (u' < u) by (destruct (Z_lt_dec u' u); auto; pose proof (mag_le u u' ltac:(lia) ltac:(lia)); lia).
      destruct (Z.eq_dec (u' + 1) u) as [E1|E1]; [rewrite <- E1, Odd in Par; destruct (Z.even u'); destruct Par; discriminate|].
      apply (No true (u' + 1) (sc (sg true (2 * mag (u' + 1)))) ltac:(lia)); [reflexivity | rewrite V | rewrite V']; apply sc_lt; cbn [sg].
      + pose proof (mag_mono (u' + 1) u ltac:(lia) ltac:(lia)). lia.
      + pose proof (mag_mono u' (u' + 1) ltac:(lia) ltac:(lia)). lia.
    - destruct (Z.eq_dec u 0) as [->|Nu]; [|destruct (Z.eq_dec u' 0) as [->|Nu']].
      + rewrite mag_0 in *. assert (u' <> 0) by (intros ->; rewrite mag_0 in *; lia).
        destruct (Z.eq_dec u' 1) as [->|]; [destruct Par; discriminate|].
        apply (No false 1 (sc (2 * mag 1)) ltac:(lia)); [reflexivity | rewrite V | rewrite V']; apply sc_lt.
        * pose proof (mag_mono 0 1 ltac:(lia) ltac:(lia)). rewrite mag_0 in *. lia.
        * pose proof (mag_mono 1 u' ltac:(lia) ltac:(lia)). lia.
      + rewrite mag_0 in *. destruct (Z.eq_dec u 1) as [->|]; [destruct Par; discriminate|].
        apply (No true 1 (sc (- (2 * mag 1))) ltac:(lia)); [reflexivity | rewrite V | rewrite V']; apply sc_lt.
        * pose proof (mag_mono 1 u ltac:(lia) ltac:(lia)). lia.
        * pose proof (mag_mono 0 1 ltac:(lia) ltac:(lia)). rewrite mag_0 in *. lia.
      + apply (No false 0 (sc 0) ltac:(pose proof finf_range; lia)); [now rewrite mag_0 | rewrite V | rewrite V']; apply sc_lt.
        * pose proof (mag_mono 0 u ltac:(lia) ltac:(lia)). rewrite mag_0 in *. lia.
        * pose proof (mag_mono 0 u' ltac:(lia) ltac:(lia)). rewrite mag_0 in *. lia.
    - lia.
    - assert (u < u') by (destruct (Z_lt_dec u u'); auto; pose proof (mag_le u' u ltac:(lia) ltac:(lia)); lia).
      destruct (Z.eq_dec (u + 1) u') as [E1|E1]; [rewrite <- E1, Odd in Par; destruct (Z.even u); destruct Par; discriminate|].
      apply (No false (u + 1) (sc (2 * mag (u + 1))) ltac:(lia)); [reflexivity | rewrite V | rewrite V']; apply sc_lt.
      + pose proof (mag_mono u (u + 1) ltac:(lia) ltac:(lia)). lia.
      + pose proof (mag_mono (u + 1) u' ltac:(lia) ltac:(lia)). lia.
  Qed.
  Lemma mag_inj u u' : 0 <= u -> 0 <= u' -> mag u = mag u' -> u = u'.
  Proof.
    intros A B E. destruct (Z.lt_trichotomy u u') as [L|[L|L]]; auto.
    - pose proof (mag_mono u u' A L). lia.
    - pose proof (mag_mono u' u B L). lia.
  Qed.
  Lemma rounded_unique x r r' : cut x -> rounded F x r -> rounded F x r' -> r = r'.
  Proof.
    intros C A B. pose proof (not_below x r r' C A B) as L. pose proof (not_below x r' r C B A) as L'.
    destruct A as (I & v & R & _ & Z0), B as (I' & v' & R' & _ & Z0').
    specialize (L v v' R R'). specialize (L' v' v R' R).
    assert (E : (v == v')%Q) by lra. destruct (reading_inv r v I R) as (u & U & Er & V). destruct (reading_inv r' v' I' R') as (u' & U' & Er' & V').
    rewrite V, V' in E. apply sc_eq_inv in E. pose proof (mag_nonneg u ltac:(lia)). pose proof (mag_nonneg u' ltac:(lia)).
    assert (EQ : mag u = mag u') by (destruct (fsign F r), (fsign F r'); cbn [sg] in E; lia).
    apply mag_inj in EQ; try lia. subst u'. pose proof finf_range.
    destruct (Z.eq_dec u 0) as [->|N].
    - rewrite sign_bit_fsign in Z0, Z0' by auto. rewrite Er in Z0 at 1. rewrite Er' in Z0' at 1.
      rewrite zero_iff in Z0, Z0' by lia. rewrite Er, Er'. rewrite Z0, Z0'; auto.
    - pose proof (mag_mono 0 u ltac:(lia) ltac:(lia)). rewrite mag_0 in *. rewrite Er, Er'.
      f_equal. destruct (fsign F r), (fsign F r'); cbn [sg] in E; auto; lia.
  Qed.

  (** ** operands and results *)
  Lemma decode_cases a : in_u (fw F) a ->
    (is_nan F a = true /\ ieee_decode F a = NNan) \/
    (is_nan F a = false /\ is_inf F a = true /\ ieee_decode F a = NInf (fsign F a)) \/
    (is_nan F a = false /\ is_inf F a = false /\
     exists q, ieee_decode F a = NFin q /\ (q == sc (2 * sg (fsign F a) (fmag F a)))%Q).
  Proof.
    intros Ha. pose proof (decode_classify F a HF Ha) as D. unfold classify in D.
    destruct (is_nan F a) eqn:N; [left|right]; cbn [num_of_cls] in D.
    - split; auto. now destruct (ieee_decode F a) as [|[]|].
    - destruct (is_inf F a) eqn:K; [left|right].
      + destruct (fsign F a), (ieee_decode F a) as [|[]|]; cbn in D; try contradiction; auto.
      + destruct (ieee_decode F a) as [|[]|q]; cbn in D; try contradiction. split; auto. split; auto.
        exists q. split; auto. rewrite D, sc_half. destruct (fsign F a); reflexivity.
  Qed.
  Lemma in_signed s u : 0 <= u <= finf F -> in_u (fw F) (signed F s u) /\ sign_bit F (signed F s u) = s.
  Proof.
    intros H. pose proof finf_range. assert (K : in_u (fw F) (signed F s u)) by (apply signed_in; lia). split; auto.
    rewrite sign_bit_fsign by auto. apply fields. lia.
  Qed.
  Lemma inf_result s : infinity F s (signed F s (finf F)).
  Proof.
    pose proof finf_range. destruct (in_signed s (finf F) ltac:(lia)) as [A B]. split; auto.
    pose proof (decode_classify F _ HF A) as D. unfold classify in D. rewrite nan_iff, inf_iff, Z.ltb_irrefl, Z.eqb_refl in D by lia.
    destruct (fields s (finf F) ltac:(lia)) as (Sg & _). rewrite Sg in D. destruct s, (ieee_decode F _) as [|[]|]; cbn in D; try contradiction; auto.
  Qed.
  Lemma zero_result s : zero F s (signed F s 0).
  Proof.
    pose proof finf_range. destruct (in_signed s 0 ltac:(lia)) as [A B]. split; auto. split; auto. apply zero_iff; lia.
  Qed.
  Lemma nan_in s t : 0 < t < M -> Z.testbit t (fm F - 1) = true ->
    in_u (fw F) (signed F s (finf F + t)) /\ arithmetic_nan F (signed F s (finf F + t)).
  Proof.
    intros Ht T. pose proof top_pow as TP. pose proof M_pos as Mp. pose proof HF as (Hw & He & Hm).
    assert (R : 0 <= finf F + t < 2 ^ (fw F - 1)) by (rewrite TP; unfold finf; pose proof finf_range; unfold finf in *; nia).
    pose proof (signed_in s _ R) as I. split; auto. split.
    - apply (is_nan_num F HF _ I). rewrite nan_iff by auto. lia.
    - destruct (fields s _ R) as (_ & _ & Fm). unfold fmant in Fm.
      assert (E : signed F s (finf F + t) mod M = t).
      { rewrite Fm. unfold finf. rewrite Z.add_comm, Z.mod_add by lia. apply Z.mod_small. lia. }
      rewrite <- (Z.mod_pow2_bits_low _ (fm F)) by lia. now rewrite E.
  Qed.
  Lemma half_bit : 0 < 2 ^ (fm F - 1) < M /\ Z.testbit (2 ^ (fm F - 1)) (fm F - 1) = true.
  Proof.
    destruct HF as (_ & _ & Hm). pose proof (pow_pos (fm F - 1) ltac:(lia)). pose proof (pow_half (fm F) ltac:(lia)).
    split; [lia|]. apply Z.pow2_bits_true. lia.
  Qed.
  Lemma signed_low s u : 0 <= u < 2 ^ (fw F - 1) -> signed F s u mod 2 ^ (fw F - 1) = u.
  Proof.
    intros H. pose proof (pow_pos (fw F - 1) ltac:(destruct HF; lia)). unfold signed.
    destruct s; [replace (u + 2 ^ (fw F - 1)) with (u + 1 * 2 ^ (fw F - 1)) by lia; rewrite Z.mod_add by lia | rewrite Z.add_0_r];
      apply Z.mod_small; lia.
  Qed.
  Lemma fnan_result G args : propagated G F args (fnan F).
  Proof.
    destruct half_bit as [A B]. destruct (nan_in false _ A B) as [C D].
    assert (E : signed F false (finf F + 2 ^ (fm F - 1)) = fnan F) by (unfold signed, fnan, finf; lia).
    rewrite E in *. split; auto. split; auto. intros _. now apply fnan_canonical.
  Qed.
  (** the payload of a NaN *)
  Lemma nan_shape a : in_u (fw F) a -> is_nan F a = true ->
    exists t, 0 < t < M /\ a = signed F (fsign F a) (finf F + t) /\ fmant F a = t.
  Proof.
    intros Ha N. destruct (unsigned_of a Ha) as (u & U & E). rewrite E, nan_iff in N by auto.
    pose proof top_pow as TP. pose proof M_pos. exists (u - finf F). split; [unfold finf in *; nia|].
    replace (finf F + (u - finf F)) with u by lia. split; auto. rewrite E. destruct (fields (fsign F a) u U) as (_ & _ & ->).
    replace u with (u - finf F + (2 ^ fe F - 1) * M) at 1 by (unfold finf; lia). rewrite Z.mod_add by lia.
    apply Z.mod_small. unfold finf in *. nia.
  Qed.
  Lemma canonical_shape a : in_u (fw F) a -> is_nan F a = true -> canonical_nan F a <-> fmant F a = 2 ^ (fm F - 1).
  Proof.
    intros Ha N. destruct (nan_shape a Ha N) as (t & T & E & Fm). unfold canonical_nan. rewrite E at 1.
    pose proof top_pow as TP. pose proof finf_range.
    rewrite signed_low by (unfold finf in *; nia). rewrite Fm. unfold finf. lia.
  Qed.
  Lemma low_bit t : 0 <= t < M -> Z.testbit t (fm F - 1) = (2 ^ (fm F - 1) <=? t).
  Proof. intros H. apply sign_testbit; [destruct HF; lia|]. unfold in_u. lia. Qed.
  Lemma quiet_payload t : 0 <= t < M ->
    let t' := if 2 ^ (fm F - 1) <=? t then t else t + 2 ^ (fm F - 1) in 0 < t' < M /\ Z.testbit t' (fm F - 1) = true.
  Proof.
    intros H t'. destruct HF as (_ & _ & Hm). pose proof (pow_pos (fm F - 1) ltac:(lia)). pose proof (pow_half (fm F) ltac:(lia)).
    unfold t'. assert (K : 0 < (if 2 ^ (fm F - 1) <=? t then t else t + 2 ^ (fm F - 1)) < M) by (destruct (Z.leb_spec (2 ^ (fm F - 1)) t); lia).
    split; auto. rewrite low_bit by lia. destruct (Z.leb_spec (2 ^ (fm F - 1)) t); lia.
  Qed.
  Lemma quiet_shape s t : 0 <= t < M ->
    quiet F (signed F s (finf F + t)) = signed F s (finf F + if 2 ^ (fm F - 1) <=? t then t else t + 2 ^ (fm F - 1)).
  Proof.
    intros H. unfold quiet. pose proof top_pow as TP. pose proof M_pos. destruct HF as (_ & _ & Hm). pose proof finf_range.
    assert (R : 0 <= finf F + t < 2 ^ (fw F - 1)) by (unfold finf in *; nia).
    rewrite <- (Z.mod_pow2_bits_low _ (fm F)) by lia. destruct (fields s _ R) as (_ & _ & Fm). unfold fmant in Fm. rewrite Fm.
    assert (E : (finf F + t) mod M = t) by (unfold finf; rewrite Z.add_comm, Z.mod_add by lia; apply Z.mod_small; lia).
    rewrite E, low_bit by auto. destruct (2 ^ (fm F - 1) <=? t); auto. unfold signed. lia.
  Qed.
  Lemma quiet_result a args : in_u (fw F) a -> is_nan F a = true -> In a args -> propagated F F args (quiet F a).
  Proof.
    intros Ha N Hin. destruct (nan_shape a Ha N) as (t & T & E & Fm). destruct (quiet_payload t ltac:(lia)) as [A B].
    destruct (nan_in (fsign F a) _ A B) as [C D]. rewrite E, quiet_shape by lia. split; auto. split; auto.
    intros K. specialize (K a Hin (proj1 (is_nan_num F HF a Ha) N)).
    apply canonical_shape in K; auto. replace (2 ^ (fm F - 1) <=? t) with true by lia. rewrite <- E.
    apply canonical_shape; auto.
  Qed.

  (** ** rounding rationals *)
  Lemma rounded_ext x x' r : (forall p, x p = x' p) -> rounded F x r -> rounded F x' r.
  Proof.
    intros E (I & v & R & N & Z0). split; auto. exists v. split; auto. split.
    - intros r' v' I' R'. specialize (N r' v' I' R'). unfold nearer in *. now rewrite <- E.
    - now rewrite <- E.
  Qed.
  Lemma flip_rational w p : flip (rational w) p = rational (- w) p.
  Proof.
    unfold flip, rational. destruct (w ?= - p)%Q eqn:E; cbn [CompOpp]; symmetry.
    - rewrite <- Qeq_alt in *. rewrite E. ring.
    - rewrite <- Qlt_alt in E. rewrite <- Qgt_alt. lra.
    - rewrite <- Qgt_alt in E. rewrite <- Qlt_alt. lra.
  Qed.
  Lemma pow_Q_pos e : (0 < Qpower 2 e)%Q. Proof. now apply Qpower_0_lt. Qed.
  Lemma cmp_scale a b c : (0 < c)%Q -> (inject_Z a * c ?= inject_Z b * c)%Q = (a ?= b).
  Proof.
    intros H. destruct (Z.compare_spec a b) as [-> | L | L].
    - now apply Qeq_alt.
    - rewrite <- Qlt_alt. apply Qmult_lt_r; auto. now rewrite <- Zlt_Qlt.
    - rewrite <- Qgt_alt. apply Qmult_lt_r; auto. now rewrite <- Zlt_Qlt.
  Qed.
  Lemma nearest_q s m e w : 0 < m -> (w == sgnq s * (inject_Z m * Qpower 2 e))%Q ->
    rounded F (rational w) (nearest F s m e false).
  Proof.
    intros Hm W. pose proof (pow_Q_pos e) as P.
    assert (K : rounded F (orient s (rational (inject_Z m * Qpower 2 e)%Q)) (nearest F s m e false)).
    { apply nearest_rounded; auto.
      - apply rational_cut.
      - unfold rational. rewrite <- Qgt_alt. apply Qmult_lt_0_compat; auto. change 0%Q with (inject_Z 0). now rewrite <- Zlt_Qlt.
      - intros k. now apply cmp_scale.
      - discriminate. }
    revert K. apply rounded_ext. intros p. destruct s; cbn [orient sgnq] in *.
    - rewrite flip_rational. unfold rational. rewrite W. apply Qcompare_comp; [ring | reflexivity].
    - unfold rational. rewrite W. apply Qcompare_comp; [ring | reflexivity].
  Qed.
  Lemma nearest_0 s e more : nearest F s 0 e more = signed F s 0. Proof. reflexivity. Qed.
  (** a finite pattern is [mant * 2^expo] *)
  Lemma mant_expo a : in_u (fw F) a -> 0 <= mant F a < 2 * M /\ (mant F a = 0 <-> fmag F a = 0) /\
    fmag F a = mant F a * 2 ^ (expo F a + S) /\ 0 <= expo F a + S.
  Proof.
    intros Ha. pose proof (fexpo_range F a HF). pose proof (fmant_range F a HF). pose proof M_pos.
    unfold mant, expo, fmag. destruct (Z.eqb_spec (fexpo F a) 0).
    - replace (0 - S + S) with 0 by lia. rewrite Z.pow_0_r. lia.
    - replace (fexpo F a - 1 - S + S) with (fexpo F a - 1) by lia. pose proof (pow_pos (fexpo F a - 1) ltac:(lia)). split; [lia|]. split; [nia|]. lia.
  Qed.
  Lemma value_mant a q : in_u (fw F) a -> (q == sc (2 * sg (fsign F a) (fmag F a)))%Q ->
    (q == sgnq (fsign F a) * (inject_Z (mant F a) * Qpower 2 (expo F a)))%Q.
  Proof.
    intros Ha ->. destruct (mant_expo a Ha) as (_ & _ & E & P). rewrite E.
    replace (2 * sg (fsign F a) (mant F a * 2 ^ (expo F a + S))) with (sg (fsign F a) (mant F a * 2 ^ (expo F a + S + 1)))
      by (rewrite Z.pow_add_r by lia; destruct (fsign F a); cbn [sg]; lia).
    rewrite sc_sg, sc_pw by lia. replace (expo F a + S + 1 - (S + 1)) with (expo F a) by lia. reflexivity.
  Qed.
  Lemma value_zero a q : in_u (fw F) a -> (q == sc (2 * sg (fsign F a) (fmag F a)))%Q -> Qeq_bool q 0 = (fmag F a =? 0).
  Proof.
    intros Ha V. apply eq_true_iff_eq. rewrite Qeq_bool_iff, V, Z.eqb_eq, <- sc_0. split.
    - intros E. apply sc_eq_inv in E. destruct (fsign F a); cbn [sg] in E; lia.
    - intros ->. now destruct (fsign F a).
  Qed.
  Lemma fsign_neg a : in_u (fw F) a -> in_u (fw F) (f_neg F a) /\ fsign F (f_neg F a) = negb (fsign F a) /\
    fmag F (f_neg F a) = fmag F a /\ is_nan F (f_neg F a) = is_nan F a /\ is_inf F (f_neg F a) = is_inf F a.
  Proof.
    intros Ha. destruct (unsigned_of a Ha) as (u & U & E).
    assert (K : f_neg F a = signed F (negb (fsign F a)) u).
    { rewrite E at 1. unfold f_neg, signed. destruct HF as (Hw & He & Hm). pose proof (pow_half (fw F) ltac:(lia)) as Ph.
      destruct (fsign F a); cbn [negb].
      - replace (u + 2 ^ (fw F - 1) + 2 ^ (fw F - 1)) with (u + 1 * 2 ^ fw F) by lia. rewrite Z.mod_add by lia.
        rewrite Z.add_0_r. apply Z.mod_small. lia.
      - rewrite Z.add_0_r. apply Z.mod_small. lia. }
    rewrite K. split; [apply signed_in; auto|]. destruct (fields (negb (fsign F a)) u U) as (A & _). split; auto.
    rewrite fmag_mag, nan_iff, inf_iff by auto.
    pose proof (fmag_mag (fsign F a) u U) as X1. pose proof (nan_iff (fsign F a) u U) as X2. pose proof (inf_iff (fsign F a) u U) as X3.
    rewrite <- E in X1, X2, X3. now rewrite X1, X2, X3.
  Qed.

  (** ** the operators *)
  Lemma sgq s z : (sgnq s * inject_Z z == inject_Z (sg s z))%Q.
  Proof. destruct s; cbn [sgnq sg]; rewrite ?inject_Z_opp; ring. Qed.
  Lemma add_ok a b : in_u (fw F) a -> in_u (fw F) b -> is_nan F a = false -> is_nan F b = false -> fadd F a b (add F a b).
  Proof.
    intros Ha Hb Na Nb. unfold fadd, add. rewrite !sign_bit_fsign by auto.
    destruct (decode_cases a Ha) as [[? _] | [[_ [Ia Da]] | [_ [Ia [p [Da P]]]]]]; [congruence| |];
    destruct (decode_cases b Hb) as [[? _] | [[_ [Ib Db]] | [_ [Ib [q [Db Q]]]]]]; try congruence; rewrite Da, Db, Ia, ?Ib; cbn [andb].
    - destruct (fsign F a), (fsign F b); cbn [xorb eqb]; auto using fnan_result.
    - reflexivity.
    - reflexivity.
    - set (z := (if fsign F a then - fmag F a else fmag F a) + (if fsign F b then - fmag F b else fmag F b)).
      assert (W : (p + q == sc (2 * z))%Q).
      { rewrite P, Q. unfold z. fold (sg (fsign F a) (fmag F a)) (sg (fsign F b) (fmag F b)). unfold sc.
        rewrite !inject_Z_mult, inject_Z_plus. unfold Qdiv. ring. }
      assert (B : Qeq_bool (p + q) 0 = (z =? 0)).
      { apply eq_true_iff_eq. rewrite Qeq_bool_iff, W, Z.eqb_eq, <- sc_0. split.
        - intros E. apply sc_eq_inv in E. lia.
        - intros ->. reflexivity. }
      rewrite B. destruct (Z.eqb_spec z 0); [apply zero_result|].
      apply nearest_q; [lia|]. rewrite W.
      assert (E : z = sg (z <? 0) (Z.abs z)) by (destruct (Z.ltb_spec z 0); cbn [sg]; lia).
      rewrite E at 1. rewrite Qmult_assoc, sgq. replace (2 * sg (z <? 0) (Z.abs z)) with (sg (z <? 0) (Z.abs z) * 2 ^ 1) by lia.
      rewrite sc_pw by lia. replace (1 - (S + 1)) with (- S) by lia. reflexivity.
  Qed.
  Lemma sub_ok a b : in_u (fw F) a -> in_u (fw F) b -> is_nan F a = false -> is_nan F b = false -> fsub F a b (add F a (f_neg F b)).
  Proof.
    intros Ha Hb Na Nb. destruct (fsign_neg b Hb) as (Hn & Sn & Mn & Nn & In'). rewrite Nb in Nn.
    pose proof (add_ok a (f_neg F b) Ha Hn Na Nn) as K. unfold fadd in K. unfold fsub.
    rewrite sign_bit_fsign in K |- * by auto. rewrite sign_bit_fsign in K |- * by auto. rewrite Sn in K.
    destruct (decode_cases a Ha) as [[? _] | [[_ [Ia Da]] | [_ [Ia [p [Da P]]]]]]; [congruence| |];
    destruct (decode_cases b Hb) as [[? _] | [[_ [Ib Db]] | [_ [Ib [q [Db Q]]]]]]; try congruence;
    destruct (decode_cases (f_neg F b) Hn) as [[? _] | [[_ [Jb Fb]] | [_ [Jb [q' [Fb Q']]]]]]; try congruence;
    rewrite Da, Fb in K; rewrite Da, Db; rewrite ?Sn in K; rewrite ?Sn, ?Mn in *.
    - destruct (fsign F a), (fsign F b); exact K.
    - exact K.
    - rewrite K. split; auto.
    - assert (E : (q' == - q)%Q).
      { rewrite Q', Q. rewrite sg_neg. replace (2 * - sg (fsign F b) (fmag F b)) with (- (2 * sg (fsign F b) (fmag F b))) by lia. apply sc_neg. }
      assert (B : Qeq_bool (p + q') 0 = Qeq_bool p q).
      { apply eq_true_iff_eq. rewrite !Qeq_bool_iff, E. split; intros; lra. }
      rewrite B in K. destruct (Qeq_bool p q); [exact K|]. revert K. apply rounded_ext. intros r. unfold rational.
      apply Qcompare_comp; [rewrite E; ring | reflexivity].
  Qed.
  Lemma sgnq_xor s t : (sgnq s * sgnq t == sgnq (xorb s t))%Q. Proof. now destruct s, t. Qed.
  Lemma mul_ok a b : in_u (fw F) a -> in_u (fw F) b -> is_nan F a = false -> is_nan F b = false -> fmul F a b (mul F a b).
  Proof.
    intros Ha Hb Na Nb. unfold fmul, mul. rewrite !sign_bit_fsign by auto.
    destruct (decode_cases a Ha) as [[? _] | [[_ [Ia Da]] | [_ [Ia [p [Da P]]]]]]; [congruence| |];
    destruct (decode_cases b Hb) as [[? _] | [[_ [Ib Db]] | [_ [Ib [q [Db Q]]]]]]; try congruence; rewrite Da, Db, Ia, ?Ib; cbn [andb orb negb].
    - apply inf_result.
    - rewrite (value_zero b q Hb Q). destruct (fmag F b =? 0); auto using fnan_result, inf_result.
    - rewrite (value_zero a p Ha P), orb_false_r. destruct (fmag F a =? 0); auto using fnan_result, inf_result.
    - pose proof (value_mant a p Ha P) as P'. pose proof (value_mant b q Hb Q) as Q'.
      destruct (mant_expo a Ha) as (A1 & A2 & A3 & A4). destruct (mant_expo b Hb) as (B1 & B2 & B3 & B4).
      assert (W : (p * q == sgnq (xorb (fsign F a) (fsign F b)) * (inject_Z (mant F a * mant F b) * Qpower 2 (expo F a + expo F b)))%Q).
      { rewrite P', Q', <- sgnq_xor, inject_Z_mult, Qpower_plus by (intros X; discriminate X). ring. }
      assert (B : Qeq_bool (p * q) 0 = (mant F a * mant F b =? 0)).
      { apply eq_true_iff_eq. rewrite Qeq_bool_iff, Z.eqb_eq. pose proof (value_zero a p Ha P) as V1. pose proof (value_zero b q Hb Q) as V2.
        rewrite Z.mul_eq_0, A2, B2, <- !Z.eqb_eq, <- V1, <- V2, !Qeq_bool_iff. split; [apply Qmult_integral|].
        intros [-> | ->]; ring. }
      rewrite B. destruct (Z.eqb_spec (mant F a * mant F b) 0) as [->|]; [apply zero_result|].
      apply nearest_q; auto. nia.
  Qed.
  Lemma div_ok a b : in_u (fw F) a -> in_u (fw F) b -> is_nan F a = false -> is_nan F b = false -> fdiv F a b (div F a b).
  Proof.
    intros Ha Hb Na Nb. unfold fdiv, div. rewrite !sign_bit_fsign by auto.
    destruct (decode_cases a Ha) as [[? _] | [[_ [Ia Da]] | [_ [Ia [p [Da P]]]]]]; [congruence| |];
    destruct (decode_cases b Hb) as [[? _] | [[_ [Ib Db]] | [_ [Ib [q [Db Q]]]]]]; try congruence; rewrite Da, Db, Ia, ?Ib.
    - apply fnan_result.
    - apply inf_result.
    - apply zero_result.
    - rewrite (value_zero a p Ha P), (value_zero b q Hb Q).
      destruct (Z.eqb_spec (fmag F b) 0) as [|Zb]; [destruct (fmag F a =? 0); auto using fnan_result, inf_result|].
      pose proof (value_mant a p Ha P) as P'. pose proof (value_mant b q Hb Q) as Q'.
      destruct (mant_expo a Ha) as (A1 & A2 & A3 & A4). destruct (mant_expo b Hb) as (B1 & B2 & B3 & B4).
      destruct (Z.eqb_spec (fmag F a) 0) as [Za|Za].
      { apply A2 in Za. rewrite Za, Z.mul_0_l, Z.div_0_l by lia. apply zero_result. }
      set (k := 2 * fm F + 4). set (n := mant F a * 2 ^ k). set (d := mant F b) in *. set (s := xorb _ _).
      assert (Hd : 0 < d) by lia. assert (Hma : 0 < mant F a) by lia. pose proof HF as (_ & _ & Hf).
      pose proof (pow_pos k ltac:(lia)) as Pk.
      set (c := Qpower 2 (expo F a - expo F b)). set (w := (inject_Z (mant F a) / inject_Z d * c)%Q).
      assert (Dq : ~ (inject_Z d == 0)%Q) by (change 0%Q with (inject_Z 0); rewrite inject_Z_injective; lia).
      assert (W : (p / q == sgnq s * w)%Q).
      { rewrite P', Q'. unfold w, c, s. rewrite <- sgnq_xor. unfold Z.sub. rewrite Qpower_plus, Qpower_opp by (intros X; discriminate X).
        pose proof (pow_Q_pos (expo F b)). assert (N1 : ~ (Qpower 2 (expo F b) == 0)%Q) by lra.
        destruct (fsign F a), (fsign F b); cbn [sgnq]; field; auto. }
      assert (Big : 2 ^ (fm F + 3) <= n / d).
      { apply Z.div_le_lower_bound; auto. apply Z.le_trans with (2 * M * 2 ^ (fm F + 3)); [pose proof (pow_pos (fm F + 3) ltac:(lia)); nia|].
        replace (2 * M * 2 ^ (fm F + 3)) with (2 ^ k); [unfold n; nia|].
        unfold k. replace (2 * fm F + 4) with (1 + fm F + (fm F + 3)) by lia. rewrite !Z.pow_add_r by lia. lia. }
      pose proof (pow_pos (fm F + 3) ltac:(lia)) as P3.
      assert (K : rounded F (orient s (rational w)) (nearest F s (n / d) (expo F a - expo F b - k) (negb (n mod d =? 0)))).
      { assert (Y : forall j, rational w (inject_Z j * Qpower 2 (expo F a - expo F b - k))%Q = (n ?= j * d)%Z).
        { intros j. unfold rational. set (g := Qpower 2 (expo F a - expo F b - k)).
          assert (G : (0 < g)%Q) by apply pow_Q_pos. assert (Gd : (0 < g / inject_Z d)%Q).
          { apply Qlt_shift_div_l; [change 0%Q with (inject_Z 0); now rewrite <- Zlt_Qlt|]. now rewrite Qmult_0_l. }
          rewrite <- (cmp_scale n (j * d) (g / inject_Z d)%Q) by auto. apply Qcompare_comp.
          - unfold w, n. assert (C : (c == g * inject_Z (2 ^ k))%Q).
            { unfold c, g. rewrite <- (Qpow2_pos k) by lia. rewrite <- Qpower_plus by (intros X; discriminate X).
              replace (expo F a - expo F b - k + k) with (expo F a - expo F b) by lia. reflexivity. }
            rewrite C, inject_Z_mult. field. auto.
          - rewrite inject_Z_mult. field. auto. }
        pose proof (Z.div_mod n d ltac:(lia)) as D. pose proof (Z.mod_pos_bound n d Hd) as B.
        apply nearest_rounded; auto using rational_cut.
        - unfold rational. rewrite <- Qgt_alt. unfold w. apply Qmult_lt_0_compat; [|apply pow_Q_pos].
          apply Qlt_shift_div_l; [change 0%Q with (inject_Z 0); now rewrite <- Zlt_Qlt|]. rewrite Qmult_0_l.
          change 0%Q with (inject_Z 0). now rewrite <- Zlt_Qlt.
        - lia.
        - intros j. rewrite Y. destruct (Z.eqb_spec (n mod d) 0) as [E|E]; cbn [negb].
          + rewrite E in D. rewrite D at 1. rewrite Z.add_0_r, (Z.mul_comm d). symmetry. apply Zmult_compare_compat_r. lia.
          + destruct (Z.leb_spec j (n / d)); [rewrite Z.compare_gt_iff | rewrite Z.compare_lt_iff]; nia.
        - intros _. pose proof (Z.log2_le_mono _ _ Big) as L. rewrite Z.log2_pow2 in L by lia. lia. }
      revert K. apply rounded_ext. intros r. destruct s; cbn [orient sgnq] in *; [rewrite flip_rational|]; unfold rational;
        (apply Qcompare_comp; [rewrite W; ring | reflexivity]).
  Qed.

  Lemma root_scale r n g j : (0 < g)%Q -> 0 <= n -> (r == inject_Z n * (g * g))%Q ->
    root r (inject_Z j * g)%Q = (if j <? 0 then Gt else (n ?= j * j)%Z).
  Proof.
    intros G N R. unfold root. destruct (Z.ltb_spec j 0) as [L|L].
    - assert (X : (inject_Z j * g < 0)%Q).
      { setoid_replace 0%Q with (inject_Z 0 * g)%Q by ring. apply Qmult_lt_r; auto. now rewrite <- Zlt_Qlt. }
      now rewrite (proj1 (Qlt_alt _ _) X).
    - assert (X : (0 <= inject_Z j * g)%Q).
      { apply Qmult_le_0_compat; [|now apply Qlt_le_weak]. change 0%Q with (inject_Z 0). now rewrite <- Zle_Qle. }
      assert (E : (r ?= inject_Z j * g * (inject_Z j * g))%Q = (n ?= j * j)%Z).
      { rewrite <- (cmp_scale n (j * j) (g * g)%Q) by (apply Qmult_lt_0_compat; auto).
        apply Qcompare_comp; [exact R|]. rewrite inject_Z_mult. ring. }
      rewrite E. destruct (inject_Z j * g ?= 0)%Q eqn:C; auto. rewrite <- Qlt_alt in C. lra.
  Qed.
  Lemma root_ok a q : in_u (fw F) a -> fsign F a = false -> fmag F a <> 0 -> (q == sc (2 * sg (fsign F a) (fmag F a)))%Q ->
    let e := expo F a in let k := fm F + 4 in let n := mant F a * 2 ^ (2 * k + e mod 2) in let r := Z.sqrt n in
    rounded F (root q) (nearest F false r ((e - e mod 2) / 2 - k) (negb (r * r =? n))).
  Proof.
    intros Ha Sa Za Q e k n r. pose proof (value_mant a q Ha Q) as Q'. rewrite Sa in Q'. cbn [sgnq] in Q'.
    destruct (mant_expo a Ha) as (A1 & A2 & A3 & A4). assert (Hma : 0 < mant F a) by lia. pose proof HF as (_ & _ & Hf).
    pose proof (Z.mod_pos_bound e 2 ltac:(lia)) as B. pose proof (Z.div_mod e 2 ltac:(lia)) as D.
    assert (E2 : (e - e mod 2) / 2 = e / 2) by (replace (e - e mod 2) with (e / 2 * 2) by lia; apply Z.div_mul; lia).
    rewrite E2. set (g := Qpower 2 (e / 2 - k)). pose proof (pow_pos (2 * k + e mod 2) ltac:(lia)) as Pk.
    assert (R : (q == inject_Z n * (g * g))%Q).
    { rewrite Q'. unfold g, n. rewrite <- Qpower_plus by (intros X; discriminate X).
      replace (e / 2 - k + (e / 2 - k)) with (e - (2 * k + e mod 2)) by lia. fold e.
      rewrite pw by lia. replace (e - (2 * k + e mod 2) + (2 * k + e mod 2)) with e by lia. ring. }
    assert (N : 0 < n) by (unfold n; nia). pose proof (Z.sqrt_spec n ltac:(lia)) as Sq. fold r in Sq. cbv zeta in Sq.
    assert (Big : 2 ^ k <= r).
    { unfold r. apply (Z.sqrt_le_square n (2 ^ k)); [lia | apply Z.lt_le_incl, pow_pos; lia |].
      unfold n. rewrite Z.pow_add_r by lia. replace (2 * k) with (k + k) by lia. rewrite Z.pow_add_r by lia.
      pose proof (pow_pos (e mod 2) ltac:(lia)). pose proof (pow_pos k ltac:(lia)).
      apply Z.le_trans with (1 * (2 ^ k * 2 ^ k * 1)); [lia|]. apply Z.mul_le_mono_nonneg; try lia; try nia. }
    pose proof (pow_pos k ltac:(lia)) as P2. assert (Hq : (0 <= q)%Q).
    { rewrite R. apply Qmult_le_0_compat; [change 0%Q with (inject_Z 0); rewrite <- Zle_Qle; lia|].
      pose proof (pow_Q_pos (e / 2 - k)). fold g in H. apply Qlt_le_weak, Qmult_lt_0_compat; auto. }
    change (root q) with (orient false (root q)). apply nearest_rounded.
    - now apply root_cut.
    - assert (X : root q 0%Q = root q (inject_Z 0 * g)%Q) by (apply (c_eq _ (root_cut q Hq)); ring).
      rewrite X, (root_scale q n g 0) by (auto; try lia; apply pow_Q_pos). cbn. apply Z.compare_gt_iff. lia.
    - lia.
    - intros j. fold g. rewrite (root_scale q n g j) by (auto; try lia; apply pow_Q_pos).
      destruct (Z.eqb_spec (r * r) n) as [E|E]; cbn [negb]; destruct (Z.ltb_spec j 0) as [L|L].
      + symmetry. apply Z.compare_gt_iff. lia.
      + destruct (Z.compare_spec r j) as [X|X|X]; [rewrite <- X; apply Z.compare_eq_iff; lia | apply Z.compare_lt_iff | apply Z.compare_gt_iff]; nia.
      + replace (j <=? r) with true by lia. reflexivity.
      + destruct (Z.leb_spec j r); [apply Z.compare_gt_iff | apply Z.compare_lt_iff]; nia.
    - intros _. pose proof (Z.log2_le_mono _ _ Big) as L. rewrite Z.log2_pow2 in L by lia. unfold k in L. lia.
  Qed.
  Lemma sqrt_ok a : in_u (fw F) a -> is_nan F a = false -> fsqrt F a (sqrt F a).
  Proof.
    intros Ha Na. unfold fsqrt, sqrt. rewrite sign_bit_fsign by auto.
    pose proof (fexpo_range F a HF) as Re. pose proof (fmant_range F a HF) as Rm. pose proof M_pos as Mp.
    destruct (decode_cases a Ha) as [[? _] | [[_ [Ia Da]] | [_ [Ia [q [Da Q]]]]]]; [congruence| |]; rewrite Da.
    - assert (Z.eqb (fexpo F a) 0 = false).
      { unfold is_inf in Ia. destruct HF as (_ & He & _). pose proof (Z.pow_le_mono_r 2 2 (fe F) ltac:(lia) He). lia. }
      rewrite H, Ia. destruct (fsign F a); auto using fnan_result.
    - rewrite (value_zero a q Ha Q), Ia. unfold fmag at 1. destruct (Z.eqb_spec (fexpo F a) 0) as [E|E].
      + destruct (Z.eqb_spec (fmant F a) 0) as [E1|E1]; [reflexivity|]. destruct (fsign F a) eqn:Sa; [apply fnan_result|].
        apply root_ok; auto; [|now rewrite Sa]. intros X. apply (fmag_zero F a HF) in X. tauto.
      + pose proof (pow_pos (fexpo F a - 1) ltac:(lia)). destruct (Z.eqb_spec ((M + fmant F a) * 2 ^ (fexpo F a - 1)) 0) as [E1|E1]; [nia|].
        destruct (fsign F a) eqn:Sa; [apply fnan_result|].
        apply root_ok; auto; [|now rewrite Sa]. intros X. apply (fmag_zero F a HF) in X. tauto.
  Qed.

  (** ** to an integer *)
  Lemma nearest_signed s m e more : 0 <= m -> exists u, 0 <= u <= finf F /\ nearest F s m e more = signed F s u.
  Proof.
    intros Hm. pose proof finf_range. unfold nearest. destruct (m =? 0); [exists 0; split; [lia | reflexivity]|].
    match goal with |- context [Z.min (finf F) ?k] => set (u := k) end.
    assert (0 <= u).
    { unfold u. pose proof M_pos. set (q := Z.max _ _). assert (- S <= q) by lia. pose proof S_pos.
      match goal with |- context [if ?c <? M then ?c else _] => set (k := c) end.
      assert (0 <= k).
      { unfold k. destruct (Z.leb_spec q e); [pose proof (pow_pos (e - q) ltac:(lia)); nia|].
        pose proof (pow_pos (q - e) ltac:(lia)). pose proof (Z.div_pos m (2 ^ (q - e)) Hm ltac:(lia)).
        destruct (_ || _); lia. }
      destruct (Z.ltb_spec k M); nia. }
    exists (Z.min (finf F) u). split; [lia | reflexivity].
  Qed.
  Lemma nearest_pattern s m e u : 0 < m -> 0 <= u <= finf F -> (sc (2 * mag u) == inject_Z m * Qpower 2 e)%Q ->
    nearest F s m e false = signed F s u.
  Proof.
    intros Hm U V. pose proof (nearest_q s m e _ Hm (Qeq_refl _)) as N. destruct (nearest_signed s m e false ltac:(lia)) as (u1 & U1 & E1).
    rewrite E1 in *. destruct N as (_ & v & R & N & _). pose proof finf_range as Fr.
    pose proof (reading_of s u1 ltac:(lia)) as R1. replace (u1 <=? finf F) with true in R1 by lia. destruct R1 as (v1 & R1 & V1).
    assert (v1 = v) by congruence. subst v1.
    pose proof (reading_of s u ltac:(lia)) as R2. replace (u <=? finf F) with true in R2 by lia. destruct R2 as (v2 & R2 & V2).
    specialize (N _ _ (signed_in s u ltac:(lia)) R2). destruct (Z.eq_dec (mag u1) (mag u)) as [X|X]; [now rewrite (mag_inj u1 u) by lia|].
    exfalso. assert (W : (sgnq s * (inject_Z m * Qpower 2 e) == v2)%Q) by (rewrite <- V, V2, sc_sg; reflexivity).
    assert (Dv : ~ (v == v2)%Q) by (rewrite V1, V2; intros K; apply sc_eq_inv in K; destruct s; cbn [sg] in K; lia).
    unfold nearer, rational in N. set (w := (sgnq s * _)%Q) in *. destruct (v ?= v2)%Q eqn:C.
    - apply Qeq_alt in C. tauto.
    - rewrite <- Qlt_alt in C. assert (G : (w ?= (v + v2) / 2)%Q = Gt) by (rewrite <- Qgt_alt; apply Qlt_shift_div_r; [reflexivity | lra]).
      rewrite G in N. destruct N as [N | [N _]]; discriminate.
    - rewrite <- Qgt_alt in C. assert (G : (w ?= (v + v2) / 2)%Q = Lt) by (rewrite <- Qlt_alt; apply Qlt_shift_div_l; [reflexivity | lra]).
      rewrite G in N. destruct N as [N | [N _]]; discriminate.
  Qed.
  Hypothesis Hbig : fm F + 1 < 2 ^ (fe F - 1).
  Lemma S_ge : fm F <= S /\ S + 1 < 2 ^ fe F - 2.
  Proof.
    destruct HF as (_ & He & _). pose proof (Z.pow_le_mono_r 2 1 (fe F - 1) ltac:(lia) ltac:(lia)).
    assert (P : 2 ^ fe F = 2 * 2 ^ (fe F - 1)) by (rewrite <- Z.pow_succ_r by lia; f_equal; lia). unfold fscale. lia.
  Qed.
  Lemma mag_finf : mag (finf F) = M * 2 ^ (2 ^ fe F - 2).
  Proof.
    pose proof M_pos. pose proof HF as (_ & He & _). pose proof (Z.pow_le_mono_r 2 2 (fe F) ltac:(lia) He).
    unfold mag, finf. rewrite Z.div_mul, Z.mod_mul by lia. replace (2 ^ fe F - 1 =? 0) with false by lia.
    rewrite Z.add_0_r. f_equal. f_equal. lia.
  Qed.
  (** [N * 2^j] that are values *)
  Lemma dyadic N j : 0 < N < 2 * M -> fm F <= j < 2 ^ fe F - 2 -> exists u, 0 <= u < finf F /\ mag u = N * 2 ^ j.
  Proof.
    intros HN [S1 S2]. pose proof M_pos as Mp. pose proof HF as (_ & _ & Hf).
    destruct (Z.log2_spec N ltac:(lia)) as [L1 L2]. pose proof (Z.log2_nonneg N).
    assert (L3 : Z.log2 N <= fm F).
    { assert (K : 2 ^ Z.log2 N < 2 ^ (fm F + 1)) by (rewrite Z.pow_add_r by lia; lia). apply Z.pow_lt_mono_r_iff in K; lia. }
    set (E := j + Z.log2 N - fm F). set (k := N * 2 ^ (fm F - Z.log2 N)).
    assert (K : M <= k <= 2 * M).
    { assert (P : 2 ^ (Z.log2 N + (fm F - Z.log2 N)) <= k < 2 ^ (Z.succ (Z.log2 N) + (fm F - Z.log2 N)))
        by (unfold k; rewrite !Z.pow_add_r by lia; pose proof (pow_pos (fm F - Z.log2 N) ltac:(lia)); nia).
      replace (Z.log2 N + (fm F - Z.log2 N)) with (fm F) in P by lia.
      replace (Z.succ (Z.log2 N) + (fm F - Z.log2 N)) with (Z.succ (fm F)) in P by lia. rewrite Z.pow_succ_r in P by lia. lia. }
    destruct (pat_facts k E ltac:(lia) ltac:(lia) ltac:(lia)) as (U & A & _). exists (pat k E).
    assert (B : mag (pat k E) = N * 2 ^ j).
    { rewrite A. unfold k, E. rewrite <- Z.mul_assoc, <- Z.pow_add_r by lia. f_equal. f_equal. lia. }
    split; auto. split; auto. destruct (Z_lt_dec (pat k E) (finf F)) as [|Ge]; auto. exfalso.
    pose proof (mag_le (finf F) (pat k E) ltac:(pose proof finf_range; lia) ltac:(lia)) as Le. rewrite B, mag_finf in Le.
    assert (2 ^ (j + 1) <= 2 ^ (2 ^ fe F - 2)) as P by (apply Z.pow_le_mono_r; lia). rewrite Z.pow_add_r in P by lia. nia.
  Qed.
  (** integers that are values *)
  Lemma small_integer N : 0 < N <= 2 * M -> exists u, 0 <= u < finf F /\ mag u = N * 2 ^ S.
  Proof.
    intros HN. pose proof M_pos. pose proof S_pos. destruct S_ge as [S1 S2]. destruct (Z.eq_dec N (2 * M)) as [->|].
    - destruct (dyadic M (S + 1) ltac:(lia)) as (u & U & E); [|exists u; split; [exact U | rewrite E, Z.pow_add_r by lia; ring]]. lia.
    - apply dyadic; lia.
  Qed.
  Lemma value_of s u : 0 <= u < finf F -> in_u (fw F) (signed F s u) /\ sign_bit F (signed F s u) = s /\
    exists v, ieee_decode F (signed F s u) = NFin v /\ (v == sc (2 * sg s (mag u)))%Q.
  Proof.
    intros U. pose proof finf_range. destruct (in_signed s u ltac:(lia)) as [I Sg]. split; [exact I|]. split; [exact Sg|].
    destruct (decode_cases _ I) as [[C _] | [[_ [C _]] | [_ [_ [v [Dv V]]]]]].
    - rewrite nan_iff in C by lia. lia.
    - rewrite inf_iff in C by lia. lia.
    - exists v. split; [exact Dv|]. rewrite V, fmag_mag by lia. destruct (fields s u ltac:(lia)) as (-> & _). reflexivity.
  Qed.
  (** rounding a value of the format changes nothing *)
  Lemma rounded_exact q r b w : rounded F (rational q) r -> in_u (fw F) b -> ieee_decode F b = NFin w -> (w == q)%Q ->
    exists v, ieee_decode F r = NFin v /\ (v == q)%Q.
  Proof.
    intros (I & v & R & N & _) Hb Db W. specialize (N b w Hb ltac:(unfold reading; now rewrite Db)).
    assert (E : (v == w)%Q).
    { unfold nearer, rational in N. destruct (v ?= w)%Q eqn:C.
      - now apply Qeq_alt.
      - rewrite <- Qlt_alt in C. assert (G : (q ?= (v + w) / 2)%Q = Gt) by (rewrite <- Qgt_alt; apply Qlt_shift_div_r; [reflexivity | lra]).
        rewrite G in N. destruct N as [N | [N _]]; discriminate.
      - rewrite <- Qgt_alt in C. assert (G : (q ?= (v + w) / 2)%Q = Lt) by (rewrite <- Qlt_alt; apply Qlt_shift_div_l; [reflexivity | lra]).
        rewrite G in N. destruct N as [N | [N _]]; discriminate. }
    unfold reading in R. destruct (ieee_decode F r) as [|s|v0] eqn:D; [discriminate| |injection R as ->; exists v; split; [reflexivity | now rewrite E]].
    exfalso. destruct (unsigned_of r I) as (u & U & Er). destruct (unsigned_of b Hb) as (u' & U' & Eb).
    destruct (decode_cases r I) as [[_ X] | [[_ [K X]] | [_ [_ [? [X _]]]]]]; try congruence.
    rewrite Er, inf_iff in K by auto. assert (u = finf F) by lia. subst u.
    destruct (decode_cases b Hb) as [[_ Y] | [[_ [_ Y]] | [Nb [Ib [w' [Y Vb]]]]]]; try congruence.
    rewrite Eb, nan_iff in Nb by auto. rewrite Eb, inf_iff in Ib by auto.
    assert (v = (sgnq s * Qpower 2 (2 ^ (fe F - 1)))%Q) by congruence. subst v. rewrite limit_mag in E.
    assert (w' = w) by congruence. subst w'. rewrite Vb, Eb, fmag_mag in E by auto. destruct (fields (fsign F b) u' U') as (Fs & _). rewrite Fs in E.
    rewrite <- sc_sg in E. apply sc_eq_inv in E. pose proof (mag_mono u' (finf F) ltac:(lia) ltac:(lia)).
    pose proof (mag_nonneg u' ltac:(lia)). destruct s, (fsign F b); cbn [sg] in E; lia.
  Qed.
  Lemma integer_exact z r : Z.abs z <= 2 * M -> convert F z r -> exists v, ieee_decode F r = NFin v /\ (v == inject_Z z)%Q.
  Proof.
    intros Hz C. pose proof S_pos.
    destruct (Z.eq_dec z 0) as [->|Nz].
    - assert (0 <= 0 < finf F) as U by (pose proof finf_range; lia). destruct (value_of false 0 U) as (I & _ & v & D & V).
      apply (rounded_exact _ r _ v C I D). rewrite V, mag_0. reflexivity.
    - destruct (small_integer (Z.abs z) ltac:(lia)) as (u & U & E). destruct (value_of (z <? 0) u U) as (I & _ & v & D & V).
      apply (rounded_exact _ r _ v C I D). rewrite V, E.
      replace (2 * sg (z <? 0) (Z.abs z * 2 ^ S)) with (z * 2 ^ (S + 1)) by (rewrite Z.pow_add_r by lia; destruct (Z.ltb_spec z 0); cbn [sg]; lia).
      rewrite sc_pw by lia. replace (S + 1 - (S + 1)) with 0 by lia. cbn [Qpower]. ring.
  Qed.
  Lemma integer_value a : in_u (fw F) a -> is_nan F a = false -> is_inf F a = false ->
    fmag F a / 2 ^ S < M \/ fmag F a mod 2 ^ S = 0.
  Proof.
    intros Ha _ _. pose proof (fexpo_range F a HF) as Re. pose proof (fmant_range F a HF) as Rm. pose proof M_pos as Mp.
    destruct S_ge as [S1 S2]. pose proof S_pos. pose proof (pow_pos S ltac:(lia)) as PS. unfold fmag.
    destruct (Z.eqb_spec (fexpo F a) 0).
    - left. apply Z.div_lt_upper_bound; [lia|]. nia.
    - destruct (Z_le_dec S (fexpo F a - 1)) as [L|L].
      + right. replace (fexpo F a - 1) with (fexpo F a - 1 - S + S) by lia. rewrite Z.pow_add_r, Z.mul_assoc by lia. apply Z.mod_mul. lia.
      + left. apply Z.div_lt_upper_bound; [lia|].
        assert (P : 2 ^ Z.succ (fexpo F a - 1) <= 2 ^ S) by (apply Z.pow_le_mono_r; lia). rewrite Z.pow_succ_r in P by lia.
        pose proof (pow_pos (fexpo F a - 1) ltac:(lia)). nia.
  Qed.
  (** the value of [nearest] of an integer next to a value *)
  Lemma nearest_int_value s a N : in_u (fw F) a -> is_nan F a = false -> is_inf F a = false ->
    (N = fmag F a / 2 ^ S \/ (N = fmag F a / 2 ^ S + 1 /\ fmag F a mod 2 ^ S <> 0)) ->
    exists v, in_u (fw F) (nearest F s N 0 false) /\ sign_bit F (nearest F s N 0 false) = s /\
      ieee_decode F (nearest F s N 0 false) = NFin v /\ (v == inject_Z (sg s N))%Q.
  Proof.
    intros Ha Na Ia HN. pose proof S_pos. pose proof (pow_pos S ltac:(lia)) as PS. pose proof finf_range as Fr.
    pose proof (Z.div_mod (fmag F a) (2 ^ S) ltac:(lia)) as D. pose proof (Z.mod_pos_bound (fmag F a) (2 ^ S) PS) as B.
    pose proof (fmag_nonneg F a HF) as G. pose proof (Z.div_pos (fmag F a) (2 ^ S) G PS) as Dn.
    assert (K : exists u, 0 <= u < finf F /\ mag u = N * 2 ^ S).
    { destruct (integer_value a Ha Na Ia) as [L|L].
      - destruct (Z.eq_dec N 0) as [->|]; [exists 0; rewrite mag_0; lia|]. apply small_integer. lia.
      - destruct (unsigned_of a Ha) as (u & U & E). exists u. rewrite E, nan_iff in Na by auto. rewrite E, inf_iff in Ia by auto.
        rewrite <- (fmag_mag (fsign F a) u U), <- E. split; [lia|]. rewrite D, L. nia. }
    destruct K as (u & U & E).
    assert (R : nearest F s N 0 false = signed F s u).
    { destruct (Z.eq_dec N 0) as [->|].
      - rewrite nearest_0. f_equal. apply mag_inj; try lia. now rewrite mag_0, E.
      - apply nearest_pattern; try lia. rewrite E. replace (2 * (N * 2 ^ S)) with (N * 2 ^ (S + 1)) by (rewrite Z.pow_add_r by lia; lia).
        rewrite sc_pw by lia. replace (S + 1 - (S + 1)) with 0 by lia. reflexivity. }
    rewrite R. destruct (in_signed s u ltac:(lia)) as [I Sg].
    destruct (decode_cases _ I) as [[C _] | [[_ [C _]] | [_ [_ [v [Dv V]]]]]].
    - rewrite nan_iff in C by lia. lia.
    - rewrite inf_iff in C by lia. lia.
    - exists v. split; [exact I|]. split; [exact Sg|]. split; [exact Dv|]. rewrite V, fmag_mag by lia. destruct (fields s u ltac:(lia)) as (-> & _). rewrite E.
      replace (2 * sg s (N * 2 ^ S)) with (sg s N * 2 ^ (S + 1)) by (rewrite Z.pow_add_r by lia; destruct s; cbn [sg]; lia).
      rewrite sc_pw by lia. replace (S + 1 - (S + 1)) with 0 by lia. cbn [Qpower]. ring.
  Qed.
  Lemma scaled a q : (q == sc (2 * sg (fsign F a) (fmag F a)))%Q ->
    (q == inject_Z (sg (fsign F a) (fmag F a)) / inject_Z (2 ^ S))%Q.
  Proof. intros ->. symmetry. apply sc_half. Qed.
  Lemma Qfloor_scaled z d q : 0 < d -> (q == inject_Z z / inject_Z d)%Q -> Qfloor q = z / d.
  Proof.
    intros Hd ->. destruct d as [|d|d]; try lia. rewrite <- (Qmake_Qdiv z d). reflexivity.
  Qed.
  Lemma round_ok o a : in_u (fw F) a -> is_nan F a = false -> unary F o a (round F o a).
  Proof.
    intros Ha Na. unfold unary, round. rewrite Na.
    assert (G : o <> Fsqrt -> fint F o a (if is_inf F a then a else
      let d := 2 ^ S in let n := fmag F a / d in let r := fmag F a mod d in let s := fsign F a in
      let up := match o with
                | Fceil => negb s && negb (r =? 0) | Ffloor => s && negb (r =? 0)
                | Fnearest => (d <? 2 * r) || ((2 * r =? d) && Z.odd n) | _ => false
                end in nearest F s (if up then n + 1 else n) 0 false)).
    { intros No. unfold fint. rewrite (sign_bit_fsign F a HF Ha).
      destruct (decode_cases a Ha) as [[? _] | [[_ [Ia Da]] | [_ [Ia [q [Da Q]]]]]]; [congruence| |]; rewrite Da, Ia; [reflexivity|].
      cbv zeta. set (d := 2 ^ S). set (n := fmag F a / d). set (r := fmag F a mod d). set (s := fsign F a).
      set (up := match o with Fceil => _ | Ffloor => _ | Ftrunc => _ | Fnearest => _ | Fsqrt => _ end). pose proof S_pos. assert (PS : 0 < d) by (apply pow_pos; lia). apply scaled in Q. fold s d in Q.
      pose proof (Z.div_mod (fmag F a) d ltac:(lia)) as D. pose proof (Z.mod_pos_bound (fmag F a) d PS) as B. fold n r in D, B.
      destruct (nearest_int_value s a (if up then n + 1 else n) Ha Na Ia) as (v & V1 & V2 & V3 & V4).
      { destruct up eqn:U; [right | now left]. split; [reflexivity|]. intros R0. change (r = 0) in R0. unfold up in U.
        assert (X : (d <? 2 * r) = false) by lia. assert (Y : (2 * r =? d) = false) by lia. rewrite X, Y, R0 in U.
        destruct o, s; discriminate. }
      split; [exact V1|]. split; [exact V2|]. exists v, (sg s (if up then n + 1 else n)). split; [exact V3|]. split; [|exact V4].
      clear V1 V2 V3 V4 v. set (f := fmag F a) in *.
      assert (Nq : 0 <= n) by (apply Z.div_pos; [apply (fmag_nonneg F a HF) | lia]). clearbody n r d s f.
      unfold integral, up in *. clear up. destruct o; try congruence.
      - (* ceil *)
        unfold Qceiling. rewrite (Qfloor_scaled (- sg s f) d) by (auto; rewrite Q, inject_Z_opp; unfold Qdiv; ring).
        destruct s; cbn [sg negb andb].
        + f_equal. apply Z.div_unique with r; lia.
        + destruct (Z.eqb_spec r 0) as [E|E]; cbn [negb].
          * assert (X : - f / d = - n) by (symmetry; apply Z.div_unique with 0; lia). lia.
          * assert (X : - f / d = - n - 1) by (symmetry; apply Z.div_unique with (d - r); lia). lia.
      - (* floor *)
        rewrite (Qfloor_scaled (sg s f) d) by auto. destruct s; cbn [sg negb andb].
        + destruct (Z.eqb_spec r 0) as [E|E]; cbn [negb].
          * apply Z.div_unique with 0; lia.
          * apply Z.div_unique with (d - r); lia.
        + apply Z.div_unique with r; lia.
      - (* trunc *)
        rewrite (q_trunc_scaled d (sg s f) q) by auto. destruct s; cbn [sg].
        + rewrite Z.quot_opp_l by lia. f_equal. apply Z.quot_unique with r; lia.
        + apply Z.quot_unique with r; lia.
      - (* nearest *)
        set (N := if _ : bool then n + 1 else n). unfold nearest_int.
        assert (E : (Qabs (q - inject_Z (sg s N)) == inject_Z (Z.abs (f - N * d)) / inject_Z d)%Q).
        { assert (Dq : (0 < inject_Z d)%Q) by (change 0%Q with (inject_Z 0); now rewrite <- Zlt_Qlt).
          assert (X : (q - inject_Z (sg s N) == inject_Z (sg s (f - N * d)) / inject_Z d)%Q).
          { rewrite Q. destruct s; cbn [sg]; unfold Z.sub; rewrite ?inject_Z_opp, ?inject_Z_plus, ?inject_Z_opp, ?inject_Z_mult; field; lra. }
          rewrite X. unfold Qdiv. rewrite Qabs_Qmult. rewrite (Qabs_pos (/ inject_Z d)) by (apply Qlt_le_weak, Qinv_lt_0_compat; auto).
          apply Qmult_comp; [|reflexivity]. assert (A : Z.abs (f - N * d) = Z.abs (sg s (f - N * d))) by (destruct s; cbn [sg]; lia).
          rewrite A. reflexivity. }
        assert (H2 : ((1 # 2) == inject_Z d / inject_Z (2 * d))%Q).
        { rewrite inject_Z_mult. change (inject_Z 2) with (2 # 1)%Q. assert (Dq : ~ (inject_Z d == 0)%Q) by (change 0%Q with (inject_Z 0); rewrite inject_Z_injective; lia). field. auto. }
        assert (E2 : (inject_Z (Z.abs (f - N * d)) / inject_Z d == inject_Z (2 * Z.abs (f - N * d)) / inject_Z (2 * d))%Q).
        { rewrite !inject_Z_mult. change (inject_Z 2) with (2 # 1)%Q. assert (Dq : ~ (inject_Z d == 0)%Q) by (change 0%Q with (inject_Z 0); rewrite inject_Z_injective; lia). field. auto. }
        cbv zeta. rewrite E, E2, H2, scale_lt, scale_eq by lia.
        assert (Ev : Z.even (sg s N) = Z.even N) by (destruct s; cbn [sg]; [apply Z.even_opp | reflexivity]). rewrite Ev. unfold N. clear N E E2 Ev.
        assert (Od : Z.even (n + 1) = Z.odd n) by (rewrite Z.add_1_r, Z.even_succ; reflexivity).
        assert (On : Z.even n = negb (Z.odd n)) by (now rewrite Z.negb_odd).
        destruct (Z.ltb_spec d (2 * r)) as [L|L]; cbn [orb]; [left; lia|].
        destruct (Z.eqb_spec (2 * r) d) as [T|T]; cbn [andb]; [right | left; lia].
        destruct (Z.odd n) eqn:O; [rewrite Od | rewrite On]; split; auto; lia. }
    destruct o; try (apply G; discriminate). now apply sqrt_ok.
  Qed.

  Lemma bin_ok o a b : in_u (fw F) a -> in_u (fw F) b -> arith F o a b (bin F o a b).
  Proof.
    intros Ha Hb. unfold bin. destruct (is_nan F a) eqn:Na.
    { pose proof (quiet_result a [a; b] Ha Na ltac:(now left)) as K. apply (is_nan_num F HF a Ha) in Na.
      destruct o; cbn [arith]; unfold fadd, fsub, fmul, fdiv; now rewrite Na. }
    destruct (is_nan F b) eqn:Nb.
    { pose proof (quiet_result b [a; b] Hb Nb ltac:(right; now left)) as K. apply (is_nan_num F HF b Hb) in Nb.
      destruct o; cbn [arith]; unfold fadd, fsub, fmul, fdiv; rewrite Nb; now destruct (ieee_decode F a). }
    destruct o; cbn [arith]; auto using add_ok, sub_ok, mul_ok, div_ok.
  Qed.
  Lemma unary_ok o a : in_u (fw F) a -> unary F o a (round F o a).
  Proof.
    intros Ha. destruct (is_nan F a) eqn:Na; [|now apply round_ok]. unfold round. rewrite Na.
    pose proof (quiet_result a [a] Ha Na ltac:(now left)) as K. apply (is_nan_num F HF a Ha) in Na.
    destruct o; cbn [unary]; unfold fint, fsqrt; now rewrite Na.
  Qed.
  Lemma zero_rounded : rounded F (rational 0) (signed F false 0).
  Proof.
    pose proof finf_range as Fr. destruct (in_signed false 0 ltac:(lia)) as [I Sg]. split; auto.
    pose proof (reading_of false 0 ltac:(lia)) as R. replace (0 <=? finf F) with true in R by lia. destruct R as (v & R & V).
    exists v. split; auto. rewrite mag_0 in V. assert (V0 : (v == 0)%Q) by (rewrite V; reflexivity). split.
    - intros r' v' _ _. unfold nearer, rational. destruct (v ?= v')%Q eqn:C; auto; left.
      + rewrite <- Qlt_alt in *. apply Qlt_shift_div_l; [reflexivity | lra].
      + rewrite <- Qgt_alt in *. apply Qlt_shift_div_r; [reflexivity | lra].
    - intros _. rewrite Sg. reflexivity.
  Qed.
  Lemma convert_ok z : convert F z (nearest F (z <? 0) (Z.abs z) 0 false).
  Proof.
    unfold convert. destruct (Z.eq_dec z 0) as [->|N]; [exact zero_rounded|].
    apply nearest_q; [lia|]. rewrite Qmult_assoc, sgq. replace (sg (z <? 0) (Z.abs z)) with z by (destruct (Z.ltb_spec z 0); cbn [sg]; lia).
    cbn [Qpower]. ring.
  Qed.
End Format.

Lemma f32_ok : fmt_ok F32 /\ fm F32 + 1 < 2 ^ (fe F32 - 1). Proof. split; [apply F32_ok | reflexivity]. Qed.
Lemma f64_ok : fmt_ok F64 /\ fm F64 + 1 < 2 ^ (fe F64 - 1). Proof. split; [apply F64_ok | reflexivity]. Qed.
Lemma formats_ok F : In F formats -> fmt_ok F /\ fm F + 1 < 2 ^ (fe F - 1).
Proof. intros [<- | [<- | []]]; [apply f32_ok | apply f64_ok]. Qed.

(** ** between formats *)
Lemma refloat_ok F G a (payload : Z -> Z) : fmt_ok F -> fmt_ok G -> in_u (fw F) a ->
  (forall t, 0 < t < 2 ^ fm F -> 0 <= payload t < 2 ^ fm G) -> payload (2 ^ (fm F - 1)) = 2 ^ (fm G - 1) ->
  refloat F G a (if is_nan F a then quiet G (signed G (fsign F a) (finf G + payload (fmant F a)))
                 else if is_inf F a then signed G (fsign F a) (finf G)
                 else nearest G (fsign F a) (mant F a) (expo F a) false).
Proof.
  intros HF HG Ha Pr Pc. unfold refloat. rewrite sign_bit_fsign by auto.
  destruct (decode_cases F HF a Ha) as [[Na Da] | [[Na [Ia Da]] | [Na [Ia [q [Da Q]]]]]]; rewrite Da, Na, ?Ia.
  - destruct (nan_shape F HF a Ha Na) as (t & T & E & Fm). rewrite Fm. specialize (Pr t T).
    rewrite quiet_shape by auto. destruct (quiet_payload G HG _ Pr) as [A B].
    destruct (nan_in G HG (fsign F a) _ A B) as [C D]. split; auto. split; auto. intros K.
    specialize (K a (or_introl eq_refl) Da). apply (canonical_shape F HF a Ha Na) in K. rewrite Fm in K.
    apply (canonical_shape G HG _ C); [apply (is_nan_num G HG _ C), D|].
    pose proof finf_range G HG as Fr. pose proof (top_pow G HG) as TP. pose proof (M_pos G HG).
    destruct (fields G HG (fsign F a) (finf G + (if 2 ^ (fm G - 1) <=? payload t then payload t else payload t + 2 ^ (fm G - 1)))) as (_ & _ & ->).
    { unfold finf in *. nia. }
    rewrite K, Pc, Z.leb_refl. unfold finf. rewrite Z.add_comm, Z.mod_add by lia. apply Z.mod_small.
    destruct (half_bit G HG). lia.
  - apply inf_result; auto.
  - pose proof (value_mant F HF a q Ha Q) as Q'. rewrite (value_zero F HF a q Ha Q). destruct (mant_expo F HF a Ha) as (A1 & A2 & _).
    destruct (Z.eqb_spec (fmag F a) 0) as [E|E].
    + apply A2 in E. rewrite E, nearest_0. now apply zero_result.
    + apply nearest_q; auto. lia.
Qed.

(** ** uniqueness of results *)
Section Unique.
  Variable F : fmt.
  Hypothesis HF : fmt_ok F.
  Lemma infinity_is s r : infinity F s r -> r = signed F s (finf F).
  Proof.
    intros [I D]. destruct (unsigned_of F HF r I) as (u & U & E).
    destruct (decode_cases F HF r I) as [[_ X] | [[_ [K X]] | [_ [_ [q [X _]]]]]]; try congruence.
    assert (fsign F r = s) by congruence. rewrite E, inf_iff in K by auto. rewrite E. f_equal; auto. lia.
  Qed.
  Lemma zero_is s r : zero F s r -> r = signed F s 0.
  Proof.
    intros [I [Z0 Sg]]. destruct (unsigned_of F HF r I) as (u & U & E). rewrite sign_bit_fsign in Sg by auto.
    rewrite E, zero_iff in Z0 by auto. subst u. now rewrite E, Sg.
  Qed.
  Definition nans (r r' : Z) : Prop := ieee_decode F r = NNan /\ ieee_decode F r' = NNan.
  Definition same (r r' : Z) : Prop := r = r' \/ nans r r'.
  Lemma rational_same q r r' : rounded F (rational q) r -> rounded F (rational q) r' -> same r r'.
  Proof. intros A B. left. eapply rounded_unique; eauto using rational_cut. Qed.
  Lemma nan_same G args r r' : propagated G F args r -> propagated G F args r' -> same r r'.
  Proof. intros (_ & [A _] & _) (_ & [B _] & _). now right. Qed.
  Lemma inf_same s r r' : infinity F s r -> infinity F s r' -> same r r'.
  Proof. intros A B. left. now rewrite (infinity_is s r A), (infinity_is s r' B). Qed.
  Lemma zero_same s r r' : zero F s r -> zero F s r' -> same r r'.
  Proof. intros A B. left. now rewrite (zero_is s r A), (zero_is s r' B). Qed.
  Lemma eq_same a r r' : r = a -> r' = a -> same r r'. Proof. left. congruence. Qed.
  Hint Resolve rational_same nan_same inf_same zero_same eq_same : same.
  Lemma arith_same o a b r r' : arith F o a b r -> arith F o a b r' -> same r r'.
  Proof.
    destruct o; cbn [arith]; unfold fadd, fsub, fmul, fdiv;
      destruct (ieee_decode F a), (ieee_decode F b);
      repeat match goal with |- context [if ?c then _ else _] => destruct c end; eauto with same.
  Qed.
  Lemma integral_unique o q n n' : integral o q n -> integral o q n' -> n = n'.
  Proof.
    destruct o; cbn [integral]; try congruence; try tauto. unfold nearest_int. cbv zeta. intros A B.
    assert (K : forall x, (Qabs (q - inject_Z x) < 1 # 2)%Q \/ (Qabs (q - inject_Z x) == 1 # 2)%Q -> (q - inject_Z x <= 1 # 2)%Q /\ (- (1 # 2) <= q - inject_Z x)%Q).
    { intros x Hx. destruct (proj1 (Qabs_Qle_condition (q - inject_Z x) (1 # 2))); [destruct Hx; lra | split; assumption]. }
    assert (A' := K n ltac:(tauto)). assert (B' := K n' ltac:(tauto)).
    assert (D : (inject_Z n - inject_Z n' <= 1)%Q /\ (inject_Z n' - inject_Z n <= 1)%Q) by (split; lra).
    assert (E : n - n' <= 1 /\ n' - n <= 1).
    { destruct D as [D1 D2]. change 1%Q with (inject_Z 1) in D1, D2. unfold Qminus in D1, D2. rewrite <- inject_Z_opp, <- inject_Z_plus, <- Zle_Qle in D1, D2. lia. }
    destruct (Z.eq_dec n n') as [|N]; auto. exfalso.
    assert (O : n' = n + 1 \/ n = n' + 1) by lia.
    assert (T : forall x, (Qabs (q - inject_Z x) < 1 # 2)%Q -> (q - inject_Z x < 1 # 2)%Q /\ (- (1 # 2) < q - inject_Z x)%Q).
    { intros x Hx. pose proof (Qle_Qabs (q - inject_Z x)). pose proof (Qle_Qabs (- (q - inject_Z x))). rewrite Qabs_opp in H0. split; lra. }
    assert (Tn := T n). assert (Tn' := T n').
    assert (Sx : forall z, (inject_Z (z + 1) == inject_Z z + 1)%Q) by (intros; now rewrite inject_Z_plus).
    assert (Ev : Z.even n = true /\ Z.even n' = true).
    { destruct O as [-> | ->]; rewrite Sx in *; (destruct A as [A | [A Ae]]; [exfalso; specialize (Tn A); lra |]);
        (destruct B as [B | [B Be]]; [exfalso; specialize (Tn' B); lra |]); auto. }
    destruct Ev as [E1 E2]. destruct O as [-> | ->]; [rewrite Z.add_1_r, Z.even_succ, <- Z.negb_even, E1 in E2 | rewrite Z.add_1_r, Z.even_succ, <- Z.negb_even, E2 in E1]; discriminate.
  Qed.
  Lemma value_same r r' v v' : in_u (fw F) r -> in_u (fw F) r' -> sign_bit F r = sign_bit F r' ->
    ieee_decode F r = NFin v -> ieee_decode F r' = NFin v' -> (v == v')%Q -> r = r'.
  Proof.
    intros I I' Sg D D' E. rewrite !sign_bit_fsign in Sg by auto.
    destruct (reading_inv F HF r v I) as (u & U & Er & V); [unfold reading; now rewrite D|].
    destruct (reading_inv F HF r' v' I') as (u' & U' & Er' & V'); [unfold reading; now rewrite D'|].
    rewrite V, V', Sg in E. apply sc_eq_inv in E; auto. rewrite Er, Er', Sg. f_equal.
    apply (mag_inj F HF); try lia. destruct (fsign F r'); cbn [sg] in E; lia.
  Qed.
  Lemma unary_same o a r r' : in_u (fw F) a -> unary F o a r -> unary F o a r' -> same r r'.
  Proof.
    intros Ha.
    destruct o; cbn [unary]; unfold fint, fsqrt;
      destruct (decode_cases F HF a Ha) as [[_ ->] | [[_ [_ ->]] | [_ [_ [q [-> Vq]]]]]];
      repeat match goal with |- context [if ?c then _ else _] => destruct c eqn:? end; eauto with same.
    1-4: intros (I & Sg & v & n & D & N & V) (I' & Sg' & v' & n' & D' & N' & V'); left;
         assert (n = n') by (eapply (integral_unique _ q); eassumption); subst n';
         apply (value_same r r' v v'); auto; [congruence | now rewrite V, V'].
    intros A B. left. apply (rounded_unique F HF (root q) r r'); auto. apply root_cut.
    rewrite (sign_bit_fsign F a HF Ha) in Heqb0. rewrite Vq, Heqb0. cbn [sg].
    pose proof (fmag_nonneg F a HF). destruct (Z.eq_dec (fmag F a) 0) as [->|N]; [change (2 * 0) with 0; rewrite (sc_0 F); apply Qle_refl|].
    apply Qlt_le_weak. rewrite <- (sc_0 F). apply sc_lt; auto. lia.
  Qed.
  Lemma convert_same z r r' : convert F z r -> convert F z r' -> r = r'.
  Proof. intros A B. eapply rounded_unique; eauto using rational_cut. Qed.
End Unique.
Lemma refloat_same F G a r r' : fmt_ok G -> refloat F G a r -> refloat F G a r' -> same G r r'.
Proof.
  intros HG. unfold refloat. destruct (ieee_decode F a); [| |destruct (Qeq_bool q 0)];
    eauto using rational_same, nan_same, inf_same, zero_same.
Qed.

(** ** the computed host is the standard's *)
Lemma arith_in F o a b r : fmt_ok F -> in_u (fw F) a -> in_u (fw F) b -> arith F o a b r -> in_u (fw F) r.
Proof.
  intros HF Ha Hb. destruct o; cbn [arith]; unfold fadd, fsub, fmul, fdiv;
    destruct (ieee_decode F a), (ieee_decode F b);
    repeat match goal with |- context [if ?c then _ else _] => destruct c end;
    try (intros ->; assumption); intros H; exact (proj1 H).
Qed.
Lemma unary_in F o a r : fmt_ok F -> in_u (fw F) a -> unary F o a r -> in_u (fw F) r.
Proof.
  intros HF Ha. destruct o; cbn [unary]; unfold fint, fsqrt; destruct (ieee_decode F a);
    repeat match goal with |- context [if ?c then _ else _] => destruct c end;
    try (intros ->; assumption); intros H; exact (proj1 H).
Qed.
Lemma refloat_in F G a r : refloat F G a r -> in_u (fw G) r.
Proof. unfold refloat. destruct (ieee_decode F a); [| |destruct (Qeq_bool q 0)]; intros H; exact (proj1 H). Qed.
Lemma in_small w r : in_u w r -> r mod 2 ^ w = r.
Proof. apply Z.mod_small. Qed.
Lemma ieee_standard : standard_fp ieee.
Proof.
  constructor; cbn [ieee h_bin h_round h_of_int h_demote h_promote].
  - intros F o a b HF Ha Hb. destruct (formats_ok F HF) as [K _]. pose proof (bin_ok F K o a b Ha Hb) as R.
    rewrite (in_small _ _ (arith_in F o a b _ K Ha Hb R)). exact R.
  - intros F o a HF Ha. destruct (formats_ok F HF) as [K B]. pose proof (unary_ok F K B o a Ha) as R.
    rewrite (in_small _ _ (unary_in F o a _ K Ha R)). exact R.
  - intros F z HF. destruct (formats_ok F HF) as [K _]. pose proof (convert_ok F K z) as R.
    rewrite (in_small _ _ (proj1 R)). exact R.
  - intros a Ha. assert (R : refloat F64 F32 a (demote a)).
    { apply (refloat_ok F64 F32 a (fun t => t / 2 ^ 29) F64_ok F32_ok Ha); [|reflexivity].
      intros t [T0 T1]. split; [apply Z.div_pos; lia|]. apply Z.div_lt_upper_bound; cbn in *; lia. }
    pose proof (in_small _ _ (refloat_in _ _ _ _ R)) as E. cbn [fw F32] in E. rewrite E. exact R.
  - intros a Ha. assert (R : refloat F32 F64 a (promote a)).
    { apply (refloat_ok F32 F64 a (fun t => t * 2 ^ 29) F32_ok F64_ok Ha); [|reflexivity].
      intros t [T0 T1]. cbn in *. lia. }
    pose proof (in_small _ _ (refloat_in _ _ _ _ R)) as E. cbn [fw F64] in E. rewrite E. exact R.
Qed.

(** ** exactness *)
Lemma rounded_self F b w q : in_u (fw F) b -> ieee_decode F b = NFin w -> (w == q)%Q -> ~ (q == 0)%Q -> rounded F (rational q) b.
Proof.
  intros Hb D W N. split; [exact Hb|]. exists w. split; [unfold reading; now rewrite D|]. split.
  - intros r' v' _ _. unfold nearer, rational. destruct (w ?= v')%Q eqn:C; [exact I| |].
    + left. rewrite <- Qlt_alt in *. apply Qlt_shift_div_l; [reflexivity | lra].
    + left. rewrite <- Qgt_alt in *. apply Qlt_shift_div_r; [reflexivity | lra].
  - rewrite D. cbn [is_zero_num]. intros Z0. exfalso. apply N. now rewrite <- W.
Qed.
Lemma qeq0 q : Qeq_bool q 0 = false <-> ~ (q == 0)%Q.
Proof. split; [apply Qeq_bool_neq | intros H; destruct (Qeq_bool q 0) eqn:E; auto; now apply Qeq_bool_eq in E]. Qed.
Lemma zero_value F r : is_zero_num (ieee_decode F r) -> exists v, ieee_decode F r = NFin v /\ (v == 0)%Q.
Proof. destruct (ieee_decode F r); cbn; try contradiction. eauto. Qed.
Lemma promote_value a q r : in_u 32 a -> ieee_decode F32 a = NFin q -> refloat F32 F64 a r ->
  in_u 64 r /\ sign_bit F64 r = sign_bit F32 a /\ exists v, ieee_decode F64 r = NFin v /\ (v == q)%Q.
Proof.
  intros Ha D R. split; [exact (refloat_in _ _ _ _ R)|]. unfold refloat in R. rewrite D in R.
  destruct (Qeq_bool q 0) eqn:Z0.
  - apply Qeq_bool_eq in Z0. destruct R as (_ & Zr & Sg). split; [exact Sg|]. apply zero_value in Zr as (v & Dv & V).
    exists v. split; [exact Dv | now rewrite V, Z0].
  - destruct (decode_cases F32 F32_ok a Ha) as [[_ X] | [[_ [_ X]] | [Na [Ia [q0 [X Q0]]]]]]; try congruence.
    assert (q0 = q) by congruence. subst q0.
    assert (K : exists N i, 0 <= N <= 2 ^ 24 /\ 0 <= i < 254 /\ fmag F32 a = N * 2 ^ i).
    { pose proof (fexpo_range F32 a F32_ok) as E. pose proof (fmant_range F32 a F32_ok) as Mt. unfold fmag. cbn [fe fm F32] in *.
      unfold is_nan, is_inf in Na, Ia. cbn [fe F32] in Na, Ia.
      destruct (Z.eqb_spec (fexpo F32 a) 0).
      - exists (fmant F32 a), 0. split; [lia|]. split; lia.
      - exists (2 ^ 23 + fmant F32 a), (fexpo F32 a - 1). split; [lia|]. split; [|reflexivity].
        change (2 ^ 8 - 1) with 255 in *. destruct (fexpo F32 a =? 255) eqn:E255; [|lia].
        cbn [andb] in Na, Ia. destruct (fmant F32 a =? 0); discriminate. }
    destruct K as (N & i & HN & Hi & Em).
    assert (N <> 0) by (intros ->; apply qeq0 in Z0; apply Z0; rewrite Q0, Em; destruct (fsign F32 a); reflexivity).
    destruct (dyadic F64 F64_ok (proj2 f64_ok) N (i + 925)) as (u & U & Mu); [cbn [fm F64]; lia | cbn [fm fe F64]; lia |].
    destruct (value_of F64 F64_ok (fsign F32 a) u U) as (I & Sg & v & Dv & V).
    assert (VQ : (v == q)%Q).
    { rewrite V, Q0, Mu, Em. assert (T : forall F j, 0 <= j -> fmt_ok F -> (sc F (2 * sg (fsign F32 a) (N * 2 ^ j)) == inject_Z (sg (fsign F32 a) N) * Qpower 2 (j - fscale F))%Q).
      { intros F j Hj HF. replace (2 * sg (fsign F32 a) (N * 2 ^ j)) with (sg (fsign F32 a) N * 2 ^ (j + 1)) by (rewrite Z.pow_add_r by lia; destruct (fsign F32 a); cbn [sg]; lia).
        rewrite sc_pw by (auto; lia). replace (j + 1 - (fscale F + 1)) with (j - fscale F) by lia. reflexivity. }
      rewrite !T by (try lia; try apply F32_ok; apply F64_ok). replace (i + 925 - fscale F64) with (i - fscale F32) by (change (fscale F64) with 1074; change (fscale F32) with 149; lia). reflexivity. }
    assert (E : r = Ieee.signed F64 (fsign F32 a) u).
    { apply (rounded_unique F64 F64_ok (rational q)); auto using rational_cut. eapply rounded_self; eauto. now apply qeq0. }
    rewrite E. split; [rewrite Sg; symmetry; exact (sign_bit_fsign F32 a F32_ok Ha)|]. eauto.
Qed.
Lemma demote_promote a r r' : in_u 32 a -> ieee_decode F32 a <> NNan -> refloat F32 F64 a r -> refloat F64 F32 r r' -> r' = a.
Proof.
  intros Ha Nn R R'. destruct (ieee_decode F32 a) as [|s|q] eqn:D; [congruence| |].
  - unfold refloat in R. rewrite D in R. destruct R as [_ R]. unfold refloat in R'. rewrite R in R'.
    rewrite (infinity_is F32 F32_ok s r' R'). symmetry. apply (infinity_is F32 F32_ok). now split.
  - destruct (promote_value a q r Ha D R) as (_ & Sg & v & Dv & V). unfold refloat in R'. rewrite Dv in R'.
    destruct (Qeq_bool v 0) eqn:Z0.
    + rewrite (zero_is F32 F32_ok _ r' R'). symmetry. apply (zero_is F32 F32_ok). split; [exact Ha|]. split; [|congruence].
      rewrite D. cbn. rewrite <- V. exact (Qeq_bool_eq _ _ Z0).
    + refine (rounded_unique F32 F32_ok (rational v) r' a (rational_cut v) R' _).
      refine (rounded_self F32 a q v Ha D _ (proj1 (qeq0 v) Z0)). symmetry. exact V.
Qed.
