(** Facts about the register file and the register allocator (proofs only; no modelled code). *)
From Coq Require Import ZArith List Bool Lia.
From Verif Require Import Word Value Mem MemProofs Store StoreProofs Regs IR Machine Wasm Decoder Check.
Import ListNotations.
Open Scope nat_scope.

(** ** six-component records *)
Lemma sget_sset_eq {A} (s : six A) c x : sget (sset s c x) c = x.
Proof. now destruct s, c. Qed.
Lemma sget_sset_ne {A} (s : six A) c c' x : c <> c' -> sget (sset s c x) c' = sget s c'.
Proof. intros. destruct s, c, c'; cbn; congruence. Qed.
Lemma sget_sset {A} (s : six A) c c' x : sget (sset s c x) c' = if cls_eqb c c' then x else sget s c'.
Proof. destruct s, c, c'; reflexivity. Qed.
Lemma sget_sbuild {A} (f : cls -> A) c : sget (sbuild f) c = f c.
Proof. now destruct c. Qed.
Lemma sbuild_sget {A} (s : six A) : sbuild (sget s) = s.
Proof. now destruct s. Qed.
Lemma sbuild_ext {A} (f g : cls -> A) : (forall c, f c = g c) -> sbuild f = sbuild g.
Proof. intros H. unfold sbuild. now rewrite !H. Qed.
Lemma six_ext {A} (s t : six A) : (forall c, sget s c = sget t c) -> s = t.
Proof. intros H. rewrite <- (sbuild_sget s), <- (sbuild_sget t). now apply sbuild_ext. Qed.
Lemma cls_eqb_ne a b : cls_eqb a b = false <-> a <> b.
Proof. rewrite <- not_true_iff_false, cls_eqb_eq. reflexivity. Qed.
Lemma cls_dec (a b : cls) : {a = b} + {a <> b}.
Proof. decide equality. Qed.

(** ** reading and writing *)
Lemma rf_set_inv rf c i v rf' : rf_set rf c i v = Ok rf' ->
  sget (rf_cur rf) c + i < length (sget (rf_vecs rf) c) /\
  rf' = RF (sset (rf_vecs rf) c (upd (sget (rf_vecs rf) c) (sget (rf_cur rf) c + i) v)) (rf_stack rf) (rf_cur rf).
Proof. unfold rf_set. destruct (Nat.ltb_spec (sget (rf_cur rf) c + i) (length (sget (rf_vecs rf) c))); intros E; inversion E; auto. Qed.
Lemma get_set_same rf c i v rf' : rf_set rf c i v = Ok rf' -> rf_get rf' c i = Ok v.
Proof.
  intros H. apply rf_set_inv in H as [L ->]. unfold rf_get. cbn [rf_vecs rf_cur]. rewrite sget_sset_eq, upd_nth_eq by auto. reflexivity.
Qed.
Lemma get_set_other rf c i v rf' c' j : rf_set rf c i v = Ok rf' -> (c, i) <> (c', j) -> rf_get rf' c' j = rf_get rf c' j.
Proof.
  intros H N. apply rf_set_inv in H as [L ->]. unfold rf_get. cbn [rf_vecs rf_cur].
  destruct (cls_dec c c') as [->|D].
  - rewrite sget_sset_eq, upd_nth_ne; auto. intros X. apply N. f_equal. lia.
  - now rewrite sget_sset_ne.
Qed.
Lemma rf_get_lt rf c i v : rf_get rf c i = Ok v -> sget (rf_cur rf) c + i < length (sget (rf_vecs rf) c).
Proof.
  unfold rf_get, of_opt. destruct (nth_error _ _) eqn:E; intros X; inversion X. apply nth_error_Some. congruence.
Qed.
Lemma upd_same {A} (l : list A) i x : nth_error l i = Some x -> upd l i x = l.
Proof. revert i. induction l; intros [|i] H; cbn in *; try congruence. now rewrite IHl. Qed.
Lemma set_get rf c i v : rf_get rf c i = Ok v -> rf_set rf c i v = Ok rf.
Proof.
  intros H. pose proof (rf_get_lt _ _ _ _ H) as L. unfold rf_set. apply Nat.ltb_lt in L. rewrite L.
  unfold rf_get, of_opt in H. destruct (nth_error _ _) eqn:E; inversion H; subst. rewrite (upd_same _ _ _ E).
  destruct rf as [vs st cu]; cbn. f_equal. f_equal. now destruct vs, c.
Qed.

(** ** a frame's window on top of a fixed base *)
Definition rfok (b : cls -> list val) (st : list (six nat)) (W : cls -> nat) (rf : regfile) : Prop :=
  rf_stack rf = rf_cur rf :: st /\
  forall c, sget (rf_cur rf) c = length (b c) /\
            exists w, sget (rf_vecs rf) c = b c ++ w /\ length w = W c.

Lemma rfok_set b st W rf c i v : rfok b st W rf -> i < W c -> exists rf', rf_set rf c i v = Ok rf' /\ rfok b st W rf'.
Proof.
  intros [S H] L. destruct (H c) as (Hc & w & Hv & Hw).
  unfold rf_set. rewrite Hv, Hc, app_length.
  assert (X : (length (b c) + i <? length (b c) + length w) = true) by (apply Nat.ltb_lt; lia).
  rewrite X. eexists. split; [reflexivity|]. split; [exact S|]. intros c'. cbn [rf_cur rf_vecs].
  destruct (H c') as (Hc' & w' & Hv' & Hw'). split; auto.
  destruct (cls_dec c c') as [->|D].
  - rewrite sget_sset_eq. exists (upd w i v). split; [|now rewrite upd_length].
    clear. induction (b c'); cbn; congruence.
  - rewrite sget_sset_ne by auto. eauto.
Qed.
Lemma rfok_get b st W rf c i : rfok b st W rf -> i < W c -> exists v, rf_get rf c i = Ok v.
Proof.
  intros [S H] L. destruct (H c) as (Hc & w & Hv & Hw). unfold rf_get. rewrite Hv, Hc.
  rewrite nth_error_app2 by lia. replace (length (b c) + i - length (b c)) with i by lia.
  destruct (nth_error w i) eqn:E; cbn; eauto. apply nth_error_None in E. lia.
Qed.
(** entering a callee and coming back *)
Lemma rfok_save rf al : rfok (sget (rf_vecs rf)) (rf_stack rf) (sget al) (rf_save rf al).
Proof.
  split; [reflexivity|]. intros c. cbn [rf_cur rf_vecs rf_save]. rewrite !sget_sbuild. split; auto.
  eexists. split; [reflexivity|]. apply repeat_length.
Qed.
Lemma rfok_restore b st W rf rf0 W' : rfok (sget (rf_vecs rf)) (rf_stack rf) W rf0 ->
  rfok b st W' rf -> rf_restore rf0 = rf.
Proof.
  intros [S H] [S' _]. unfold rf_restore. rewrite S. cbn [tl].
  destruct rf as [v s c]; cbn [rf_vecs rf_stack rf_cur] in *. subst s. f_equal.
  rewrite <- (sbuild_sget v) at 1. apply sbuild_ext. intros k. destruct (H k) as (Hc & w & Hv & _).
  rewrite Hc, Hv. rewrite firstn_app, Nat.sub_diag, firstn_O, app_nil_r. apply firstn_all.
Qed.

(** ** counting *)
Definition cnt (c : cls) (ts : list cls) : nat := length (filter (cls_eqb c) ts).
Arguments cnt : simpl never.
Lemma cnt_app c a b : cnt c (a ++ b) = cnt c a + cnt c b.
Proof. unfold cnt. now rewrite filter_app, app_length. Qed.
Lemma cnt_cons c a b : cnt c (a :: b) = (if cls_eqb c a then 1 else 0) + cnt c b.
Proof. unfold cnt. cbn. now destruct (cls_eqb c a). Qed.
Lemma cnt_nil c : cnt c [] = 0.
Proof. reflexivity. Qed.
Lemma cnt_rev c a : cnt c (rev a) = cnt c a.
Proof. induction a as [|x a IH]; cbn [rev]; auto. rewrite cnt_app, !cnt_cons, cnt_nil, IH. lia. Qed.
Lemma cls_eqb_sym a b : cls_eqb a b = cls_eqb b a.
Proof. now destruct a, b. Qed.
Lemma count_cls_cnt c ts : count_cls c ts = cnt c (map class_of ts).
Proof. unfold count_cls, cnt. induction ts; cbn; auto. rewrite (cls_eqb_sym c). destruct (cls_eqb _ c); cbn; auto. Qed.
Lemma count_cls_tops c ts : count_cls c ts = cnt c (tops ts).
Proof. unfold tops. now rewrite cnt_rev, count_cls_cnt. Qed.

Lemma u16_small n : (Z.of_nat n < 65536)%Z -> u16 n = n.
Proof. intros. unfold u16. rewrite Z.mod_small by lia. apply Nat2Z.id. Qed.

(** registers of the stack slots [want] (top first) lying on [rest] *)
Fixpoint slots (nl : cls -> nat) (want rest : list cls) : list reg :=
  match want with
  | [] => []
  | c :: want => R c (nl c + cnt c (want ++ rest)) :: slots nl want rest
  end.
Lemma slots_app nl a b rest : slots nl (a ++ b) rest = slots nl a (b ++ rest) ++ slots nl b rest.
Proof. induction a; cbn; auto. now rewrite IHa, app_assoc. Qed.
Lemma slots_length nl a rest : length (slots nl a rest) = length a.
Proof. induction a; cbn; auto. Qed.

(** ** allocator invariant: the counters count declared locals and stack slots *)
Definition ainv (nl : cls -> nat) (a : alloc) (ts : list cls) : Prop :=
  map class_of (al_ts a) = ts /\
  (forall c, sget (al_d a) c = nl c + cnt c ts) /\
  (forall c, sget (al_d a) c <= sget (al_max a) c).
Definition mle (a b : alloc) : Prop := forall c, sget (al_max a) c <= sget (al_max b) c.
Definition fits (W : cls -> nat) (a : alloc) : Prop := forall c, sget (al_max a) c <= W c.
Definition W16 (W : cls -> nat) : Prop := forall c, (Z.of_nat (W c) <= 65536)%Z.
Lemma mle_refl a : mle a a. Proof. intros c; lia. Qed.
Lemma mle_trans a b c : mle a b -> mle b c -> mle a c.
Proof. intros H K x. specialize (H x). specialize (K x). lia. Qed.
Lemma fits_mle W a b : mle a b -> fits W b -> fits W a.
Proof. intros H K x. specialize (H x). specialize (K x). lia. Qed.

Lemma al_push_mle a t : mle a (fst (al_push a t)).
Proof. intros c. cbn. rewrite sget_sset. destruct (cls_eqb _ _) eqn:E; [apply cls_eqb_eq in E; subst; lia|lia]. Qed.
Lemma al_pop_max a t : al_max (fst (al_pop a t)) = al_max a.
Proof. reflexivity. Qed.

Lemma al_push_ok nl a ts t : ainv nl a ts ->
  ainv nl (fst (al_push a t)) (class_of t :: ts) /\ mle a (fst (al_push a t)) /\
  (forall W, W16 W -> fits W (fst (al_push a t)) ->
     snd (al_push a t) = R (class_of t) (nl (class_of t) + cnt (class_of t) ts) /\
     nl (class_of t) + cnt (class_of t) ts < W (class_of t)).
Proof.
  intros (H1 & H2 & H3). split; [|split; [apply al_push_mle|]].
  - repeat split; cbn.
    + now rewrite H1.
    + intros c. unfold incr. rewrite sget_sset, cnt_cons, H2, (cls_eqb_sym c).
      destruct (cls_eqb (class_of t) c) eqn:E; [apply cls_eqb_eq in E; subst; lia|apply H2].
    + intros c. unfold incr. rewrite !sget_sset. destruct (cls_eqb _ c) eqn:E; [|apply H3].
      rewrite cls_eqb_refl. lia.
  - intros W K F. specialize (F (class_of t)). cbn in *. rewrite sget_sset_eq in F. unfold incr in F.
    rewrite sget_sset_eq in F. specialize (K (class_of t)). rewrite H2 in *. split; [|lia].
    f_equal. apply u16_small. lia.
Qed.
Lemma al_pop_ok nl a ts t : ainv nl a (class_of t :: ts) ->
  ainv nl (fst (al_pop a t)) ts /\
  (forall W, W16 W -> fits W a ->
     snd (al_pop a t) = R (class_of t) (nl (class_of t) + cnt (class_of t) ts)) /\
  al_peek a t = Some (snd (al_pop a t)).
Proof.
  intros (H1 & H2 & H3). unfold al_pop, al_peek. cbn [fst snd].
  assert (E : sget (al_d a) (class_of t) = S (nl (class_of t) + cnt (class_of t) ts)).
  { rewrite H2, cnt_cons, cls_eqb_refl. lia. }
  rewrite E. cbn [Nat.sub]. rewrite Nat.sub_0_r. split; [|split; auto].
  - repeat split; cbn.
    + destruct (al_ts a); cbn in *; congruence.
    + intros c. rewrite sget_sset. destruct (cls_eqb _ c) eqn:D; [apply cls_eqb_eq in D; subst; auto|].
      rewrite H2, cnt_cons, (cls_eqb_sym c), D. auto.
    + intros c. rewrite sget_sset. destruct (cls_eqb _ c) eqn:D; [|auto].
      apply cls_eqb_eq in D; subst. specialize (H3 (class_of t)). lia.
  - intros W K F. f_equal. apply u16_small. specialize (H3 (class_of t)). specialize (F (class_of t)).
    specialize (K (class_of t)). lia.
Qed.
Lemma al_pop_any_ok nl a c ts : ainv nl a (c :: ts) -> ainv nl (al_pop_any a) ts /\ al_max (al_pop_any a) = al_max a.
Proof.
  intros H. unfold al_pop_any. pose proof (proj1 H) as H1. destruct (al_ts a) as [|v l] eqn:E; [discriminate|].
  cbn in H1. injection H1 as <- H1. split; [|reflexivity]. exact (proj1 (al_pop_ok nl a ts v H)).
Qed.

Lemma pop_regs_ok nl ts : forall a rest, ainv nl a (map class_of ts ++ rest) ->
  ainv nl (fst (pop_regs a ts)) rest /\ al_max (fst (pop_regs a ts)) = al_max a /\
  (forall W, W16 W -> fits W a -> snd (pop_regs a ts) = map r_idx (slots nl (map class_of ts) rest)).
Proof.
  induction ts as [|t ts IH]; intros a rest H; cbn [pop_regs fst snd map app slots] in *.
  - split; [auto|]. split; [reflexivity|]. reflexivity.
  - destruct (al_pop a t) as [a1 r] eqn:E. destruct (al_pop_ok _ _ _ _ H) as (P1 & P2 & _).
    rewrite E in P1, P2. cbn [fst snd] in P1, P2.
    destruct (IH a1 rest P1) as (Q1 & Q2 & Q3). destruct (pop_regs a1 ts) as [a2 ns] eqn:E2. cbn [fst snd] in *.
    assert (M : al_max a1 = al_max a) by (change a1 with (fst (a1, r)); rewrite <- E; reflexivity).
    split; [auto|]. split; [congruence|]. intros W K F. rewrite (P2 W K F). cbn [r_idx]. f_equal.
    apply (Q3 W K). intros c. rewrite M. apply F.
Qed.
Lemma al_pops_ok nl ts : forall a rest, ainv nl a (map class_of ts ++ rest) ->
  ainv nl (al_pops a ts) rest /\ al_max (al_pops a ts) = al_max a.
Proof.
  induction ts as [|t ts IH]; intros a rest H; cbn [al_pops map app] in *; [auto|].
  destruct (al_pop_ok _ _ _ _ H) as (P1 & _ & _). destruct (IH _ _ P1) as [Q1 Q2]. split; auto.
Qed.
Lemma tops_cons t ts : tops (t :: ts) = tops ts ++ [class_of t].
Proof. reflexivity. Qed.
Lemma tops_rev ts : map class_of (rev ts) = tops ts.
Proof. unfold tops. apply map_rev. Qed.
Lemma tops_length ts : length (tops ts) = length ts.
Proof. unfold tops. rewrite rev_length. apply map_length. Qed.
Lemma al_pushes_mle ts : forall a, mle a (fst (al_pushes a ts)).
Proof.
  induction ts as [|t ts IH]; intros a; cbn [al_pushes]; [apply mle_refl|].
  destruct (al_push a t) as [a1 r] eqn:E. specialize (IH a1). destruct (al_pushes a1 ts) as [a2 rs]. cbn [fst] in *.
  eapply mle_trans; [|exact IH]. change a1 with (fst (a1, r)). rewrite <- E. apply al_push_mle.
Qed.
Lemma al_pushes_ok nl ts : forall a rest, ainv nl a rest ->
  ainv nl (fst (al_pushes a ts)) (tops ts ++ rest) /\
  (forall W, W16 W -> fits W (fst (al_pushes a ts)) ->
     snd (al_pushes a ts) = rev (slots nl (tops ts) rest) /\
     Forall (fun r => r_idx r < W (r_cls r)) (snd (al_pushes a ts))).
Proof.
  induction ts as [|t ts IH]; intros a rest H; cbn [al_pushes].
  - split; [auto|]. intros. split; constructor.
  - destruct (al_push_ok _ _ _ t H) as (P1 & P2 & P3). destruct (al_push a t) as [a1 r]. cbn [fst snd] in *.
    destruct (IH a1 _ P1) as (Q1 & Q2). pose proof (al_pushes_mle ts a1) as M.
    destruct (al_pushes a1 ts) as [a2 rs]. cbn [fst snd] in *. rewrite tops_cons, <- app_assoc. cbn [app]. split; [auto|].
    intros W K F. destruct (P3 W K (fits_mle _ _ _ M F)) as [-> L]. destruct (Q2 W K F) as [-> A].
    rewrite slots_app, rev_app_distr. cbn [slots rev app]. split; [reflexivity|].
    constructor; [exact L|exact A].
Qed.
Lemma number_regs_ok nl ts : forall s rest W, W16 W -> (forall c, sget s c = nl c + cnt c rest) ->
  (forall c, nl c + cnt c (tops ts ++ rest) <= W c) -> number_regs s ts = rev (slots nl (tops ts) rest).
Proof.
  induction ts as [|t ts IH]; intros s rest W K H L; cbn [number_regs]; [reflexivity|].
  rewrite tops_cons, slots_app, rev_app_distr. cbn [slots rev app]. f_equal.
  - rewrite H. f_equal. apply u16_small. specialize (L (class_of t)). specialize (K (class_of t)).
    rewrite tops_cons, <- app_assoc, cnt_app in L. cbn [app] in L. rewrite cnt_cons, cls_eqb_refl in L. lia.
  - apply (IH _ (class_of t :: rest) W K).
    + intros c. unfold incr. rewrite sget_sset, cnt_cons, !H, (cls_eqb_sym c).
      destruct (cls_eqb (class_of t) c) eqn:E; [apply cls_eqb_eq in E; subst; lia|lia].
    + intros c. specialize (L c). rewrite tops_cons, <- app_assoc in L. exact L.
Qed.
Lemma ainv_fits nl a ts W c : ainv nl a ts -> fits W a -> nl c + cnt c ts <= W c.
Proof. intros (_ & H2 & H3) F. rewrite <- H2. specialize (H3 c). specialize (F c). lia. Qed.
Lemma peek_regs_ok nl a ts rest W : W16 W -> fits W a -> ainv nl a (tops ts ++ rest) ->
  al_peek_regs a ts = rev (slots nl (tops ts) rest).
Proof.
  intros K F H. unfold al_peek_regs. eapply number_regs_ok; [exact K| |].
  - intros c. rewrite sget_sbuild, count_cls_tops. destruct H as (_ & H2 & _). rewrite H2, cnt_app. lia.
  - intros c. eapply ainv_fits; eauto.
Qed.
Lemma call_params_ok nl ts : forall a rest acc, ainv nl a (map class_of ts ++ rest) ->
  ainv nl (fst (call_params a ts acc)) rest /\ al_max (fst (call_params a ts acc)) = al_max a /\
  (forall W, W16 W -> fits W a -> snd (call_params a ts acc) = rev (slots nl (map class_of ts) rest) ++ acc).
Proof.
  induction ts as [|t ts IH]; intros a rest acc H; cbn [call_params map app slots] in *.
  - split; [auto|]. split; reflexivity.
  - destruct (al_pop_ok _ _ _ _ H) as (P1 & P2 & P3). rewrite P3.
    destruct (IH _ rest (snd (al_pop a t) :: acc) P1) as (Q1 & Q2 & Q3).
    split; [auto|]. split; [rewrite Q2; reflexivity|]. intros W K F. rewrite (Q3 W K F), (P2 W K F).
    cbn [rev]. now rewrite <- app_assoc.
Qed.
Lemma al_restore_ok nl a s ts j : map class_of (al_ts a) = j ++ ts -> as_len s = length ts ->
  (forall c, sget (as_d s) c = nl c + cnt c ts) -> (forall c, sget (as_d s) c <= sget (al_max a) c) ->
  ainv nl (al_restore a s) ts.
Proof.
  intros H L D F. split; [|split; auto]. cbn [al_ts al_restore]. rewrite <- skipn_map, H, L.
  rewrite <- (map_length class_of), H, app_length.
  replace (length j + length ts - length ts) with (length j) by lia.
  rewrite skipn_app, Nat.sub_diag, skipn_all. reflexivity.
Qed.
Lemma al_new_ok E : ainv (fun c => count_cls c (e_locals E)) (al_new (e_locals E)) [].
Proof.
  assert (G : forall ts s c, sget (reserve_all s ts) c = sget s c + count_cls c ts).
  { induction ts as [|t ts IH]; intros s c; cbn [reserve_all]; [cbn; lia|].
    rewrite IH. unfold incr, count_cls. cbn [filter]. rewrite sget_sset.
    destruct (cls_eqb (class_of t) c) eqn:D; cbn [length]; [apply cls_eqb_eq in D; subst; lia|lia]. }
  split; [reflexivity|]. split; intros c; cbn [al_d al_max al_new].
  - rewrite G, sget_sbuild, cnt_nil. lia.
  - lia.
Qed.
