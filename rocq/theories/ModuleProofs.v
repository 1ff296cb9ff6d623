(** Instantiation: model meets specification. *)
From Coq Require Import ZArith List Bool Lia ZifyBool ZifyNat.
From Verif Require Import Word Value Mem WasmMem MemProofs Store IR Machine Decoder Module ModuleSpec.
Import ListNotations.
Open Scope Z_scope.

Lemma const_ok gs e v : simple_global e -> evaluates gs e v -> const gs e = IDone (Some v).
Proof. intros S E. destruct E as [v| |f|i v N]; cbn [const]; auto; [destruct S|now rewrite N]. Qed.
Lemma offset_ok gs e z : evaluates gs e (VI32 z) -> offset gs e = IDone (z mod 2 ^ 32).
Proof. intros E. unfold offset. rewrite (const_ok gs e (VI32 z)); [reflexivity| |auto]. inversion E; exact Logic.I. Qed.
Lemma globals_app es1 : forall gs es2, globals gs (es1 ++ es2) = (let! gs := globals gs es1 in globals gs es2).
Proof.
  induction es1 as [|e es1 IH]; intros gs es2; cbn [app globals]; [reflexivity|].
  destruct (const gs e) as [[v|]| | | | |]; cbn [ibind]; auto.
Qed.
Lemma globals_ok es gs : globals_of es gs -> Forall simple_global es -> globals [] es = IDone gs.
Proof.
  induction 1 as [|es gs e v G IH E]; intros F; [reflexivity|]. apply Forall_app in F as [F1 F2]. inversion F2; subst.
  rewrite globals_app, (IH F1). cbn [ibind globals]. now rewrite (const_ok gs e v) by auto.
Qed.
Lemma globals_of_length es gs : globals_of es gs -> length gs = length es.
Proof. induction 1; [reflexivity|]. rewrite !app_length. cbn. lia. Qed.

Lemma nth_upd {A} (l : list A) i x k d : nth k (upd l i x) d = if Nat.eqb k i && Nat.ltb i (length l) then x else nth k l d.
Proof.
  revert i k. induction l as [|y l IH]; intros [|i] [|k]; cbn [upd nth length]; auto.
  - now destruct (Nat.eqb _ _).
  - rewrite IH. reflexivity.
Qed.
(** ** tables *)
Lemma table_init_ok nf fs : Forall (fun f => (f < nf)%nat) fs -> forall tb i off, 0 <= i -> 0 <= off -> len tb < 2 ^ 32 ->
  (fs = [] \/ i + off + len fs <= len tb) ->
  exists tb', table_init nf tb i off fs = IDone tb' /\ length tb' = length tb /\
    forall k, 0 <= k -> nth (Z.to_nat k) tb' RNull = if (i + off <=? k) && (k <? i + off + len fs) then nth (Z.to_nat (k - (i + off))) (map RFunc fs) RNull else nth (Z.to_nat k) tb RNull.
Proof.
  unfold len. induction 1 as [|f fs F FS IH]; intros tb i off I O L B.
  - exists tb. repeat split; auto. intros k K. cbn [length]. now replace ((i + off <=? k) && (k <? i + off + Z.of_nat 0)) with false by lia.
  - destruct B as [B|B]; [discriminate|]. cbn [length] in B. cbn [table_init]. unfold usize. rewrite Z.mod_small by lia.
    replace (Nat.ltb f nf) with true by (symmetry; now apply Nat.ltb_lt). replace (i + off <? Z.of_nat (length tb)) with true by lia. cbn [andb].
    destruct (IH (upd tb (Z.to_nat (i + off)) (RFunc f)) (i + 1) off) as (tb' & E & LE & N); rewrite ?upd_length; try lia.
    exists tb'. rewrite E. repeat split; [now rewrite LE, upd_length|]. intros k K. rewrite N by lia. rewrite nth_upd. cbn [length map].
    destruct (Z.eq_dec k (i + off)) as [->|NE].
    + replace ((i + 1 + off <=? i + off) && _) with false by lia. replace ((i + off <=? i + off) && (i + off <? i + off + Z.of_nat (S (length fs)))) with true by lia.
      replace (Nat.eqb (Z.to_nat (i + off)) (Z.to_nat (i + off)) && Nat.ltb (Z.to_nat (i + off)) (length tb)) with true by lia. now rewrite Z.sub_diag.
    + replace (Nat.eqb (Z.to_nat k) (Z.to_nat (i + off)) && Nat.ltb (Z.to_nat (i + off)) (length tb)) with false by lia.
      replace ((i + off <=? k) && (k <? i + off + Z.of_nat (S (length fs)))) with ((i + 1 + off <=? k) && (k <? i + 1 + off + Z.of_nat (length fs))) by lia.
      destruct (_ && _) eqn:EE; [|reflexivity]. replace (Z.to_nat (k - (i + off))) with (S (Z.to_nat (k - (i + 1 + off)))) by lia. reflexivity.
Qed.
Lemma table_init_bad nf fs : forall tb i off tb', 0 <= i -> 0 <= off < 2 ^ 32 -> len tb < 2 ^ 32 -> i + len fs < 2 ^ 32 -> i <= len tb ->
  table_init nf tb i off fs = IDone tb' -> fs = [] \/ (i + off < 2 ^ 32 -> i + off + len fs <= len tb).
Proof.
  unfold len. induction fs as [|f fs IH]; intros tb i off tb' I O L LF IL E; [now left|right]. intros W. cbn [length] in *. cbn [table_init] in E.
  unfold usize in E. rewrite Z.mod_small in E by lia.
  destruct (Nat.ltb f nf); [|discriminate]. destruct (Z.ltb_spec (i + off) (Z.of_nat (length tb))) as [LT|GE]; [|discriminate]. cbn [andb] in E.
  apply IH in E; rewrite ?upd_length in *; try lia. destruct E as [->|E]; cbn [length]; lia.
Qed.

Lemma evaluates_fun gs e v w : evaluates gs e v -> evaluates gs e w -> v = w.
Proof. intros E F. destruct E; inversion F; subst; auto; congruence. Qed.
Definition places_ok {A} gs (l : list (mode * list A)) := forall i x y, In (MActive i x, y) l -> exists z, evaluates gs x (VI32 z).
Lemma active_total {A} gs idx (l : list (mode * list A)) : places_ok gs l -> exists ps, active gs idx l ps.
Proof.
  induction l as [|[m y] l IH]; intros P; [eexists; constructor|].
  destruct IH as (ps & IH). { intros i x y' H. apply (P i x y'). now right. }
  destruct m as [| |i x]; [eexists; constructor; eauto|eexists; constructor; eauto|].
  destruct (P i x y (or_introl eq_refl)) as (z & Z). destruct (Nat.eq_dec i idx) as [->|N]; eexists; [eapply ac_put|eapply ac_other]; eauto.
Qed.
Lemma active_fun {A} gs idx (l : list (mode * list A)) ps : active gs idx l ps -> forall ps', active gs idx l ps' -> ps = ps'.
Proof.
  induction 1; intros ps' F; inversion F; subst; auto; try (exfalso; congruence).
  match goal with A : evaluates _ _ (VI32 ?a), B : evaluates _ _ (VI32 ?b) |- _ => pose proof (evaluates_fun _ _ _ _ A B) as Q end.
  injection Q as ->. f_equal; auto.
Qed.
Lemma active_range {A} gs idx (l : list (mode * list A)) ps : active gs idx l ps -> Forall (fun p => 0 <= fst p < 2 ^ 32) ps.
Proof. induction 1; auto. constructor; auto. apply Z.mod_pos_bound. lia. Qed.

(** The segments of the element section, as places. *)
Definition esegs (es : list elem) : list (mode * list ref) :=
  map (fun e => (e_mode e, map RFunc (match e_idxes e with Some l => l | None => [] end))) es.
Definition content_ok (d : ref) (tb tb' : table) (ps : list (Z * list ref)) : Prop :=
  length tb' = length tb /\ forall k, 0 <= k -> nth (Z.to_nat k) tb' d = content (nth (Z.to_nat k) tb d) ps k.
Lemma len_map {A B} (f : A -> B) l : len (map f l) = len l.
Proof. unfold len. now rewrite map_length. Qed.

Lemma elems_ok nf gs es : forall ts,
  Forall simple_elem es -> (forall e l, In e es -> e_idxes e = Some l -> Forall (fun f => (f < nf)%nat) l) ->
  (forall e t x, In e es -> e_mode e = MActive t x -> (t < length ts)%nat /\ exists z, evaluates gs x (VI32 z)) ->
  Forall (fun tb : table => len tb < 2 ^ 32) ts ->
  (forall t tb ps, nth_error ts t = Some tb -> active gs t (esegs es) ps -> fits (len tb) ps) ->
  exists ts', elems nf gs ts es = IDone ts' /\ length ts' = length ts /\
    forall t tb ps, nth_error ts t = Some tb -> active gs t (esegs es) ps ->
      exists tb', nth_error ts' t = Some tb' /\ content_ok RNull tb tb' ps.
Proof.
  induction es as [|e es IH]; intros ts SE IX AC TL FT.
  - exists ts. repeat split. intros t tb ps N A. inversion A; subst. exists tb. repeat split; auto.
  - inversion SE as [|? ? [X [l L]] SE']; subst. cbn [elems]. rewrite X, L.
    assert (FL : forallb (fun f => Nat.ltb f nf) l = true).
    { apply forallb_forall. intros f F. specialize (IX e l (or_introl eq_refl) L). rewrite Forall_forall in IX. apply Nat.ltb_lt. auto. }
    rewrite FL. cbn [negb].
    assert (PO : places_ok gs (esegs es)).
    { intros i x y H. unfold esegs in H. apply in_map_iff in H as (e' & E' & I'). injection E' as M' _. destruct (AC e' i x (or_intror I') M') as [_ Z]. exact Z. }
    cbn [esegs map] in FT |- *. fold (esegs es) in FT |- *. rewrite L in FT |- *.
    destruct (e_mode e) as [| |t x] eqn:M.
    + destruct (IH ts SE') as (ts' & E & LE & R); auto.
      * intros e' l' I. apply IX. now right.
      * intros e' t x I. apply AC. now right.
      * intros t tb ps N A. apply (FT t tb ps N). now constructor.
      * exists ts'. repeat split; auto. intros t tb ps N A. inversion A; subst. eauto.
    + destruct (IH ts SE') as (ts' & E & LE & R); auto.
      * intros e' l' I. apply IX. now right.
      * intros e' t x I. apply AC. now right.
      * intros t tb ps N A. apply (FT t tb ps N). now constructor.
      * exists ts'. repeat split; auto. intros t tb ps N A. inversion A; subst. eauto.
    + destruct (AC e t x (or_introl eq_refl) M) as [T [z Z]]. rewrite (offset_ok gs x z Z). cbn [ibind].
      destruct (nth_error ts t) as [tb|] eqn:N; [|apply nth_error_None in N; lia].
      destruct (active_total gs t (esegs es) PO) as [ps0 A0].
      pose proof (FT t tb _ N (ac_put gs t x z _ _ _ Z A0)) as F0. apply Forall_inv in F0. cbn [fst snd] in F0. rewrite len_map in F0.
      assert (TLt : len tb < 2 ^ 32). { rewrite Forall_forall in TL. apply TL. eapply nth_error_In; eauto. }
      pose proof (Z.mod_pos_bound z (2 ^ 32) ltac:(lia)) as ZB.
      destruct (table_init_ok nf l (IX e l (or_introl eq_refl) L) tb 0 (z mod 2 ^ 32)) as (tb1 & E1 & L1 & R1); try lia.
      rewrite E1. cbn [ibind].
      destruct (IH (upd ts t tb1) SE') as (ts' & E & LE & R); auto.
      * intros e' l' I. apply IX. now right.
      * intros e' t' x' I M'. rewrite upd_length. apply (AC e'); auto. now right.
      * apply Forall_forall. intros tb2 I. apply In_nth_error in I as [j J]. destruct (Nat.eq_dec t j) as [<-|NE].
        -- rewrite upd_nth_eq in J by auto. injection J as <-. unfold len in *. lia.
        -- rewrite upd_nth_ne in J by auto. rewrite Forall_forall in TL. apply TL. eapply nth_error_In; eauto.
      * intros t' tb' ps N' A. destruct (Nat.eq_dec t t') as [<-|NE].
        -- rewrite upd_nth_eq in N' by auto. injection N' as <-. replace (len tb1) with (len tb) by (unfold len; lia).
           specialize (FT t tb _ N (ac_put gs t x z _ _ _ Z A)). now apply Forall_inv_tail in FT.
        -- rewrite upd_nth_ne in N' by auto. apply (FT t' tb' ps N'). eapply ac_other; eauto.
      * exists ts'. rewrite upd_length in LE. repeat split; auto. intros t' tb' ps N' A. inversion A as [|o' z' x' l' ps' Z' A'|i' o' z' x' l' ps' NE Z' A'| |]; subst.
        -- rewrite N in N'. injection N' as <-. pose proof (evaluates_fun _ _ _ _ Z Z') as Q. injection Q as <-.
           destruct (R t tb1 ps') as (tb2 & N2 & L2 & C2); [now apply upd_nth_eq|auto|].
           exists tb2. split; auto. split; [lia|]. intros k K. rewrite C2 by auto. cbn [content]. f_equal. rewrite R1 by auto. rewrite len_map, !Z.add_0_l.
           destruct (_ && _) eqn:B; [|reflexivity]. apply nth_indep. rewrite map_length. unfold len in B. lia.
        -- apply R; auto. rewrite upd_nth_ne; auto.
Qed.

(** ** memory *)
Definition dsegs (ds : list dseg) : list (mode * list Z) := map (fun d => (ds_mode d, ds_bytes d)) ds.
Lemma mem_init_at_ok m off bs : 0 <= off -> off + mlen bs <= mlen m -> mlen m < 2 ^ 32 -> mem_init_at m off bs = Ok (splice m (Z.to_nat off) bs).
Proof.
  intros O B L. unfold mem_init_at, slice, usize. unfold mlen in *. rewrite Z.mod_small by lia.
  replace (off <=? off + Z.of_nat (length bs)) with true by lia. replace (off + Z.of_nat (length bs) <=? Z.of_nat (length m)) with true by lia.
  reflexivity.
Qed.
Lemma mem_init_at_bad m off bs m' : 0 <= off < 2 ^ 32 -> mlen bs < 2 ^ 32 -> mem_init_at m off bs = Ok m' -> off + mlen bs <= mlen m.
Proof.
  intros O B. unfold mem_init_at, slice, usize, mlen in *. intros E.
  destruct (Z.ltb_spec (off + Z.of_nat (length bs)) (2 ^ 32)).
  - rewrite Z.mod_small in E by lia. destruct (_ && _) eqn:C in E; [lia|discriminate].
  - replace (off + Z.of_nat (length bs)) with (off + Z.of_nat (length bs) - 2 ^ 32 + 1 * 2 ^ 32) in E by lia.
    rewrite Z.mod_add, Z.mod_small in E by lia. destruct (_ && _) eqn:C in E; [lia|discriminate].
Qed.
Definition bytes_content (m m' : list Z) (ps : list (Z * list Z)) : Prop :=
  length m' = length m /\ forall k, 0 <= k -> byte_at m' k = content (byte_at m k) ps k.
Lemma datas_none gs ds : (forall d t x, In d ds -> ds_mode d <> MActive t x) -> datas gs None ds = IDone None.
Proof.
  induction ds as [|d ds IH]; intros H; [reflexivity|]. cbn [datas]. destruct (ds_mode d) as [| |t x] eqn:M.
  1,2: apply IH; intros d' t x I; apply H; now right. exfalso. apply (H d t x); [now left|auto].
Qed.
Lemma datas_ok gs ds : forall mi ps, mlen (m_data mi) < 2 ^ 32 ->
  (forall d t x, In d ds -> ds_mode d = MActive t x -> t = 0%nat) ->
  active gs 0 (dsegs ds) ps -> fits (mlen (m_data mi)) ps ->
  exists m', datas gs (Some mi) ds = IDone (Some (with_data mi m')) /\ bytes_content (m_data mi) m' ps.
Proof.
  induction ds as [|d ds IH]; intros mi ps L Z0 A F.
  - inversion A; subst. exists (m_data mi). split; [destruct mi; reflexivity|]. split; auto.
  - cbn [datas]. cbn [dsegs map] in A. fold (dsegs ds) in A.
    assert (Z0' : forall d t x, In d ds -> ds_mode d = MActive t x -> t = 0%nat) by (intros d' t x I; apply Z0; now right).
    destruct (ds_mode d) as [| |t x] eqn:M.
    + inversion A; subst. apply IH; auto.
    + inversion A; subst. apply IH; auto.
    + pose proof (Z0 d t x (or_introl eq_refl) M) as ->.
      inversion A as [|o' z' x' l' ps' Z' A'|i' o' z' x' l' ps' NE Z' A'| |]; subst; [|congruence].
      rewrite (offset_ok gs x z' Z'). cbn [ibind]. inversion F as [|? ? F1 F2]; subst. cbn [fst snd] in F1.
      pose proof (Z.mod_pos_bound z' (2 ^ 32) ltac:(lia)) as ZB. change (len (ds_bytes d)) with (mlen (ds_bytes d)) in F1.
      rewrite mem_init_at_ok by lia. set (off := z' mod 2 ^ 32) in *.
      assert (LS : length (splice (m_data mi) (Z.to_nat off) (ds_bytes d)) = length (m_data mi)) by (apply splice_length; unfold mlen in *; lia).
      destruct (IH (with_data mi (splice (m_data mi) (Z.to_nat off) (ds_bytes d))) ps') as (m' & E & LE & B); auto.
      * cbn [with_data m_data]. unfold mlen in *. lia.
      * cbn [with_data m_data]. unfold mlen. rewrite LS. exact F2.
      * exists m'. split; [exact E|]. cbn [with_data m_data] in LE, B. split; [lia|]. intros k K. rewrite B by auto. cbn [content]. f_equal.
        rewrite splice_byte_at by (unfold mlen in *; lia). change (len (ds_bytes d)) with (mlen (ds_bytes d)).
        destruct (_ && _) eqn:C; [|reflexivity]. unfold byte_at. apply nth_indep. unfold mlen in C. lia.
Qed.
Lemma datas_bad gs ds : forall mi ps r, mlen (m_data mi) < 2 ^ 32 -> Forall (fun d => mlen (ds_bytes d) < 2 ^ 32) ds ->
  active gs 0 (dsegs ds) ps -> datas gs (Some mi) ds = IDone r -> fits (mlen (m_data mi)) ps.
Proof.
  induction ds as [|d ds IH]; intros mi ps r L LB A E.
  - inversion A; subst. constructor.
  - cbn [datas] in E. cbn [dsegs map] in A. fold (dsegs ds) in A. inversion LB as [|? ? LB1 LB2]; subst.
    destruct (ds_mode d) as [| |t x] eqn:M.
    + inversion A; subst. eapply IH; eauto.
    + inversion A; subst. eapply IH; eauto.
    + inversion A as [|o' z' x' l' ps' Z' A'|i' o' z' x' l' ps' NE Z' A'| |]; subst.
      * rewrite (offset_ok gs x z' Z') in E. cbn [ibind] in E.
        pose proof (Z.mod_pos_bound z' (2 ^ 32) ltac:(lia)) as ZB. set (off := z' mod 2 ^ 32) in *.
        destruct (mem_init_at _ _ _) as [b| |] eqn:MI in E; try discriminate.
        pose proof (mem_init_at_bad _ _ _ _ ZB LB1 MI) as F1.
        rewrite mem_init_at_ok in MI by lia. injection MI as <-.
        assert (LS : length (splice (m_data mi) (Z.to_nat off) (ds_bytes d)) = length (m_data mi)) by (apply splice_length; unfold mlen in *; lia).
        constructor; [exact F1|]. replace (mlen (m_data mi)) with (mlen (m_data (with_data mi (splice (m_data mi) (Z.to_nat off) (ds_bytes d))))) by (cbn [with_data m_data]; unfold mlen; now rewrite LS).
        eapply IH; eauto. cbn [with_data m_data]. unfold mlen in *. lia.
      * rewrite (offset_ok gs x z' Z') in E. cbn [ibind] in E. destruct t; [congruence|discriminate].
Qed.
(** an element segment with contents that does not fit stops the instantiation *)
Lemma elems_bad nf gs es : forall ts ts', Forall simple_elem es -> Forall (fun tb : table => len tb < 2 ^ 32) ts ->
  (forall e l, In e es -> e_idxes e = Some l -> len l < 2 ^ 32) -> places_ok gs (esegs es) ->
  elems nf gs ts es = IDone ts' ->
  forall t tb ps, nth_error ts t = Some tb -> active gs t (esegs es) ps -> Forall (fun p => snd p = [] \/ fst p + len (snd p) <= len tb) ps.
Proof.
  induction es as [|e es IH]; intros ts ts' SE TL LL PO E t tb ps N A.
  - inversion A; subst. constructor.
  - inversion SE as [|? ? [X [l L]] SE']; subst. cbn [elems] in E. rewrite X, L in E.
    destruct (forallb _ l) eqn:FL; [|discriminate]. cbn [negb] in E.
    assert (LL' : forall e l, In e es -> e_idxes e = Some l -> len l < 2 ^ 32) by (intros e' l' I; apply LL; now right).
    assert (PO' : places_ok gs (esegs es)) by (intros i x y I; apply (PO i x y); now right).
    cbn [esegs map] in A, PO. fold (esegs es) in A, PO. rewrite L in A, PO.
    destruct (e_mode e) as [| |t0 x] eqn:M.
    + inversion A; subst. eapply IH; eauto.
    + inversion A; subst. eapply IH; eauto.
    + destruct (PO t0 x _ (or_introl eq_refl)) as [z Z]. rewrite (offset_ok gs x z Z) in E. cbn [ibind] in E.
      destruct (nth_error ts t0) as [tb0|] eqn:N0; [|discriminate]. destruct (table_init nf tb0 0 (z mod 2 ^ 32) l) as [tb1| | | | |] eqn:TI; try discriminate. cbn [ibind] in E.
      pose proof (Z.mod_pos_bound z (2 ^ 32) ltac:(lia)) as ZB.
      assert (TL0 : len tb0 < 2 ^ 32). { rewrite Forall_forall in TL. apply TL. eapply nth_error_In; eauto. }
      assert (LT : length tb1 = length tb0).
      { clear - TI. revert tb0 TI. generalize 0 as i. generalize (z mod 2 ^ 32) as off. induction l as [|f l IH]; intros off i tb0 H; cbn [table_init] in H; [now injection H as ->|].
        destruct (_ && _) in H; [|discriminate]. apply IH in H. now rewrite upd_length in H. }
      assert (T0 : (t0 < length ts)%nat) by (apply nth_error_Some; congruence).
      assert (TL' : Forall (fun tb : table => len tb < 2 ^ 32) (upd ts t0 tb1)).
      { apply Forall_forall. intros tb2 I. apply In_nth_error in I as [j J]. destruct (Nat.eq_dec t0 j) as [<-|NE].
        - rewrite upd_nth_eq in J by auto. injection J as <-. unfold len in *. lia.
        - rewrite upd_nth_ne in J by auto. rewrite Forall_forall in TL. apply TL. eapply nth_error_In; eauto. }
      inversion A as [|o' z' x' l' ps' Z' A'|i' o' z' x' l' ps' NE Z' A'| |]; subst.
      * rewrite N0 in N. injection N as <-. pose proof (evaluates_fun _ _ _ _ Z Z') as Q. injection Q as <-.
        constructor; cbn [fst snd].
        -- destruct (table_init_bad nf l tb0 0 (z mod 2 ^ 32) tb1) as [->|F]; auto; try lia.
           ++ pose proof (LL e l (or_introl eq_refl) L). lia.
           ++ unfold len. lia.
           ++ right. rewrite len_map. specialize (F ltac:(lia)). lia.
        -- replace (len tb0) with (len tb1) by (unfold len; lia). apply (IH (upd ts t0 tb1) ts' SE' TL' LL' PO' E t0 tb1 ps'); [apply upd_nth_eq; auto|auto].
      * apply (IH (upd ts t0 tb1) ts' SE' TL' LL' PO' E t tb ps); auto. rewrite upd_nth_ne; auto.
Qed.
Lemma link_ok is fs : wasi_only is fs -> link is = IDone fs.
Proof.
  induction 1 as [|i f is fs H F IH]; [reflexivity|]. destruct i; try contradiction. subst f. cbn [link]. now rewrite IH.
Qed.
Lemma link_inv is fs : link is = IDone fs -> wasi_only is fs.
Proof.
  revert fs. induction is as [|i is IH]; intros fs H; cbn [link] in H; [injection H as <-; constructor|]. destruct i; try discriminate.
  destruct (link is) as [fs'| | | | |]; try discriminate. cbn [ibind] in H. injection H as <-. constructor; auto. now apply IH.
Qed.
