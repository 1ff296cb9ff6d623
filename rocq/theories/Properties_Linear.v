(** C69: the translation of a function is as large as the function: no more instructions than operators, no
    more registers than declared locals and values the operators can leave on the stack. *)
From Coq Require Import ZArith List Bool Lia.
From Verif Require Import Word Value Numeric Float Mem Store StoreProofs Regs IR Machine Wasm WasmTyping Decoder Check RegsProofs Loc DecodeProofs BasicSim Sim Dyn StaticSpec
  StaticProofs Examples SizeSpec SizeProofs FrameFacts Properties_Frames Properties_Static Properties_Size MemProofs.
Import ListNotations.
Open Scope nat_scope.

(** ** specification *)
(** the number of results of a function of the module *)
Definition results (SM : smodule) (f : nat) : nat :=
  match nth_error (sm_funcs SM) f with Some g => length (snd (sfunc_type g)) | None => 0 end.
(** the number of values an operator can leave on the stack (Core 3.3): one for a plain instruction, the parameters
    and results of a block, the results of a call *)
Definition leaves (SM : smodule) (op : fop) : nat :=
  match op with
  | FBasic _ => 1
  | FBlock _ ps rs | FIf ps rs => length ps + length rs
  | FCall f => results SM f
  | FCallInd ty _ => match nth_error (sm_types SM) ty with Some t => length (snd t) | None => 0 end
  | FElse | FEnd | FBr _ | FBrIf _ | FBrTable _ _ | FReturn | FUnreachable => 0
  end.
(** the operators of a function's body, with the one that ends it *)
Definition operators (d : sfdef) : list fop := flatten (sf_body d) ++ [FEnd].
Definition footprint (SM : smodule) (f : nat) : nat :=
  match nth_error (sm_funcs SM) f with
  | Some (SWasm d) => length (sf_locals d) + list_sum (map (leaves SM) (operators d))
  | _ => 0
  end.

(** ** instructions *)
Lemma dec_value_one t o nxt k : length (fst (dec_value t o nxt k)) <= 1.
Proof. unfold dec_value. destruct (al_push _ _). destruct (folds _ _); cbn; lia. Qed.
Lemma dec_basic_one E b nxt k is k1 s : dec_basic E b nxt k = Some (is, k1, s) -> length is <= 1.
Proof.
  destruct b; cbn [dec_basic]; intros H.
  - destruct (is_num _); [|discriminate]. match type of H with context[dec_value ?a ?b ?c ?d] => pose proof (dec_value_one a b c d) as L; destruct (dec_value a b c d) end. injection H as <- <- <-. exact L.
  - pose proof (dec_value_one (ltype E n) (OLoc (u16 n)) nxt k) as L.
    destruct (class_of (ltype E n)); try discriminate; try (destruct (dec_value _ _ _ _); injection H as <- <- <-; exact L).
    injection H as <- <- <-. cbn. lia.
  - destruct (class_of (ltype E n)); cbn in H; try discriminate; injection H as <- <- <-; cbn; lia.
  - destruct (al_peek _ _); [|discriminate]. destruct (class_of (ltype E n)); try discriminate; injection H as <- <- <-; cbn; lia.
  - injection H as <- <- <-. cbn; lia.
  - injection H as <- <- <-. cbn; lia.
  - unfold al_pop in H. cbv zeta beta iota in H. match type of H with match ?x with _ => _ end = _ => destruct x; [|discriminate] end.
    match type of H with context [al_push ?a ?t] => destruct (al_push a t) as [a1 r] end. injection H as <- <- <-. cbn; lia.
  - destruct (sop_ok _); [|discriminate]. injection H as H. unfold dec_op in H. destruct (pop_regs _ _).
    match type of H with context [match ?x with (_, _) => _ end] => destruct x as [srcs p] end.
    destruct (sop_res _); [|injection H as <- <- <-; cbn; lia]. destruct (al_push _ _). destruct (if dst_foldable _ then _ else _); injection H as <- <- <-; cbn; lia.
Qed.
Lemma dec_live_one E op nxt z z1 s : dec_live E op nxt z = Some (z1, s) -> length (z_out z1) <= S (length (z_out z)).
Proof.
  destruct op; cbn [dec_live]; intros H.
  - destruct (dec_basic _ _ _ _) as [[[is k] sk]|] eqn:D; [|discriminate]. apply dec_basic_one in D. injection H as <- <-. cbn [emit z_out]. rewrite app_length. lia.
  - destruct (open_block _ _ _ _) as [[a x] b]. injection H as <- <-. cbn [z_out]. rewrite app_length. cbn; lia.
  - destruct (al_pop (k_al (z_k z)) TI32) as [a0 rc]. destruct (open_block _ _ _ _) as [[a x] b]. injection H as <- <-. cbn [z_out]. rewrite app_length. cbn; lia.
  - destruct (z_map z) as [|[[st [|]] [el|]] m]; try discriminate. injection H as <- <-. cbn [z_out]. rewrite app_length. cbn; lia.
  - destruct (z_map z) as [|[[st b] el] m]; [destruct nxt; [|discriminate]|]; injection H as <- <-; cbn [z_out]; rewrite app_length; cbn; lia.
  - destruct (branch_regs _ _ _). injection H as <- <-. cbn [set_unr emit z_out]. rewrite app_length. cbn; lia.
  - destruct (branch_regs _ _ _). injection H as <- <-. cbn [set_unr emit z_out]. rewrite app_length. cbn; lia.
  - destruct (branch_regs _ _ _). injection H as <- <-. cbn [set_unr emit z_out]. rewrite app_length. cbn; lia.
  - injection H as <- <-. cbn [set_unr emit z_out]. rewrite app_length. cbn; lia.
  - injection H as <- <-. cbn [set_unr emit z_out]. rewrite app_length. cbn; lia.
  - destruct (call_info _ _) as [w [ps rs]|[ps rs]].
    + destruct rs as [|t rs]; [|destruct (al_push _ t)]; injection H as <- <-; cbn [emit z_out]; rewrite app_length; cbn; lia.
    + destruct ps as [|p ps]; [destruct rs as [|r rs]; [injection H as <- <-; cbn [emit z_out]; rewrite app_length; cbn; lia|]|];
        destruct (call_params _ _ _); destruct (al_pushes _ _); injection H as <- <-; cbn [emit z_out]; rewrite app_length; cbn; lia.
  - destruct (type_or_empty _ _) as [ps rs]. destruct (al_peek _ _); [|discriminate]. destruct (call_params _ _ _). destruct (al_pushes _ _). injection H as <- <-. cbn [emit z_out]. rewrite app_length. cbn; lia.
Qed.
Lemma fix1_length ends elses f is is' : fix1 ends elses f is = Some is' -> length is' = length is.
Proof.
  unfold fix1. destruct (nth_error is (fx_pc f)); [|discriminate]. destruct (is_br_table i); [intros H; now injection H as <-|].
  destruct (nth_error _ _) as [[start lp]|]; [|intros H; injection H as <-; apply upd_length].
  destruct (if lp then _ else _); [|discriminate]. intros H. injection H as <-. apply upd_length.
Qed.
Lemma phase2_length ends elses fs : forall is is', phase2 ends elses fs is = Some is' -> length is' = length is.
Proof.
  induction fs as [|f fs IH]; intros is is' H; cbn [phase2] in H; [now injection H as <-|]. destruct (fix1 _ _ _ _) as [i1|] eqn:F; [|discriminate].
  apply fix1_length in F. apply IH in H. congruence.
Qed.
Lemma phase3_length ends is : forall pc st, length (phase3 ends pc is st) = length is.
Proof. induction is as [|i is IH]; intros pc st; cbn [phase3 length]; auto. Qed.

(** ** registers *)
Definition wt (E : denv) (op : fop) : nat :=
  match op with
  | FBasic _ => 1
  | FBlock _ ps rs | FIf ps rs => length ps + length rs
  | FCall f => match call_info (e_mod E) f with CIWasi _ t | CIFunc t => length (snd t) end
  | FCallInd ty _ => length (snd (type_or_empty (e_mod E) ty))
  | _ => 0
  end.
Definition total (s : six nat) : nat := list_sum (map (sget s) classes).
Definition below (d m : six nat) : Prop := forall c, sget d c <= sget m c.
Definition aok (a : alloc) : Prop := below (al_d a) (al_max a).
Lemma total_eq s : total s = sget s CI32 + sget s CI64 + sget s CF32 + sget s CF64 + sget s CRef + sget s CV128.
Proof. unfold total, classes, list_sum. cbn [map fold_right]. lia. Qed.
(** an allocator state after another: more registers, but at most [n] more *)
Definition more (n : nat) (a a1 : alloc) : Prop := aok a1 /\ mle a a1 /\ total (al_max a1) <= total (al_max a) + n.
Lemma more_trans n m a b c : more n a b -> more m b c -> more (n + m) a c.
Proof. intros (A1 & A2 & A3) (B1 & B2 & B3). split; [auto|]. split; [eapply mle_trans; eauto|lia]. Qed.
Lemma more_refl a : aok a -> more 0 a a.
Proof. intros A. split; [auto|]. split; [apply mle_refl|lia]. Qed.
Lemma more_le n m a b : n <= m -> more n a b -> more m a b.
Proof. intros L (A & B & C). split; [auto|]. split; [auto|lia]. Qed.
Lemma sget_sset_c (s : six nat) c x e : sget (sset s c x) e = if cls_eqb c e then x else sget s e.
Proof. destruct s, c, e; reflexivity. Qed.
Lemma more_push a t : aok a -> more 1 a (fst (al_push a t)).
Proof.
  intros A. split; [|split; [apply al_push_mle|]].
  - intros c. cbn [al_push fst al_d al_max]. unfold incr. rewrite !sget_sset_c. specialize (A c). destruct (cls_eqb (class_of t) c) eqn:E; [|exact A].
    assert (X : class_of t = c) by (destruct (class_of t), c; cbn in E; congruence). rewrite X. replace (cls_eqb c c) with true by now destruct c. lia.
  - cbn [al_push fst al_max]. rewrite !total_eq, !sget_sset_c. unfold incr. pose proof (A CI32). pose proof (A CI64). pose proof (A CF32). pose proof (A CF64). pose proof (A CRef). pose proof (A CV128).
    destruct (class_of t); cbn [cls_eqb]; rewrite ?sget_sset_c; cbn [cls_eqb]; lia.
Qed.
Lemma more_pop a t : aok a -> more 0 a (fst (al_pop a t)).
Proof.
  intros A. split; [|split; [apply eq_mle; reflexivity|cbn; lia]]. intros c. cbn [al_pop fst al_d al_max]. rewrite sget_sset_c. specialize (A c).
  destruct (cls_eqb (class_of t) c) eqn:E; [|exact A]. assert (X : class_of t = c) by (destruct (class_of t), c; cbn in E; congruence). rewrite X. lia.
Qed.
Lemma more_pushes ts : forall a, aok a -> more (length ts) a (fst (al_pushes a ts)).
Proof.
  induction ts as [|t ts IH]; intros a A; cbn [al_pushes]; [now apply more_refl|]. pose proof (more_push a t A) as M. destruct (al_push a t) as [a1 r]. cbn [fst] in M.
  specialize (IH a1 (proj1 M)). destruct (al_pushes a1 ts) as [a2 rs]. cbn [fst length] in *. exact (more_trans 1 _ _ _ _ M IH).
Qed.
Lemma more_pops ts : forall a, aok a -> more 0 a (al_pops a ts).
Proof.
  induction ts as [|t ts IH]; intros a A; cbn [al_pops]; [now apply more_refl|]. pose proof (more_pop a t A) as M. exact (more_trans 0 0 _ _ _ M (IH _ (proj1 M))).
Qed.
Lemma more_pop_any a : aok a -> more 0 a (al_pop_any a).
Proof. intros A. unfold al_pop_any. destruct (al_ts a); [now apply more_refl|now apply more_pop]. Qed.
Lemma more_pop_regs ts : forall a, aok a -> more 0 a (fst (pop_regs a ts)).
Proof.
  induction ts as [|t ts IH]; intros a A; cbn [pop_regs]; [now apply more_refl|]. pose proof (more_pop a t A) as M. destruct (al_pop a t) as [a' r]. cbn [fst] in M.
  specialize (IH a' (proj1 M)). destruct (pop_regs a' ts). cbn [fst] in *. exact (more_trans 0 0 _ _ _ M IH).
Qed.
Lemma more_call_params ts : forall a acc, aok a -> more 0 a (fst (call_params a ts acc)).
Proof.
  induction ts as [|t ts IH]; intros a acc A; cbn [call_params]; [now apply more_refl|]. pose proof (more_pop a t A) as M. exact (more_trans 0 0 _ _ _ M (IH _ _ (proj1 M))).
Qed.
Lemma dec_value_more t o nxt k is k1 : aok (k_al k) -> dec_value t o nxt k = (is, k1) -> more 1 (k_al k) (k_al k1).
Proof.
  intros A. unfold dec_value. pose proof (more_push (k_al k) t A) as M. destruct (al_push (k_al k) t) as [a r]. cbn [fst] in M.
  destruct (folds _ _); intros H; injection H as <- <-; exact M.
Qed.
Lemma dec_basic_more E b nxt k is k1 s : aok (k_al k) -> dec_basic E b nxt k = Some (is, k1, s) -> more 1 (k_al k) (k_al k1).
Proof.
  intros A. assert (U : forall a1, more 0 (k_al k) a1 -> more 1 (k_al k) a1) by (intros a1; apply more_le; lia).
  destruct b; cbn [dec_basic]; intros H.
  - destruct (is_num _); [|discriminate]. destruct (dec_value _ _ _ _) eqn:D. injection H as <- <- <-. eapply dec_value_more; eauto.
  - destruct (class_of (ltype E n)); try discriminate; try (destruct (dec_value _ _ _ _) eqn:D; injection H as <- <- <-; eapply dec_value_more; eauto).
    injection H as <- <- <-. now apply more_push.
  - pose proof (more_pop (k_al k) (ltype E n) A). destruct (class_of (ltype E n)); cbn in H; try discriminate; injection H as <- <- <-; apply U; auto.
  - destruct (al_peek _ _); [|discriminate]. destruct (class_of (ltype E n)); try discriminate; injection H as <- <- <-; apply U, more_refl, A.
  - injection H as <- <- <-. apply U, more_pop_any, A.
  - injection H as <- <- <-. apply U, more_refl, A.
  - pose proof (more_pop (k_al k) TI32 A) as M0. destruct (al_pop (k_al k) TI32) as [a0 rc]. cbn [fst] in M0.
    set (u := select_type a0 t) in *. destruct (select_cls t u); [|discriminate].
    pose proof (more_pop a0 u (proj1 M0)) as M1. destruct (al_pop a0 u) as [a1 r1]. cbn [fst] in M1.
    pose proof (more_pop a1 u (proj1 M1)) as M2. destruct (al_pop a1 u) as [a2 r2]. cbn [fst] in M2.
    pose proof (more_push a2 u (proj1 M2)) as M3. destruct (al_push a2 u) as [a3 r3]. cbn [fst] in M3. injection H as <- <- <-.
    exact (more_trans 0 1 _ _ _ M0 (more_trans 0 1 _ _ _ M1 (more_trans 0 1 _ _ _ M2 M3))).
  - destruct (sop_ok _); [|discriminate]. injection H as H. unfold dec_op in H.
    pose proof (more_pop_regs (rev (sop_args o)) (k_al k) A) as PM. destruct (pop_regs (k_al k) (rev (sop_args o))) as [a ns]. cbn [fst] in PM.
    match type of H with context [match ?x with (_, _) => _ end] => destruct x as [srcs p] end.
    destruct (sop_res o) as [t|]; [|injection H as <- <- <-; apply U; exact PM].
    pose proof (more_push a t (proj1 PM)) as M. destruct (al_push a t) as [a1 r]. cbn [fst] in M.
    destruct (if dst_foldable o then _ else _); injection H as <- <- <-; [|exact (more_trans 0 1 _ _ _ PM M)].
    exact (more_trans 0 1 _ _ _ PM (more_trans 1 0 _ _ _ M (more_pop a1 t (proj1 M)))).
Qed.

(** the saved heights of the open blocks: room for the parameters has been made *)
Definition room (m : six nat) (s : alstate) (b : ctl) : Prop := forall c, sget (as_d s) c + cnt c (map class_of (cb_params b)) <= sget m c.
Definition owed (bs : list ctl) : nat := list_sum (map (fun b => length (cb_results b)) bs).
Record zok (n : nat) (z : dst8) : Prop := {
  zo_al : aok (k_al (z_k z));
  zo_sav : Forall2 (room (al_max (k_al (z_k z)))) (z_sav z) (z_ctl z);
  zo_tot : total (al_max (k_al (z_k z))) + owed (z_ctl z) <= n }.

Lemma pushes_d ts : forall a c, sget (al_d (fst (al_pushes a ts))) c = sget (al_d a) c + cnt c (map class_of ts).
Proof.
  induction ts as [|t ts IH]; intros a c; [cbn [al_pushes fst map]; rewrite cnt_nil; lia|]. cbn [al_pushes map]. rewrite cnt_cons.
  assert (P : sget (al_d (fst (al_push a t))) c = sget (al_d a) c + (if cls_eqb c (class_of t) then 1 else 0)).
  { cbn [al_push fst al_d]. unfold incr. rewrite sget_sset_c, (cls_eqb_sym c). destruct (cls_eqb (class_of t) c) eqn:E; [|lia]. assert (X : class_of t = c) by (destruct (class_of t), c; cbn in E; congruence). rewrite X. lia. }
  destruct (al_push a t) as [a1 r]. cbn [fst] in P. specialize (IH a1 c). destruct (al_pushes a1 ts). cbn [fst] in *. lia.
Qed.
Lemma pushes_fit ts : forall a m, below (al_max a) m -> (forall c, sget (al_d a) c + cnt c (map class_of ts) <= sget m c) -> below (al_max (fst (al_pushes a ts))) m.
Proof.
  induction ts as [|t ts IH]; intros a m B F; [exact B|]. cbn [al_pushes].
  assert (P : forall c, sget (al_d (fst (al_push a t))) c = sget (al_d a) c + (if cls_eqb c (class_of t) then 1 else 0)).
  { intros c. pose proof (pushes_d [t] a c) as Q. cbn [al_pushes map] in Q. destruct (al_push a t). cbn [fst] in *. rewrite cnt_cons, cnt_nil in Q. lia. }
  assert (Q : below (al_max (fst (al_push a t))) m).
  { intros c. specialize (P c). specialize (F c). specialize (B c). cbn [map] in F. rewrite cnt_cons in F. revert P. cbn [al_push fst al_d al_max]. rewrite sget_sset_c. intros P.
    destruct (cls_eqb (class_of t) c) eqn:E; [|lia]. assert (X : class_of t = c) by (destruct (class_of t), c; cbn in E; congruence). rewrite X in *. replace (cls_eqb c c) with true in * by now destruct c. unfold incr in *. rewrite ?sget_sset_c in *. replace (cls_eqb c c) with true in * by now destruct c. lia. }
  destruct (al_push a t) as [a1 r]. cbn [fst] in *. specialize (IH a1 m Q). destruct (al_pushes a1 ts). cbn [fst] in *. apply IH.
  intros c. specialize (F c). cbn [map] in F. rewrite cnt_cons in F. rewrite P. lia.
Qed.
Lemma total_le s t : below s t -> total s <= total t.
Proof. intros B. rewrite !total_eq. pose proof (B CI32). pose proof (B CI64). pose proof (B CF32). pose proof (B CF64). pose proof (B CRef). pose proof (B CV128). lia. Qed.
Lemma room_mle m m' ss bs : below m m' -> Forall2 (room m) ss bs -> Forall2 (room m') ss bs.
Proof. intros B. induction 1 as [|s b ss bs R _ IH]; constructor; auto. intros c. specialize (R c). specialize (B c). lia. Qed.
Lemma zok_same n m z k : zok n z -> more m (k_al (z_k z)) (k_al k) -> forall z1, z_k z1 = k -> z_sav z1 = z_sav z -> z_ctl z1 = z_ctl z -> zok (n + m) z1.
Proof.
  intros [A B C] (M1 & M2 & M3) z1 E1 E2 E3. constructor; rewrite ?E1, ?E2, ?E3; auto; [|lia]. eapply room_mle; [exact M2|auto].
Qed.
Lemma zok_open n z m a lp ps rs a1 s b : zok n z -> more m (k_al (z_k z)) a -> open_block a lp ps rs = (a1, s, b) ->
  forall z1, z_k z1 = with_al (z_k z) a1 -> z_sav z1 = s :: z_sav z -> z_ctl z1 = b :: z_ctl z -> zok (n + m + (length ps + length rs)) z1.
Proof.
  intros [A B C] M O z1 E1 E2 E3. unfold open_block in O. injection O as <- <- <-.
  pose proof (more_pops (rev ps) a (proj1 M)) as M1. pose proof (more_pushes ps _ (proj1 M1)) as M2. pose proof (more_trans _ _ _ _ _ M (more_trans _ _ _ _ _ M1 M2)) as (T1 & T2 & T3).
  constructor; rewrite ?E1, ?E2, ?E3; cbn [with_al k_al]; auto.
  - constructor; [|eapply room_mle; [exact T2|auto]]. intros c. cbn [al_save as_d cb_params]. rewrite <- pushes_d. apply T1.
  - unfold owed in *. cbn [map cb_results]. rewrite list_sum_cons. lia.
Qed.
Lemma zok_unr n z u : zok n z -> zok n (set_unr z u).
Proof. intros [A B C]. constructor; auto. Qed.
Lemma zok_le n m z : n <= m -> zok n z -> zok m z.
Proof. intros L [A B C]. constructor; auto. lia. Qed.
Lemma restored a s b : room (al_max a) s b -> aok (al_restore a s).
Proof. intros R c. specialize (R c). cbn [al_restore al_d al_max]. lia. Qed.
Lemma dec_live_zok E op nxt z z1 s n : dec_live E op nxt z = Some (z1, s) -> zok n z -> zok (n + wt E op) z1.
Proof.
  intros H K. pose proof K as [A B C]. destruct op; cbn [dec_live wt] in *.
  - destruct (dec_basic _ _ _ _) as [[[is k] sk]|] eqn:D; [|discriminate]. injection H as <- <-. eapply zok_same; eauto. eapply dec_basic_more; eauto.
  - destruct (open_block _ _ _ _) as [[a x] b] eqn:O. injection H as <- <-. eapply (zok_le (n + 0 + (length ps + length rs))); [lia|]. eapply zok_open; eauto. now apply more_refl.
  - pose proof (more_pop (k_al (z_k z)) TI32 A) as M. destruct (al_pop (k_al (z_k z)) TI32) as [a0 rc]. cbn [fst] in M.
    destruct (open_block _ _ _ _) as [[a x] b] eqn:O. injection H as <- <-. eapply (zok_le (n + 0 + (length ps + length rs))); [lia|]. eapply zok_open; eauto.
  - destruct (z_map z) as [|[[st [|]] [el|]] m]; try discriminate. injection H as <- <-. eapply zok_same; eauto. cbn [z_k with_al k_al].
    inversion B as [E1 E2|x b ss bs R RS E1 E2]; [now apply more_refl|]. pose proof (restored _ _ _ R) as RA. pose proof (more_pushes (cb_params b) _ RA) as (M1 & M2 & M3).
    split; [exact M1|]. split; [exact M2|]. rewrite Nat.add_0_r. apply total_le. apply pushes_fit; [intros c; apply le_n|exact R].
  - assert (Z : forall z2, z_sav z2 = tl (z_sav z) -> z_ctl z2 = tl (z_ctl z) ->
      k_al (z_k z2) = match z_sav z with s :: _ => fst (al_pushes (al_restore (k_al (z_k z)) s) (match z_ctl z with b :: _ => cb_results b | [] => [] end)) | [] => k_al (z_k z) end -> zok (n + 0) z2).
    { intros z2 E1 E2 E3. rewrite Nat.add_0_r. inversion B as [F1 F2|x b ss bs R RS F1 F2].
      - rewrite <- F1 in E3. constructor; rewrite ?E1, ?E2, ?E3; auto; try (rewrite <- F1, <- F2; constructor). rewrite <- F2 in *. exact C.
      - rewrite <- F1, <- F2 in E3. pose proof (restored _ _ _ R) as RA. pose proof (more_pushes (cb_results b) _ RA) as (M1 & M2 & M3).
        constructor; rewrite ?E1, ?E2, ?E3; auto.
        + rewrite <- F1, <- F2. cbn [tl]. eapply room_mle; [exact M2|]. exact RS.
        + rewrite <- F2 in *. cbn [tl]. unfold owed in *. cbn [map] in C. rewrite list_sum_cons in C. change (al_max (al_restore (k_al (z_k z)) x)) with (al_max (k_al (z_k z))) in M3. lia. }
    destruct (z_map z) as [|[[st b] el] m]; [destruct nxt; [|discriminate]|]; injection H as <- <-; apply Z; reflexivity.
  - destruct (branch_regs _ _ _). injection H as <- <-. eapply zok_same; eauto. now apply more_refl.
  - destruct (branch_regs _ _ _). injection H as <- <-. eapply zok_same; eauto. exact (more_pop (k_al (z_k z)) TI32 A).
  - destruct (branch_regs _ _ _). injection H as <- <-. eapply zok_same; eauto. exact (more_pop (k_al (z_k z)) TI32 A).
  - injection H as <- <-. eapply zok_same; eauto. exact (more_pops (rev (e_results E)) (k_al (z_k z)) A).
  - injection H as <- <-. eapply zok_same; eauto. now apply more_refl.
  - destruct (call_info _ _) as [w [ps rs]|[ps rs]]; cbn [snd].
    + pose proof (more_pops (rev ps) (k_al (z_k z)) A) as PM. destruct rs as [|t rs]; [injection H as <- <-; eapply zok_same; eauto; exact PM|].
      pose proof (more_push (al_pops (k_al (z_k z)) (rev ps)) t (proj1 PM)) as M. destruct (al_push _ t) as [a r]. injection H as <- <-. eapply zok_same; eauto. cbn [fst] in M.
      eapply more_le; [|exact (more_trans _ _ _ _ _ PM M)]. cbn; lia.
    + assert (D : (let (a, prs) := call_params (k_al (z_k z)) (rev ps) [] in let (a0, rrs) := al_pushes a rs in Some (emit z (with_al (z_k z) a0) [ICall f prs rrs] [], false)) = Some (z1, s) -> zok (n + length rs) z1).
      { pose proof (more_call_params (rev ps) (k_al (z_k z)) [] A) as PM. destruct (call_params _ _ _) as [a prs]. cbn [fst] in PM.
        pose proof (more_pushes rs a (proj1 PM)) as M. destruct (al_pushes a rs) as [a0 rrs]. intros X. injection X as <- <-. eapply zok_same; eauto. exact (more_trans _ _ _ _ _ PM M). }
      destruct ps as [|p ps]; [destruct rs as [|r rs]; [injection H as <- <-; eapply zok_same; eauto; now apply more_refl|]|]; exact (D H).
  - destruct (type_or_empty _ _) as [ps rs]. cbn [snd]. destruct (al_peek _ _); [|discriminate]. pose proof (more_pop (k_al (z_k z)) TI32 A) as P0.
    pose proof (more_call_params (rev ps) (fst (al_pop (k_al (z_k z)) TI32)) [] (proj1 P0)) as PM. destruct (call_params _ _ _) as [a prs]. cbn [fst] in PM.
    pose proof (more_pushes rs a (proj1 PM)) as M. destruct (al_pushes a rs) as [a0 rrs]. injection H as <- <-. eapply zok_same; eauto. exact (more_trans _ _ _ _ _ P0 (more_trans _ _ _ _ _ PM M)).
Qed.
Lemma dec_dead_facts op z : match dec_dead op z with inl z1 => z_k z1 = z_k z /\ z_sav z1 = z_sav z /\ z_ctl z1 = z_ctl z /\ length (z_out z1) = S (length (z_out z)) | inr z1 => z1 = set_unr z (z_unr z1) end.
Proof.
  unfold dec_dead. destruct (z_unr z) eqn:U; [destruct z; cbn in *; now subst|].
  match goal with |- match match ?u with _ => _ end with _ => _ end => destruct u end; [reflexivity|]. cbn [set_unr emit z_k z_sav z_ctl z_out]. rewrite app_length. cbn. repeat split; lia.
Qed.
Lemma dec_ops_linear E : forall n ops, length ops <= n -> forall z z' m, dec_ops E ops z = Some z' -> zok m z ->
  length (z_out z') <= length (z_out z) + length ops /\ zok (m + list_sum (map (wt E) ops)) z'.
Proof.
  induction n as [|n IH]; intros [|op ops] L z z' m H K; cbn [length] in L; try lia; cbn [dec_ops] in H;
    try (injection H as <-; cbn [length map]; split; [lia|]; change (list_sum []) with 0; rewrite Nat.add_0_r; exact K).
  cbn [map length]. rewrite list_sum_cons. pose proof (dec_dead_facts op z) as F. destruct (dec_dead op z) as [z0|z0].
  - destruct F as (F1 & F2 & F3 & F4). assert (K0 : zok m z0) by (destruct K as [A B C]; constructor; rewrite ?F1, ?F2, ?F3; auto).
    destruct (IH ops ltac:(lia) _ _ _ H K0) as [G1 G2]. split; [lia|]. eapply zok_le; [|exact G2]. lia.
  - assert (K0 : zok m z0) by (rewrite F; now apply zok_unr). assert (FO : length (z_out z0) = length (z_out z)) by (rewrite F; reflexivity).
    destruct (dec_live E op ops z0) as [[z1 [|]]|] eqn:DL; [| |discriminate]; pose proof (dec_live_one _ _ _ _ _ _ DL) as O1; pose proof (dec_live_zok _ _ _ _ _ _ _ DL K0) as K1.
    + destruct ops as [|o2 ops]; [injection H as <-; cbn [length map]; change (list_sum []) with 0; split; [lia|]; eapply zok_le; [|exact K1]; lia|]. cbn [length] in L.
      destruct (IH ops ltac:(lia) _ _ _ H K1) as [G1 G2]. cbn [map length]. rewrite list_sum_cons. split; [lia|]. eapply zok_le; [|exact G2]. lia.
    + destruct (IH ops ltac:(lia) _ _ _ H K1) as [G1 G2]. split; [lia|]. eapply zok_le; [|exact G2]. lia.
Qed.
Lemma reserve_total ts : forall s, total (reserve_all s ts) = total s + length ts.
Proof.
  induction ts as [|t ts IH]; intros s; cbn [reserve_all length]; [lia|]. rewrite IH, !total_eq. unfold incr. rewrite !sget_sset_c. destruct (class_of t); cbn [cls_eqb]; lia.
Qed.
Lemma translate_linear E ops code al : translate E ops = Some (code, al) ->
  length code <= length ops /\ total al <= length (e_locals E) + list_sum (map (wt E) ops).
Proof.
  unfold translate. destruct (dec_ops E ops (dec_start E)) as [z|] eqn:D; [|discriminate]. destruct (z_map z); [|discriminate].
  destruct (phase2 _ _ _ _) as [is|] eqn:P; [|discriminate]. intros H. injection H as <- <-. rewrite phase3_length. apply phase2_length in P. rewrite P.
  destruct (dec_ops_linear E _ _ (le_n _) _ _ (length (e_locals E)) D) as [G1 [_ _ G2]].
  - constructor; cbn [dec_start z_k k_al z_sav z_ctl al_new al_max].
    + intros c. apply le_n.
    + constructor.
    + rewrite reserve_total. cbn. lia.
  - split; [exact G1|lia].
Qed.

(** ** C69 *)
(** Whatever operators the translator is given, valid or not: if it translates them it emits at most one
    instruction for each. *)
Theorem C69_code : forall E ops code al, translate E ops = Some (code, al) -> length code <= length ops.
Proof. intros E ops code al H. exact (proj1 (translate_linear _ _ _ _ H)). Qed.
Lemma parts_length fs : length (wasi_imports fs) + length (defined_types fs) = length fs.
Proof. unfold wasi_imports, defined_types in *. induction fs as [|[d|w t] fs IH]; cbn [flat_map length app] in *; auto; rewrite ?app_length; cbn [length] in *; lia. Qed.
Lemma wt_leaves SM sd op : imports_first (sm_funcs SM) = true -> wt (env_of SM sd) op = leaves SM op.
Proof.
  intros I. destruct op; cbn [wt leaves env_of e_mod]; auto.
  - unfold results. destruct (nth_error (sm_funcs SM) f) as [fn|] eqn:N; [rewrite (call_info_ok _ _ _ I N); now destruct fn|].
    apply nth_error_None in N. pose proof (parts_length (sm_funcs SM)) as P. unfold call_info. cbn [src_of ms_nimp ms_functys]. destruct (Nat.ltb_spec f (length (wasi_imports (sm_funcs SM)))); [lia|].
    now rewrite nth_overflow by lia.
  - unfold type_or_empty. cbn [src_of ms_types]. now destruct (nth_error (sm_types SM) ty).
Qed.
(** Every function of a translated module (imports before definitions, as in every module file): no more
    instructions than its body has operators, and no more registers, of all classes together, than it declares
    locals and its operators can leave values. *)
Theorem C69_functions : forall SM M f sd fd, imports_first (sm_funcs SM) = true -> compile SM = Some M ->
  nth_error (sm_funcs SM) f = Some (SWasm sd) -> nth_error (md_funcs M) f = Some (FWasm fd) ->
  length (fd_code fd) <= length (operators sd) /\
  list_sum (map (fun k => slots M k f) classes) <= length (sf_locals sd) + list_sum (map (leaves SM) (operators sd)).
Proof.
  intros SM M f sd fd I HC NF NM. unfold compile in HC. destruct (map_opt (compile_func SM) (sm_funcs SM)) as [fs|] eqn:MO; [|discriminate]. injection HC as <-. cbn [md_funcs] in *.
  pose proof (map_opt_nth _ _ _ f MO) as H. rewrite NF in H. destruct H as (b & B1 & B2). rewrite NM in B2. injection B2 as <-.
  cbn [compile_func] in B1. fold (operators sd) in B1. destruct (translate (env_of SM sd) (operators sd)) as [[C al]|] eqn:T; [|discriminate]. injection B1 as <-.
  apply translate_linear in T as [T1 T2]. cbn [fd_code]. split; [exact T1|]. unfold slots. cbn [md_funcs]. rewrite NM. cbn [fd_alloc]. fold (total al). cbn [env_of e_locals] in T2.
  rewrite (map_ext _ _ (fun op => eq_sym (wt_leaves SM sd op I))). exact T2.
Qed.
(** So at every moment of every execution the registers in use, of all classes together, number at most what the
    texts of the functions in progress account for, one summand per call. *)
Theorem C69_registers : forall SM M hf host s f args c0 n c, imports_first (sm_funcs SM) = true -> compile SM = Some M ->
  initial M s f args = Ok c0 -> steps hf host M n c0 = inl c ->
  list_sum (map (fun k => length (regs c k)) classes) <= list_sum (map (footprint SM) (active c)).
Proof.
  intros SM M hf host s f args c0 n c I HC IN ST. destruct (C66_registers _ _ _ _ _ _ _ _ _ IN ST) as [R _].
  assert (E : list_sum (map (fun k => length (regs c k)) classes) = list_sum (map (all_slots M) (active c))).
  { unfold classes, all_slots. cbn [map]. rewrite !R. clear. unfold list_sum. induction (active c) as [|g fs IH]; [reflexivity|]. cbn [map fold_right] in *. rewrite <- IH. unfold classes. cbn [map fold_right]. lia. }
  rewrite E. clear E R ST IN. induction (active c) as [|g fs IH]; [apply le_n|]. cbn [map]. rewrite !list_sum_cons. apply Nat.add_le_mono; [|exact IH]. clear IH.
  unfold footprint. destruct (nth_error (md_funcs M) g) as [[fd|w t]|] eqn:NM; try (unfold all_slots, slots; rewrite NM; cbn; lia).
  pose proof HC as HC'. unfold compile in HC. destruct (map_opt (compile_func SM) (sm_funcs SM)) as [gs|] eqn:MO; [|discriminate]. injection HC as <-.
  pose proof (map_opt_nth _ _ _ g MO) as H. cbn [md_funcs] in NM. destruct (nth_error (sm_funcs SM) g) as [[sd|w t]|] eqn:NF.
  - exact (proj2 (C69_functions SM _ g sd fd I HC' NF NM)).
  - destruct H as (b & B1 & B2). rewrite NM in B2. injection B2 as <-. discriminate.
  - congruence.
Qed.
(** Three constants added, with a declared local; and a function for which both bounds are met exactly. *)
Definition p_sum := one [] [TI32] [TI64] [i32c 1; i32c 2; i32c 3; iadd; iadd].
Definition p_one := one [] [TI32] [TF32] [i32c 1].
Definition measured (SM : smodule) : option (nat * nat * nat * nat) :=
  match compile SM, sm_funcs SM with
  | Some M, SWasm sd :: _ => match md_funcs M with
      | FWasm fd :: _ => Some (length (fd_code fd), length (operators sd), list_sum (map (fun k => slots M k 0) classes), footprint SM 0)
      | _ => None end
  | _, _ => None
  end.
Example C69_example : imports_first (sm_funcs p_sum) = true /\ measured p_sum = Some (4, 6, 4, 6) /\
  imports_first (sm_funcs p_one) = true /\ measured p_one = Some (2, 2, 2, 2) /\
  imports_first (sm_funcs rfact) = true /\ exists M c0 c, compile rfact = Some M /\ initial M inst0 0 [VI32 3] = Ok c0 /\ steps hf0 host0 M 15 c0 = inl c /\
    active c = [0; 0; 0; 0] /\ list_sum (map (fun k => length (regs c k)) classes) = 12 /\ list_sum (map (footprint rfact) (active c)) = 40.
Proof.
  repeat (split; [vm_compute; reflexivity|]). do 3 eexists. repeat (split; [vm_compute; reflexivity|]). vm_compute. reflexivity.
Qed.
