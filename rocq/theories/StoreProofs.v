From Coq Require Import ZArith List Bool Lia ZifyBool ZifyNat.
From Verif Require Import Word Value WasmNum NumericProofs Mem MemProofs WasmMem Store StoreSpec.
Import ListNotations.
Open Scope Z_scope.

Lemma cls_eqb_eq a b : cls_eqb a b = true <-> a = b.
Proof. split; [destruct a, b; cbn; congruence|intros ->; destruct b; reflexivity]. Qed.
Lemma cls_eqb_refl a : cls_eqb a a = true.
Proof. now apply cls_eqb_eq. Qed.

(** ** globals *)
Lemma g_run_inv h : forall gs0 gs, g_run gs0 h = Ok gs ->
  length gs = length gs0 /\
  forall i v0, nth_error gs0 i = Some v0 ->
    exists v, nth_error gs i = Some v /\ val_cls v = val_cls v0 /\
              v = match last_set i h with Some v => v | None => v0 end.
Proof.
  induction h as [|o h IH]; intros gs0 gs H; cbn [g_run] in H.
  - injection H as <-. split; auto. intros i v0 Hi. exists v0. auto.
  - destruct (g_step gs0 o) as [gs1| |] eqn:E; cbn [bind] in H; try discriminate.
    destruct (IH _ _ H) as [L P]. clear IH H. destruct o as [c i|i v]; cbn [g_step] in E.
    + destruct (global_get c gs0 i); cbn [bind] in E; try discriminate. injection E as <-.
      split; auto. intros j v0 Hj. destruct (P j v0 Hj) as (w & Hw1 & Hw2 & Hw3). exists w. repeat split; auto.
      cbn [last_set]. destruct (last_set j h); auto.
    + unfold global_set in E. destruct (nth_error gs0 i) as [old|] eqn:Ei; try discriminate.
      destruct (cls_eqb (val_cls old) (val_cls v)) eqn:Ec; try discriminate. injection E as <-.
      apply cls_eqb_eq in Ec. rewrite upd_length in L. split; auto. intros j v0 Hj. cbn [last_set].
      destruct (Nat.eqb_spec j i) as [->|Hne].
      * assert (Hlt : (i < length gs0)%nat) by (apply nth_error_Some; congruence).
        destruct (P i v (upd_nth_eq gs0 i v Hlt)) as (w & Hw1 & Hw2 & Hw3). exists w.
        repeat split; auto; [congruence|]. destruct (last_set i h); auto.
      * destruct (P j v0) as (w & Hw1 & Hw2 & Hw3). { rewrite upd_nth_ne; auto. }
        exists w. repeat split; auto. destruct (last_set j h); auto.
Qed.
Lemma globals_history gs0 h gs : g_run gs0 h = Ok gs ->
  length gs = length gs0 /\
  forall i v0, nth_error gs0 i = Some v0 ->
    exists v, global_get (val_cls v0) gs i = Ok v /\ val_cls v = val_cls v0 /\
              v = match last_set i h with Some v => v | None => v0 end.
Proof.
  intros H. destruct (g_run_inv h gs0 gs H) as [L P]. split; auto. intros i v0 Hi.
  destruct (P i v0 Hi) as (v & Hv & Hc & He). exists v. unfold global_get. rewrite Hv, Hc, cls_eqb_refl. auto.
Qed.
(** a set of the right class to an existing global always succeeds, changes exactly that global *)
Lemma global_set_total gs i v old : nth_error gs i = Some old -> val_cls old = val_cls v ->
  exists gs', global_set gs i v = Ok gs' /\ nth_error gs' i = Some v /\
    length gs' = length gs /\ forall j, j <> i -> nth_error gs' j = nth_error gs j.
Proof.
  intros H Hc. unfold global_set. rewrite H, Hc, cls_eqb_refl. exists (upd gs i v). repeat split.
  - apply upd_nth_eq. apply nth_error_Some. congruence.
  - apply upd_length.
  - intros j Hj. apply upd_nth_ne. auto.
Qed.
Lemma global_set_wrong_type gs i v old : nth_error gs i = Some old -> val_cls old <> val_cls v ->
  exists t, global_set gs i v = Trap t.
Proof.
  intros H Hc. unfold global_set. rewrite H. destruct (cls_eqb _ _) eqn:E; [apply cls_eqb_eq in E; contradiction|eauto].
Qed.

(** ** tables *)
Lemma nth_error_upd {A} (l : list A) i j x :
  nth_error (upd l i x) j = if Nat.eqb i j then (if (i <? length l)%nat then Some x else None) else nth_error l j.
Proof.
  destruct (Nat.eqb_spec i j) as [->|]; [|apply upd_nth_ne; auto].
  destruct (Nat.ltb_spec j (length l)); [apply upd_nth_eq; auto|].
  apply nth_error_None. rewrite upd_length. auto.
Qed.
Lemma fill_loop_spec cnt : forall tb i r, 0 <= i ->
  if i + Z.of_nat cnt <=? Z.of_nat (length tb) then
    exists tb', fill_loop tb i cnt r = Ok tb' /\ length tb' = length tb /\
      forall j, nth_error tb' j =
        if (i <=? Z.of_nat j) && (Z.of_nat j <? i + Z.of_nat cnt) then Some r else nth_error tb j
  else cnt = O \/ exists t, fill_loop tb i cnt r = Trap t.
Proof.
  induction cnt as [|cnt IH]; intros tb i r Hi.
  - destruct (i + Z.of_nat 0 <=? Z.of_nat (length tb)); [|auto]. exists tb. cbn. repeat split; auto.
    intros j. replace (_ && _) with false by lia. reflexivity.
  - cbn [fill_loop]. destruct (Z.ltb_spec i (Z.of_nat (length tb))) as [G|G].
    + specialize (IH (upd tb (Z.to_nat i) r) (i + 1) r ltac:(lia)). rewrite upd_length in IH.
      replace (i + 1 + Z.of_nat cnt) with (i + Z.of_nat (S cnt)) in IH by lia.
      destruct (i + Z.of_nat (S cnt) <=? Z.of_nat (length tb)) eqn:E.
      * destruct IH as (tb' & H1 & H2 & H3). exists tb'. repeat split; auto. intros j. rewrite H3, nth_error_upd.
        destruct (Nat.eqb_spec (Z.to_nat i) j) as [<-|].
        -- replace (Z.to_nat i <? length tb)%nat with true by lia. replace ((i <=? _) && _) with true by lia.
           replace (_ && _) with false by lia. reflexivity.
        -- replace ((i + 1 <=? Z.of_nat j) && (Z.of_nat j <? i + Z.of_nat (S cnt)))
             with ((i <=? Z.of_nat j) && (Z.of_nat j <? i + Z.of_nat (S cnt))) by lia. reflexivity.
      * right. destruct IH as [->|[t Ht]]; [lia|eauto].
    + replace (_ <=? _) with false by lia. right; eauto.
Qed.

Definition tables_small (ts : list table) : Prop := Forall (fun tb => Z.of_nat (length tb) < 2 ^ 32) ts.

Lemma nth_small ts t tb : tables_small ts -> nth_error ts t = Some tb -> Z.of_nat (length tb) < 2^32.
Proof. intros H E. apply nth_error_In in E. unfold tables_small in H. rewrite Forall_forall in H. auto. Qed.

(** one step: either it agrees with the standard *)
Lemma t_step_ok ts o ts' : tables_small ts -> operands_ok o -> t_step ts o = Ok ts' ->
  map (@length ref) ts' = map (@length ref) ts /\
  ((match o with TFill _ i _ n => unsigned 32 i + unsigned 32 n < 2^32 | _ => True end) ->
   forall t j tb, nth_error ts t = Some tb -> 0 <= j < Z.of_nat (length tb) ->
   exists tb', nth_error ts' t = Some tb' /\
     nth_error tb' (Z.to_nat j) = match covers t j o with Some r => Some r | None => nth_error tb (Z.to_nat j) end).
Proof.
  intros HS Ho H.
  assert (ML : forall t tb tb', nth_error ts t = Some tb -> length tb' = length tb ->
     map (@length ref) (upd ts t tb') = map (@length ref) ts).
  { clear. induction ts as [|x ts IH]; intros [|t] tb tb' E L; cbn in *; try discriminate.
    - injection E as ->. now rewrite L.
    - f_equal. eauto. }
  destruct o as [t i|t i r|t i r n]; cbn [t_step operands_ok] in *.
  - unfold table_get in H. destruct (nth_error ts t); try discriminate.
    destruct (nth_error _ _); try discriminate. cbn [bind] in H. injection H as <-. split; auto.
    intros _ t' j tb' E Hj. exists tb'. auto.
  - unfold table_set in H. destruct (nth_error ts t) as [tb|] eqn:Et; try discriminate.
    destruct (Z.ltb_spec (cast_u 32 i) (Z.of_nat (length tb))) as [G|G]; try discriminate. injection H as <-.
    destruct (u32 i Ho) as [Eu Ru]. rewrite Eu in *. split; [apply (ML t tb); auto using upd_length|].
    intros _ t' j tb' E Hj. cbn [covers]. rewrite nth_error_upd. rewrite (Nat.eqb_sym t' t).
    destruct (Nat.eqb_spec t t') as [<-|Hne].
    + replace (t <? length ts)%nat with true by (assert (t < length ts)%nat by (apply nth_error_Some; congruence); lia).
      eexists; split; [reflexivity|]. rewrite nth_error_upd. rewrite Et in E. injection E as <-.
      destruct (Z.eqb_spec j (unsigned 32 i)) as [->|Hj'].
      * rewrite Nat.eqb_refl. cbn [andb]. replace (_ <? _)%nat with true by lia. reflexivity.
      * replace (Z.to_nat (unsigned 32 i) =? Z.to_nat j)%nat with false by lia. reflexivity.
    + exists tb'. cbn [andb]. auto.
  - destruct Ho as [Hi Hn]. destruct (u32 i Hi) as [Ei Ri], (u32 n Hn) as [En Rn].
    unfold table_fill in H. destruct (nth_error ts t) as [tb|] eqn:Et; try discriminate.
    pose proof (nth_small _ _ _ HS Et) as Hlen. rewrite Ei, En in H.
    set (cnt := Z.to_nat (Z.min _ _)) in H.
    assert (Hcnt : unsigned 32 i + unsigned 32 n < 2^32 -> cnt = Z.to_nat (Z.min (unsigned 32 n) (Z.of_nat (length tb) + 1))).
    { intros HW. unfold cnt, usize. rewrite Z.mod_small by lia. f_equal. lia. }
    clearbody cnt. pose proof (fill_loop_spec cnt tb (unsigned 32 i) r ltac:(lia)) as F.
    destruct (fill_loop tb (unsigned 32 i) cnt r) as [tb1| |] eqn:EF; cbn [bind] in H; try discriminate. injection H as <-.
    destruct (Z.leb_spec (unsigned 32 i + Z.of_nat cnt) (Z.of_nat (length tb))) as [G|G].
    + destruct F as (tb2 & F1 & F2 & F3). injection F1 as <-. split; [apply (ML t tb); auto|].
      intros HW t' j tb' E Hj. cbn [covers]. rewrite nth_error_upd. rewrite (Nat.eqb_sym t' t).
      destruct (Nat.eqb_spec t t') as [<-|Hne]; [|exists tb'; cbn [andb]; auto].
      replace (t <? length ts)%nat with true by (assert (t < length ts)%nat by (apply nth_error_Some; congruence); lia).
      eexists; split; [reflexivity|]. rewrite Et in E. injection E as <-. rewrite F3. cbn [andb].
      specialize (Hcnt HW). assert (Hc : Z.of_nat cnt = unsigned 32 n) by lia.
      rewrite Hc, Z2Nat.id by lia. destruct ((_ <=? j) && _); reflexivity.
    + destruct F as [F|[t0 F]]; [|discriminate]. rewrite F in EF. cbn in EF. injection EF as <-.
      split; [apply (ML t tb); auto|]. intros HW t' j tb' E Hj.
      specialize (Hcnt HW). assert (unsigned 32 n = 0) by lia. cbn [covers].
      rewrite <- andb_assoc. replace ((unsigned 32 i <=? j) && (j <? unsigned 32 i + unsigned 32 n)) with false by lia.
      rewrite andb_false_r. rewrite nth_error_upd.
      destruct (Nat.eqb_spec t t') as [<-|Hne]; [|exists tb'; auto].
      replace (t <? length ts)%nat with true by (assert (t < length ts)%nat by (apply nth_error_Some; congruence); lia).
      rewrite Et in E. injection E as <-. eexists; split; reflexivity.
Qed.

(** trap iff the standard traps, for get and set, and for fill unless n = 0 or i + n wraps *)
Lemma t_step_trap ts o : tables_small ts -> operands_ok o ->
  (match o with TFill _ i _ n => n <> 0 /\ unsigned 32 i + unsigned 32 n < 2^32 | _ => True end) ->
  (exists t, t_step ts o = Trap t) <-> wasm_table_traps ts o.
Proof.
  intros HS Ho HX. destruct o as [t i|t i r|t i r n]; cbn [t_step operands_ok wasm_table_traps] in *.
  - unfold table_get. destruct (u32 i Ho) as [-> R]. destruct (nth_error ts t) as [tb|]; cbn [bind].
    + destruct (nth_error tb (Z.to_nat (unsigned 32 i))) eqn:E; cbn [bind].
      * split; [intros [? ?]; discriminate|]. intros G. assert (Z.to_nat (unsigned 32 i) < length tb)%nat by (apply nth_error_Some; congruence). lia.
      * apply nth_error_None in E. split; [lia|]. eauto.
    + split; eauto.
  - unfold table_set. destruct (u32 i Ho) as [-> R]. destruct (nth_error ts t) as [tb|]; [|split; eauto].
    destruct (Z.ltb_spec (unsigned 32 i) (Z.of_nat (length tb))); split; eauto; try lia. intros [? ?]; discriminate.
  - destruct Ho as [Hi Hn]. destruct (u32 i Hi) as [Ei Ri], (u32 n Hn) as [En Rn]. destruct HX as [Hn0 HX].
    unfold table_fill. rewrite Ei, En. destruct (nth_error ts t) as [tb|] eqn:Et; [|split; eauto].
    pose proof (nth_small _ _ _ HS Et) as Hlen.
    unfold usize. rewrite Z.mod_small by lia.
    assert (0 < unsigned 32 n) by (unfold unsigned, in_s in *; destruct (Z.ltb_spec n 0); lia).
    set (cnt := Z.to_nat (Z.min _ _)). pose proof (fill_loop_spec cnt tb (unsigned 32 i) r ltac:(lia)) as F.
    destruct (Z.leb_spec (unsigned 32 i + Z.of_nat cnt) (Z.of_nat (length tb))) as [G|G].
    + destruct F as (tb2 & F1 & _). rewrite F1. cbn [bind]. split; [intros [? ?]; discriminate|]. unfold cnt in *. lia.
    + destruct F as [F|[t0 F]]; [unfold cnt in F; lia|]. rewrite F. cbn [bind]. split; [unfold cnt in *; lia|eauto].
Qed.

Lemma tables_small_map ts ts' : map (@length ref) ts' = map (@length ref) ts -> tables_small ts -> tables_small ts'.
Proof.
  unfold tables_small. revert ts. induction ts' as [|x ts' IH]; intros [|y ts] E H; cbn in *; try discriminate; constructor.
  - inversion H; subst. injection E as E _. now rewrite E.
  - inversion H; subst. injection E as _ E. eauto.
Qed.

Lemma tables_history h : forall ts0 ts, tables_small ts0 -> Forall operands_ok h ->
  Forall (fun o => match o with TFill _ i _ n => unsigned 32 i + unsigned 32 n < 2^32 | _ => True end) h ->
  t_run ts0 h = Ok ts ->
  map (@length ref) ts = map (@length ref) ts0 /\
  forall t j tb0, nth_error ts0 t = Some tb0 -> 0 <= j < Z.of_nat (length tb0) ->
    exists tb, nth_error ts t = Some tb /\ 
      nth_error tb (Z.to_nat j) = match last_write t j h with Some r => Some r | None => nth_error tb0 (Z.to_nat j) end.
Proof.
  induction h as [|o h IH]; intros ts0 ts HS Ho HW H; cbn [t_run] in H.
  - injection H as <-. split; auto. intros t j tb0 E Hj. exists tb0. auto.
  - inversion Ho as [|? ? Ho1 Ho2]; subst. inversion HW as [|? ? HW1 HW2]; subst.
    destruct (t_step ts0 o) as [ts1| |] eqn:E1; cbn [bind] in H; try discriminate.
    destruct (t_step_ok _ _ _ HS Ho1 E1) as [L1 P1]. specialize (P1 HW1).
    destruct (IH _ _ (tables_small_map _ _ L1 HS) Ho2 HW2 H) as [L P]. split; [congruence|].
    intros t j tb0 E Hj. destruct (P1 t j tb0 E Hj) as (tb1 & E1' & N1).
    assert (Hlen : length tb1 = length tb0).
    { pose proof (map_nth_error (@length ref) t ts0 E) as Q0. pose proof (map_nth_error (@length ref) t ts1 E1') as Q1.
      rewrite L1 in Q1. congruence. }
    destruct (P t j tb1 E1' ltac:(rewrite Hlen; lia)) as (tb & E2 & N2). exists tb. split; [exact E2|].
    rewrite N2. cbn [last_write]. now destruct (last_write t j h).
Qed.
Lemma table_get_value (ts : list table) t (tb : table) i r : in_s 32 i -> nth_error ts t = Some tb ->
  nth_error tb (Z.to_nat (unsigned 32 i)) = Some r -> table_get ts t i = Ok r.
Proof. intros Hi E N. unfold table_get. destruct (u32 i Hi) as [-> _]. now rewrite E, N. Qed.

(** ** data segments *)
Lemma d_run_dropped h : forall m ds m' ds' k, nth_error ds k = Some [] ->
  d_run (m, ds) h = Ok (m', ds') -> nth_error ds' k = Some [].
Proof.
  induction h as [|o h IH]; intros m ds m' ds' k Hk H; cbn [d_run] in H.
  - injection H as <- <-. auto.
  - destruct o as [q d s n|q]; cbn [d_step] in H.
    + destruct (mem_init m ds q d s n) as [m1| |]; cbn [bind] in H; try discriminate. eauto.
    + cbn [bind] in H. eapply IH; [|exact H]. unfold data_drop. rewrite nth_error_upd.
      destruct (Nat.eqb_spec q k) as [->|]; auto.
      replace (k <? length ds)%nat with true by (assert (k < length ds)%nat by (apply nth_error_Some; congruence); lia).
      reflexivity.
Qed.
Lemma init_of_empty m ds k d s n : in_s 32 s -> in_s 32 n -> n <> 0 -> nth_error ds k = Some [] ->
  exists t, mem_init m ds k d s n = Trap t.
Proof.
  intros Hs Hn Hn0 E. unfold mem_init. rewrite E. destruct (u32 s Hs) as [-> Rs], (u32 n Hn) as [-> Rn].
  assert (0 < unsigned 32 n) by (unfold unsigned, in_s in *; destruct (Z.ltb_spec n 0); lia).
  replace (0 <? _) with true by lia. unfold slice. change (mlen []) with 0.
  replace (_ && _) with false; [cbn; eauto|]. symmetry. apply andb_false_iff. unfold usize.
  pose proof (Z.mod_pos_bound (unsigned 32 s + unsigned 32 n) (2^32) ltac:(lia)).
  destruct (Z.lt_ge_cases (unsigned 32 s + unsigned 32 n) (2^32)).
  - right. rewrite Z.mod_small by lia. lia.
  - left. replace (unsigned 32 s + unsigned 32 n) with (unsigned 32 s + unsigned 32 n - 2^32 + 1 * 2^32) by lia.
    rewrite Z.mod_add by lia. rewrite Z.mod_small by lia. lia.
Qed.
Lemma drop_history m0 ds0 h1 k h2 m ds d s n :
  (k < length ds0)%nat -> d_run (m0, ds0) (h1 ++ DDrop k :: h2) = Ok (m, ds) ->
  in_s 32 s -> in_s 32 n -> n <> 0 -> exists t, mem_init m ds k d s n = Trap t.
Proof.
  intros Hk H Hs Hn Hn0. apply init_of_empty; auto.
  assert (APP : forall a b st, d_run st (a ++ b) = let* st' := d_run st a in d_run st' b).
  { induction a as [|o a IH]; intros b st; cbn [app d_run bind]; auto. destruct (d_step st o); cbn [bind]; auto. }
  rewrite APP in H. destruct (d_run (m0, ds0) h1) as [[m1 ds1]| |] eqn:E; cbn [bind] in H; try discriminate.
  cbn [d_run d_step bind] in H.
  assert (LEN : forall a st st', d_run st a = Ok st' -> length (snd st') = length (snd st)).
  { clear. induction a as [|o a IH]; intros [m ds] st' H; cbn [d_run] in H; [injection H as <-; auto|].
    destruct o as [q d s n|q]; cbn [d_step] in H.
    - destruct (mem_init m ds q d s n); cbn [bind] in H; try discriminate. apply IH in H. auto.
    - cbn [bind] in H. apply IH in H. cbn [snd] in *. unfold data_drop in H. now rewrite upd_length in H. }
  apply LEN in E. cbn [snd] in E. eapply d_run_dropped; [|exact H]. unfold data_drop. apply upd_nth_eq. lia.
Qed.
Lemma drop_other ds k : data_drop (data_drop ds k) k = data_drop ds k /\
  length (data_drop ds k) = length ds /\ forall j, j <> k -> nth_error (data_drop ds k) j = nth_error ds j.
Proof.
  unfold data_drop. rewrite upd_upd, upd_length. repeat split. intros j Hj. apply upd_nth_ne. auto.
Qed.

(** ** every operation, the divergent fills included: a fill of no entries, or one whose range passes
    2^32, does nothing when the table exists *)
Lemma upd_noop {A} (l : list A) t x : nth_error l t = Some x -> upd l t x = l.
Proof. revert t. induction l as [|y l IH]; intros [|t] E; cbn in *; try discriminate; [congruence|f_equal; auto]. Qed.
Lemma void_fill_nop ts t tb i r n : nth_error ts t = Some tb -> in_s 32 i -> in_s 32 n ->
  n = 0 \/ 2^32 <= unsigned 32 i + unsigned 32 n -> t_step ts (TFill t i r n) = Ok ts.
Proof.
  intros E Hi Hn HV. cbn [t_step]. unfold table_fill. rewrite E.
  destruct (u32 i Hi) as [-> Ri], (u32 n Hn) as [-> Rn]. cbv zeta.
  assert (C : Z.to_nat (Z.min (usize (unsigned 32 i + unsigned 32 n) - unsigned 32 i) (Z.of_nat (length tb) + 1)) = 0%nat).
  { unfold usize. destruct HV as [->|HV].
    - change (unsigned 32 0) with 0. rewrite Z.mod_small by lia. lia.
    - replace (unsigned 32 i + unsigned 32 n) with (unsigned 32 i + unsigned 32 n - 2^32 + 1 * 2^32) by lia.
      rewrite Z.mod_add by lia. rewrite Z.mod_small by lia. lia. }
  rewrite C. cbn [fill_loop bind]. now rewrite upd_noop.
Qed.
Lemma t_step_trap_every ts o : tables_small ts -> operands_ok o ->
  (exists t, t_step ts o = Trap t) <->
  match o with
  | TFill t i _ n => nth_error ts t = None \/ (n <> 0 /\ unsigned 32 i + unsigned 32 n < 2^32 /\ wasm_table_traps ts o)
  | _ => wasm_table_traps ts o
  end.
Proof.
  intros HS Ho. destruct o as [t i|t i r|t i r n].
  - exact (t_step_trap ts (TGet t i) HS Ho Logic.I).
  - exact (t_step_trap ts (TSet t i r) HS Ho Logic.I).
  - destruct (nth_error ts t) as [tb|] eqn:E.
    + destruct (Z.eq_dec n 0) as [N|N]; [|destruct (Z_lt_le_dec (unsigned 32 i + unsigned 32 n) (2^32)) as [W|W]].
      * rewrite (void_fill_nop ts t tb i r n E (proj1 Ho) (proj2 Ho) (or_introl N)).
        split; [intros [? ?]; discriminate|intros [?|[? _]]; [discriminate|contradiction]].
      * rewrite (t_step_trap ts (TFill t i r n) HS Ho (conj N W)). split; [auto|intros [?|(_ & _ & ?)]; [discriminate|assumption]].
      * rewrite (void_fill_nop ts t tb i r n E (proj1 Ho) (proj2 Ho) (or_intror W)).
        split; [intros [? ?]; discriminate|intros [?|(_ & ? & _)]; [discriminate|lia]].
    + cbn [t_step]. unfold table_fill. rewrite E. split; eauto.
Qed.
Definition not_void (o : top) : bool :=
  match o with TFill _ i _ n => unsigned 32 i + unsigned 32 n <? 2^32 | _ => true end.
Lemma t_run_effective h : forall ts0 ts, Forall operands_ok h ->
  t_run ts0 h = Ok ts -> t_run ts0 (filter not_void h) = Ok ts.
Proof.
  induction h as [|o h IH]; intros ts0 ts Ho H; [exact H|].
  inversion Ho as [|? ? Ho1 Ho2]; subst. cbn [t_run] in H.
  destruct (t_step ts0 o) as [ts1| |] eqn:E1; cbn [bind] in H; try discriminate.
  cbn [filter]. destruct (not_void o) eqn:F.
  - cbn [t_run]. rewrite E1. cbn [bind]. auto.
  - destruct o as [| |t i r n]; try discriminate. cbn [not_void] in F.
    destruct (nth_error ts0 t) as [tb|] eqn:Et.
    + rewrite (void_fill_nop ts0 t tb i r n Et (proj1 Ho1) (proj2 Ho1)) in E1 by (right; lia). injection E1 as <-. auto.
    + cbn [t_step] in E1. unfold table_fill in E1. rewrite Et in E1. discriminate.
Qed.
Lemma tables_history_every h ts0 ts : tables_small ts0 -> Forall operands_ok h -> t_run ts0 h = Ok ts ->
  map (@length ref) ts = map (@length ref) ts0 /\
  forall t j tb0, nth_error ts0 t = Some tb0 -> 0 <= j < Z.of_nat (length tb0) ->
    exists tb, nth_error ts t = Some tb /\
      nth_error tb (Z.to_nat j) =
        match last_write t j (filter not_void h) with Some r => Some r | None => nth_error tb0 (Z.to_nat j) end.
Proof.
  intros HS Ho H. apply (tables_history (filter not_void h) ts0 ts HS).
  - apply Forall_forall. intros o Hin. apply filter_In in Hin as [Hin _]. rewrite Forall_forall in Ho. auto.
  - apply Forall_forall. intros o Hin. apply filter_In in Hin as [_ F]. destruct o; auto. cbn [not_void] in F. lia.
  - now apply t_run_effective.
Qed.

(** ** copy, fill and init of no bytes, and outside the memory *)
Lemma bulk_zero m d s v datas k data : nth_error datas k = Some data ->
  mem_copy m d s 0 = Ok m /\ mem_fill m d v 0 = Ok m /\ mem_init m datas k d s 0 = Ok m.
Proof. intros E. unfold mem_init. rewrite E. repeat split. Qed.
Lemma copy_outside m d s n : in_s 32 d -> in_s 32 s -> in_s 32 n -> n <> 0 ->
  mlen m < unsigned 32 s + unsigned 32 n \/ mlen m < unsigned 32 d + unsigned 32 n -> mem_copy m d s n = UB.
Proof.
  intros Hd Hs Hn N O. unfold mem_copy. destruct (u32 d Hd) as [-> Rd], (u32 s Hs) as [-> Rs], (u32 n Hn) as [En Rn].
  rewrite En. assert (0 < unsigned 32 n) by (unfold unsigned, in_s in *; destruct (Z.ltb_spec n 0); lia).
  cbv zeta. replace (unsigned 32 n =? 0) with false by lia. unfold raw_read.
  destruct ((0 <=? unsigned 32 s) && (unsigned 32 s + unsigned 32 n <=? mlen m)) eqn:B; [|reflexivity].
  cbn [bind]. unfold raw_write.
  assert (L : mlen (firstn (Z.to_nat (unsigned 32 n)) (skipn (Z.to_nat (unsigned 32 s)) m)) = unsigned 32 n)
    by (unfold mlen in *; rewrite firstn_length, skipn_length; lia).
  rewrite L. replace ((0 <=? unsigned 32 d) && _) with false by lia. reflexivity.
Qed.
Lemma fill_outside m d v n : in_s 32 d -> in_s 32 n -> n <> 0 ->
  mlen m < unsigned 32 d + unsigned 32 n -> mem_fill m d v n = UB.
Proof.
  intros Hd Hn N O. unfold mem_fill. destruct (u32 d Hd) as [-> Rd], (u32 n Hn) as [-> Rn].
  assert (0 < unsigned 32 n) by (unfold unsigned, in_s in *; destruct (Z.ltb_spec n 0); lia).
  cbv zeta. replace (unsigned 32 n =? 0) with false by lia. replace (mlen m <? _) with true by lia. reflexivity.
Qed.
