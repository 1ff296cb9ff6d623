(** Every index in translated code lies in the frame (C20). *)
From Coq Require Import ZArith List Bool Lia.
From Verif Require Import Word Value Numeric Float Mem MemProofs Store StoreProofs Regs IR Machine Wasm WasmTyping Decoder Check RegsProofs Loc DecodeProofs BasicSim Sim StaticSpec.
Import ListNotations.
Open Scope nat_scope.

Lemma number_regs_bound W ts : W16 W -> forall s, (forall c, sget s c + count_cls c ts <= W c) ->
  Forall (fun r => r_idx r < W (r_cls r)) (number_regs s ts) /\ map r_cls (number_regs s ts) = map class_of ts.
Proof.
  intros K. induction ts as [|t ts IH]; intros s H; cbn [number_regs map]; [split; auto|].
  destruct (IH (incr s (class_of t))) as [A B].
  { intros c. specialize (H c). unfold incr. rewrite sget_sset. unfold count_cls in H |- *. cbn [filter] in H. destruct (cls_eqb (class_of t) c) eqn:E; cbn [length] in H; [apply cls_eqb_eq in E; subst|]; lia. }
  split; [|cbn [r_cls]; now rewrite B]. constructor; auto. cbn [r_idx r_cls]. specialize (H (class_of t)). specialize (K (class_of t)).
  unfold count_cls in H. cbn [filter] in H. rewrite cls_eqb_refl in H. cbn [length] in H. rewrite u16_small; lia.
Qed.
Lemma peek_bound W a ts : W16 W -> fits W a -> (forall c, sget (al_d a) c <= sget (al_max a) c) -> (forall c, count_cls c ts <= W c) ->
  Forall (fun r => r_idx r < W (r_cls r)) (al_peek_regs a ts).
Proof.
  intros K F D C. unfold al_peek_regs. apply number_regs_bound; auto. intros c. rewrite sget_sbuild. specialize (F c). specialize (D c). specialize (C c). lia.
Qed.
Lemma slots_bound nl W a : forall b, (forall c, nl c + cnt c (a ++ b) <= W c) -> Forall (fun r => r_idx r < W (r_cls r)) (slots nl a b).
Proof.
  induction a as [|c a IH]; intros b H; cbn [slots]; constructor.
  - cbn [r_idx r_cls]. specialize (H c). cbn [app] in H. rewrite cnt_cons, cls_eqb_refl in H. lia.
  - apply IH. intros c'. specialize (H c'). cbn [app] in H. rewrite cnt_cons in H. lia.
Qed.
Lemma branch_src_bound W d n : W16 W -> (forall c, sget d c <= W c) -> forall tgt i, i + length tgt = n -> (forall r, In r tgt -> 0 < sget d (r_cls r)) ->
  Forall (fun r => r_idx r < W (r_cls r)) (branch_src d n i tgt).
Proof.
  intros K D. induction tgt as [|r tgt IH]; intros i L P; cbn [branch_src length] in *; constructor.
  - cbn [r_idx r_cls]. specialize (P r (or_introl eq_refl)). specialize (D (r_cls r)). specialize (K (r_cls r)). rewrite u16_small; lia.
  - apply IH; [lia|]. intros r' I. apply P. now right.
Qed.

Lemma map_on_stack ts : map class_of (on_stack ts) = tops ts.
Proof. apply tops_rev. Qed.
Lemma cnt_in c l : In c l -> 0 < cnt c l.
Proof. induction l as [|x l IH]; intros []; rewrite cnt_cons; [subst; rewrite cls_eqb_refl; lia|]. specialize (IH H). lia. Qed.
Definition rok (W : cls -> nat) := Forall (fun r => r_idx r < W (r_cls r)).

Section S.
  Variable SM : smodule.
  Variable fd0 : sfdef.
  Notation E := (env_of SM fd0).
  Notation nl := (nl E).
  Notation NL := (nlocals E).
  Notation F := {| f_mod := SM; f_locals := fst (sf_type fd0) ++ sf_locals fd0; f_results := snd (sf_type fd0) |}.
  Hypothesis HL : (Z.of_nat NL <= 65536)%Z.
  Hypothesis HI : imports_first (sm_funcs SM) = true.
  Hypothesis HR : Forall one_result (sm_funcs SM).

  (** pending operands name existing locals *)
  Definition pend_ok (p : list (cls * opnd)) : Prop :=
    Forall (fun x => match snd x with OReg _ => False | OConst _ => True | OLoc n => n < NL end) p.
  Definition opnd_ok (W : cls -> nat) (c : cls) (o : opnd) : Prop :=
    match o with OReg n => n < W c | OConst _ => True | OLoc n => n < NL end.

  Lemma local_type n t : nth_error (f_locals F) n = Some t -> n < NL /\ ltype E n = t /\ u16 n = n.
  Proof.
    cbn [f_locals]. intros H. assert (n < NL). { unfold nlocals. cbn [e_params e_locals env_of]. apply nth_error_Some. congruence. }
    split; auto. split; [|apply u16_small; lia]. unfold ltype. cbn [e_params e_locals env_of]. now apply nth_error_nth.
  Qed.
  Lemma take_pend_ok W c n p : n < W c -> pend_ok p -> opnd_ok W c (fst (take_pend c n p)) /\ pend_ok (snd (take_pend c n p)).
  Proof.
    intros N P. unfold take_pend. destruct p as [|[c' o] p]; [split; auto|]. inversion P as [|? ? P1 P2]; subst. cbn [snd] in P1.
    destruct (cls_eqb c' c); cbn [fst snd]; split; auto. destruct o; cbn [opnd_ok]; auto. contradiction.
  Qed.
  Lemma take_all_ok W ts : forall fl ns p, Forall2 (fun t n => n < W (class_of t)) ts ns -> pend_ok p ->
    let (os, p') := take_all ts fl ns p in
    (length fl = length ts -> Forall2 (fun t o => opnd_ok W (class_of t) o) ts os) /\ pend_ok p'.
  Proof.
    induction ts as [|t ts IH]; intros fl ns p N P; inversion N as [|? n ? ns' N1 N2]; subst; cbn [take_all]; [split; auto; constructor|].
    destruct fl as [|b fl]; [split; auto; discriminate|].
    destruct (take_pend_ok W (class_of t) n p N1 P) as [A B].
    destruct b; cbn [fst snd].
    - destruct (take_pend (class_of t) n p) as [o p1]. cbn [fst snd] in *. specialize (IH fl ns' p1 N2 B). destruct (take_all ts fl ns' p1) as [os p2]. destruct IH as [X Y].
      split; [intros L; constructor; auto|auto].
    - specialize (IH fl ns' p N2 P). destruct (take_all ts fl ns' p) as [os p2]. destruct IH as [X Y].
      split; [intros L; constructor; auto|auto].
  Qed.
  Lemma opnds_within W ts os : Forall2 (fun t o => opnd_ok W (class_of t) o) ts os -> rok W (opnds_regs ts os) /\ Forall (fun l => l < NL) (flat_map opnd_locals os).
  Proof.
    induction 1 as [|t o ts os H F2 [A B]]; cbn [opnds_regs flat_map]; [split; constructor|].
    split; apply Forall_app; split; auto; destruct o; cbn in *; auto.
  Qed.
  Lemma F2_rev {A B} (R0 : A -> B -> Prop) l l' : Forall2 R0 l l' -> Forall2 R0 (rev l) (rev l').
  Proof. induction 1; cbn; auto. apply Forall2_app; auto. Qed.
  Lemma slots_F2 W ts : forall b, rok W (slots nl (map class_of ts) b) -> Forall2 (fun t n => n < W (class_of t)) ts (map r_idx (slots nl (map class_of ts) b)).
  Proof. induction ts as [|t ts IH]; intros b H; cbn [map slots] in *; inversion H; subst; constructor; auto. Qed.

  (** one operator *)
  Definition step_ok (ts : list valtype) (outer : list cls) (k : cst) (is : list instr) (k1 : cst) : Prop :=
    ainv nl (k_al k1) (map class_of ts ++ outer) /\ mle (k_al k) (k_al k1) /\ pend_ok (k_pend k1) /\
    forall W, W16 W -> fits W (k_al k1) -> Forall (within W NL) is.
  Lemma value_ok t o nxt k ts outer : ainv nl (k_al k) (map class_of ts ++ outer) -> pend_ok (k_pend k) ->
    match o with OReg _ => False | OConst _ => True | OLoc n => n < NL end ->
    let (is, k1) := dec_value t o nxt k in step_ok (t :: ts) outer k is k1.
  Proof.
    intros A P O. unfold dec_value. destruct (al_push_ok nl _ _ t A) as (B1 & B2 & B3). destruct (al_push (k_al k) t) as [a r]. cbn [fst snd] in *.
    destruct (folds (class_of t) nxt); split; cbn [k_al k_pend]; auto; split; auto; split; auto.
    - constructor; auto.
    - intros W K FW. destruct (B3 W K FW) as [-> L]. constructor; auto. split; cbn [regs_of locals_of r_idx dst_regs dst_locals]; destruct o; cbn; repeat constructor; cbn; auto; contradiction.
  Qed.
  Lemma pop_regs_F2 W ts a rest : ainv nl a (map class_of ts ++ rest) -> W16 W -> fits W a ->
    Forall2 (fun t n => n < W (class_of t)) ts (snd (pop_regs a ts)).
  Proof.
    intros A K FW. destruct (pop_regs_ok nl ts a rest A) as (_ & _ & Q). rewrite (Q W K FW). apply slots_F2. apply slots_bound. intros c. eapply ainv_fits; eauto.
  Qed.
  Lemma srcs_ok W o ns p : Forall2 (fun t n => n < W (class_of t)) (rev (sop_args o)) ns -> pend_ok p ->
    let (srcs, p') := match o with SGlobalSet t _ => let (s, p) := global_src (class_of t) (hd 0 ns) p in ([s], p) | _ => take_all (rev (sop_args o)) (sop_takes o) ns p end in
    Forall2 (fun t o => opnd_ok W (class_of t) o) (rev (sop_args o)) srcs /\ pend_ok p'.
  Proof.
    intros N P. pose proof (take_all_ok W (rev (sop_args o)) (sop_takes o) ns p N P) as T.
    assert (L : length (sop_takes o) = length (rev (sop_args o))) by (rewrite rev_length; destruct o; cbn; rewrite ?map_length; reflexivity).
    destruct o; try (destruct (take_all _ _ ns p) as [srcs p']; destruct T as [T1 T2]; split; auto; fail).
    cbn [sop_args rev app] in *. inversion N as [|? n ? ns' N1 N2]; subst. inversion N2; subst. cbn [hd]. unfold global_src.
    destruct (take_pend_ok W (class_of t) n p N1 P) as [A B]. destruct (take_pend (class_of t) n p) as [o p1]. cbn [fst snd] in *.
    split; auto. constructor; [|constructor]. destruct o; cbn in *; auto.
  Qed.
  Lemma fold_dst_local c nxt l : fold_dst E c nxt = Some l -> exists n rest, nxt = FBasic (BSet n) :: rest /\ l = u16 n /\ class_of (ltype E n) = c.
  Proof.
    unfold fold_dst. destruct nxt as [|[b| | | | | | | | | | | ] rest]; try discriminate. destruct b as [|n|n|n| | | |]; try discriminate. intros H.
    destruct (is_num c && cls_eqb (class_of (ltype E n)) c) eqn:D; [|discriminate]. injection H as <-. apply andb_prop in D as [_ D]. apply cls_eqb_eq in D. eauto.
  Qed.
  Lemma op_ok o nxt k ts outer : ainv nl (k_al k) (map class_of (on_stack (sop_args o) ++ ts) ++ outer) -> pend_ok (k_pend k) ->
    (forall n rest, nxt = FBasic (BSet n) :: rest -> n < NL) ->
    let '(is, k1, skip) := dec_op E o nxt k in
    mle (k_al k) (k_al k1) /\ pend_ok (k_pend k1) /\ (forall W, W16 W -> fits W (k_al k1) -> Forall (within W NL) is) /\
    if skip then exists n rest, nxt = FBasic (BSet n) :: rest /\ ainv nl (k_al k1) (map class_of ts ++ outer) /\ match sop_res o with Some t => class_of (ltype E n) = class_of t | None => False end
    else ainv nl (k_al k1) (map class_of (match sop_res o with Some t => t :: ts | None => ts end) ++ outer).
  Proof.
    intros A P NX. unfold dec_op. rewrite map_app, <- app_assoc in A. unfold on_stack in A.
    destruct (pop_regs_ok nl (rev (sop_args o)) (k_al k) _ A) as (Q1 & Q2 & _).
    pose proof (fun W K FW => pop_regs_F2 W (rev (sop_args o)) (k_al k) _ A K FW) as Q3.
    destruct (pop_regs (k_al k) (rev (sop_args o))) as [a ns]. cbn [fst snd] in *.
    assert (SO : forall W, W16 W -> fits W (k_al k) -> _) by exact (fun W K FW => srcs_ok W o ns (k_pend k) (Q3 W K FW) P).
    assert (PO : let (srcs, p') := match o with SGlobalSet t _ => let (s, p) := global_src (class_of t) (hd 0 ns) (k_pend k) in ([s], p) | _ => take_all (rev (sop_args o)) (sop_takes o) ns (k_pend k) end in pend_ok p').
    { clear SO Q3. assert (T : forall ts fl ns p, pend_ok p -> pend_ok (snd (take_all ts fl ns p))).
      { induction ts0 as [|t ts0 IH]; intros [|b fl] [|n ns0] p PP; cbn [take_all snd]; auto.
        assert (P1 : pend_ok (snd (if b then take_pend (class_of t) n p else (OReg n, p)))).
        { destruct b; auto. unfold take_pend. destruct p as [|[c' o'] p]; auto. destruct (cls_eqb c' _); auto. inversion PP; auto. }
        destruct (if b then take_pend (class_of t) n p else (OReg n, p)) as [o1 p1]. specialize (IH fl ns0 p1 P1). destruct (take_all ts0 fl ns0 p1). auto. }
      destruct o; try (match goal with |- context [take_all ?a ?b ?c ?d] => specialize (T a b c d P); destruct (take_all a b c d); exact T end).
      unfold global_src, take_pend. destruct (k_pend k) as [|[c' o'] p]; auto. destruct (cls_eqb c' _); auto. inversion P; auto. }
    destruct (match o with SGlobalSet t _ => let (s, p) := global_src (class_of t) (hd 0 ns) (k_pend k) in ([s], p) | _ => take_all (rev (sop_args o)) (sop_takes o) ns (k_pend k) end) as [srcs p'].
    assert (SR : forall W, W16 W -> fits W (k_al k) -> rok W (opnds_regs (sop_args o) (rev srcs)) /\ Forall (fun l => l < NL) (flat_map opnd_locals (rev srcs))).
    { intros W K FW. destruct (SO W K FW) as [S1 _]. apply F2_rev in S1. rewrite rev_involutive in S1. now apply opnds_within. }
    destruct (sop_res o) as [t|] eqn:SRS.
    - destruct (al_push_ok nl _ _ t Q1) as (B1 & B2 & B3). pose proof (al_pop_ok nl (fst (al_push a t)) _ t B1) as (D1 & _ & _).
      destruct (al_push a t) as [a1 r]. cbn [fst snd] in *.
      assert (MK : mle (k_al k) a1) by (intros c; rewrite <- Q2; apply B2).
      destruct (if dst_foldable o then fold_dst E (class_of t) nxt else None) as [l|] eqn:FD.
      + destruct (dst_foldable o); [|discriminate]. apply fold_dst_local in FD as (n & rest & -> & -> & CL).
        cbn [k_al k_pend]. split; [exact MK|]. split; auto. split.
        * intros W K FW. destruct (SR W K) as [S1 S2]; [eapply fits_mle; [exact MK|exact FW]|]. constructor; auto. split; cbn [regs_of locals_of dst_regs dst_locals]; rewrite ?SRS; auto.
          constructor; auto. pose proof (NX n rest eq_refl). rewrite u16_small; lia.
        * exists n, rest. auto.
      + cbn [k_al k_pend]. split; [exact MK|]. split; auto. split; [|exact B1].
        intros W K FW. destruct (SR W K) as [S1 S2]; [eapply fits_mle; [exact MK|exact FW]|]. destruct (B3 W K FW) as [-> L]. constructor; auto. split; cbn [regs_of locals_of dst_regs dst_locals r_idx]; rewrite ?SRS; auto.
        constructor; auto.
    - cbn [k_al k_pend]. assert (MK : mle (k_al k) a) by (intros c; rewrite <- Q2; apply le_n). split; [exact MK|]. split; auto. split; [|exact Q1].
      intros W K FW. destruct (SR W K) as [S1 S2]; [eapply fits_mle; [exact MK|exact FW]|]. constructor; auto. split; cbn [regs_of locals_of]; rewrite ?SRS; auto.
  Qed.
  Lemma basic_ok b nxt k ts ts1 outer is k1 skip : basic_typed F ts b ts1 -> match b with BSelect (Some t) => class_of t <> CRef | _ => True end ->
    ainv nl (k_al k) (map class_of ts ++ outer) -> pend_ok (k_pend k) ->
    (forall n rest, nxt = FBasic (BSet n) :: rest -> n < NL) -> dec_basic E b nxt k = Some (is, k1, skip) ->
    mle (k_al k) (k_al k1) /\ pend_ok (k_pend k1) /\ (forall W, W16 W -> fits W (k_al k1) -> Forall (within W NL) is) /\
    if skip then exists n rest c ts2, nxt = FBasic (BSet n) :: rest /\ map class_of ts1 = c :: ts2 /\ ainv nl (k_al k1) (ts2 ++ outer)
    else ainv nl (k_al k1) (map class_of ts1 ++ outer).
  Proof.
    intros T RS A P NX D.
    assert (G : forall o, dec_basic E (BOp o) nxt k = Some (is, k1, skip) -> forall ts0, ainv nl (k_al k) (map class_of (on_stack (sop_args o) ++ ts0) ++ outer) ->
      map class_of ts1 = map class_of (match sop_res o with Some t => t :: ts0 | None => ts0 end) ->
      mle (k_al k) (k_al k1) /\ pend_ok (k_pend k1) /\ (forall W, W16 W -> fits W (k_al k1) -> Forall (within W NL) is) /\
      if skip then exists n rest c ts2, nxt = FBasic (BSet n) :: rest /\ map class_of ts1 = c :: ts2 /\ ainv nl (k_al k1) (ts2 ++ outer)
      else ainv nl (k_al k1) (map class_of ts1 ++ outer)).
    { intros o D' ts0 A' T1. cbn [dec_basic] in D'. destruct (sop_ok o); [|discriminate]. injection D' as D'.
      pose proof (op_ok o nxt k ts0 outer A' P NX) as O. rewrite D' in O. destruct O as (O1 & O2 & O3 & O4). split; auto. split; auto. split; auto.
      destruct skip.
      - destruct O4 as (n & rest & -> & O4 & CL). destruct (sop_res o) as [t|]; [|contradiction]. exists n, rest, (class_of t), (map class_of ts0). auto.
      - now rewrite T1. }
    destruct T as [ts v t C|ts n t N|ts n t N|ts n t N|ts t|ts|ts t V|ts t|ts t R|ts o X NR]; cbn [dec_basic] in D.
    - (* const *) destruct (is_num (val_cls v)) eqn:NV; [|discriminate].
      pose proof (value_ok (vt_of_cls (val_cls v)) (OConst v) nxt k ts outer A P Logic.I) as V. destruct (dec_value _ _ nxt k) as [is' k']. injection D as -> -> <-.
      destruct V as (V1 & V2 & V3 & V4). split; auto. split; auto. split; auto. cbn [map app] in *. rewrite class_vt in V1.
      replace (class_of t) with (val_cls v) by (destruct v; cbn in *; try discriminate; now injection C as <-). exact V1.
    - (* get *) destruct (local_type _ _ N) as (NL1 & LT & U). rewrite LT, U in D.
      assert (V : (let (is, k1) := dec_value t (OLoc n) nxt k in step_ok (t :: ts) outer k is k1)) by (apply value_ok; auto).
      destruct (al_push_ok nl _ _ t A) as (B1 & B2 & B3).
      destruct (class_of t) eqn:CT; try discriminate;
        try (destruct (dec_value t _ nxt k) as [is' k']; injection D as -> -> <-; destruct V as (V1 & V2 & V3 & V4); split; [auto|split; [auto|split; [auto|exact V1]]]).
      destruct (al_push (k_al k) t) as [a r]. injection D as <- <- <-. cbn [k_al k_pend fst snd] in *. split; auto. split; auto. split.
      + intros W K FW. destruct (B3 W K FW) as [-> L]. constructor; auto. split; cbn [regs_of locals_of r_idx]; constructor; auto.
      + cbn [map app]. rewrite CT. exact B1.
    - (* set *) destruct (local_type _ _ N) as (NL1 & LT & U). rewrite LT, U in D. cbn [map app] in A.
      destruct (al_pop_ok nl _ _ t A) as (B1 & B2 & _). pose proof (al_pop_max (k_al k) t) as B4. destruct (al_pop (k_al k) t) as [a r]. cbn [fst snd] in *.
      assert (RB : forall W, W16 W -> fits W a -> r_idx r < W (class_of t)).
      { intros W K FW. assert (FK : fits W (k_al k)) by (intros c; rewrite <- B4; apply FW). rewrite (B2 W K FK). cbn [r_idx]. pose proof (ainv_fits nl _ _ W (class_of t) A FK) as Z. rewrite cnt_cons, cls_eqb_refl in Z. lia. }
      destruct (class_of t) eqn:CT; try discriminate; injection D as <- <- <-; cbn [k_al k_pend]; (split; [intros c; rewrite B4; apply le_n|split; [auto|split; [|exact B1]]]);
        intros W K FW; specialize (RB W K FW); repeat constructor; cbn; auto.
    - (* tee *) destruct (local_type _ _ N) as (NL1 & LT & U). rewrite LT, U in D. cbn [map app] in A.
      destruct (al_pop_ok nl _ _ t A) as (B1 & B2 & B3). rewrite B3 in D. set (r := snd (al_pop (k_al k) t)) in *.
      assert (RB : forall W, W16 W -> fits W (k_al k) -> r_idx r < W (class_of t)).
      { intros W K FK. rewrite (B2 W K FK). cbn [r_idx]. pose proof (ainv_fits nl _ _ W (class_of t) A FK) as Z. rewrite cnt_cons, cls_eqb_refl in Z. lia. }
      destruct (class_of t) eqn:CT; try discriminate; injection D as <- <- <-; (split; [apply mle_refl|split; [auto|split; [|cbn [map app]; rewrite CT; exact A]]]);
        intros W K FW; specialize (RB W K FW); repeat constructor; cbn; auto.
    - (* drop *) injection D as <- <- <-. cbn [k_al k_pend map app] in *. destruct (al_pop_any_ok nl _ _ _ A) as [B1 B2]. split; [intros c; rewrite B2; apply le_n|]. split; auto.
    - (* nop *) injection D as <- <- <-. split; [apply mle_refl|]. auto.
    - (* select *) cbn [map app] in A. destruct (al_pop_ok nl _ _ TI32 A) as (B1 & B2 & _). pose proof (al_pop_max (k_al k) TI32) as B4. destruct (al_pop (k_al k) TI32) as [a rc]. cbn [fst snd] in *.
      assert (CU : class_of (select_type a None) = class_of t).
      { destruct B1 as (B1 & _). unfold select_type, al_peek_type. destruct (al_ts a) as [|u l]; [discriminate|]. cbn in B1 |- *. congruence. }
      set (u := select_type a None) in *. rewrite <- CU in B1. destruct (al_pop_ok nl _ _ u B1) as (C1 & C2 & _). pose proof (al_pop_max a u) as C4.
      destruct (select_cls None u) as [c|] eqn:SC; [|discriminate].
      assert (CC : c = class_of u) by (unfold select_cls in SC; destruct (class_of u); congruence). subst c.
      destruct (al_pop a u) as [a1 r2]. cbn [fst snd] in *. destruct (al_pop_ok nl _ _ u C1) as (D1 & D2 & _). pose proof (al_pop_max a1 u) as D4. destruct (al_pop a1 u) as [a2 r1]. cbn [fst snd] in *.
      destruct (al_push_ok nl _ _ u D1) as (E1 & E2 & E3). destruct (al_push a2 u) as [a3 rd]. cbn [fst snd] in *. injection D as <- <- <-. cbn [k_al k_pend map app].
      assert (MK : mle (k_al k) a3) by (intros c; rewrite <- B4, <- C4, <- D4; apply E2). split; auto. split; auto. split.
      + intros W K FW. assert (FK : fits W (k_al k)) by (eapply fits_mle; eauto). assert (FA : fits W a) by (intros c; rewrite B4; apply FK). assert (FA1 : fits W a1) by (intros c; rewrite C4; apply FA).
        destruct (E3 W K FW) as [-> L]. rewrite (B2 W K FK), (C2 W K FA), (D2 W K FA1).
        pose proof (ainv_fits nl _ _ W CI32 A FK) as Z1. pose proof (ainv_fits nl _ _ W (class_of u) B1 FA) as Z2. rewrite !cnt_cons, !cls_eqb_refl in Z2. rewrite cnt_cons, cls_eqb_refl in Z1.
        apply Forall_cons; [split; [|constructor]|constructor]. cbn [regs_of r_idx class_of]. rewrite !cnt_cons, cls_eqb_refl. rewrite !cnt_cons in Z1. repeat apply Forall_cons; try apply Forall_nil; cbn [r_idx r_cls]; lia.
      + rewrite <- CU. exact E1.
    - (* typed select *) cbn [map app] in A. destruct (al_pop_ok nl _ _ TI32 A) as (B1 & B2 & _). pose proof (al_pop_max (k_al k) TI32) as B4. destruct (al_pop (k_al k) TI32) as [a rc]. cbn [fst snd] in *.
      cbn [select_type] in D. destruct (al_pop_ok nl _ _ t B1) as (C1 & C2 & _). pose proof (al_pop_max a t) as C4.
      destruct (select_cls (Some t) t) as [c|] eqn:SC; [|discriminate].
      assert (CC : c = class_of t) by (unfold select_cls in SC; destruct (class_of t); congruence). subst c.
      destruct (al_pop a t) as [a1 r2]. cbn [fst snd] in *. destruct (al_pop_ok nl _ _ t C1) as (D1 & D2 & _). pose proof (al_pop_max a1 t) as D4. destruct (al_pop a1 t) as [a2 r1]. cbn [fst snd] in *.
      destruct (al_push_ok nl _ _ t D1) as (E1 & E2 & E3). destruct (al_push a2 t) as [a3 rd]. cbn [fst snd] in *. injection D as <- <- <-. cbn [k_al k_pend map app].
      assert (MK : mle (k_al k) a3) by (intros c; rewrite <- B4, <- C4, <- D4; apply E2). split; auto. split; auto. split.
      + intros W K FW. assert (FK : fits W (k_al k)) by (eapply fits_mle; eauto). assert (FA : fits W a) by (intros c; rewrite B4; apply FK). assert (FA1 : fits W a1) by (intros c; rewrite C4; apply FA).
        destruct (E3 W K FW) as [-> L]. rewrite (B2 W K FK), (C2 W K FA), (D2 W K FA1).
        pose proof (ainv_fits nl _ _ W CI32 A FK) as Z1. pose proof (ainv_fits nl _ _ W (class_of t) B1 FA) as Z2. rewrite !cnt_cons, !cls_eqb_refl in Z2. rewrite cnt_cons, cls_eqb_refl in Z1.
        apply Forall_cons; [split; [|constructor]|constructor]. cbn [regs_of r_idx class_of]. rewrite !cnt_cons, cls_eqb_refl. rewrite !cnt_cons in Z1. repeat apply Forall_cons; try apply Forall_nil; cbn [r_idx r_cls]; lia.
      + exact E1.
    - (* ref.is_null *) apply (G SRefIsNull D ts); [|reflexivity]. cbn [sop_args on_stack rev app map] in *. replace (class_of t) with CRef in A by (destruct t; try discriminate; reflexivity). exact A.
    - (* op *) apply (G o D ts); auto.
  Qed.

  (** ** whole bodies *)
  Variable P : nat -> instr -> Prop.
  Variable Q : nat -> nat -> option nat -> Prop.
  Variable L : nat.
  Definition cover (W : cls -> nat) (pc pf : nat) : Prop := forall q, pc <= q < pf -> exists i, P q i /\ within W NL i.
  Lemma cover_app W a b c : cover W a b -> cover W b c -> cover W a c.
  Proof. intros A B q H. destruct (Nat.ltb_spec q b); [apply A|apply B]; lia. Qed.
  Lemma cover_nil W a b : b <= a -> cover W a b.
  Proof. intros H q K. lia. Qed.
  Lemma cover_one W pc i : P pc i -> within W NL i -> cover W pc (S pc).
  Proof. intros A B q H. replace q with pc by lia. eauto. Qed.
  Lemma cover_cons W pc i pf : P pc i -> within W NL i -> cover W (S pc) pf -> cover W pc pf.
  Proof. intros A B C. eapply cover_app; [eapply cover_one; eauto|auto]. Qed.
  Lemma all_at_cover W is : forall pc, all_at P pc is -> Forall (within W NL) is -> cover W pc (pc + length is).
  Proof.
    induction is as [|i is IH]; intros pc A B; cbn [all_at length] in *; [apply cover_nil; lia|]. destruct A as [A1 A2]. inversion B; subst.
    eapply cover_cons; eauto. replace (pc + S (length is)) with (S pc + length is) by lia. auto.
  Qed.
  Lemma nops_cover W pc c pf : nops P pc c pf -> pc <= pf /\ cover W pc pf.
  Proof.
    intros [-> A]. split; [lia|]. rewrite <- (repeat_length INop (length (flatten c))) at 1. apply all_at_cover; auto.
    apply Forall_forall. intros i I. apply repeat_spec in I. subst. split; constructor.
  Qed.
  Definition dle (a : alloc) : Prop := forall c, sget (al_d a) c <= sget (al_max a) c.
  Definition ends2 (a : alloc) (fl : bool) (ts : list valtype) (outer : list cls) : Prop :=
    if fl then ainv nl a (map class_of ts ++ outer) else (exists j, map class_of (al_ts a) = j ++ outer) /\ dle a.
  Lemma ends2_j a fl ts outer : ends2 a fl ts outer -> (exists j, map class_of (al_ts a) = j ++ outer) /\ dle a.
  Proof. destruct fl; cbn; auto. intros (A & _ & B). split; eauto. Qed.
  Definition Xok (W : cls -> nat) (X : list cl) (ls : list (list valtype)) : Prop :=
    forall d q l, nth_error X d = Some q -> nth_error ls d = Some l -> rok W (q_regs q) /\ forall r, In r (q_regs q) -> In (r_cls r) (map class_of l).
  Lemma Xok_cons W X ls q l : rok W (q_regs q) -> (forall r, In r (q_regs q) -> In (r_cls r) (map class_of l)) -> Xok W X ls -> Xok W (q :: X) (l :: ls).
  Proof. intros A B C [|d] q' l' H K; cbn in H, K; [injection H as <-; injection K as <-; auto|eapply C; eauto]. Qed.
  Lemma slots_cls a : forall b r, In r (slots nl a b) -> In (r_cls r) a.
  Proof. induction a as [|c a IH]; intros b r; cbn [slots]; [intros []|]. intros [<-|H]; [now left|right; eauto]. Qed.
  Lemma regs_rs W rs rest (b : ctl) : cb_regs b = rev (slots nl (tops rs) rest) -> (forall c, nl c + cnt c (tops rs ++ rest) <= W c) ->
    rok W (cb_regs b) /\ forall r, In r (cb_regs b) -> In (r_cls r) (map class_of (on_stack rs)).
  Proof.
    intros -> H. split.
    - apply Forall_rev. now apply slots_bound.
    - intros r I. apply in_rev in I. rewrite map_on_stack. eapply slots_cls; eauto.
  Qed.
  Lemma end_within W a rs (b : ctl) rest : W16 W -> fits W a -> dle a -> (forall c, nl c + cnt c (tops rs ++ rest) <= W c) -> rok W (cb_regs b) ->
    within W NL (IEnd (al_peek_regs a rs) (cb_regs b)).
  Proof.
    intros K FW D H R. split; [|constructor]. cbn [regs_of]. apply Forall_app. split; auto. apply peek_bound; auto.
    intros c. rewrite count_cls_tops. specialize (H c). rewrite cnt_app in H. lia.
  Qed.
  Lemma br_within W X ls d l a rest : W16 W -> fits W a -> ainv nl a (map class_of l ++ rest) -> Xok W X ls -> nth_error ls d = Some l ->
    let (t, rs) := br_to L X d in rok W (br_src a rs) /\ rok W rs.
  Proof.
    intros K FW A XO N. unfold br_to. destruct (nth_error X d) as [q|] eqn:NX; [|split; constructor].
    destruct (XO d q l NX N) as [R C]. split; auto. unfold br_src. apply branch_src_bound; auto.
    - intros c. destruct A as (_ & _ & A). specialize (A c). specialize (FW c). lia.
    - intros r I. destruct A as (_ & A & _). rewrite A, cnt_app. specialize (C r I). apply cnt_in in C. lia.
  Qed.
  Lemma peek_i32_ok a rest : ainv nl a (CI32 :: rest) -> forall W, W16 W -> fits W a -> peek_i32 a < W CI32.
  Proof.
    intros A W K FW. destruct (al_pop_ok nl a rest TI32 A) as (_ & B & C). unfold peek_i32. rewrite C, (B W K FW). cbn [r_idx class_of].
    pose proof (ainv_fits nl _ _ W CI32 A FW) as Z. rewrite cnt_cons, cls_eqb_refl in Z. lia.
  Qed.
  Lemma peek_within W a ts rest : W16 W -> fits W a -> ainv nl a (tops ts ++ rest) -> rok W (al_peek_regs a ts).
  Proof.
    intros K FW A. rewrite (peek_regs_ok nl a ts rest W K FW A). apply Forall_rev, slots_bound. intros c. eapply ainv_fits; eauto.
  Qed.
  Lemma nxt_set c ls ts ts' : typed F ls ts c ts' -> forall n rest, flatten c ++ [FEnd] = FBasic (BSet n) :: rest -> n < NL.
  Proof.
    intros T n rest H. destruct c; cbn in H; try discriminate. injection H as -> _. inversion T; subst.
    match goal with B : basic_typed _ _ (BSet n) _ |- _ => inversion B; subst end. now destruct (local_type n t).
  Qed.

  Lemma static2 : forall n c, csize c <= n -> forall X k pc kf pf ls ts ts' outer,
    loc E P Q L X k pc c kf pf -> pend_ok (k_pend k) -> ainv nl (k_al k) (map class_of ts ++ outer) -> typed F ls ts c ts' -> no_ref_select c = true ->
    mle (k_al k) (k_al kf) /\ pend_ok (k_pend kf) /\ pc <= pf /\ ends2 (k_al kf) (falls c) ts' outer /\
    forall W, W16 W -> fits W (k_al kf) -> Xok W X ls -> cover W pc pf.
  Proof.
    induction n as [|n IH]; intros c Sz X k pc kf pf ls ts ts' outer Lc Pd HA T NR; [destruct c; cbn [csize] in Sz; lia|].
    destruct c; cbn [csize] in Sz; cbn [no_ref_select] in NR; cbn [loc] in Lc; cbn [falls].
    - (* nil *) destruct Lc as [-> ->]. inversion T; subst. split; [apply mle_refl|]. split; auto. split; auto. split; [exact HA|]. intros W _ _ _. apply cover_nil. lia.
    - (* basic *) apply andb_prop in NR as [NR1 NR2]. inversion T as [|? ? ts1 ? ? ? BT T1| | | | | | | | | | |]; subst.
      destruct (dec_basic E b (flatten c ++ [FEnd]) k) as [[[is k1] skip]|] eqn:D; [|contradiction]. destruct Lc as [Al Lc].
      assert (RS : match b with BSelect (Some t) => class_of t <> CRef | _ => True end).
      { destruct b as [| | | | | |[t|]|]; auto. apply negb_true_iff in NR1. intros Z. rewrite Z in NR1. discriminate. }
      destruct (basic_ok b _ k ts ts1 outer is k1 skip BT RS HA Pd (nxt_set _ _ _ _ T1) D) as (M1 & P1 & B1 & G1).
      assert (G : exists c2 ls2 ts2, loc E P Q L X k1 (pc + length is) c2 kf pf /\ typed F ls2 ts2 c2 ts' /\ ls2 = ls /\ ainv nl (k_al k1) (map class_of ts2 ++ outer) /\
                    csize c2 <= n /\ no_ref_select c2 = true /\ falls c2 = falls c).
      { destruct skip.
        - destruct G1 as (m & rest & cc & ts2 & FL & TS & A2). destruct c as [|b' c'| | | | | | | | | |]; cbn in FL; try discriminate. injection FL as -> _.
          inversion T1 as [|? ? ts3 ? ? ? BT' T2| | | | | | | | | | |]; subst. inversion BT'; subst. cbn [map] in TS. injection TS as _ TS.
          exists c', ls, ts3. cbn [csize] in Sz. cbn [no_ref_select] in NR2. rewrite TS. split; [exact Lc|]. split; [exact T2|]. split; [reflexivity|]. split; [exact A2|]. split; [lia|]. split; [exact NR2|reflexivity].
        - exists c, ls, ts1. split; [|split; [exact T1|]; split; [reflexivity|]; split; [exact G1|]; split; [lia|]; split; [exact NR2|reflexivity]]. destruct c as [|b' c'| | | | | | | | | |]; try exact (proj2 Lc). exact Lc. }
      destruct G as (c2 & ls2 & ts2 & L2 & T2 & -> & A2 & S2 & N2 & F2).
      destruct (IH c2 S2 _ _ _ _ _ _ _ _ _ L2 P1 A2 T2 N2) as (I1 & I2 & I3 & I4 & I5). rewrite F2 in I4.
      split; [eapply mle_trans; eauto|]. split; auto. split; [lia|]. split; auto. intros W K FW XO. eapply cover_app; [|exact (I5 W K FW XO)].
      apply all_at_cover; auto. apply B1; auto. eapply fits_mle; eauto.
    - (* block *) apply andb_prop in NR as [NR1 NR2].
      assert (TB : exists rest lb, ts = on_stack ps ++ rest /\ typed F (lb :: ls) (on_stack ps) c1 (on_stack rs) /\ typed F ls (on_stack rs ++ rest) c2 ts' /\ (is_loop = false -> lb = on_stack rs)).
      { inversion T; subst; eexists; eexists; (split; [reflexivity|]); (split; [eassumption|]); (split; [eassumption|]); intros Z; (reflexivity || discriminate Z). }
      destruct TB as (rest & lb & -> & T1 & T2 & LB). rewrite map_app, map_on_stack, <- app_assoc in HA.
      pose proof (open_ok nl (k_al k) is_loop ps rs _ HA) as OB.
      destruct (open_block (k_al k) is_loop ps rs) as [[a1 s] b]. destruct OB as (O1 & O2 & OL & O4 & O5).
      destruct Lc as (PB & kb & pe & Lb & PE & _ & Lc).
      destruct (IH c1 ltac:(lia) _ _ _ _ _ _ (on_stack ps) _ (map class_of rest ++ outer) Lb Pd ltac:(rewrite map_on_stack; exact O1) T1 NR1) as (I1 & I2 & I3 & I4 & I5).
      destruct (ends2_j _ _ _ _ I4) as [J DL]. destruct (O4 (k_al kb) rs I1 J) as [F1 F2].
      destruct (IH c2 ltac:(lia) _ _ _ _ _ _ (on_stack rs ++ rest) _ outer Lc I2 ltac:(rewrite map_app, map_on_stack, <- app_assoc; exact F1) T2 NR2) as (K1 & K2 & K3 & K4 & K5).
      cbn [k_al with_al] in *. split; [eauto using mle_trans|]. split; auto. split; [lia|]. split; auto. intros W K FW XO.
      assert (FA : fits W (fst (al_pushes (al_restore (k_al kb) s) rs))) by (eapply fits_mle; eauto).
      assert (FB : fits W (k_al kb)) by (eapply fits_mle; eauto).
      assert (BD : forall c, nl c + cnt c (tops rs ++ map class_of rest ++ outer) <= W c) by (intros c; eapply ainv_fits; eauto).
      destruct (regs_rs W rs _ b (O5 W K BD) BD) as [RB RC].
      apply (cover_cons W pc (IBlock is_loop)); auto; [split; constructor|].
      eapply cover_app; [apply (I5 W K FB)|].
      { apply Xok_cons; auto; cbn [q_regs]; unfold cb_target; rewrite OL; destruct is_loop; try constructor; auto; try (intros r []). rewrite LB by auto. exact RC. }
      eapply cover_cons; [exact PE| |exact (K5 W K FW XO)]. eapply end_within; eauto.
    - (* if *) apply andb_prop in NR as [NR1 NR2]. inversion T as [| | | |? rest ? ? ? ? ? EQ T1 T2| | | | | | | |]; subst.
      cbn [map app] in HA. rewrite map_app, map_on_stack, <- app_assoc in HA. destruct (al_pop_ok nl _ _ TI32 HA) as (G1 & G3 & _).
      pose proof (al_pop_max (k_al k) TI32) as G2. destruct (al_pop (k_al k) TI32) as [a0 rc]. cbn [fst snd] in *.
      pose proof (open_ok nl a0 false rs rs _ G1) as OB.
      destruct (open_block a0 false rs rs) as [[a1 s] b]. destruct OB as (O1 & O2 & OL & O4 & O5).
      destruct Lc as (kb & pe & PB & Lb & PE & _ & Lc).
      destruct (IH c1 ltac:(lia) _ _ _ _ _ _ (on_stack rs) _ (map class_of rest ++ outer) Lb Pd ltac:(rewrite map_on_stack; exact O1) T1 NR1) as (I1 & I2 & I3 & I4 & I5).
      destruct (ends2_j _ _ _ _ I4) as [J DL]. destruct (O4 (k_al kb) rs I1 J) as [F1 F2].
      destruct (IH c2 ltac:(lia) _ _ _ _ _ _ (on_stack rs ++ rest) _ outer Lc I2 ltac:(rewrite map_app, map_on_stack, <- app_assoc; exact F1) T2 NR2) as (K1 & K2 & K3 & K4 & K5).
      cbn [k_al with_al] in *. assert (M0 : mle (k_al k) a0) by (intros c0; rewrite G2; apply le_n).
      split; [eauto using mle_trans|]. split; auto. split; [lia|]. split; auto. intros W K FW XO.
      assert (FA : fits W (fst (al_pushes (al_restore (k_al kb) s) rs))) by (eapply fits_mle; eauto).
      assert (FB : fits W (k_al kb)) by (eapply fits_mle; eauto).
      assert (FK : fits W (k_al k)) by (eapply fits_mle; [|exact FB]; eauto using mle_trans).
      assert (BD : forall c, nl c + cnt c (tops rs ++ map class_of rest ++ outer) <= W c) by (intros c; eapply ainv_fits; eauto).
      destruct (regs_rs W rs _ b (O5 W K BD) BD) as [RB RC].
      eapply cover_cons; [exact PB| |].
      { split; [|constructor]. constructor; [|constructor]. cbn [r_cls]. rewrite (G3 W K FK). cbn [r_idx class_of]. pose proof (ainv_fits nl _ _ W CI32 HA FK) as Z. cbn [class_of] in Z. rewrite cnt_cons, cls_eqb_refl in Z. lia. }
      eapply cover_app; [apply (I5 W K FB)|].
      { apply Xok_cons; auto; cbn [q_regs]; unfold cb_target; rewrite OL; auto. }
      eapply cover_cons; [exact PE| |exact (K5 W K FW XO)]. eapply end_within; eauto.
    - (* if else *) apply andb_prop in NR as [NR NR3]. apply andb_prop in NR as [NR1 NR2]. inversion T as [| | | | |? rest ? ? ? ? ? ? T1 T2 T3| | | | | | |]; subst.
      cbn [map app] in HA. rewrite map_app, map_on_stack, <- app_assoc in HA. destruct (al_pop_ok nl _ _ TI32 HA) as (G1 & G3 & _).
      pose proof (al_pop_max (k_al k) TI32) as G2. destruct (al_pop (k_al k) TI32) as [a0 rc]. cbn [fst snd] in *.
      pose proof (open_ok nl a0 false ps rs _ G1) as OB.
      destruct (open_block a0 false ps rs) as [[a1 s] b]. destruct OB as (O1 & O2 & OL & O4 & O5).
      destruct Lc as (kt & pt & kb & pe & PB & Lt & PJ & Lb & PE & _ & PTE & Lc).
      destruct (IH c1 ltac:(lia) _ _ _ _ _ _ (on_stack ps) _ (map class_of rest ++ outer) Lt Pd ltac:(rewrite map_on_stack; exact O1) T1 NR1) as (I1 & I2 & I3 & I4 & I5).
      destruct (ends2_j _ _ _ _ I4) as [J DL]. destruct (O4 (k_al kt) ps I1 J) as [F1 F2].
      destruct (IH c2 ltac:(lia) _ _ _ _ _ _ (on_stack ps) _ (map class_of rest ++ outer) Lb I2 ltac:(rewrite map_on_stack; exact F1) T2 NR2) as (H1 & H2 & H3 & H4 & H5).
      cbn [k_al with_al] in *. destruct (ends2_j _ _ _ _ H4) as [J' DL']. destruct (O4 (k_al kb) rs ltac:(eauto using mle_trans) J') as [F1' F2'].
      destruct (IH c3 ltac:(lia) _ _ _ _ _ _ (on_stack rs ++ rest) _ outer Lc H2 ltac:(rewrite map_app, map_on_stack, <- app_assoc; exact F1') T3 NR3) as (K1 & K2 & K3 & K4 & K5).
      cbn [k_al with_al] in *. assert (M0 : mle (k_al k) a0) by (intros c0; rewrite G2; apply le_n).
      split; [eauto 8 using mle_trans|]. split; auto. split; [lia|]. split; auto. intros W K FW XO.
      assert (FA : fits W (fst (al_pushes (al_restore (k_al kb) s) rs))) by (eapply fits_mle; eauto).
      assert (FB : fits W (k_al kb)) by (eapply fits_mle; eauto).
      assert (FT : fits W (k_al kt)) by (eapply fits_mle; [|exact FB]; eauto using mle_trans).
      assert (FK : fits W (k_al k)) by (eapply fits_mle; [|exact FT]; eauto using mle_trans).
      assert (BD : forall c, nl c + cnt c (tops rs ++ map class_of rest ++ outer) <= W c) by (intros c; eapply ainv_fits; eauto).
      destruct (regs_rs W rs _ b (O5 W K BD) BD) as [RB RC].
      assert (XO' : forall t, Xok W ({| q_start := pc; q_loop := false; q_regs := cb_target b; q_target := t |} :: X) (on_stack rs :: ls)).
      { intros t. apply Xok_cons; auto; cbn [q_regs]; unfold cb_target; rewrite OL; auto. }
      eapply cover_cons; [exact PB| |].
      { split; [|constructor]. constructor; [|constructor]. cbn [r_cls]. rewrite (G3 W K FK). cbn [r_idx class_of]. pose proof (ainv_fits nl _ _ W CI32 HA FK) as Z. cbn [class_of] in Z. rewrite cnt_cons, cls_eqb_refl in Z. lia. }
      eapply cover_app; [exact (I5 W K FT (XO' _))|].
      eapply cover_cons; [exact PJ|split; constructor|]. eapply cover_app; [exact (H5 W K FB (XO' _))|].
      eapply cover_cons; [exact PE| |exact (K5 W K FW XO)]. eapply end_within; eauto.
    - (* br *) inversion T as [| | | | | |? rest ? ? ? l ? N T1| | | | | |]; subst. rewrite map_app, <- app_assoc in HA.
      pose proof (fun W K FW XO => br_within W X ls d l (k_al k) _ K FW HA XO N) as BW.
      destruct (br_to L X d) as [t rs]. destruct Lc as (PB & -> & NP). pose proof (nops_cover (fun _ => 0) _ _ _ NP) as [PP _].
      split; [apply mle_refl|]. split; auto. split; [lia|]. split. { destruct HA as (H1 & H2 & H3). split; auto. rewrite H1. exists (map class_of l ++ map class_of rest). now rewrite <- app_assoc. }
      intros W K FW XO. destruct (BW W K FW XO) as [B1 B2]. eapply cover_cons; [exact PB| |apply (nops_cover W) in NP; apply NP].
      split; [|constructor]. cbn [regs_of]. apply Forall_app. auto.
    - (* br_if *) inversion T as [| | | | | | |? rest ? ? l ? N T1| | | | |]; subst. cbn [map app] in HA. 
      destruct (al_pop_ok nl _ _ TI32 HA) as (G1 & _ & _). pose proof (al_pop_max (k_al k) TI32) as G2. pose proof (peek_i32_ok _ _ HA) as PI.
      pose proof G1 as G1'. rewrite map_app, <- app_assoc in G1'.
      pose proof (fun W K FW XO => br_within W X ls d l (fst (al_pop (k_al k) TI32)) _ K FW G1' XO N) as BW.
      destruct (br_to L X d) as [t rs]. destruct Lc as (PB & Lc).
      destruct (IH c ltac:(lia) _ _ _ _ _ _ _ _ _ Lc Pd G1 T1 NR) as (I1 & I2 & I3 & I4 & I5).
      split; [exact I1|]. split; auto. split; [lia|]. split; auto. intros W K FW XO.
      assert (FA : fits W (fst (al_pop (k_al k) TI32))) by (eapply fits_mle; eauto). destruct (BW W K FA XO) as [B1 B2].
      eapply cover_cons; [exact PB| |exact (I5 W K FW XO)]. split; [|constructor]. cbn [regs_of]. constructor; [cbn [r_idx r_cls]; apply PI; auto|]. apply Forall_app. auto.
    - (* br_table *) inversion T as [| | | | | | | |? rest ? ? ? ? l ? N NS T1| | | |]; subst. cbn [map app] in HA.
      destruct (al_pop_ok nl _ _ TI32 HA) as (G1 & _ & _). pose proof (al_pop_max (k_al k) TI32) as G2. pose proof (peek_i32_ok _ _ HA) as PI.
      rewrite map_app, <- app_assoc in G1.
      destruct Lc as (PB & -> & NP). pose proof (nops_cover (fun _ => 0) _ _ _ NP) as [PP _]. cbn [k_al k_pend with_al].
      split; [intros c0; rewrite G2; apply le_n|]. split; auto. split; [lia|]. split. { destruct G1 as (H1 & H2 & H3). split; auto. rewrite H1. exists (map class_of l ++ map class_of rest). now rewrite <- app_assoc. }
      intros W K FW XO. eapply cover_cons; [exact PB| |apply (nops_cover W) in NP; apply NP].
      assert (TT : forall e, nth_error ls e = Some l -> rok W (snd (tbl_to X e)) /\ rok W (br_src (fst (al_pop (k_al k) TI32)) (snd (tbl_to X e)))).
      { intros e Ne. pose proof (br_within W X ls e l _ _ K FW G1 XO Ne) as BW. unfold br_to in BW. unfold tbl_to. destruct (nth_error X e); cbn [snd]; destruct BW; split; auto. }
      split; [|constructor]. cbn [regs_of]. constructor; [cbn [r_idx r_cls]; apply PI; auto|]. destruct (TT d N) as [T2 T3].
      apply Forall_app. split; auto. apply Forall_app. split; auto. apply Forall_forall. intros r I. apply in_flat_map in I as (x & I1 & I2).
      apply in_map_iff in I1 as (e & <- & I1). destruct (TT e (NS e I1)) as [T4 _]. unfold rok in T4; rewrite Forall_forall in T4. auto.
    - (* return *) inversion T as [| | | | | | | | |? rest ? ? ? T1| | |]; subst. cbn [f_results] in HA. rewrite map_app, <- app_assoc, map_on_stack in HA.
      pose proof HA as HA'. rewrite <- tops_rev in HA'. destruct (al_pops_ok nl _ _ _ HA') as [G1 G2].
      destruct Lc as (PB & -> & NP). pose proof (nops_cover (fun _ => 0) _ _ _ NP) as [PP _]. cbn [k_al k_pend with_al].
      change (e_results E) with (snd (sf_type fd0)) in *.
      split; [intros c0; rewrite G2; apply le_n|]. split; auto. split; [lia|]. split. { destruct G1 as (H1 & H2 & H3). split; eauto. }
      intros W K FW XO. assert (FK : fits W (k_al k)) by (intros c0; rewrite <- G2; apply FW).
      eapply cover_cons; [exact PB| |apply (nops_cover W) in NP; apply NP]. split; [|constructor]. cbn [regs_of]. eapply peek_within; eauto.
    - (* unreachable *) destruct Lc as (PB & -> & NP). pose proof (nops_cover (fun _ => 0) _ _ _ NP) as [PP _].
      split; [apply mle_refl|]. split; auto. split; [lia|]. split. { destruct HA as (H1 & H2 & H3). split; eauto. }
      intros W K FW XO. eapply cover_cons; [exact PB| |apply (nops_cover W) in NP; apply NP]. split; constructor.
    - (* call *) inversion T as [| | | | | | | | | | |? rest ? ? fn ? Nf T1|]; subst. cbn [f_mod] in Nf.
      cbn [e_mod env_of] in Lc. rewrite (call_info_ok _ _ _ HI Nf) in Lc. rewrite map_app, <- app_assoc, map_on_stack in HA.
      pose proof HR as HR'. rewrite Forall_forall in HR'. specialize (HR' fn (nth_error_In _ _ Nf)).
      destruct fn as [fd|w [ps rs]]; cbn [sfunc_type fst snd one_result] in *.
      + destruct (sf_type fd) as [ps rs]. cbn [fst snd] in *.
        pose proof (call_regs_ok SM fd0 (k_al k) ps rs _ HA) as CR. destruct (call_regs (k_al k) ps rs) as [[a prs] rrs].
        destruct CR as (R1 & R2 & R3). destruct Lc as (PB & Lc).
        destruct (IH c ltac:(lia) _ _ _ _ _ _ (on_stack rs ++ rest) _ outer Lc Pd ltac:(rewrite map_app, map_on_stack, <- app_assoc; exact R1) T1 NR) as (I1 & I2 & I3 & I4 & I5).
        cbn [k_al with_al] in *. split; [eapply mle_trans; eauto|]. split; auto. split; [lia|]. split; auto. intros W K FW XO.
        assert (FA : fits W a) by (eapply fits_mle; eauto). destruct (R3 W K FA) as (-> & -> & R4).
        eapply cover_cons; [exact PB| |exact (I5 W K FW XO)]. split; [|constructor]. cbn [regs_of]. apply Forall_app. split; auto.
        apply Forall_rev, slots_bound. intros c0. eapply ainv_fits; [exact HA|]. eapply fits_mle; eauto.
      + pose proof HA as HA'. rewrite <- tops_rev in HA'. destruct (al_pops_ok nl _ _ _ HA') as [G1 G2].
        destruct rs as [|t1 [|t2 rs]]; [| |cbn in HR'; lia]; destruct Lc as (PB & Lc).
        * destruct (IH c ltac:(lia) _ _ _ _ _ _ rest _ outer Lc Pd G1 T1 NR) as (I1 & I2 & I3 & I4 & I5). cbn [k_al with_al] in *.
          assert (MK : mle (k_al k) (k_al kf)) by (intros c0; rewrite <- G2; apply I1).
          split; auto. split; auto. split; [lia|]. split; auto. intros W K FW XO. eapply cover_cons; [exact PB| |exact (I5 W K FW XO)].
          split; [|constructor]. cbn [regs_of]. rewrite app_nil_r. eapply peek_within; eauto. eapply fits_mle; eauto.
        * destruct (al_push_ok nl _ _ t1 G1) as (U1 & U2 & U3).
          destruct (IH c ltac:(lia) _ _ _ _ _ _ (t1 :: rest) _ outer Lc Pd U1 T1 NR) as (I1 & I2 & I3 & I4 & I5). cbn [k_al with_al] in *.
          assert (MK : mle (k_al k) (k_al kf)) by (intros c0; rewrite <- G2; eapply mle_trans; [exact U2|exact I1]).
          split; auto. split; auto. split; [lia|]. split; auto. intros W K FW XO. eapply cover_cons; [exact PB| |exact (I5 W K FW XO)].
          destruct (U3 W K (fits_mle _ _ _ I1 FW)) as [-> U4].
          split; [|constructor]. cbn [regs_of]. apply Forall_app. split; [eapply peek_within; eauto; eapply fits_mle; eauto|]. constructor; auto.
    - (* call_indirect *) inversion T as [| | | | | | | | | | | |? rest ? ? ? ps rs ? Nt T1]; subst. cbn [f_mod] in Nt.
      unfold type_or_empty in Lc. cbn [e_mod env_of ms_types src_of] in Lc. rewrite Nt in Lc.
      cbn [map app] in HA. rewrite map_app, <- app_assoc, map_on_stack in HA.
      destruct (al_pop_ok nl _ _ TI32 HA) as (G1 & G2 & G3). rewrite G3 in Lc.
      pose proof (call_regs_ok SM fd0 _ ps rs _ G1) as CR. destruct (call_regs (fst (al_pop (k_al k) TI32)) ps rs) as [[a prs] rrs].
      destruct CR as (R1 & R2 & R3). destruct Lc as (PB & Lc).
      destruct (IH c ltac:(lia) _ _ _ _ _ _ (on_stack rs ++ rest) _ outer Lc Pd ltac:(rewrite map_app, map_on_stack, <- app_assoc; exact R1) T1 NR) as (I1 & I2 & I3 & I4 & I5).
      cbn [k_al with_al] in *. assert (MK : mle (k_al k) a) by exact R2. split; [eapply mle_trans; eauto|]. split; auto. split; [lia|]. split; auto. intros W K FW XO.
      assert (FA : fits W a) by (eapply fits_mle; eauto). assert (FK : fits W (k_al k)) by (eapply fits_mle; eauto). destruct (R3 W K FA) as (-> & -> & R4).
      eapply cover_cons; [exact PB| |exact (I5 W K FW XO)]. split; [|constructor]. cbn [regs_of]. constructor.
      + cbn [r_cls]. rewrite (G2 W K FK). cbn [r_idx class_of]. pose proof (ainv_fits nl _ _ W CI32 HA FK) as Z. cbn [class_of] in Z. rewrite cnt_cons, cls_eqb_refl in Z. lia.
      + apply Forall_app. split; auto. apply Forall_rev, slots_bound. intros c0. eapply ainv_fits; [exact G1|]. intros c1. apply FK.
  Qed.
End S.
Lemma valid_imports SM : valid SM -> imports_first (sm_funcs SM) = true.
Proof.
  intros [_ (imps & defs & EQ & FI & FD)]. rewrite EQ. clear EQ. induction FI as [|[d|w t] imps H FI IH]; cbn [app imports_first]; try tauto.
  destruct FD as [|[d|w t] defs H FD]; cbn; auto; try tauto. rewrite forallb_forall. intros x Hx. rewrite Forall_forall in FD. specialize (FD x Hx). destruct x; tauto.
Qed.
