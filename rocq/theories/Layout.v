(** The nesting structure of translated code and the label stack (proof device for C44, C45).
    [height]: how many blocks are open before a position, counted on the code itself. *)
From Coq Require Import ZArith List Bool Lia.
From Verif Require Import Word Value Mem MemProofs Store Regs IR Machine Wasm Decoder Check RegsProofs Loc DecodeProofs.
Import ListNotations.
Open Scope nat_scope.

Definition delta (i : instr) : Z :=
  match i with IBlock _ | IIf _ _ _ => 1 | IEnd _ _ => -1 | _ => 0 end.
Fixpoint height (C : list instr) (n : nat) : Z :=
  match n, C with S n, i :: C => (delta i + height C n)%Z | _, _ => 0%Z end.
(** [e] is the matching end of the block opened at [p] *)
Definition closes (C : list instr) (p e : nat) : Prop :=
  p < e /\ (exists s t, nth_error C e = Some (IEnd s t)) /\ height C (S e) = height C p /\
  forall k, p < k <= e -> (height C p < height C k)%Z.
(** the block opened at [o] encloses position [p] *)
Definition opener (i : instr) : bool := match i with IBlock _ | IIf _ _ _ => true | _ => false end.
Definition encloses (C : list instr) (o p : nat) : Prop :=
  o < p /\ (exists i, nth_error C o = Some i /\ opener i = true) /\ forall k, o < k <= p -> (height C o < height C k)%Z.
Definition is_loop_at (C : list instr) (o : nat) : bool :=
  match nth_error C o with Some (IBlock lp) => lp | _ => false end.
(** where a branch of depth [d] at [p] must go: out of the d-th enclosing block, or back to its
    start for a loop; [out] is used for the function body *)
Definition goes (C : list instr) (out p d t : nat) : Prop :=
  ((Z.of_nat d < height C p)%Z ->
     exists o e, encloses C o p /\ height C o = (height C p - Z.of_nat d - 1)%Z /\ closes C o e /\ S e < length C /\
       t = if is_loop_at C o then o else S e) /\
  ((height C p <= Z.of_nat d)%Z -> t = out).
Definition placed (C : list instr) (p : nat) (i : instr) : Prop :=
  match i with
  | IBr d t _ _ | IBrIf d t _ _ _ => goes C (length C) p d t
  | IBrTable ts df _ _ => forall d t rs, In (d, t, rs) (df :: ts) -> goes C 0 p d t
  | IIf _ e has => exists m, closes C p m /\ S m < length C /\
      if has then exists j, p < j < m /\ nth_error C j = Some (IJump (S m)) /\ height C j = (height C p + 1)%Z /\ e = S j
      else e = S m
  | IJump t => exists o m, encloses C o p /\ height C p = (height C o + 1)%Z /\ closes C o m /\ p < m /\ S m < length C /\ t = S m
  | IBlock _ => exists m, closes C p m /\ S m < length C
  | IEnd _ _ => S p < length C -> (1 <= height C p)%Z
  | _ => True
  end.

Lemma height_S C : forall p i, nth_error C p = Some i -> height C (S p) = (height C p + delta i)%Z.
Proof.
  induction C as [|j C IH]; intros [|p] i H; cbn in H; try discriminate.
  - injection H as ->. cbn. destruct C; cbn; lia.
  - cbn [height]. specialize (IH _ _ H). cbn [height] in IH. destruct C; [destruct p; discriminate|]. cbn [height] in *. lia.
Qed.

Section L.
  Variable E : denv.
  Variable C : list instr.
  Variable Q : nat -> nat -> option nat -> Prop.
  Notation P := (fun p i => nth_error C p = Some i).
  Notation loc := (loc E P Q (length C)).
  Definition flat (p q : nat) : Prop :=
    p <= q /\ height C q = height C p /\ forall k, p <= k <= q -> (height C p <= height C k)%Z.
  Lemma flat_refl p : flat p p.
  Proof. split; [lia|]. split; auto. intros k H. replace k with p by lia. lia. Qed.
  Lemma flat_trans p q r : flat p q -> flat q r -> flat p r.
  Proof.
    intros (A1 & A2 & A3) (B1 & B2 & B3). split; [lia|]. split; [congruence|]. intros k K.
    destruct (Nat.le_gt_cases k q); [apply A3; lia|]. rewrite <- A2. apply B3. lia.
  Qed.
  Lemma flat_one p i : nth_error C p = Some i -> delta i = 0%Z -> flat p (S p).
  Proof.
    intros H D. pose proof (height_S _ _ _ H) as S1. split; [lia|]. split; [lia|]. intros k K.
    assert (k = p \/ k = S p) as [->| ->] by lia; lia.
  Qed.
  Lemma flat_block p q : (exists i, nth_error C p = Some i /\ delta i = 1%Z) -> flat (S p) q -> (exists i, nth_error C q = Some i /\ delta i = (-1)%Z) -> flat p (S q).
  Proof.
    intros (i & H1 & D1) (B1 & B2 & B3) (j & H2 & D2). apply height_S in H1, H2. split; [lia|]. split; [lia|]. intros k K.
    assert (k = p \/ k = S q \/ S p <= k <= q) as [->|[->|K']] by lia; try lia. specialize (B3 k K'). lia.
  Qed.
  Lemma flat_closes p q : (exists i, nth_error C p = Some i /\ opener i = true) -> flat (S p) q -> (exists s t, nth_error C q = Some (IEnd s t)) -> closes C p q.
  Proof.
    intros (i & H1 & O) (B1 & B2 & B3) (s & t & H2). pose proof (height_S _ _ _ H1) as S1. pose proof (height_S _ _ _ H2) as S2. cbn [delta] in S2.
    assert (D : delta i = 1%Z) by (destruct i; cbn in *; congruence).
    split; [lia|]. split; [eauto|]. split; [lia|]. intros k K. specialize (B3 k ltac:(lia)). lia.
  Qed.
  Lemma flat_all : forall is p, all_at P p is -> (forall i, In i is -> delta i = 0%Z) -> flat p (p + length is).
  Proof.
    induction is as [|i is IH]; intros p H D; cbn [length]; [rewrite Nat.add_0_r; apply flat_refl|]. destruct H as [H1 H2].
    replace (p + S (length is)) with (S p + length is) by lia. eapply flat_trans; [eapply flat_one; [exact H1|apply D; now left]|].
    apply IH; auto. intros j J. apply D. now right.
  Qed.
  Lemma flat_nops pc k pf : nops P pc k pf -> flat pc pf.
  Proof.
    intros (-> & H). replace (length (flatten k)) with (length (repeat INop (length (flatten k)))) at 1 by apply repeat_length.
    apply flat_all; auto. intros i H0. apply repeat_spec in H0 as ->. reflexivity.
  Qed.
  (** straight-line instructions *)
  Definition plain (i : instr) : bool :=
    match i with IMov _ _ _ | IOp _ _ _ | ISelect _ _ _ _ _ | IRefGet _ _ | IRefSet _ _ => true | _ => false end.
  Lemma dec_plain b nxt k is k1 sk : dec_basic E b nxt k = Some (is, k1, sk) -> forall i, In i is -> plain i = true.
  Proof.
    intros H i IN. destruct b; cbn [dec_basic] in H.
    - destruct (is_num _); [|discriminate]. unfold dec_value in H. destruct (al_push _ _), (folds _ _); injection H as <- <- <-; cbn in IN; intuition; subst; reflexivity.
    - destruct (class_of (ltype E n)); try discriminate;
        try (unfold dec_value in H; destruct (al_push _ _), (folds _ _); injection H as <- <- <-; cbn in IN; intuition; subst; reflexivity).
      destruct (al_push _ _); injection H as <- <- <-; cbn in IN; intuition; subst; reflexivity.
    - destruct (al_pop _ _), (class_of (ltype E n)); try discriminate; injection H as <- <- <-; cbn in IN; intuition; subst; reflexivity.
    - destruct (al_peek _ _); [|discriminate]. destruct (class_of (ltype E n)); try discriminate; injection H as <- <- <-; cbn in IN; intuition; subst; reflexivity.
    - injection H as <- <- <-. destruct IN.
    - injection H as <- <- <-. destruct IN.
    - destruct (al_pop _ _). destruct (select_cls _ _); [|discriminate]. destruct (al_pop _ _), (al_pop _ _), (al_push _ _). injection H as <- <- <-; cbn in IN; intuition; subst; reflexivity.
    - destruct (sop_ok o); [|discriminate]. unfold dec_op in H. destruct (pop_regs _ _).
      destruct (match o with SGlobalSet t _ => _ | _ => _ end). destruct (sop_res o).
      + destruct (al_push _ _). destruct (if dst_foldable o then _ else _); injection H as <- <- <-; cbn in IN; intuition; subst; reflexivity.
      + injection H as <- <- <-; cbn in IN; intuition; subst; reflexivity.
  Qed.
  Lemma plain_delta i : plain i = true -> delta i = 0%Z.
  Proof. destruct i; cbn; congruence. Qed.
  Lemma plain_placed p i : plain i = true -> placed C p i.
  Proof. destruct i; cbn; try discriminate; intros; exact Logic.I. Qed.

  Lemma loc_flat : forall n X k pc c kf pf, csize c <= n -> loc X k pc c kf pf -> flat pc pf.
  Proof.
    induction n as [|n IH]; intros X k pc c kf pf SZ H; [destruct c; cbn in SZ; lia|].
    destruct c as [|b c|lp ps rs body c|ps rs th c|ps rs th el c|d c|d c|ds d c|c|c|f c|ty tb c]; cbn [Loc.loc] in H; cbn [csize] in SZ.
    - destruct H as [_ ->]. apply flat_refl.
    - destruct (dec_basic E b _ k) as [[[is k1] sk]|] eqn:D; [|destruct H]. destruct H as [HA HL].
      apply (flat_trans _ (pc + length is)). { apply flat_all; auto. intros i Hi. eapply plain_delta, dec_plain; eauto. }
      destruct c; try (destruct HL as [_ HL]; eapply IH; [|exact HL]; cbn [csize] in *; lia).
      destruct sk; (eapply IH; [|exact HL]; cbn [csize] in *; lia).
    - destruct (open_block _ _ _ _) as [[a1 s] b]. destruct H as (H1 & kb & pe & H2 & H3 & _ & H4).
      apply (flat_trans _ (S pe)); [|eapply IH; [|exact H4]; lia]. eapply flat_block; [eexists; split; [exact H1|reflexivity]| |eexists; split; [exact H3|reflexivity]].
      eapply IH; [|exact H2]. lia.
    - destruct (al_pop _ _) as [a0 rc]. destruct (open_block _ _ _ _) as [[a1 s] b]. destruct H as (kb & pe & H1 & H2 & H3 & _ & H4).
      apply (flat_trans _ (S pe)); [|eapply IH; [|exact H4]; lia]. eapply flat_block; [eexists; split; [exact H1|reflexivity]| |eexists; split; [exact H3|reflexivity]].
      eapply IH; [|exact H2]. lia.
    - destruct (al_pop _ _) as [a0 rc]. destruct (open_block _ _ _ _) as [[a1 s] b]. destruct H as (kt & pt & kb & pe & H1 & H2 & HJ & H2' & H3 & _ & _ & H4).
      apply (flat_trans _ (S pe)); [|eapply IH; [|exact H4]; lia]. eapply flat_block; [eexists; split; [exact H1|reflexivity]| |eexists; split; [exact H3|reflexivity]].
      apply (flat_trans _ pt); [eapply IH; [|exact H2]; lia|]. apply (flat_trans _ (S pt)); [eapply flat_one; [exact HJ|reflexivity]|].
      eapply IH; [|exact H2']. lia.
    - destruct (br_to _ _ _) as [t rs]. destruct H as (H1 & _ & H2). eapply flat_trans; [eapply flat_one; [exact H1|reflexivity]|eapply flat_nops; eauto].
    - destruct (br_to _ _ _) as [t rs]. destruct H as (H1 & H2). eapply flat_trans; [eapply flat_one; [exact H1|reflexivity]|]. eapply IH; [|exact H2]. lia.
    - destruct H as (H1 & _ & H2). eapply flat_trans; [eapply flat_one; [exact H1|reflexivity]|eapply flat_nops; eauto].
    - destruct H as (H1 & _ & H2). eapply flat_trans; [eapply flat_one; [exact H1|reflexivity]|eapply flat_nops; eauto].
    - destruct H as (H1 & _ & H2). eapply flat_trans; [eapply flat_one; [exact H1|reflexivity]|eapply flat_nops; eauto].
    - destruct (call_info _ _) as [w [ps rs]|[ps rs]].
      + destruct rs; destruct H as (H1 & H2); (eapply flat_trans; [eapply flat_one; [exact H1|reflexivity]|]; eapply IH; [|exact H2]; lia).
      + destruct (call_regs _ _ _) as [[a prs] rrs]. destruct H as (H1 & H2). eapply flat_trans; [eapply flat_one; [exact H1|reflexivity]|]. eapply IH; [|exact H2]. lia.
    - destruct (type_or_empty _ _) as [ps rs]. destruct (al_peek _ _); [|destruct H]. destruct (call_regs _ _ _) as [[a prs] rrs]. destruct H as (H1 & H2).
      eapply flat_trans; [eapply flat_one; [exact H1|reflexivity]|]. eapply IH; [|exact H2]. lia.
  Qed.

  (** the enclosing blocks of the position [pc] *)
  Definition Xok (X : list cl) (pc : nat) : Prop :=
    height C pc = Z.of_nat (length X) /\
    forall d q, nth_error X d = Some q -> exists e,
      encloses C (q_start q) pc /\ height C (q_start q) = (Z.of_nat (length X) - Z.of_nat d - 1)%Z /\
      closes C (q_start q) e /\ pc <= e /\ S e < length C /\ q_target q = if is_loop_at C (q_start q) then q_start q else S e.
  Lemma Xok_flat X p q : Xok X p -> flat p q -> (forall d c, nth_error X d = Some c -> forall e, closes C (q_start c) e -> q <= e) -> Xok X q.
  Proof.
    intros [H1 H2] (F1 & F2 & F3) BE. split; [congruence|]. intros d c N. destruct (H2 d c N) as (e & (O1 & O2 & O3) & A & B & PE & SE & T). exists e.
    split; [split; [lia|]; split; auto|]. { intros k K. destruct (Nat.le_gt_cases k p); [apply O3; lia|]. specialize (F3 k ltac:(lia)). specialize (O3 p ltac:(lia)). lia. }
    split; auto. split; auto. split; [eapply BE; eauto|]. auto.
  Qed.
  Lemma flat_before p q e o : flat p q -> closes C o e -> o < p -> p <= e -> q <= e.
  Proof.
    intros (F1 & F2 & F3) (C1 & (s & t & C2) & C3 & C4) O PE. destruct (Nat.le_gt_cases q e); auto. exfalso.
    specialize (F3 (S e) ltac:(lia)). specialize (C4 p ltac:(lia)). lia.
  Qed.
  Lemma Xok_next X p q : Xok X p -> flat p q -> Xok X q.
  Proof.
    intros H F. eapply Xok_flat; eauto. intros d c N e CE. destruct H as [H1 H2]. destruct (H2 d c N) as (e' & (O1 & _) & _ & CE' & PE & _).
    eapply flat_before; eauto. destruct (Nat.le_gt_cases p e); auto. exfalso.
    destruct CE as (C1 & (s & t & C2) & C3 & C4), CE' as (D1 & (s' & t' & D2) & D3 & D4). specialize (D4 (S e) ltac:(lia)). lia.
  Qed.
  Lemma Xok_push X p lp i e regs : Xok X p -> nth_error C p = Some i -> opener i = true -> closes C p e -> S e < length C ->
    is_loop_at C p = lp ->
    Xok ({| q_start := p; q_loop := lp; q_regs := regs; q_target := if lp then p else S e |} :: X) (S p).
  Proof.
    intros [H1 H2] N O CE SE LP. assert (D : delta i = 1%Z) by (destruct i; cbn in *; congruence). pose proof (height_S _ _ _ N) as HS.
    split; [cbn [length]; lia|]. intros [|d] q Q0; cbn in Q0.
    - injection Q0 as <-. cbn [q_start q_target]. exists e. split; [split; [lia|]; split; [eauto|]; intros k K; replace k with (S p) by lia; lia|].
      split; [cbn [length]; lia|]. split; auto. split; [destruct CE; lia|]. split; auto. now rewrite LP.
    - destruct (H2 d q Q0) as (e' & (O1 & O2 & O3) & A & B & PE & SE' & T). exists e'.
      split; [split; [lia|]; split; auto; intros k K; destruct (Nat.eq_dec k (S p)) as [->|]; [|apply O3; lia]; specialize (O3 p ltac:(lia)); lia|].
      split; [cbn [length]; lia|]. split; auto. split; [|auto].
      (* the new block closes inside *)
      assert (p <> e') by (intros ->; destruct B as (_ & (s & t & B) & _); rewrite N in B; injection B as ->; discriminate).
      lia.
  Qed.
  Lemma Xok_goes X p d : Xok X p -> goes C (length C) p d (fst (br_to (length C) X d)).
  Proof.
    intros [H1 H2]. unfold br_to. split; intros L.
    - destruct (nth_error X d) as [q|] eqn:N; [|apply nth_error_None in N; lia]. destruct (H2 d q N) as (e & A & B & CE & PE & SE & T).
      exists (q_start q), e. split; auto. split; [lia|]. auto.
    - destruct (nth_error X d) as [q|] eqn:N; [|reflexivity]. assert (d < length X) by (apply nth_error_Some; congruence). lia.
  Qed.
  Lemma Xok_goes_tbl X p d : Xok X p -> goes C 0 p d (snd (fst (tbl_to X d))).
  Proof.
    intros [H1 H2]. unfold tbl_to. split; intros L.
    - destruct (nth_error X d) as [q|] eqn:N; [|apply nth_error_None in N; lia]. destruct (H2 d q N) as (e & A & B & CE & PE & SE & T).
      exists (q_start q), e. split; auto. split; [lia|]. auto.
    - destruct (nth_error X d) as [q|] eqn:N; [|reflexivity]. assert (d < length X) by (apply nth_error_Some; congruence). lia.
  Qed.
  Definition all_placed (p q : nat) : Prop := forall r, p <= r < q -> exists i, nth_error C r = Some i /\ placed C r i /\ (delta i = (-1)%Z -> (1 <= height C r)%Z).
  Lemma placed_refl p : all_placed p p. Proof. intros r R. lia. Qed.
  Lemma placed_app p q r : all_placed p q -> all_placed q r -> all_placed p r.
  Proof. intros A B k K. destruct (Nat.lt_ge_cases k q); [apply A; lia|apply B; lia]. Qed.
  Lemma placed_one p i : nth_error C p = Some i -> placed C p i -> (delta i = (-1)%Z -> (1 <= height C p)%Z) -> all_placed p (S p).
  Proof. intros H K D r R. replace r with p by lia. eauto. Qed.
  Lemma placed_all : forall is p, all_at P p is -> (forall i, In i is -> delta i = 0%Z /\ forall q, placed C q i) -> all_placed p (p + length is).
  Proof.
    induction is as [|i is IH]; intros p H D; cbn [length]; [rewrite Nat.add_0_r; apply placed_refl|]. destruct H as [H1 H2].
    destruct (D i (or_introl eq_refl)) as [D1 D2]. replace (p + S (length is)) with (S p + length is) by lia. eapply placed_app; [eapply placed_one; [exact H1|apply D2|lia]|].
    apply IH; auto. intros j J. apply D. now right.
  Qed.
  Lemma placed_nops pc k pf : nops P pc k pf -> all_placed pc pf.
  Proof.
    intros (-> & H). replace (length (flatten k)) with (length (repeat INop (length (flatten k)))) at 1 by apply repeat_length.
    apply placed_all; auto. intros i H0. apply repeat_spec in H0 as ->. split; [reflexivity|]. intros; exact Logic.I.
  Qed.
  Lemma flat_le p q : flat p q -> p <= q. Proof. now intros []. Qed.
  Lemma end_in p q i : flat p q -> nth_error C q = Some i -> q < length C.
  Proof. intros _ H. apply nth_error_Some. congruence. Qed.

  Lemma loc_placed : forall n X k pc c kf pf, csize c <= n -> loc X k pc c kf pf -> Xok X pc -> pf < length C -> all_placed pc pf.
  Proof.
    induction n as [|n IH]; intros X k pc c kf pf SZ H HX PL; [destruct c; cbn in SZ; lia|].
    destruct c as [|b c|lp ps rs body c|ps rs th c|ps rs th el c|d c|d c|ds d c|c|c|f c|ty tb c]; cbn [Loc.loc] in H; cbn [csize] in SZ.
    - destruct H as [_ ->]. apply placed_refl.
    - destruct (dec_basic E b _ k) as [[[is k1] sk]|] eqn:D; [|destruct H]. destruct H as [HA HL].
      assert (FL : flat pc (pc + length is)) by (apply flat_all; auto; intros i Hi; eapply plain_delta, dec_plain; eauto).
      apply (placed_app _ (pc + length is)). { apply placed_all; auto. intros i Hi. pose proof (dec_plain _ _ _ _ _ _ D i Hi) as PI. split; [now apply plain_delta|intros; now apply plain_placed]. }
      pose proof (Xok_next _ _ _ HX FL) as HX'.
      destruct c; try (destruct HL as [_ HL]; eapply IH; [|exact HL| |]; cbn [csize] in *; auto; lia).
      destruct sk; (eapply IH; [|exact HL| |]; cbn [csize] in *; auto; lia).
    - destruct (open_block _ _ _ _) as [[a1 s] b]. destruct H as (H1 & kb & pe & H2 & H3 & _ & H4).
      pose proof (loc_flat _ _ _ _ _ _ _ (Nat.le_refl _) H2) as F1. pose proof (loc_flat _ _ _ _ _ _ _ (Nat.le_refl _) H4) as F2.
      assert (CE : closes C pc pe) by (apply flat_closes; eauto).
      assert (SE : S pe < length C) by (apply flat_le in F2; lia).
      assert (HX1 : Xok ({| q_start := pc; q_loop := lp; q_regs := cb_target b; q_target := if lp then pc else S pe |} :: X) (S pc)).
      { eapply Xok_push; eauto. unfold is_loop_at. now rewrite H1. }
      apply (placed_app _ (S pc)). { eapply placed_one; [exact H1| |discriminate]. exists pe. auto. }
      apply (placed_app _ pe). { eapply IH; [|exact H2| |]; auto; lia. }
      pose proof (height_S _ _ _ H1) as HS. cbn [delta] in HS. destruct HX as [HXL HX0].
      apply (placed_app _ (S pe)). { eapply placed_one; [exact H3| |]; cbn; intros; destruct F1 as (_ & F1 & _); lia. }
      eapply IH; [|exact H4| |]; auto; try lia. apply (Xok_next _ pc); [split; auto|]. eapply flat_block; eauto; eexists; split; eauto; reflexivity.
    - destruct (al_pop _ _) as [a0 rc]. destruct (open_block _ _ _ _) as [[a1 s] b]. destruct H as (kb & pe & H1 & H2 & H3 & _ & H4).
      pose proof (loc_flat _ _ _ _ _ _ _ (Nat.le_refl _) H2) as F1. pose proof (loc_flat _ _ _ _ _ _ _ (Nat.le_refl _) H4) as F2.
      assert (CE : closes C pc pe) by (apply flat_closes; [eexists; split; [exact H1|reflexivity]| |]; eauto).
      assert (SE : S pe < length C) by (apply flat_le in F2; lia).
      assert (HX1 : Xok ({| q_start := pc; q_loop := false; q_regs := cb_target b; q_target := S pe |} :: X) (S pc)).
      { eapply (Xok_push X pc false); eauto. unfold is_loop_at. now rewrite H1. }
      apply (placed_app _ (S pc)). { eapply placed_one; [exact H1| |discriminate]. exists pe. auto. }
      apply (placed_app _ pe). { eapply IH; [|exact H2| |]; auto; lia. }
      pose proof (height_S _ _ _ H1) as HS. cbn [delta] in HS. destruct HX as [HXL HX0].
      apply (placed_app _ (S pe)). { eapply placed_one; [exact H3| |]; cbn; intros; destruct F1 as (_ & F1 & _); lia. }
      eapply IH; [|exact H4| |]; auto; try lia. apply (Xok_next _ pc); [split; auto|]. eapply flat_block; eauto; eexists; split; eauto; reflexivity.
    - destruct (al_pop _ _) as [a0 rc]. destruct (open_block _ _ _ _) as [[a1 s] b]. destruct H as (kt & pt & kb & pe & H1 & H2 & HJ & H2' & H3 & _ & PP & H4).
      pose proof (loc_flat _ _ _ _ _ _ _ (Nat.le_refl _) H2) as F1. pose proof (loc_flat _ _ _ _ _ _ _ (Nat.le_refl _) H2') as F1'. pose proof (loc_flat _ _ _ _ _ _ _ (Nat.le_refl _) H4) as F2.
      assert (FJ : flat pt (S pt)) by (eapply flat_one; [exact HJ|reflexivity]).
      assert (FB : flat (S pc) pe) by (eapply flat_trans; [exact F1|eapply flat_trans; eauto]).
      assert (CE : closes C pc pe) by (apply flat_closes; [eexists; split; [exact H1|reflexivity]| |]; eauto).
      assert (SE : S pe < length C) by (apply flat_le in F2; lia).
      assert (HX1 : Xok ({| q_start := pc; q_loop := false; q_regs := cb_target b; q_target := S pe |} :: X) (S pc)).
      { eapply (Xok_push X pc false); eauto. unfold is_loop_at. now rewrite H1. }
      pose proof (height_S _ _ _ H1) as HS. cbn [delta] in HS.
      assert (EN : encloses C pc pt).
      { split; [apply flat_le in F1; lia|]. split; [eexists; split; [exact H1|reflexivity]|]. intros q K. destruct F1 as (A1 & A2 & A3). specialize (A3 q ltac:(lia)). lia. }
      apply (placed_app _ (S pc)). { eapply placed_one; [exact H1| |discriminate]. exists pe. split; auto. split; auto. exists pt. split; [destruct EN; lia|]. split; auto. split; auto. destruct F1 as (_ & F1 & _). lia. }
      apply (placed_app _ pt). { eapply IH; [|exact H2| |]; auto; lia. }
      apply (placed_app _ (S pt)). { eapply placed_one; [exact HJ| |discriminate]. exists pc, pe. split; auto. split; [destruct F1 as (_ & F1 & _); lia|]. split; auto. }
      apply (placed_app _ pe). { eapply IH; [|exact H2'| |]; auto; try lia. eapply Xok_next; [exact HX1|]. exact (flat_trans _ _ _ F1 FJ). }
      destruct HX as [HXL HX0].
      apply (placed_app _ (S pe)). { eapply placed_one; [exact H3| |]; cbn; intros; destruct FB as (_ & F & _); lia. }
      eapply IH; [|exact H4| |]; auto; try lia. apply (Xok_next _ pc); [split; auto|]. eapply flat_block; eauto; eexists; split; eauto; reflexivity.
    - pose proof (Xok_goes X pc d HX) as G. destruct (br_to _ _ _) as [t rs]. destruct H as (H1 & _ & H2). eapply placed_app; [eapply placed_one; [exact H1|exact G|discriminate]|eapply placed_nops; eauto].
    - pose proof (Xok_goes X pc d HX) as G. destruct (br_to _ _ _) as [t rs]. destruct H as (H1 & H2). eapply placed_app; [eapply placed_one; [exact H1|exact G|discriminate]|].
      eapply IH; [|exact H2| |]; auto; try lia. eapply Xok_next; [exact HX|]. eapply flat_one; [exact H1|reflexivity].
    - destruct H as (H1 & _ & H2). eapply placed_app; [eapply placed_one; [exact H1| |discriminate]|eapply placed_nops; eauto].
      intros d0 t rs [IN|IN].
      + pose proof (Xok_goes_tbl X pc d HX) as G. assert (D : fst (fst (tbl_to X d)) = d) by (unfold tbl_to; destruct (nth_error X d); auto). rewrite IN in *. cbn in D, G. subst. auto.
      + apply in_map_iff in IN as (d1 & IN & _). pose proof (Xok_goes_tbl X pc d1 HX) as G. assert (D : fst (fst (tbl_to X d1)) = d1) by (unfold tbl_to; destruct (nth_error X d1); auto). rewrite IN in *. cbn in D, G. subst. auto.
    - destruct H as (H1 & _ & H2). eapply placed_app; [eapply placed_one; [exact H1|exact Logic.I|discriminate]|eapply placed_nops; eauto].
    - destruct H as (H1 & _ & H2). eapply placed_app; [eapply placed_one; [exact H1|exact Logic.I|discriminate]|eapply placed_nops; eauto].
    - destruct (call_info _ _) as [w [ps rs]|[ps rs]].
      + destruct rs; destruct H as (H1 & H2); (eapply placed_app; [eapply placed_one; [exact H1|exact Logic.I|discriminate]|]; eapply IH; [|exact H2| |]; auto; try lia; eapply Xok_next; [exact HX|]; eapply flat_one; [exact H1|reflexivity]).
      + destruct (call_regs _ _ _) as [[a prs] rrs]. destruct H as (H1 & H2). eapply placed_app; [eapply placed_one; [exact H1|exact Logic.I|discriminate]|].
        eapply IH; [|exact H2| |]; auto; try lia; eapply Xok_next; [exact HX|]; eapply flat_one; [exact H1|reflexivity].
    - destruct (type_or_empty _ _) as [ps rs]. destruct (al_peek _ _); [|destruct H]. destruct (call_regs _ _ _) as [[a prs] rrs]. destruct H as (H1 & H2).
      eapply placed_app; [eapply placed_one; [exact H1|exact Logic.I|discriminate]|].
      eapply IH; [|exact H2| |]; auto; try lia; eapply Xok_next; [exact HX|]; eapply flat_one; [exact H1|reflexivity].
  Qed.
End L.

(** every instruction of a translated body is where it should be *)
Theorem translate_placed E c C al : translate E (flatten c ++ [FEnd]) = Some (C, al) ->
  (exists s t, nth_error C (length C - 1) = Some (IEnd s t)) /\ 0 < length C /\ height C (length C - 1) = 0%Z /\
  forall p i, nth_error C p = Some i -> placed C p i /\ (S p < length C -> delta i = (-1)%Z -> (1 <= height C p)%Z) /\ (0 <= height C p)%Z.
Proof.
  intros H. apply translate_loc in H as (kf & pe & H1 & H2 & H3 & _). rewrite H3. replace (S pe - 1) with pe by lia.
  pose proof (loc_flat _ _ _ _ _ _ _ _ _ _ (Nat.le_refl _) H1) as (F1 & F2 & F3).
  assert (Z0 : height C 0 = 0%Z) by (destruct C; reflexivity).
  split; [eauto|]. split; [lia|]. split; [rewrite F2; auto|]. intros p i N.
  assert (L : p < length C) by (apply nth_error_Some; congruence). 
  assert (HX : Xok C [] 0) by (split; [exact Z0|intros [|] ? X; discriminate]).
  pose proof (loc_placed _ _ _ _ _ _ _ _ _ _ (Nat.le_refl _) H1 HX ltac:(lia)) as AP.
  destruct (Nat.eq_dec p pe) as [->|NE].
  - rewrite H2 in N. injection N as <-. split; [cbn; lia|]. split; [lia|]. rewrite F2. lia.
  - destruct (AP p ltac:(lia)) as (j & N' & PJ & DJ). rewrite N in N'. injection N' as <-. split; auto. split; auto. rewrite <- Z0. apply F3. lia.
Qed.
