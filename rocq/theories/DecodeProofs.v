(** [translate] (Decoder.v) on the binary form of structured code produces the code that Loc.v
    describes.  Part 1: the decoding loop (placeholder targets).  Part 2: the fixup phases. *)
From Coq Require Import ZArith List Bool Lia.
From Verif Require Import Word Value Mem MemProofs Store StoreProofs Regs IR Machine Wasm Decoder Check RegsProofs Loc.
Import ListNotations.
Open Scope nat_scope.

(** ** lookahead stops at the end of the block *)
Definition is_close (t : fop) : Prop := t = FEnd \/ t = FElse.
Lemma folds_close c l t rest : is_close t -> folds c (l ++ t :: rest) = folds c (l ++ [FEnd]).
Proof.
  intros H. destruct l as [|o [|o2 l]]; cbn [app]; destruct H; subst t; try reflexivity.
Qed.
Lemma fold_dst_close E c l t rest : is_close t -> fold_dst E c (l ++ t :: rest) = fold_dst E c (l ++ [FEnd]).
Proof. intros H. destruct l as [|o l]; cbn [app]; [destruct H; subst t; reflexivity|]. destruct o; reflexivity. Qed.
Lemma dec_basic_ext E b n1 n2 k : (forall c, folds c n1 = folds c n2) -> (forall c, fold_dst E c n1 = fold_dst E c n2) ->
  dec_basic E b n1 k = dec_basic E b n2 k.
Proof.
  intros H1 H2. destruct b; cbn [dec_basic]; unfold dec_value, dec_op; rewrite ?H1; try reflexivity.
  destruct (sop_ok o); [|reflexivity]. destruct (pop_regs _ _). destruct (match o with SGlobalSet _ _ => _ | _ => _ end).
  destruct (sop_res o); [|reflexivity]. now rewrite H2.
Qed.
Lemma dec_basic_close E b l t rest k : is_close t ->
  dec_basic E b (l ++ t :: rest) k = dec_basic E b (l ++ [FEnd]) k.
Proof. intros H. apply dec_basic_ext; intros; [now apply folds_close|now apply fold_dst_close]. Qed.
(** a local.set is consumed only if it is there *)
Lemma dec_basic_skip E b nxt k is k1 : dec_basic E b nxt k = Some (is, k1, true) ->
  exists n rest, nxt = FBasic (BSet n) :: rest.
Proof.
  destruct b; cbn [dec_basic]; unfold dec_value; intros H;
    repeat match goal with
           | H : context [match ?x with _ => _ end] |- _ => destruct x eqn:?
           end; try discriminate; try (inversion H; fail).
  unfold dec_op in H. destruct (pop_regs _ _). destruct (match o with SGlobalSet _ _ => _ | _ => _ end).
  destruct (sop_res o); [|inversion H]. destruct (al_push _ _).
  destruct (if dst_foldable o then _ else None) eqn:F; [|inversion H].
  destruct (dst_foldable o); [|discriminate]. unfold fold_dst in F.
  destruct nxt as [|[[]| | | | | | | | | | |] nxt]; try discriminate. eauto.
Qed.

(** ** part 1 *)
Definition erase3 (t : nat * nat * list reg) : nat * nat * list reg := let '(d, _, r) := t in (d, 0, r).
Definition erase (i : instr) : instr :=
  match i with
  | IBr d _ s r => IBr d 0 s r
  | IBrIf d _ c s r => IBrIf d 0 c s r
  | IIf c _ _ => IIf c 0 false
  | IJump _ => IJump 0
  | IBrTable ts d x s => IBrTable (map erase3 ts) (erase3 d) x s
  | i => i
  end.
(** the fixup recorded for an instruction *)
Definition fix_of (pc : nat) (i : instr) : list fixup :=
  match i with
  | IIf _ _ _ => [{| fx_pc := pc; fx_depth := 0; fx_kind := FxIf |}]
  | IJump _ => [{| fx_pc := pc; fx_depth := 0; fx_kind := FxElse |}]
  | IBr d _ _ _ | IBrIf d _ _ _ _ => [{| fx_pc := pc; fx_depth := d; fx_kind := FxBr |}]
  | IBrTable _ (d, _, _) _ _ => [{| fx_pc := pc; fx_depth := d; fx_kind := FxBr |}]
  | _ => []
  end.
Fixpoint fixes (pc : nat) (is : list instr) : list fixup :=
  match is with [] => [] | i :: is => fix_of pc i ++ fixes (S pc) is end.
Lemma fixes_app a : forall pc b, fixes pc (a ++ b) = fixes pc a ++ fixes (pc + length a) b.
Proof.
  induction a as [|i a IH]; intros pc b; cbn [fixes app length]; [now rewrite Nat.add_0_r|].
  rewrite IH, <- app_assoc. do 3 f_equal. lia.
Qed.

Definition P0 (C0 : list instr) (pc : nat) (i : instr) : Prop := nth_error C0 pc = Some (erase i).
Definition Q0 (F G : nat -> option nat) (st e : nat) (el : option nat) : Prop :=
  F st = Some e /\ match el with Some x => G st = Some x | None => True end.

Definition fixed (z : dst8) : Prop := z_fix z = fixes 0 (z_out z).
Definition matches (cs : list ctl) (X : list cl) : Prop :=
  map (fun b => (cb_loop b, cb_target b)) cs = map (fun q => (q_loop q, q_regs q)) X.
Record ext (z z' : dst8) : Prop := {
  x_ctl : z_ctl z' = z_ctl z;
  x_sav : z_sav z' = z_sav z;
  x_map : z_map z' = z_map z;
  x_out : exists seg, z_out z' = z_out z ++ seg;
  x_ends : forall n, ~ (pc_of z <= n < pc_of z') -> z_ends z' n = z_ends z n;
  x_elses : forall n, ~ (pc_of z <= n < pc_of z') -> z_elses z' n = z_elses z n
}.
Definition agree (lo hi : nat) (F G : nat -> option nat) : Prop := forall n, lo <= n < hi -> F n = G n.
Definition prefix (a b : list instr) : Prop := exists s, b = a ++ s.

Lemma ext_pc z z' : ext z z' -> pc_of z <= pc_of z'.
Proof. intros H. destruct (x_out _ _ H) as [s E]. unfold pc_of. rewrite E, app_length. lia. Qed.
Lemma ext_refl z : ext z z.
Proof. constructor; auto. exists []. now rewrite app_nil_r. Qed.
Lemma ext_trans a b c : ext a b -> ext b c -> ext a c.
Proof.
  intros H K. pose proof (ext_pc _ _ H). pose proof (ext_pc _ _ K). destruct H as [A1 A2 A3 [s A4] A5 A6], K as [B1 B2 B3 [s' B4] B5 B6].
  constructor; try congruence.
  - exists (s ++ s'). now rewrite B4, A4, app_assoc.
  - intros n N. rewrite B5, A5; auto; lia.
  - intros n N. rewrite B6, A6; auto; lia.
Qed.
Lemma prefix_trans a b c : prefix a b -> prefix b c -> prefix a c.
Proof. intros [s ->] [s' ->]. exists (s ++ s'). now rewrite app_assoc. Qed.
Lemma prefix_nth a b n (i : instr) : prefix a b -> nth_error a n = Some i -> nth_error b n = Some i.
Proof. intros [s ->] H. rewrite nth_error_app1; auto. apply nth_error_Some. congruence. Qed.
Lemma ext_prefix z z' : ext z z' -> prefix (z_out z) (z_out z').
Proof. intros H. destruct (x_out _ _ H) as [s ->]. now exists s. Qed.
Lemma agree_sub lo hi lo' hi' F G H : agree lo hi F G -> lo <= lo' -> hi' <= hi ->
  (forall n, lo' <= n < hi' -> G n = H n) -> agree lo' hi' F H.
Proof. intros A L1 L2 K n N. rewrite A by lia. now apply K. Qed.

Lemma all_at_prefix C0 seg : forall a, prefix (a ++ seg) C0 -> (forall i, In i seg -> erase i = i) ->
  all_at (P0 C0) (length a) seg.
Proof.
  induction seg as [|i seg IH]; intros a H K; cbn [all_at]; [auto|]. split.
  - unfold P0. eapply prefix_nth; [exact H|]. rewrite nth_error_app2, Nat.sub_diag by lia. cbn. rewrite K; cbn; auto.
  - replace (S (length a)) with (length (a ++ [i])) by (rewrite app_length; cbn; lia). apply IH.
    + now rewrite <- app_assoc.
    + intros j J. apply K. now right.
Qed.
Lemma P0_last C0 z i j : prefix (z_out z ++ [j]) C0 -> j = erase i -> P0 C0 (pc_of z) i.
Proof.
  intros H ->. unfold P0. eapply prefix_nth; [exact H|]. unfold pc_of. rewrite nth_error_app2, Nat.sub_diag by lia. reflexivity.
Qed.
Lemma fixes_last (z : dst8) i : fixed z -> fixes 0 (z_out z ++ [i]) = z_fix z ++ fix_of (pc_of z) i.
Proof. intros F. rewrite fixes_app, <- F. cbn [fixes]. now rewrite app_nil_r. Qed.

(** dec_basic emits straight-line instructions *)
Definition plain (i : instr) : Prop := erase i = i /\ (forall pc, fix_of pc i = []) /\ (forall pc st, scan1 pc i st = st).
Lemma dec_basic_plain E b nxt k is k1 s : dec_basic E b nxt k = Some (is, k1, s) -> Forall plain is.
Proof.
  assert (HP : forall i, erase i = i -> (forall pc, fix_of pc i = []) -> (forall pc st, scan1 pc i st = st) -> Forall plain [i]).
  { intros. constructor; [now repeat split|constructor]. }
  destruct b; cbn [dec_basic]; unfold dec_value, dec_op; intros H;
    repeat match goal with
           | H : context [match ?x with _ => _ end] |- _ => destruct x eqn:?
           end; try discriminate; inversion H; subst;
    repeat match goal with X : (_, _) = (_, _) |- _ => inversion X; clear X; subst end;
    try (apply HP; reflexivity); constructor.
Qed.
Lemma plain_fixes is : Forall plain is -> forall pc, fixes pc is = [].
Proof. induction 1 as [|i is (A & B & C) _ IH]; intros pc; cbn; auto. now rewrite B, IH. Qed.
Lemma fixed_emit z k is fx : fixed z -> fx = fixes (pc_of z) is -> fixed (emit z k is fx).
Proof. intros F ->. unfold fixed. cbn. rewrite fixes_app, F. reflexivity. Qed.

Lemma set_unr_0 z : z_unr z = 0 -> set_unr z 0 = z.
Proof. destruct z; cbn. now intros ->. Qed.

(** unreachable code becomes nops *)
Lemma emit_emit z k is f k' is' f' : emit (emit z k is f) k' is' f' = emit z k' (is ++ is') (f ++ f').
Proof. unfold emit. cbn. now rewrite <- !app_assoc. Qed.
Lemma dead_step E op rest z n : z_unr z = S n ->
  match op with FEnd | FElse => False | FBlock _ _ _ | FIf _ _ => False | _ => True end ->
  dec_ops E (op :: rest) z = dec_ops E rest (emit z (z_k z) [INop] []).
Proof.
  intros U H. cbn [dec_ops]. unfold dec_dead. rewrite U.
  assert (Z : set_unr z (S n) = z) by (destruct z; cbn in *; now subst).
  destruct op; try tauto; rewrite Z; reflexivity.
Qed.
Lemma dead_ops E c : forall rest z n, z_unr z = S n ->
  dec_ops E (flatten c ++ rest) z = dec_ops E rest (emit z (z_k z) (repeat INop (length (flatten c))) []).
Proof.
  assert (B : forall body k op, (op = FBlock true [] [] \/ True) ->
    match op with FBlock _ _ _ | FIf _ _ => True | _ => False end ->
    (forall rest z n, z_unr z = S n ->
       dec_ops E (flatten body ++ rest) z = dec_ops E rest (emit z (z_k z) (repeat INop (length (flatten body))) [])) ->
    forall rest z n, z_unr z = S n ->
    dec_ops E (op :: flatten body ++ FEnd :: flatten k ++ rest) z =
    dec_ops E (flatten k ++ rest) (emit z (z_k z) (repeat INop (S (length (flatten body) + 1))) [])).
  { intros body k op _ Hop IH rest z n U.
    transitivity (dec_ops E (flatten body ++ FEnd :: flatten k ++ rest) (emit (set_unr z (S (S n))) (z_k z) [INop] [])).
    { cbn [dec_ops]. unfold dec_dead. rewrite U. destruct op; try tauto; reflexivity. }
    rewrite (IH _ _ (S n)) by reflexivity. cbn [dec_ops]. unfold dec_dead. cbn [z_unr emit set_unr].
    f_equal. unfold emit, set_unr. cbn. f_equal.
    - now rewrite U.
    - now rewrite !app_nil_r.
    - rewrite <- !app_assoc. f_equal. cbn. f_equal. now rewrite repeat_app. }
  induction c; intros rest z n' U; cbn [flatten app length repeat].
  - unfold emit. cbn. rewrite !app_nil_r. now destruct z.
  - rewrite (dead_step _ _ _ _ n') by auto. erewrite IHc by exact U. rewrite emit_emit. reflexivity.
  - rewrite <- app_assoc. cbn [app]. erewrite (B c1 c2); eauto. erewrite IHc2 by exact U. rewrite emit_emit, app_length. cbn [length].
    rewrite <- repeat_app. cbn [Nat.add repeat]. do 4 f_equal. lia.
  - rewrite <- app_assoc. cbn [app]. erewrite (B c1 c2) by (eauto; exact I). erewrite IHc2 by exact U. rewrite emit_emit, app_length. cbn [length].
    rewrite <- repeat_app. cbn [Nat.add repeat]. do 4 f_equal. lia.
  - rewrite <- !app_assoc. cbn [app]. rewrite <- !app_assoc. cbn [app].
    transitivity (dec_ops E (flatten c1 ++ FElse :: flatten c2 ++ FEnd :: flatten c3 ++ rest) (emit (set_unr z (S (S n'))) (z_k z) [INop] [])).
    { cbn [dec_ops]. unfold dec_dead. rewrite U. reflexivity. }
    rewrite (IHc1 _ _ (S n')) by reflexivity. rewrite emit_emit.
    match goal with |- dec_ops E (FElse :: ?r) ?w = _ =>
      transitivity (dec_ops E r (emit w (z_k w) [INop] [])) end.
    { reflexivity. }
    rewrite emit_emit. erewrite (IHc2 _ _ (S n')) by reflexivity. rewrite emit_emit.
    match goal with |- dec_ops E (FEnd :: ?r) ?w = _ =>
      transitivity (dec_ops E r (emit (set_unr w (S n')) (z_k w) [INop] [])) end.
    { reflexivity. }
    erewrite (IHc3 _ _ n') by reflexivity. f_equal. unfold emit, set_unr. cbn. f_equal; auto.
    { now rewrite !app_nil_r. }
    rewrite <- !app_assoc. f_equal. cbn [app]. f_equal. rewrite !app_length. cbn [length].
    rewrite !app_length. cbn [length]. rewrite <- !app_assoc. cbn [app].
    rewrite repeat_app. f_equal. cbn [repeat]. f_equal. rewrite repeat_app. reflexivity.
  - rewrite (dead_step _ _ _ _ n') by auto. erewrite IHc by exact U. rewrite emit_emit. reflexivity.
  - rewrite (dead_step _ _ _ _ n') by auto. erewrite IHc by exact U. rewrite emit_emit. reflexivity.
  - rewrite (dead_step _ _ _ _ n') by auto. erewrite IHc by exact U. rewrite emit_emit. reflexivity.
  - rewrite (dead_step _ _ _ _ n') by auto. erewrite IHc by exact U. rewrite emit_emit. reflexivity.
  - rewrite (dead_step _ _ _ _ n') by auto. erewrite IHc by exact U. rewrite emit_emit. reflexivity.
  - rewrite (dead_step _ _ _ _ n') by auto. erewrite IHc by exact U. rewrite emit_emit. reflexivity.
  - rewrite (dead_step _ _ _ _ n') by auto. erewrite IHc by exact U. rewrite emit_emit. reflexivity.
Qed.

(** ** reachable code *)
Lemma matches_nth cs X d : matches cs X -> 
  match nth_error cs d, nth_error X d with
  | Some b, Some q => cb_loop b = q_loop q /\ cb_target b = q_regs q
  | None, None => True
  | _, _ => False
  end.
Proof.
  unfold matches. intros H. assert (K := f_equal (fun l => nth_error l d) H). cbn beta in K.
  rewrite !nth_error_map in K. destruct (nth_error cs d), (nth_error X d); cbn in K; try discriminate; auto.
  inversion K; auto.
Qed.
Lemma branch_regs_to L cs X d a : matches cs X ->
  branch_regs cs d a = (br_src a (snd (br_to L X d)), snd (br_to L X d)).
Proof.
  intros M. pose proof (matches_nth _ _ d M) as K. unfold branch_regs, br_to.
  destruct (nth_error cs d), (nth_error X d); try tauto; try reflexivity. destruct K as [_ ->]. reflexivity.
Qed.
Lemma branch_regs_tbl cs X d a : matches cs X -> snd (branch_regs cs d a) = snd (tbl_to X d).
Proof.
  intros M. pose proof (matches_nth _ _ d M) as K. unfold branch_regs, tbl_to.
  destruct (nth_error cs d), (nth_error X d); try tauto; try reflexivity.
Qed.
Lemma branch_regs_tbl' cs X d a : matches cs X ->
  branch_regs cs d a = (br_src a (snd (tbl_to X d)), snd (tbl_to X d)).
Proof.
  intros M. pose proof (matches_nth _ _ d M) as K. unfold branch_regs, tbl_to.
  destruct (nth_error cs d), (nth_error X d); try tauto; try reflexivity. destruct K as [_ ->]. reflexivity.
Qed.
Lemma erase3_tbl X d : erase3 (tbl_to X d) = (d, 0, snd (tbl_to X d)).
Proof. unfold erase3, tbl_to. now destruct (nth_error X d). Qed.

Definition reach E L (c : code) (z z' : dst8) : Prop :=
  ext z z' /\ fixed z' /\
  forall C0 F G X, prefix (z_out z') C0 -> agree (pc_of z) (pc_of z') F (z_ends z') ->
    agree (pc_of z) (pc_of z') G (z_elses z') -> matches (z_ctl z) X ->
    loc E (P0 C0) (Q0 F G) L X (z_k z) (pc_of z) c (z_k z') (pc_of z').

Lemma emit_ext z k is f : ext z (emit z k is f).
Proof. constructor; auto. now exists is. Qed.
Lemma set_unr_ext z n : ext z (set_unr z n).
Proof. constructor; auto. exists []. cbn. now rewrite app_nil_r. Qed.
Lemma pc_emit z k is f : pc_of (emit z k is f) = pc_of z + length is.
Proof. unfold pc_of, emit. cbn. now rewrite app_length. Qed.

(** one instruction, then nops *)
Lemma reach_dead E L c z k1 i n1 f (z' := emit (set_unr (emit z k1 [i] f) 1) k1 (repeat INop n1) []) :
  fixed z -> f = fix_of (pc_of z) i ->
  (forall C0 F G X, P0 C0 (pc_of z) i -> nth_error C0 (pc_of z) = Some i ->
     all_at (P0 C0) (S (pc_of z)) (repeat INop n1) -> matches (z_ctl z) X ->
     loc E (P0 C0) (Q0 F G) L X (z_k z) (pc_of z) c k1 (S (pc_of z) + n1)) ->
  erase i = i -> reach E L c z z'.
Proof.
  intros Fx Ef H Ei. split; [|split].
  - eapply ext_trans; [apply emit_ext|]. eapply ext_trans; [apply set_unr_ext|]. apply emit_ext.
  - subst z'. apply fixed_emit.
    + change (fixed (emit z k1 [i] f)). apply fixed_emit; auto. cbn. now rewrite app_nil_r.
    + symmetry. apply plain_fixes. apply Forall_forall. intros x Hx. apply repeat_spec in Hx. subst x. now repeat split.
  - intros C0 F G X Hp _ _ M. subst z'. rewrite pc_emit. rewrite repeat_length. cbn [z_k emit].
    change (pc_of (set_unr (emit z k1 [i] f) 1)) with (pc_of (emit z k1 [i] f)). rewrite pc_emit. cbn [length].
    replace (pc_of z + 1 + n1) with (S (pc_of z) + n1) by lia.
    cbn [z_out emit set_unr] in Hp.
    assert (A : nth_error C0 (pc_of z) = Some i).
    { eapply prefix_nth; [exact Hp|]. rewrite nth_error_app1 by (rewrite app_length; unfold pc_of; cbn; lia).
      unfold pc_of. rewrite nth_error_app2, Nat.sub_diag by lia. reflexivity. }
    apply H; auto.
    + unfold P0. now rewrite Ei.
    + replace (S (pc_of z)) with (length (z_out z ++ [i])) by (rewrite app_length; unfold pc_of; cbn; lia).
      apply all_at_prefix; auto. intros j J. apply repeat_spec in J. now subst j.
Qed.

(** one instruction, then more reachable code *)
Lemma reach_step E L c c' z i k1 f z' :
  fixed z -> f = fix_of (pc_of z) i -> erase i = i ->
  (fixed (emit z k1 [i] f) -> reach E L c' (emit z k1 [i] f) z') ->
  (forall C0 F G X, P0 C0 (pc_of z) i -> nth_error C0 (pc_of z) = Some i -> matches (z_ctl z) X ->
     loc E (P0 C0) (Q0 F G) L X k1 (S (pc_of z)) c' (z_k z') (pc_of z') ->
     loc E (P0 C0) (Q0 F G) L X (z_k z) (pc_of z) c (z_k z') (pc_of z')) ->
  reach E L c z z'.
Proof.
  intros Fx Ef Ei R H. destruct R as (R1 & R2 & R3).
  { apply fixed_emit; auto. cbn. now rewrite app_nil_r. }
  split; [|split]; auto.
  - eapply ext_trans; [apply emit_ext|exact R1].
  - intros C0 F G X Hp A B M.
    assert (A0 : nth_error C0 (pc_of z) = Some i).
    { eapply prefix_nth; [exact Hp|]. eapply prefix_nth; [eapply ext_prefix; exact R1|].
      cbn. unfold pc_of. rewrite nth_error_app2, Nat.sub_diag by lia. reflexivity. }
    apply H; auto.
    { unfold P0. now rewrite Ei. }
    specialize (R3 C0 F G X Hp). rewrite pc_emit in R3. cbn [length z_k z_ctl emit] in R3.
    rewrite Nat.add_1_r in R3. apply R3; auto.
    + intros n N. apply A. lia.
    + intros n N. apply B. lia.
Qed.

Lemma dec_live_eq E op rest z z1 zf : z_unr z = 0 -> dec_live E op rest z = Some (z1, false) ->
  dec_ops E (op :: rest) z = Some zf -> dec_ops E rest z1 = Some zf.
Proof. intros U H. cbn [dec_ops]. unfold dec_dead. rewrite U, H. auto. Qed.
Lemma dec_live_none E op rest z zf : z_unr z = 0 -> dec_live E op rest z = None ->
  dec_ops E (op :: rest) z = Some zf -> False.
Proof. intros U H. cbn [dec_ops]. unfold dec_dead. rewrite U, H. discriminate. Qed.

Lemma flatten_head c l b rest : flatten c ++ l = FBasic b :: rest -> (exists t r, l = t :: r /\ is_close t) ->
  exists c', c = CBasic b c'.
Proof.
  intros H (t & r & -> & K). destruct c; cbn in H; inversion H; subst; eauto.
  destruct K; congruence.
Qed.

(** the end of a block *)
Lemma dec_end E rest z zf st is_if el m b s : z_unr z <= 1 -> z_map z = (st, is_if, el) :: m ->
  z_ctl z = b :: tl (z_ctl z) -> z_sav z = s :: tl (z_sav z) ->
  dec_ops E (FEnd :: rest) z = Some zf ->
  dec_ops E rest
    {| z_k := with_al (z_k z) (fst (al_pushes (al_restore (k_al (z_k z)) s) (cb_results b)));
       z_ctl := tl (z_ctl z); z_sav := tl (z_sav z); z_unr := 0; z_map := m;
       z_ends := fupd (z_ends z) st (S (pc_of z));
       z_elses := if is_if then fupd (z_elses z) st (match el with Some e => e | None => S (pc_of z) end) else z_elses z;
       z_fix := z_fix z; z_out := z_out z ++ [IEnd (al_peek_regs (k_al (z_k z)) (cb_results b)) (cb_regs b)] |} = Some zf.
Proof.
  intros U M HC HS H. cbn [dec_ops] in H.
  assert (D : dec_dead FEnd z = inr (set_unr z 0)).
  { unfold dec_dead. destruct (z_unr z) as [|[|n]] eqn:Z; [|reflexivity|lia]. now rewrite set_unr_0. }
  rewrite D in H. unfold dec_live in H. cbn [z_map z_ctl z_sav z_unr z_ends z_elses z_fix z_out z_k set_unr] in H.
  rewrite M, HC, HS in H. cbn [tl] in H. exact H.
Qed.
Lemma dec_else E rest z zf st m b s : z_unr z <= 1 -> z_map z = (st, true, None) :: m ->
  z_ctl z = b :: tl (z_ctl z) -> z_sav z = s :: tl (z_sav z) ->
  dec_ops E (FElse :: rest) z = Some zf ->
  dec_ops E rest
    {| z_k := with_al (z_k z) (fst (al_pushes (al_restore (k_al (z_k z)) s) (cb_params b)));
       z_ctl := z_ctl z; z_sav := z_sav z; z_unr := 0; z_map := (st, true, Some (S (pc_of z))) :: m;
       z_ends := z_ends z; z_elses := z_elses z;
       z_fix := z_fix z ++ fx z 0 FxElse; z_out := z_out z ++ [IJump 0] |} = Some zf.
Proof.
  intros U M HC HS H. cbn [dec_ops] in H.
  assert (D : dec_dead FElse z = inr (set_unr z 0)).
  { unfold dec_dead. destruct (z_unr z) as [|[|n]] eqn:Z; [|reflexivity|lia]. now rewrite set_unr_0. }
  rewrite D in H. unfold dec_live in H. cbn [z_map z_ctl z_sav z_unr z_ends z_elses z_fix z_out z_k set_unr] in H.
  rewrite M in H. destruct (z_ctl z) as [|b' cs]; [discriminate|]. destruct (z_sav z) as [|s' ss]; [discriminate|].
  inversion HC; inversion HS; subst. exact H.
Qed.

Lemma decode_reach E L : forall n c, csize c <= n -> forall t rest z zf, is_close t -> z_unr z = 0 -> fixed z ->
  dec_ops E (flatten c ++ t :: rest) z = Some zf ->
  exists z', dec_ops E (t :: rest) z' = Some zf /\ z_unr z' <= 1 /\ reach E L c z z'.
Proof.
  induction n as [|n IH]; intros c Hc; [destruct c; cbn in Hc; lia|].
  intros t rest z zf Ht U Fx H. destruct c; cbn [csize] in Hc; cbn [flatten app] in H.
  - (* nil *)
    exists z. split; [exact H|]. split; [lia|]. split; [apply ext_refl|]. split; [exact Fx|].
    intros. cbn [loc]. auto.
  - (* basic *)
    destruct (dec_basic E b (flatten c ++ t :: rest) (z_k z)) as [[[is k1] skip]|] eqn:D.
    2:{ exfalso. eapply dec_live_none; [exact U| |exact H]. cbn [dec_live]. now rewrite D. }
    pose proof (dec_basic_plain _ _ _ _ _ _ _ D) as Pl.
    set (z1 := emit z k1 is []).
    assert (Fx1 : fixed z1) by (apply fixed_emit; auto; symmetry; now apply plain_fixes).
    assert (D' : dec_basic E b (flatten c ++ [FEnd]) (z_k z) = Some (is, k1, skip)) by (erewrite <- dec_basic_close; eauto).
    assert (W : exists c2 z', (csize c2 <= n /\ c2 = (if skip then skip1 c true else c) /\ (skip = true -> exists b' , c = CBasic b' c2))
                /\ dec_ops E (t :: rest) z' = Some zf /\ z_unr z' <= 1 /\ reach E L c2 z1 z').
    { destruct skip.
      - destruct (dec_basic_skip _ _ _ _ _ _ D) as (m & r & Hm).
        destruct (flatten_head _ _ _ _ Hm) as [c' ->]; [eauto|]. cbn [csize] in Hc.
        cbn [flatten app] in H. cbn [dec_ops] in H. unfold dec_dead at 1 in H. rewrite U in H.
        cbn [dec_live] in H. cbn [flatten app] in D. rewrite D in H. fold z1 in H.
        destruct (IH c' ltac:(lia) t rest z1 zf Ht U Fx1 H) as (z' & A & B & C).
        exists c', z'. split; [|auto]. split; [lia|]. split; [reflexivity|]. eauto.
      - assert (H1 : dec_ops E (flatten c ++ t :: rest) z1 = Some zf).
        { eapply dec_live_eq; [exact U| |exact H]. cbn [dec_live]. now rewrite D. }
        destruct (IH c ltac:(lia) t rest z1 zf Ht U Fx1 H1) as (z' & A & B & C).
        exists c, z'. split; [|auto]. split; [lia|]. split; [reflexivity|]. discriminate. }
    destruct W as (c2 & z' & (_ & Ec2 & Hs) & A & B & R1 & R2 & R3).
    exists z'. split; [exact A|]. split; [exact B|]. split; [|split]; [|exact R2|].
    + eapply ext_trans; [apply emit_ext|exact R1].
    + intros C0 F G X Hp HA HB M. cbn [loc]. rewrite D'.
      assert (AA : all_at (P0 C0) (pc_of z) is).
      { apply all_at_prefix.
        - eapply prefix_trans; [|exact Hp]. change (z_out z ++ is) with (z_out z1). apply ext_prefix; exact R1.
        - intros i Hi. rewrite Forall_forall in Pl. now destruct (Pl i Hi). }
      assert (Lc : loc E (P0 C0) (Q0 F G) L X k1 (pc_of z + length is) c2 (z_k z') (pc_of z')).
      { specialize (R3 C0 F G X Hp). unfold z1 in R3 at 1 2 3 4 5. rewrite pc_emit in R3. apply R3; auto.
        - intros m N. apply HA. lia.
        - intros m N. apply HB. lia. }
      split; [exact AA|]. destruct skip.
      * destruct (Hs eq_refl) as [b' ->]. exact Lc.
      * subst c2. destruct c; auto.
  - (* block *)
    destruct (open_block (k_al (z_k z)) is_loop ps rs) as [[a1 s] b] eqn:OB.
    assert (Hb : cb_params b = ps /\ cb_results b = rs /\ cb_loop b = is_loop) by (unfold open_block in OB; inversion OB; subst; auto).
    rewrite <- app_assoc in H. cbn [app] in H.
    eapply dec_live_eq in H; [|exact U|cbn [dec_live]; rewrite OB; reflexivity].
    match type of H with dec_ops _ _ ?w = _ => set (z1 := w) in * end.
    assert (Fx1 : fixed z1) by (unfold fixed; cbn; rewrite fixes_app; cbn; rewrite app_nil_r; exact Fx).
    destruct (IH c1 ltac:(lia) FEnd _ z1 zf (or_introl eq_refl) U Fx1 H) as (z2 & H2 & U2 & R1 & R2 & R3).
    eapply dec_end in H2; [|exact U2|rewrite (x_map _ _ R1); reflexivity|rewrite (x_ctl _ _ R1); reflexivity|rewrite (x_sav _ _ R1); reflexivity].
    match type of H2 with dec_ops _ _ ?w = _ => set (z3 := w) in * end.
    assert (Fx3 : fixed z3) by (unfold fixed; cbn; rewrite fixes_app; cbn; rewrite app_nil_r; exact R2).
    destruct (IH c2 ltac:(lia) t rest z3 zf Ht eq_refl Fx3 H2) as (z4 & H4 & U4 & S1 & S2 & S3).
    assert (p1 : pc_of z1 = S (pc_of z)) by (unfold pc_of; cbn; rewrite app_length; cbn; lia).
    assert (p3 : pc_of z3 = S (pc_of z2)) by (unfold pc_of; cbn; rewrite app_length; cbn; lia).
    pose proof (ext_pc _ _ R1). pose proof (ext_pc _ _ S1).
    exists z4. split; [exact H4|]. split; [exact U4|]. split; [|split]; [|exact S2|].
    + constructor.
      * rewrite (x_ctl _ _ S1). cbn. now rewrite (x_ctl _ _ R1).
      * rewrite (x_sav _ _ S1). cbn. now rewrite (x_sav _ _ R1).
      * now rewrite (x_map _ _ S1).
      * destruct (x_out _ _ R1) as [s1 E1], (x_out _ _ S1) as [s2 E2]. rewrite E2. cbn [z_out z3]. rewrite E1. cbn [z_out z1].
        rewrite <- !app_assoc. eauto.
      * intros m N. rewrite (x_ends _ _ S1) by lia. cbn [z_ends z3]. unfold fupd. destruct (Nat.eqb_spec m (pc_of z)); [lia|].
        rewrite (x_ends _ _ R1) by lia. reflexivity.
      * intros m N. rewrite (x_elses _ _ S1) by lia. cbn [z_elses z3].
        rewrite (x_elses _ _ R1) by lia. reflexivity.
    + intros C0 F G X Hp HA HB M. cbn [loc]. rewrite OB.
      assert (P3 : prefix (z_out z3) C0) by (eapply prefix_trans; [apply ext_prefix; exact S1|exact Hp]).
      assert (P2 : prefix (z_out z2) C0) by (eapply prefix_trans; [|exact P3]; eexists; reflexivity).
      assert (P1 : prefix (z_out z1) C0) by (eapply prefix_trans; [apply ext_prefix; exact R1|exact P2]).
      split; [eapply P0_last; [exact P1|reflexivity]|].
      exists (z_k z2), (pc_of z2). split; [|split; [|split]].
      * rewrite <- p1. apply R3; auto.
        -- intros m N. rewrite HA by lia. rewrite (x_ends _ _ S1) by lia. cbn [z_ends z3]. unfold fupd.
           destruct (Nat.eqb_spec m (pc_of z)); [lia|]. reflexivity.
        -- intros m N. rewrite HB by lia. rewrite (x_elses _ _ S1) by lia. reflexivity.
        -- unfold matches in *. cbn. rewrite M. destruct Hb as (_ & _ & ->). reflexivity.
      * destruct Hb as (_ & <- & _). eapply P0_last; [exact P3|reflexivity].
      * split; [|exact I]. rewrite HA by lia. rewrite (x_ends _ _ S1) by lia. cbn [z_ends z3]. unfold fupd. now rewrite Nat.eqb_refl.
      * rewrite <- p3. destruct Hb as (_ & <- & _). apply S3; auto.
        -- intros m N. apply HA. lia.
        -- intros m N. apply HB. lia.
        -- cbn. now rewrite (x_ctl _ _ R1).
  - (* if *)
    destruct (al_pop (k_al (z_k z)) TI32) as [a0 rc] eqn:PO.
    destruct (open_block a0 false ps rs) as [[a1 s] b] eqn:OB.
    assert (Hb : cb_params b = ps /\ cb_results b = rs /\ cb_loop b = false) by (unfold open_block in OB; inversion OB; subst; auto).
    rewrite <- app_assoc in H. cbn [app] in H.
    eapply dec_live_eq in H; [|exact U|cbn [dec_live]; rewrite PO, OB; reflexivity].
    match type of H with dec_ops _ _ ?w = _ => set (z1 := w) in * end.
    assert (Fx1 : fixed z1) by (unfold fixed; cbn; rewrite fixes_app, <- Fx; cbn; reflexivity).
    destruct (IH c1 ltac:(lia) FEnd _ z1 zf (or_introl eq_refl) U Fx1 H) as (z2 & H2 & U2 & R1 & R2 & R3).
    eapply dec_end in H2; [|exact U2|rewrite (x_map _ _ R1); reflexivity|rewrite (x_ctl _ _ R1); reflexivity|rewrite (x_sav _ _ R1); reflexivity].
    match type of H2 with dec_ops _ _ ?w = _ => set (z3 := w) in * end.
    assert (Fx3 : fixed z3) by (unfold fixed; cbn; rewrite fixes_app; cbn; rewrite app_nil_r; exact R2).
    destruct (IH c2 ltac:(lia) t rest z3 zf Ht eq_refl Fx3 H2) as (z4 & H4 & U4 & S1 & S2 & S3).
    assert (p1 : pc_of z1 = S (pc_of z)) by (unfold pc_of; cbn; rewrite app_length; cbn; lia).
    assert (p3 : pc_of z3 = S (pc_of z2)) by (unfold pc_of; cbn; rewrite app_length; cbn; lia).
    pose proof (ext_pc _ _ R1). pose proof (ext_pc _ _ S1).
    exists z4. split; [exact H4|]. split; [exact U4|]. split; [|split]; [|exact S2|].
    + constructor.
      * rewrite (x_ctl _ _ S1). cbn. now rewrite (x_ctl _ _ R1).
      * rewrite (x_sav _ _ S1). cbn. now rewrite (x_sav _ _ R1).
      * now rewrite (x_map _ _ S1).
      * destruct (x_out _ _ R1) as [s1 E1], (x_out _ _ S1) as [s2 E2]. rewrite E2. cbn [z_out z3]. rewrite E1. cbn [z_out z1].
        rewrite <- !app_assoc. eauto.
      * intros m N. rewrite (x_ends _ _ S1) by lia. cbn [z_ends z3]. unfold fupd. destruct (Nat.eqb_spec m (pc_of z)); [lia|].
        rewrite (x_ends _ _ R1) by lia. reflexivity.
      * intros m N. rewrite (x_elses _ _ S1) by lia. cbn [z_elses z3]. unfold fupd. destruct (Nat.eqb_spec m (pc_of z)); [lia|].
        rewrite (x_elses _ _ R1) by lia. reflexivity.
    + intros C0 F G X Hp HA HB M. cbn [loc]. rewrite PO, OB.
      assert (P3 : prefix (z_out z3) C0) by (eapply prefix_trans; [apply ext_prefix; exact S1|exact Hp]).
      assert (P2 : prefix (z_out z2) C0) by (eapply prefix_trans; [|exact P3]; eexists; reflexivity).
      assert (P1 : prefix (z_out z1) C0) by (eapply prefix_trans; [apply ext_prefix; exact R1|exact P2]).
      exists (z_k z2), (pc_of z2).
      split; [eapply P0_last; [exact P1|reflexivity]|]. split; [|split; [|split]].
      * rewrite <- p1. apply R3; auto.
        -- intros m N. rewrite HA by lia. rewrite (x_ends _ _ S1) by lia. cbn [z_ends z3]. unfold fupd.
           destruct (Nat.eqb_spec m (pc_of z)); [lia|]. reflexivity.
        -- intros m N. rewrite HB by lia. rewrite (x_elses _ _ S1) by lia. cbn [z_elses z3]. unfold fupd.
           destruct (Nat.eqb_spec m (pc_of z)); [lia|]. reflexivity.
        -- unfold matches in *. cbn. rewrite M. destruct Hb as (_ & _ & ->). reflexivity.
      * destruct Hb as (_ & <- & _). eapply P0_last; [exact P3|reflexivity].
      * split.
        -- rewrite HA by lia. rewrite (x_ends _ _ S1) by lia. cbn [z_ends z3]. unfold fupd. now rewrite Nat.eqb_refl.
        -- rewrite HB by lia. rewrite (x_elses _ _ S1) by lia. cbn [z_elses z3]. unfold fupd. now rewrite Nat.eqb_refl.
      * rewrite <- p3. destruct Hb as (_ & <- & _). apply S3; auto.
        -- intros m N. apply HA. lia.
        -- intros m N. apply HB. lia.
        -- cbn. now rewrite (x_ctl _ _ R1).
  - (* if else *)
    destruct (al_pop (k_al (z_k z)) TI32) as [a0 rc] eqn:PO.
    destruct (open_block a0 false ps rs) as [[a1 s] b] eqn:OB.
    assert (Hb : cb_params b = ps /\ cb_results b = rs /\ cb_loop b = false) by (unfold open_block in OB; inversion OB; subst; auto).
    rewrite <- !app_assoc in H. cbn [app] in H. rewrite <- !app_assoc in H. cbn [app] in H.
    eapply dec_live_eq in H; [|exact U|cbn [dec_live]; rewrite PO, OB; reflexivity].
    match type of H with dec_ops _ _ ?w = _ => set (z1 := w) in * end.
    assert (Fx1 : fixed z1) by (unfold fixed; cbn; rewrite fixes_app, <- Fx; cbn; reflexivity).
    destruct (IH c1 ltac:(lia) FElse _ z1 zf (or_intror eq_refl) U Fx1 H) as (z2 & H2 & U2 & R1 & R2 & R3).
    eapply dec_else in H2; [|exact U2|rewrite (x_map _ _ R1); reflexivity|rewrite (x_ctl _ _ R1); reflexivity|rewrite (x_sav _ _ R1); reflexivity].
    match type of H2 with dec_ops _ _ ?w = _ => set (z3 := w) in * end.
    assert (Fx3 : fixed z3) by (unfold fixed; cbn; rewrite fixes_app, <- R2; reflexivity).
    destruct (IH c2 ltac:(lia) FEnd _ z3 zf (or_introl eq_refl) eq_refl Fx3 H2) as (z4 & H4 & U4 & S1 & S2 & S3).
    assert (C4 : z_ctl z4 = b :: tl (z_ctl z4)) by (rewrite (x_ctl _ _ S1); cbn [z_ctl z3]; rewrite (x_ctl _ _ R1); reflexivity).
    assert (V4 : z_sav z4 = s :: tl (z_sav z4)) by (rewrite (x_sav _ _ S1); cbn [z_sav z3]; rewrite (x_sav _ _ R1); reflexivity).
    eapply dec_end in H4; [|exact U4|rewrite (x_map _ _ S1); reflexivity|exact C4|exact V4].
    match type of H4 with dec_ops _ _ ?w = _ => set (z5 := w) in * end.
    assert (Fx5 : fixed z5) by (unfold fixed; cbn; rewrite fixes_app; cbn; rewrite app_nil_r; exact S2).
    destruct (IH c3 ltac:(lia) t rest z5 zf Ht eq_refl Fx5 H4) as (z6 & H6 & U6 & T1 & T2 & T3).
    assert (p1 : pc_of z1 = S (pc_of z)) by (unfold pc_of; cbn; rewrite app_length; cbn; lia).
    assert (p3 : pc_of z3 = S (pc_of z2)) by (unfold pc_of; cbn; rewrite app_length; cbn; lia).
    assert (p5 : pc_of z5 = S (pc_of z4)) by (unfold pc_of; cbn; rewrite app_length; cbn; lia).
    pose proof (ext_pc _ _ R1). pose proof (ext_pc _ _ S1). pose proof (ext_pc _ _ T1).
    exists z6. split; [exact H6|]. split; [exact U6|]. split; [|split]; [|exact T2|].
    + constructor.
      * rewrite (x_ctl _ _ T1). cbn [z_ctl z5]. rewrite (x_ctl _ _ S1). cbn [z_ctl z3]. now rewrite (x_ctl _ _ R1).
      * rewrite (x_sav _ _ T1). cbn [z_sav z5]. rewrite (x_sav _ _ S1). cbn [z_sav z3]. now rewrite (x_sav _ _ R1).
      * now rewrite (x_map _ _ T1).
      * destruct (x_out _ _ R1) as [s1 E1], (x_out _ _ S1) as [s2 E2], (x_out _ _ T1) as [s3 E3].
        rewrite E3. cbn [z_out z5]. rewrite E2. cbn [z_out z3]. rewrite E1. cbn [z_out z1].
        rewrite <- !app_assoc. eauto.
      * intros m N. rewrite (x_ends _ _ T1) by lia. cbn [z_ends z5]. unfold fupd. destruct (Nat.eqb_spec m (pc_of z)); [lia|].
        rewrite (x_ends _ _ S1) by lia. cbn [z_ends z3]. rewrite (x_ends _ _ R1) by lia. reflexivity.
      * intros m N. rewrite (x_elses _ _ T1) by lia. cbn [z_elses z5]. unfold fupd. destruct (Nat.eqb_spec m (pc_of z)); [lia|].
        rewrite (x_elses _ _ S1) by lia. cbn [z_elses z3]. rewrite (x_elses _ _ R1) by lia. reflexivity.
    + intros C0 F G X Hp HA HB M. cbn [loc]. rewrite PO, OB.
      assert (P5 : prefix (z_out z5) C0) by (eapply prefix_trans; [apply ext_prefix; exact T1|exact Hp]).
      assert (P4 : prefix (z_out z4) C0) by (eapply prefix_trans; [|exact P5]; eexists; reflexivity).
      assert (P3 : prefix (z_out z3) C0) by (eapply prefix_trans; [apply ext_prefix; exact S1|exact P4]).
      assert (P2 : prefix (z_out z2) C0) by (eapply prefix_trans; [|exact P3]; eexists; reflexivity).
      assert (P1 : prefix (z_out z1) C0) by (eapply prefix_trans; [apply ext_prefix; exact R1|exact P2]).
      assert (MX : forall pe, matches (b :: z_ctl z) ({| q_start := pc_of z; q_loop := false; q_regs := cb_target b; q_target := pe |} :: X)).
      { intros pe. unfold matches in *. cbn. rewrite M. destruct Hb as (_ & _ & ->). reflexivity. }
      exists (z_k z2), (pc_of z2), (z_k z4), (pc_of z4).
      split; [eapply P0_last; [exact P1|reflexivity]|]. split; [|split; [|split; [|split; [|split; [|split]]]]].
      * rewrite <- p1. apply R3; auto.
        -- intros m N. rewrite HA by lia. rewrite (x_ends _ _ T1) by lia. cbn [z_ends z5]. unfold fupd.
           destruct (Nat.eqb_spec m (pc_of z)); [lia|]. rewrite (x_ends _ _ S1) by lia. reflexivity.
        -- intros m N. rewrite HB by lia. rewrite (x_elses _ _ T1) by lia. cbn [z_elses z5]. unfold fupd.
           destruct (Nat.eqb_spec m (pc_of z)); [lia|]. rewrite (x_elses _ _ S1) by lia. reflexivity.
      * eapply P0_last; [exact P3|reflexivity].
      * rewrite <- p3. destruct Hb as (<- & _ & _). apply S3; auto.
        -- intros m N. rewrite HA by lia. rewrite (x_ends _ _ T1) by lia. cbn [z_ends z5]. unfold fupd.
           destruct (Nat.eqb_spec m (pc_of z)); [lia|]. reflexivity.
        -- intros m N. rewrite HB by lia. rewrite (x_elses _ _ T1) by lia. cbn [z_elses z5]. unfold fupd.
           destruct (Nat.eqb_spec m (pc_of z)); [lia|]. reflexivity.
        -- cbn [z_ctl z3]. rewrite (x_ctl _ _ R1). apply MX.
      * destruct Hb as (_ & <- & _). eapply P0_last; [exact P5|reflexivity].
      * split.
        -- rewrite HA by lia. rewrite (x_ends _ _ T1) by lia. cbn [z_ends z5]. unfold fupd. now rewrite Nat.eqb_refl.
        -- rewrite HB by lia. rewrite (x_elses _ _ T1) by lia. cbn [z_elses z5]. unfold fupd. now rewrite Nat.eqb_refl.
      * lia.
      * rewrite <- p5. destruct Hb as (_ & <- & _). apply T3; auto.
        -- intros m N. apply HA. lia.
        -- intros m N. apply HB. lia.
        -- cbn [z_ctl z5]. rewrite (x_ctl _ _ S1). cbn [z_ctl z3]. now rewrite (x_ctl _ _ R1).
  - (* br *)
    destruct (branch_regs (z_ctl z) d (k_al (z_k z))) as [src tgt] eqn:BR.
    eapply dec_live_eq in H; [|exact U|cbn [dec_live]; rewrite BR; reflexivity].
    erewrite dead_ops in H by reflexivity. eexists. split; [exact H|]. split; [reflexivity|].
    apply reach_dead; auto. intros C0 F G X _ A0 AN M. cbn [loc].
    destruct (br_to L X d) as [tt rs] eqn:BT. rewrite (branch_regs_to L _ _ _ _ M), BT in BR. inversion BR; subst.
    split; [exact A0|]. split; [reflexivity|]. split; [reflexivity|exact AN].
  - (* br_if *)
    destruct (branch_regs (z_ctl z) d (fst (al_pop (k_al (z_k z)) TI32))) as [src tgt] eqn:BR.
    eapply dec_live_eq in H; [|exact U|cbn [dec_live]; rewrite BR; reflexivity].
    match type of H with dec_ops _ _ ?w = _ => set (z1 := w) in * end.
    destruct (IH c ltac:(lia) t rest z1 zf Ht U) as (z' & A & B & R); auto.
    { apply fixed_emit; auto. }
    exists z'. split; [exact A|]. split; [exact B|].
    eapply reach_step with (c' := c); [exact Fx| | |intros _; exact R|]; [reflexivity|reflexivity|].
    intros C0 F G X _ A0 M Lc. cbn [loc].
    destruct (br_to L X d) as [tt rs] eqn:BT. rewrite (branch_regs_to L _ _ _ _ M), BT in BR. inversion BR; subst.
    split; [exact A0|exact Lc].
  - (* br_table *)
    destruct (branch_regs (z_ctl z) d (fst (al_pop (k_al (z_k z)) TI32))) as [src tgt] eqn:BR.
    eapply dec_live_eq in H; [|exact U|cbn [dec_live]; rewrite BR; reflexivity].
    erewrite dead_ops in H by reflexivity. eexists. split; [exact H|]. split; [reflexivity|].
    apply reach_dead; auto.
    2:{ cbn [erase erase3]. f_equal. rewrite map_map. apply map_ext. reflexivity. }
    intros C0 F G X _ A0 AN M. cbn [loc].
    rewrite (branch_regs_tbl' _ _ _ _ M) in BR. inversion BR; subst.
    split; [|split; [reflexivity|]; split; [reflexivity|exact AN]].
    unfold P0. rewrite A0. cbn [erase]. rewrite erase3_tbl, map_map. do 2 f_equal.
    apply map_ext. intros x. rewrite erase3_tbl. f_equal. erewrite <- branch_regs_tbl; eauto.
  - (* return *)
    eapply dec_live_eq in H; [|exact U|reflexivity].
    erewrite dead_ops in H by reflexivity. eexists. split; [exact H|]. split; [reflexivity|].
    apply reach_dead; auto. intros C0 F G X A0 _ AN M. cbn [loc].
    split; [exact A0|]. split; [reflexivity|]. split; [reflexivity|exact AN].
  - (* unreachable *)
    eapply dec_live_eq in H; [|exact U|reflexivity].
    erewrite dead_ops in H by reflexivity. eexists. split; [exact H|]. split; [reflexivity|].
    apply reach_dead; auto. intros C0 F G X A0 _ AN M. cbn [loc].
    split; [exact A0|]. split; [reflexivity|]. split; [reflexivity|exact AN].
  - (* call *)
    assert (Stp : forall i k1, (forall pc, fix_of pc i = []) -> erase i = i ->
              dec_live E (FCall f) (flatten c ++ t :: rest) z = Some (emit z k1 [i] [], false) ->
              (forall C0 F G X kf pf, P0 C0 (pc_of z) i ->
                 loc E (P0 C0) (Q0 F G) L X k1 (S (pc_of z)) c kf pf ->
                 loc E (P0 C0) (Q0 F G) L X (z_k z) (pc_of z) (CCall f c) kf pf) ->
              exists z', dec_ops E (t :: rest) z' = Some zf /\ z_unr z' <= 1 /\ reach E L (CCall f c) z z').
    { intros i k1 E1 E2 D HL. eapply dec_live_eq in H; [|exact U|exact D].
      destruct (IH c ltac:(lia) t rest (emit z k1 [i] []) zf Ht U) as (z' & A & B & R); auto.
      { apply fixed_emit; auto. cbn. now rewrite E1. }
      exists z'. split; [exact A|]. split; [exact B|].
      eapply reach_step with (c' := c); [exact Fx|symmetry; apply E1|exact E2|intros _; exact R|].
      intros C0 F G X A0 _ _ Lc. now apply HL. }
    cbn [dec_live] in Stp. cbn [loc] in Stp. destruct (call_info (e_mod E) f) as [w [ps rs]|[ps rs]].
    + destruct rs as [|t0 rs0].
      * eapply Stp; [| |reflexivity|]; auto.
      * destruct (al_push (al_pops (k_al (z_k z)) (rev ps)) t0) as [a r].
        eapply Stp; [| |reflexivity|]; auto.
    + unfold call_regs in Stp.
      destruct (call_params (k_al (z_k z)) (rev ps) []) as [a prs] eqn:CP.
      destruct (al_pushes a rs) as [a' rrs] eqn:AP.
      assert (Q : exists i k1, i = ICall f prs rrs /\ k1 = with_al (z_k z) a' /\
                   match ps, rs with [], [] => Some (emit z (z_k z) [ICall f [] []] [], false) | _, _ => Some (emit z (with_al (z_k z) a') [ICall f prs rrs] [], false) end = Some (emit z k1 [i] [], false)).
      { exists (ICall f prs rrs), (with_al (z_k z) a'). split; [reflexivity|]. split; [reflexivity|].
        destruct ps; [|reflexivity]. destruct rs; [|reflexivity]. cbn in CP. inversion CP; subst. cbn in AP. inversion AP; subst.
        unfold with_al. now destruct (z_k z). }
      destruct Q as (i & k1 & -> & -> & Q).
      eapply Stp; [| |exact Q|]; auto.
  - (* call_indirect *)
    destruct (type_or_empty (e_mod E) ty) as [ps rs] eqn:TY.
    destruct (al_peek (k_al (z_k z)) TI32) as [ri|] eqn:PK.
    2:{ exfalso. eapply dec_live_none; [exact U| |exact H]. cbn [dec_live]. now rewrite TY, PK. }
    destruct (call_params (fst (al_pop (k_al (z_k z)) TI32)) (rev ps) []) as [a prs] eqn:CP.
    destruct (al_pushes a rs) as [a' rrs] eqn:AP.
    eapply dec_live_eq in H; [|exact U|cbn [dec_live]; rewrite TY, PK, CP, AP; reflexivity].
    match type of H with dec_ops _ _ ?w = _ => set (z1 := w) in * end.
    destruct (IH c ltac:(lia) t rest z1 zf Ht U) as (z' & A & B & R); auto.
    { apply fixed_emit; auto. }
    exists z'. split; [exact A|]. split; [exact B|].
    eapply reach_step with (c' := c); [exact Fx| | |intros _; exact R|]; [reflexivity|reflexivity|].
    intros C0 F G X A0 _ M Lc. cbn [loc]. rewrite TY, PK. unfold call_regs. rewrite CP, AP. auto.
Qed.

(** ** part 2: the fixups *)
(** what phase 2 does at one position, given the control stack there *)
Definition patch (F G : nat -> option nat) (L : nat) (st : list (nat * bool)) (i : instr) : option instr :=
  let go d := match nth_error st d with
              | None => Some None
              | Some (start, lp) => match (if lp then Some start else F start) with
                                    | None => None
                                    | Some t => Some (Some (start, t))
                                    end
              end in
  match i with
  | IIf c _ _ => match go 0 with
                 | None => None
                 | Some None => Some i
                 | Some (Some (start, t)) =>
                     let e := match G start with Some e => e | None => t end in Some (IIf c e (negb (Nat.eqb e t)))
                 end
  | IJump _ => match go 0 with None => None | Some None => Some i | Some (Some (_, t)) => Some (IJump t) end
  | IBr d _ _ _ | IBrIf d _ _ _ _ =>
      match go d with None => None | Some None => Some (set_target i L) | Some (Some (_, t)) => Some (set_target i t) end
  | _ => Some i
  end.
Lemma patch_erase F G L st i i' : patch F G L st i = Some i' -> erase i' = erase i.
Proof.
  unfold patch. destruct i; intros H; try (inversion H; reflexivity);
    repeat match type of H with context [match ?x with _ => _ end] => destruct x end; inversion H; reflexivity.
Qed.
Lemma scan1_erase pc i j st : erase i = erase j -> scan1 pc i st = scan1 pc j st.
Proof. destruct i, j; cbn; intros H; inversion H; reflexivity. Qed.
Lemma scan_erase : forall l l' pc st, map erase l = map erase l' -> scan pc l st = scan pc l' st.
Proof.
  induction l as [|i l IH]; destruct l' as [|j l']; cbn; intros pc st H; try discriminate; auto.
  inversion H. rewrite (scan1_erase pc i j) by auto. now apply IH.
Qed.
Lemma scan_app : forall l pc l' st, scan pc (l ++ l') st = scan (pc + length l) l' (scan pc l st).
Proof.
  induction l as [|i l IH]; intros pc l' st; cbn [scan app length]; [now rewrite Nat.add_0_r|].
  rewrite IH. f_equal. lia.
Qed.
Lemma upd_app {A} (a : list A) i j b : upd (a ++ i :: b) (length a) j = a ++ j :: b.
Proof. induction a as [|x a IH]; cbn; [reflexivity|]. now rewrite IH. Qed.

Definition starts (C0 : list instr) (pc : nat) : list (nat * bool) := scan 0 (firstn pc C0) [].

Lemma fix1_patch F G a i b f is : fix_of (length a) i = [f] -> fix1 F G f (a ++ i :: b) = Some is ->
  exists i', is = a ++ i' :: b /\ patch F G (length (a ++ i :: b)) (starts (a ++ i :: b) (S (length a))) i = Some i'.
Proof.
  intros Hf H.
  assert (N : nth_error (a ++ i :: b) (length a) = Some i) by (rewrite nth_error_app2, Nat.sub_diag by lia; reflexivity).
  unfold fix1 in H. unfold patch. fold (starts (a ++ i :: b) (S (fx_pc f))) in H.
  destruct i; cbn in Hf; try discriminate; try (destruct default as [[? ?] ?]); injection Hf as <-; cbn [fx_pc fx_depth fx_kind] in H;
    rewrite N in H; cbn [is_br_table] in H.
  all: try (inversion H; subst; eexists; split; [reflexivity|reflexivity]).
  all: destruct (nth_error (starts _ _) _) as [[start lp]|];
    [destruct (if lp then Some start else F start) as [t'|]; [|discriminate]|];
    inversion H; rewrite upd_app; eexists; split; reflexivity.
Qed.
Lemma fix_of_cases pc i : fix_of pc i = [] \/ exists f, fix_of pc i = [f].
Proof. destruct i; cbn; auto; try (right; eexists; reflexivity). destruct default as [[? ?] ?]. right; eexists; reflexivity. Qed.
Lemma patch_none F G L st i pc : fix_of pc i = [] -> patch F G L st i = Some i.
Proof. destruct i; cbn; try reflexivity; try discriminate. Qed.

Lemma phase2_nth F G : forall b a C1, phase2 F G (fixes (length a) b) (a ++ b) = Some C1 ->
  exists b', C1 = a ++ b' /\ length b' = length b /\ forall n i, nth_error b n = Some i ->
    exists i', nth_error b' n = Some i' /\ patch F G (length (a ++ b)) (starts (a ++ b) (S (length a + n))) i = Some i'.
Proof.
  induction b as [|i b IH]; intros a C1 H; cbn [fixes] in H.
  - cbn in H. inversion H; subst. exists []. split; [reflexivity|]. split; [reflexivity|]. intros [|n] j; discriminate.
  - assert (W : exists i', patch F G (length (a ++ i :: b)) (starts (a ++ i :: b) (S (length a))) i = Some i' /\
               phase2 F G (fixes (S (length a)) b) (a ++ i' :: b) = Some C1).
    { destruct (fix_of_cases (length a) i) as [E|[f E]]; rewrite E in H; cbn [app] in H.
      - exists i. split; [eapply patch_none; exact E|exact H].
      - cbn [phase2] in H. destruct (fix1 F G f (a ++ i :: b)) as [is|] eqn:FX; [|discriminate].
        destruct (fix1_patch _ _ _ _ _ _ _ E FX) as (i' & -> & K). eauto. }
    destruct W as (i' & K & W). pose proof (patch_erase _ _ _ _ _ _ K) as Er.
    replace (a ++ i' :: b) with ((a ++ [i']) ++ b) in W by now rewrite <- app_assoc.
    replace (S (length a)) with (length (a ++ [i'])) in W by (rewrite app_length; cbn; lia).
    destruct (IH _ _ W) as (b' & -> & Hl & Hn). exists (i' :: b'). split; [now rewrite <- app_assoc|]. split; [cbn; congruence|].
    intros [|n] j J; cbn in J.
    + inversion J; subst. exists i'. split; [reflexivity|]. now rewrite Nat.add_0_r.
    + destruct (Hn n j J) as (j' & J1 & J2). exists j'. split; [exact J1|].
      rewrite <- J2. f_equal.
      * rewrite !app_length. cbn. lia.
      * unfold starts. apply scan_erase. rewrite <- !firstn_map. f_equal.
        -- rewrite app_length. cbn. lia.
        -- rewrite !map_app. cbn. rewrite <- app_assoc. cbn. now rewrite Er.
Qed.

Definition tbl_fix (F : nat -> option nat) (st : list (nat * bool)) (i : instr) : instr :=
  match i with
  | IBrTable ts d x src => IBrTable (map (table_target F st) ts) (table_target F st d) x src
  | _ => i
  end.
Lemma phase3_nth F : forall is pc st n, nth_error (phase3 F pc is st) n =
  match nth_error is n with Some i => Some (tbl_fix F (scan pc (firstn (S n) is) st) i) | None => None end.
Proof.
  induction is as [|i is IH]; intros pc st [|n]; cbn [phase3 nth_error firstn scan]; auto.
  rewrite IH. reflexivity.
Qed.
Lemma phase3_length F : forall is pc st, length (phase3 F pc is st) = length is.
Proof. induction is; intros; cbn; auto. Qed.

Lemma firstn_S_nth {A} (x : A) : forall l n, nth_error l n = Some x -> firstn (S n) l = firstn n l ++ [x].
Proof.
  induction l as [|y l IH]; intros [|n] H; cbn in H; try discriminate.
  - now inversion H.
  - change (firstn (S (S n)) (y :: l)) with (y :: firstn (S n) l). now rewrite (IH n H).
Qed.

Section Fix.
  Variable (E : denv) (F G : nat -> option nat) (C0 C1 : list instr).
  Hypothesis H2 : phase2 F G (fixes 0 C0) C0 = Some C1.
  Let C := phase3 F 0 C1 [].
  Let P (pc : nat) (i : instr) : Prop := nth_error C pc = Some i.
  Let Q (st e : nat) (el : option nat) : Prop := True.
  Let L := length C0.

  Lemma final_at pc i : nth_error C0 pc = Some i ->
    exists i', patch F G L (starts C0 (S pc)) i = Some i' /\ nth_error C pc = Some (tbl_fix F (starts C0 (S pc)) i').
  Proof.
    intros N. destruct (phase2_nth F G C0 [] C1 H2) as (b' & E1 & E2 & E3). cbn in E1. subst b'.
    destruct (E3 pc i N) as (i' & K1 & K2). exists i'. cbn [length Nat.add app] in K2. split; [exact K2|].
    unfold C. rewrite phase3_nth, K1. do 2 f_equal. unfold starts. apply scan_erase. rewrite <- !firstn_map. f_equal.
    clear -E2 E3. apply nth_ext with (d := INop) (d' := INop); [now rewrite !map_length|].
    intros n Hn. rewrite map_length in Hn. rewrite E2 in Hn.
    destruct (nth_error C0 n) as [j|] eqn:J; [|apply nth_error_None in J; lia].
    destruct (E3 n j J) as (j' & J1 & J2). apply patch_erase in J2.
    erewrite !nth_error_nth; [|rewrite nth_error_map, J; reflexivity|rewrite nth_error_map, J1; reflexivity]. exact J2.
  Qed.
  Lemma final_length : length C = L.
  Proof.
    unfold C. rewrite phase3_length. destruct (phase2_nth F G C0 [] C1 H2) as (b' & E1 & E2 & _). cbn in E1. now subst b'.
  Qed.
  Lemma starts_S pc i : nth_error C0 pc = Some i -> starts C0 (S pc) = scan1 pc i (starts C0 pc).
  Proof.
    intros N. unfold starts. assert (pc < length C0) by (apply nth_error_Some; congruence).
    rewrite (firstn_S_nth _ _ _ N). rewrite scan_app, firstn_length_le by lia. reflexivity.
  Qed.

  Definition good (X : list cl) (st : list (nat * bool)) : Prop :=
    Forall2 (fun q p => p = (q_start q, q_loop q) /\
      if q_loop q then q_target q = q_start q else F (q_start q) = Some (q_target q)) X st.
  Lemma good_nth X st d : good X st ->
    match nth_error X d, nth_error st d with
    | Some q, Some (s, lp) => (if lp then Some s else F s) = Some (q_target q)
    | None, None => True
    | _, _ => False
    end.
  Proof.
    intros K. revert d. induction K as [|q [s0 l0] X st [K1 K2] _ IH]; intros [|d]; cbn; try exact I; [|exact (IH d)].
    inversion K1; subst. destruct (q_loop q); congruence.
  Qed.

  Lemma at_plain pc i : P0 C0 pc i -> plain i -> P pc i /\ starts C0 (S pc) = starts C0 pc.
  Proof.
    intros H (A & B & D). unfold P0 in H. rewrite A in H. destruct (final_at _ _ H) as (i' & K1 & K2).
    rewrite (patch_none _ _ _ _ _ pc (B pc)) in K1. inversion K1; subst i'. split.
    - unfold P. rewrite K2. f_equal. specialize (B pc). destruct i; try reflexivity. cbn in B. destruct default as [[? ?] ?]; discriminate.
    - rewrite (starts_S _ _ H). apply D.
  Qed.
  Lemma all_plain is : forall pc, all_at (P0 C0) pc is -> Forall plain is ->
    all_at P pc is /\ starts C0 (pc + length is) = starts C0 pc.
  Proof.
    induction is as [|i is IH]; intros pc A K; cbn [all_at length] in *; [rewrite Nat.add_0_r; auto|].
    destruct A as [A1 A2]. inversion K; subst. destruct (at_plain _ _ A1 H1) as [B1 B2]. destruct (IH _ A2 H3) as [B3 B4].
    split; [auto|]. rewrite <- B2, <- B4. f_equal. lia.
  Qed.
  Lemma plain_nop : plain INop.
  Proof. now repeat split. Qed.
  Lemma nops_fix pc c pf : nops (P0 C0) pc c pf -> nops P pc c pf /\ starts C0 pf = starts C0 pc.
  Proof.
    intros [-> H]. destruct (all_plain _ _ H) as [A B].
    { apply Forall_forall. intros x K. apply repeat_spec in K. subst. apply plain_nop. }
    rewrite repeat_length in B. split; [split|]; auto.
  Qed.

  Lemma br_go X pc d : good X (starts C0 pc) ->
    exists v, (match nth_error (starts C0 pc) d with
              | None => Some None
              | Some (start, lp) => match (if lp then Some start else F start) with
                                    | None => None
                                    | Some t => Some (Some (start, t))
                                    end
              end) = Some v /\ match v with None => L | Some (_, t) => t end = fst (br_to L X d).
  Proof.
    intros K. pose proof (good_nth _ _ d K) as N. unfold br_to.
    destruct (nth_error X d) as [q|], (nth_error (starts C0 pc) d) as [[s lp]|]; try tauto.
    - destruct (if lp then Some s else F s) as [t|]; [|discriminate]. inversion N; subst. eexists. split; reflexivity.
    - eexists. split; reflexivity.
  Qed.
  Lemma tbl_go X pc d r : good X (starts C0 pc) -> r = snd (tbl_to X d) ->
    table_target F (starts C0 pc) (d, 0, r) = tbl_to X d.
  Proof.
    intros K ->. pose proof (good_nth _ _ d K) as N. unfold table_target, tbl_to.
    destruct (nth_error X d) as [q|], (nth_error (starts C0 pc) d) as [[s lp]|]; try tauto; cbn [snd].
    destruct lp; [inversion N; reflexivity|]. rewrite N. reflexivity.
  Qed.

  Lemma at_end pc s t : P0 C0 pc (IEnd s t) -> P pc (IEnd s t) /\ starts C0 (S pc) = tl (starts C0 pc).
  Proof.
    intros H. unfold P0 in H. cbn [erase] in H. destruct (final_at _ _ H) as (i' & K1 & K2). cbn in K1. inversion K1; subst i'.
    split; [exact K2|]. now rewrite (starts_S _ _ H).
  Qed.

  Lemma loc_fix : forall n c, csize c <= n -> forall X k pc kf pf,
    loc E (P0 C0) (Q0 F G) L X k pc c kf pf -> good X (starts C0 pc) ->
    loc E P Q L X k pc c kf pf /\ starts C0 pf = starts C0 pc.
  Proof.
    induction n as [|n IH]; intros c Hc; [destruct c; cbn in Hc; lia|].
    intros X k pc kf pf H K. destruct c; cbn [csize] in Hc; cbn [loc] in H |- *.
    - destruct H as [-> ->]. auto.
    - destruct (dec_basic E b (flatten c ++ [FEnd]) k) as [[[is k1] skip]|] eqn:D; [|tauto].
      destruct H as [A H]. destruct (all_plain _ _ A (dec_basic_plain _ _ _ _ _ _ _ D)) as [A1 A2].
      assert (W : forall c2, csize c2 <= n -> loc E (P0 C0) (Q0 F G) L X k1 (pc + length is) c2 kf pf ->
                loc E P Q L X k1 (pc + length is) c2 kf pf /\ starts C0 pf = starts C0 pc).
      { intros c2 S2 J. rewrite <- A2. apply IH; auto. now rewrite A2. }
      destruct c; try (destruct H as [-> H]; apply W in H; [|cbn [csize] in *; lia]; tauto).
      destruct skip; apply W in H; cbn [csize] in *; try lia; tauto.
    - destruct (open_block (k_al k) is_loop ps rs) as [[a1 s] b]. destruct H as (I1 & kb & pe & H1 & I2 & I3 & H3).
      unfold P0 in I1. cbn [erase] in I1. destruct (final_at _ _ I1) as (i' & K1 & K2). cbn in K1. inversion K1; subst i'.
      pose proof (starts_S _ _ I1) as S1. cbn [scan1] in S1.
      apply IH in H1; [|lia|rewrite S1; constructor; [cbn; destruct is_loop; [auto|split; [auto|apply I3]]|exact K]].
      destruct H1 as [H1 E1]. apply at_end in I2. destruct I2 as [I2 E2]. rewrite E1, S1 in E2. cbn [tl] in E2.
      apply IH in H3; [|lia|now rewrite E2]. destruct H3 as [H3 E3].
      split; [|congruence]. split; [exact K2|]. exists kb, pe. repeat split; auto.
    - destruct (al_pop (k_al k) TI32) as [a0 rc]. destruct (open_block a0 false ps rs) as [[a1 s] b].
      destruct H as (kb & pe & I1 & H1 & I2 & [I3 I4] & H3).
      unfold P0 in I1. cbn [erase] in I1. destruct (final_at _ _ I1) as (i' & K1 & K2).
      pose proof (starts_S _ _ I1) as S1. cbn [scan1] in S1.
      rewrite S1 in K1. cbn in K1. rewrite I3, I4, Nat.eqb_refl in K1. inversion K1; subst i'. cbn in K2.
      apply IH in H1; [|lia|rewrite S1; constructor; [cbn; auto|exact K]].
      destruct H1 as [H1 E1]. apply at_end in I2. destruct I2 as [I2 E2]. rewrite E1, S1 in E2. cbn [tl] in E2.
      apply IH in H3; [|lia|now rewrite E2]. destruct H3 as [H3 E3].
      split; [|congruence]. exists kb, pe. repeat split; auto.
    - destruct (al_pop (k_al k) TI32) as [a0 rc]. destruct (open_block a0 false ps rs) as [[a1 s] b].
      destruct H as (kt & pt & kb & pe & I1 & H1 & J1 & H2' & I2 & [I3 I4] & Lt & H3).
      unfold P0 in I1. cbn [erase] in I1. destruct (final_at _ _ I1) as (i' & K1 & K2).
      pose proof (starts_S _ _ I1) as S1. cbn [scan1] in S1.
      rewrite S1 in K1. cbn in K1. rewrite I3, I4 in K1.
      replace (S pt =? S pe) with false in K1 by (symmetry; apply Nat.eqb_neq; lia). inversion K1; subst i'. cbn in K2.
      apply IH in H1; [|lia|rewrite S1; constructor; [cbn; auto|exact K]].
      destruct H1 as [H1 E1].
      unfold P0 in J1. cbn [erase] in J1. destruct (final_at _ _ J1) as (j' & M1 & M2).
      pose proof (starts_S _ _ J1) as S2. cbn [scan1] in S2. rewrite E1, S1 in S2.
      rewrite S2 in M1. cbn in M1. rewrite I3 in M1. inversion M1; subst j'. cbn in M2.
      apply IH in H2'; [|lia|rewrite S2; constructor; [cbn; auto|exact K]].
      destruct H2' as [H2' E4]. apply at_end in I2. destruct I2 as [I2 E2]. rewrite E4, S2 in E2. cbn [tl] in E2.
      apply IH in H3; [|lia|now rewrite E2]. destruct H3 as [H3 E3].
      split; [|congruence]. exists kt, pt, kb, pe. repeat split; auto.
    - destruct (br_to L X d) as [t rs] eqn:BT. destruct H as (I1 & -> & H).
      unfold P0 in I1. cbn [erase] in I1. destruct (final_at _ _ I1) as (i' & K1 & K2).
      pose proof (starts_S _ _ I1) as S1. cbn [scan1] in S1. rewrite S1 in K1. cbn in K1.
      destruct (br_go X pc d K) as (v & V1 & V2). rewrite V1 in K1. rewrite BT in V2. cbn in V2.
      apply nops_fix in H. destruct H as [H E1]. split; [|congruence]. split; [|split; auto].
      unfold P. rewrite K2. destruct v as [[? ?]|]; inversion K1; subst; reflexivity.
    - destruct (br_to L X d) as [t rs] eqn:BT. destruct H as (I1 & H).
      unfold P0 in I1. cbn [erase] in I1. destruct (final_at _ _ I1) as (i' & K1 & K2).
      pose proof (starts_S _ _ I1) as S1. cbn [scan1] in S1. rewrite S1 in K1. cbn in K1.
      destruct (br_go X pc d K) as (v & V1 & V2). rewrite V1 in K1. rewrite BT in V2. cbn in V2.
      apply IH in H; [|lia|now rewrite S1]. destruct H as [H E1]. split; [|congruence]. split; [|auto].
      unfold P. rewrite K2. destruct v as [[? ?]|]; inversion K1; subst; reflexivity.
    - destruct H as (I1 & -> & H).
      unfold P0 in I1. cbn [erase] in I1. destruct (final_at _ _ I1) as (i' & K1 & K2).
      pose proof (starts_S _ _ I1) as S1. cbn [scan1] in S1. rewrite S1 in K1. cbn in K1. inversion K1; subst i'.
      apply nops_fix in H. destruct H as [H E1]. split; [|congruence]. split; [|split; auto].
      unfold P. rewrite K2. cbn [tbl_fix]. rewrite S1, erase3_tbl. f_equal. f_equal; [|now apply tbl_go].
      rewrite !map_map. apply map_ext. intros x. rewrite erase3_tbl. now apply tbl_go.
    - destruct H as (I1 & -> & H). apply at_plain in I1; [|now repeat split]. destruct I1 as [I1 E1].
      apply nops_fix in H. destruct H as [H E2]. split; [auto|congruence].
    - destruct H as (I1 & -> & H). apply at_plain in I1; [|now repeat split]. destruct I1 as [I1 E1].
      apply nops_fix in H. destruct H as [H E2]. split; [auto|congruence].
    - destruct (call_info (e_mod E) f) as [w [ps [|t rs]]|[ps rs]];
        [| |destruct (call_regs (k_al k) ps rs) as [[a prs] rrs]]; destruct H as [I1 H];
        (apply at_plain in I1; [|now repeat split]); destruct I1 as [I1 E1];
        (apply IH in H; [|lia|now rewrite E1]); destruct H as [H E2]; (split; [auto|congruence]).
    - destruct (type_or_empty (e_mod E) ty) as [ps rs]. destruct (al_peek (k_al k) TI32); [|tauto].
      destruct (call_regs _ ps rs) as [[a prs] rrs]. destruct H as [I1 H].
      apply at_plain in I1; [|now repeat split]. destruct I1 as [I1 E1].
      apply IH in H; [|lia|now rewrite E1]. destruct H as [H E2]. split; [auto|congruence].
  Qed.
End Fix.

(** the translation of a function body *)
Theorem translate_loc E c C al : translate E (flatten c ++ [FEnd]) = Some (C, al) ->
  exists kf pe, loc E (fun pc i => nth_error C pc = Some i) (fun _ _ _ => True) (length C) []
                    (CS (al_new (e_locals E)) []) 0 c kf pe /\
    nth_error C pe = Some (IEnd (al_peek_regs (k_al kf) (e_results E)) []) /\
    length C = S pe /\ al = al_max (k_al kf).
Proof.
  unfold translate. destruct (dec_ops E (flatten c ++ [FEnd]) (dec_start E)) as [z|] eqn:D; [|discriminate].
  destruct (decode_reach E (length (z_out z)) (csize c) c (le_n _) FEnd [] (dec_start E) z (or_introl eq_refl) eq_refl eq_refl D)
    as (z' & D' & U' & R1 & R2 & R3).
  assert (M : z_map z' = []) by now rewrite (x_map _ _ R1).
  assert (Cn : z_ctl z' = []) by now rewrite (x_ctl _ _ R1).
  assert (Sv : z_sav z' = []) by now rewrite (x_sav _ _ R1).
  cbn [dec_ops] in D'.
  assert (Dd : dec_dead FEnd z' = inr (set_unr z' 0)).
  { unfold dec_dead. destruct (z_unr z') as [|[|n]] eqn:Z; [|reflexivity|lia]. now rewrite set_unr_0. }
  rewrite Dd in D'. unfold dec_live in D'. cbn [z_map z_ctl z_sav z_unr z_ends z_elses z_fix z_out z_k set_unr] in D'.
  rewrite M, Cn, Sv in D'. cbn [tl] in D'. injection D' as Hz. clear Dd.
  replace (z_map z) with (@nil (nat * bool * option nat)) by now rewrite <- Hz.
  destruct (phase2 (z_ends z) (z_elses z) (z_fix z) (z_out z)) as [C1|] eqn:P2; [|discriminate].
  intros H. inversion H; clear H. subst C al.
  assert (Fz : z_fix z = fixes 0 (z_out z)).
  { rewrite <- Hz. cbn [z_fix z_out]. rewrite fixes_app. cbn. rewrite app_nil_r. exact R2. }
  rewrite Fz in P2.
  assert (O : z_out z = z_out z' ++ [IEnd (al_peek_regs (k_al (z_k z')) (e_results E)) []]) by now rewrite <- Hz.
  assert (Ez : z_ends z = z_ends z') by now rewrite <- Hz.
  assert (Gz : z_elses z = z_elses z') by now rewrite <- Hz.
  assert (Lc := R3 (z_out z) (z_ends z) (z_elses z) []).
  destruct (loc_fix E (z_ends z) (z_elses z) (z_out z) C1 P2 (csize c) c (le_n _) [] _ _ _ _ (Lc ltac:(rewrite O; eexists; reflexivity)
     ltac:(rewrite Ez; intros ? ?; reflexivity) ltac:(rewrite Gz; intros ? ?; reflexivity) eq_refl)) as [A B].
  { constructor. }
  assert (Len : length (z_out z) = S (pc_of z')) by (rewrite O, app_length; unfold pc_of; cbn; lia).
  pose proof (final_length _ _ _ _ P2) as FL.
  exists (z_k z'), (pc_of z'). split; [|split; [|split]].
  - rewrite FL. exact A.
  - assert (N : P0 (z_out z) (pc_of z') (IEnd (al_peek_regs (k_al (z_k z')) (e_results E)) [])).
    { unfold P0. cbn [erase]. rewrite O. unfold pc_of. rewrite nth_error_app2, Nat.sub_diag by lia. reflexivity. }
    apply (at_end _ _ _ _ P2) in N. apply N.
  - now rewrite FL.
  - rewrite <- Hz. reflexivity.
Qed.
