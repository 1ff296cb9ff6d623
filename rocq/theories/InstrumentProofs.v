(** Lemmas about instrumentation (no modelled code). *)
From Coq Require Import String ZArith List Bool Lia Sorting.Permutation.
From Verif Require Import Word Value Numeric Float Mem Store Regs IR Machine Wasm Decoder Check EmitProofs EmitTyped Indexes Instrument InstrumentSpec.
Import ListNotations.
Open Scope Z_scope.

(** ** one operator *)
Definition shaped (i : instr) : Prop :=
  match i with
  | IMov c (DReg _) (OConst _) | IMov c (DReg _) (OLoc _) | IMov c (DLoc _) (OReg _) | ISelect c _ _ _ _ => is_num c = true
  | IMov _ _ _ => False
  | IOp o _ _ => sop_ok o = true
  | _ => True
  end.
Definition drops_data (op : fop) : Prop := exists k, op = FBasic (BOp (SDataDrop k)).
Definition of_op (E : denv) (op : fop) (i : instr) : Prop :=
  shaped i /\
  let x := handler_index (is_tee op) i in
  (~ wasi_call E op -> ~ odd_tee E op -> ~ drops_data op -> trace_name x = keyword op /\ stats_name x = keyword op) /\
  (wasi_call E op -> trace_name x = "call_wasi"%string /\ stats_name x = "call_wasi"%string) /\
  (odd_tee E op -> trace_name x = "local.set"%string /\ stats_name x = "local.set"%string) /\
  (drops_data op -> trace_name x = "unknown"%string /\ stats_name x = "reserved"%string) /\
  (selects TStore x = true <-> op_store op) /\ (selects TLoad x = true <-> op_load op) /\
  (~ wasi_call E op -> selects TCall x = true <-> op_call op) /\ (wasi_call E op -> selects TCall x = false) /\
  (selects TBranch x = true <-> op_branch op).
Lemma not_wasi E op : (forall f, op <> FCall f) -> ~ wasi_call E op.
Proof. intros H (f & w & t & -> & _). now apply (H f). Qed.
Lemma sel_iff (b : bool) (P : Prop) : (b = true -> P) -> (P -> b = true) -> (b = true <-> P). Proof. tauto. Qed.
Ltac unop := unfold op_store, op_load, op_call, op_branch, drops_data, odd_tee, wasi_call.
Ltac nope := let H := fresh in intros H; repeat match goal with H : exists _, _ |- _ => destruct H | H : _ /\ _ |- _ => destruct H | H : _ \/ _ |- _ => destruct H end; discriminate.
Ltac names := split; reflexivity.
Ltac fin := split; [try reflexivity; exact Logic.I|]; split; [intros _ _ _; names|]; unop; split; [nope|]; split; [nope|]; split; [nope|];
  split; [split; [discriminate|nope]|]; split; [split; [discriminate|nope]|]; split; [intros _; split; [discriminate|nope]|]; split; [nope|split; [discriminate|nope]].

Lemma of_sop E o d ss : sop_ok o = true -> of_op E (FBasic (BOp o)) (IOp o d ss).
Proof.
  intros O. unfold of_op. cbn [shaped is_tee handler_index keyword].
  split; [exact O|].
  assert (NW : ~ wasi_call E (FBasic (BOp o))) by (apply not_wasi; discriminate).
  assert (NT : ~ odd_tee E (FBasic (BOp o))) by (intros (n & X & _); discriminate).
  assert (NC : ~ op_call (FBasic (BOp o))) by (intros [(f & X)|(a & b & X)]; discriminate).
  assert (NB : ~ op_branch (FBasic (BOp o))) by (intros [(f & X)|[(f & X)|(a & b & X)]]; discriminate).
  split; [intros _ _ ND|].
  { destruct o as [o|o|o|o off|o off| | | |k| |k|t k|t k|t| |t e|t e|t e]; cbn [sop_index sop_text].
    - destruct o as [[] []|[]|[] [[]| |]]; try discriminate; names.
    - destruct o as [[] []|[] []|[] [[]| | |]|[] []]; names.
    - destruct o as [|[]|[] [] []|[] [] []|[] [] []| | |[]|[]]; names.
    - destruct o; names.
    - destruct o; names.
    - names. - names. - names. - names. - names.
    - exfalso. apply ND. now exists k.
    - cbn in O. destruct (class_of t); try discriminate; names.
    - cbn in O. destruct (class_of t); try discriminate; names.
    - names. - names. - names. - names. - names. }
  split; [tauto|]. split; [tauto|]. split; [intros (k & X); injection X as ->; names|].
  split; [|split; [|split; [|split]]].
  - split.
    + destruct o as [o|o|o|o off|o off| | | |k| |k|t k|t k|t| |t e|t e|t e]; cbn [sop_index]; intros H; try discriminate; try (now exists o, off); exfalso; revert H.
      * destruct o as [[] []|[]|[] [[]| |]]; discriminate.
      * destruct o as [[] []|[] []|[] [[]| | |]|[] []]; discriminate.
      * destruct o as [|[]|[] [] []|[] [] []|[] [] []| | |[]|[]]; discriminate.
      * destruct o; discriminate.
      * destruct (class_of t); discriminate.
      * destruct (class_of t); discriminate.
    + intros (o' & off & X). injection X as ->. destruct o'; reflexivity.
  - split.
    + destruct o as [o|o|o|o off|o off| | | |k| |k|t k|t k|t| |t e|t e|t e]; cbn [sop_index]; intros H; try discriminate; try (now exists o, off); exfalso; revert H.
      * destruct o as [[] []|[]|[] [[]| |]]; discriminate.
      * destruct o as [[] []|[] []|[] [[]| | |]|[] []]; discriminate.
      * destruct o as [|[]|[] [] []|[] [] []|[] [] []| | |[]|[]]; discriminate.
      * destruct o; discriminate.
      * destruct (class_of t); discriminate.
      * destruct (class_of t); discriminate.
    + intros (o' & off & X). injection X as ->. destruct o'; reflexivity.
  - intros _. split; [|tauto].
    destruct o as [o|o|o|o off|o off| | | |k| |k|t k|t k|t| |t e|t e|t e]; cbn [sop_index]; intros H; try discriminate; exfalso; revert H.
    + destruct o as [[] []|[]|[] [[]| |]]; discriminate.
    + destruct o as [[] []|[] []|[] [[]| | |]|[] []]; discriminate.
    + destruct o as [|[]|[] [] []|[] [] []|[] [] []| | |[]|[]]; discriminate.
    + destruct o; discriminate.
    + destruct o; discriminate.
    + destruct (class_of t); discriminate.
    + destruct (class_of t); discriminate.
  - tauto.
  - split; [|tauto].
    destruct o as [o|o|o|o off|o off| | | |k| |k|t k|t k|t| |t e|t e|t e]; cbn [sop_index]; intros H; try discriminate; exfalso; revert H.
    + destruct o as [[] []|[]|[] [[]| |]]; discriminate.
    + destruct o as [[] []|[] []|[] [[]| | |]|[] []]; discriminate.
    + destruct o as [|[]|[] [] []|[] [] []|[] [] []| | |[]|[]]; discriminate.
    + destruct o; discriminate.
    + destruct o; discriminate.
    + destruct (class_of t); discriminate.
    + destruct (class_of t); discriminate.
Qed.
(** an instruction other than an [IOp]: its index by itself *)
Lemma of_basic E b nxt k is k' s : dec_basic E b nxt k = Some (is, k', s) -> (length is <= 1)%nat /\ forall i, In i is -> of_op E (FBasic b) i.
Proof.
  destruct b as [v|n|n|n| | |t|o]; cbn [dec_basic].
  - destruct (is_num (val_cls v)) eqn:N; [|discriminate]. unfold dec_value. destruct (al_push _ _) as [a r]. rewrite vt_cls.
    destruct (folds _ nxt); intros [= <- <- <-]; (split; [cbn; lia|]); [intros i []|]. intros i [<-|[]]. unfold of_op. cbn [shaped is_tee handler_index keyword].
    destruct (val_cls v); try discriminate N; fin.
  - unfold dec_value. destruct (al_push _ _) as [a r]. destruct (class_of (ltype E n)) eqn:C; try discriminate;
      try (destruct (folds _ nxt)); intros [= <- <- <-]; (split; [cbn; lia|]); intros i Hi; cbn in Hi; try contradiction; destruct Hi as [<-|[]]; unfold of_op; fin.
  - destruct (al_pop _ _) as [a r]. destruct (class_of (ltype E n)) eqn:C; try discriminate;
      intros [= <- <- <-]; (split; [cbn; lia|]); intros i [<-|[]]; unfold of_op; fin.
  - destruct (al_peek _ _) as [r|]; [|discriminate].
    assert (NW : ~ wasi_call E (FBasic (BTee n))) by (apply not_wasi; discriminate).
    destruct (class_of (ltype E n)) eqn:C; try discriminate; intros [= <- <- <-]; (split; [cbn; lia|]); intros i [<-|[]]; unfold of_op;
      (split; [exact Logic.I||reflexivity|]);
      (split; [intros _ NT _; first [names|exfalso; apply NT; exists n; split; [reflexivity|rewrite C; auto]]|]);
      (split; [tauto|]);
      (split; [first [intros _; names|intros (m & X & K); injection X as <-; rewrite C in K; destruct K; discriminate]|]);
      unop; (split; [nope|]); (split; [split; [discriminate|nope]|]); (split; [split; [discriminate|nope]|]); (split; [intros _; split; [discriminate|nope]|]); (split; [nope|split; [discriminate|nope]]).
  - intros [= <- <- <-]. split; [cbn; lia|intros i []].
  - intros [= <- <- <-]. split; [cbn; lia|intros i []].
  - destruct (al_pop _ _) as [a rc]. destruct (select_cls t (select_type a t)) as [c|] eqn:SC; [|discriminate].
    destruct (al_pop a _) as [a2 r2]. destruct (al_pop a2 _) as [a1 r1]. destruct (al_push a1 _) as [a0 rd]. intros [= <- <- <-].
    split; [cbn; lia|]. intros i [<-|[]]. unfold of_op. unfold select_cls in SC. destruct (class_of (select_type a t)), t; try discriminate SC; injection SC as <-; fin.
  - destruct (sop_ok o) eqn:O; [|discriminate]. unfold dec_op. destruct (pop_regs _ _) as [a ns]. destruct (match o with SGlobalSet _ _ => _ | _ => _ end) as [srcs p].
    destruct (sop_res o) as [t|].
    + destruct (al_push a t) as [a' r]. destruct (if dst_foldable o then _ else _); intros [= <- <- <-]; (split; [cbn; lia|]); intros i [<-|[]]; now apply of_sop.
    + intros [= <- <- <-]. split; [cbn; lia|]. intros i [<-|[]]. now apply of_sop.
Qed.

(** ** a whole function *)
Definition emits (E : denv) (op : fop) (z z' : dst8) : Prop :=
  exists is, z_out z' = z_out z ++ is /\ (length is <= 1)%nat /\ forall i, In i is -> of_op E op i.
Ltac one := eexists; split; [reflexivity|]; split; [cbn; lia|]; intros i [<-|[]].
Lemma of_live E op nxt z z' s : dec_live E op nxt z = Some (z', s) -> emits E op z z'.
Proof.
  destruct op as [b|lp ps rs|ps rs| | |dd|dd|ds dd| | |f|ty tb]; cbn [dec_live].
  - destruct (dec_basic E b nxt (z_k z)) as [[[is k] sk]|] eqn:B; [|discriminate]. intros [= <- <-]. destruct (of_basic _ _ _ _ _ _ _ B) as [L H].
    exists is. auto.
  - destruct (open_block _ _ _ _) as [[a sv] b]. intros [= <- <-]. one. unfold of_op. destruct lp; fin.
  - destruct (al_pop _ _) as [a rc]. destruct (open_block a _ _ _) as [[a' sv] b]. intros [= <- <-]. one. unfold of_op. fin.
  - destruct (z_map z) as [|[[st [|]] [e|]] m]; try discriminate. intros [= <- <-]. one. unfold of_op. fin.
  - destruct (z_map z) as [|[[st isif] el] m].
    + destruct nxt; [|discriminate]. intros [= <- <-]. one. unfold of_op. fin.
    + intros [= <- <-]. one. unfold of_op. fin.
  - destruct (branch_regs _ _ _) as [src tgt]. intros [= <- <-]. one. unfold of_op. split; [exact Logic.I|]. split; [intros _ _ _; names|]. unop. split; [nope|]. split; [nope|]. split; [nope|].
    split; [split; [discriminate|nope]|]. split; [split; [discriminate|nope]|]. split; [intros _; split; [discriminate|nope]|]. split; [nope|]. split; [eauto|reflexivity].
  - destruct (branch_regs _ _ _) as [src tgt]. intros [= <- <-]. one. unfold of_op. split; [exact Logic.I|]. split; [intros _ _ _; names|]. unop. split; [nope|]. split; [nope|]. split; [nope|].
    split; [split; [discriminate|nope]|]. split; [split; [discriminate|nope]|]. split; [intros _; split; [discriminate|nope]|]. split; [nope|]. split; [eauto|reflexivity].
  - destruct (branch_regs _ _ _) as [src tgt]. intros [= <- <-]. one. unfold of_op. split; [exact Logic.I|]. split; [intros _ _ _; names|]. unop. split; [nope|]. split; [nope|]. split; [nope|].
    split; [split; [discriminate|nope]|]. split; [split; [discriminate|nope]|]. split; [intros _; split; [discriminate|nope]|]. split; [nope|]. split; [eauto|reflexivity].
  - intros [= <- <-]. one. unfold of_op. fin.
  - intros [= <- <-]. one. unfold of_op. fin.
  - assert (NT : ~ odd_tee E (FCall f)) by (intros (n & X & _); discriminate).
    assert (ND : ~ drops_data (FCall f)) by (intros (n & X); discriminate).
    assert (NB : ~ op_branch (FCall f)) by (intros [(k & X)|[(k & X)|(a & b & X)]]; discriminate).
    destruct (call_info (e_mod E) f) as [w [ps rs]|[ps rs]] eqn:CI.
    + assert (W : wasi_call E (FCall f)) by (exists f, w; eauto).
      assert (G : forall k a r, of_op E (FCall f) (ICallWasi k a r)).
      { intros k a r. unfold of_op. split; [exact Logic.I|]. split; [tauto|]. split; [intros _; names|]. split; [tauto|]. split; [tauto|].
        unop. split; [split; [discriminate|nope]|]. split; [split; [discriminate|nope]|]. split; [tauto|]. split; [reflexivity|]. split; [discriminate|nope]. }
      destruct rs as [|t rs]; [|destruct (al_push _ _)]; intros [= <- <-]; one; apply G.
    + assert (W : ~ wasi_call E (FCall f)) by (intros (f' & w & t & X & Y); injection X as <-; congruence).
      assert (G : forall a r, of_op E (FCall f) (ICall f a r)).
      { intros a r. unfold of_op. split; [exact Logic.I|]. split; [intros _ _ _; names|]. split; [tauto|]. split; [tauto|]. split; [tauto|].
        split; [unop; split; [discriminate|nope]|]. split; [unop; split; [discriminate|nope]|]. split; [intros _; split; [intros _; left; eauto|reflexivity]|]. split; [tauto|]. split; [discriminate|tauto]. }
      assert (K : forall q, (let (a, prs) := call_params (k_al (z_k z)) (rev ps) [] in let (a0, rrs) := al_pushes a rs in
                 Some (emit z (with_al (z_k z) a0) [ICall f prs rrs] [], false)) = Some q -> emits E (FCall f) z (fst q)).
      { intros q. destruct (call_params _ _ _) as [a0 prs]. destruct (al_pushes _ _). intros [= <-]. one. apply G. }
      destruct ps, rs; try (intros X; apply (K _ X)). intros [= <- <-]. one. apply G.
  - destruct (type_or_empty _ _) as [ps rs]. destruct (al_peek _ _); [|discriminate]. destruct (call_params _ _ _) as [a0 prs]. destruct (al_pushes _ _).
    intros [= <- <-]. one. unfold of_op. split; [exact Logic.I|]. split; [intros _ _ _; names|]. unop. split; [nope|]. split; [nope|]. split; [nope|].
    split; [split; [discriminate|nope]|]. split; [split; [discriminate|nope]|]. split; [intros _; split; [eauto|reflexivity]|]. split; [nope|]. split; [discriminate|nope].
Qed.
Definition meant (E : denv) (op : fop) (i : instr) : Prop := i = INop \/ of_op E op i.
Lemma subseq_app {A} (a b : A) x y : subseq x y -> subseq x (a :: y). Proof. now constructor. Qed.
Lemma of_ops E ops : forall z z', dec_ops E ops z = Some z' -> exists src is, z_out z' = z_out z ++ is /\ subseq src ops /\ Forall2 (meant E) src is.
Proof.
  remember (length ops) as n eqn:L. assert (LE : (length ops <= n)%nat) by lia. clear L. revert ops LE.
  induction n as [|n IH]; intros [|op rest] L z z'; cbn [dec_ops length] in *; try lia; try (intros [= <-]; exists [], []; rewrite app_nil_r; repeat constructor).
  assert (G : forall z, match dec_live E op rest z with None => None | Some (z, false) => dec_ops E rest z | Some (z, true) => match rest with [] => Some z | _ :: rest => dec_ops E rest z end end = Some z' ->
    exists src is, z_out z' = z_out z ++ is /\ subseq src (op :: rest) /\ Forall2 (meant E) src is).
  { clear z. intros z. destruct (dec_live E op rest z) as [[z1 s]|] eqn:D; [|discriminate]. destruct (of_live _ _ _ _ _ _ D) as (is0 & O & L1 & H).
    assert (J : forall src is, z_out z' = z_out z1 ++ is -> subseq src rest -> Forall2 (meant E) src is ->
      exists src' is', z_out z' = z_out z ++ is' /\ subseq src' (op :: rest) /\ Forall2 (meant E) src' is').
    { intros src is O2 S F. destruct is0 as [|i [|j is0]]; [| |cbn in L1; lia].
      - exists src, is. rewrite O2, O, app_nil_r. split; [reflexivity|]. split; [now constructor|exact F].
      - exists (op :: src), (i :: is). rewrite O2, O, <- app_assoc. split; [reflexivity|]. split; [now constructor|]. constructor; auto. right. apply H. now left. }
    destruct s.
    - destruct rest as [|o rest]; [intros [= <-]; apply (J [] []); [now rewrite app_nil_r|constructor|constructor]|]. cbn [length] in *.
      intros X. destruct (IH rest ltac:(lia) z1 z' X) as (src & is & A & B & C). apply (J src is); auto. now constructor.
    - intros X. destruct (IH rest ltac:(lia) z1 z' X) as (src & is & A & B & C). now apply (J src is). }
  unfold dec_dead. destruct (z_unr z) as [|m]; [now apply G|].
  destruct (match op with FBlock _ _ _ | FIf _ _ => _ | _ => _ end) as [|u].
  - apply (G (set_unr z 0)).
  - intros X. apply IH in X; auto; [|lia]. destruct X as (src & is & A & B & C). cbn [emit set_unr z_out] in A. exists (op :: src), (INop :: is).
    split; [now rewrite A, <- app_assoc|]. split; [now constructor|]. constructor; auto. now left.
Qed.
(** the later phases change targets only *)
Definition like (i i' : instr) : Prop :=
  (i = INop -> i' = INop) /\ (forall t, handler_index t i' = handler_index t i) /\ family_of i' = family_of i /\ handler_fn i' = handler_fn i /\ (shaped i -> shaped i').
Lemma like_refl i : like i i. Proof. repeat split; auto. Qed.
Lemma like_trans i j k : like i j -> like j k -> like i k.
Proof. intros (A1 & A2 & A3 & A4 & A5) (B1 & B2 & B3 & B4 & B5). repeat split; auto; congruence. Qed.
Lemma like_all is : Forall2 like is is. Proof. induction is; constructor; auto using like_refl. Qed.
Lemma like_trans2 a : forall b c, Forall2 like a b -> Forall2 like b c -> Forall2 like a c.
Proof. induction a; intros b c H K; inversion H; subst; inversion K; subst; constructor; eauto using like_trans. Qed.
Lemma like_upd i' : forall is p i, nth_error is p = Some i -> like i i' -> Forall2 like is (upd is p i').
Proof. induction is as [|a is IH]; intros [|p] i N L; cbn in *; try discriminate; constructor; eauto using like_refl, like_all. injection N as ->. exact L. Qed.
Lemma like_target i t : like i (set_target i t). Proof. destruct i; repeat split; auto; discriminate. Qed.
Lemma like_fix ends elses f is is' : fix1 ends elses f is = Some is' -> Forall2 like is is'.
Proof.
  unfold fix1. destruct (nth_error is (fx_pc f)) as [i|] eqn:N; [|discriminate].
  destruct (is_br_table i); [intros [= <-]; apply like_all|]. destruct (nth_error _ (fx_depth f)) as [[start lp]|].
  - destruct (if lp then Some start else ends start) as [t|]; [|discriminate]. intros [= <-]. eapply like_upd; eauto.
    destruct (fx_kind f), i; auto using like_refl, like_target; repeat split; auto; discriminate.
  - intros [= <-]. eapply like_upd; eauto using like_target.
Qed.
Lemma like_phase2 ends elses fs : forall is is', phase2 ends elses fs is = Some is' -> Forall2 like is is'.
Proof.
  induction fs as [|f fs IH]; intros is is'; cbn [phase2]; [intros [= <-]; apply like_all|].
  destruct (fix1 ends elses f is) eqn:X; [|discriminate]. intros Y. eapply like_trans2; [eapply like_fix; eauto|eauto].
Qed.
Lemma like_phase3 ends is : forall pc st, Forall2 like is (phase3 ends pc is st).
Proof. induction is as [|i is IH]; intros pc st; cbn [phase3]; constructor; auto. destruct i; repeat split; auto; discriminate. Qed.
Lemma meant_like E op i i' : meant E op i -> like i i' -> meant E op i'.
Proof.
  intros [->|O] (L1 & L2 & L3 & L4 & L5); [left; auto|right]. unfold of_op in *. rewrite L2. destruct O as [O1 O2]. split; auto.
Qed.
Lemma meant_all E src : forall is is', Forall2 (meant E) src is -> Forall2 like is is' -> Forall2 (meant E) src is'.
Proof. induction src; intros is is' H L; inversion H; subst; inversion L; subst; constructor; eauto using meant_like. Qed.
Theorem translate_meant E ops code al : translate E ops = Some (code, al) -> exists src, subseq src ops /\ Forall2 (meant E) src code.
Proof.
  unfold translate. destruct (dec_ops E ops (dec_start E)) as [z|] eqn:D; [|discriminate].
  destruct (of_ops E ops _ _ D) as (src & is & O & S & F). destruct (z_map z); [|discriminate].
  destruct (phase2 _ _ _ _) as [is'|] eqn:P2; [|discriminate]. intros [= <- <-]. exists src. split; auto.
  cbn [dec_start z_out app] in O. subst is. eapply meant_all; [eapply meant_all; [exact F|eapply like_phase2; eauto]|apply like_phase3].
Qed.
(** ** the handler of an instruction *)
Lemma shaped_handler tee i f : shaped i -> family_of i = Some f -> select_handler f (handler_index tee i) = handler_fn i.
Proof.
  destruct i as [c d s|o d ss|c d v1 v2 cd|d l|l s|w a r|ty tb i a r|g a r|r|t|lp|c e b|s t|dp t s r|dp t c s r|ts df x src| |]; cbn [shaped family_of handler_index handler_fn]; try discriminate.
  - destruct d as [d|d], s as [r|v|l]; try contradiction; intros N FM; destruct c; try discriminate N; injection FM as <-; try reflexivity; destruct tee; reflexivity.
  - intros O FM. destruct o as [o|o|o|o off|o off| | | |k| |k|t k|t k|t| |t e|t e|t e]; cbn [sop_index]; cbn [family_of] in FM.
    + destruct o as [[] []|[]|[] [[]| |]]; try discriminate O; injection FM as <-; reflexivity.
    + destruct o as [[] []|[] []|[] [[]| | |]|[] []]; injection FM as <-; reflexivity.
    + injection FM as <-. destruct o as [|[]|[] [] []|[] [] []|[] [] []| | |[]|[]]; reflexivity.
    + injection FM as <-. destruct o; reflexivity.
    + injection FM as <-. destruct o; reflexivity.
    + injection FM as <-; reflexivity. + injection FM as <-; reflexivity. + injection FM as <-; reflexivity. + injection FM as <-; reflexivity. + injection FM as <-; reflexivity.
    + discriminate.
    + injection FM as <-. cbn in O. destruct (class_of t); try discriminate O; reflexivity.
    + injection FM as <-. cbn in O. destruct (class_of t); try discriminate O; reflexivity.
    + injection FM as <-; reflexivity. + injection FM as <-; reflexivity. + injection FM as <-; reflexivity. + injection FM as <-; reflexivity. + injection FM as <-; reflexivity.
  - intros N FM. injection FM as <-. destruct c; try discriminate N; reflexivity.
  - intros _ FM. injection FM as <-. reflexivity.
  - intros _ FM. injection FM as <-. reflexivity.
Qed.
(** ** words *)
Lemma lower_letter c k : 97 <= k <= 122 -> (lower c = k <-> c = k \/ c = k - 32).
Proof. unfold lower. intros K. destruct (65 <=? c) eqn:A, (c <=? 90) eqn:B; cbn [andb]; rewrite ?Z.leb_le, ?Z.leb_gt in *; lia. Qed.
Lemma word_spelled w : letters w -> forall s, is_word w s = true <-> spelled s w.
Proof.
  intros L s. unfold is_word. destruct (list_eq_dec Z.eq_dec (map lower s) w) as [H|H].
  - split; [intros _|reflexivity]. subst w. unfold spelled. induction s as [|c s IH]; cbn in *; constructor; inversion L; subst; auto. now apply lower_letter.
  - split; [discriminate|]. intros K. exfalso. apply H. clear H. induction K as [|c k s w X K IH]; [reflexivity|]. inversion L; subst. cbn. f_equal; auto. now apply lower_letter.
Qed.
Lemma filter_map_in {A B} (f : A -> option B) l b : In b (filter_map f l) <-> exists a, In a l /\ f a = Some b.
Proof.
  induction l as [|a l IH]; cbn; [firstorder|]. destruct (f a) as [b'|] eqn:X; cbn; rewrite IH; split.
  - intros [<-|(a' & I & Y)]; eauto. - intros (a' & [<-|I] & Y); [left; congruence|eauto].
  - intros (a' & I & Y); eauto. - intros (a' & [<-|I] & Y); [congruence|eauto].
Qed.
Definition tev (e : tevent) : list Z := match e with TAll => w_all | TStore => w_store | TLoad => w_load | TCall => w_call | TBranch => w_branch end.
Lemma event_word e s : event_of s = Some e <-> spelled s (tev e).
Proof.
  assert (L : forall e, letters (tev e)) by (intros []; repeat constructor; lia).
  rewrite <- (word_spelled _ (L e)). unfold event_of, is_word. generalize (map lower s). intros w. clear L s.
  destruct e; cbn [tev]; repeat match goal with |- context [list_eq_dec Z.eq_dec ?a ?b] => destruct (list_eq_dec Z.eq_dec a b) as [?X|?X] end;
    split; intros H; try discriminate H; try reflexivity; subst; try discriminate; try congruence.
Qed.
Lemma selected E evs rs out op i : of_op E op i -> ~ wasi_call E op ->
  (should_trace_event (trace_config evs rs out) (handler_index (is_tee op) i) = true <-> asked evs op).
Proof.
  intros (_ & _ & _ & _ & _ & HS & HL & HC & _ & HB) NW. specialize (HC NW). unfold should_trace_event. cbn [trace_config tc_events]. destruct evs as [l|]; [|cbn; tauto].
  rewrite existsb_exists. cbn [asked]. split.
  - intros (e & I & S). apply filter_map_in in I as (s & I & X). apply event_word in X. assert (GV : given l (tev e)) by (exists s; auto).
    destruct e; cbn [tev] in GV; [left|right; left|right; right; left|right; right; right; left|right; right; right; right]; try tauto; split; tauto.
  - intros [(s & I & X)|[[(s & I & X) P]|[[(s & I & X) P]|[[(s & I & X) P]|[(s & I & X) P]]]]].
    + exists TAll. split; [apply filter_map_in; exists s; split; [auto|now apply event_word]|reflexivity].
    + exists TStore. split; [apply filter_map_in; exists s; split; [auto|now apply event_word]|tauto].
    + exists TLoad. split; [apply filter_map_in; exists s; split; [auto|now apply event_word]|tauto].
    + exists TCall. split; [apply filter_map_in; exists s; split; [auto|now apply event_word]|tauto].
    + exists TBranch. split; [apply filter_map_in; exists s; split; [auto|now apply event_word]|tauto].
Qed.

(** ** counting *)
Definition recorded (l : list Z) : stats := fold_left record_instruction l stats_new.
Lemma bump_keys i l j : In j (map fst (bump i l)) <-> j = i \/ In j (map fst l).
Proof.
  induction l as [|[k n] l IH]; cbn; [intuition|]. destruct (Z.eqb_spec i k) as [->|N]; cbn; [intuition|]. rewrite IH. intuition.
Qed.
Lemma bump_nodup i l : NoDup (map fst l) -> NoDup (map fst (bump i l)).
Proof.
  induction l as [|[k n] l IH]; cbn; intros H; [repeat constructor; auto|]. inversion H; subst. destruct (Z.eqb_spec i k) as [->|N]; cbn; [now constructor|].
  constructor; auto. rewrite bump_keys. intuition.
Qed.
Lemma bump_in i l j n : NoDup (map fst l) -> In (j, n) (bump i l) ->
  (j <> i /\ In (j, n) l) \/ (j = i /\ ((exists m, In (j, m) l /\ n = u64 (m + 1)) \/ (n = 1 /\ ~ In j (map fst l)))).
Proof.
  induction l as [|[k m] l IH]; cbn; intros ND.
  - intros [[= <- <-]|[]]. right. auto.
  - inversion ND; subst. destruct (Z.eqb_spec i k) as [->|N]; cbn.
    + intros [[= <- <-]|I]; [right; split; auto; left; eauto|]. left. split; [|auto]. intros ->. apply H1. now apply (in_map fst) in I.
    + intros [[= <- <-]|I]; [left; auto|]. destruct (IH H2 I) as [[A B]|[A [(m' & B & C)|[B C]]]]; [left; auto|right; split; auto; left; eauto|].
      right. split; auto. right. split; auto. intros [X|X]; [congruence|auto].
Qed.
Lemma times_snoc i l j : times i (l ++ [j]) = times i l + (if Z.eq_dec j i then 1 else 0).
Proof. unfold times. rewrite count_occ_app. cbn. destruct (Z.eq_dec j i); lia. Qed.
Lemma times_le i l : times i l <= Z.of_nat (length l).
Proof. unfold times. apply inj_le. apply count_occ_bound. Qed.
Lemma u64_id z : 0 <= z < 2 ^ 64 -> u64 z = z. Proof. apply Z.mod_small. Qed.
Lemma recorded_ok l : Z.of_nat (length l) < 2 ^ 64 ->
  st_total (recorded l) = Z.of_nat (length l) /\ NoDup (map fst (st_per (recorded l))) /\
  (forall i, In i (map fst (st_per (recorded l))) <-> In i l) /\ (forall i n, In (i, n) (st_per (recorded l)) -> n = times i l).
Proof.
  induction l as [|j l IH] using rev_ind; intros B; [cbn; repeat split; auto; try constructor; intros ? ? []|].
  unfold recorded in *. rewrite fold_left_app. cbn [fold_left]. rewrite app_length in B. cbn [length] in B.
  destruct (IH ltac:(lia)) as (A & N & K & C). clear IH. set (s := fold_left record_instruction l stats_new) in *. cbn [record_instruction st_total st_per].
  rewrite A. rewrite app_length. cbn [length]. split; [rewrite u64_id; lia|]. split; [now apply bump_nodup|]. split.
  - intros i. rewrite bump_keys, K, in_app_iff. cbn. intuition.
  - intros i n I. rewrite times_snoc. pose proof (times_le i l). assert (0 <= times i l) by (unfold times; lia).
    destruct (bump_in _ _ _ _ N I) as [[X Y]|[-> [(m & Y & ->)|[-> Y]]]].
    + destruct (Z.eq_dec j i); [congruence|]. rewrite (C _ _ Y). lia.
    + destruct (Z.eq_dec j j); [|congruence]. rewrite (C _ _ Y). apply u64_id. lia.
    + destruct (Z.eq_dec j j); [|congruence]. rewrite K in Y. unfold times. apply (count_occ_not_In Z.eq_dec) in Y. rewrite Y. reflexivity.
Qed.
From Coq Require Import Sorting.Sorted.
Definition ge_snd (a b : Z * Z) : Prop := snd b <= snd a.
Lemma insert_perm e l : Permutation (insert e l) (e :: l).
Proof.
  induction l as [|x l IH]; cbn; [reflexivity|]. destruct (snd x <=? snd e); [reflexivity|]. rewrite IH. apply perm_swap.
Qed.
Lemma insert_sorted e l : StronglySorted ge_snd l -> StronglySorted ge_snd (insert e l).
Proof.
  induction l as [|x l IH]; cbn; intros H; [repeat constructor|]. inversion H; subst. destruct (snd x <=? snd e) eqn:Q.
  - apply Z.leb_le in Q. constructor; auto. constructor; [exact Q|]. eapply Forall_impl; [|exact H3]. unfold ge_snd. cbn. lia.
  - apply Z.leb_gt in Q. constructor; auto. eapply Permutation_Forall; [symmetry; apply insert_perm|]. constructor; auto. unfold ge_snd. lia.
Qed.
Lemma sorted_perm l : Permutation (sorted_counts l) l.
Proof. induction l as [|e l IH]; cbn; [reflexivity|]. rewrite insert_perm. now constructor. Qed.
Lemma sorted_ok l : StronglySorted ge_snd (sorted_counts l).
Proof. induction l; cbn; [constructor|now apply insert_sorted]. Qed.
Lemma sorted_map {A B} (R : A -> A -> Prop) (Q : B -> B -> Prop) (f : A -> B) l :
  (forall a b, In a l -> In b l -> R a b -> Q (f a) (f b)) -> StronglySorted R l -> StronglySorted Q (map f l).
Proof.
  induction l as [|a l IH]; intros H S; cbn; [constructor|]. inversion S; subst. constructor; [apply IH; auto; intros; apply H; cbn; auto|].
  apply Forall_forall. intros y I. apply in_map_iff in I as (x & <- & I). apply H; cbn; auto. rewrite Forall_forall in H3. auto.
Qed.
Lemma report_ok order l : (forall x, Permutation (order x) x) -> Z.of_nat (length l) < 2 ^ 64 ->
  let r := stats_report order (recorded l) in
  sm_total r = Z.of_nat (length l) /\
  exists top rest, NoDup (top ++ rest) /\ (forall i, In i (top ++ rest) <-> In i l) /\
    StronglySorted (fun i j => times j l <= times i l) (top ++ rest) /\
    sm_top r = map (fun i => (stats_name i, times i l)) top /\ (length top <= 20)%nat /\ (length top < 20 -> rest = [])%nat /\ sm_more r = length rest.
Proof.
  intros P B. destruct (recorded_ok l B) as (T & N & K & C). unfold stats_report. rewrite T. cbv zeta.
  destruct (Z.eqb_spec (Z.of_nat (length l)) 0) as [Z0|NZ].
  { destruct l; [|cbn in Z0; lia]. split; [reflexivity|]. exists [], []. cbn. split; [constructor|]. split; [tauto|]. split; [constructor|]. auto with arith. }
  cbn [sm_total sm_top sm_more]. split; [reflexivity|].
  set (cs := sorted_counts (order (st_per (recorded l)))).
  assert (PM : Permutation cs (st_per (recorded l))) by (unfold cs; rewrite sorted_perm; apply P).
  assert (CC : forall i n, In (i, n) cs -> n = times i l) by (intros i n I; apply C; eapply Permutation_in; eauto).
  exists (map fst (firstn 20 cs)), (map fst (skipn 20 cs)). rewrite <- map_app, firstn_skipn.
  split; [eapply Permutation_NoDup; [symmetry; apply Permutation_map; exact PM|exact N]|].
  split; [intros i; rewrite <- K; split; apply Permutation_in; [|symmetry]; now apply Permutation_map|].
  split.
  { apply (sorted_map ge_snd); [|apply sorted_ok]. intros [i n] [j m] I J. unfold ge_snd. cbn. rewrite (CC _ _ I), (CC _ _ J). auto. }
  split.
  { rewrite map_map. apply map_ext_in. intros [i n] I. cbn. f_equal. apply CC. rewrite <- (firstn_skipn 20 cs). apply in_or_app. now left. }
  rewrite !map_length, firstn_length, skipn_length. split; [lia|]. split; [|lia]. intros X. rewrite skipn_all2; [reflexivity|]. lia.
Qed.
