(** What the translator emits comes from the source: operators and constants (no modelled code). *)
From Coq Require Import ZArith List Bool Lia.
From Verif Require Import Word Value Numeric Float Mem Store Regs IR Machine Wasm Decoder Check.
Import ListNotations.
Open Scope nat_scope.

Section Emit.
  Variables (okop : sop -> bool) (okval : val -> bool).
  (** an operator or constant of the source; all of a body *)
  Definition okb (b : basic) : bool := match b with BOp o => okop o | BConst v => okval v | _ => true end.
  Fixpoint okcode (c : code) : bool :=
    match c with
    | CNil => true
    | CBasic b k => okb b && okcode k
    | CBlock _ _ _ body k => okcode body && okcode k
    | CIf _ _ th k => okcode th && okcode k
    | CIfElse _ _ th el k => okcode th && okcode el && okcode k
    | CBr _ k | CBrIf _ k | CBrTable _ _ k | CReturn k | CUnreachable k | CCall _ k | CCallInd _ _ k => okcode k
    end.
  Definition okfop (o : fop) : bool := match o with FBasic b => okb b | _ => true end.
  Definition okopnd (o : opnd) : bool := match o with OConst v => is_num (val_cls v) && okval v | _ => true end.
  Definition okinstr (i : instr) : bool :=
    match i with IMov _ _ s => okopnd s | IOp o _ srcs => okop o && forallb okopnd srcs | _ => true end.
  Lemma okflatten c : okcode c = true -> forallb okfop (flatten c) = true.
  Proof.
    induction c; cbn [okcode flatten]; intros H; auto; repeat match goal with H : _ && _ = true |- _ => apply andb_prop in H as [? ?] end;
    cbn [forallb okfop]; rewrite ?forallb_app; cbn [forallb okfop]; rewrite ?forallb_app; cbn [forallb okfop];
    repeat match goal with IH : okcode ?k = true -> _, H : okcode ?k = true |- _ => rewrite (IH H); clear IH end; auto.
    now rewrite H.
  Qed.
  Definition okpend (p : list (cls * opnd)) : bool := forallb (fun x => okopnd (snd x)) p.
  Lemma ok_take c n p o p' : okpend p = true -> take_pend c n p = (o, p') -> okopnd o = true /\ okpend p' = true.
  Proof.
    destruct p as [|[c' o'] p]; cbn [take_pend]; intros H E; [now injection E as <- <-|].
    pose proof H as H'. cbn in H. apply andb_prop in H as [H1 H2].
    destruct (cls_eqb c' c); injection E as <- <-; auto.
  Qed.
  Lemma ok_take_all ts : forall fl ns p os p', okpend p = true -> take_all ts fl ns p = (os, p') -> forallb okopnd os = true /\ okpend p' = true.
  Proof.
    induction ts as [|t ts IH]; intros [|b fl] [|n ns] p os p' H E; cbn [take_all] in E; try (injection E as <- <-; auto; fail).
    destruct (if b then take_pend (class_of t) n p else (OReg n, p)) as [o q] eqn:T.
    assert (K : okopnd o = true /\ okpend q = true) by (destruct b; [now apply (ok_take _ _ _ _ _ H T)|injection T as <- <-; auto]).
    destruct (take_all ts fl ns q) as [os' q'] eqn:T'. injection E as <- <-. destruct K as [K1 K2].
    destruct (IH _ _ _ _ _ K2 T') as [K3 K4]. cbn. now rewrite K1, K3.
  Qed.
  Lemma ok_rev l : forallb okopnd l = true -> forallb okopnd (rev l) = true.
  Proof. rewrite !forallb_forall. intros H x I. apply H. now apply in_rev. Qed.
  Lemma ok_op E o nxt k is k' b : okop o = true -> okpend (k_pend k) = true -> dec_op E o nxt k = (is, k', b) ->
    forallb okinstr is = true /\ okpend (k_pend k') = true.
  Proof.
    intros O P. unfold dec_op. destruct (pop_regs (k_al k) (rev (sop_args o))) as [a ns].
    assert (G : forall q, match o with
                   | SGlobalSet t _ => let (s, p) := global_src (class_of t) (hd 0 ns) (k_pend k) in ([s], p)
                   | _ => take_all (rev (sop_args o)) (sop_takes o) ns (k_pend k)
                   end = q -> forallb okopnd (fst q) = true /\ okpend (snd q) = true).
    { intros q <-. 
      assert (G1 : forallb okopnd (fst (take_all (rev (sop_args o)) (sop_takes o) ns (k_pend k))) = true /\ okpend (snd (take_all (rev (sop_args o)) (sop_takes o) ns (k_pend k))) = true).
      { destruct (take_all _ _ _ _) as [os p'] eqn:T. exact (ok_take_all _ _ _ _ _ _ P T). }
      destruct o; try exact G1. unfold global_src. destruct (take_pend _ _ _) as [o p] eqn:T. destruct (ok_take _ _ _ _ _ P T) as [_ K2].
      destruct o; cbn; auto. }
    specialize (G _ eq_refl). destruct (match o with SGlobalSet _ _ => _ | _ => _ end) as [srcs p]. cbn [fst snd] in G. destruct G as [G1 G2]. apply ok_rev in G1.
    destruct (sop_res o) as [t|].
    - destruct (al_push a t) as [a' r]. destruct (if dst_foldable o then _ else _); intros [= <- <- <-]; cbn; rewrite O, G1; auto.
    - intros [= <- <- <-]; cbn; rewrite O, G1; auto.
  Qed.
  Lemma ok_value t o nxt k is k' : okopnd o = true -> okpend (k_pend k) = true -> dec_value t o nxt k = (is, k') ->
    forallb okinstr is = true /\ okpend (k_pend k') = true.
  Proof.
    intros O P. unfold dec_value. destruct (al_push (k_al k) t) as [a r]. destruct (folds _ nxt); intros [= <- <-]; cbn; rewrite O; auto.
  Qed.
  Lemma ok_basic E b nxt k is k' s : okb b = true -> okpend (k_pend k) = true -> dec_basic E b nxt k = Some (is, k', s) ->
    forallb okinstr is = true /\ okpend (k_pend k') = true.
  Proof.
    intros O P. destruct b as [v|n|n|n| | |t|o]; cbn [dec_basic okb] in *.
    - destruct (is_num (val_cls v)) eqn:IN; [|discriminate]. destruct (dec_value _ _ nxt k) as [is' k0] eqn:V. intros [= <- <- <-]. eapply ok_value; eauto. cbn. now rewrite IN.
    - destruct (class_of (ltype E n)); try discriminate; try (destruct (dec_value _ _ nxt k) as [is' k0] eqn:V; intros [= <- <- <-]; eapply ok_value; eauto; reflexivity).
      destruct (al_push _ _); intros [= <- <- <-]; auto.
    - destruct (al_pop _ _). destruct (class_of (ltype E n)); try discriminate; intros [= <- <- <-]; auto.
    - destruct (al_peek _ _); [|discriminate]. destruct (class_of (ltype E n)); try discriminate; intros [= <- <- <-]; auto.
    - intros [= <- <- <-]; auto.
    - intros [= <- <- <-]; auto.
    - destruct (al_pop _ _). destruct (select_cls _ _); [|discriminate]. destruct (al_pop _ _) as [a1 ?]. destruct (al_pop a1 _) as [a2 ?]. destruct (al_push a2 _). intros [= <- <- <-]; auto.
    - destruct (sop_ok o); [|discriminate]. intros [= H]. eapply ok_op; eauto.
  Qed.
  Definition okz (z : dst8) : Prop := forallb okinstr (z_out z) = true /\ okpend (k_pend (z_k z)) = true.
  Lemma ok_add z i : okz z -> okinstr i = true -> forallb okinstr (z_out z ++ [i]) = true.
  Proof. intros [H _] I. rewrite forallb_app, H. cbn. now rewrite I. Qed.
  Lemma ok_live E op nxt z z' s : okfop op = true -> okz z -> dec_live E op nxt z = Some (z', s) -> okz z'.
  Proof.
    intros O Hz. pose proof (proj2 Hz) as P. destruct op as [b|lp ps rs|ps rs| | |dd|dd|ds dd| | |f|ty tb]; cbn [dec_live okfop] in *.
    - destruct (dec_basic E b nxt (z_k z)) as [[[is k] sk]|] eqn:B; [|discriminate]. intros [= <- <-].
      destruct (ok_basic _ _ _ _ _ _ _ O P B) as [B1 B2]. split; cbn; [rewrite forallb_app, (proj1 Hz), B1; reflexivity|exact B2].
    - destruct (open_block _ _ _ _) as [[a sv] b]. intros [= <- <-]. split; cbn; [now apply ok_add|exact P].
    - destruct (al_pop _ _) as [a rc]. destruct (open_block a _ _ _) as [[a' sv] b]. intros [= <- <-]. split; cbn; [now apply ok_add|exact P].
    - destruct (z_map z) as [|[[st [|]] [e|]] m]; try discriminate. intros [= <- <-]. split; cbn; [now apply ok_add|exact P].
    - destruct (z_map z) as [|[[st isif] el] m].
      + destruct nxt; [|discriminate]. intros [= <- <-]. split; cbn; [now apply ok_add|exact P].
      + intros [= <- <-]. split; cbn; [now apply ok_add|exact P].
    - destruct (branch_regs _ _ _) as [src tgt]. intros [= <- <-]. split; cbn; [now apply ok_add|exact P].
    - destruct (branch_regs _ _ _) as [src tgt]. intros [= <- <-]. split; cbn; [now apply ok_add|exact P].
    - destruct (branch_regs _ _ _) as [src tgt]. intros [= <- <-]. split; cbn; [now apply ok_add|exact P].
    - intros [= <- <-]. split; cbn; [now apply ok_add|exact P].
    - intros [= <- <-]. split; cbn; [now apply ok_add|exact P].
    - destruct (call_info (e_mod E) f) as [w [ps rs]|[ps rs]].
      + destruct rs as [|t rs]; [|destruct (al_push _ _)]; intros [= <- <-]; (split; cbn; [now apply ok_add|exact P]).
      + assert (G : forall q, (let (a, prs) := call_params (k_al (z_k z)) (rev ps) [] in let (a0, rrs) := al_pushes a rs in
                 Some (emit z (with_al (z_k z) a0) [ICall f prs rrs] [], false)) = Some q -> okz (fst q)).
        { intros q. destruct (call_params _ _ _). destruct (al_pushes _ _). intros [= <-]. split; cbn; [now apply ok_add|exact P]. }
        destruct ps, rs; try (intros X; apply (G _ X)). intros [= <- <-]. split; cbn; [now apply ok_add|exact P].
    - destruct (type_or_empty _ _) as [ps rs]. destruct (al_peek _ _); [|discriminate]. destruct (call_params _ _ _). destruct (al_pushes _ _).
      intros [= <- <-]. split; cbn; [now apply ok_add|exact P].
  Qed.
  Lemma ok_ops E ops : forall z z', forallb okfop ops = true -> okz z -> dec_ops E ops z = Some z' -> okz z'.
  Proof.
    remember (length ops) as n eqn:L. assert (LE : length ops <= n) by lia. clear L. revert ops LE.
    induction n as [|n IH]; intros [|op rest] L z z' O Hz; cbn [dec_ops length] in *; try lia; try (intros [= <-]; auto; fail).
    cbn [forallb] in O. apply andb_prop in O as [O1 O2].
    assert (G : forall z, okz z -> match dec_live E op rest z with None => None | Some (z, false) => dec_ops E rest z | Some (z, true) => match rest with [] => Some z | _ :: rest => dec_ops E rest z end end = Some z' -> okz z').
    { clear z Hz. intros z Hz. destruct (dec_live E op rest z) as [[z1 s]|] eqn:D; [|discriminate]. pose proof (ok_live _ _ _ _ _ _ O1 Hz D) as H1.
      destruct s.
      - destruct rest as [|o rest]; [intros [= <-]; auto|]. cbn [forallb length] in *. apply andb_prop in O2 as [_ O2]. apply IH; auto. lia.
      - apply IH; auto. lia. }
    unfold dec_dead. destruct (z_unr z) as [|m]; [now apply G|].
    destruct (match op with FBlock _ _ _ | FIf _ _ => _ | _ => _ end) as [|u].
    - apply G. exact Hz.
    - apply IH; auto; [lia|]. split; cbn; [now apply ok_add|apply Hz].
  Qed.
  Lemma ok_upd i : okinstr i = true -> forall is p, forallb okinstr is = true -> forallb okinstr (upd is p i) = true.
  Proof. intros I. induction is as [|a is IH]; intros [|p] H; cbn in *; auto; apply andb_prop in H as [H1 H2]; now rewrite ?I, ?H1, ?H2, ?IH. Qed.
  Lemma ok_nth is p i : forallb okinstr is = true -> nth_error is p = Some i -> okinstr i = true.
  Proof. intros H N. rewrite forallb_forall in H. apply H. eapply nth_error_In; eauto. Qed.
  Lemma ok_target i t : okinstr i = true -> okinstr (set_target i t) = true.
  Proof. destruct i; auto. Qed.
  Lemma ok_fix ends elses f is is' : forallb okinstr is = true -> fix1 ends elses f is = Some is' -> forallb okinstr is' = true.
  Proof.
    intros H. unfold fix1. destruct (nth_error is (fx_pc f)) as [i|] eqn:N; [|discriminate]. pose proof (ok_nth _ _ _ H N) as I.
    destruct (is_br_table i); [now intros [= <-]|]. destruct (nth_error _ (fx_depth f)) as [[start lp]|].
    - destruct (if lp then Some start else ends start) as [t|]; [|discriminate]. intros [= <-]. apply ok_upd; auto.
      destruct (fx_kind f), i; auto.
    - intros [= <-]. apply ok_upd; auto. now apply ok_target.
  Qed.
  Lemma ok_phase2 ends elses fs : forall is is', forallb okinstr is = true -> phase2 ends elses fs is = Some is' -> forallb okinstr is' = true.
  Proof.
    induction fs as [|f fs IH]; intros is is' H; cbn [phase2]; [now intros [= <-]|].
    destruct (fix1 ends elses f is) eqn:X; [|discriminate]. apply IH. eapply ok_fix; eauto.
  Qed.
  Lemma ok_phase3 ends is : forall pc st, forallb okinstr is = true -> forallb okinstr (phase3 ends pc is st) = true.
  Proof. induction is as [|i is IH]; intros pc st H; cbn [phase3 forallb] in *; auto. apply andb_prop in H as [H1 H2]. rewrite IH by auto. destruct i; auto; now rewrite H1. Qed.
  Lemma ok_translate E ops is al : forallb okfop ops = true -> translate E ops = Some (is, al) -> forallb okinstr is = true.
  Proof.
    intros O. unfold translate. destruct (dec_ops E ops (dec_start E)) as [z|] eqn:D; [|discriminate].
    destruct (ok_ops E ops (dec_start E) z O) as [H _]; [split; reflexivity|exact D|]. destruct (z_map z); [|discriminate].
    destruct (phase2 _ _ _ _) as [is'|] eqn:P2; [|discriminate]. intros [= <- <-]. apply ok_phase3. eapply ok_phase2; eauto.
  Qed.
  Definition oksrc (f : sfunc) : bool := match f with SWasm d => okcode (sf_body d) | SWasi _ _ => true end.
  Lemma ok_compile SM M : compile SM = Some M -> forallb oksrc (sm_funcs SM) = true ->
    forall f fd i, nth_error (md_funcs M) f = Some (FWasm fd) -> In i (fd_code fd) -> okinstr i = true.
  Proof.
    unfold compile. destruct (map_opt (compile_func SM) (sm_funcs SM)) as [fs|] eqn:C; [|discriminate]. intros [= <-]. cbn [md_funcs].
    revert fs C. generalize (sm_funcs SM) as l. induction l as [|a l IH]; intros fs C O f fd i N I; cbn [map_opt] in C.
    - injection C as <-. now destruct f.
    - destruct (compile_func SM a) as [b|] eqn:A; [|discriminate]. destruct (map_opt _ l) as [bs|]; [|discriminate]. injection C as <-.
      cbn [forallb] in O. apply andb_prop in O as [O1 O2]. destruct f as [|f]; cbn [nth_error] in N.
      + injection N as ->. destruct a as [d|w t]; cbn [compile_func] in A; [|discriminate].
        destruct (translate _ _) as [[cd al]|] eqn:T; [|discriminate]. injection A as <-. cbn [fd_code] in I.
        assert (K : forallb okinstr cd = true). { eapply ok_translate; [|exact T]. rewrite forallb_app. cbn [oksrc] in O1. now rewrite okflatten. }
        rewrite forallb_forall in K. auto.
      + eapply IH; eauto.
  Qed.
End Emit.
