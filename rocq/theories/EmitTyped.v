(** The constants in translated code have the type of their position, register numbers fit 16 bits, and there
    is at most one instruction per operator (no modelled code). *)
From Coq Require Import ZArith List Bool Lia.
From Verif Require Import Word Value Numeric Float Mem Store Regs IR Machine Wasm Decoder Check MemProofs StoreProofs EmitProofs.
Import ListNotations.
Open Scope nat_scope.

Lemma u16_lt n : (Z.of_nat (Regs.u16 n) < 65536)%Z.
Proof. unfold Regs.u16. pose proof (Z.mod_pos_bound (Z.of_nat n) 65536 ltac:(lia)). lia. Qed.
Definition reg16 (r : reg) : Prop := (Z.of_nat (r_idx r) < 65536)%Z.
Lemma reg16_u c n : reg16 (R c (Regs.u16 n)). Proof. apply u16_lt. Qed.
Lemma number16 ts : forall s, Forall reg16 (number_regs s ts).
Proof. induction ts as [|t ts IH]; intros s; cbn; constructor; auto using reg16_u. Qed.
Lemma push16 a t : reg16 (snd (al_push a t)). Proof. apply reg16_u. Qed.
Lemma pushes16 ts : forall a, Forall reg16 (snd (al_pushes a ts)).
Proof. induction ts as [|t ts IH]; intros a; cbn [al_pushes]; [constructor|]. destruct (al_push a t) as [a1 r] eqn:P. specialize (IH a1). destruct (al_pushes a1 ts). constructor; auto. replace r with (snd (al_push a t)) by now rewrite P. apply push16. Qed.

Section Typed.
  Variable okval : val -> bool.
  Notation okb := (okb (fun _ => true) okval).
  Notation okfop := (okfop (fun _ => true) okval).
  Definition const_is (c : cls) (o : opnd) : Prop := match o with OConst v => val_cls v = c /\ okval v = true | _ => True end.
  Definition fine (i : instr) : Prop :=
    match i with
    | IMov c _ s => const_is c s
    | IOp o _ srcs => sop_ok o = true /\ Forall2 (fun t s => const_is (class_of t) s) (sop_args o) srcs
    | ICall _ _ rs | ICallInd _ _ _ _ rs | IReturn rs | IEnd rs _ => Forall reg16 rs
    | _ => True
    end.
  Definition pends (p : list (cls * opnd)) : Prop := Forall (fun x => const_is (fst x) (snd x)) p.
  Lemma f_take c n p o p' : pends p -> take_pend c n p = (o, p') -> const_is c o /\ pends p'.
  Proof.
    destruct p as [|[c' o'] p]; cbn [take_pend]; intros H E; [injection E as <- <-; split; [exact Logic.I|constructor]|].
    destruct (cls_eqb c' c) eqn:Q; injection E as <- <-; [|split; [exact Logic.I|exact H]].
    apply cls_eqb_eq in Q. subst. inversion H; subst. auto.
  Qed.
  Lemma f_take_all ts : forall fl ns p os p', length fl = length ts -> length ns = length ts -> pends p -> take_all ts fl ns p = (os, p') ->
    Forall2 (fun t s => const_is (class_of t) s) ts os /\ pends p'.
  Proof.
    induction ts as [|t ts IH]; intros [|b fl] [|n ns] p os p' L1 L2 H E; cbn [take_all length] in *; try discriminate; [injection E as <- <-; auto|].
    destruct (if b then take_pend (class_of t) n p else (OReg n, p)) as [o q] eqn:T.
    assert (K : const_is (class_of t) o /\ pends q) by (destruct b; [now apply (f_take _ _ _ _ _ H T)|injection T as <- <-; split; [exact Logic.I|exact H]]).
    destruct (take_all ts fl ns q) as [os' q'] eqn:T'. injection E as <- <-. destruct K as [K1 K2].
    injection L1 as L1. injection L2 as L2. destruct (IH _ _ _ _ _ L1 L2 K2 T') as [K3 K4]. auto.
  Qed.
  Lemma takes_length o : length (sop_takes o) = length (sop_args o).
  Proof. destruct o; cbn; auto; now rewrite map_length. Qed.
  Lemma pop_regs_length ts : forall a, length (snd (pop_regs a ts)) = length ts.
  Proof. induction ts as [|t ts IH]; intros a; cbn [pop_regs]; [reflexivity|]. destruct (al_pop a t) as [a1 r]. specialize (IH a1). destruct (pop_regs a1 ts). cbn in *. lia. Qed.
  Lemma f2rev {A B} (Q : A -> B -> Prop) a b : Forall2 Q a b -> Forall2 Q (rev a) (rev b).
  Proof. induction 1; cbn; auto. apply Forall2_app; auto. Qed.
  Lemma f_op E o nxt k is k' b : sop_ok o = true -> pends (k_pend k) -> dec_op E o nxt k = (is, k', b) ->
    Forall fine is /\ pends (k_pend k') /\ length is = 1.
  Proof.
    intros O P. unfold dec_op. pose proof (pop_regs_length (rev (sop_args o)) (k_al k)) as LN. destruct (pop_regs (k_al k) (rev (sop_args o))) as [a ns]. cbn [snd] in LN.
    assert (G : forall q, match o with
                   | SGlobalSet t _ => let (s, p) := global_src (class_of t) (hd 0 ns) (k_pend k) in ([s], p)
                   | _ => take_all (rev (sop_args o)) (sop_takes o) ns (k_pend k)
                   end = q -> Forall2 (fun t s => const_is (class_of t) s) (rev (sop_args o)) (fst q) /\ pends (snd q)).
    { intros q <-.
      assert (G1 : Forall2 (fun t s => const_is (class_of t) s) (rev (sop_args o)) (fst (take_all (rev (sop_args o)) (sop_takes o) ns (k_pend k))) /\ pends (snd (take_all (rev (sop_args o)) (sop_takes o) ns (k_pend k)))).
      { destruct (take_all _ _ _ _) as [os p'] eqn:T. eapply f_take_all; [| |exact P|exact T]; auto. now rewrite takes_length, rev_length. }
      destruct o; try exact G1.
      unfold global_src. destruct (take_pend _ _ _) as [o p] eqn:T. destruct (f_take _ _ _ _ _ P T) as [_ K2].
      cbn [fst snd]. split; [|exact K2]. cbn [sop_args rev app]. constructor; [|constructor]. destruct o; exact Logic.I. }
    specialize (G _ eq_refl). destruct (match o with SGlobalSet _ _ => _ | _ => _ end) as [srcs p]. cbn [fst snd] in G. destruct G as [G1 G2]. apply f2rev in G1. rewrite rev_involutive in G1.
    destruct (sop_res o) as [t|].
    - destruct (al_push a t) as [a' r]. destruct (if dst_foldable o then _ else _); intros [= <- <- <-]; (split; [constructor; [split; auto|constructor]|split; [exact G2|reflexivity]]).
    - intros [= <- <- <-]; (split; [constructor; [split; auto|constructor]|split; [exact G2|reflexivity]]).
  Qed.
  Lemma f_value t o nxt k is k' : const_is (class_of t) o -> pends (k_pend k) -> dec_value t o nxt k = (is, k') ->
    Forall fine is /\ pends (k_pend k') /\ length is <= 1.
  Proof.
    intros O P. unfold dec_value. destruct (al_push (k_al k) t) as [a r]. destruct (folds _ nxt); intros [= <- <-]; cbn; repeat split; auto. constructor; auto.
  Qed.
  Lemma vt_cls c : class_of (vt_of_cls c) = c. Proof. destruct c; reflexivity. Qed.
  Lemma f_basic E b nxt k is k' s : okb b = true -> pends (k_pend k) -> dec_basic E b nxt k = Some (is, k', s) ->
    Forall fine is /\ pends (k_pend k') /\ length is <= 1.
  Proof.
    intros O P. destruct b as [v|n|n|n| | |t|o]; cbn [dec_basic EmitProofs.okb] in *.
    - destruct (is_num (val_cls v)) eqn:IN; [|discriminate]. destruct (dec_value _ _ nxt k) as [is' k0] eqn:V. intros [= <- <- <-]. eapply f_value; eauto. rewrite vt_cls. split; auto.
    - destruct (class_of (ltype E n)); try discriminate; try (destruct (dec_value _ _ nxt k) as [is' k0] eqn:V; intros [= <- <- <-]; eapply f_value; eauto; exact Logic.I).
      destruct (al_push _ _); intros [= <- <- <-]; cbn; repeat constructor; auto.
    - destruct (al_pop _ _). destruct (class_of (ltype E n)); try discriminate; intros [= <- <- <-]; cbn; repeat constructor; auto.
    - destruct (al_peek _ _); [|discriminate]. destruct (class_of (ltype E n)); try discriminate; intros [= <- <- <-]; cbn; repeat constructor; auto.
    - intros [= <- <- <-]; cbn; auto.
    - intros [= <- <- <-]; cbn; auto.
    - destruct (al_pop _ _). destruct (select_cls _ _); [|discriminate]. destruct (al_pop _ _) as [a1 ?]. destruct (al_pop a1 _) as [a2 ?]. destruct (al_push a2 _). intros [= <- <- <-]; cbn; repeat constructor; auto.
    - destruct (sop_ok o) eqn:SO; [|discriminate]. intros [= H]. destruct (f_op _ _ _ _ _ _ _ SO P H) as (A & B & C). repeat split; auto. lia.
  Qed.
  Definition fz (z : dst8) : Prop := Forall fine (z_out z) /\ pends (k_pend (z_k z)).
  Lemma f_add z i : fz z -> fine i -> Forall fine (z_out z ++ [i]).
  Proof. intros [H _] I. apply Forall_app. split; auto. Qed.
  Ltac one Hz P := split; [split; cbn; [apply f_add; [exact Hz|cbn [fine]; auto using number16]|exact P]|cbn; rewrite app_length; cbn; lia].
  Lemma f_live E op nxt z z' s : okfop op = true -> fz z -> dec_live E op nxt z = Some (z', s) -> fz z' /\ length (z_out z') <= S (length (z_out z)).
  Proof.
    intros O Hz. pose proof (proj2 Hz) as P. destruct op as [b|lp ps rs|ps rs| | |dd|dd|ds dd| | |f|ty tb]; cbn [dec_live EmitProofs.okfop] in *.
    - destruct (dec_basic E b nxt (z_k z)) as [[[is k] sk]|] eqn:B; [|discriminate]. intros [= <- <-].
      destruct (f_basic _ _ _ _ _ _ _ O P B) as (B1 & B2 & B3). split; [split; cbn; [apply Forall_app; split; [apply Hz|exact B1]|exact B2]|]. cbn. rewrite app_length. lia.
    - destruct (open_block _ _ _ _) as [[a sv] b]. intros [= <- <-]. one Hz P.
    - destruct (al_pop _ _) as [a rc]. destruct (open_block a _ _ _) as [[a' sv] b]. intros [= <- <-]. one Hz P.
    - destruct (z_map z) as [|[[st [|]] [e|]] m]; try discriminate. intros [= <- <-]. one Hz P.
    - assert (N : forall ts, Forall reg16 (al_peek_regs (k_al (z_k z)) ts)) by (intros; apply number16).
      destruct (z_map z) as [|[[st isif] el] m].
      + destruct nxt; [|discriminate]. intros [= <- <-]. one Hz P.
      + intros [= <- <-]. one Hz P.
    - destruct (branch_regs _ _ _) as [src tgt]. intros [= <- <-]. one Hz P.
    - destruct (branch_regs _ _ _) as [src tgt]. intros [= <- <-]. one Hz P.
    - destruct (branch_regs _ _ _) as [src tgt]. intros [= <- <-]. one Hz P.
    - assert (N : forall ts, Forall reg16 (al_peek_regs (k_al (z_k z)) ts)) by (intros; apply number16).
      intros [= <- <-]. one Hz P.
    - intros [= <- <-]. one Hz P.
    - destruct (call_info (e_mod E) f) as [w [ps rs]|[ps rs]].
      + destruct rs as [|t rs]; [|destruct (al_push _ _)]; intros [= <- <-]; one Hz P.
      + assert (G : forall q, (let (a, prs) := call_params (k_al (z_k z)) (rev ps) [] in let (a0, rrs) := al_pushes a rs in
                 Some (emit z (with_al (z_k z) a0) [ICall f prs rrs] [], false)) = Some q -> fz (fst q) /\ length (z_out (fst q)) <= S (length (z_out z))).
        { intros q. destruct (call_params _ _ _) as [a0 prs]. pose proof (pushes16 rs a0) as K. destruct (al_pushes _ _). intros [= <-]. cbn [snd] in K. one Hz P. }
        destruct ps, rs; try (intros X; apply (G _ X)). intros [= <- <-]. one Hz P.
    - destruct (type_or_empty _ _) as [ps rs]. destruct (al_peek _ _); [|discriminate]. destruct (call_params _ _ _) as [a0 prs]. pose proof (pushes16 rs a0) as K. destruct (al_pushes _ _). cbn [snd] in K.
      intros [= <- <-]. one Hz P.
  Qed.
  Lemma f_ops E ops : forall z z', forallb okfop ops = true -> fz z -> dec_ops E ops z = Some z' -> fz z' /\ length (z_out z') <= length (z_out z) + length ops.
  Proof.
    remember (length ops) as n eqn:L. assert (LE : length ops <= n) by lia. clear L. revert ops LE.
    induction n as [|n IH]; intros [|op rest] L z z' O Hz; cbn [dec_ops length] in *; try lia; try (intros [= <-]; split; auto; lia).
    cbn [forallb] in O. apply andb_prop in O as [O1 O2].
    assert (G : forall z, fz z -> match dec_live E op rest z with None => None | Some (z, false) => dec_ops E rest z | Some (z, true) => match rest with [] => Some z | _ :: rest => dec_ops E rest z end end = Some z' ->
      fz z' /\ length (z_out z') <= length (z_out z) + S n).
    { clear z Hz. intros z Hz. destruct (dec_live E op rest z) as [[z1 s]|] eqn:D; [|discriminate]. destruct (f_live _ _ _ _ _ _ O1 Hz D) as [H1 H2].
      destruct s.
      - destruct rest as [|o rest]; [intros [= <-]; split; auto; lia|]. cbn [forallb length] in *. apply andb_prop in O2 as [_ O2].
        intros X. destruct (IH rest ltac:(lia) z1 z' O2 H1 X). split; auto. lia.
      - intros X. destruct (IH rest ltac:(lia) z1 z' O2 H1 X). split; auto. lia. }
    unfold dec_dead. destruct (z_unr z) as [|m]; [now apply G|].
    destruct (match op with FBlock _ _ _ | FIf _ _ => _ | _ => _ end) as [|u].
    - apply (G (set_unr z 0)). exact Hz.
    - intros X. apply IH in X; auto; [|lia|split; cbn; [now apply f_add|apply Hz]]. destruct X as [X1 X2]. split; auto. cbn in X2. rewrite app_length in X2. cbn in X2. lia.
  Qed.
  Lemma f_upd i : fine i -> forall is p, Forall fine is -> Forall fine (upd is p i).
  Proof. intros I. induction is as [|a is IH]; intros [|p] H; cbn in *; auto; inversion H; subst; constructor; auto. Qed.
  Lemma f_nth is p i : Forall fine is -> nth_error is p = Some i -> fine i.
  Proof. intros H N. rewrite Forall_forall in H. apply H. eapply nth_error_In; eauto. Qed.
  Lemma f_target i t : fine i -> fine (set_target i t).
  Proof. destruct i; auto. Qed.
  Lemma f_fix ends elses f is is' : Forall fine is -> fix1 ends elses f is = Some is' -> Forall fine is' /\ length is' = length is.
  Proof.
    intros H. unfold fix1. destruct (nth_error is (fx_pc f)) as [i|] eqn:N; [|discriminate]. pose proof (f_nth _ _ _ H N) as I.
    destruct (is_br_table i); [now intros [= <-]|]. destruct (nth_error _ (fx_depth f)) as [[start lp]|].
    - destruct (if lp then Some start else ends start) as [t|]; [|discriminate]. intros [= <-]. rewrite upd_length. split; auto. apply f_upd; auto.
      destruct (fx_kind f), i; auto.
    - intros [= <-]. rewrite upd_length. split; auto. apply f_upd; auto. now apply f_target.
  Qed.
  Lemma f_phase2 ends elses fs : forall is is', Forall fine is -> phase2 ends elses fs is = Some is' -> Forall fine is' /\ length is' = length is.
  Proof.
    induction fs as [|f fs IH]; intros is is' H; cbn [phase2]; [now intros [= <-]|].
    destruct (fix1 ends elses f is) eqn:X; [|discriminate]. intros Y. destruct (f_fix _ _ _ _ _ H X) as [A B]. destruct (IH _ _ A Y). split; auto. lia.
  Qed.
  Lemma f_phase3 ends is : forall pc st, Forall fine is -> Forall fine (phase3 ends pc is st) /\ length (phase3 ends pc is st) = length is.
  Proof. induction is as [|i is IH]; intros pc st H; cbn [phase3 length] in *; auto. inversion H; subst. destruct (IH (S pc) (scan1 pc i st) H3) as [A B]. split; [|now rewrite B]. constructor; auto. destruct i; auto. Qed.
  Lemma f_translate E ops is al : forallb okfop ops = true -> translate E ops = Some (is, al) -> Forall fine is /\ length is <= length ops.
  Proof.
    intros O. unfold translate. destruct (dec_ops E ops (dec_start E)) as [z|] eqn:D; [|discriminate].
    destruct (f_ops E ops (dec_start E) z O) as [[H _] L]; [split; constructor|exact D|]. destruct (z_map z); [|discriminate].
    destruct (phase2 _ _ _ _) as [is'|] eqn:P2; [|discriminate]. intros [= <- <-]. destruct (f_phase2 _ _ _ _ _ H P2) as [A B].
    destruct (f_phase3 (z_ends z) is' 0 [] A) as [C D']. split; auto. rewrite D', B. exact L.
  Qed.
  (** all of a module *)
  Lemma f_compile SM M : compile SM = Some M -> forallb (oksrc (fun _ => true) okval) (sm_funcs SM) = true ->
    length (md_funcs M) = length (sm_funcs SM) /\
    forall f fd, nth_error (md_funcs M) f = Some (FWasm fd) -> Forall fine (fd_code fd) /\
      exists d, nth_error (sm_funcs SM) f = Some (SWasm d) /\ fd_type fd = sf_type d /\ length (fd_code fd) <= S (length (flatten (sf_body d))).
  Proof.
    unfold compile. destruct (map_opt (compile_func SM) (sm_funcs SM)) as [fs|] eqn:C; [|discriminate]. intros [= <-]. cbn [md_funcs].
    revert fs C. generalize (sm_funcs SM) as l. induction l as [|a l IH]; intros fs C O; cbn [map_opt] in C.
    - injection C as <-. split; auto. intros f fd N. now destruct f.
    - destruct (compile_func SM a) as [b|] eqn:A; [|discriminate]. destruct (map_opt _ l) as [bs|]; [|discriminate]. injection C as <-.
      cbn [forallb] in O. apply andb_prop in O as [O1 O2]. destruct (IH bs eq_refl O2) as [IL IH']. split; [cbn; lia|].
      intros f fd N. destruct f as [|f]; cbn [nth_error] in N |- *; [|eauto].
      injection N as ->. destruct a as [d|w t]; cbn [compile_func] in A; [|discriminate].
      destruct (translate _ _) as [[cd al]|] eqn:T; [|discriminate]. injection A as <-. cbn [fd_code fd_type].
      assert (K : forallb okfop (flatten (sf_body d) ++ [FEnd]) = true) by (rewrite forallb_app; cbn [oksrc] in O1; now rewrite okflatten).
      destruct (f_translate _ _ _ _ K T) as [A1 A2].
      split; auto. exists d. repeat split; auto. rewrite app_length in A2. cbn in A2. lia.
  Qed.
End Typed.
