(** C20: what translated code touches lies in the frame the translator asked for. *)
From Coq Require Import ZArith List Bool Lia.
From Verif Require Import Word Value Numeric Mem Store StoreProofs Regs IR Machine Wasm WasmTyping Decoder Check RegsProofs Loc DecodeProofs BasicSim Sim Dyn StaticSpec StaticProofs Examples.
Import ListNotations.
Open Scope nat_scope.

(** [a] has at most as many slots as [b], class by class *)
Definition grows (a b : alloc) : Prop := forall c, sget (al_max a) c <= sget (al_max b) c.
Lemma pop_regs_max ts : forall a, al_max (fst (pop_regs a ts)) = al_max a.
Proof.
  induction ts as [|t ts IH]; intros a; cbn [pop_regs]; auto. pose proof (al_pop_max a t) as X. destruct (al_pop a t) as [a' r]. cbn [fst] in X.
  specialize (IH a'). destruct (pop_regs a' ts). cbn [fst] in *. congruence.
Qed.
Lemma al_pops_max ts : forall a, al_max (al_pops a ts) = al_max a.
Proof. induction ts as [|t ts IH]; intros a; cbn [al_pops]; auto. rewrite IH. reflexivity. Qed.
Lemma call_params_max ts : forall a acc, al_max (fst (call_params a ts acc)) = al_max a.
Proof. induction ts as [|t ts IH]; intros a acc; cbn [call_params]; auto. rewrite IH. reflexivity. Qed.
Lemma dec_value_mle t o nxt k is k1 : dec_value t o nxt k = (is, k1) -> mle (k_al k) (k_al k1).
Proof.
  unfold dec_value. pose proof (al_push_mle (k_al k) t) as M. destruct (al_push (k_al k) t) as [a r]. cbn [fst] in M.
  destruct (folds _ _); intros H; injection H as <- <-; exact M.
Qed.
Lemma eq_mle a b : al_max b = al_max a -> mle a b.
Proof. intros H c. rewrite H. apply le_n. Qed.
Lemma dec_op_mle E o nxt k : mle (k_al k) (k_al (snd (fst (dec_op E o nxt k)))).
Proof.
  unfold dec_op. pose proof (pop_regs_max (rev (sop_args o)) (k_al k)) as PM. destruct (pop_regs (k_al k) (rev (sop_args o))) as [a ns]. cbn [fst] in PM.
  match goal with |- context [match ?x with (_, _) => _ end] => destruct x as [srcs p] end.
  destruct (sop_res o) as [t|]; [|apply eq_mle; exact PM].
  pose proof (al_push_mle a t) as M. destruct (al_push a t) as [a1 r]. cbn [fst] in M.
  assert (M' : mle (k_al k) a1) by (eapply mle_trans; [apply eq_mle; exact PM|exact M]).
  destruct (if dst_foldable o then _ else _); exact M'.
Qed.
Lemma dec_basic_mle E b nxt k is k1 s : dec_basic E b nxt k = Some (is, k1, s) -> mle (k_al k) (k_al k1).
Proof.
  destruct b; cbn [dec_basic]; intros H.
  - destruct (is_num _); [|discriminate]. destruct (dec_value _ _ _ _) eqn:D. injection H as <- <- <-. eapply dec_value_mle; eauto.
  - destruct (class_of (ltype E n)); try discriminate; try (destruct (dec_value _ _ _ _) eqn:D; injection H as <- <- <-; eapply dec_value_mle; eauto).
    injection H as <- <- <-. apply al_push_mle.
  - destruct (class_of (ltype E n)); cbn in H; try discriminate; injection H as <- <- <-; apply eq_mle; reflexivity.
  - destruct (al_peek _ _); [|discriminate]. destruct (class_of (ltype E n)); try discriminate; injection H as <- <- <-; apply mle_refl.
  - injection H as <- <- <-. apply eq_mle. cbn [k_al]. unfold al_pop_any. destruct (al_ts (k_al k)); reflexivity.
  - injection H as <- <- <-. apply mle_refl.
  - unfold al_pop in H. cbv zeta beta iota in H. match type of H with match ?x with _ => _ end = _ => destruct x; [|discriminate] end.
    match type of H with context [al_push ?a ?t] => pose proof (al_push_mle a t) as M; destruct (al_push a t) as [a1 r] end. injection H as <- <- <-. exact M.
  - destruct (sop_ok _); [|discriminate]. injection H as H. match type of H with dec_op E ?o _ _ = _ => pose proof (dec_op_mle E o nxt k) as M end. rewrite H in M. exact M.
Qed.
Lemma open_block_mle a lp ps rs : mle a (fst (fst (open_block a lp ps rs))).
Proof. unfold open_block. cbn [fst]. eapply mle_trans; [apply eq_mle, (al_pops_max (rev ps) a)|apply al_pushes_mle]. Qed.
Lemma dec_live_mle E op nxt z z1 s : dec_live E op nxt z = Some (z1, s) -> mle (k_al (z_k z)) (k_al (z_k z1)).
Proof.
  destruct op; cbn [dec_live]; intros H.
  - destruct (dec_basic _ _ _ _) as [[[is k] sk]|] eqn:D; [|discriminate]. injection H as <- <-. cbn. eapply dec_basic_mle; eauto.
  - pose proof (open_block_mle (k_al (z_k z)) is_loop ps rs) as M. destruct (open_block _ _ _ _) as [[a x] b]. injection H as <- <-. exact M.
  - destruct (al_pop (k_al (z_k z)) TI32) as [a0 rc] eqn:AP. assert (M0 : mle (k_al (z_k z)) a0) by (apply eq_mle; change a0 with (fst (a0, rc)); now rewrite <- AP).
    pose proof (open_block_mle a0 false ps rs) as M. destruct (open_block _ _ _ _) as [[a x] b]. injection H as <- <-. eapply mle_trans; [exact M0|exact M].
  - destruct (z_map z) as [|[[st [|]] [el|]] m]; try discriminate. injection H as <- <-. cbn [z_k k_al with_al].
    assert (M0 : mle (k_al (z_k z)) (match z_sav z with s :: _ => al_restore (k_al (z_k z)) s | [] => k_al (z_k z) end)) by (destruct (z_sav z); apply eq_mle; reflexivity).
    eapply mle_trans; [exact M0|]. destruct (z_ctl z); [apply mle_refl|apply al_pushes_mle].
  - set (a1 := match z_sav z with s :: _ => fst (al_pushes (al_restore (k_al (z_k z)) s) (match z_ctl z with b :: _ => cb_results b | [] => [] end)) | [] => k_al (z_k z) end) in *.
    assert (M0 : mle (k_al (z_k z)) a1) by (unfold a1; destruct (z_sav z); [apply mle_refl|eapply mle_trans; [|apply al_pushes_mle]; apply eq_mle; reflexivity]).
    destruct (z_map z) as [|[[st b] el] m]; [destruct nxt; [|discriminate]|]; injection H as <- <-; exact M0.
  - destruct (branch_regs _ _ _). injection H as <- <-. apply mle_refl.
  - destruct (branch_regs _ _ _). injection H as <- <-. apply eq_mle; reflexivity.
  - destruct (branch_regs _ _ _). injection H as <- <-. apply eq_mle; reflexivity.
  - injection H as <- <-. apply eq_mle. cbn. apply al_pops_max.
  - injection H as <- <-. apply mle_refl.
  - destruct (call_info _ _) as [w [ps rs]|[ps rs]].
    + pose proof (al_pops_max (rev ps) (k_al (z_k z))) as PM. destruct rs as [|t rs]; [injection H as <- <-; apply eq_mle; exact PM|].
      pose proof (al_push_mle (al_pops (k_al (z_k z)) (rev ps)) t) as M. destruct (al_push _ t) as [a r]. injection H as <- <-. cbn. intros c. rewrite <- PM. apply M.
    + assert (D : (let (a, prs) := call_params (k_al (z_k z)) (rev ps) [] in let (a0, rrs) := al_pushes a rs in Some (emit z (with_al (z_k z) a0) [ICall f prs rrs] [], false)) = Some (z1, s) -> mle (k_al (z_k z)) (k_al (z_k z1))).
      { pose proof (call_params_max (rev ps) (k_al (z_k z)) []) as PM. destruct (call_params _ _ _) as [a prs]. cbn [fst] in PM.
        pose proof (al_pushes_mle rs a) as M. destruct (al_pushes a rs) as [a0 rrs]. intros X. injection X as <- <-. cbn. intros c. rewrite <- PM. apply M. }
      destruct ps as [|p ps]; [destruct rs as [|r rs]; [injection H as <- <-; apply mle_refl|]|]; exact (D H).
  - destruct (type_or_empty _ _) as [ps rs]. destruct (al_peek _ _); [|discriminate].
    pose proof (call_params_max (rev ps) (fst (al_pop (k_al (z_k z)) TI32)) []) as PM. destruct (call_params _ _ _) as [a prs]. cbn [fst] in PM.
    pose proof (al_pushes_mle rs a) as M. destruct (al_pushes a rs) as [a0 rrs]. injection H as <- <-. cbn. intros c. change (al_max (k_al (z_k z))) with (al_max (fst (al_pop (k_al (z_k z)) TI32))). rewrite <- PM. apply M.
Qed.
(** Whatever operators are decoded (valid or not), from whatever state: no slot count ever shrinks. *)
Theorem C20_monotone : forall E ops z z', dec_ops E ops z = Some z' -> grows (k_al (z_k z)) (k_al (z_k z')).
Proof.
  intros E. assert (G : forall n ops, length ops <= n -> forall z z', dec_ops E ops z = Some z' -> mle (k_al (z_k z)) (k_al (z_k z'))); [|intros ops z z' H; exact (G (length ops) ops (le_n _) z z' H)].
  induction n as [|n IH]; intros [|op ops] L z z' H; cbn [length] in L; try lia; cbn [dec_ops] in H; try (injection H as ->; apply mle_refl).
  destruct (dec_dead op z) as [z0|z0] eqn:D.
  - apply IH in H; [|lia]. eapply mle_trans; [|exact H]. unfold dec_dead in D. destruct (z_unr z); [discriminate|].
    match type of D with match ?u with _ => _ end = _ => destruct u; [discriminate|] end. injection D as <-. apply mle_refl.
  - assert (M0 : k_al (z_k z0) = k_al (z_k z)).
    { unfold dec_dead in D. destruct (z_unr z); [injection D as <-; auto|]. match type of D with match ?u with _ => _ end = _ => destruct u; [|discriminate] end. injection D as <-. reflexivity. }
    rewrite <- M0. destruct (dec_live E op ops z0) as [[z1 [|]]|] eqn:DL; [| |discriminate]; apply dec_live_mle in DL.
    + destruct ops as [|o2 ops]; [injection H as <-; exact DL|]. apply IH in H; [eapply mle_trans; eauto|cbn in L; lia].
    + apply IH in H; [eapply mle_trans; eauto|lia].
Qed.
Example C20_monotone_example : exists z', dec_ops (env_of (one [] [TI32] [TI64] []) {| sf_type := ([], [TI32]); sf_locals := [TI64]; sf_body := CNil |})
    (flatten (seqc [i32c 1; i32c 2; i32c 3; iadd; iadd]) ++ [FEnd]) (dec_start (env_of (one [] [TI32] [TI64] []) {| sf_type := ([], [TI32]); sf_locals := [TI64]; sf_body := CNil |})) = Some z' /\ sget (al_max (k_al (z_k z'))) CI32 = 3.
Proof. eexists. split; [vm_compute; reflexivity|reflexivity]. Qed.

(** [touches M f pc i]: [i] is the instruction at [pc] of function [f] *)
Definition code_at (M : modul) (f : nat) (fd : fdef) (pc : nat) (i : instr) : Prop :=
  nth_error (md_funcs M) f = Some (FWasm fd) /\ nth_error (fd_code fd) pc = Some i.
(** the frame execution builds for [fd]: its slots and its locals *)
Definition in_frame (fd : fdef) (i : instr) : Prop :=
  within (sget (fd_alloc fd)) (length (fst (fd_type fd)) + length (fd_locals fd)) i.

(** A valid function, translated without exceeding 16-bit indices: every register and local its
    instructions name lies in the frame.  Excluded, and false (below): select on references, and the
    final end of a body that control cannot fall out of. *)
Theorem C20_slots_partial : forall SM M f sd fd pc i,
  valid SM -> Forall one_result (sm_funcs SM) -> compile SM = Some M -> small M = true ->
  nth_error (sm_funcs SM) f = Some (SWasm sd) -> no_ref_select (sf_body sd) = true ->
  code_at M f fd pc i -> (S pc = length (fd_code fd) -> falls (sf_body sd) = true) ->
  in_frame fd i.
Proof.
  intros SM M f sd fd pc i V HR HC HSm NF NR [NM NC] FL. pose proof (valid_imports SM V) as HI. destruct V as [V _].
  unfold compile in HC. destruct (map_opt (compile_func SM) (sm_funcs SM)) as [fs|] eqn:MO; [|discriminate]. injection HC as <-. cbn [md_funcs] in *.
  pose proof (map_opt_nth _ _ _ f MO) as H. rewrite NF in H. destruct H as (b & B1 & B2). rewrite NM in B2. injection B2 as <-.
  cbn [compile_func] in B1. destruct (translate (env_of SM sd) (flatten (sf_body sd) ++ [FEnd])) as [[C al]|] eqn:T; [|discriminate]. injection B1 as <-.
  cbn [fd_code fd_alloc fd_type fd_locals] in *. unfold in_frame. cbn [fd_code fd_alloc fd_type fd_locals].
  unfold small in HSm. cbn [md_funcs] in HSm. rewrite forallb_forall in HSm. pose proof (HSm _ (nth_error_In _ _ NM)) as Z1. cbn [small_func fd_type fd_locals fd_alloc] in Z1.
  apply andb_prop in Z1 as [Z1 Z2]. unfold fits16 in *. apply Z.leb_le in Z1.
  assert (K : W16 (sget al)). { intros c. rewrite forallb_forall in Z2. apply Z.leb_le, Z2. destruct c; cbn; auto 10. }
  rewrite Forall_forall in V. pose proof (V _ (nth_error_In _ _ NF)) as TY. cbn [valid_func] in TY.
  destruct (translate_loc _ _ _ _ T) as (kf & pe & Lc & Ne & LC & EAl).
  assert (HL : (Z.of_nat (nlocals (env_of SM sd)) <= 65536)%Z) by (unfold nlocals; cbn [e_params e_locals env_of]; now rewrite app_length).
  destruct (static2 SM sd HL HI HR _ _ _ _ _ (le_n _) _ _ _ _ _ _ [] _ [] Lc (Forall_nil _) (al_new_ok _) TY NR) as (_ & _ & _ & EN & CV).
  replace (length (fst (sf_type sd)) + length (sf_locals sd)) with (nlocals (env_of SM sd)) by (unfold nlocals; cbn [e_params e_locals env_of]; now rewrite app_length).
  assert (FW : fits (sget al) (k_al kf)) by (intros c; rewrite EAl; apply le_n).
  assert (L : pc < S pe) by (rewrite <- LC; apply nth_error_Some; congruence).
  destruct (Nat.eq_dec pc pe) as [->|NE].
  - rewrite NC in Ne. injection Ne as ->. rewrite FL in EN by congruence. cbn [ends2] in EN. split; [|constructor]. cbn [regs_of]. rewrite app_nil_r.
    eapply (peek_within SM sd (sget al) (k_al kf) _ []); eauto. rewrite app_nil_r in *. rewrite map_on_stack in EN. exact EN.
  - specialize (CV (sget al) K FW). destruct (CV ltac:(intros [|d] q l X; discriminate) pc ltac:(lia)) as (j & N1 & N2). cbn beta in N1. rewrite NC in N1. injection N1 as <-. exact N2.
Qed.

(** The final end of a body that never falls through names result registers that were not allocated. *)
Definition p_unr := one [] [TI32] [] [CUnreachable].
Theorem C20_unreachable_refuted : exists SM M f fd pc i, valid SM /\ Forall one_result (sm_funcs SM) /\ compile SM = Some M /\ small M = true /\
  code_at M f fd pc i /\ ~ in_frame fd i.
Proof.
  exists p_unr. eexists. exists 0. eexists. exists 1. eexists. split; [unfold p_unr; vm|]. split; [repeat constructor|]. split; [vm_compute; reflexivity|]. split; [vm_compute; reflexivity|].
  split; [split; vm_compute; reflexivity|]. intros [H _]. vm_compute in H. inversion H as [|? ? X]; subst. lia.
Qed.
(** A select on references is translated to a select on 64-bit integers, whose registers may not exist. *)
Definition p_sel := one [] [TFuncRef] [] [op (SRefNull TFuncRef); op (SRefNull TFuncRef); i32c 0; CBasic (BSelect (Some TFuncRef))].
Theorem C20_ref_select_refuted : exists SM M f fd pc i, valid SM /\ Forall one_result (sm_funcs SM) /\ compile SM = Some M /\ small M = true /\
  code_at M f fd pc i /\ S pc < length (fd_code fd) /\ ~ in_frame fd i.
Proof.
  exists p_sel. eexists. exists 0. eexists. exists 3. eexists. split; [unfold p_sel; vm|]. split; [repeat constructor|]. split; [vm_compute; reflexivity|]. split; [vm_compute; reflexivity|].
  split; [split; vm_compute; reflexivity|]. split; [vm_compute; lia|]. intros [H _]. vm_compute in H. inversion H as [|? ? X]; subst. lia.
Qed.
(** The hypotheses of [C20_slots_partial] hold for the factorial program, whose second function has a
    loop, a folded destination and a local set to an operator's result. *)
Example C20_example : exists M fd, valid fact /\ Forall one_result (sm_funcs fact) /\ compile fact = Some M /\ small M = true /\
  code_at M 1 fd 3 (IOp (SNum2 (B_int W32 Imul)) (Some (DLoc 1)) [OLoc 1; OLoc 0]) /\ falls (sf_body (match nth_error (sm_funcs fact) 1 with Some (SWasm d) => d | _ => {| sf_type := ([], []); sf_locals := []; sf_body := CNil |} end)) = true /\
  forallb (fun f => match f with SWasm d => no_ref_select (sf_body d) | SWasi _ _ => true end) (sm_funcs fact) = true.
Proof.
  eexists. eexists. split; [exact fact_valid|]. split; [repeat constructor|]. split; [vm_compute; reflexivity|]. split; [vm_compute; reflexivity|].
  split; [split; vm_compute; reflexivity|]. split; reflexivity.
Qed.
