(** C51: the translator accepts every valid module that uses only operators it knows. *)
From Coq Require Import ZArith List Bool Lia.
From Verif Require Import Word Value Numeric Mem Store StoreProofs Regs IR Machine Wasm WasmTyping Decoder Check RegsProofs Loc DecodeProofs BasicSim Sim Dyn Restrict StaticSpec StaticProofs TotalSpec Total WasmPrims PrimFacts Agree Soundness Correct ExecFacts Examples Properties_Exec Properties_Static.
Import ListNotations.
Open Scope nat_scope.

(** No panic, no rejection: whatever the nesting, the branches, the dead code, the number of locals
    or the depth of the stack. *)
Theorem C51_accepts : forall SM, valid SM -> Forall one_result (sm_funcs SM) -> known_module SM = true ->
  exists M, compile SM = Some M.
Proof. exact compile_total. Qed.

(** The translated module has the functions of the source, in order, with their types and locals. *)
Definition same_shape (a : sfunc) (b : Machine.func) : Prop :=
  match a, b with
  | SWasi w t, FWasi w' t' => w = w' /\ t = t'
  | SWasm d, FWasm e => fd_type e = sf_type d /\ fd_locals e = sf_locals d
  | _, _ => False
  end.
Theorem C51_shape : forall SM M, compile SM = Some M ->
  Forall2 same_shape (sm_funcs SM) (md_funcs M) /\ md_types M = sm_types SM.
Proof.
  intros SM M H. unfold compile in H. destruct (map_opt (compile_func SM) (sm_funcs SM)) as [fs|] eqn:E; [|discriminate].
  injection H as <-. split; [|reflexivity]. cbn [md_funcs]. revert fs E. induction (sm_funcs SM) as [|f l IH]; intros fs E; cbn [map_opt] in E.
  - injection E as <-. constructor.
  - destruct (compile_func SM f) as [g|] eqn:C; [|discriminate]. destruct (map_opt (compile_func SM) l) as [gs|]; [|discriminate]. injection E as <-.
    constructor; auto. destruct f as [d|w t]; cbn [compile_func] in C.
    + destruct (translate _ _) as [[code al]|]; [|discriminate]. injection C as <-. cbn. auto.
    + injection C as <-. cbn. auto.
Qed.

(** The programs of the correctness theorems ([within]) are among them. *)
Lemma restricted_known SM d : forall c ls ts, restricted SM (env_of SM d) ls ts c = true -> known SM (fst (sf_type d) ++ sf_locals d) c = true.
Proof.
  assert (NV : forall ts, no_v128 ts = true -> no_vectors ts = true) by (intros ts H; now rewrite no_vec_v128).
  assert (LT : forall n, negb (cls_eqb (class_of (ltype (env_of SM d) n)) CV128) = true ->
            match nth_error (fst (sf_type d) ++ sf_locals d) n with Some t => negb (vectors t) | None => true end = true).
  { intros n H. unfold ltype in H. cbn [e_params e_locals env_of] in H. destruct (nth_error _ n) as [t|] eqn:N; auto.
    rewrite (nth_error_nth _ _ _ N) in H. destruct t; cbn in *; congruence. }
  induction c; intros ls ts H; cbn [restricted known] in *; auto.
  - apply andb_prop in H as [H1 H3]. apply andb_prop in H1 as [H1 H2]. rewrite (IHc _ _ H3), andb_true_r.
    destruct b as [v|n|n|n| | |[t|]|o]; cbn [r_basic known_basic] in *; auto.
    + destruct v; cbn in *; congruence.
    + destruct t; cbn in *; congruence.
    + destruct o; cbn in *; auto; destruct t; cbn in *; congruence.
  - destruct is_loop; apply andb_prop in H as [H H3]; apply andb_prop in H as [H1 H2]; rewrite (IHc1 _ _ H2), (IHc2 _ _ H3), (NV _ H1); reflexivity.
  - apply andb_prop in H as [H H3]. apply andb_prop in H as [H1 H2]. rewrite (IHc1 _ _ H2), (IHc2 _ _ H3), (NV _ H1). reflexivity.
  - apply andb_prop in H as [H H4]. apply andb_prop in H as [H H3]. apply andb_prop in H as [H1 H2]. apply andb_prop in H3 as [_ H3]. rewrite (IHc1 _ _ H2), (IHc2 _ _ H3), (IHc3 _ _ H4), (NV _ H1). reflexivity.
  - apply andb_prop in H as [_ H]. eauto.
  - destruct (nth_error (sm_funcs SM) f) as [[e|w t]|]; [| |discriminate]; apply andb_prop in H as [H1 H2]; rewrite (IHc _ _ H2), andb_true_r; apply andb_prop in H1 as [H1 _]; now apply NV.
  - destruct (nth_error (sm_types SM) ty) as [t|]; [|discriminate]; apply andb_prop in H as [H1 H2]; rewrite (IHc _ _ H2), andb_true_r; apply andb_prop in H1 as [H1 _]; now apply NV.
Qed.
Theorem C51_within : forall SM, valid SM -> Forall one_result (sm_funcs SM) -> Restrict.within SM = true -> exists M, compile SM = Some M.
Proof.
  intros SM V HR W. apply C51_accepts; auto. unfold known_module, Restrict.within in *. rewrite forallb_forall in *. intros f I. specialize (W f I).
  destruct f as [d|w t]; auto. cbn [restricted_func] in W. apply andb_prop in W as [W _]. apply andb_prop in W as [W _]. eapply restricted_known; eauto.
Qed.

(** Each exclusion is forced: valid modules the translator rejects (parser.rs panics or returns an
    error), violating only that one. *)
Definition p_vec := one [] [] [TV128] [get 0; drop].
Theorem C51_vector_refuted : exists SM, valid SM /\ Forall one_result (sm_funcs SM) /\ compile SM = None.
Proof. exists p_vec. split; [unfold p_vec; vm|]. split; [repeat constructor|vm_compute; reflexivity]. Qed.
Definition p_refglobal := one [] [] [] [op (SGlobalGet TFuncRef 0); drop].
Theorem C51_ref_global_refuted : exists SM, valid SM /\ Forall one_result (sm_funcs SM) /\ compile SM = None.
Proof. exists p_refglobal. split; [unfold p_refglobal; vm|]. split; [repeat constructor|vm_compute; reflexivity]. Qed.

(** The hypotheses of [C51_accepts] hold for a function with a loop inside an if, br_table, dead code that
    contains vectors, a call and select on references. *)
Definition p_total : smodule := one [TI32] [TI32] [TI32; TFuncRef]
  [loop [] [] [get 0; block [TI32] [TI32] [ifelse [] [TI32] [get 1; i32c 1; CBrTable [0; 1] 0; CBasic (BConst (VV128 0)); drop; get 0] [get 0; i32c 1; isub; CCall 0]]; set 1; get 0; CBrIf 0];
   get 2; op (SRefNull TFuncRef); get 0; CBasic (BSelect (Some TFuncRef)); drop; get 1].
Example C51_example : valid p_total /\ Forall one_result (sm_funcs p_total) /\ known_module p_total = true.
Proof. split; [unfold p_total; vm|]. split; [repeat constructor|reflexivity]. Qed.

(** ** no number of a register is cut *)
(** If parameters and locals, and locals and the operands on the stack at any one time, number at most
    65536, the registers the translator gives out fit its 16 bits: [small] of the correctness theorems
    is a condition on the source. *)
Theorem C42_modest : forall SM, valid SM -> Forall one_result (sm_funcs SM) -> known_module SM = true -> forallb (modest SM) (sm_funcs SM) = true ->
  exists M, compile SM = Some M /\ small M = true.
Proof. exact compile_small. Qed.
(** C20 with conditions on the source program only: a valid function of a modest module of known operators is
    translated, and what its code touches lies in the frame.  Excluded, and false: as in C20_slots_partial. *)
Theorem C20_source_partial : forall SM, valid SM -> Forall one_result (sm_funcs SM) -> known_module SM = true -> forallb (modest SM) (sm_funcs SM) = true ->
  exists M, compile SM = Some M /\ forall f sd, nth_error (sm_funcs SM) f = Some (SWasm sd) -> no_ref_select (sf_body sd) = true ->
    forall fd pc i, code_at M f fd pc i -> (S pc = length (fd_code fd) -> falls (sf_body sd) = true) -> in_frame fd i.
Proof.
  intros SM V O K MD. destruct (C42_modest SM V O K MD) as (M & C & S). exists M. split; [exact C|]. intros f sd N NR fd pc i CA FL. exact (C20_slots_partial SM M f sd fd pc i V O C S N NR CA FL).
Qed.
Lemma within_known SM : Restrict.within SM = true -> known_module SM = true.
Proof.
  intros W. unfold known_module, Restrict.within in *. rewrite forallb_forall in *. intros f I. specialize (W f I).
  destruct f as [d|w t]; auto. cbn [restricted_func] in W. apply andb_prop in W as [W _]. apply andb_prop in W as [W _]. eapply restricted_known; eauto.
Qed.
(** C23 with conditions on the source program only: translation succeeds, and execution of the
    translation ends exactly if the standard's semantics of the source does, with the same outcome. *)
Theorem C23_source_partial : forall hf host SM, valid SM -> Forall one_result (sm_funcs SM) -> Restrict.within SM = true ->
  forallb (modest SM) (sm_funcs SM) = true ->
  exists M, compile SM = Some M /\
  forall f d args s, nth_error (sm_funcs SM) f = Some (SWasm d) -> Forall2 has_type (fst (sf_type d)) args ->
    (forall n, clear hf host SM n f args s) ->
    exists c0, initial M s f args = Ok c0 /\
      forall r, (exists m, steps hf host M m c0 = inr r) <->
                (exists n, as_outcome (invoke (wasm_prims hf) host SM n f args s) = Some r).
Proof.
  intros hf host SM V HR W MD. destruct (C42_modest SM V HR (within_known _ W) MD) as (M & C & Sm).
  exists M. split; [exact C|]. exact (C23_termination_partial hf host SM M V W C Sm).
Qed.
Example C23_source_example : valid fact /\ Forall one_result (sm_funcs fact) /\ Restrict.within fact = true /\ forallb (modest fact) (sm_funcs fact) = true.
Proof. split; [exact fact_valid|]. split; [repeat constructor|]. split; reflexivity. Qed.
Example C42_example : forallb (modest p_total) (sm_funcs p_total) = true.
Proof. reflexivity. Qed.
