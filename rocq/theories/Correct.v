(** Translation and execution together, against the standard: the outcome of the machine on the
    translated module is the outcome the standard gives to the source module. *)
From Coq Require Import ZArith List Bool Lia.
From Verif Require Import Word Value Numeric Float Mem Store Regs IR Machine Wasm WasmTyping WasmPrims PrimFacts Decoder Check
  BasicSim Sim Dyn Restrict Agree Soundness.
Import ListNotations.
Open Scope nat_scope.

(** [P], undefined where chiwawa is known to differ from the standard (PrimFacts.diverges: C07, C11,
    C12, C13, C16; call_indirect to an import, callees with reference locals: C17, C26) *)
Definition guarded (SM : smodule) (P : prims) : prims :=
  {| p_op := fun o s args => if diverges o s args then UB else p_op P o s args;
     p_func := fun ts t i =>
       match p_func P ts t i with
       | Ok f => match nth_error (sm_funcs SM) f with Some (SWasi _ _) => UB | _ => Ok f end
       | r => r
       end;
     p_default := fun t => if is_ref t then UB else p_default P t;
     p_ind_host := true |}.
(** The run of [f] stays clear of those points (and of host answers of the wrong type). *)
Definition clear (hf : hostfp) (host : hostfn) (SM : smodule) (n f : nat) (args : list val) (s : inst) : Prop :=
  invoke (guarded SM (wasm_prims hf)) host SM n f args s <> OUB.

(** how the machine ends, compared with an outcome of the specification run with budget [n] *)
Definition ends_as (hf : hostfp) (host : hostfn) (M : modul) (n : nat) (c0 : config) (o : out) : Prop :=
  match o with
  | ONorm vals x => exists m, steps hf host M m c0 = inr (Done vals (x_inst x) (x_log x))
  | OTrap t l => exists m, steps hf host M m c0 = inr (Trapped t l)
  | OExit z l => exists m, steps hf host M m c0 = inr (Exited z l)
  | OFuel => exists m c', n <= m /\ steps hf host M m c0 = inl c'     (* still running *)
  | OUB | OBr _ _ _ | ORet _ _ | OStuck => False
  end.

Lemma guarded_wasm hf host SM n f args s : clear hf host SM n f args s ->
  invoke (guarded SM (wasm_prims hf)) host SM n f args s = invoke (wasm_prims hf) host SM n f args s.
Proof.
  intros H. unfold clear in H.
  assert (A2 : ag (invoke (guarded SM (wasm_prims hf)) host SM n f args s) (invoke (wasm_prims hf) host SM n f args s)).
  { apply invoke_agree.
    - intros o s0 a. cbn. destruct (diverges o s0 a) eqn:D; [now left|]. now right.
    - intros ts t i. cbn. destruct (table_func ts t i) as [g| |]; [|right; split; auto|now left].
      destruct (nth_error (sm_funcs SM) g) as [[|]|] eqn:N; [right; split; auto|now left|right; split; auto].
    - intros t. destruct t; cbn; auto. }
  destruct A2 as [A2|A2]; [contradiction|exact A2].
Qed.
Lemma guarded_chiwawa hf host SM n f args s : clear hf host SM n f args s ->
  invoke (chiwawa_prims hf) host SM n f args s = invoke (wasm_prims hf) host SM n f args s /\
  invoke (wasm_prims hf) host SM n f args s <> OUB.
Proof.
  intros H. unfold clear in H.
  assert (A1 : ag (invoke (guarded SM (wasm_prims hf)) host SM n f args s) (invoke (chiwawa_prims hf) host SM n f args s)).
  { apply invoke_agree.
    - intros o s0 a. cbn. destruct (diverges o s0 a) eqn:D; [now left|]. now right.
    - intros ts t i. cbn. destruct (table_func ts t i) as [g| |]; [|right; split; auto; discriminate|now left].
      destruct (nth_error (sm_funcs SM) g) as [[|]|] eqn:N; [right; split; auto|now left|right; split; auto].
      + intros g' w ty E. injection E as <-. congruence.
      + intros g' w ty E. injection E as <-. congruence.
    - intros t. destruct t; cbn; auto. }
  pose proof (guarded_wasm _ _ _ _ _ _ _ H) as A2.
  destruct A1 as [A1|A1]; try contradiction. rewrite <- A1, <- A2. auto.
Qed.

Theorem program_correct hf host SM M : valid SM -> within SM = true -> compile SM = Some M -> small M = true ->
  forall n f d args s, nth_error (sm_funcs SM) f = Some (SWasm d) -> Forall2 has_type (fst (sf_type d)) args ->
    clear hf host SM n f args s ->
    exists c0, initial M s f args = Ok c0 /\ ends_as hf host M n c0 (invoke (wasm_prims hf) host SM n f args s).
Proof.
  intros V W C Sm n f d args s N A CL. destruct (guarded_chiwawa _ _ _ _ _ _ _ CL) as [E NU].
  destruct (simulation hf host SM M C (valid_supported SM V W) Sm n f d args s N) as (c0 & I0 & K).
  { clear -A. induction A as [|t v ts vs [H _] _ IH]; constructor; auto. }
  exists c0. split; auto. rewrite E in K. unfold ends_as. destruct (invoke (wasm_prims hf) host SM n f args s); auto.
Qed.

(** The same for any invariant of instances that the primitives keep. *)
Lemma invariant_sound (Inv : inst -> Prop) okop oktab P P' host SM :
  (forall o s args s' v, Inv s -> okop o = true -> exists_op o = true -> Forall2 has_type (sop_args o) args ->
     p_op P o s args = Ok (s', v) -> Inv s' /\ match sop_res o, v with Some t, Some v => has_type t v | None, None => True | _, _ => False end) ->
  (forall s ws, Inv s -> Forall (fun w => WasmMem.is_byte (snd w)) ws -> Inv (apply_writes s ws)) ->
  (forall t, p_default P t = Ok (default_of (class_of t))) -> p_ind_host P = true -> okop SRefIsNull = true ->
  host_ok host -> valid SM -> (forall d, In (SWasm d) (sm_funcs SM) -> refs_by okop oktab (sf_body d) = true) ->
  (forall o s args, Inv s -> okop o = true -> exists_op o = true -> Forall2 has_type (sop_args o) args -> p_op P' o s args = p_op P o s args) ->
  (forall s t i, Inv s -> oktab t = true -> in_s 32 i -> p_func P' (i_tables s) t i = p_func P (i_tables s) t i) ->
  (forall t, p_default P' t = p_default P t) -> p_ind_host P' = p_ind_host P ->
  forall n f d args s, nth_error (sm_funcs SM) f = Some (SWasm d) -> Forall2 has_type (fst (sf_type d)) args -> Inv s ->
    invoke P' host SM n f args s = invoke P host SM n f args s /\
    match invoke P host SM n f args s with
    | ONorm vals x => Forall2 has_type (snd (sf_type d)) vals /\ Inv (x_inst x)
    | OBr _ _ _ | ORet _ _ | OStuck => False
    | _ => True
    end.
Proof.
  intros K1 K2 K3 K4 K5 HH V HR E1 E2 E3 E4 n f d args s N A HI. pose proof (proj1 V) as VF. rewrite Forall_forall in VF.
  pose proof (VF _ (nth_error_In _ _ N)) as VD. cbn in VD.
  unfold invoke. rewrite N. set (x0 := {| x_loc := _; x_inst := s; x_log := [] |}).
  set (G := {| f_mod := SM; f_locals := fst (sf_type d) ++ sf_locals d; f_results := snd (sf_type d) |}) in *.
  destruct (sound Inv okop oktab P P' host SM K1 K2 K3 K4 K5 HH V HR E1 E2 E3 E4 n G _ _ _ _ VD eq_refl (HR _ (nth_error_In _ _ N)) (ex_intro _ [] eq_refl) [] x0) as [G1 G2].
  { constructor. }
  { split; auto. cbn. apply Forall2_app; auto. generalize (sf_locals d) as ts. induction ts as [|t ts IH]; cbn; constructor; auto.
    destruct t; (split; [reflexivity|]); cbn; unfold in_s, in_u; lia. }
  cbn [map] in G1, G2. rewrite len_on in G1, G2. rewrite G2. split; auto.
  assert (RV : forall vs, Forall2 has_type (on_stack (snd (sf_type d))) vs -> Forall2 has_type (snd (sf_type d)) (rev vs)).
  { intros vs H. apply f2_rev in H. unfold on_stack in H. now rewrite rev_involutive in H. }
  destruct (exec P host SM n [length (snd (sf_type d))] (sf_body d) [] x0) as [vs y|[|e] vs y|vs y|t l|z l| | | ]; cbn in G1 |- *; auto.
  - destruct G1 as [G1 [G3 _]]. auto.
  - destruct G1 as (l & G1 & G3 & G4 & _). injection G1 as <-. auto.
  - destruct G1 as (l & G1 & _). destruct e; discriminate.
  - destruct G1 as [G1 [G3 _]]. auto.
Qed.

(** The primitives are the standard's, and nothing but their standard-given values matters: any
    other primitives with the same values at well-typed operands give the same outcome. *)
Theorem program_sound hf host SM h P P' : wasm_conforming hf P -> host_ok host -> valid SM ->
  (forall d, In (SWasm d) (sm_funcs SM) -> refs_in h (sf_body d) = true) ->
  (forall o s args, inst_ok h s -> op_in h o = true -> exists_op o = true -> Forall2 has_type (sop_args o) args ->
     p_op P' o s args = p_op P o s args) ->
  (forall s t i, inst_ok h s -> t < sh_tables h -> in_s 32 i -> p_func P' (i_tables s) t i = p_func P (i_tables s) t i) ->
  (forall t, p_default P' t = p_default P t) -> p_ind_host P' = p_ind_host P ->
  forall n f d args s, nth_error (sm_funcs SM) f = Some (SWasm d) -> Forall2 has_type (fst (sf_type d)) args -> inst_ok h s ->
    invoke P' host SM n f args s = invoke P host SM n f args s /\
    match invoke P host SM n f args s with
    | ONorm vals x => Forall2 has_type (snd (sf_type d)) vals /\ inst_ok h (x_inst x)
    | OBr _ _ _ | ORet _ _ | OStuck => False
    | _ => True
    end.
Proof.
  intros HP HH V HR E1 E2 E3 E4. apply (invariant_sound (inst_ok h) (op_in h) (fun tb => Nat.ltb tb (sh_tables h))); auto.
  - intros o s args s' v I OI EX A R. pose proof (wc_op _ _ HP h o s args I OI EX A) as SP. rewrite R in SP. exact (op_spec_ok hf h o _ _ _ _ I OI EX A SP).
  - apply writes_ok.
  - apply (wc_default _ _ HP).
  - apply (wc_host _ _ HP).
  - intros d I. rewrite <- refs_in_by. auto.
  - intros s t i I L. apply Nat.ltb_lt in L. auto.
Qed.
