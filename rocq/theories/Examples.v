(** Concrete programs, used to show that hypotheses of theorems can be met and as counterexamples. *)
From Coq Require Import ZArith List Bool Lia.
From Verif Require Import Word Value Numeric Float Mem Store Regs IR Machine Wasm WasmTyping WasmPrims PrimFacts Decoder Check
  BasicSim Sim Dyn Restrict Agree Soundness Correct.
Import ListNotations.
Open Scope nat_scope.

(** a host without floating point (all results zero), and one that refuses every call *)
Definition hf0 : hostfp :=
  {| h_bin := fun _ _ _ _ => 0%Z; h_round := fun _ _ _ => 0%Z; h_of_int := fun _ _ => 0%Z;
     h_demote := fun _ => 0%Z; h_promote := fun _ => 0%Z |}.
Lemma hf0_ok : hostfp_ok hf0.
Proof. constructor; intros; cbn; unfold in_u; try (destruct f; cbn; lia); lia. Qed.
Definition host0 : hostfn := fun _ => HoErr.

(** building programs *)
Fixpoint seqc (l : list (code -> code)) : code := match l with [] => CNil | f :: l => f (seqc l) end.
Definition i32c z := CBasic (BConst (VI32 z)).
Definition i64c z := CBasic (BConst (VI64 z)).
Definition get n := CBasic (BGet n).
Definition set n := CBasic (BSet n).
Definition tee n := CBasic (BTee n).
Definition drop := CBasic BDrop.
Definition op o := CBasic (BOp o).
Definition iadd := op (SNum2 (B_int W32 Iadd)).
Definition isub := op (SNum2 (B_int W32 Isub)).
Definition imul := op (SNum2 (B_int W32 Imul)).
Definition eqz := op (SNum1 (U_eqz W32)).
Definition block ps rs l := CBlock false ps rs (seqc l).
Definition loop ps rs l := CBlock true ps rs (seqc l).
Definition ifelse ps rs th el := CIfElse ps rs (seqc th) (seqc el).
Definition func ps rs ls body : sfunc := SWasm {| sf_type := (ps, rs); sf_locals := ls; sf_body := seqc body |}.
Definition one ps rs ls body : smodule := {| sm_types := []; sm_funcs := [func ps rs ls body] |}.
Definition inst0 : inst := {| i_mem := None; i_globals := []; i_tables := []; i_datas := [] |}.

(** validity of concrete programs: the rules with explicit equations *)
Lemma TOp' F o a ts r : exists_op o = true -> o <> SRefIsNull -> a = on_stack (sop_args o) ++ ts ->
  r = match sop_res o with Some t => t :: ts | None => ts end -> basic_typed F a (BOp o) r.
Proof. intros H1 H2 -> ->. now apply TOp. Qed.
Lemma TBlock' F ls a ts ts' ps rs body k : a = on_stack ps ++ ts ->
  typed F (on_stack rs :: ls) (on_stack ps) body (on_stack rs) -> typed F ls (on_stack rs ++ ts) k ts' -> typed F ls a (CBlock false ps rs body k) ts'.
Proof. intros ->. apply TBlock. Qed.
Lemma TLoop' F ls a ts ts' ps rs body k : a = on_stack ps ++ ts ->
  typed F (on_stack ps :: ls) (on_stack ps) body (on_stack rs) -> typed F ls (on_stack rs ++ ts) k ts' -> typed F ls a (CBlock true ps rs body k) ts'.
Proof. intros ->. apply TLoop. Qed.
Lemma TIf1' F ls a ts ts' ps rs th k : a = TI32 :: on_stack ps ++ ts -> ps = rs ->
  typed F (on_stack rs :: ls) (on_stack ps) th (on_stack rs) -> typed F ls (on_stack rs ++ ts) k ts' -> typed F ls a (CIf ps rs th k) ts'.
Proof. intros ->. apply TIf1. Qed.
Lemma TIf2' F ls a ts ts' ps rs th el k : a = TI32 :: on_stack ps ++ ts ->
  typed F (on_stack rs :: ls) (on_stack ps) th (on_stack rs) -> typed F (on_stack rs :: ls) (on_stack ps) el (on_stack rs) ->
  typed F ls (on_stack rs ++ ts) k ts' -> typed F ls a (CIfElse ps rs th el k) ts'.
Proof. intros ->. apply TIf2. Qed.
Lemma TBr' F ls a ts any ts' d l k : nth_error ls d = Some l -> a = l ++ ts -> typed F ls any k ts' -> typed F ls a (CBr d k) ts'.
Proof. intros H ->. now apply TBr. Qed.
Lemma TBrIf' F ls a ts ts' d l k : nth_error ls d = Some l -> a = TI32 :: l ++ ts -> typed F ls (l ++ ts) k ts' -> typed F ls a (CBrIf d k) ts'.
Proof. intros H ->. now apply TBrIf. Qed.
Lemma TBrTable' F ls a ts any ts' ds d l k : nth_error ls d = Some l -> a = TI32 :: l ++ ts ->
  (forall e, In e ds -> nth_error ls e = Some l) -> typed F ls any k ts' -> typed F ls a (CBrTable ds d k) ts'.
Proof. intros H ->. now apply TBrTable. Qed.
Lemma TReturn' F ls a ts any ts' k : a = on_stack (f_results F) ++ ts -> typed F ls any k ts' -> typed F ls a (CReturn k) ts'.
Proof. intros ->. apply TReturn. Qed.
Lemma TCall' F ls a ts ts' f fn k : nth_error (sm_funcs (f_mod F)) f = Some fn -> a = on_stack (fst (sfunc_type fn)) ++ ts ->
  typed F ls (on_stack (snd (sfunc_type fn)) ++ ts) k ts' -> typed F ls a (CCall f k) ts'.
Proof. intros H ->. now apply TCall. Qed.
Lemma TCallInd' F ls a ts ts' ty tb ps rs k : nth_error (sm_types (f_mod F)) ty = Some (ps, rs) -> a = TI32 :: on_stack ps ++ ts ->
  typed F ls (on_stack rs ++ ts) k ts' -> typed F ls a (CCallInd ty tb k) ts'.
Proof. intros H ->. eapply TCallInd; eauto. Qed.
Ltac veq := cbn; reflexivity.
Ltac vb := first
  [ eapply TConst; reflexivity | eapply TGetL; reflexivity | eapply TSetL; reflexivity | eapply TTeeL; reflexivity
  | eapply TDrop | eapply TNop | eapply TSelect; reflexivity | eapply TSelectT
  | eapply TIsNull; reflexivity | eapply TOp'; [reflexivity|discriminate|veq|veq] ].
Ltac vc := cbn [on_stack rev app fst snd sfunc_type sf_type]; match goal with
  | |- typed _ _ _ CNil _ => eapply TNil
  | |- typed _ _ _ (CBasic _ _) _ => eapply TBasic; [vb|]
  | |- typed _ _ _ (CBlock false _ _ _ _) _ => eapply TBlock'; [veq| |]
  | |- typed _ _ _ (CBlock true _ _ _ _) _ => eapply TLoop'; [veq| |]
  | |- typed _ _ _ (CIf _ _ _ _) _ => eapply TIf1'; [veq|reflexivity| |]
  | |- typed _ _ _ (CIfElse _ _ _ _ _) _ => eapply TIf2'; [veq| | |]
  | |- typed _ _ _ (CBr _ _) _ => eapply TBr'; [reflexivity|veq|]
  | |- typed _ _ _ (CBrIf _ _) _ => eapply TBrIf'; [reflexivity|veq|]
  | |- typed _ _ _ (CBrTable _ _ _) _ => eapply TBrTable'; [reflexivity|veq|let H := fresh in intros ? H; cbn in H; intuition (subst; reflexivity)|]
  | |- typed _ _ _ (CReturn _) _ => eapply TReturn'; [veq|]
  | |- typed _ _ _ (CUnreachable _) _ => eapply TUnreachable
  | |- typed _ _ _ (CCall _ _) _ => eapply TCall'; [reflexivity|veq|]
  | |- typed _ _ _ (CCallInd _ _ _) _ => eapply TCallInd'; [reflexivity|veq|]
  end.
Ltac vf := cbv [valid_func func one sf_type sf_locals sf_body fst snd app seqc i32c i64c get set tee drop op iadd isub imul eqz block loop ifelse on_stack rev]; repeat vc.
Ltac vm := match goal with |- valid ?SM => split; [repeat constructor; vf|exists [], (sm_funcs SM); repeat split; auto; repeat constructor] end.

(** ** factorial by a loop, called through another function with a conditional
      f0(n) = if n = 0 then 1 else f1(n) ;  f1(n) = loop *)
Definition fact : smodule :=
  {| sm_types := [];
     sm_funcs :=
       [ func [TI32] [TI32] [] [get 0; eqz; ifelse [] [TI32] [i32c 1] [get 0; CCall 1]];
         func [TI32] [TI32] [TI32]
           [i32c 1; set 1;
            loop [] [] [get 1; get 0; imul; set 1; get 0; i32c 1; isub; tee 0; CBrIf 0];
            get 1] ] |}.
Lemma fact_valid : valid fact.
Proof. vm. Qed.
Definition runm (SM : smodule) (f : nat) (args : list val) (s : inst) (n : nat) : option (config + outcome) :=
  match compile SM with
  | Some M => match initial M s f args with Ok c => Some (steps hf0 host0 M n c) | _ => None end
  | None => None
  end.

(** ** programs the code gets wrong *)
(** const, local.get, unary operator: the constant is consumed instead of the local *)
Definition p_fold := one [TI32] [TI32] [] [i32c 10; get 0; eqz; isub].
(** br to the function body with a result *)
Definition p_br_body := one [] [TI32] [] [i32c 5; CBr 0].
(** br_table to the function body *)
Definition p_table_body := one [] [] [] [i32c 0; CBrTable [] 0].
(** two results of different types, with a value below *)
Definition p_mixed := one [] [TI32] [] [i32c 7; block [] [TI32; TI64] [i32c 1; i64c 2; CBr 0]; drop; isub].
(** a loop with a parameter *)
Definition p_loop_param := one [TI32] [TI32] [TI32]
  [i32c 7; loop [TI32] [TI32]
     [set 1; i32c 55; get 0; i32c 1; isub; tee 0; get 0; CBrIf 0; drop; drop; get 1]].
(** select on references *)
Definition p_select_ref := one [] [TI32] []
  [i64c 1; i64c 2; drop; drop; i32c 0; op (STableGet 0 TFuncRef); op (SRefNull TFuncRef); i32c 0;
   CBasic (BSelect (Some TFuncRef)); op SRefIsNull].
Definition inst_tbl : inst := {| i_mem := None; i_globals := []; i_tables := [[RFunc 0]]; i_datas := [] |}.
(** nine results *)
Definition p_nine := one [] [TI32; TI32; TI32; TI32; TI32; TI32; TI32; TI32; TI32] []
  [i32c 3; i32c 3; i32c 3; i32c 3; i32c 3; i32c 3; i32c 3; i32c 3; i32c 3].
(** a callee with a reference local *)
Definition p_ref_local : smodule :=
  {| sm_types := []; sm_funcs := [func [] [] [] [CCall 1]; func [] [] [TFuncRef] []] |}.
(** call_indirect to an import *)
Definition p_ind_import : smodule :=
  {| sm_types := [([], [])]; sm_funcs := [SWasi 0 ([], []); func [] [] [] [i32c 0; CCallInd 0 0]] |}.

(** more locals than 16 bits can name *)
Definition many : nat := Z.to_nat 65536.
Definition p_many := one [TI32] [TI32] (repeat TI32 many) [get many].
Definition wrong (SM : smodule) (f : nat) (args : list val) (s : inst) (good bad : list val) : Prop :=
  valid SM /\
  (exists x, invoke (wasm_prims hf0) host0 SM 9 f args s = ONorm good x) /\
  exists M c0 m s' l, compile SM = Some M /\ initial M s f args = Ok c0 /\
    steps hf0 host0 M m c0 = inr (Done bad s' l).
(** evaluation of the decidable parts *)
Definition wrongb (SM : smodule) (f : nat) (args : list val) (s : inst) : option (list val * list val) :=
  match invoke (wasm_prims hf0) host0 SM 9 f args s, compile SM with
  | ONorm good _, Some M =>
      match initial M s f args with
      | Ok c0 => match steps hf0 host0 M 60 c0 with inr (Done bad _ _) => Some (good, bad) | _ => None end
      | _ => None
      end
  | _, _ => None
  end.
Lemma wrong_intro SM f args s good bad : valid SM -> wrongb SM f args s = Some (good, bad) -> wrong SM f args s good bad.
Proof.
  intros V H. unfold wrongb in H. destruct (invoke (wasm_prims hf0) host0 SM 9 f args s) eqn:EI; try discriminate.
  destruct (compile SM) as [M|] eqn:EC; [|discriminate]. destruct (initial M s f args) as [c0| |] eqn:E0; try discriminate.
  destruct (steps hf0 host0 M 60 c0) as [|[]] eqn:ES; try discriminate. injection H as -> ->.
  split; [auto|]. split; [eauto|]. exists M, c0, 60. eauto 8.
Qed.
Lemma p_many_valid : valid p_many.
Proof.
  split; [|exists [], (sm_funcs p_many); repeat split; auto; repeat constructor]. constructor; [|constructor].
  unfold func. cbn [valid_func sf_type sf_locals sf_body fst snd seqc]. apply TBasic with (ts1 := [TI32]); [|apply TNil].
  apply TGetL. cbn [f_locals]. change ([TI32] ++ repeat TI32 many) with (repeat TI32 (S many)). apply nth_error_repeat. lia.
Qed.
