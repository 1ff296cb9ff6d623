(** Properties of translation and execution: C17-C26, C36-C38, C40-C42, C44, C45.
    Specification: Wasm.v (structured semantics), WasmTyping.v (validation), WasmPrims.v
    (operators), all written from the standard.  Code: Decoder.v + Check.compile (translator),
    Machine.v + IR.v + Regs.v (execution). *)
From Coq Require Import ZArith List Bool Lia.
From Verif Require Import RegsProofs Sim Word Value Numeric Float Mem Store Regs IR Machine Wasm WasmTyping WasmPrims PrimFacts Decoder Check
  BasicSim Sim Dyn Restrict Agree Soundness Correct ExecFacts Examples.
Import ListNotations.
Open Scope nat_scope.

(** ** C23 structured control flow *)
(** Full statement: without [within] and [clear].  Both are necessary (refuted theorems below and in
    Properties_Num.v, Properties_Mem.v). *)
Theorem C23_control_flow_partial : forall hf host SM M, valid SM -> within SM = true -> compile SM = Some M -> small M = true ->
  forall n f d args s, nth_error (sm_funcs SM) f = Some (SWasm d) -> Forall2 has_type (fst (sf_type d)) args ->
    clear hf host SM n f args s ->
    exists c0, initial M s f args = Ok c0 /\ ends_as hf host M n c0 (invoke (wasm_prims hf) host SM n f args s).
Proof. exact program_correct. Qed.

(** the primitives used are the standard's ... *)
Theorem C23_primitives : forall hf, hostfp_ok hf -> wasm_conforming hf (wasm_prims hf).
Proof. exact wasm_prims_conforming. Qed.
(** ... and only the values the standard fixes matter; a valid program is never stuck *)
Theorem C23_validation_sound : forall hf host SM h P P', wasm_conforming hf P -> host_ok host -> valid SM ->
  (forall d, In (SWasm d) (sm_funcs SM) -> refs_in h (sf_body d) = true) ->
  (forall o s args, inst_ok h s -> op_in h o = true -> exists_op o = true -> Forall2 has_type (sop_args o) args ->
     p_op P' o s args = p_op P o s args) ->
  (forall s t i, inst_ok h s -> t < sh_tables h -> in_s 32 i -> p_func P' (i_tables s) t i = p_func P (i_tables s) t i) ->
  (forall t, p_default P' t = p_default P t) -> p_ind_host P' = p_ind_host P ->
  forall n f d args s, nth_error (sm_funcs SM) f = Some (SWasm d) -> Forall2 has_type (fst (sf_type d)) args -> inst_ok h s ->
    invoke P' host SM n f args s = invoke P host SM n f args s /\
    match invoke P host SM n f args s with
    | ONorm vals x => Forall2 has_type (snd (sf_type d)) vals /\ inst_ok h (x_inst x)
    | OBr _ _ _ | ORet _ _ | OStuck => False
    | _ => True
    end.
Proof. exact program_sound. Qed.

(** a program that meets all hypotheses: factorial of 5 by loop, if/else and a call *)
Example C23_example : valid fact /\ within fact = true /\
  (exists M, compile fact = Some M /\ small M = true) /\
  (forall d, In (SWasm d) (sm_funcs fact) -> refs_in {| sh_mem := false; sh_globals := []; sh_tables := 0; sh_datas := 0 |} (sf_body d) = true) /\
  inst_ok {| sh_mem := false; sh_globals := []; sh_tables := 0; sh_datas := 0 |} inst0 /\
  host_ok host0 /\ clear hf0 host0 fact 9 0 [VI32 5] inst0 /\
  exists x, invoke (wasm_prims hf0) host0 fact 9 0 [VI32 5] inst0 = ONorm [VI32 120] x.
Proof.
  split; [exact fact_valid|]. split; [reflexivity|]. split; [eexists; split; [vm_compute; reflexivity|vm_compute; reflexivity]|].
  split; [intros d [E|[E|[]]]; injection E as <-; reflexivity|]. split; [repeat constructor|]. split; [intros log o ws H; discriminate|].
  split; [vm_compute; discriminate|]. eexists. vm_compute. reflexivity.
Qed.

(** ... and one with br_table carrying a value out of one or two blocks, and unary operators in a row *)
Definition p_switch : smodule :=
  one [TI32] [TI32] [] [block [] [TI32] [block [] [TI32] [get 0; get 0; CBrTable [0; 1] 0]; i32c 1; iadd]; get 0; eqz; eqz; iadd].
Example C23_switch_example : valid p_switch /\ within p_switch = true /\
  (exists M, compile p_switch = Some M /\ small M = true) /\
  (forall n, In n [0; 1; 2]%Z -> clear hf0 host0 p_switch 9 0 [VI32 n] inst0) /\
  exists x, map (fun n => invoke (wasm_prims hf0) host0 p_switch 9 0 [VI32 n] inst0) [0; 1; 2]%Z =
    [ONorm [VI32 1] x; ONorm [VI32 2] x; ONorm [VI32 4] x].
Proof.
  split; [vm|]. split; [reflexivity|]. split; [eexists; split; [vm_compute; reflexivity|vm_compute; reflexivity]|].
  split; [intros n [<-|[<-|[<-|[]]]]; vm_compute; discriminate|]. eexists. vm_compute. reflexivity.
Qed.

(** *** refutations: valid programs whose translation gives another result *)
Theorem C21_fold_refuted : wrong p_fold 0 [VI32 7] inst0 [VI32 10] [VI32 (-10)].
Proof. apply wrong_intro; [vm|vm_compute; reflexivity]. Qed.
Theorem C24_br_to_body_refuted : wrong p_br_body 0 [] inst0 [VI32 5] [].
Proof. apply wrong_intro; [vm|vm_compute; reflexivity]. Qed.
Theorem C38_mixed_results_refuted : wrong p_mixed 0 [] inst0 [VI32 6] [VI32 0].
Proof. apply wrong_intro; [vm|vm_compute; reflexivity]. Qed.
Theorem C38_loop_parameter_refuted : wrong p_loop_param 0 [VI32 2] inst0 [VI32 1] [VI32 55].
Proof. apply wrong_intro; [vm|vm_compute; reflexivity]. Qed.
Theorem C40_select_ref_refuted : wrong p_select_ref 0 [] inst_tbl [VI32 1] [VI32 0].
Proof. apply wrong_intro; [vm|vm_compute; reflexivity]. Qed.
Theorem C42_many_locals_refuted : wrong p_many 0 [VI32 7] inst0 [VI32 0] [VI32 7].
Proof. apply wrong_intro; [exact p_many_valid|vm_compute; reflexivity]. Qed.

(** valid programs whose translation traps although the standard gives results *)
Definition wrongly_traps (SM : smodule) (f : nat) (args : list val) (s : inst) (good : list val) : Prop :=
  valid SM /\
  (exists x, invoke (wasm_prims hf0) (fun _ => HoRet None []) SM 9 f args s = ONorm good x) /\
  exists M c0 m t l, compile SM = Some M /\ small M = true /\ initial M s f args = Ok c0 /\
    steps hf0 (fun _ => HoRet None []) M m c0 = inr (Trapped t l).
Theorem C26_nine_results_refuted : wrongly_traps p_nine 0 [] inst0 (repeat (VI32 3) 9).
Proof.
  split; [vm|]. split; [eexists; vm_compute; reflexivity|]. eexists. eexists. exists 60. eexists. eexists.
  split; [vm_compute; reflexivity|]. split; [vm_compute; reflexivity|]. split; [vm_compute; reflexivity|]. vm_compute. reflexivity.
Qed.
Theorem C26_reference_local_refuted : wrongly_traps p_ref_local 0 [] inst0 [].
Proof.
  split; [vm|]. split; [eexists; vm_compute; reflexivity|]. eexists. eexists. exists 60. eexists. eexists.
  split; [vm_compute; reflexivity|]. split; [vm_compute; reflexivity|]. split; [vm_compute; reflexivity|]. vm_compute. reflexivity.
Qed.
Lemma p_ind_import_valid : valid p_ind_import.
Proof.
  split; [repeat constructor; vf|]. exists [SWasi 0 ([], [])], [func [] [] [] [i32c 0; CCallInd 0 0]]. repeat split; auto; repeat constructor.
Qed.
(** call_indirect reaching an imported function ends in an error *)
Theorem C17_indirect_import_refuted : wrongly_traps p_ind_import 1 [] inst_tbl [].
Proof.
  split; [exact p_ind_import_valid|]. split; [eexists; vm_compute; reflexivity|]. eexists. eexists. exists 60. eexists. eexists.
  split; [vm_compute; reflexivity|]. split; [vm_compute; reflexivity|]. split; [vm_compute; reflexivity|]. vm_compute. reflexivity.
Qed.

Lemma steps_cycle hf host M k c : 0 < k -> steps hf host M k c = inl c -> forall n, exists c', steps hf host M n c = inl c'.
Proof.
  intros K H n. assert (A : forall j, steps hf host M (j * k) c = inl c).
  { induction j as [|j IH]; [reflexivity|]. cbn [Nat.mul]. rewrite (steps_app hf host M k c c (j * k) H). exact IH. }
  assert (B : forall a b c0, steps hf host M (a + b) c0 = inl c -> exists c', steps hf host M a c0 = inl c').
  { clear. induction a as [|a IH]; intros b c0 H; [eexists; reflexivity|]. cbn [steps Nat.add] in *.
    destruct (step hf host M c0); try discriminate. eapply IH; eauto. }
  apply (B n (n * k - n)). replace (n + (n * k - n)) with (n * k) by nia. apply A.
Qed.
(** br_table to the function body: the standard returns at once, the machine never stops *)
Theorem C25_table_to_body_refuted : valid p_table_body /\
  (exists x, invoke (wasm_prims hf0) host0 p_table_body 0 0 [] inst0 = ONorm [] x) /\
  exists M c0, compile p_table_body = Some M /\ small M = true /\ initial M inst0 0 [] = Ok c0 /\
    forall n, exists c, steps hf0 host0 M n c0 = inl c.
Proof.
  split; [vm|]. split; [eexists; vm_compute; reflexivity|].
  eexists. eexists. split; [vm_compute; reflexivity|]. split; [vm_compute; reflexivity|]. split; [vm_compute; reflexivity|].
  apply (steps_cycle _ _ _ 2); [lia|]. vm_compute. reflexivity.
Qed.

(** ** C41 determinism and budgets *)
(** once a run has ended, larger budgets change nothing, and no two budgets disagree *)
Theorem C41_budget : forall hf host M c n m o o', steps hf host M n c = inr o ->
  (steps hf host M m c = inr o' -> o' = o) /\ (n <= m -> steps hf host M m c = inr o).
Proof.
  intros hf host M c n m o o' H. split; intros K.
  - eapply steps_unique; eauto.
  - replace m with (n + (m - n)) by lia. now apply steps_stable.
Qed.
(** nor does the specification's: the standard gives at most one outcome, whatever the budget *)
Theorem C41_one_outcome : forall P host SM f args s n m o o', as_outcome (invoke P host SM n f args s) = Some o ->
  as_outcome (invoke P host SM m f args s) = Some o' -> o = o'.
Proof.
  intros P host SM f args s n m o o' H K.
  assert (A : invoke P host SM n f args s <> OFuel) by (intros E; rewrite E in H; discriminate).
  assert (B : invoke P host SM m f args s <> OFuel) by (intros E; rewrite E in K; discriminate).
  destruct (Nat.le_ge_cases n m) as [L|L]; [rewrite (invoke_budget _ _ _ _ _ _ n m L A) in K|rewrite (invoke_budget _ _ _ _ _ _ m n L B) in H]; congruence.
Qed.
(** the machine ends exactly if the specification does, with the same outcome *)
Theorem C23_termination_partial : forall hf host SM M, valid SM -> within SM = true -> compile SM = Some M -> small M = true ->
  forall f d args s, nth_error (sm_funcs SM) f = Some (SWasm d) -> Forall2 has_type (fst (sf_type d)) args ->
    (forall n, clear hf host SM n f args s) ->
    exists c0, initial M s f args = Ok c0 /\
      forall r, (exists m, steps hf host M m c0 = inr r) <->
                (exists n, as_outcome (invoke (wasm_prims hf) host SM n f args s) = Some r).
Proof.
  intros hf host SM M V W C Sm f d args s N A CL.
  destruct (program_correct hf host SM M V W C Sm 0 f d args s N A (CL 0)) as (c0 & I0 & _). exists c0. split; auto.
  assert (K : forall n, ends_as hf host M n c0 (invoke (wasm_prims hf) host SM n f args s)).
  { intros n. destruct (program_correct hf host SM M V W C Sm n f d args s N A (CL n)) as (c1 & I1 & K). congruence. }
  intros r. split.
  - intros (m & Hm). exists (S m). destruct (ends_outcome _ _ _ _ _ _ (K (S m))) as [(r' & E & m' & Hm')|(E & m' & c' & L & Hm')].
    + rewrite E. f_equal. eapply steps_unique; eauto.
    + pose proof (steps_running _ _ _ _ _ _ _ _ Hm Hm'). lia.
  - intros (n & Hn). destruct (ends_outcome _ _ _ _ _ _ (K n)) as [(r' & E & m' & Hm')|(E & _)].
    + rewrite Hn in E. injection E as ->. eauto.
    + rewrite E in Hn. discriminate.
Qed.
(** example: both run forever on a loop that does not end; a trap ends both *)
Definition p_forever := one [] [] [] [loop [] [] [CBr 0]].
Definition p_div0 := one [] [TI32] [] [i32c 1; i32c 0; op (SNum2 (B_int W32 Idiv_s))].
Example C23_termination_example : valid p_forever /\ within p_forever = true /\ valid p_div0 /\ within p_div0 = true /\
  invoke (wasm_prims hf0) host0 p_forever 50 0 [] inst0 = OFuel /\
  as_outcome (invoke (wasm_prims hf0) host0 p_div0 0 0 [] inst0) = Some (Trapped THost []) /\
  clear hf0 host0 p_div0 0 0 [] inst0.
Proof.
  split; [vm|]. split; [reflexivity|]. split; [vm|]. split; [reflexivity|]. split; [vm_compute; reflexivity|]. split; [vm_compute; reflexivity|].
  vm_compute. discriminate.
Qed.

(** ** C38 values carried by branches *)
(** A branch to a block moves its values if each is of the class of all above it or the lowest of its class in
    the function ([found]; C38_found: exactly then it reads the right registers); a branch to a loop moves nothing, and
    is right if no other operand of the parameters' classes lies between them and the loop's bottom
    ([br_ok], [tbl_ok] of Check.v, part of [within]).  Missing: the other branches
    (C38_mixed_results_refuted, C38_loop_parameter_refuted). *)
Theorem C38_carried_values_partial : forall hf host SM M, valid SM -> within SM = true -> compile SM = Some M -> small M = true ->
  forall f d args s, nth_error (sm_funcs SM) f = Some (SWasm d) -> Forall2 has_type (fst (sf_type d)) args ->
    (forall n, clear hf host SM n f args s) ->
    exists c0, initial M s f args = Ok c0 /\
      forall r, (exists m, steps hf host M m c0 = inr r) <->
                (exists n, as_outcome (invoke (wasm_prims hf) host SM n f args s) = Some r).
Proof. exact C23_termination_partial. Qed.
(** a loop with parameters of two types, left and repeated by a branch out of an inner block with an
    f32 waiting on the stack, and another repeated by br_table *)
Definition p_loop_two := one [TI32] [TI64] [TI32; TI64]
  [CBasic (BConst (VF64 0)); get 0; i64c 5;
   loop [TI32; TI64] [TI64]
     [i64c 3; op (SNum2 (B_int W64 Iadd)); set 2; i32c 1; isub; set 1;
      CBasic (BConst (VF32 0)); get 1; get 2;
      block [TI32; TI64] [TI32; TI64] [get 1; CBrIf 1];
      set 2; drop; drop; get 2];
   set 2; drop; get 2].
Definition p_loop_table := one [TI32] [TI32] [TI32; TI32]
  [get 0; loop [TI32] [TI32]
     [block [TI32] [TI32] [i32c 1; isub; tee 1; get 2; i32c 1; iadd; set 2; get 1; CBrTable [0] 1]];
   get 2; iadd].
Example C38_example : valid p_loop_two /\ within p_loop_two = true /\ valid p_loop_table /\ within p_loop_table = true /\
  (exists M, compile p_loop_two = Some M /\ small M = true) /\ (exists M, compile p_loop_table = Some M /\ small M = true) /\
  (forall n, In n [1; 4]%Z -> clear hf0 host0 p_loop_two 20 0 [VI32 n] inst0 /\ clear hf0 host0 p_loop_table 20 0 [VI32 n] inst0) /\
  exists x, map (fun n => invoke (wasm_prims hf0) host0 p_loop_two 20 0 [VI32 n] inst0) [1; 4]%Z = [ONorm [VI64 8] x; ONorm [VI64 17] x] /\
            map (fun n => invoke (wasm_prims hf0) host0 p_loop_table 20 0 [VI32 n] inst0) [1; 4]%Z = [ONorm [VI32 1] x; ONorm [VI32 4] x].
Proof.
  split; [vm|]. split; [reflexivity|]. split; [vm|]. split; [reflexivity|].
  split; [eexists; split; vm_compute; reflexivity|]. split; [eexists; split; vm_compute; reflexivity|].
  split; [intros n [<-|[<-|[]]]; split; vm_compute; discriminate|]. eexists. split; vm_compute; reflexivity.
Qed.
(** What [found] means.  The operands of a function lie in registers counted per class above the declared locals
    ([slots nl ts below]: the registers of the operands [ts], top first, above [below]).  A branch carrying values of the
    classes [ts] to a block reads the registers they lie in, in their order, exactly if [found] says so; for values of
    one class it always does. *)
Theorem C38_found : forall nl d ts below targets, (forall c, sget d c = nl c + cnt c (ts ++ below)) -> (forall c, (Z.of_nat (sget d c) <= 65536)%Z) ->
  map r_cls targets = rev ts ->
  (branch_src d (length targets) 0 targets = rev (slots nl ts below) <-> found (sget d) [] ts = true).
Proof.
  intros nl d ts below targets H1 H2 H3. assert (L : length targets = length ts) by (rewrite <- (map_length r_cls), H3; apply rev_length).
  rewrite branch_src_cls, H3, L. split; intros H.
  - exact (src_not_found nl d (sget d) below (fun _ => eq_refl) ts [] H1 H2 H).
  - exact (src_found nl d (sget d) below (fun _ => eq_refl) ts [] H1 H2 H).
Qed.
Theorem C38_one_class : forall depth c n, found depth [] (repeat c n) = true.
Proof.
  intros dep c n. assert (K : forall m k, found dep (repeat c k) (repeat c m) = true); [|exact (K n 0)].
  induction m as [|m IH]; intros k; [reflexivity|]. cbn [repeat found]. change (Check.many c (repeat c k)) with (cnt c (repeat c k)).
  assert (X : cnt c (repeat c k) = k). { clear. induction k as [|k IH]; [reflexivity|]. cbn [repeat]. rewrite cnt_cons, StoreProofs.cls_eqb_refl, IH. reflexivity. }
  rewrite X, repeat_length, Nat.eqb_refl. cbn [orb andb]. exact (IH (S k)).
Qed.
(** What [stays] means: with the operands [mid] taken away from beneath them, the operands [ts] are expected in the
    registers they lie in exactly if none of [mid] is of one of their classes. *)
Theorem C38_stays : forall nl ts mid below, slots nl ts (mid ++ below) = slots nl ts below <-> (forall c, In c ts -> ~ In c mid).
Proof.
  intros nl ts mid below. assert (Z : forall c l, cnt c l = 0 <-> ~ In c l).
  { intros c l. induction l as [|e l IH]; [split; [intros _ []|reflexivity]|]. rewrite cnt_cons. cbn [In]. destruct (cls_eqb c e) eqn:Q.
    - apply StoreProofs.cls_eqb_eq in Q. subst. split; [lia|tauto].
    - assert (c <> e) by (intros ->; now rewrite StoreProofs.cls_eqb_refl in Q). rewrite Nat.add_0_l, IH. split; intros H1; [intros [E|H2]; [congruence|tauto]|tauto]. }
  split.
  - induction ts as [|c ts IH]; intros H e I; [destruct I|]. cbn [slots] in H. injection H as H1 H2. rewrite !cnt_app in H1. destruct I as [<-|I]; [apply Z; lia|]. exact (IH H2 e I).
  - induction ts as [|c ts IH]; intros H; [reflexivity|]. cbn [slots]. rewrite IH by (intros e I; apply H; now right). f_equal. f_equal.
    assert (K : cnt c mid = 0) by (apply Z, H; now left). rewrite !cnt_app, K. reflexivity.
Qed.
Theorem C38_stays_check : forall ls d l rest, stays ls d l rest = true <-> (forall c, In c (lb_types l) -> ~ In c (between ls d rest)).
Proof.
  intros ls d l rest. unfold stays, apart. rewrite forallb_forall. split; intros H c I.
  - specialize (H c I). apply negb_true_iff in H. intros J. assert (X : existsb (cls_eqb c) (between ls d rest) = true) by (apply existsb_exists; exists c; split; [exact J|apply StoreProofs.cls_eqb_refl]). congruence.
  - apply negb_true_iff. destruct (existsb (cls_eqb c) (between ls d rest)) eqn:X; [|reflexivity]. apply existsb_exists in X as (e & J & Q). apply StoreProofs.cls_eqb_eq in Q. subst. destruct (H e I J).
Qed.
(** values of two types, lowest of their classes, carried out of a block past an f32; the same with an operand beneath is
    not within *)
Definition p_two := one [TI32] [TI32] [] [block [] [TI64; TI32] [i64c 5; get 0; CBasic (BConst (VF32 0)); drop; CBr 0]; set 0; op (SCvt C_wrap); get 0; iadd].
Definition p_two_more := one [TI32] [TI32] [] [i64c 7; block [] [TI64; TI32] [i64c 5; get 0; CBasic (BConst (VF32 0)); drop; CBr 0]; set 0; op (SCvt C_wrap); set 0; drop; get 0].
Example C38_found_example : valid p_two /\ within p_two = true /\ (exists M, compile p_two = Some M /\ small M = true) /\ clear hf0 host0 p_two 20 0 [VI32 4] inst0 /\
  valid p_two_more /\ within p_two_more = false /\ exists x, invoke (wasm_prims hf0) host0 p_two 20 0 [VI32 4] inst0 = ONorm [VI32 9] x.
Proof.
  split; [vm|]. split; [reflexivity|]. split; [eexists; split; vm_compute; reflexivity|]. split; [vm_compute; discriminate|]. split; [vm|]. split; [reflexivity|].
  eexists. vm_compute. reflexivity.
Qed.

(** ** C21 operand folding, straight-line code *)
(** Missing for the full claim: [within] excludes two operand producers before a unary operator
    (C21_fold_refuted). *)
Theorem C21_straight_line_partial : forall hf host SM M, valid SM -> within SM = true -> compile SM = Some M -> small M = true ->
  forall f d args s, nth_error (sm_funcs SM) f = Some (SWasm d) -> straight (sf_body d) = true ->
    Forall2 has_type (fst (sf_type d)) args -> clear hf host SM 0 f args s ->
    exists c0 r m, initial M s f args = Ok c0 /\ as_outcome (invoke (wasm_prims hf) host SM 0 f args s) = Some r /\
      steps hf host M m c0 = inr r.
Proof.
  intros hf host SM M V W C Sm f d args s N S A CL.
  destruct (program_correct hf host SM M V W C Sm 0 f d args s N A CL) as (c0 & I0 & K). exists c0.
  destruct (ends_outcome _ _ _ _ _ _ K) as [(r & E & m & Hm)|(E & _)]; [exists r, m; auto|].
  destruct (straight_invoke (wasm_prims hf) host SM f d args s N S 0). contradiction.
Qed.
(** ** C22 destination folding *)
(** [operator; local.set] in any context; the operator may read the local, and the local's old value
    may be waiting on the operand stack *)
Theorem C22_in_context : forall hf host SM M, valid SM -> within SM = true -> compile SM = Some M -> small M = true ->
  forall f d pre o n post args s, nth_error (sm_funcs SM) f = Some (SWasm d) ->
    sf_body d = bcode (pre ++ [BOp o; BSet n] ++ post) CNil ->
    Forall2 has_type (fst (sf_type d)) args -> clear hf host SM 0 f args s ->
    exists c0 r m, initial M s f args = Ok c0 /\ as_outcome (invoke (wasm_prims hf) host SM 0 f args s) = Some r /\
      steps hf host M m c0 = inr r.
Proof.
  intros hf host SM M V W C Sm f d pre o n post args s N B A CL. eapply C21_straight_line_partial; eauto.
  rewrite B. generalize (pre ++ [BOp o; BSet n] ++ post). intros l. induction l; cbn; auto.
Qed.
(** x waiting on the stack while x := x + y is executed as one instruction; result old x - new x *)
Definition p_pending := one [TI32; TI32] [TI32] [] [get 0; get 0; get 1; iadd; set 0; get 0; isub].
Example C22_example : valid p_pending /\ within p_pending = true /\
  (exists M c al, compile p_pending = Some M /\ small M = true /\
     md_funcs M = [FWasm {| fd_type := ([TI32; TI32], [TI32]); fd_locals := []; fd_code := c; fd_alloc := al |}] /\
     In (IOp (SNum2 (B_int W32 Iadd)) (Some (DLoc 0)) [OLoc 0; OLoc 1]) c) /\
  clear hf0 host0 p_pending 0 0 [VI32 10; VI32 3] inst0 /\
  exists x, invoke (wasm_prims hf0) host0 p_pending 0 0 [VI32 10; VI32 3] inst0 = ONorm [VI32 (-3)] x.
Proof.
  split; [vm|]. split; [reflexivity|]. split.
  - eexists. eexists. eexists. split; [vm_compute; reflexivity|]. split; [vm_compute; reflexivity|]. split; [reflexivity|]. cbn. auto 10.
  - split; [vm_compute; discriminate|]. eexists. vm_compute. reflexivity.
Qed.

(** The fold itself, for every operator, local, decoder state (whatever is pending) and machine state.
    When an operator and the local.set behind it are translated into one instruction, translating them
    one by one (as before any other operator) gives the operator with the same operands into a register
    and the move from that register, and leaves the translator in the same state. *)
Theorem C22_translation : forall E o n rest k is k', dec_op E o (FBasic (BSet n) :: rest) k = (is, k', true) ->
  exists t r srcs k2, sop_res o = Some t /\ class_of (ltype E n) = class_of t /\
    is = [IOp o (Some (DLoc (u16 n))) srcs] /\
    (forall nxt, (forall m l, nxt <> FBasic (BSet m) :: l) -> dec_op E o nxt k = ([IOp o (Some (DReg r)) srcs], k2, false)) /\
    dec_basic E (BSet n) rest k2 = Some ([IMov (class_of t) (DLoc (u16 n)) (OReg r)], k', false).
Proof.
  intros E o n rest k is k' H. unfold dec_op in *. destruct (pop_regs (k_al k) (rev (sop_args o))) as [a ns].
  destruct (match o with SGlobalSet t _ => _ | _ => _ end) as [srcs p].
  destruct (sop_res o) as [t|]; [|congruence]. destruct (al_push a t) as [a2 r] eqn:PU.
  destruct (if dst_foldable o then fold_dst E (class_of t) (FBasic (BSet n) :: rest) else None) as [l|] eqn:FD; [|congruence].
  destruct (dst_foldable o); [|discriminate FD]. cbn [fold_dst] in FD.
  destruct (is_num (class_of t) && cls_eqb (class_of (ltype E n)) (class_of t)) eqn:C; [|discriminate FD].
  apply andb_prop in C as [NU C]. apply StoreProofs.cls_eqb_eq in C. assert (EL : l = u16 n) by congruence. subst l. clear FD.
  assert (EI : is = [IOp o (Some (DLoc (u16 n))) (rev srcs)]) by congruence. assert (EK : k' = CS (fst (al_pop a2 t)) p) by congruence. clear H.
  exists t, (r_idx r), (rev srcs), (CS a2 p). split; [reflexivity|]. split; [exact C|]. split; [exact EI|]. split.
  - intros nxt NS. assert (Q : fold_dst E (class_of t) nxt = None).
    { destruct nxt as [|[[]| | | | | | | | | | |] l]; try reflexivity. now destruct (NS n0 l). }
    rewrite Q. reflexivity.
  - cbn [dec_basic k_al k_pend]. destruct (al_pop a2 (ltype E n)) as [a3 r3] eqn:PO.
    assert (X : al_pop a2 t = (a3, r3)) by (rewrite <- PO; unfold al_pop; now rewrite C).
    assert (R3 : r_idx r3 = r_idx r).
    { unfold al_push in PU. unfold al_pop in X. assert (Y : r3 = R (class_of t) (u16 (sget (al_d a2) (class_of t) - 1))) by congruence.
      assert (Z : r = R (class_of t) (u16 (sget (al_d a) (class_of t)))) by congruence. subst r3 r. cbn [r_idx].
      assert (D : al_d a2 = incr (al_d a) (class_of t)) by (now apply (f_equal (fun q => al_d (fst q))) in PU).
      rewrite D. unfold incr. rewrite RegsProofs.sget_sset_eq. f_equal. lia. }
    rewrite EK, X, C. cbn [fst]. destruct (class_of t); try discriminate NU; rewrite R3; reflexivity.
Qed.
Example C22_translation_example : exists k', (* x := x + y, both operands pending, and another value of x waiting beneath *)
  let k := CS (fst (al_pushes (al_new []) [TI32; TI32; TI32])) [(CI32, OLoc 1); (CI32, OLoc 0)] in
  dec_op {| e_params := [TI32; TI32]; e_locals := []; e_results := [TI32]; e_mod := {| ms_imports := []; ms_nimp := 0; ms_functys := []; ms_types := [] |} |} (SNum2 (B_int W32 Iadd)) [FBasic (BSet 0); FEnd] k =
    ([IOp (SNum2 (B_int W32 Iadd)) (Some (DLoc 0)) [OLoc 0; OLoc 1]], k', true) /\ k_pend k' = [].
Proof. eexists. split; vm_compute; reflexivity. Qed.
(** Executing the one instruction is executing both: it traps when they do; and if not, it leaves the
    same locals, globals, memory, tables, and registers but for the one the value went through. *)
Theorem C22_same_effect : forall hf o t l r srcs d, sop_ok o = true -> sop_res o = Some t -> (exists w, rf_get (d_rf d) (class_of t) r = Ok w) ->
  exists a b, dstep hf (IOp o (Some (DLoc l)) srcs) d = Some a /\ dstep hf (IOp o (Some (DReg r)) srcs) d = Some b /\
    let mov := IMov (class_of t) (DLoc l) (OReg r) in
    match a with
    | Ok d1 => exists d2 v rf, b = Ok d2 /\ rf_set (d_rf d1) (class_of t) r v = Ok rf /\ nth_error (d_loc d1) l = Some v /\ dstep hf mov d2 = Some (Ok (set_rf d1 rf))
    | Trap x => b = Trap x
    | UB => b = UB \/ exists d2, b = Ok d2 /\ dstep hf mov d2 = Some UB
    end.
Proof.
  intros hf o t l r srcs d OK SR (w & GW). cbn [dstep].
  eexists. eexists. split; [reflexivity|]. split; [reflexivity|]. cbv zeta.
  destruct (uses_ptr o && negb (fresh_ptr d)); [left; reflexivity|].
  destruct (read_all d (map class_of (sop_args o)) srcs) as [args|x|]; cbn [bind]; [|reflexivity|left; reflexivity].
  destruct (sop_eval hf o (d_inst d) args) as [[s v]|x|] eqn:EV; cbn [bind fst snd]; [|reflexivity|left; reflexivity].
  pose proof (BasicSim.sop_eval_res _ _ _ _ _ _ OK EV) as RV. rewrite SR in *. destruct RV as (u & -> & CU). cbn [write_opt].
  set (d' := if sets_ptr o then _ else _).
  assert (DR : d_rf d' = d_rf d) by (unfold d'; destruct (sets_ptr o); reflexivity).
  assert (ST : exists rf, rf_set (d_rf d') (class_of t) r u = Ok rf).
  { rewrite DR. unfold rf_set. apply RegsProofs.rf_get_lt in GW. apply Nat.ltb_lt in GW. rewrite GW. eauto. }
  destruct ST as (rf & ST). unfold write. rewrite ST. cbn [bind].
  assert (RD : read (set_rf d' rf) (class_of t) (OReg r) = Ok u) by (cbn [read d_rf set_rf]; exact (RegsProofs.get_set_same _ _ _ _ _ ST)).
  destruct (Nat.ltb l (length (d_loc d'))) eqn:LL.
  - exists (set_rf d' rf), u, rf. split; [reflexivity|]. cbn [d_rf set_loc d_loc]. split; [exact ST|]. apply Nat.ltb_lt in LL.
    split; [|rewrite RD; cbn [bind]; cbn [d_loc set_rf]; apply Nat.ltb_lt in LL; rewrite LL; reflexivity].
    clear - LL. revert l LL. generalize (d_loc d'). intros L. induction L as [|y L IH]; intros [|l] H; cbn in *; try lia; auto. apply IH. lia.
  - right. exists (set_rf d' rf). split; [reflexivity|]. rewrite RD. cbn [bind]. cbn [d_loc set_rf]. rewrite LL. reflexivity.
Qed.
(** ** C24 br to the function body *)
(** Missing: functions with results (C24_br_to_body_refuted). *)
Theorem C24_br_to_body_partial : forall hf host SM M, valid SM -> within SM = true -> compile SM = Some M -> small M = true ->
  forall n f d args s vs x, nth_error (sm_funcs SM) f = Some (SWasm d) -> snd (sf_type d) = [] ->
    Forall2 has_type (fst (sf_type d)) args -> clear hf host SM n f args s ->
    (* the standard's execution of the body ends in a branch to the body's own label *)
    exec (wasm_prims hf) host SM n [0] (sf_body d) []
      {| x_loc := args ++ map (fun t => default_of (class_of t)) (sf_locals d); x_inst := s; x_log := [] |} = OBr 0 vs x ->
    exists c0 m, initial M s f args = Ok c0 /\ steps hf host M m c0 = inr (Done (rev vs) (x_inst x) (x_log x)).
Proof.
  intros hf host SM M V W C Sm n f d args s vs x N R A CL E.
  destruct (program_correct hf host SM M V W C Sm n f d args s N A CL) as (c0 & I0 & K). exists c0.
  unfold invoke in K. rewrite N, R in K. cbn [length] in K. rewrite E in K. cbn in K. destruct K as [m K]. eauto.
Qed.
Definition p_early := one [TI32] [] [] [block [] [] [get 0; CBrIf 1; CUnreachable]; CUnreachable].
Example C24_example : valid p_early /\ within p_early = true /\ clear hf0 host0 p_early 0 0 [VI32 1] inst0 /\
  exists x, exec (wasm_prims hf0) host0 p_early 0 [0] (seqc [block [] [] [get 0; CBrIf 1; CUnreachable]; CUnreachable]) []
      {| x_loc := [VI32 1]; x_inst := inst0; x_log := [] |} = OBr 0 [] x.
Proof. split; [vm|]. split; [reflexivity|]. split; [vm_compute; discriminate|]. eexists. vm_compute. reflexivity. Qed.

(** ** C37 dead code *)
(** Programs that differ only in code after an unconditional branch, return or unreachable: their
    translations end in the same way (or neither ends), provided the run has no undefined
    behaviour (memory accesses outside memory, C11).  The dead code need not even be valid. *)
Theorem C37_dead_code : forall hf host SM SM' M M', live_mod SM SM' ->
  supported SM = true -> supported SM' = true -> compile SM = Some M -> compile SM' = Some M' -> small M = true -> small M' = true ->
  forall f d args s, nth_error (sm_funcs SM) f = Some (SWasm d) -> Forall2 (fun t v => val_cls v = class_of t) (fst (sf_type d)) args ->
    (forall n, invoke (chiwawa_prims hf) host SM n f args s <> OUB) ->
    exists c0 c0', initial M s f args = Ok c0 /\ initial M' s f args = Ok c0' /\
      forall r, (exists m, steps hf host M m c0 = inr r) <-> (exists m, steps hf host M' m c0' = inr r).
Proof.
  intros hf host SM SM' M M' LM S S' C C' Sm Sm' f d args s N A NU.
  pose proof (live_nth SM SM' LM f) as LF. rewrite N in LF. destruct (nth_error (sm_funcs SM') f) as [[d'|]|] eqn:N'; try (cbn in LF; tauto).
  destruct LF as (LT & _). 
  assert (A' : Forall2 (fun t v => val_cls v = class_of t) (fst (sf_type d')) args) by (rewrite <- LT; auto).
  assert (K : forall SM M d, compile SM = Some M -> supported SM = true -> small M = true -> nth_error (sm_funcs SM) f = Some (SWasm d) ->
     Forall2 (fun t v => val_cls v = class_of t) (fst (sf_type d)) args -> (forall n, invoke (chiwawa_prims hf) host SM n f args s <> OUB) ->
     exists c0, initial M s f args = Ok c0 /\ forall r, (exists m, steps hf host M m c0 = inr r) <->
       (exists n, as_outcome (invoke (chiwawa_prims hf) host SM n f args s) = Some r)).
  { clear. intros SM M d C S Sm N A NU. destruct (simulation hf host SM M C S Sm 0 f d args s N A) as (c0 & I0 & _). exists c0. split; auto.
    assert (K : forall n, ends_as hf host M n c0 (invoke (chiwawa_prims hf) host SM n f args s)).
    { intros n. destruct (simulation hf host SM M C S Sm n f d args s N A) as (c1 & I1 & K). rewrite I0 in I1. injection I1 as <-.
      specialize (NU n). unfold ends_as. destruct (invoke (chiwawa_prims hf) host SM n f args s); auto. }
    intros r. split.
    - intros (m & Hm). exists (Datatypes.S m). destruct (ends_outcome _ _ _ _ _ _ (K (Datatypes.S m))) as [(r' & E & m' & Hm')|(E & m' & c' & L & Hm')].
      + rewrite E. f_equal. eapply steps_unique; eauto.
      + pose proof (steps_running _ _ _ _ _ _ _ _ Hm Hm'). lia.
    - intros (n & Hn). destruct (ends_outcome _ _ _ _ _ _ (K n)) as [(r' & E & m' & Hm')|(E & _)].
      + rewrite Hn in E. injection E as ->. eauto.
      + rewrite E in Hn. discriminate. }
  destruct (K SM M d C S Sm N A NU) as (c0 & I0 & K0).
  destruct (K SM' M' d' C' S' Sm' N' A') as (c0' & I0' & K0').
  { intros n. rewrite <- (invoke_live (chiwawa_prims hf) host SM SM' LM). auto. }
  exists c0, c0'. split; auto. split; auto. intros r. rewrite K0, K0'. split; intros (n & Hn); exists n.
  - now rewrite <- (invoke_live (chiwawa_prims hf) host SM SM' LM).
  - now rewrite (invoke_live (chiwawa_prims hf) host SM SM' LM).
Qed.
(** dead code with nested blocks, branches out of them, operators on missing operands *)
Definition p_dead l := one [TI32] [TI32] [] [block [] [TI32] ([get 0; CBr 0] ++ l); i32c 1; iadd].
Definition dead_junk := [drop; iadd; block [TI64] [TI64] [CBr 1; drop; loop [] [] [CReturn]]; CCall 0; drop].
Example C37_example : live_mod (p_dead []) (p_dead dead_junk) /\ supported (p_dead []) = true /\ supported (p_dead dead_junk) = true /\
  (exists M, compile (p_dead dead_junk) = Some M /\ small M = true) /\ runm (p_dead dead_junk) 0 [VI32 4] inst0 60 = runm (p_dead []) 0 [VI32 4] inst0 60.
Proof.
  split; [split; [reflexivity|constructor; [|constructor]; cbn; repeat (split; auto); repeat constructor]|].
  split; [reflexivity|]. split; [reflexivity|]. split; [eexists; split; vm_compute; reflexivity|]. vm_compute. reflexivity.
Qed.
