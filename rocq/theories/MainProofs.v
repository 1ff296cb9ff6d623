(** From the file to the report: proofs for Properties_Main.v (no modelled code). *)
From Coq Require Import ZArith List Bool Lia.
From Verif Require Import Word Value Numeric Float Mem MemProofs Store StoreProofs Regs IR Machine Wasm WasmTyping Decoder Check RegsProofs Loc DecodeProofs BasicSim Sim Dyn Restrict WasmPrims PrimFacts Agree Soundness Correct ExecFacts Properties_Exec Runtime SimState RuntimeProofs Properties_Runtime Module ModuleSpec ModuleProofs Properties_Module StaticSpec StaticProofs TotalSpec Total Properties_Total Load LoadSpec LoadProofs ParamProofs.
From Coq Require String.
Import ListNotations.
Open Scope nat_scope.

Lemma funcs_shape SM M : compile SM = Some M -> length (md_funcs M) = length (sm_funcs SM).
Proof.
  intros H. destruct (C51_shape SM M H) as [F _]. induction F; cbn; auto.
Qed.
Lemma wasi_flat fs : wasi_imports fs = flat_map (fun f => match f with SWasi w t => [ImWasi w t] | SWasm _ => [] end) fs.
Proof. reflexivity. Qed.
Lemma wasi_only_imports fs : wasi_only (wasi_imports fs) (map (fun i => match i with ImWasi w t => FWasi w t | _ => FWasi 0 ([], []) end) (wasi_imports fs)).
Proof.
  induction fs as [|[d|w t] fs IH]; cbn; [constructor|exact IH|]. constructor; [reflexivity|exact IH].
Qed.
Lemma shell_valid W gs M fds : sound W gs -> compile (w_code W) = Some M ->
  md_funcs M = map (fun i => match i with ImWasi w t => FWasi w t | _ => FWasi 0 ([], []) end) (wasi_imports (sm_funcs (w_code W))) ++ map FWasm fds ->
  ModuleSpec.valid (with_code W fds) (md_funcs M) gs.
Proof.
  intros [_ V _ _] C E. pose proof (funcs_shape _ _ C) as L. destruct V as [V1 V2 V3 V4 V5 V6 V7 V8 V9]. rewrite map_length, <- L in *.
  split; auto. eexists. split; [apply wasi_only_imports|exact E].
Qed.
Lemma instance_loaded sg W gs F M : presents sg W F -> sound W gs -> handled W -> compile (w_code W) = Some M ->
  exists I fds, instance sg F = Some I /\ instance_of (with_code W fds) (md_funcs M) gs I /\ mi_modul I = M.
Proof.
  intros P S H C. destruct (load_complete sg W F M P C) as (m & fds & L & T & FM & TM).
  pose proof (shell_valid W gs M fds S C FM) as V. destruct H as [H1 H2 H3 H4]. destruct S as [_ _ SL _].
  destruct (C32_instance_partial (with_code W fds) (md_funcs M) gs V H1 H2 H3 SL) as (I & EI & IO).
  exists I, fds. split; [|split; [exact IO|]].
  - unfold instance. rewrite L, T, EI. reflexivity.
  - destruct IO as [A B _ _ _ _ _]. destruct (mi_modul I) as [fs ts], M as [fs' ts']. cbn in *. congruence.
Qed.

Lemma start_of SM M s f d args : compile SM = Some M -> nth_error (sm_funcs SM) f = Some (SWasm d) -> length args = length (fst (sf_type d)) ->
  exists st, start M s f args = Ok st.
Proof.
  intros C N L. destruct (C51_shape SM M C) as [F _].
  assert (G : exists e, nth_error (md_funcs M) f = Some (FWasm e) /\ fd_type e = sf_type d).
  { clear C. revert f N. induction F as [|a b la lb H F IH]; intros [|f] N; try discriminate; cbn [nth_error] in N |- *.
    - injection N as ->. destruct b as [e|w t]; cbn in H; [|contradiction]. exists e. tauto.
    - now apply IH. }
  destruct G as (e & G & T). unfold start. rewrite G, T, L, Nat.eqb_refl. eauto.
Qed.
Lemma report_observe r o : observe r = Some o -> handle_result r = reported o.
Proof. destruct r; cbn; intros H; try discriminate; injection H as <-; reflexivity. Qed.
Lemma reported_erase o : reported (erase_out o) = reported o.
Proof. destruct o; reflexivity. Qed.
Lemma handled_observe r : handle_result r <> Running -> (forall st, r <> RCheckpoint st) -> exists o, observe r = Some o.
Proof. destruct r; cbn; intros H K; eauto; [congruence|now destruct (K st)]. Qed.
Lemma reported_ne o : reported o <> Running.
Proof. destruct o; discriminate. Qed.

(** the program as the machine runs it: [main] reports the outcomes of the machine *)
Theorem main_machine hf sg ff E D cr W gs F name f d args ss :
  presents sg W F -> sound W gs -> handled W -> Forall one_result (sm_funcs (w_code W)) -> Restrict.within (w_code W) = true ->
  forallb (modest (w_code W)) (sm_funcs (w_code W)) = true ->
  (cr = false \/ forall t, request E t = false) ->
  In (name, ExFunc f) (w_exports W) -> nth_error (sm_funcs (w_code W)) f = Some (SWasm d) ->
  Forall2 has_type (fst (sf_type d)) args -> Forall2 (written ff) args ss ->
  exists I fds M c0, instance sg F = Some I /\ instance_of (with_code W fds) (md_funcs M) gs I /\
    compile (w_code W) = Some M /\ Check.small M = true /\ initial M (mi_inst I) f args = Ok c0 /\ c_log c0 = [] /\
    forall host r, r <> Running ->
      ((exists k n, main hf host sg ff E D cr k n F name ss = r) <-> (exists m o, steps hf host M m c0 = inr o /\ r = reported o)).
Proof.
  intros P S H O WI MD Q EX N TA WR. pose proof (so_code _ _ S) as V.
  destruct (C42_modest _ V O (within_known _ WI) MD) as (M & C & Sm).
  destruct (instance_loaded sg W gs F M P S H C) as (I & fds & EI & IO & EM).
  assert (EF : get_export_func I name = Some f) by (apply (io_exports _ _ _ _ IO (so_names _ _ S)); exact EX).
  assert (PA : parse_params ff ss = Some args).
  { apply parse_written_all; auto. clear -TA. induction TA as [|? ? ? ? [? ?]]; constructor; auto. }
  assert (LA : length args = length (fst (sf_type d))) by (symmetry; clear -TA; induction TA; cbn; auto).
  destruct (start_of _ _ (mi_inst I) _ _ _ C N LA) as (st & ST).
  pose proof (C41_start M (mi_inst I) f args) as SI. rewrite ST in SI. destruct (initial M (mi_inst I) f args) as [c0| |] eqn:I0; try contradiction.
  exists I, fds, M, c0. repeat (split; [solve [auto]|]). split.
  { unfold initial in I0. destruct (nth_error (md_funcs M) f) as [[fd|]|]; try discriminate. destruct (Nat.eqb _ _); [|discriminate]. now injection I0 as <-. }
  intros host r NR.
  assert (MA : forall k n, main hf host sg ff E D cr k n F name ss = handle_result (run hf host M E D cr k n st)).
  { intros k n. unfold main. rewrite EI, EF, PA, EM, ST. reflexivity. }
  pose proof (C41_dispatcher hf host _ M (mi_inst I) f args c0 st E D cr C I0 ST Q) as DI.
  assert (NC : forall k n st', run hf host M E D cr k n st <> RCheckpoint st').
  { intros k n st'. apply run_quiet; [|exact Q]. apply armed_flags; [|exact Q].
    unfold start in ST. destruct (nth_error (md_funcs M) f) as [[fd|]|]; try discriminate. destruct (Nat.eqb _ _); [|discriminate]. injection ST as <-. repeat constructor. }
  split.
  - intros (k & n & K). rewrite MA in K. destruct (handled_observe (run hf host M E D cr k n st)) as (o & OB); [congruence|apply NC|].
    pose proof (report_observe _ _ OB) as R. rewrite K in R.
    destruct (proj2 (DI o)) as (m & o' & SS & EO); [eauto|]. exists m, o'. split; auto. rewrite R, <- EO. apply reported_erase.
  - intros (m & o & SS & ->). destruct (proj1 (DI (erase_out o))) as (k & n' & OB); [eauto|].
    exists k, n'. rewrite MA. rewrite (report_observe _ _ OB). apply reported_erase.
Qed.

Theorem end_to_end hf host sg ff E D cr W gs F name f d args ss :
  presents sg W F -> sound W gs -> handled W -> Forall one_result (sm_funcs (w_code W)) -> Restrict.within (w_code W) = true ->
  forallb (modest (w_code W)) (sm_funcs (w_code W)) = true ->
  (cr = false \/ forall t, request E t = false) ->
  In (name, ExFunc f) (w_exports W) -> nth_error (sm_funcs (w_code W)) f = Some (SWasm d) ->
  Forall2 has_type (fst (sf_type d)) args -> Forall2 (written ff) args ss ->
  exists I fds fs, instance sg F = Some I /\ instance_of (with_code W fds) fs gs I /\
    ((forall n, clear hf host (w_code W) n f args (mi_inst I)) ->
     forall r, r <> Running ->
      ((exists k n, main hf host sg ff E D cr k n F name ss = r) <->
       (exists n o, as_outcome (invoke (wasm_prims hf) host (w_code W) n f args (mi_inst I)) = Some o /\ r = reported o))).
Proof.
  intros P S H O WI MD Q EX N TA WR. pose proof (so_code _ _ S) as V.
  destruct (main_machine hf sg ff E D cr W gs F name f d args ss P S H O WI MD Q EX N TA WR) as (I & fds & M & c0 & EI & IO & C & Sm & I0 & _ & MM).
  exists I, fds, (md_funcs M). split; auto. split; auto. intros CL r NR.
  destruct (C23_termination_partial hf host _ M V WI C Sm f d args (mi_inst I) N TA CL) as (c1 & I1 & T).
  assert (c1 = c0) by congruence. subst c1. rewrite (MM host r NR). split.
  - intros (m & o & SS & ->). destruct (proj1 (T o)) as (n & IN); eauto.
  - intros (n & o & IN & ->). destruct (proj2 (T o)) as (m & SS); eauto.
Qed.

