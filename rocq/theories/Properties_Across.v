(** Property theorems C72, continued: the whole command, its processes on different machines. *)
From Coq Require Import String ZArith List Bool Lia.
From Verif Require Import Word Value Float Mem WasmMem Store Regs IR Machine Wasm WasmTyping Decoder Check Restrict WasmPrims PrimFacts Soundness Correct ExecFacts Examples
  Properties_Exec Layout Properties_Layout Runtime SimState RuntimeProofs MigrationProofs Properties_Runtime Args ArgsSpec Properties_Args Wasi WasiSpec Module ModuleSpec StaticSpec TotalSpec Properties_Total Load LoadSpec LoadProofs MainProofs Properties_Main
  WorldSpec World WorldProofs Properties_World TraceSpec TraceProofs Properties_Trace EmitTyped RangeProofs Codec CodecProofs FileSpec EmitProofs FileProofs WholeProofs Properties_Whole MoveProofs Properties_Move Accept Program Properties_Program BoundsSpec Bounds Properties_Bounds
  WasmNum WasmFloat RoundSpec NanSpec PortProofs Ieee RoundProofs Properties_Ieee Properties_Port.
Import ListNotations.
Open Scope nat_scope.
Local Open Scope string_scope.
Local Open Scope list_scope.

Section Across.
  Variables (hf : hostfp) (host : hostfn) (sg : nat -> ftype) (ff : cls -> list Z -> option Z) (z : lz4).
  Variables (W : wmodule) (gs : list val) (F : list payload) (name : String.string) (f : nat) (d : sfdef) (args : list val) (ss : list (list Z)).
  Hypotheses (Z : lossless z) (P : LoadSpec.presents sg W F) (S : LoadSpec.sound W gs) (H : handled W) (O : Forall one_result (sm_funcs (w_code W))).
  Hypotheses (WI : known_module (w_code W) = true) (MD : forallb (modest (w_code W)) (sm_funcs (w_code W)) = true).
  Hypotheses (EX : In (name, ExFunc f) (w_exports W)) (N : nth_error (sm_funcs (w_code W)) f = Some (SWasm d)).
  Hypotheses (TA : Forall2 has_type (fst (sf_type d)) args) (WR : Forall2 (written ff) args ss).
  Hypotheses (HF : hostfp_ok hf) (HO : host_ok host) (IR : FileSpec.in_range W gs) (MV : movable (w_code W) gs host).
  Hypothesis S1 : standard_fp hf.
  Hypothesis NF : forall I c0, instance sg F = Some I -> initial (mi_modul I) (mi_inst I) f args = Ok c0 -> nan_free hf host (mi_modul I) c0.
  (** where a process begins does not depend on its machine *)
  Lemma session_begins how : history hf host sg ff z F name ss how -> exists I M st0 st, instance sg F = Some I /\ mi_modul I = M /\ compile (w_code W) = Some M /\
    start M (mi_inst I) f args = Ok st0 /\ migrated hf host M (mi_inst I) st0 st /\
    forall hf' E D cr k n, session hf' host sg ff z how E D cr k n F name ss = inr (run hf' host M E D cr k n st).
  Proof.
    intros HI. destruct how as [|b log t].
    - destruct (fresh_session hf host sg ff z W gs F name f d args ss P S H O WI MD EX N TA WR) as (I & M & st0 & EI & EM & C & ST & _ & _).
      exists I, M, st0, st0. repeat (split; [solve [auto]|]). split; [constructor|]. intros hf' E D cr k n.
      destruct (fresh_session hf' host sg ff z W gs F name f d args ss P S H O WI MD EX N TA WR) as (I' & M' & st0' & EI' & EM' & C' & ST' & _ & SE).
      rewrite EI in EI'. injection EI' as <-. assert (QM : M' = M) by congruence. rewrite QM in *. clear M' QM EM'. assert (st0' = st0) by congruence. subst st0'. apply SE.
    - destruct (history_last hf host sg ff z W gs F name f d args ss Z P S H O WI MD EX N TA WR HF HO IR MV b log t HI) as (I & M & st0 & st & g & EI & EM & C & ST & MG & RS & RB).
      assert (SAME : st = restart log t st) by (pose proof (restore_restart _ _ _ _ _ _ log t RS) as X; rewrite RS in X; congruence).
      exists I, M, st0, st. repeat (split; [solve [auto]|]). intros hf' E D cr k n. unfold session. rewrite EI, EM, RB, <- SAME. reflexivity.
  Qed.
  Lemma session_same how : history hf host sg ff z F name ss how -> forall hf' E D cr k n, standard_fp hf' ->
    session hf' host sg ff z how E D cr k n F name ss = session hf host sg ff z how E D cr k n F name ss.
  Proof.
    intros HI hf' E D cr k n S2. destruct (session_begins how HI) as (I & M & st0 & st & EI & EM & C & ST & MG & SE). rewrite !SE. f_equal.
    pose proof (compile_ok _ _ C) as MO. destruct (start_initial _ _ _ _ _ ST) as (c0 & I0 & RL0).
    destruct (migrated_rel _ _ _ _ _ _ _ _ _ MO ST I0 MG) as (j & c & SJ & RL & _).
    pose proof (module_fines _ _ C (ir_consts _ _ IR)) as FM.
    assert (AO : Forall val_ok args) by (clear -TA; induction TA as [|? ? ? ? [? ?]]; constructor; auto).
    pose proof (initial_good _ _ _ _ _ AO (instance_iok sg W gs F M I P S H IR C EI) I0) as G0.
    subst M. apply (run_agree hf hf' host (mi_modul I) E D S1 S2 HF HO MO FM cr k n st c RL).
    - exact (levels_steps hf host (mi_modul I) MO _ _ _ (levels_initial _ _ _ _ _ MO I0) SJ).
    - exact (cgood_steps hf host (mi_modul I) HF HO FM _ _ _ G0 SJ).
    - exact (nan_free_steps hf host (mi_modul I) _ _ _ (NF I c0 EI I0) SJ).
  Qed.
  Lemma across_history how : across host sg ff z F name ss how -> history hf host sg ff z F name ss how.
  Proof.
    induction 1 as [|hf1 E D k n how st b SF A IH SS CB SB]; [constructor|]. econstructor; [exact IH| |exact CB|exact SB].
    rewrite <- (session_same how IH hf1 E D true k n SF). exact SS.
  Qed.
End Across.
(** The processes of a program that makes no NaN write the same files and report the same on whatever machines they
    run: each of them is, schedule by schedule, what it is on the first machine.  (Conditions as in C59.) *)
Theorem C72_processes : forall hf host sg ff z W gs F name f d args ss how,
  lossless z -> LoadSpec.presents sg W F -> LoadSpec.sound W gs -> handled W -> Forall one_result (sm_funcs (w_code W)) -> known_module (w_code W) = true ->
  forallb (modest (w_code W)) (sm_funcs (w_code W)) = true ->
  In (name, ExFunc f) (w_exports W) -> nth_error (sm_funcs (w_code W)) f = Some (SWasm d) ->
  Forall2 has_type (fst (sf_type d)) args -> Forall2 (written ff) args ss -> FileSpec.in_range W gs -> hostfp_ok hf -> host_ok host -> movable (w_code W) gs host ->
  standard_fp hf -> (forall I c0, instance sg F = Some I -> initial (mi_modul I) (mi_inst I) f args = Ok c0 -> nan_free hf host (mi_modul I) c0) ->
  across host sg ff z F name ss how ->
  history hf host sg ff z F name ss how /\
  forall hf' E D cr k n, standard_fp hf' ->
    command hf' host sg ff z how E D cr k n F name ss = command hf host sg ff z how E D cr k n F name ss /\
    saves hf' host sg ff z how E D cr k n F name ss = saves hf host sg ff z how E D cr k n F name ss.
Proof.
  intros hf host sg ff z W gs F name f d args ss how Z P S H O KN MD EX N TA WR IR HF HO MV S1 NF A.
  assert (HI : history hf host sg ff z F name ss how) by (eapply across_history; eauto). split; [exact HI|]. intros hf' E D cr k n S2.
  pose proof (session_same hf host sg ff z W gs F name f d args ss Z P S H O KN MD EX N TA WR HF HO IR MV S1 NF how HI hf' E D cr k n S2) as X.
  unfold command, saves. now rewrite X.
Qed.
Print Assumptions C72_processes.
(** A file that passes the check, on a WASI host: in the end the process on the last machine reports what the standard
    prescribes for the first (C70_command). *)
Theorem C72_command : forall F W gs, admit_moved expected_type F = Some (W, gs) -> steady F W = true ->
  forall hf sys file l env ff z name f d args ss how,
  hostfp_ok hf -> polite sys -> byte_replies sys -> lossless z ->
  line_ok l -> Forall bytes_ok (file :: line_texts l) -> Forall bytes_ok env ->
  let words := file :: filter nonempty (line_texts l) in
  (total words < 2 ^ 31)%Z -> (total env < 2 ^ 31)%Z ->
  In (name, ExFunc f) (w_exports W) -> nth_error (sm_funcs (w_code W)) f = Some (SWasm d) ->
  Forall2 has_type (fst (sf_type d)) args -> Forall2 (written ff) args ss ->
  let host := passthrough sys (argv file (Some (line_src l))) env in
  standard_fp hf -> (forall I c0, instance expected_type F = Some I -> initial (mi_modul I) (mi_inst I) f args = Ok c0 -> nan_free hf host (mi_modul I) c0) ->
  across host expected_type ff z F name ss how ->
  exists I fds fs, instance expected_type F = Some I /\ instance_of (with_code W fds) fs gs I /\
    forall n o, as_outcome (invoke (below_2GiB (wasm_prims hf)) (direct sys words env) (w_code W) n f args (mi_inst I)) = Some o -> ~ at_bound o ->
      Forall (WorldSpec.proper words env) (calls_of o) ->
      forall hf' E D r, standard_fp hf' -> r <> Running ->
        ((exists k n, command hf' host expected_type ff z how E D false k n F name ss = r) <-> r = reported o).
Proof.
  intros F W gs A ST hf sys file l env ff z name f d args ss how HF PS BS Z LO BW BE words TW TE EX N TA WR host S1 NF AC.
  destruct (admit_moved_sound _ _ _ _ A) as ([P S H O WI MD IR] & CM & GR).
  assert (EW : argv file (Some (line_src l)) = words) by (apply C33_argv; auto).
  assert (BA : Forall bytes_ok words).
  { inversion BW as [|? ? B1 B2]; subst. constructor; auto. apply Forall_forall. intros x I. apply filter_In in I as [I _]. rewrite Forall_forall in B2. auto. }
  assert (PO : host_ok host /\ movable (w_code W) gs host).
  { unfold host. rewrite EW. pose proof (passthrough_ok sys words env BS BA BE) as PO. split.
    - intros log o ws X. destruct (PO log o ws X) as [V B]. split; auto. intros v Y. apply (V v Y).
    - split; auto. intros log v ws X r ->. destruct (PO log _ ws X) as [V _]. destruct (V _ eq_refl) as [_ K]. discriminate K. }
  destruct PO as [HO MV].
  destruct (C72_processes hf host expected_type ff z W gs F name f d args ss how Z P S H O (within_known _ WI) MD EX N TA WR IR HF HO MV S1 NF AC) as [HI SAME].
  destruct (C70_command F W gs A ST hf sys file l env ff z never TailCall name f d args ss how HF PS BS Z LO BW BE TW TE EX N TA WR HI) as (I & fds & fs & EI & IO & _).
  exists I, fds, fs. split; auto. split; auto. intros n o R NB PR hf' E D r S2 NR.
  destruct (C70_command F W gs A ST hf sys file l env ff z E D name f d args ss how HF PS BS Z LO BW BE TW TE EX N TA WR HI) as (I' & fds' & fs' & EI' & _ & K).
  rewrite EI in EI'. injection EI' as <-. rewrite <- (K n o R NB PR r NR). fold host.
  split; intros (k & m & X); exists k, m; [rewrite <- X; symmetry | rewrite <- X]; now apply SAME.
Qed.
Print Assumptions C72_command.

(** ** ten times 0.1, from a file, stopped on the second machine and continued on the first *)
Definition W3 : wmodule :=
  {| w_code := {| sm_types := [([TI32], [TF64])]; sm_funcs := [p_tenths] |};
     w_tables := []; w_mem := None; w_globals := []; w_elems := []; w_datas := []; w_exports := [("tenths", ExFunc 0)]; w_start := None |}.
Definition F3 : list payload :=
  [PVersion 1; PTypes (items [([TI32], [TF64])]); PFuncs (items [0]); PExports (items (w_exports W3)); PCode (body p_tenths)].
Definition ten : list (list Z) := [[73; 51; 50; 40; 49; 48; 41]%Z].
Definition host3 : hostfn := passthrough sys1 words_hi [].
Definition st3 : rstate := Eval vm_compute in
  match session other host3 expected_type ff0 zl Fresh (asked 40 true) LoopStyle true 60 60 F3 "tenths" ten with
  | inr (RCheckpoint st) => st
  | _ => {| r_rf := RF (Six [] [] [] [] [] []) [] (Six 0 0 0 0 0 0); r_frames := []; r_inst := inst0; r_log := []; r_t := 0 |}
  end.
Definition b3 : list Z := Eval vm_compute in match checkpoint_bytes zl st3 with Some b => b | None => [] end.
Lemma st3_stopped : across host3 expected_type ff0 zl F3 "tenths" ten (From b3 [] 41).
Proof.
  refine (ANext host3 expected_type ff0 zl F3 "tenths" ten other (asked 40 true) LoopStyle 60 60 Fresh st3 b3 other_standard (AFresh _ _ _ _ _ _ _) _ _ _); vm_compute; reflexivity.
Qed.
Example C72_command_example : admit_moved expected_type F3 = Some (W3, []) /\ steady F3 W3 = true /\ standard_fp ieee /\ standard_fp other /\
  (forall I c0, instance expected_type F3 = Some I -> initial (mi_modul I) (mi_inst I) 0 [VI32 10] = Ok c0 -> nan_free ieee host3 (mi_modul I) c0) /\
  across host3 expected_type ff0 zl F3 "tenths" ten (From b3 [] 41) /\
  command ieee host3 expected_type ff0 zl (From b3 [] 41) never TailCall false 200 60 F3 "tenths" ten = Exit 0 [MResult (VF64 4607182418800017407)] [].
Proof.
  split; [vm_compute; reflexivity|]. split; [vm_compute; reflexivity|]. split; [exact ieee_standard|]. split; [exact other_standard|]. split; [|split; [exact st3_stopped | vm_compute; reflexivity]].
  intros I c0 EI IN. vm_compute in EI. injection EI as <-. vm_compute in IN. injection IN as <-. apply (clean_ok _ _ _ 200). vm_compute. reflexivity.
Qed.
