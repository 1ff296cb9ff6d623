(** C59-C62: checkpoint files. *)
From Coq Require Import String ZArith List Bool Lia.
From Verif Require Import Word Value Float Mem WasmMem Store Regs IR Machine Wasm WasmTyping Decoder Check Restrict WasmPrims PrimFacts Soundness Correct ExecFacts Examples Runtime RuntimeProofs MigrationProofs Properties_Runtime Module ModuleSpec StaticSpec TotalSpec Properties_Total Load LoadSpec LoadProofs MainProofs Properties_Main Codec CodecProofs FileSpec EmitProofs FileProofs.
Import ListNotations.
Open Scope nat_scope.
Local Open Scope string_scope.
Local Open Scope list_scope.

(** ** C59: a checkpoint file restores what was written *)
(** Reading a checkpoint file back gives the machine state that restoring the unwritten image gives, in every
    module and instance, whatever bytes follow it in the file. *)
Theorem C59_read_back : forall z st b, lossless z -> state_ok st -> checkpoint_bytes z st = Some b -> short b ->
  bytes_ok b /\ exists g, checkpoint st = Some g /\
  forall M s r log t st', restore_bytes z M s (b ++ r) log t = Resumed st' <-> restore M s g log t = Some st'.
Proof.
  intros z st b Z S C SB. split; [destruct (bytes_file _ _ _ C) as (g & _ & <-); apply file_good|].
  destruct (read_back z st b Z S C SB) as (g & CK & H). exists g. split; auto. intros M s r log t st'. specialize (H M s r log t).
  destruct (restore M s g log t) as [x|]; [rewrite H; split; intros E; [injection E as <-|injection E as <-]; reflexivity|].
  destruct H as [H|H]; rewrite H; split; intros E; discriminate E.
Qed.
(** Different states have different files. *)
Theorem C59_distinct : forall z st st' b, lossless z -> state_ok st -> state_ok st' -> short b ->
  checkpoint_bytes z st = Some b -> checkpoint_bytes z st' = Some b -> checkpoint st = checkpoint st'.
Proof.
  intros z st st' b Z S S' SB C C'. destruct (bytes_file _ _ _ C) as (g & CK & E). destruct (bytes_file _ _ _ C') as (g' & CK' & E').
  assert (X : Some (file_of z g, @nil BinNums.Z) = Some (file_of z g', [])).
  { rewrite <- (g_round _ file_good _ [] (file_fits z st b g Z S CK E SB)), <- (g_round _ file_good _ [] (file_fits z st' b g' Z S' CK' E' SB)). now rewrite E, E'. }
  assert (Y : file_of z g = file_of z g') by congruence. rewrite CK, CK'. f_equal.
  rewrite <- (image_back z st g Z S CK), <- (image_back z st' g' Z S' CK'). now rewrite Y.
Qed.
(** The program run in any number of processes, each stopped at any point by a request and the next one
    begun with the file it left, reports in the end what it reports when never stopped, and ends iff it then
    ends.  Missing: programs that use table.get, table.set, table.fill or data.drop ([movable]; false there:
    C29), and open files (C63). *)
Theorem C59_processes_partial : forall hf host sg ff z W gs F name f d args ss how E D E' D',
  lossless z -> presents sg W F -> sound W gs -> handled W -> Forall one_result (sm_funcs (w_code W)) -> known_module (w_code W) = true ->
  forallb (modest (w_code W)) (sm_funcs (w_code W)) = true ->
  In (name, ExFunc f) (w_exports W) -> nth_error (sm_funcs (w_code W)) f = Some (SWasm d) ->
  Forall2 has_type (fst (sf_type d)) args -> Forall2 (written ff) args ss -> in_range W gs -> hostfp_ok hf -> host_ok host -> movable (w_code W) gs host ->
  history hf host sg ff z F name ss how ->
  forall r, r <> Running ->
    (exists k n, main hf host sg ff E D false k n F name ss = r) <-> (exists k n, command hf host sg ff z how E' D' false k n F name ss = r).
Proof. intros. eapply history_report; eauto. Qed.
(** ... and that is what the standard says it reports *)
Theorem C59_end_to_end_partial : forall hf host sg ff z W gs F name f d args ss how E D,
  lossless z -> presents sg W F -> sound W gs -> handled W -> Forall one_result (sm_funcs (w_code W)) -> Restrict.within (w_code W) = true ->
  forallb (modest (w_code W)) (sm_funcs (w_code W)) = true ->
  In (name, ExFunc f) (w_exports W) -> nth_error (sm_funcs (w_code W)) f = Some (SWasm d) ->
  Forall2 has_type (fst (sf_type d)) args -> Forall2 (written ff) args ss -> in_range W gs -> hostfp_ok hf -> host_ok host -> movable (w_code W) gs host ->
  history hf host sg ff z F name ss how ->
  exists I fds fs, instance sg F = Some I /\ instance_of (with_code W fds) fs gs I /\
    ((forall n, clear hf host (w_code W) n f args (mi_inst I)) ->
     forall r, r <> Running ->
      ((exists k n, command hf host sg ff z how E D false k n F name ss = r) <->
       (exists n o, as_outcome (invoke (wasm_prims hf) host (w_code W) n f args (mi_inst I)) = Some o /\ r = reported o))).
Proof.
  intros hf host sg ff z W gs F name f d args ss how E D Z P S H O WI MD EX N TA WR IR HF HO MV HI.
  destruct (C56_end_to_end_partial hf host sg ff E D false W gs F name f d args ss P S H O WI MD (or_introl eq_refl) EX N TA WR) as (I & fds & fs & EI & IO & T).
  exists I, fds, fs. split; auto. split; auto. intros CL r NR. rewrite <- (T CL r NR). symmetry.
  eapply history_report; eauto using within_known.
Qed.

(** Whatever the program and wherever it is stopped, in whichever process: what there is to save is what a
    checkpoint file can hold ([state_ok]), so that the theorems above apply to every checkpoint.  For all
    programs, also those that can not be moved, in the first process. *)
Theorem C59_states : forall hf host sg ff z W gs F name f d args ss E D cr k n st,
  presents sg W F -> sound W gs -> handled W -> Forall one_result (sm_funcs (w_code W)) -> known_module (w_code W) = true ->
  forallb (modest (w_code W)) (sm_funcs (w_code W)) = true ->
  In (name, ExFunc f) (w_exports W) -> nth_error (sm_funcs (w_code W)) f = Some (SWasm d) ->
  Forall2 has_type (fst (sf_type d)) args -> Forall2 (written ff) args ss -> in_range W gs -> hostfp_ok hf -> host_ok host ->
  session hf host sg ff z Fresh E D cr k n F name ss = inr (RCheckpoint st) -> state_ok st.
Proof.
  intros hf host sg ff z W gs F name f d args ss E D cr k n st P S H O KN MD EX N TA WR IR HF HO SS.
  destruct (fresh_session hf host sg ff z W gs F name f d args ss P S H O KN MD EX N TA WR) as (I & M & st0 & EI & EM & C & ST & EG & SE).
  rewrite SE in SS. injection SS as SS. eapply fresh_good; eauto. constructor.
Qed.
Theorem C59_later_states_partial : forall hf host sg ff z W gs F name f d args ss how E D cr k n st,
  lossless z -> presents sg W F -> sound W gs -> handled W -> Forall one_result (sm_funcs (w_code W)) -> known_module (w_code W) = true ->
  forallb (modest (w_code W)) (sm_funcs (w_code W)) = true ->
  In (name, ExFunc f) (w_exports W) -> nth_error (sm_funcs (w_code W)) f = Some (SWasm d) ->
  Forall2 has_type (fst (sf_type d)) args -> Forall2 (written ff) args ss -> in_range W gs -> hostfp_ok hf -> host_ok host -> movable (w_code W) gs host ->
  history hf host sg ff z F name ss how ->
  session hf host sg ff z how E D cr k n F name ss = inr (RCheckpoint st) -> state_ok st.
Proof.
  intros hf host sg ff z W gs F name f d args ss how E D cr k n st Z P S H O KN MD EX N TA WR IR HF HO MV HI SS.
  exact (history_ok hf host sg ff z W gs F name f d args ss Z P S H O KN MD EX N TA WR HF HO IR MV how E D cr k n st HI SS).
Qed.

(** an example: sum(3), stopped in its loop; with a compressor that stores *)
Definition zl : lz4 := {| squeeze := fun m => 0%Z :: m; expand := fun l => match l with 0%Z :: m => Some m | _ => None end |}.
Lemma zl_lossless : lossless zl.
Proof. split; cbn; auto. intros m H. constructor; auto. unfold is_byte. lia. Qed.
Definition three := [[73; 51; 50; 40; 51; 41]%Z].
Definition st_sum : rstate :=
  match session hf0 host1 sg0 ff0 zl Fresh (asked 12 true) LoopStyle true 60 60 F0 "sum" three with
  | inr (RCheckpoint st) => st
  | _ => {| r_rf := RF (Six [] [] [] [] [] []) [] (Six 0 0 0 0 0 0); r_frames := []; r_inst := inst0; r_log := []; r_t := 0 |}
  end.
Definition b_sum : list Z := match checkpoint_bytes zl st_sum with Some b => b | None => [] end.
Lemma st_sum_ok : state_ok st_sum.
Proof.
  assert (E : st_sum = {| r_rf := RF (Six [VI32 0; VI32 1; VI32 0] [] [] [] [] []) [Six 0 0 0 0 0 0] (Six 0 0 0 0 0 0);
    r_frames := [(true, {| f_fn := 1; f_loc := [VI32 1; VI32 6]; f_ptr := None; f_labels := [{| l_loop := true; l_ret := 1; l_ip := 2 |}; {| l_loop := false; l_ret := 0; l_ip := 0 |}];
                           f_ret := []; f_res := []; f_n := 1 |})];
    r_inst := {| i_mem := None; i_globals := [VI32 7]; i_tables := [[RFunc 1; RNull]]; i_datas := [] |}; r_log := []; r_t := 13 |}) by (vm_compute; reflexivity).
  rewrite E. split; cbn.
  - intros []; repeat constructor; cbn; lia.
  - repeat constructor; intros []; cbn; lia.
  - repeat constructor; cbn; try reflexivity; lia.
  - repeat constructor; cbn; lia.
  - discriminate.
Qed.
Lemma w_code0_movable : movable (w_code W0) [VI32 7] host1.
Proof.
  split; [vm_compute; reflexivity|repeat constructor; discriminate|]. intros log v ws H. unfold host1 in H.
  destruct log as [|[[w a] m] log]; [discriminate|]. destruct a as [|[] [|]]; discriminate.
Qed.
Lemma W0_range : in_range W0 [VI32 7].
Proof.
  split; [vm_compute; reflexivity|repeat constructor; cbn; lia|constructor|reflexivity|].
  intros d [H|[H|[H|[]]]]; try discriminate H; injection H as <-; split; reflexivity.
Qed.
Lemma host1_ok : host_ok host1.
Proof. intros log o ws H. unfold host1 in H. destruct log as [|[[w a] m] log]; [discriminate H|]. destruct a as [|[] [|]]; discriminate H. Qed.
Example C59_example : in_range W0 [VI32 7] /\ hostfp_ok hf0 /\ host_ok host1 /\ history hf0 host1 sg0 ff0 zl F0 "sum" three (From b_sum [] 13) /\ movable (w_code W0) [VI32 7] host1 /\ length b_sum = 262 /\
  command hf0 host1 sg0 ff0 zl (From b_sum [] 13) E0 TailCall false 60 60 F0 "sum" three = Exit 0 [MResult (VI32 6)] [].
Proof.
  split; [exact W0_range|]. split; [exact hf0_ok|]. split; [exact host1_ok|]. split; [|split; [exact w_code0_movable|split; vm_compute; reflexivity]].
  refine (HNext hf0 host1 sg0 ff0 zl F0 "sum" three Fresh (asked 12 true) LoopStyle 60 60 st_sum b_sum (HFresh _ _ _ _ _ _ _ _) _ _ _); vm_compute; reflexivity.
Qed.

(** ** C60: a crash while a checkpoint is written *)
(** A checkpoint file that is cut short anywhere is refused; the program is not resumed. *)
Theorem C60_cut : forall z st b p q, lossless z -> state_ok st -> checkpoint_bytes z st = Some b -> short b -> b = p ++ q -> q <> [] ->
  forall hf host sg ff E D cr k n F name ss log t, instance sg F <> None ->
    command hf host sg ff z (From p log t) E D cr k n F name ss = Exit 1 [MRestore] [].
Proof.
  intros z st b p q Z S C SB EQ NE hf host sg ff E D cr k n F name ss log t NI. unfold command, session.
  destruct (instance sg F) as [x|]; [|easy]. now rewrite (cut_refused z st b p q Z S C SB EQ NE).
Qed.
(** So after a crash at any point of writing a checkpoint over an old one the file is the old checkpoint, the
    new one, or one that is refused.  Missing: that one of the two checkpoints survives (refuted). *)
Theorem C60_crash_partial : forall z st b old x, lossless z -> state_ok st -> checkpoint_bytes z st = Some b -> short b -> left_by_crash old b (Some x) ->
  old = Some x \/ x = b \/
  forall hf host sg ff E D cr k n F name ss log t, instance sg F <> None ->
    command hf host sg ff z (From x log t) E D cr k n F name ss = Exit 1 [MRestore] [].
Proof.
  intros z st b old x Z S C SB L. inversion L as [H|p q EQ H]; subst; auto. destruct q as [|c q]; [right; left; now rewrite app_nil_r|].
  right. right. intros. eapply C60_cut; eauto. discriminate.
Qed.
(** The old checkpoint is lost before the new one is there: there is always a moment at which a crash leaves
    a file from which neither can be resumed. *)
Theorem C60_lost_refuted : forall z old b, left_by_crash (Some old) b (Some []) /\
  forall hf host sg ff E D cr k n F name ss log t, instance sg F <> None ->
    command hf host sg ff z (From [] log t) E D cr k n F name ss = Exit 1 [MRestore] [].
Proof.
  intros z old b. split; [now apply (LPart _ _ [] b)|]. intros. unfold command, session. destruct (instance sg F) as [x|]; [reflexivity|easy].
Qed.
Example C60_example : left_by_crash (Some b_sum) b_sum (Some (firstn 100 b_sum)) /\ instance sg0 F0 <> None /\
  command hf0 host1 sg0 ff0 zl (From (firstn 100 b_sum) [] 13) E0 LoopStyle false 60 60 F0 "sum" three = Exit 1 [MRestore] [].
Proof.
  split; [apply (LPart _ _ _ (skipn 100 b_sum)); symmetry; apply firstn_skipn|]. split; [|vm_compute; reflexivity].
  intros H. assert (K : match instance sg0 F0 with Some _ => true | None => false end = true) by (vm_compute; reflexivity). rewrite H in K. discriminate K.
Qed.

(** ** C61: a checkpoint that is not one of this program is refused *)
(** What is resumed at all is the encoding of some machine state, of which there is one. *)
Theorem C61_decoded_partial : forall z M s b log t st, bytes_ok b -> restore_bytes z M s b log t = Resumed st ->
  exists f r, fits c_file f /\ b = put c_file f ++ r /\ forall f' r', fits c_file f' -> b = put c_file f' ++ r' -> f' = f.
Proof.
  intros z M s b log t st B R. unfold restore_bytes in R. destruct (get c_file b) as [[f r]|] eqn:G; [|discriminate]. exists f, r.
  destruct (g_canon _ file_good _ _ _ B G) as (F & EQ). split; auto. split; auto. intros f' r' F' EQ'.
  rewrite EQ', (g_round _ file_good _ _ F') in G. congruence.
Qed.
(** But one wrong byte goes unnoticed, and the program reports a wrong result ... *)
Definition wrong_byte (n : nat) (x : Z) (b : list Z) : list Z := firstn n b ++ x :: skipn (S n) b.
Lemma wrong_damaged n x b y : nth_error b n = Some y -> is_byte x -> y <> x -> damaged b (wrong_byte n x b).
Proof.
  intros N B D. exists (firstn n b), y, x, (skipn (S n) b). split; [|split; [reflexivity|auto]].
  clear D B. revert n N. induction b as [|a b IH]; intros [|n] N; try discriminate; cbn [firstn skipn app]; [injection N as ->; reflexivity|].
  f_equal. now apply IH.
Qed.
Theorem C61_damage_refuted : exists b', damaged b_sum b' /\
  command hf0 host1 sg0 ff0 zl (From b_sum [] 13) E0 LoopStyle false 60 60 F0 "sum" three = Exit 0 [MResult (VI32 6)] [] /\
  command hf0 host1 sg0 ff0 zl (From b' [] 13) E0 LoopStyle false 60 60 F0 "sum" three = Exit 0 [MResult (VI32 3)] [].
Proof.
  exists (wrong_byte 152 3%Z b_sum). split; [apply (wrong_damaged _ _ _ 6%Z); [vm_compute; reflexivity|unfold is_byte; lia|discriminate]|].
  split; vm_compute; reflexivity.
Qed.
(** ... or the interpreter itself leaves its memory *)
Theorem C61_damage_ub_refuted : exists b', damaged b_sum b' /\
  command hf0 host1 sg0 ff0 zl (From b' [] 13) E0 LoopStyle false 60 60 F0 "sum" three = Undefined_behaviour.
Proof.
  exists (wrong_byte 92 3%Z b_sum). split; [apply (wrong_damaged _ _ _ 0%Z); [vm_compute; reflexivity|unfold is_byte; lia|discriminate]|].
  vm_compute; reflexivity.
Qed.
(** ... and bytes after the checkpoint are not looked at. *)
Theorem C61_trailing_refuted : forall z M s b log t st r, restore_bytes z M s b log t = Resumed st -> restore_bytes z M s (b ++ r) log t = Resumed st.
Proof.
  intros z M s b log t st r. unfold restore_bytes. destruct (get c_file b) as [[f q]|] eqn:G; [|discriminate].
  now rewrite (g_more _ file_good _ _ _ r G).
Qed.
(** A checkpoint of another program is resumed: sum's in the middle of product. *)
Definition prod_f : sfunc := func [TI32] [TI32] [TI32] [i32c 1; set 1; loop [] [] [Examples.get 1; Examples.get 0; imul; set 1; Examples.get 0; i32c 1; isub; tee 0; CBrIf 0]; Examples.get 1].
Definition F1 : list payload :=
  [PVersion 1; PTypes (items [ty1; ty2]); PImports (items [WiFunc (Some 0) 0]); PFuncs (items [1]); PExports (items [("sum", ExFunc 1)]); PCode (body prod_f)].
Theorem C61_other_program_refuted : saves hf0 host1 sg0 ff0 zl Fresh (asked 12 true) LoopStyle true 60 60 F0 "sum" three = Some b_sum /\
  (exists v, command hf0 host1 sg0 ff0 zl (From b_sum [] 13) E0 LoopStyle false 60 60 F1 "sum" three = Exit 0 [MResult v] []).
Proof. split; [vm_compute; reflexivity|]. eexists. vm_compute. reflexivity. Qed.
(** Globals are restored only if there are as many of them as in the module; otherwise, with a warning, the
    program goes on with the initial ones. *)
Theorem C61_globals_refuted : forall z M s b log t st f r, restore_bytes z M s b log t = Resumed st -> get c_file b = Some (f, r) ->
  length (i_globals s) <> length (fi_globals f) -> i_globals (r_inst st) = i_globals s.
Proof.
  intros z M s b log t st f r R G N. unfold restore_bytes in R. rewrite G in R.
  destruct (restore M s (image_of z f) log t) as [st'|] eqn:X; [|match type of R with match ?x with _ => _ end = _ => destruct x end; discriminate R].
  destruct (Nat.ltb _ _); [discriminate R|]. injection R as <-. unfold restore in X. cbn [image_of g_mem g_globals] in X.
  assert (K : forall s1, i_globals s1 = i_globals s -> Nat.eqb (length (i_globals s1)) (length (fi_globals f)) = false) by (intros s1 ->; now apply Nat.eqb_neq).
  destruct (i_mem s) as [m|].
  - destruct (expand z (fi_mem f)) as [d|]; [|discriminate]. rewrite K in X by reflexivity.
    destruct (forallb _ _); [|discriminate]. injection X as <-. reflexivity.
  - rewrite K in X by reflexivity. destruct (forallb _ _); [|discriminate]. injection X as <-. reflexivity.
Qed.
Example C61_globals_example : exists st f r, restore_bytes zl (mi_modul I0) {| i_mem := None; i_globals := [VI32 1; VI32 2]; i_tables := []; i_datas := [] |} b_sum [] 13 = Resumed st /\
  get c_file b_sum = Some (f, r) /\ 2 <> length (fi_globals f).
Proof. do 3 eexists. split; [vm_compute; reflexivity|]. split; [vm_compute; reflexivity|vm_compute; discriminate]. Qed.

(** ** C62: asking for a checkpoint does not lose the program *)
(** For movable programs, in whichever process: the run that is stopped leaves a file, and (if its length is one
    the machine can hold) the next process resumes from it. *)
Theorem C62_file_written_partial : forall hf host sg ff z W gs F name f d args ss how E D k n st,
  lossless z -> presents sg W F -> sound W gs -> handled W -> Forall one_result (sm_funcs (w_code W)) -> known_module (w_code W) = true ->
  forallb (modest (w_code W)) (sm_funcs (w_code W)) = true ->
  In (name, ExFunc f) (w_exports W) -> nth_error (sm_funcs (w_code W)) f = Some (SWasm d) ->
  Forall2 has_type (fst (sf_type d)) args -> Forall2 (written ff) args ss -> in_range W gs -> hostfp_ok hf -> host_ok host -> movable (w_code W) gs host ->
  history hf host sg ff z F name ss how ->
  session hf host sg ff z how E D true k n F name ss = inr (RCheckpoint st) ->
  exists b, saves hf host sg ff z how E D true k n F name ss = Some b /\
    command hf host sg ff z how E D true k n F name ss = Exit 0 [MCheckpointed] (r_log st) /\
    (short b -> forall E' D' cr k' n', exists o, session hf host sg ff z (From b (r_log st) (r_t st)) E' D' cr k' n' F name ss = inr o).
Proof.
  intros hf host sg ff z W gs F name f d args ss how E D k n st Z P S H O KN MD EX N TA WR IR HF HO MV HI SS.
  destruct (history_saves hf host sg ff z W gs F name f d args ss Z P S H O KN MD EX N TA WR HF HO IR MV how E D k n st HI SS) as (b & CB).
  exists b. split; [unfold saves; now rewrite SS|]. split.
  - unfold command. rewrite SS. cbn [handle_result]. unfold checkpoint_bytes in CB. destruct (checkpoint st); [reflexivity|discriminate].
  - intros SB E' D' cr k' n'. pose proof (HNext hf host sg ff z F name ss how E D k n st b HI SS CB SB) as HI'.
    destruct (history_state hf host sg ff z W gs F name f d args ss Z P S H O KN MD EX N TA WR HF HO IR MV _ HI') as (I & M & st0 & st1 & _ & _ & _ & _ & _ & _ & _ & SE).
    eexists. apply SE.
Qed.
(** In general it does: a program that has only looked at a function reference is ended by the request, with
    no file, the request being used up and the status that of success. *)
Definition stale_f : sfunc := func [] [TI32] [] [i32c 0; op (STableGet 0 TFuncRef); op SRefIsNull].
Definition F2 : list payload :=
  [PVersion 1; PTypes (items [([], [TI32])]); PFuncs (items [0]); PTables (items [2%Z]); PExports (items [("f", ExFunc 0)]);
   PElems (items [{| e_extern := false; e_idxes := Some [0]; e_init := None; e_mode := MActive 0 [CVal (VI32 0)] |}]); PCode (body stale_f)].
Theorem C62_lost_refuted : command hf0 host1 sg0 ff0 zl Fresh E0 LoopStyle true 60 60 F2 "f" [] = Exit 0 [MResult (VI32 0)] [] /\
  saves hf0 host1 sg0 ff0 zl Fresh (asked 3 true) LoopStyle true 60 60 F2 "f" [] = None /\
  command hf0 host1 sg0 ff0 zl Fresh (asked 3 true) LoopStyle true 60 60 F2 "f" [] = Exit 0 [MCheckpointFailed] [].
Proof. split; [vm_compute; reflexivity|]. split; vm_compute; reflexivity. Qed.

(** ** C63: a program moved to another process keeps its surroundings *)
(** What the host answers may depend on all calls made to it before ([hostfn] takes the log of calls): that is
    how open descriptors, file offsets and clocks appear.  A new process' host begins with an empty log.  If
    it nevertheless answers as the old one would have gone on answering, the program cannot tell: it reports
    the same and makes the same further calls.  Missing: that the new host does so (refuted). *)
Theorem C63_continued_partial : forall hf host host' sg ff z W gs F name f d args ss b log t t' E D E' D',
  lossless z -> presents sg W F -> sound W gs -> handled W -> Forall one_result (sm_funcs (w_code W)) -> known_module (w_code W) = true ->
  forallb (modest (w_code W)) (sm_funcs (w_code W)) = true ->
  In (name, ExFunc f) (w_exports W) -> nth_error (sm_funcs (w_code W)) f = Some (SWasm d) ->
  Forall2 has_type (fst (sf_type d)) args -> Forall2 (written ff) args ss -> in_range W gs -> hostfp_ok hf -> host_ok host -> movable (w_code W) gs host ->
  history hf host sg ff z F name ss (From b log t) ->
  (forall calls, host' calls = host (calls ++ log)) ->
  forall r, r <> Running ->
    (exists k n, main hf host sg ff E D false k n F name ss = and_calls log r) <->
    (exists k n, command hf host' sg ff z (From b [] t') E' D' false k n F name ss = r).
Proof.
  intros hf host host' sg ff z W gs F name f d args ss b log t t' E D E' D' Z P S H O KN MD EX N TA WR IR HF HO MV HI HH r NR.
  rewrite (history_report hf host sg ff z W gs F name f d args ss Z P S H O KN MD EX N TA WR HF HO IR MV _ E D E D (and_calls log r) HI).
  - exact (history_continued hf host sg ff z W gs F name f d args ss Z P S H O KN MD EX N TA WR HF HO IR MV b log t t' host' E D E' D' r HI NR HH).
  - destruct r; try discriminate. congruence.
Qed.
(** A program that opens a file, drops the (expected) descriptor and writes.  Host function 0 opens; host
    function 1 writes: 0 if something is open in this process, 8 (badf) otherwise. *)
Definition sg1 (w : nat) : ftype := ([], [TI32]).
Definition writer_f : sfunc := func [] [TI32] [] [CCall 0; drop; CCall 1].
Definition W3 : wmodule :=
  {| w_code := {| sm_types := [([], [TI32])]; sm_funcs := [SWasi 0 ([], [TI32]); SWasi 1 ([], [TI32]); writer_f] |};
     w_tables := []; w_mem := None; w_globals := []; w_elems := []; w_datas := []; w_exports := [("f", ExFunc 2)]; w_start := None |}.
Definition F3 : list payload :=
  [PVersion 1; PTypes (items [([], [TI32])]); PImports (items [WiFunc (Some 0) 0; WiFunc (Some 1) 0]); PFuncs (items [0]); PExports (items [("f", ExFunc 2)]); PCode (body writer_f)].
Definition descriptors : hostfn := fun log =>
  match log with
  | (0, _, _) :: _ => HoRet (Some (VI32 0)) []
  | (1, _, _) :: before => HoRet (Some (VI32 (if existsb (fun e => match e with (w, _, _) => Nat.eqb w 0 end) before then 0 else 8)%Z)) []
  | _ => HoErr
  end.
Definition st_open : rstate :=
  match session hf0 descriptors sg1 ff0 zl Fresh (asked 1 true) LoopStyle true 60 60 F3 "f" [] with
  | inr (RCheckpoint st) => st
  | _ => {| r_rf := RF (Six [] [] [] [] [] []) [] (Six 0 0 0 0 0 0); r_frames := []; r_inst := inst0; r_log := []; r_t := 0 |}
  end.
Definition b_open : list Z := match checkpoint_bytes zl st_open with Some b => b | None => [] end.
Lemma st_open_ok : state_ok st_open.
Proof.
  assert (E : st_open = {| r_rf := RF (Six [VI32 0] [] [] [] [] []) [Six 0 0 0 0 0 0] (Six 0 0 0 0 0 0);
    r_frames := [(true, {| f_fn := 2; f_loc := []; f_ptr := None; f_labels := [{| l_loop := false; l_ret := 0; l_ip := 1 |}]; f_ret := []; f_res := []; f_n := 1 |})];
    r_inst := {| i_mem := None; i_globals := []; i_tables := []; i_datas := [] |}; r_log := [(0, [], None)]; r_t := 2 |}) by (vm_compute; reflexivity).
  rewrite E. split; cbn.
  - intros []; repeat constructor; cbn; lia.
  - repeat constructor; intros []; cbn; lia.
  - repeat constructor; cbn; try reflexivity; lia.
  - constructor.
  - discriminate.
Qed.
Lemma W3_sound : sound W3 [].
Proof.
  split.
  - unfold W3, w_code, writer_f. split; [repeat constructor; vf|]. exists [SWasi 0 ([], [TI32]); SWasi 1 ([], [TI32])]. eexists. repeat split; auto; repeat constructor.
  - split; try discriminate.
    + eexists. split; [repeat (constructor; [reflexivity|]); constructor|reflexivity].
    + constructor.
    + intros n x [H|[]]; injection H as <- <-; cbn; lia.
    + constructor.
    + intros e l [].
    + intros e t x [].
    + intros e t x [].
  - split; [discriminate|]. intros [|t] n l ps N; discriminate.
  - cbn. repeat constructor; cbn; tauto.
Qed.
Lemma F3_presents : presents sg1 W3 F3.
Proof.
  exists [SWasi 0 ([], [TI32]); SWasi 1 ([], [TI32])], [writer_f], [WiFunc (Some 0) 0; WiFunc (Some 1) 0], [0], [PCode (body writer_f)].
  split; [reflexivity|]. split; [repeat constructor; cbn [import_entry]; eexists; split; reflexivity|].
  split; [repeat constructor|]. split; [repeat constructor|]. reflexivity.
Qed.
Lemma W3_movable : movable (w_code W3) [] descriptors.
Proof.
  split; [vm_compute; reflexivity|constructor|]. intros log v ws H. unfold descriptors in H.
  destruct log as [|[[[|[|w]] a] m] log]; try discriminate; injection H as <- <-; discriminate.
Qed.
Lemma W3_range : in_range W3 [].
Proof.
  split; [vm_compute; reflexivity|constructor|constructor|reflexivity|]. intros d [H|[H|[H|[]]]]; try discriminate H. injection H as <-. split; reflexivity.
Qed.
Lemma descriptors_ok : host_ok descriptors.
Proof.
  intros log o ws H. unfold descriptors in H. destruct log as [|[[[|[|w]] a] m] log]; try discriminate H; injection H as <- <-; (split; [|constructor]).
  - intros v V. injection V as <-. unfold val_ok, in_s. cbn. lia.
  - intros v V. injection V as <-. destruct (existsb _ _); unfold val_ok, in_s; cbn; lia.
Qed.
(** Every hypothesis of the claim holds of this program, and its outcome changes when it is moved. *)
Theorem C63_open_files_refuted : lossless zl /\ presents sg1 W3 F3 /\ sound W3 [] /\ handled W3 /\ Forall one_result (sm_funcs (w_code W3)) /\
  known_module (w_code W3) = true /\ forallb (modest (w_code W3)) (sm_funcs (w_code W3)) = true /\ in_range W3 [] /\ hostfp_ok hf0 /\ host_ok descriptors /\ movable (w_code W3) [] descriptors /\
  history hf0 descriptors sg1 ff0 zl F3 "f" [] (From b_open [(0, [], None)] 2) /\
  main hf0 descriptors sg1 ff0 E0 LoopStyle false 60 60 F3 "f" [] = Exit 0 [MResult (VI32 0)] [(1, [], None); (0, [], None)] /\
  command hf0 descriptors sg1 ff0 zl (From b_open [] 2) E0 LoopStyle false 60 60 F3 "f" [] = Exit 0 [MResult (VI32 8)] [(1, [], None)].
Proof.
  split; [exact zl_lossless|]. split; [exact F3_presents|]. split; [exact W3_sound|]. split; [split; [repeat constructor|constructor|discriminate|reflexivity]|].
  split; [repeat constructor|]. split; [reflexivity|]. split; [reflexivity|]. split; [exact W3_range|]. split; [exact hf0_ok|]. split; [exact descriptors_ok|]. split; [exact W3_movable|]. split; [|split; vm_compute; reflexivity].
  refine (HNext hf0 descriptors sg1 ff0 zl F3 "f" [] Fresh (asked 1 true) LoopStyle 60 60 st_open b_open (HFresh _ _ _ _ _ _ _ _) _ _ _); vm_compute; reflexivity.
Qed.
(** with a host that answers as the old one would have, the moved program reports what it would have *)
Example C63_example : forall E' D', exists k n,
  command hf0 (fun calls => descriptors (calls ++ [(0, [], None)])) sg1 ff0 zl (From b_open [] 0) E' D' false k n F3 "f" [] = Exit 0 [MResult (VI32 0)] [(1, [], None)].
Proof.
  intros E' D'. destruct C63_open_files_refuted as (Z & P & S & H & O & KN & MD & IR & HF & HO & MV & HI & M & _).
  pose proof (C63_continued_partial hf0 descriptors (fun calls => descriptors (calls ++ [(0, [], None)])) sg1 ff0 zl W3 [] F3 "f" 2) as X.
  specialize (X {| sf_type := ([], [TI32]); sf_locals := []; sf_body := seqc [CCall 0; drop; CCall 1] |} [] [] b_open [(0, [], None)] 2 0 E0 LoopStyle E' D' Z P S H O KN MD (or_introl eq_refl)).
  specialize (X eq_refl (Forall2_nil _) (Forall2_nil _) IR HF HO MV HI (fun _ => eq_refl) (Exit 0 [MResult (VI32 0)] [(1, [], None)])).
  destruct X as [X _]; [discriminate|]. apply X. exists 60, 60. etransitivity; [exact M|reflexivity].
Qed.
