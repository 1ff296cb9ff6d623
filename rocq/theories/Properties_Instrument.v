(** C73-C76: instrumentation (--stats, --trace) and the index by which an instruction finds its handler. *)
From Coq Require Import String ZArith List Bool Lia Sorting.Permutation Sorting.Sorted.
From Verif Require Import Word Value Numeric Float Mem Store Regs IR Machine Wasm Decoder Check Restrict EmitProofs EmitTyped WasmPrims PrimFacts Agree Soundness Correct ExecFacts Examples Runtime RuntimeProofs
  Module ModuleSpec Load Properties_Main Indexes Instrument InstrumentSpec InstrumentProofs.
Import ListNotations.
Local Open Scope Z_scope.

(** ** C73: instrumentation changes nothing *)
Lemma round_ext hf h1 h2 M E D cr k st : (forall log, h1 log = h2 log) -> run_round hf h1 M E D cr k st = run_round hf h2 M E D cr k st.
Proof.
  intros H. unfold run_round. destruct (r_frames st) as [|[en f] rest]; auto. destruct (nth_error (md_funcs M) (f_fn f)) as [[fd|]|]; auto.
  destruct (dispatch _ _ _ _ _ _ _ _) as [[o t]|]; auto. destruct o; auto. match goal with |- context [match ?y with YReturn => _ | _ => _ end] => destruct y; auto end. now rewrite H.
Qed.
Lemma loop_ext hf h1 h2 M E D cr k : (forall log, h1 log = h2 log) -> forall n st, run_loop hf h1 M E D cr k n st = run_loop hf h2 M E D cr k n st.
Proof.
  intros H. induction n as [|n IH]; intros st; cbn [run_loop]; auto. rewrite (round_ext hf h1 h2) by exact H.
  destruct (run_round hf h2 M E D cr k st) as [[]|]; auto.
Qed.
(** What a command reports (messages, host calls, exit status) is what it reports without any
    instrumentation: whichever features chiwawa was compiled with, whatever is asked for, whether the
    output file can be created or not.  The one thing a program could notice is the file named by
    --trace-output, if one is created: hence the condition on the host. *)
Theorem C73_unchanged : forall B fl creates order hf host sg ff E D cr panics k n F name ps,
  f_output fl = None \/ (forall log, host true log = host false log) ->
  fst (command B fl creates order hf host sg ff E D cr panics k n F name ps) = main hf (host false) sg ff E D cr k n F name ps.
Proof.
  intros B fl creates order hf host sg ff E D cr panics k n F name ps H. unfold command, main.
  destruct (instance sg F) as [x|]; auto. destruct (get_export_func x name) as [f|]; auto.
  destruct (parse_params ff ps) as [args|]; auto. destruct (start (mi_modul x) (mi_inst x) f args) as [st| |]; auto.
  cbn [run_probes fst]. unfold run. rewrite (loop_ext hf (host (made B fl creates)) (host false)); auto.
  destruct H as [H|H]; [unfold made; rewrite H, andb_false_r; reflexivity|]. destruct (made B fl creates); auto.
Qed.
Theorem C73_restored_unchanged : forall B fl creates order hf host sg E D cr panics k n F g log t,
  f_output fl = None \/ (forall log, host true log = host false log) ->
  fst (command_restore B fl creates order hf host sg E D cr panics k n F g log t) = main_restore hf (host false) sg E D cr k n F g log t.
Proof.
  intros B fl creates order hf host sg E D cr panics k n F g log t H. unfold command_restore, main_restore.
  destruct (instance sg F) as [x|]; auto. destruct (restore (mi_modul x) (mi_inst x) g log t) as [st|]; auto.
  cbn [run_probes fst]. unfold run. rewrite (loop_ext hf (host (made B fl creates)) (host false)); auto.
  destruct H as [H|H]; [unfold made; rewrite H, andb_false_r; reflexivity|]. destruct (made B fl creates); auto.
Qed.

(** the example of Properties_Main.v, with everything on; [seen]: the host answers differently once the file exists *)
Definition host_f (seen : bool) (b : bool) : hostfn :=
  fun log => match log with (_, [VI32 z], _) :: _ => HoExit (if seen && b then 77 else z) | _ => HoErr end.
Definition full : build := {| b_stats := true; b_trace := true |}.
Definition bare : build := {| b_stats := false; b_trace := false |}.
Definition all_on : flags := {| f_stats := true; f_trace := true; f_events := None; f_resources := None; f_output := Some [111; 117; 116] |}.
Definition I32_3 : list (list Z) := [[73; 51; 50; 40; 51; 41]].
Definition cmd (B : build) (fl : flags) (seen : bool) (k : nat) (name : string) (ps : list (list Z)) : report * list note :=
  command B fl true (fun l => l) hf0 (host_f seen) sg0 ff0 E0 LoopStyle false false k k F0 name ps.
Example C73_example :
  fst (cmd full all_on false 60 "sum" I32_3) = Exit 0 [MResult (VI32 6)] [] /\ cmd bare all_on false 60 "sum" I32_3 = (Exit 0 [MResult (VI32 6)] [], [NoStatsFeature; NoTraceFeature]) /\
  exists l, fst (cmd full all_on false 60 "quit" I32_3) = Exit 6 [] l.
Proof. split; [vm_compute; reflexivity|]. split; [vm_compute; reflexivity|]. eexists. vm_compute. reflexivity. Qed.
(** The condition is needed: --trace-output empties the file it names, and a program that reads that file notices. *)
Example C73_output_file : (exists l, fst (cmd full all_on true 60 "quit" I32_3) = Exit 77 [] l) /\ exists l, main hf0 (host_f true false) sg0 ff0 E0 LoopStyle false 60 60 F0 "quit" I32_3 = Exit 6 [] l.
Proof. split; eexists; vm_compute; reflexivity. Qed.

(** ** C74: statistics *)
(** What is recorded is counted right: after any sequence [l] of recorded instructions (fewer than
    2^64), whatever the order of the hash map, the summary names the length of [l] as the total, and the
    up to 20 most frequent instructions with the number of times each occurs, most frequent first, and
    the number of the other instructions. *)
Theorem C74_counts_partial : forall order l, (forall x, Permutation (order x) x) -> Z.of_nat (length l) < 2 ^ 64 ->
  let r := stats_report order (fold_left record_instruction l stats_new) in
  sm_total r = Z.of_nat (length l) /\
  exists top rest, NoDup (top ++ rest) /\ (forall i, In i (top ++ rest) <-> In i l) /\
    StronglySorted (fun i j => times j l <= times i l) (top ++ rest) /\
    sm_top r = map (fun i => (stats_name i, times i l)) top /\ (length top <= 20)%nat /\ ((length top < 20)%nat -> rest = []) /\ sm_more r = length rest.
Proof. exact report_ok. Qed.
Example C74_example : stats_report (@rev (Z * Z)) (fold_left record_instruction [IX_I32_ADD; IX_BR_IF; IX_I32_ADD; IX_CALL; IX_BR_IF; IX_I32_ADD] stats_new) =
  {| sm_total := 6; sm_top := [("i32.add"%string, 3); ("br_if"%string, 2); ("call"%string, 1)]; sm_more := 0 |}.
Proof. vm_compute. reflexivity. Qed.

(** But no command records anything: whatever it executed, the statistics it prints say that nothing was. *)
Lemma no_lines B fl creates : pr_lines (new_probes B fl creates) = []. Proof. reflexivity. Qed.
Lemma ended_notes B fl creates order panics r x : In x (ended B fl order panics r (new_probes B fl creates)) ->
  x = Statistics {| sm_total := 0; sm_top := []; sm_more := 0 |} /\ b_stats B = true /\ f_stats fl = true.
Proof.
  unfold ended. rewrite no_lines. cbn [map app]. unfold drop_notes, new_probes. cbn [pr_stats].
  destruct (b_stats B), (f_stats fl), r as [st|vals s l|z l|t l|st|]; try destruct t; try destruct panics; cbn; intuition; subst; reflexivity.
Qed.
Lemma early_notes B fl creates x : In x (warnings B fl ++ new_notes B fl creates) \/ In x (warnings B fl) -> x = NoStatsFeature \/ x = NoTraceFeature \/ x = NoTracer.
Proof.
  rewrite in_app_iff. unfold warnings, new_notes. rewrite in_app_iff.
  destruct (negb (b_stats B) && f_stats fl), (negb (b_trace B) && f_trace fl), (tracing B fl && negb (opened fl creates)); cbn; intuition.
Qed.
(** the notes a command may leave *)
Lemma command_notes B fl creates order hf host sg ff E D cr panics k n F name ps x :
  In x (snd (command B fl creates order hf host sg ff E D cr panics k n F name ps)) ->
  x = NoStatsFeature \/ x = NoTraceFeature \/ x = NoTracer \/ (x = Statistics {| sm_total := 0; sm_top := []; sm_more := 0 |} /\ b_stats B = true /\ f_stats fl = true).
Proof.
  unfold command. cbn [run_probes]. intros H.
  assert (G : In x (warnings B fl) \/ exists r, In x (warnings B fl ++ new_notes B fl creates ++ ended B fl order panics r (new_probes B fl creates))).
  { destruct (instance sg F) as [mi|]; [|left; exact H]. destruct (get_export_func mi name) as [f|]; [|left; exact H].
    destruct (parse_params ff ps) as [args|]; [|left; exact H]. destruct (start (mi_modul mi) (mi_inst mi) f args) as [st| |]; [|left; exact H|left; exact H].
    right. eexists. exact H. }
  destruct G as [G|(r & G)]; [destruct (early_notes B fl creates x (or_intror G)) as [|[|]]; auto|].
  rewrite app_assoc in G. apply in_app_or in G as [G|G]; [destruct (early_notes B fl creates x (or_introl G)) as [|[|]]; auto|].
  right. right. right. eapply ended_notes. exact G.
Qed.
Theorem C74_zero_refuted :
  (forall B fl creates order hf host sg ff E D cr panics k n F name ps s,
     In (Statistics s) (snd (command B fl creates order hf host sg ff E D cr panics k n F name ps)) -> sm_total s = 0 /\ sm_top s = []) /\
  (* ... of a run of more than ten instructions *)
  fst (cmd full all_on false 10 "sum" I32_3) = Running /\
  cmd full all_on false 60 "sum" I32_3 = (Exit 0 [MResult (VI32 6)] [], [Statistics {| sm_total := 0; sm_top := []; sm_more := 0 |}]).
Proof.
  split; [|split; vm_compute; reflexivity]. intros B fl creates order hf host sg ff E D cr panics k n F name ps s H.
  apply command_notes in H as [H|[H|[H|[H _]]]]; try discriminate H. assert (X : s = {| sm_total := 0; sm_top := []; sm_more := 0 |}) by congruence. subst s. auto.
Qed.
(** A program that ends by proc_exit, as every WASI program that fails does, leaves none at all. *)
Theorem C74_exit_refuted :
  (forall B fl creates order hf host sg ff E D cr panics k n F name ps z l s,
     fst (command B fl creates order hf host sg ff E D cr panics k n F name ps) = Exit z [] l -> z <> 0 ->
     ~ In (Statistics s) (snd (command B fl creates order hf host sg ff E D cr panics k n F name ps))) /\
  exists l, cmd full all_on false 60 "quit" I32_3 = (Exit 6 [] l, []).
Proof.
  split; [|eexists; vm_compute; reflexivity]. intros B fl creates order hf host sg ff E D cr panics k n F name ps z l s.
  unfold command. cbn [run_probes].
  assert (W : ~ In (Statistics s) (warnings B fl)) by (intros H; destruct (early_notes B fl creates _ (or_intror H)) as [X|[X|X]]; discriminate X).
  destruct (instance sg F) as [mi|]; auto. destruct (get_export_func mi name) as [f|]; auto.
  destruct (parse_params ff ps) as [args|]; auto. destruct (start (mi_modul mi) (mi_inst mi) f args) as [st| |]; auto. cbn [fst snd].
  destruct (run _ _ _ _ _ _ _ _ _) as [st'|vals s' l'|z' l'|t l'|st'|]; cbn [handle_result]; intros H NZ;
    try (exfalso; apply NZ; congruence); try discriminate H.
  intros X. rewrite app_assoc in X. apply in_app_or in X as [X|[]]. destruct (early_notes B fl creates _ (or_introl X)) as [Y|[Y|Y]]; discriminate Y.
Qed.
(** When a program has returned its result the statistics are printed; the warning is given exactly
    when they are asked for of a chiwawa compiled without the feature, and then nothing is printed. *)
Lemma notes_cases B fl creates order hf host sg ff E D cr panics k n F name ps :
  let (rep, ns) := command B fl creates order hf host sg ff E D cr panics k n F name ps in
  (ns = warnings B fl /\ forall z v ms l, rep <> Exit z (MResult v :: ms) l) \/
  exists r, ns = warnings B fl ++ new_notes B fl creates ++ ended B fl order panics r (new_probes B fl creates) /\ rep = handle_result r.
Proof.
  unfold command. cbn [run_probes].
  destruct (instance sg F) as [mi|]; [|left; split; [reflexivity|discriminate]]. destruct (get_export_func mi name) as [f|]; [|left; split; [reflexivity|intros; congruence]].
  destruct (parse_params ff ps) as [args|]; [|left; split; [reflexivity|discriminate]].
  destruct (start (mi_modul mi) (mi_inst mi) f args) as [st| |]; [|left; split; [reflexivity|intros; congruence]|left; split; [reflexivity|discriminate]].
  right. eexists. split; reflexivity.
Qed.
Lemma in_warnings B fl : (In NoStatsFeature (warnings B fl) <-> b_stats B = false /\ f_stats fl = true) /\ (In NoTraceFeature (warnings B fl) <-> b_trace B = false /\ f_trace fl = true) /\ ~ In NoTracer (warnings B fl).
Proof. unfold warnings. destruct (b_stats B), (f_stats fl), (b_trace B), (f_trace fl); cbn; intuition discriminate. Qed.
Lemma in_new B fl creates x : In x (new_notes B fl creates) <-> x = NoTracer /\ b_trace B = true /\ f_trace fl = true /\ f_output fl <> None /\ creates = false.
Proof. unfold new_notes, tracing, opened. destruct (b_trace B), (f_trace fl), (f_output fl), creates; cbn; intuition (subst; congruence). Qed.
Theorem C74_printed : forall B fl creates order hf host sg ff E D cr panics k n F name ps z v ms l,
  let (rep, notes) := command B fl creates order hf host sg ff E D cr panics k n F name ps in
  rep = Exit z (MResult v :: ms) l -> b_stats B = true -> f_stats fl = true -> exists s, In (Statistics s) notes.
Proof.
  intros. pose proof (notes_cases B fl creates order hf host sg ff E D cr panics k n F name ps) as C.
  destruct (command B fl creates order hf host sg ff E D cr panics k n F name ps) as [rep ns]. intros R BS FS.
  destruct C as [[_ N]|(r & -> & HR)]; [now destruct (N z v ms l)|]. rewrite R in HR.
  eexists. apply in_or_app. right. apply in_or_app. right. destruct r as [st|vals s l'|z' l'|t l'|st|]; try discriminate HR;
    [|cbn in HR; destruct (checkpoint st); discriminate HR].
  unfold ended, drop_notes. rewrite BS, FS. unfold new_probes. rewrite FS. cbn. left. reflexivity.
Qed.
Theorem C74_warns : forall B fl creates order hf host sg ff E D cr panics k n F name ps,
  let notes := snd (command B fl creates order hf host sg ff E D cr panics k n F name ps) in
  (In NoStatsFeature notes <-> b_stats B = false /\ f_stats fl = true) /\
  ((exists s, In (Statistics s) notes) -> b_stats B = true /\ f_stats fl = true).
Proof.
  intros B fl creates order hf host sg ff E D cr panics k n F name ps. cbv zeta. split.
  - pose proof (notes_cases B fl creates order hf host sg ff E D cr panics k n F name ps) as C.
    destruct (command B fl creates order hf host sg ff E D cr panics k n F name ps) as [rep ns]. cbn [snd].
    destruct C as [[-> _]|(r & -> & _)]; [apply in_warnings|]. rewrite !in_app_iff, (proj1 (in_warnings B fl)), in_new. split; [|tauto].
    intros [H|[[H _]|H]]; auto; [discriminate H|]. apply ended_notes in H as [H _]. discriminate H.
  - intros (s & H). apply command_notes in H as [H|[H|[H|[_ H]]]]; [discriminate H|discriminate H|discriminate H|exact H].
Qed.

(** ** C75: traces *)
(** the operator an instruction is traced as: the one it was translated from, or nop *)
Definition traced_as (op : fop) (i : instr) (op' : fop) : Prop := (i = INop /\ op' = FBasic BNop) \/ (i <> INop /\ op' = op).
Lemma nop_of E : of_op E (FBasic BNop) INop.
Proof. fin. Qed.
(** Every instruction of a translated body was emitted for an operator of the body, in order; and
    --trace-events selects it if and only if it asks for that operator -- if that is not the call of an
    imported function.  (An instruction merged with its neighbour is left behind as a nop.) *)
Theorem C75_selects_partial : forall E ops code al, translate E ops = Some (code, al) ->
  exists src, subseq src ops /\ Forall2 (fun op i => exists op', traced_as op i op' /\
    forall evs rs out, ~ wasi_call E op' -> (should_trace_event (trace_config evs rs out) (handler_index (is_tee op') i) = true <-> asked evs op')) src code.
Proof.
  intros E ops code al H. destruct (translate_meant E ops code al H) as (src & S & F). exists src. split; auto.
  clear S H. induction F as [|op i src code M F IH]; constructor; auto.
  destruct M as [->|O].
  - exists (FBasic BNop). split; [left; auto|]. intros evs rs out NW. exact (selected E evs rs out _ _ (nop_of E) NW).
  - assert (DI : i = INop \/ i <> INop) by (destruct i; auto; right; discriminate). destruct DI as [->|NI].
    + exists (FBasic BNop). split; [left; auto|]. intros evs rs out NW. exact (selected E evs rs out _ _ (nop_of E) NW).
    + exists op. split; [right; auto|]. intros evs rs out NW. exact (selected E evs rs out _ _ O NW).
Qed.
(** It is named by the operator's keyword: except for the call of an imported function, local.tee of
    an i32 or a reference, and data.drop. *)
Theorem C75_names_partial : forall E ops code al, translate E ops = Some (code, al) ->
  exists src, subseq src ops /\ Forall2 (fun op i => exists op', traced_as op i op' /\
    let x := handler_index (is_tee op') i in
    (~ wasi_call E op' -> ~ odd_tee E op' -> ~ drops_data op' -> trace_name x = keyword op' /\ stats_name x = keyword op') /\
    (wasi_call E op' -> trace_name x = "call_wasi"%string) /\ (odd_tee E op' -> trace_name x = "local.set"%string)) src code.
Proof.
  intros E ops code al H. destruct (translate_meant E ops code al H) as (src & S & F). exists src. split; auto.
  clear S H. induction F as [|op i src code M F IH]; constructor; auto.
  assert (G : forall o, of_op E o i -> let x := handler_index (is_tee o) i in
    (~ wasi_call E o -> ~ odd_tee E o -> ~ drops_data o -> trace_name x = keyword o /\ stats_name x = keyword o) /\
    (wasi_call E o -> trace_name x = "call_wasi"%string) /\ (odd_tee E o -> trace_name x = "local.set"%string)).
  { intros o (_ & N & W & T & _). cbv zeta in *. split; [exact N|]. split; intros X; [exact (proj1 (W X))|exact (proj1 (T X))]. }
  destruct M as [->|O].
  - exists (FBasic BNop). split; [left; auto|]. exact (G (FBasic BNop) (nop_of E)).
  - assert (DI : i = INop \/ i <> INop) by (destruct i; auto; right; discriminate). destruct DI as [->|NI].
    + exists (FBasic BNop). split; [left; auto|]. exact (G (FBasic BNop) (nop_of E)).
    + exists op. split; [right; auto|]. exact (G op O).
Qed.

(** What a line says: the instruction, and what --trace-resource asks for; nothing: all of these *)
Definition wanted (rs : option (list (list Z))) (w : list Z) : Prop := match rs with None => True | Some l => given l w end.
Definition tres (r : tresource) : list Z := match r with RPc => w_pc | RRegs => w_regs | RMemory => w_memory | RLocals => w_locals | RGlobals => w_globals end.
Lemma resource_word e s : resource_of s = Some e <-> spelled s (tres e).
Proof.
  assert (L : letters (tres e)) by (destruct e; repeat constructor; lia).
  rewrite <- (word_spelled _ L). unfold resource_of, is_word. generalize (map lower s). intros w. clear L s.
  destruct e; cbn [tres]; repeat match goal with |- context [list_eq_dec Z.eq_dec ?a ?b] => destruct (list_eq_dec Z.eq_dec a b) as [?X|?X] end;
    split; intros H; try discriminate H; try reflexivity; subst; try discriminate; try congruence.
Qed.
Lemma wants_wanted evs rs out r : r <> RMemory -> (wants (trace_config evs rs out) r = true <-> wanted rs (tres r)).
Proof.
  intros NM. unfold wants, wanted. cbn [trace_config tc_resources]. destruct rs as [l|]; [|destruct r; cbn; tauto].
  rewrite existsb_exists. split.
  - intros (x & I & S). apply filter_map_in in I as (s & I & X). apply resource_word in X. exists s. split; auto. destruct x, r; congruence || exact X || discriminate S.
  - intros (s & I & X). apply resource_word in X. exists r. split; [apply filter_map_in; eauto|]. destruct r; reflexivity.
Qed.
Theorem C75_line_partial : forall evs rs out ip x rf locals globals,
  let c := trace_config evs rs out in
  (should_trace_event c x = false -> trace_instruction c ip x rf locals globals = None) /\
  (should_trace_event c x = true -> exists l, trace_instruction c ip x rf locals globals = Some l /\ forall p, In p l <->
     (wanted rs [112; 99] (* pc *) /\ p = PPc ip) \/ p = PInstr (trace_name x) \/
     (wanted rs [114; 101; 103; 115] (* regs *) /\ p = PRegs (sget (rf_vecs rf) CI32) (sget (rf_vecs rf) CI64) (sget (rf_vecs rf) CF32) (sget (rf_vecs rf) CF64)) \/
     (wanted rs [108; 111; 99; 97; 108; 115] (* locals *) /\ p = PLocals (map show locals)) \/
     (wanted rs [103; 108; 111; 98; 97; 108; 115] (* globals *) /\ p = PGlobals (map show globals))).
Proof.
  intros evs rs out ip x rf locals globals. cbv zeta. unfold trace_instruction. split; intros ->; [reflexivity|].
  eexists. split; [reflexivity|]. intros p. rewrite !in_app_iff.
  change [112; 99] with (tres RPc). change [114; 101; 103; 115] with (tres RRegs). change [108; 111; 99; 97; 108; 115] with (tres RLocals). change [103; 108; 111; 98; 97; 108; 115] with (tres RGlobals).
  rewrite <- (wants_wanted evs rs out RPc), <- (wants_wanted evs rs out RRegs), <- (wants_wanted evs rs out RLocals), <- (wants_wanted evs rs out RGlobals) by discriminate.
  assert (G : forall (b : bool) q, In p (if b then [q] else []) <-> b = true /\ p = q) by (intros [] q; cbn; intuition congruence).
  rewrite !G. cbn [In]. intuition congruence.
Qed.
Example C75_line_example :
  (* --trace-events Store,LOAD --trace-resource PC,locals *)
  let c := trace_config (Some [[83; 116; 111; 114; 101]; [76; 79; 65; 68]]) (Some [[80; 67]; [108; 111; 99; 97; 108; 115]]) None in
  trace_instruction c 7 IX_I64_LOAD32_S rf_new [VI32 5; VRef (RFunc 3)] [] = Some [PPc 7; PInstr "i64.load32_s"; PLocals [ShVal (VI32 5); ShFunc]] /\
  trace_instruction c 8 IX_I32_ADD rf_new [VI32 5] [] = None.
Proof. split; vm_compute; reflexivity. Qed.

(** What is shown of a value: itself, and of a reference only its kind *)
Theorem C75_values : forall v,
  match v with VRef RNull => show v = ShNull | VRef (RFunc _) => show v = ShFunc | VRef (RExtern _) => show v = ShExtern | _ => show v = ShVal v end.
Proof. intros [| | | |[]|]; reflexivity. Qed.
(** The warning about the feature, and the message that there is no trace because its file could not be created *)
Theorem C75_warns : forall B fl creates order hf host sg ff E D cr panics k n F name ps,
  let (rep, notes) := command B fl creates order hf host sg ff E D cr panics k n F name ps in
  let no_file := b_trace B = true /\ f_trace fl = true /\ f_output fl <> None /\ creates = false in
  (In NoTraceFeature notes <-> b_trace B = false /\ f_trace fl = true) /\ (In NoTracer notes -> no_file) /\
  (forall z v ms l, rep = Exit z (MResult v :: ms) l -> no_file -> In NoTracer notes).
Proof.
  intros. pose proof (notes_cases B fl creates order hf host sg ff E D cr panics k n F name ps) as C.
  destruct (command B fl creates order hf host sg ff E D cr panics k n F name ps) as [rep ns]. cbv zeta.
  destruct (in_warnings B fl) as (_ & W & NW). destruct C as [[-> N]|(r & -> & _)].
  - split; [exact W|]. split; [tauto|]. intros z v ms l R. now destruct (N z v ms l).
  - rewrite !in_app_iff, W, !in_new. split; [split; [|tauto]|split; [|intros; rewrite !in_app_iff, in_new; auto]].
    + intros [H|[[H _]|H]]; auto; [discriminate H|]. apply ended_notes in H as [H _]. discriminate H.
    + intros [H|[[_ H]|H]]; [tauto|exact H|]. apply ended_notes in H as [H _]. discriminate H.
Qed.

(** But no command traces: whatever it executes and whatever is asked for, not one line is written. *)
Theorem C75_silent_refuted :
  (forall B fl creates order hf host sg ff E D cr panics k n F name ps l,
     ~ In (TraceLine l) (snd (command B fl creates order hf host sg ff E D cr panics k n F name ps))) /\
  (* ... although a tracer was asked for, compiled in and set up *)
  pr_tracer (new_probes full all_on true) = Some {| tc_events := [TAll]; tc_resources := [RPc; RRegs; RLocals; RGlobals]; tc_output := Some [111; 117; 116] |} /\
  fst (cmd full all_on false 10 "sum" I32_3) = Running.
Proof.
  split; [|split; vm_compute; reflexivity]. intros B fl creates order hf host sg ff E D cr panics k n F name ps l H.
  apply command_notes in H as [H|[H|[H|[H _]]]]; discriminate H.
Qed.
(** "memory" is accepted as a resource; a line shows nothing for it. *)
Theorem C75_memory_refuted : forall evs out ip x rf locals globals,
  let c := trace_config evs (Some [[109; 101; 109; 111; 114; 121]]) out in
  tc_resources c = [RMemory] /\ (should_trace_event c x = true -> trace_instruction c ip x rf locals globals = Some [PInstr (trace_name x)]).
Proof. intros evs out ip x rf locals globals. cbv zeta. split; [reflexivity|]. intros H. unfold trace_instruction. rewrite H. reflexivity. Qed.
(** "stack", which the help text offers as a resource, is not known: it is dropped without a word, like any unknown word. *)
Theorem C75_unknown_refuted : forall evs rs out s, (forall e, ~ spelled s (tev e)) -> (forall r, ~ spelled s (tres r)) ->
  trace_config (Some (s :: evs)) (Some (s :: rs)) out = trace_config (Some evs) (Some rs) out.
Proof.
  intros evs rs out s NE NR. unfold trace_config. cbn [filter_map].
  destruct (event_of s) as [e|] eqn:X; [apply event_word in X; destruct (NE e X)|].
  destruct (resource_of s) as [r|] eqn:Y; [apply resource_word in Y; destruct (NR r Y)|]. reflexivity.
Qed.
Example C75_stack : let s := [115; 116; 97; 99; 107] in (forall e, ~ spelled s (tev e)) /\ (forall r, ~ spelled s (tres r)).
Proof.
  cbv zeta. split; intros x H; destruct x; cbn [tev tres] in H; unfold spelled, w_all, w_store, w_load, w_call, w_branch, w_pc, w_regs, w_memory, w_locals, w_globals in H;
    repeat match goal with H : Forall2 _ _ _ |- _ => inversion H; clear H; subst end; lia.
Qed.
(** The call of an imported function is not among the calls "call" asks for. *)
Theorem C75_call_refuted : forall E ops code al, translate E ops = Some (code, al) -> exists src, subseq src ops /\
  Forall2 (fun op i => i <> INop -> wasi_call E op -> op_call op /\ forall rs out, should_trace_event (trace_config (Some [[99; 97; 108; 108]]) rs out) (handler_index (is_tee op) i) = false) src code.
Proof.
  intros E ops code al H. destruct (translate_meant E ops code al H) as (src & S & F). exists src. split; auto.
  clear S H. induction F as [|op i src code M F IH]; constructor; auto. intros NI W. destruct M as [->|O]; [congruence|].
  split; [destruct W as (f & w & t & -> & _); left; eauto|]. intros rs out. destruct O as (_ & _ & _ & _ & _ & _ & _ & _ & NC & _). specialize (NC W).
  unfold should_trace_event. cbn -[selects handler_index]. now rewrite NC.
Qed.

(** ** C76: every instruction finds the handler of its own operation *)
(** An instruction is executed by the function the table of its variant holds at its index
    ([select_handler], handlers.rs 2094-2345): for every instruction of every translated body that is
    the function of the instruction's own operation and type -- whichever operator it was emitted for,
    and never the function "invalid" of the unused entries. *)
Theorem C76_handlers : forall E ops code al, translate E ops = Some (code, al) ->
  forall i f tee, In i code -> family_of i = Some f -> select_handler f (handler_index tee i) = handler_fn i.
Proof.
  intros E ops code al H i f tee I Ff. destruct (translate_meant E ops code al H) as (src & _ & F).
  apply shaped_handler; auto. clear H. induction F as [|op j src code M F IH]; [destruct I|]. destruct I as [->|I]; auto.
  destruct M as [->|[S _]]; [exact Logic.I|exact S].
Qed.
(** The bodies of the example: what is traced, and who executes it *)
Definition code_of (f : sfunc) : list instr :=
  match f with SWasm d => match translate (env_of w_code0 d) (flatten (sf_body d) ++ [FEnd]) with Some (c, _) => c | None => [] end | SWasi _ _ => [] end.
Local Open Scope string_scope.
Example C75_names_example :
  map (fun i => trace_name (handler_index false i)) (code_of sum_f) = ["loop"; "i32.add"; "i32.sub"; "local.set"; "br_if"; "end"; "local.get"; "end"] /\
  map (fun i => trace_name (handler_index false i)) (code_of quit_f) = ["local.get"; "i32.const"; "call_indirect"; "call_wasi"; "end"].
Proof. split; vm_compute; reflexivity. Qed.
Example C76_example : map (fun i => option_map (fun f => select_handler f (handler_index false i)) (family_of i)) (code_of sum_f) =
  [None; Some "i32_add"; Some "i32_sub"; Some "i32_local_set"; None; None; Some "i32_local_get"; None].
Proof. vm_compute. reflexivity. Qed.
(** data.drop is shown as "unknown" in a trace and would be counted as "reserved"; the tee of an i32 as local.set (above: sum's fourth instruction is its local.tee). *)
Theorem C75_names_refuted : forall k d ss, trace_name (handler_index false (IOp (SDataDrop k) d ss)) = "unknown" /\ stats_name (handler_index false (IOp (SDataDrop k) d ss)) = "reserved" /\
  forall n s, trace_name (handler_index true (IMov CI32 (DLoc n) s)) = "local.set" /\ trace_name (handler_index true (IMov CI64 (DLoc n) s)) = "local.tee".
Proof. intros k d ss. repeat split. Qed.
