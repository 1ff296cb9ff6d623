(** C52-C56: loading a file, the command line, and what the user sees of a run. *)
From Coq Require Import String ZArith List Bool Lia.
From Verif Require Import Word Value Numeric Float Mem Store Regs IR Machine Wasm WasmTyping Decoder Check Restrict WasmPrims PrimFacts Agree Soundness Correct ExecFacts Examples Runtime RuntimeProofs Module ModuleSpec StaticSpec TotalSpec Load LoadSpec Properties_Total LoadProofs ParamProofs MainProofs.
Import ListNotations.
Open Scope nat_scope.

(** ** C52: a module is loaded completely *)
(** A file that presents a valid module within the loader's means gives that module's instance: its
    functions (translated), types, tables, memory, globals and exports. *)
Theorem C52_loaded_partial : forall sg W gs F, presents sg W F -> sound W gs -> handled W -> Forall one_result (sm_funcs (w_code W)) ->
  known_module (w_code W) = true ->
  exists M I fds, compile (w_code W) = Some M /\ instance sg F = Some I /\ mi_modul I = M /\ instance_of (with_code W fds) (md_funcs M) gs I.
Proof.
  intros sg W gs F P S H O K. destruct (Total.compile_total _ (so_code _ _ S) O K) as (M & C).
  destruct (instance_loaded sg W gs F M P S H C) as (I & fds & EI & IO & EM). exists M, I, fds. auto.
Qed.

(** an example file, with a custom section and an import *)
Local Open Scope string_scope.
Definition sg0 (w : nat) : ftype := match w with 0 => ([TI32], []) | _ => ([], []) end.
Definition ty1 : ftype := ([TI32], []). Definition ty2 : ftype := ([TI32], [TI32]).
(** sum(n) = n + ... + 1, by a loop; quit(n): proc_exit(sum(n)) through the table *)
Definition sum_f : sfunc := func [TI32] [TI32] [TI32]
  [loop [] [] [get 1; get 0; iadd; set 1; get 0; i32c 1; isub; tee 0; CBrIf 0]; get 1].
Definition quit_f : sfunc := func [TI32] [] [] [get 0; i32c 0; CCallInd 1 0; CCall 0].
Definition w_code0 : smodule := {| sm_types := [ty1; ty2]; sm_funcs := [SWasi 0 ty1; sum_f; quit_f] |}.
Definition W0 : wmodule :=
  {| w_code := w_code0; w_tables := [2%Z]; w_mem := None; w_globals := [[CVal (VI32 7)]];
     w_elems := [{| e_extern := false; e_idxes := Some [1]; e_init := None; e_mode := MActive 0 [CVal (VI32 0)] |}];
     w_datas := []; w_exports := [("sum", ExFunc 1); ("quit", ExFunc 2); ("g", ExGlobal 0); ("exit", ExFunc 0)]; w_start := None |}.
Definition body (f : sfunc) : pbody :=
  match f with
  | SWasm d => {| b_locals := sf_locals d; b_badlocals := false; b_ops := flatten (sf_body d) ++ [FEnd]; b_bad := false |}
  | SWasi _ _ => {| b_locals := []; b_badlocals := true; b_ops := []; b_bad := true |}
  end.
Definition F0 : list payload :=
  [PVersion 1; PTypes (items [ty1; ty2]); PImports (items [WiFunc (Some 0) 0]); PFuncs (items [1; 0]); PTables (items [2%Z]);
   PGlobals (items (w_globals W0)); PExports (items (w_exports W0)); PElems (items (w_elems W0)); PCode (body sum_f); PCode (body quit_f); POther].
Lemma F0_presents : presents sg0 W0 F0.
Proof.
  exists [SWasi 0 ty1], [sum_f; quit_f], [WiFunc (Some 0) 0], [1; 0], [PCode (body sum_f); PCode (body quit_f)].
  split; [reflexivity|]. split; [constructor; [cbn [import_entry]; split; [reflexivity|exists 0; split; reflexivity]|constructor]|].
  split; [repeat constructor|]. split; [repeat constructor|]. reflexivity.
Qed.
Lemma w_code0_valid : WasmTyping.valid w_code0.
Proof.
  unfold w_code0, sum_f, quit_f, ty1, ty2. split; [repeat constructor; vf|]. exists [SWasi 0 ([TI32], [])]. eexists. repeat split; auto; repeat constructor.
Qed.
Lemma W0_sound : sound W0 [VI32 7].
Proof.
  assert (EV : evaluates [VI32 7] [CVal (VI32 0)] (VI32 0)) by constructor.
  split.
  - exact w_code0_valid.
  - split.
    + eexists. split; [constructor; [reflexivity|constructor]|reflexivity].
    + apply (g_snoc [] [] [CVal (VI32 7)] (VI32 7)); constructor.
    + intros n x [H|[H|[H|[H|[]]]]]; injection H as <- <-; cbn; lia.
    + discriminate.
    + repeat constructor; cbn; lia.
    + discriminate.
    + intros e l [<-|[]] L. injection L as <-. repeat constructor.
    + intros e t x [<-|[]] L. injection L as <- <-. split; [cbn; lia|]. eauto.
    + intros d t x [].
  - split; [discriminate|]. intros t n l ps N L A. destruct t as [|[|t]]; try discriminate. injection N as <-.
    inversion L as [|? p ? ? [E1 E2] L' EL]; subst. inversion L'; subst. destruct p as [md rs]. cbn in E1, E2. subst. inversion A; subst; [|congruence].
    match goal with H : evaluates _ _ (VI32 ?z) |- _ => assert (z = 0%Z) by (inversion H; reflexivity); subst z end.
    match goal with H : active _ _ [] _ |- _ => inversion H; subst end. constructor; [cbn; lia|constructor].
  - cbn. repeat constructor; cbn; intuition discriminate.
Qed.
Lemma W0_handled : handled W0.
Proof. split; [repeat constructor|repeat constructor; cbn; eauto|discriminate|reflexivity]. Qed.
Example C52_example : presents sg0 W0 F0 /\ sound W0 [VI32 7] /\ handled W0 /\ Forall one_result (sm_funcs (w_code W0)) /\ known_module (w_code W0) = true.
Proof. split; [exact F0_presents|]. split; [exact W0_sound|]. split; [exact W0_handled|]. split; [repeat constructor|reflexivity]. Qed.

(** The command line run on a file; [n]: budget *)
Definition E0 : penv := {| atomics := true; has_wasi := false; request := fun _ => false |}.
Definition ff0 : cls -> list Z -> option Z := fun _ _ => None.
Definition chiwawa (n : nat) (F : list payload) (name : String.string) (ps : list (list Z)) : report :=
  main hf0 (fun log => match log with (_, [VI32 z], _) :: _ => HoExit z | _ => HoErr end) sg0 ff0 E0 LoopStyle false n n F name ps.

(** An incompletely loaded module is executed all the same.  A malformed data section, import section
    or code entry: main ignores the loader's error, runs what has been loaded so far, and reports success. *)
Definition cut (F : list payload) (k : nat) (p : payload) : list payload := firstn k F ++ p :: skipn (S k) F.
Theorem C52_incomplete_refuted : exists F m r, load sg0 F = LErr m /\ chiwawa 60 F "sum" [[73; 51; 50; 40; 51; 41]%Z] = r /\ r = Exit 0 [MResult (VI32 6)] [].
Proof.
  (* the last entry of the code section is malformed *)
  exists (cut F0 9 (PCode {| b_locals := []; b_badlocals := false; b_ops := []; b_bad := true |})).
  eexists. eexists. split; [vm_compute; reflexivity|]. split; [vm_compute; reflexivity|reflexivity].
Qed.
(** ... even the function that could not be loaded: it does nothing, and the run is reported as a success. *)
Theorem C52_placeholder_refuted : exists F m, load sg0 F = LErr m /\ chiwawa 60 F "quit" [[73; 51; 50; 40; 51; 41]%Z] = Exit 0 [] [] /\
  chiwawa 60 F0 "quit" [[73; 51; 50; 40; 51; 41]%Z] <> Exit 0 [] [].
Proof.
  exists (cut F0 9 (PCode {| b_locals := []; b_badlocals := false; b_ops := []; b_bad := true |})).
  eexists. split; [vm_compute; reflexivity|]. split; [vm_compute; reflexivity|]. vm_compute. discriminate.
Qed.
(** ... a body whose blocks are not nested at all *)
Theorem C52_structure_refuted : exists F m, load sg0 F = LErr m /\ chiwawa 60 F "sum" [[73; 51; 50; 40; 51; 41]%Z] = Exit 0 [MResult (VI32 6)] [].
Proof.
  exists (cut F0 9 (PCode {| b_locals := []; b_badlocals := false; b_ops := [FElse; FEnd]; b_bad := false |})).
  eexists. split; vm_compute; reflexivity.
Qed.
(** Whatever follows a malformed section is not looked at: the run is that of the file cut off behind it. *)
Lemma broken_part {A} (l : list (option A)) : broken l -> whole l = false.
Proof. induction l as [|[a|] l IH]; cbn; [now intros []|intros [E|I]; [discriminate E|auto]|auto]. Qed.
Theorem C52_rest_ignored : forall hf host sg ff E D cr k n A p B name ps, malformed p ->
  main hf host sg ff E D cr k n (A ++ p :: B) name ps = main hf host sg ff E D cr k n (A ++ [p]) name ps.
Proof.
  intros hf host sg ff E D cr k n A p B name ps MF. unfold main.
  assert (L : load sg (A ++ p :: B) = load sg (A ++ [p])).
  { unfold load. generalize empty_mod. induction A as [|q A IH]; intros m; cbn [app load_from].
    - assert (G : (exists m', load1 sg p m = LErr m') \/ load1 sg p m = LPanic).
      { destruct p; cbn [malformed] in MF; try contradiction; try (left; eexists; cbn [load1]; unfold after; rewrite (broken_part _ MF); reflexivity).
        - left. cbn [load1]. unfold load_body. rewrite MF. eauto.
        - left. cbn. eauto. }
      destruct G as [(m' & ->)| ->]; reflexivity.
    - destruct (load1 sg q m); auto. }
  unfold instance. now rewrite L.
Qed.
(** A file of a version this loader does not know is not run. *)
Theorem C52_version : forall n F name ps, chiwawa n (PVersion 2 :: F) name ps = Exit 1 [MNoExport] [].
Proof. reflexivity. Qed.

(** ** C53: invalid modules are rejected *)
(** Nothing is checked: two results where one is declared ... *)
Definition invalid1 : list payload :=
  [PVersion 1; PTypes (items [([], [TI32])]); PFuncs (items [0]); PExports (items [("f", ExFunc 0)]);
   PCode {| b_locals := []; b_badlocals := false; b_ops := [FBasic (BConst (VI32 1)); FBasic (BConst (VI32 2)); FEnd]; b_bad := false |}].
Theorem C53_extra_value_refuted : exists m, load sg0 invalid1 = LOk m /\ chiwawa 60 invalid1 "f" [] = Exit 0 [MResult (VI32 2)] [].
Proof. eexists. split; vm_compute; reflexivity. Qed.

(** ... no result where one is declared, or a local that does not exist: undefined behaviour *)
Definition invalid2 (ops : list fop) : list payload :=
  [PVersion 1; PTypes (items [([], [TI32])]); PFuncs (items [0]); PExports (items [("f", ExFunc 0)]);
   PCode {| b_locals := []; b_badlocals := false; b_ops := ops; b_bad := false |}].
Theorem C53_no_value_refuted : exists m, load sg0 (invalid2 [FEnd]) = LOk m /\ chiwawa 60 (invalid2 [FEnd]) "f" [] = Undefined_behaviour.
Proof. eexists. split; vm_compute; reflexivity. Qed.
Theorem C53_no_local_refuted : exists m, load sg0 (invalid2 [FBasic (BGet 5); FEnd]) = LOk m /\ chiwawa 60 (invalid2 [FBasic (BGet 5); FEnd]) "f" [] = Undefined_behaviour.
Proof. eexists. split; vm_compute; reflexivity. Qed.
(** ... a WASI function imported with any type at all *)
Theorem C53_import_type_refuted : forall hf host sg ff E D cr k n A l w ty ty' l' B name ps,
  main hf host sg ff E D cr k n (A ++ PImports (l ++ Some (WiFunc (Some w) ty) :: l') :: B) name ps =
  main hf host sg ff E D cr k n (A ++ PImports (l ++ Some (WiFunc (Some w) ty') :: l') :: B) name ps.
Proof.
  intros. unfold main. replace (instance sg (A ++ PImports (l ++ Some (WiFunc (Some w) ty) :: l') :: B)) with (instance sg (A ++ PImports (l ++ Some (WiFunc (Some w) ty') :: l') :: B)); [reflexivity|].
  unfold instance. f_equal. unfold load. generalize empty_mod. induction A as [|p A IH]; intros m; cbn [app load_from].
  - assert (W : whole (l ++ Some (WiFunc (Some w) ty') :: l') = whole (l ++ Some (WiFunc (Some w) ty) :: l')) by (induction l as [|[x|] l IHl]; cbn; auto).
    assert (U : map (to_import sg) (upto (l ++ Some (WiFunc (Some w) ty') :: l')) = map (to_import sg) (upto (l ++ Some (WiFunc (Some w) ty) :: l'))).
    { clear W. induction l as [|[x|] l IHl]; cbn; auto. now rewrite IHl. }
    cbn [load1]. rewrite W, U. reflexivity.
  - destruct (load1 sg p m); auto.
Qed.

(** ** C55: the parameters given are the arguments passed *)
(** Exactly the decimal numerals of numbers of the type are accepted ... *)
Theorem C55_integers : forall w s z, parse_int w s = Some z <-> numeral s z /\ in_s w z.
Proof. exact parse_int_spec. Qed.
(** ... and well-written parameters become the values they denote, in order, whatever their number *)
Theorem C55_parameters : forall ff vs ss, Forall val_ok vs -> Forall2 (written ff) vs ss -> parse_params ff ss = Some vs.
Proof. exact parse_written_all. Qed.
(** what is not a numeral of the type is not accepted *)
Theorem C55_rejects : forall ff (c : cls) t, ~ In 10%Z t -> contains I32s (t ++ [41%Z]) = false -> (forall z, numeral t z -> ~ in_s (if cls_eqb c CI32 then 32 else 64) z) ->
  parse_param ff ((if cls_eqb c CI32 then [73; 51; 50; 40] else [73; 54; 52; 40])%Z ++ t ++ [41%Z]) = None.
Proof.
  intros ff c t N NI H. unfold parse_param. destruct (cls_eqb c CI32).
  - change (contains I32s ([73; 51; 50; 40]%Z ++ t ++ [41%Z])) with true. cbv iota.
    change (capture ([73; 51; 50; 40]%Z ++ t ++ [41%Z])) with (match up_to_close (t ++ [41%Z]) with Some t => Some t | None => capture (t ++ [41%Z]) end).
    rewrite up_to_close_ok by auto. destruct (parse_int 32 t) as [z|] eqn:P; auto. apply parse_int_spec in P as [P1 P2]. now destruct (H z P1).
  - replace (contains I32s ([73; 54; 52; 40]%Z ++ t ++ [41%Z])) with false by (symmetry; exact NI).
    change (contains I64s ([73; 54; 52; 40]%Z ++ t ++ [41%Z])) with true. cbv iota.
    change (capture ([73; 54; 52; 40]%Z ++ t ++ [41%Z])) with (match up_to_close (t ++ [41%Z]) with Some t => Some t | None => capture (t ++ [41%Z]) end).
    rewrite up_to_close_ok by auto. destruct (parse_int 64 t) as [z|] eqn:P; auto. apply parse_int_spec in P as [P1 P2]. now destruct (H z P1).
Qed.
(** Whatever is accepted as a number is the numeral, of its type, in the parentheses: between the first opening
    one that is closed on its line and the last one closing there. *)
Theorem C55_value : forall ff s v, parse_param ff s = Some [v] -> exists t, enclosed s t /\
  match v with
  | VI32 z => numeral t z /\ in_s 32 z
  | VI64 z => numeral t z /\ in_s 64 z
  | VF32 b => ff CF32 t = Some b
  | VF64 b => ff CF64 t = Some b
  | _ => False
  end.
Proof.
  intros ff s v. unfold parse_param. destruct (capture s) as [t|] eqn:C.
  2: { destruct (contains I32s s); [discriminate|]. destruct (contains I64s s); [discriminate|]. destruct (contains F32s s); [discriminate|]. destruct (contains F64s s); discriminate. }
  intros H. exists t. split; [now apply capture_spec|]. destruct (contains I32s s).
  { destruct (parse_int 32 t) as [z|] eqn:P; [|discriminate H]. injection H as <-. now apply parse_int_spec. }
  destruct (contains I64s s). { destruct (parse_int 64 t) as [z|] eqn:P; [|discriminate H]. injection H as <-. now apply parse_int_spec. }
  destruct (contains F32s s). { destruct (ff CF32 t) as [z|] eqn:P; [|discriminate H]. now injection H as <-. }
  destruct (contains F64s s); [|discriminate H]. destruct (ff CF64 t) as [z|] eqn:P; [|discriminate H]. now injection H as <-.
Qed.
Example C55_value_example : parse_param ff0 [73; 51; 50; 40; 55; 41; 10; 41]%Z = Some [VI32 7] /\ parse_param ff0 [73; 51; 50; 40; 55; 40]%Z = None.
Proof. split; vm_compute; reflexivity. Qed.
(** nor is a type name without a parenthesis *)
Theorem C55_parenthesis : forall ff s, existsb (fun t => contains t s) [I32s; I64s; F32s; F64s] = true -> ~ In 40%Z s -> parse_param ff s = None.
Proof.
  intros ff s C N. assert (K : capture s = None).
  { clear C. induction s as [|c s IH]; [reflexivity|]. cbn [capture]. cbn [In] in N. destruct (Z.eqb_spec c 40) as [->|]; [now destruct N; left|]. apply IH. tauto. }
  unfold parse_param. rewrite K. cbn [existsb] in C.
  destruct (contains I32s s); [reflexivity|]. destruct (contains I64s s); [reflexivity|]. destruct (contains F32s s); [reflexivity|]. destruct (contains F64s s); [reflexivity|discriminate].
Qed.
Example C55_example : Forall2 (written ff0) [VI32 (-12); VI64 7] [[73; 51; 50; 40; 45; 49; 50; 41]; [73; 54; 52; 40; 43; 48; 55; 41]]%Z /\
  Forall val_ok [VI32 (-12); VI64 7].
Proof.
  split; [|repeat constructor; cbn; lia].
  constructor; [|constructor; [|constructor]].
  - exists [45; 49; 50]%Z. split; [|reflexivity]. apply (num_minus [49; 50]%Z 12). apply (nat_more [49]%Z 1 2); [apply (nat_digit 1); lia|lia].
  - exists [43; 48; 55]%Z. split; [|reflexivity]. apply (num_plus [48; 55]%Z 7). apply (nat_more [48]%Z 0 7); [apply (nat_digit 0); lia|lia].
Qed.
(** A parameter that is none of these is dropped without a word ... *)
Definition ident : list payload :=
  [PVersion 1; PTypes (items [([TI32], [TI32])]); PFuncs (items [0]); PExports (items [("f", ExFunc 0)]);
   PCode {| b_locals := []; b_badlocals := false; b_ops := [FBasic (BGet 0); FEnd]; b_bad := false |}].
Theorem C55_dropped_refuted : forall ff s, ~ In 73%Z s -> ~ In 70%Z s -> parse_param ff s = Some [].
Proof. intros ff s H1 H2. unfold parse_param, I32s, I64s, F32s, F64s. rewrite !contains_no by auto. reflexivity. Qed.
Theorem C55_dropped_run_refuted : chiwawa 60 ident "f" [[120]; [73; 51; 50; 40; 51; 41]]%Z = Exit 0 [MResult (VI32 3)] [].
Proof. vm_compute. reflexivity. Qed.
(** ... and types are not compared: an i64 for an i32 parameter is taken, and read as 0 *)
Theorem C55_type_refuted : chiwawa 60 ident "f" [[73; 54; 52; 40; 51; 41]]%Z = Exit 0 [MResult (VI32 0)] [].
Proof. vm_compute. reflexivity. Qed.

(** ** C56: from the file to the report *)
(** chiwawa run on a file that presents a valid module (within the restrictions of C23), without a
    checkpoint request: the instance is the one of the standard, and it stops with a report exactly if
    the standard's execution of the invoked function ends, and the report is then that of its outcome:
    last result, exit code, host calls made.  Missing: the restrictions of [Restrict.within] and
    [handled], and the runs through the excluded points ([clear]). *)
Theorem C56_end_to_end_partial : forall hf host sg ff E D cr W gs F name f d args ss,
  presents sg W F -> sound W gs -> handled W -> Forall one_result (sm_funcs (w_code W)) -> Restrict.within (w_code W) = true ->
  forallb (modest (w_code W)) (sm_funcs (w_code W)) = true ->
  (cr = false \/ forall t, request E t = false) ->
  In (name, ExFunc f) (w_exports W) -> nth_error (sm_funcs (w_code W)) f = Some (SWasm d) ->
  Forall2 has_type (fst (sf_type d)) args -> Forall2 (written ff) args ss ->
  exists I fds fs, instance sg F = Some I /\ instance_of (with_code W fds) fs gs I /\
    ((forall n, clear hf host (w_code W) n f args (mi_inst I)) ->
     forall r, r <> Running ->
      ((exists k n, main hf host sg ff E D cr k n F name ss = r) <->
       (exists n o, as_outcome (invoke (wasm_prims hf) host (w_code W) n f args (mi_inst I)) = Some o /\ r = reported o))).
Proof. exact end_to_end. Qed.
Definition host1 : hostfn := fun log => match log with (_, [VI32 z], _) :: _ => HoExit z | _ => HoErr end.
Definition I0 : minst := match instance sg0 F0 with Some x => x | None => {| mi_modul := {| md_funcs := []; md_types := [] |}; mi_inst := inst0; mi_exports := [] |} end.
Example C56_example : presents sg0 W0 F0 /\ sound W0 [VI32 7] /\ handled W0 /\ Forall one_result (sm_funcs (w_code W0)) /\ Restrict.within (w_code W0) = true /\
  forallb (modest (w_code W0)) (sm_funcs (w_code W0)) = true /\ In ("quit", ExFunc 2) (w_exports W0) /\
  Forall2 has_type [TI32] [VI32 3] /\ Forall2 (written ff0) [VI32 3] [[73; 51; 50; 40; 51; 41]%Z] /\
  instance sg0 F0 = Some I0 /\ (forall n, clear hf0 host1 (w_code W0) n 2 [VI32 3] (mi_inst I0)) /\
  (exists log, invoke (wasm_prims hf0) host1 (w_code W0) 9 2 [VI32 3] (mi_inst I0) = OExit 6 log) /\
  exists log, main hf0 host1 sg0 ff0 E0 LoopStyle false 60 60 F0 "quit" [[73; 51; 50; 40; 51; 41]%Z] = Exit 6 [] log.
Proof.
  split; [exact F0_presents|]. split; [exact W0_sound|]. split; [exact W0_handled|]. split; [repeat constructor|]. split; [reflexivity|].
  split; [reflexivity|]. split; [right; left; reflexivity|]. split; [repeat constructor; cbn; lia|].
  split; [constructor; [|constructor]; exists [51]%Z; split; [apply num_plain; apply (nat_digit 3); lia|reflexivity]|].
  split; [vm_compute; reflexivity|].
  split; [apply (clear_all hf0 host1 (w_code W0) 9); vm_compute; discriminate|]. split; eexists; vm_compute; reflexivity.
Qed.

(** ** C54: the exit status and the printed result *)
(** proc_exit's code is the exit status, nothing else is printed; a returning program prints its last
    result (if any) and has status 0. *)
Theorem C54_status_partial : forall hf host sg ff E D cr W gs F name f d args ss I,
  presents sg W F -> sound W gs -> handled W -> Forall one_result (sm_funcs (w_code W)) -> Restrict.within (w_code W) = true ->
  forallb (modest (w_code W)) (sm_funcs (w_code W)) = true -> (cr = false \/ forall t, request E t = false) ->
  In (name, ExFunc f) (w_exports W) -> nth_error (sm_funcs (w_code W)) f = Some (SWasm d) ->
  Forall2 has_type (fst (sf_type d)) args -> Forall2 (written ff) args ss -> instance sg F = Some I ->
  (forall n, clear hf host (w_code W) n f args (mi_inst I)) ->
  (forall n z log, invoke (wasm_prims hf) host (w_code W) n f args (mi_inst I) = OExit z log ->
     exists k m, main hf host sg ff E D cr k m F name ss = Exit z [] log) /\
  (forall n vs v x, invoke (wasm_prims hf) host (w_code W) n f args (mi_inst I) = ONorm (vs ++ [v]) x ->
     exists k m, main hf host sg ff E D cr k m F name ss = Exit 0 [MResult v] (x_log x)) /\
  (forall n x, invoke (wasm_prims hf) host (w_code W) n f args (mi_inst I) = ONorm [] x ->
     exists k m, main hf host sg ff E D cr k m F name ss = Exit 0 [] (x_log x)).
Proof.
  intros hf host sg ff E D cr W gs F name f d args ss I P S H O WI MD Q EX N TA WR EI CL.
  destruct (end_to_end hf host sg ff E D cr W gs F name f d args ss P S H O WI MD Q EX N TA WR) as (I' & fds & fs & EI' & _ & G).
  rewrite EI in EI'. injection EI' as <-. specialize (G CL).
  assert (K : forall n o, as_outcome (invoke (wasm_prims hf) host (w_code W) n f args (mi_inst I)) = Some o -> exists k m, main hf host sg ff E D cr k m F name ss = reported o).
  { intros n o A. apply (G (reported o) (reported_ne o)). eauto. }
  split; [|split]; intros n; intros.
  - apply (K n (Exited z log)). now rewrite H0.
  - destruct (K n (Done (vs ++ [v])%list (x_inst x) (x_log x))) as (k & m & A); [now rewrite H0|]. exists k, m. rewrite A. cbn [reported]. now rewrite rev_unit.
  - apply (K n (Done [] (x_inst x) (x_log x))). now rewrite H0.
Qed.
(** A failed execution is reported as a success: status 0 after a trap, and when the parameters do not
    fit the function. *)
Definition trapper : list payload :=
  [PVersion 1; PTypes (items [([], [])]); PFuncs (items [0]); PExports (items [("f", ExFunc 0)]);
   PCode {| b_locals := []; b_badlocals := false; b_ops := [FUnreachable; FEnd]; b_bad := false |}].
Theorem C54_trap_refuted : exists t, chiwawa 60 trapper "f" [] = Exit 0 [MExecution t] [].
Proof. eexists. vm_compute. reflexivity. Qed.
Theorem C54_parameter_count_refuted : chiwawa 60 ident "f" [] = Exit 0 [MInit] [].
Proof. vm_compute. reflexivity. Qed.
(** An exported import cannot be invoked, whatever the module: the error is printed, the status is 0. *)
Theorem C54_import_refuted : forall hf host sg ff E D cr k n W gs F name f w t ss args,
  presents sg W F -> sound W gs -> handled W -> Forall one_result (sm_funcs (w_code W)) -> Restrict.within (w_code W) = true ->
  forallb (modest (w_code W)) (sm_funcs (w_code W)) = true -> In (name, ExFunc f) (w_exports W) ->
  nth_error (sm_funcs (w_code W)) f = Some (SWasi w t) -> parse_params ff ss = Some args ->
  main hf host sg ff E D cr k n F name ss = Exit 0 [MInit] [].
Proof.
  intros hf host sg ff E D cr k n W gs F name f w t ss args P S H O WI MD EX N PA.
  destruct (C42_modest _ (so_code _ _ S) O (within_known _ WI) MD) as (M & C & Sm).
  destruct (instance_loaded sg W gs F M P S H C) as (I & fds & EI & IO & EM).
  assert (EF : get_export_func I name = Some f) by (apply (io_exports _ _ _ _ IO (so_names _ _ S)); exact EX).
  assert (NF : exists w' t', nth_error (md_funcs M) f = Some (FWasi w' t')).
  { destruct (C51_shape _ M C) as [FA _]. clear -FA N. revert f N. induction FA as [|a b la lb K FA IH]; intros [|f] N; try discriminate; cbn [nth_error] in N |- *.
    - injection N as ->. destruct b as [e|w' t']; cbn in K; [contradiction|eauto].
    - now apply IH. }
  destruct NF as (w' & t' & NF). unfold main. rewrite EI, EF, PA. unfold start. rewrite EM, NF. reflexivity.
Qed.
Example C54_import_example : In ("exit", ExFunc 0) (w_exports W0) /\ nth_error (sm_funcs (w_code W0)) 0 = Some (SWasi 0 ty1) /\
  parse_params ff0 [[73; 51; 50; 40; 51; 41]%Z] = Some [VI32 3] /\ chiwawa 60 F0 "exit" [[73; 51; 50; 40; 51; 41]%Z] = Exit 0 [MInit] [].
Proof. split; [right; right; right; left; reflexivity|]. repeat split; vm_compute; reflexivity. Qed.
