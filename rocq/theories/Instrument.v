(** Instrumentation: the index of an instruction (src/execution/ir.rs 248-290), execution statistics
    (src/execution/stats.rs), traces (src/execution/trace.rs), and what the runtime and the command
    line do with them (src/execution/runtime.rs 22-124, src/main.rs 25-50, 132-230). *)
From Coq Require Import String ZArith List Bool.
From Verif Require Import Word Value Numeric Float Mem Store Regs IR Machine Decoder Runtime Module Load Indexes.
Import ListNotations.
Open Scope Z_scope.

(** ** indexes *)
Definition by_w (w : iw) (a b : Z) : Z := match w with W32 => a | W64 => b end.
Definition by_f (f : fty) (a b : Z) : Z := match f with FT32 => a | FT64 => b end.
Definition by_s (s : sx) (a b : Z) : Z := match s with Sx => a | Ux => b end.
(** the [handler_index] the parser puts into an instruction: the constant named after the operator it
    translates, in parser.rs 2149-7030 *)
Definition op1_index (o : op1) : Z :=
  match o with
  | U_int w Iclz => by_w w IX_I32_CLZ IX_I64_CLZ | U_int w Ictz => by_w w IX_I32_CTZ IX_I64_CTZ
  | U_int w Ipopcnt => by_w w IX_I32_POPCNT IX_I64_POPCNT
  | U_int w Iext8 => by_w w IX_I32_EXTEND8_S IX_I64_EXTEND8_S | U_int w Iext16 => by_w w IX_I32_EXTEND16_S IX_I64_EXTEND16_S
  | U_int _ Iext32 => IX_I64_EXTEND32_S
  | U_eqz w => by_w w IX_I32_EQZ IX_I64_EQZ
  | U_flt f (FUround Fceil) => by_f f IX_F32_CEIL IX_F64_CEIL | U_flt f (FUround Ffloor) => by_f f IX_F32_FLOOR IX_F64_FLOOR
  | U_flt f (FUround Ftrunc) => by_f f IX_F32_TRUNC IX_F64_TRUNC | U_flt f (FUround Fnearest) => by_f f IX_F32_NEAREST IX_F64_NEAREST
  | U_flt f (FUround Fsqrt) => by_f f IX_F32_SQRT IX_F64_SQRT
  | U_flt f FUabs => by_f f IX_F32_ABS IX_F64_ABS | U_flt f FUneg => by_f f IX_F32_NEG IX_F64_NEG
  end.
Definition op2_index (o : op2) : Z :=
  match o with
  | B_int w Iadd => by_w w IX_I32_ADD IX_I64_ADD | B_int w Isub => by_w w IX_I32_SUB IX_I64_SUB | B_int w Imul => by_w w IX_I32_MUL IX_I64_MUL
  | B_int w Idiv_s => by_w w IX_I32_DIV_S IX_I64_DIV_S | B_int w Idiv_u => by_w w IX_I32_DIV_U IX_I64_DIV_U
  | B_int w Irem_s => by_w w IX_I32_REM_S IX_I64_REM_S | B_int w Irem_u => by_w w IX_I32_REM_U IX_I64_REM_U
  | B_int w Iand => by_w w IX_I32_AND IX_I64_AND | B_int w Ior => by_w w IX_I32_OR IX_I64_OR | B_int w Ixor => by_w w IX_I32_XOR IX_I64_XOR
  | B_int w Ishl => by_w w IX_I32_SHL IX_I64_SHL | B_int w Ishr_s => by_w w IX_I32_SHR_S IX_I64_SHR_S | B_int w Ishr_u => by_w w IX_I32_SHR_U IX_I64_SHR_U
  | B_int w Irotl => by_w w IX_I32_ROTL IX_I64_ROTL | B_int w Irotr => by_w w IX_I32_ROTR IX_I64_ROTR
  | B_irel w Ieq => by_w w IX_I32_EQ IX_I64_EQ | B_irel w Ine => by_w w IX_I32_NE IX_I64_NE
  | B_irel w Ilt_s => by_w w IX_I32_LT_S IX_I64_LT_S | B_irel w Ilt_u => by_w w IX_I32_LT_U IX_I64_LT_U
  | B_irel w Igt_s => by_w w IX_I32_GT_S IX_I64_GT_S | B_irel w Igt_u => by_w w IX_I32_GT_U IX_I64_GT_U
  | B_irel w Ile_s => by_w w IX_I32_LE_S IX_I64_LE_S | B_irel w Ile_u => by_w w IX_I32_LE_U IX_I64_LE_U
  | B_irel w Ige_s => by_w w IX_I32_GE_S IX_I64_GE_S | B_irel w Ige_u => by_w w IX_I32_GE_U IX_I64_GE_U
  | B_flt f (FBarith Fadd) => by_f f IX_F32_ADD IX_F64_ADD | B_flt f (FBarith Fsub) => by_f f IX_F32_SUB IX_F64_SUB
  | B_flt f (FBarith Fmul) => by_f f IX_F32_MUL IX_F64_MUL | B_flt f (FBarith Fdiv) => by_f f IX_F32_DIV IX_F64_DIV
  | B_flt f FBmin => by_f f IX_F32_MIN IX_F64_MIN | B_flt f FBmax => by_f f IX_F32_MAX IX_F64_MAX | B_flt f FBcopysign => by_f f IX_F32_COPYSIGN IX_F64_COPYSIGN
  | B_frel f Feq => by_f f IX_F32_EQ IX_F64_EQ | B_frel f Fne => by_f f IX_F32_NE IX_F64_NE
  | B_frel f Flt => by_f f IX_F32_LT IX_F64_LT | B_frel f Fgt => by_f f IX_F32_GT IX_F64_GT
  | B_frel f Fle => by_f f IX_F32_LE IX_F64_LE | B_frel f Fge => by_f f IX_F32_GE IX_F64_GE
  end.
Definition cvt_index (o : cvt) : Z :=
  match o with
  | C_wrap => IX_I32_WRAP_I64 | C_ext s => by_s s IX_I64_EXTEND_I32_S IX_I64_EXTEND_I32_U
  | C_trunc W32 f s => by_f f (by_s s IX_I32_TRUNC_F32_S IX_I32_TRUNC_F32_U) (by_s s IX_I32_TRUNC_F64_S IX_I32_TRUNC_F64_U)
  | C_trunc W64 f s => by_f f (by_s s IX_I64_TRUNC_F32_S IX_I64_TRUNC_F32_U) (by_s s IX_I64_TRUNC_F64_S IX_I64_TRUNC_F64_U)
  | C_trunc_sat W32 f s => by_f f (by_s s IX_I32_TRUNC_SAT_F32_S IX_I32_TRUNC_SAT_F32_U) (by_s s IX_I32_TRUNC_SAT_F64_S IX_I32_TRUNC_SAT_F64_U)
  | C_trunc_sat W64 f s => by_f f (by_s s IX_I64_TRUNC_SAT_F32_S IX_I64_TRUNC_SAT_F32_U) (by_s s IX_I64_TRUNC_SAT_F64_S IX_I64_TRUNC_SAT_F64_U)
  | C_convert FT32 w s => by_w w (by_s s IX_F32_CONVERT_I32_S IX_F32_CONVERT_I32_U) (by_s s IX_F32_CONVERT_I64_S IX_F32_CONVERT_I64_U)
  | C_convert FT64 w s => by_w w (by_s s IX_F64_CONVERT_I32_S IX_F64_CONVERT_I32_U) (by_s s IX_F64_CONVERT_I64_S IX_F64_CONVERT_I64_U)
  | C_demote => IX_F32_DEMOTE_F64 | C_promote => IX_F64_PROMOTE_F32
  | C_f2i w => by_w w IX_I32_REINTERPRET_F32 IX_I64_REINTERPRET_F64 | C_i2f w => by_w w IX_F32_REINTERPRET_I32 IX_F64_REINTERPRET_I64
  end.
Definition load_index (o : loadop) : Z :=
  match o with
  | LI32 => IX_I32_LOAD | LI64 => IX_I64_LOAD | LF32 => IX_F32_LOAD | LF64 => IX_F64_LOAD
  | LI32_8s => IX_I32_LOAD8_S | LI32_8u => IX_I32_LOAD8_U | LI32_16s => IX_I32_LOAD16_S | LI32_16u => IX_I32_LOAD16_U
  | LI64_8s => IX_I64_LOAD8_S | LI64_8u => IX_I64_LOAD8_U | LI64_16s => IX_I64_LOAD16_S | LI64_16u => IX_I64_LOAD16_U
  | LI64_32s => IX_I64_LOAD32_S | LI64_32u => IX_I64_LOAD32_U
  end.
Definition store_index (o : storeop) : Z :=
  match o with
  | SI32 => IX_I32_STORE | SI64 => IX_I64_STORE | SF32 => IX_F32_STORE | SF64 => IX_F64_STORE
  | SI32_8 => IX_I32_STORE8 | SI32_16 => IX_I32_STORE16 | SI64_8 => IX_I64_STORE8 | SI64_16 => IX_I64_STORE16 | SI64_32 => IX_I64_STORE32
  end.
(** a constant of each numeric class; reference and vector classes have none (0: unused) *)
Definition by_c (c : cls) (a b e d : Z) : Z := match c with CI32 => a | CI64 => b | CF32 => e | CF64 => d | _ => 0 end.
Definition sop_index (o : sop) : Z :=
  match o with
  | SNum1 o => op1_index o | SNum2 o => op2_index o | SCvt o => cvt_index o
  | SLoad o _ => load_index o | SStore o _ => store_index o
  | SMemSize => IX_MEMORY_SIZE | SMemGrow => IX_MEMORY_GROW | SMemCopy => IX_MEMORY_COPY | SMemInit _ => IX_MEMORY_INIT | SMemFill => IX_MEMORY_FILL
  | SDataDrop _ => IX_DATA_DROP
  | SGlobalGet t _ => by_c (class_of t) IX_GLOBAL_GET_I32 IX_GLOBAL_GET_I64 IX_GLOBAL_GET_F32 IX_GLOBAL_GET_F64
  | SGlobalSet t _ => by_c (class_of t) IX_GLOBAL_SET_I32 IX_GLOBAL_SET_I64 IX_GLOBAL_SET_F32 IX_GLOBAL_SET_F64
  | SRefNull _ => IX_REF_NULL | SRefIsNull => IX_REF_IS_NULL
  | STableGet _ _ => IX_TABLE_GET | STableSet _ _ => IX_TABLE_SET | STableFill _ _ => IX_TABLE_FILL
  end.
(** ir.rs 248-290.  [tee]: whether the instruction was emitted for a local.tee: such an instruction has
    the index LOCAL_TEE, except for i32 (parser.rs 2117) and references (2136). *)
Definition handler_index (tee : bool) (i : instr) : Z :=
  match i with
  | IMov c (DReg _) (OConst _) => by_c c IX_I32_CONST IX_I64_CONST IX_F32_CONST IX_F64_CONST
  | IMov c (DReg _) _ => IX_LOCAL_GET
  | IMov c (DLoc _) _ => if tee && negb (cls_eqb c CI32) then IX_LOCAL_TEE else IX_LOCAL_SET
  | IOp o _ _ => sop_index o
  | ISelect c _ _ _ _ => by_c c IX_SELECT_I32 IX_SELECT_I64 IX_SELECT_F32 IX_SELECT_F64
  | IRefGet _ _ => IX_REF_LOCAL_GET | IRefSet _ _ => IX_REF_LOCAL_SET
  | ICallWasi _ _ _ => IX_CALL_WASI | ICallInd _ _ _ _ _ => IX_CALL_INDIRECT | ICall _ _ _ => IX_CALL
  | IReturn _ => IX_RETURN | IJump _ => IX_ELSE | IBlock false => IX_BLOCK | IBlock true => IX_LOOP
  | IIf _ _ _ => IX_IF | IEnd _ _ => IX_END | IBr _ _ _ _ => IX_BR | IBrIf _ _ _ _ _ => IX_BR_IF | IBrTable _ _ _ _ => IX_BR_TABLE
  | INop => IX_NOP | IUnreachable => IX_UNREACHABLE
  end.
(** the variant of [ProcessedInstr] (ir.rs 107-245); [None]: one without an index *)
Definition reg_family (c : cls) : option family :=
  match c with CI32 => Some I32Reg | CI64 => Some I64Reg | CF32 => Some F32Reg | CF64 => Some F64Reg | _ => None end.
Definition family_of (i : instr) : option family :=
  match i with
  | IMov c _ _ => reg_family c
  | IOp (SNum1 o) _ _ => reg_family (class_of (op1_arg o))
  | IOp (SNum2 o) _ _ => reg_family (class_of (op2_arg o))
  | IOp (SCvt _) _ _ => Some ConversionReg
  | IOp (SLoad _ _) _ _ => Some MemoryLoadReg | IOp (SStore _ _) _ _ => Some MemoryStoreReg
  | IOp (SMemSize | SMemGrow | SMemCopy | SMemInit _ | SMemFill) _ _ => Some MemoryOpsReg
  | IOp (SGlobalGet _ _) _ _ => Some GlobalGetReg | IOp (SGlobalSet _ _) _ _ => Some GlobalSetReg
  | IOp (SRefNull _ | SRefIsNull | STableGet _ _ | STableSet _ _ | STableFill _ _) _ _ => Some TableRefReg
  | ISelect _ _ _ _ _ => Some SelectReg
  | IRefGet _ _ | IRefSet _ _ => Some RefLocalReg
  | _ => None
  end.

(** ** statistics, stats.rs *)
(** stats.rs 10-21: counters of type u64; the hash map as the list of its entries *)
Record stats := { st_total : Z; st_per : list (Z * Z) }.
Definition stats_new : stats := {| st_total := 0; st_per := [] |}.
Definition u64 (z : Z) : Z := z mod 2 ^ 64.
(** [entry(i).or_insert(0)], then [fetch_add(1)] *)
Fixpoint bump (i : Z) (l : list (Z * Z)) : list (Z * Z) :=
  match l with
  | [] => [(i, 1)]
  | (j, n) :: l => if i =? j then (j, u64 (n + 1)) :: l else (j, n) :: bump i l
  end.
(** stats.rs 23-30 *)
Definition record_instruction (s : stats) (i : Z) : stats := {| st_total := u64 (st_total s + 1); st_per := bump i (st_per s) |}.
(** stats.rs 288-320: what is printed: the total and, unless it is 0, the 20 most frequent entries and
    the number of the others.  [order]: the order in which the hash map lists its entries.
    Simplification: the percentage, a function of count and total, is left out. *)
Record summary := { sm_total : Z; sm_top : list (string * Z); sm_more : nat }.
(** [sort_by(|a, b| b.1.cmp(&a.1))], a stable sort, largest count first *)
Fixpoint insert (e : Z * Z) (l : list (Z * Z)) : list (Z * Z) :=
  match l with [] => [e] | x :: l' => if snd x <=? snd e then e :: l else x :: insert e l' end.
Fixpoint sorted_counts (l : list (Z * Z)) : list (Z * Z) := match l with [] => [] | e :: l => insert e (sorted_counts l) end.
Definition stats_report (order : list (Z * Z) -> list (Z * Z)) (s : stats) : summary :=
  if st_total s =? 0 then {| sm_total := 0; sm_top := []; sm_more := 0 |}
  else let cs := sorted_counts (order (st_per s)) in
       {| sm_total := st_total s; sm_top := map (fun e => (stats_name (fst e), snd e)) (firstn 20 cs); sm_more := length cs - 20 |}.

(** ** traces, trace.rs *)
(** [to_lowercase] on the letters these words consist of; strings as lists of code points *)
Definition lower (c : Z) : Z := if (65 <=? c) && (c <=? 90) then c + 32 else c.
Definition is_word (w s : list Z) : bool := if list_eq_dec Z.eq_dec (map lower s) w then true else false.
Definition w_all := [97; 108; 108]. Definition w_store := [115; 116; 111; 114; 101]. Definition w_load := [108; 111; 97; 100].
Definition w_call := [99; 97; 108; 108]. Definition w_branch := [98; 114; 97; 110; 99; 104].
Definition w_pc := [112; 99]. Definition w_regs := [114; 101; 103; 115]. Definition w_memory := [109; 101; 109; 111; 114; 121].
Definition w_locals := [108; 111; 99; 97; 108; 115]. Definition w_globals := [103; 108; 111; 98; 97; 108; 115].
Inductive tevent := TAll | TStore | TLoad | TCall | TBranch.
Inductive tresource := RPc | RRegs | RMemory | RLocals | RGlobals.
(** trace.rs 24-34, 48-58 *)
Definition event_of (s : list Z) : option tevent :=
  if is_word w_all s then Some TAll else if is_word w_store s then Some TStore else if is_word w_load s then Some TLoad
  else if is_word w_call s then Some TCall else if is_word w_branch s then Some TBranch else None.
Definition resource_of (s : list Z) : option tresource :=
  if is_word w_pc s then Some RPc else if is_word w_regs s then Some RRegs else if is_word w_memory s then Some RMemory
  else if is_word w_locals s then Some RLocals else if is_word w_globals s then Some RGlobals else None.
(** trace.rs 61-103 *)
Record tconfig := { tc_events : list tevent; tc_resources : list tresource; tc_output : option (list Z) }.
Fixpoint filter_map {A B} (f : A -> option B) (l : list A) : list B :=
  match l with [] => [] | a :: l => match f a with Some b => b :: filter_map f l | None => filter_map f l end end.
Definition trace_config (evs rs : option (list (list Z))) (out : option (list Z)) : tconfig :=
  {| tc_events := match evs with Some l => filter_map event_of l | None => [TAll] end;
     tc_resources := match rs with Some l => filter_map resource_of l | None => [RPc; RRegs; RLocals; RGlobals] end;
     tc_output := out |}.
(** trace.rs 106-143 *)
Definition selects (e : tevent) (x : Z) : bool :=
  match e with
  | TAll => true
  | TStore => (IX_I32_STORE <=? x) && (x <=? IX_I64_STORE32)
  | TLoad => (IX_I32_LOAD <=? x) && (x <=? IX_I64_LOAD32_U)
  | TCall => (x =? IX_CALL) || (x =? IX_CALL_INDIRECT)
  | TBranch => (x =? IX_BR) || (x =? IX_BR_IF) || (x =? IX_BR_TABLE)
  end.
Definition should_trace_event (c : tconfig) (x : Z) : bool := existsb (fun e => selects e x) (tc_events c).
(** trace.rs 164-216, 218-300.  A line, as the list of its parts.
    Simplification: the formatting of numbers is left out; of a reference only its kind is printed. *)
Inductive shown := ShVal (v : val) | ShNull | ShFunc | ShExtern.
Definition show (v : val) : shown := match v with VRef RNull => ShNull | VRef (RFunc _) => ShFunc | VRef (RExtern _) => ShExtern | v => ShVal v end.
Inductive tpart := PPc (ip : Z) | PInstr (name : string) | PRegs (i32s i64s f32s f64s : list val) | PLocals (l : list shown) | PGlobals (l : list shown).
Definition wants (c : tconfig) (r : tresource) : bool :=
  existsb (fun x => match x, r with RPc, RPc | RRegs, RRegs | RMemory, RMemory | RLocals, RLocals | RGlobals, RGlobals => true | _, _ => false end) (tc_resources c).
Definition trace_instruction (c : tconfig) (ip x : Z) (rf : regfile) (locals globals : list val) : option (list tpart) :=
  if should_trace_event c x
  then Some ((if wants c RPc then [PPc ip] else []) ++ [PInstr (trace_name x)]
             ++ (if wants c RRegs then [PRegs (sget (rf_vecs rf) CI32) (sget (rf_vecs rf) CI64) (sget (rf_vecs rf) CF32) (sget (rf_vecs rf) CF64)] else [])
             ++ (if wants c RLocals then [PLocals (map show locals)] else [])
             ++ (if wants c RGlobals then [PGlobals (map show globals)] else []))
  else None.

(** ** the runtime and the command *)
(** how chiwawa was compiled (the cargo features), and the instrumentation options of the command line, main.rs 32-50 *)
Record build := { b_stats : bool; b_trace : bool }.
Record flags := { f_stats : bool; f_trace : bool; f_events : option (list (list Z)); f_resources : option (list (list Z)); f_output : option (list Z) }.
(** on stderr, besides the messages of [report] *)
Inductive note := NoStatsFeature | NoTraceFeature | NoTracer | Statistics (s : summary) | TraceLine (l : list tpart).
(** the instrumentation of a Runtime (runtime.rs 23-33): the statistics and the tracer with what it has written *)
Record probes := { pr_stats : option stats; pr_tracer : option tconfig; pr_lines : list (list tpart) }.
Section Instrumented.
  Variables (B : build) (fl : flags).
  (** whether the file named by --trace-output can be created, and the order of the hash map *)
  Variables (creates : bool) (order : list (Z * Z) -> list (Z * Z)).
  (** main.rs 134-144 *)
  Definition warnings : list note :=
    (if negb (b_stats B) && f_stats fl then [NoStatsFeature] else []) ++ (if negb (b_trace B) && f_trace fl then [NoTraceFeature] else []).
  (** runtime.rs 50-86, 90-124; trace.rs 152-162 *)
  Definition tracing : bool := b_trace B && f_trace fl.
  Definition opened : bool := match f_output fl with Some _ => creates | None => true end.
  Definition new_probes : probes :=
    {| pr_stats := if f_stats fl then Some stats_new else None;
       pr_tracer := if tracing && opened then Some (trace_config (f_events fl) (f_resources fl) (f_output fl)) else None;
       pr_lines := [] |}.
  Definition new_notes : list note := if tracing && negb opened then [NoTracer] else [].
  (** runtime.rs 36-47 (Drop), when the Runtime goes out of scope at the end of main *)
  Definition drop_notes (p : probes) : list note :=
    if b_stats B && f_stats fl then match pr_stats p with Some s => [Statistics (stats_report order s)] | None => [] end else [].
  (** [run] (runtime.rs 201-425), the dispatchers (dispatch_loop.rs, dispatch_tco.rs) and the handlers use neither [execution_stats] nor
      [tracer]: the probes stay what they are. *)
  Definition run_probes (r : rout) (p : probes) : rout * probes := (r, p).
  (** What a run leaves on stderr.  proc_exit ends the process inside of [run], and so does a panic
      (Cargo.toml: panic = abort): then nothing is dropped.  [panics]: whether a run that ended with
      the trap [THost], which in this model stands for panics and a few reported errors, panicked. *)
  Definition ended (panics : bool) (r : rout) (p : probes) : list note :=
    map TraceLine (pr_lines p) ++
    match r with
    | RDone _ _ _ | RCheckpoint _ => drop_notes p
    | RTrap THost _ => if panics then [] else drop_notes p
    | RTrap _ _ => drop_notes p
    | RExit _ _ | RUB | RRun _ => []
    end.
  (** main.rs 132-230: [Load.main] and [Load.main_restore] with the instrumentation.  [host b]: what
      the host answers; [b]: whether the file named by --trace-output has been created (or emptied),
      which happens before the run. *)
  Variables (hf : hostfp) (host : bool -> hostfn) (sg : nat -> ftype) (ff : cls -> list Z -> option Z).
  Variables (E : penv) (D : variant) (cr panics : bool).
  Definition made : bool := tracing && creates && match f_output fl with Some _ => true | None => false end.
  Definition command (k n : nat) (F : list Load.payload) (name : String.string) (params : list (list Z)) : report * list note :=
    match instance sg F with
    | None => (Aborted, warnings)
    | Some x =>
        match get_export_func x name with
        | None => (Exit 1 [MNoExport] [], warnings)
        | Some f =>
            match parse_params ff params with
            | None => (Aborted, warnings)
            | Some args =>
                match start (mi_modul x) (mi_inst x) f args with
                | Ok st =>
                    let (r, p) := run_probes (run hf (host made) (mi_modul x) E D cr k n st) new_probes in
                    (handle_result r, warnings ++ new_notes ++ ended panics r p)
                | Trap _ => (Exit 0 [MInit] [], warnings)
                | UB => (Undefined_behaviour, warnings)
                end
            end
        end
    end.
  Definition command_restore (k n : nat) (F : list Load.payload) (g : image) (log : list event) (t : nat) : report * list note :=
    match instance sg F with
    | None => (Aborted, warnings)
    | Some x =>
        match restore (mi_modul x) (mi_inst x) g log t with
        | None => (Exit 1 [MRestore] [], warnings)
        | Some st =>
            let (r, p) := run_probes (run hf (host made) (mi_modul x) E D cr k n st) new_probes in
            (handle_result r, warnings ++ new_notes ++ ended panics r p)
        end
    end.
End Instrumented.
