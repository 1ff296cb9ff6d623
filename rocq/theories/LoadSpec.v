(** Whole modules, how a file presents them, and how numbers are written on the command line. *)
From Coq Require Import ZArith List Bool.
From Verif Require Import Word Value Mem Store Regs IR Machine Wasm WasmTyping Decoder Module ModuleSpec Load.
From Coq Require String.
Import ListNotations.

(** a module of the standard: the functions with their types (imports first), and the rest *)
Record wmodule := {
  w_code : smodule; w_tables : list Z; w_mem : option (Z * option Z); w_globals : list cexpr; w_elems : list elem;
  w_datas : list dseg; w_exports : list (String.string * extern); w_start : option nat }.
(** custom sections, and sections with nothing in them *)
Definition noise (p : payload) : bool :=
  match p with
  | POther | PTypes [] | PFuncs [] | PTables [] | PMems [] | PGlobals [] | PExports [] | PElems [] | PDatas [] => true
  | _ => false
  end.
Definition proper (F : list payload) : list payload := filter (fun p => negb (noise p)) F.
(** [sg]: the types of the WASI functions *)
Definition import_entry (sg : nat -> ftype) (types : list ftype) (f : sfunc) (i : wimport) : Prop :=
  match f with SWasi w t => t = sg w /\ exists ty, i = WiFunc (Some w) ty /\ nth_error types ty = Some t | SWasm _ => False end.
Definition func_entry (types : list ftype) (f : sfunc) (ty : nat) : Prop :=
  match f with SWasm d => nth_error types ty = Some (sf_type d) | SWasi _ _ => False end.
Definition code_entry (f : sfunc) (p : payload) : Prop :=
  match f with
  | SWasm d => p = PCode {| b_locals := sf_locals d; b_badlocals := false; b_ops := flatten (sf_body d) ++ [FEnd]; b_bad := false |}
  | SWasi _ _ => False
  end.
Definition items {A} (l : list A) : list (option A) := map Some l.
(** the sections of the binary format in their order (Core 5.5.16), all well-formed *)
Definition presents (sg : nat -> ftype) (W : wmodule) (F : list payload) : Prop :=
  exists imps defs is tys bodies,
    sm_funcs (w_code W) = imps ++ defs /\
    Forall2 (import_entry sg (sm_types (w_code W))) imps is /\
    Forall2 (func_entry (sm_types (w_code W))) defs tys /\
    Forall2 code_entry defs bodies /\
    proper F = proper (
      [PVersion 1; PTypes (items (sm_types (w_code W)))] ++ match is with [] => [] | _ => [PImports (items is)] end ++
      [PFuncs (items tys); PTables (items (w_tables W)); PMems (items (match w_mem W with Some m => [m] | None => [] end));
       PGlobals (items (w_globals W)); PExports (items (w_exports W))] ++
      match w_start W with Some f => [PStart f] | None => [] end ++
      [PElems (items (w_elems W))] ++ bodies ++ [PDatas (items (w_datas W))]).

(** the module with its functions left open: what instantiation looks at besides them *)
Definition with_code (W : wmodule) (fs : list fdef) : src :=
  {| s_types := sm_types (w_code W);
     s_imports := flat_map (fun f => match f with SWasi w t => [ImWasi w t] | SWasm _ => [] end) (sm_funcs (w_code W));
     s_funcs := fs; s_tables := w_tables W; s_mem := w_mem W; s_globals := w_globals W; s_elems := w_elems W;
     s_datas := w_datas W; s_exports := w_exports W; s_start := w_start W |}.

(** [sound W gs]: the module is valid (Core 3), its globals have initial values [gs] and its active
    segments lie within their tables and memory.  Instantiation looks at the functions only to count them. *)
Definition stub (f : sfunc) : Machine.func :=
  match f with SWasm d => FWasm {| fd_type := sf_type d; fd_locals := sf_locals d; fd_code := []; fd_alloc := al_max (al_new []) |} | SWasi w t => FWasi w t end.
Definition stubs (fs : list sfunc) : list fdef := flat_map (fun f => match stub f with FWasm d => [d] | FWasi _ _ => [] end) fs.
Record sound (W : wmodule) (gs : list val) : Prop := {
  so_code : WasmTyping.valid (w_code W);
  so_shell : ModuleSpec.valid (with_code W (stubs (sm_funcs (w_code W)))) (map stub (sm_funcs (w_code W))) gs;
  so_loads : loads (with_code W []) gs;
  so_names : NoDup (map fst (w_exports W)) }.
(** what the loader of this code base handles: no reference-valued initialisers given by expressions, a
    memory below 2 GiB, no start function *)
Record handled (W : wmodule) : Prop := {
  ha_globals : Forall simple_global (w_globals W);
  ha_elems : Forall simple_elem (w_elems W);
  ha_mem : forall min max, w_mem W = Some (min, max) -> (min < 2 ^ 15)%Z;
  ha_start : w_start W = None }.
(** how the standard's outcome of the invoked function is reported: the last result on the terminal, the
    program's exit code as status *)
Definition reported (o : outcome) : report :=
  match o with
  | Done vals _ log => Exit 0 (match rev vals with v :: _ => [MResult v] | [] => [] end) log
  | Exited z log => Exit z [] log
  | Trapped t log => Exit 0 [MExecution t] log
  | Undefined => Undefined_behaviour
  end.

(** ** numbers as text *)
Open Scope Z_scope.
(** [numeral s z]: [s] (code points) is a decimal numeral, with or without sign, for [z] *)
Inductive natural : list Z -> Z -> Prop :=
| nat_digit d : 0 <= d <= 9 -> natural [48 + d] d
| nat_more s z d : natural s z -> 0 <= d <= 9 -> natural (s ++ [48 + d]) (10 * z + d).
Inductive numeral : list Z -> Z -> Prop :=
| num_plain s z : natural s z -> numeral s z
| num_plus s z : natural s z -> numeral (43 :: s) z
| num_minus s z : natural s z -> numeral (45 :: s) (- z).
(** how a parameter is written: I32(text), I64(text), F32(text) or F64(text); [ff]: which texts denote
    which floating-point numbers *)
Definition clean (t : list Z) : Prop := ~ In 10 t /\ ~ In 73 t /\ ~ In 70 t.
Definition written (ff : cls -> list Z -> option Z) (v : val) (s : list Z) : Prop :=
  match v with
  | VI32 z => exists t, numeral t z /\ s = [73; 51; 50; 40] ++ t ++ [41]
  | VI64 z => exists t, numeral t z /\ s = [73; 54; 52; 40] ++ t ++ [41]
  | VF32 z => exists t, clean t /\ ff CF32 t = Some z /\ s = [70; 51; 50; 40] ++ t ++ [41]
  | VF64 z => exists t, clean t /\ ff CF64 t = Some z /\ s = [70; 54; 52; 40] ++ t ++ [41]
  | _ => False
  end.

(** ** malformed sections *)
Definition broken {A} (l : list (option A)) : Prop := In None l.
(** an item of the section cannot be read *)
Definition malformed (p : payload) : Prop :=
  match p with
  | PBad => True
  | PTypes l => broken l | PImports l => broken l | PFuncs l => broken l | PTables l => broken l | PMems l => broken l
  | PGlobals l => broken l | PExports l => broken l | PElems l => broken l | PDatas l => broken l
  | PCode b => b_badlocals b = true
  | _ => False
  end.
