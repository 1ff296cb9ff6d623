(** Loading a file: src/parser.rs 7390-7490 (parse_bytecode) with the section decoders 829-1163 and
    1172-1258, and src/main.rs 84-250. *)
From Coq Require Import ZArith List Bool Lia.
From Verif Require Import Word Value Numeric Float Mem Store Regs IR Machine Wasm Decoder Check Module Runtime.
From Coq Require String.
Import ListNotations.
Open Scope nat_scope.

(** ** the file, as the binary parser (wasmparser, not modelled) hands it over *)
(** A section is its items in order; [None] is an item the binary parser reports as malformed or, for
    a constant expression, one parse_initexpr refuses (parser.rs 1040-1080).  Simplifications: limits
    fit 32 bits; tags are left out; [WiFunc w ty]: a function import of declared type [ty], [w] the
    WASI function its module and name denote (parser.rs 653-706, 881-893). *)
Inductive wimport := WiFunc (w : option nat) (ty : nat) | WiOther.
(** a code entry: its locals (counts expanded), its operators; [b_bad]: a malformed operator (or, with
    [b_badlocals], a malformed local declaration) follows them *)
Record pbody := { b_locals : list valtype; b_badlocals : bool; b_ops : list fop; b_bad : bool }.
Inductive payload :=
| PVersion (n : Z)
| PTypes (l : list (option ftype)) | PImports (l : list (option wimport)) | PFuncs (l : list (option nat))
| PTables (l : list (option Z)) | PMems (l : list (option (Z * option Z))) | PGlobals (l : list (option cexpr))
| PExports (l : list (option (String.string * extern))) | PStart (f : nat) | PElems (l : list (option elem))
| PDatas (l : list (option dseg)) | PCode (b : pbody)
| POther                  (* custom and other sections: nothing happens *)
| PBad.                   (* the binary parser reports an error *)

(** structure/module.rs Module while it is filled in.  [lf_body = None]: the entry made by the function
    section (parser.rs 851-868), no code yet.  [l_cur]: current_func_index. *)
Record lfunc := { lf_ty : nat; lf_body : option (list valtype * list instr * six nat) }.
Record lmod := {
  l_types : list ftype; l_imports : list import; l_funcs : list lfunc; l_tables : list Z;
  l_mems : list (Z * option Z); l_globals : list cexpr; l_exports : list (String.string * extern);
  l_start : option nat; l_elems : list elem; l_datas : list dseg; l_cur : nat }.
Definition empty_mod : lmod :=
  {| l_types := []; l_imports := []; l_funcs := []; l_tables := []; l_mems := []; l_globals := []; l_exports := [];
     l_start := None; l_elems := []; l_datas := []; l_cur := 0 |}.
(** [LErr m]: loading stopped with an error, leaving [m] *)
Inductive lres := LOk (m : lmod) | LErr (m : lmod) | LPanic.

(** items are pushed until one is malformed *)
Fixpoint upto {A} (l : list (option A)) : list A :=
  match l with Some a :: l => a :: upto l | _ => [] end.
Fixpoint whole {A} (l : list (option A)) : bool :=
  match l with [] => true | Some _ :: l => whole l | None :: _ => false end.
Definition after {A} (l : list (option A)) (m : lmod) : lres := if whole l then LOk m else LErr m.

(** Module::num_imported_funcs *)
Definition is_fimport (i : import) : bool := match i with ImOther => false | _ => true end.
Definition nimp (m : lmod) : nat := length (filter is_fimport (l_imports m)).
(** parser.rs 1187-1200 *)
Definition ty_of (m : lmod) (f : lfunc) : ftype := match nth_error (l_types m) (lf_ty f) with Some t => t | None => ([], []) end.
Definition modsrc_of (m : lmod) : modsrc :=
  {| ms_imports := l_imports m; ms_nimp := nimp m; ms_functys := map (ty_of m) (l_funcs m); ms_types := l_types m |}.
Definition benv (m : lmod) (rel : nat) (b : pbody) : denv :=
  let t := match nth_error (l_funcs m) rel with Some f => ty_of m f | None => ([], []) end in
  {| e_params := fst t; e_locals := b_locals b; e_results := snd t; e_mod := modsrc_of m |}.

(** Whether the translator panics on a prefix of the operators (it otherwise ends with [Err]): the
    operators it has no case for (7179), unwrap on an empty operand stack *)
Fixpoint panics (E : denv) (ops : list fop) (z : dst8) : bool :=
  match ops with
  | [] => false
  | op :: rest =>
      match dec_dead op z with
      | inl z => panics E rest z
      | inr z =>
          match dec_live E op rest z with
          | None => match op with FBasic _ | FCallInd _ _ => true | _ => false end
          | Some (z, false) => panics E rest z
          | Some (z, true) => match rest with [] => false | _ :: rest => panics E rest z end
          end
      end
  end.
Definition with_funcs (m : lmod) (fs : list lfunc) (cur : nat) : lmod :=
  {| l_types := l_types m; l_imports := l_imports m; l_funcs := fs; l_tables := l_tables m; l_mems := l_mems m;
     l_globals := l_globals m; l_exports := l_exports m; l_start := l_start m; l_elems := l_elems m; l_datas := l_datas m;
     l_cur := cur |}.
(** parser.rs 1172-1258, 7461-7467.  Simplification: the locals stored when resolving the branches
    fails (1212-1216) are dropped; a function without body never reads them. *)
Definition load_body (m : lmod) (b : pbody) : lres :=
  let rel := l_cur m - nimp m in
  if b_badlocals b then LErr m else
  let E := benv m rel b in
  if panics E (b_ops b) (dec_start E) then LPanic else
  if b_bad b then LErr m else
  match translate E (b_ops b), nth_error (l_funcs m) rel with
  | Some (code, al), Some f =>
      LOk (with_funcs m (upd (l_funcs m) rel {| lf_ty := lf_ty f; lf_body := Some (b_locals b, code, al) |}) (S (l_cur m)))
  | _, _ => LErr m
  end.
(** parser.rs 874-935.  [sg]: expected_func_type (structure/module.rs 160-545); the declared type of a
    WASI import is not looked at. *)
Definition to_import (sg : nat -> ftype) (i : wimport) : import :=
  match i with WiFunc (Some w) _ => ImWasi w (sg w) | WiFunc None ty => ImFunc ty | WiOther => ImOther end.

(** one payload (parser.rs 7404-7487) *)
Definition load1 (sg : nat -> ftype) (p : payload) (m : lmod) : lres :=
  match p with
  | PVersion n => if (n =? 1)%Z then LOk m else LErr m
  | PTypes l => after l {| l_types := l_types m ++ upto l; l_imports := l_imports m; l_funcs := l_funcs m; l_tables := l_tables m; l_mems := l_mems m; l_globals := l_globals m; l_exports := l_exports m; l_start := l_start m; l_elems := l_elems m; l_datas := l_datas m; l_cur := l_cur m |}
  | PImports l =>
      let m' := {| l_types := l_types m; l_imports := l_imports m ++ map (to_import sg) (upto l); l_funcs := l_funcs m; l_tables := l_tables m; l_mems := l_mems m; l_globals := l_globals m; l_exports := l_exports m; l_start := l_start m; l_elems := l_elems m; l_datas := l_datas m; l_cur := l_cur m |} in
      if whole l then LOk (with_funcs m' (l_funcs m') (nimp m')) else LErr m'
  | PFuncs l => after l (with_funcs m (l_funcs m ++ map (fun t => {| lf_ty := t; lf_body := None |}) (upto l)) (l_cur m))
  | PTables l => after l {| l_types := l_types m; l_imports := l_imports m; l_funcs := l_funcs m; l_tables := l_tables m ++ upto l; l_mems := l_mems m; l_globals := l_globals m; l_exports := l_exports m; l_start := l_start m; l_elems := l_elems m; l_datas := l_datas m; l_cur := l_cur m |}
  | PMems l => after l {| l_types := l_types m; l_imports := l_imports m; l_funcs := l_funcs m; l_tables := l_tables m; l_mems := l_mems m ++ upto l; l_globals := l_globals m; l_exports := l_exports m; l_start := l_start m; l_elems := l_elems m; l_datas := l_datas m; l_cur := l_cur m |}
  | PGlobals l => after l {| l_types := l_types m; l_imports := l_imports m; l_funcs := l_funcs m; l_tables := l_tables m; l_mems := l_mems m; l_globals := l_globals m ++ upto l; l_exports := l_exports m; l_start := l_start m; l_elems := l_elems m; l_datas := l_datas m; l_cur := l_cur m |}
  | PExports l => after l {| l_types := l_types m; l_imports := l_imports m; l_funcs := l_funcs m; l_tables := l_tables m; l_mems := l_mems m; l_globals := l_globals m; l_exports := l_exports m ++ upto l; l_start := l_start m; l_elems := l_elems m; l_datas := l_datas m; l_cur := l_cur m |}
  | PStart f => LOk {| l_types := l_types m; l_imports := l_imports m; l_funcs := l_funcs m; l_tables := l_tables m; l_mems := l_mems m; l_globals := l_globals m; l_exports := l_exports m; l_start := Some f; l_elems := l_elems m; l_datas := l_datas m; l_cur := l_cur m |}
  | PElems l => after l {| l_types := l_types m; l_imports := l_imports m; l_funcs := l_funcs m; l_tables := l_tables m; l_mems := l_mems m; l_globals := l_globals m; l_exports := l_exports m; l_start := l_start m; l_elems := l_elems m ++ upto l; l_datas := l_datas m; l_cur := l_cur m |}
  | PDatas l => after l {| l_types := l_types m; l_imports := l_imports m; l_funcs := l_funcs m; l_tables := l_tables m; l_mems := l_mems m; l_globals := l_globals m; l_exports := l_exports m; l_start := l_start m; l_elems := l_elems m; l_datas := l_datas m ++ upto l; l_cur := l_cur m |}
  | PCode b => load_body m b
  | POther => LOk m
  | PBad => LErr m
  end.
(** parser.rs 7404: the payloads in order, up to the first error *)
Fixpoint load_from (sg : nat -> ftype) (F : list payload) (m : lmod) : lres :=
  match F with
  | [] => LOk m
  | p :: F => match load1 sg p m with LOk m => load_from sg F m | r => r end
  end.
Definition load (sg : nat -> ftype) (F : list payload) : lres := load_from sg F empty_mod.

(** ** from the loaded module to what instantiation takes *)
(** func.rs 103-120: [types.get_by_idx] panics.  A function without code has an empty body, no
    handlers and no register allocation: it returns at once, with no results.  Simplification: a
    missing allocation is the empty one; the register offsets of a translated caller of such a
    function, which the code then restores wrongly (runtime.rs 317-319, 401), are not modelled.
    Only the first memory is kept. *)
Definition to_fdef (m : lmod) (f : lfunc) : option fdef :=
  match nth_error (l_types m) (lf_ty f) with
  | None => None
  | Some t => Some match lf_body f with
              | Some (ls, code, al) => {| fd_type := t; fd_locals := ls; fd_code := code; fd_alloc := al |}
              | None => {| fd_type := t; fd_locals := []; fd_code := []; fd_alloc := al_max (al_new []) |}
              end
  end.
Definition to_src (m : lmod) : option src :=
  match map_opt (to_fdef m) (l_funcs m) with
  | None => None
  | Some fs => Some {| s_types := l_types m; s_imports := l_imports m; s_funcs := fs; s_tables := l_tables m; s_mem := hd_error (l_mems m);
                       s_globals := l_globals m; s_elems := l_elems m; s_datas := l_datas m; s_exports := l_exports m; s_start := l_start m |}
  end.

(** ** the parameters of the invocation, main.rs 84-130 *)
Open Scope Z_scope.
(** i32::from_str, i64::from_str: an optional sign and at least one digit, in range *)
Definition digit (c : Z) : option Z := if (48 <=? c) && (c <=? 57) then Some (c - 48) else None.
Fixpoint digits (acc : Z) (s : list Z) : option Z :=
  match s with [] => Some acc | c :: s => match digit c with Some d => digits (acc * 10 + d) s | None => None end end.
Definition parse_int (w : Z) (s : list Z) : option Z :=
  let r := match s with
           | 45 :: c :: s => option_map Z.opp (digits 0 (c :: s))
           | 43 :: c :: s => digits 0 (c :: s)
           | c :: s => digits 0 (c :: s)
           | [] => None
           end in
  match r with Some z => if (- 2 ^ (w - 1) <=? z) && (z <? 2 ^ (w - 1)) then Some z else None | None => None end.
(** the regular expression of main.rs 86, [(?<=\().*(?=\))]: from the first opening parenthesis with a
    closing one on the rest of its line, up to the last of them *)
Fixpoint up_to_close (s : list Z) : option (list Z) :=
  match s with
  | [] => None
  | c :: s => if c =? 10 then None else
      match up_to_close s with
      | Some t => Some (c :: t)
      | None => if c =? 41 then Some [] else None
      end
  end.
Fixpoint capture (s : list Z) : option (list Z) :=
  match s with
  | [] => None
  | c :: s => if c =? 40 then match up_to_close s with Some t => Some t | None => capture s end else capture s
  end.
Fixpoint prefix (p s : list Z) : bool :=
  match p, s with [] , _ => true | a :: p, b :: s => (a =? b) && prefix p s | _, [] => false end.
Fixpoint contains (p s : list Z) : bool := prefix p s || match s with [] => false | _ :: s => contains p s end.
Definition I32s := [73; 51; 50]. Definition I64s := [73; 54; 52]. Definition F32s := [70; 51; 50]. Definition F64s := [70; 54; 52].
(** [ff c s]: f32::from_str and f64::from_str, not modelled; [None]: panic *)
Definition parse_param (ff : cls -> list Z -> option Z) (s : list Z) : option (list val) :=
  let num (k : list Z -> option val) := match capture s with Some t => option_map (fun v => [v]) (k t) | None => None end in
  if contains I32s s then num (fun t => option_map VI32 (parse_int 32 t))
  else if contains I64s s then num (fun t => option_map VI64 (parse_int 64 t))
  else if contains F32s s then num (fun t => option_map VF32 (ff CF32 t))
  else if contains F64s s then num (fun t => option_map VF64 (ff CF64 t))
  else Some [].
Fixpoint parse_params (ff : cls -> list Z -> option Z) (l : list (list Z)) : option (list val) :=
  match l with
  | [] => Some []
  | s :: l => match parse_param ff s, parse_params ff l with Some a, Some b => Some (a ++ b) | _, _ => None end
  end.

(** ** main.rs 132-250 *)
(** what the user sees: the exit status, the messages printed, the host calls made; or an abort *)
Inductive message := MResult (v : val) | MExecution (t : trap) | MNoExport | MInit | MRestore | MCheckpointed | MCheckpointFailed.
Inductive report := Aborted | Exit (status : Z) (out : list message) (calls : list event) | Undefined_behaviour | Running.
(** main.rs 232-250: only the last result is printed, and every end of [run] is status 0; for a
    checkpoint runtime.rs 232-258 *)
Definition handle_result (r : rout) : report :=
  match r with
  | RDone vals _ l => Exit 0 (match rev vals with v :: _ => [MResult v] | [] => [] end) l
  | RExit z l => Exit z [] l
  | RTrap t l => Exit 0 [MExecution t] l
  | RCheckpoint st => Exit 0 [match checkpoint st with Some _ => MCheckpointed | None => MCheckpointFailed end] (r_log st)
  | RUB => Undefined_behaviour
  | RRun _ => Running
  end.
Section Main.
  Variables (hf : hostfp) (host : hostfn) (sg : nat -> ftype) (ff : cls -> list Z -> option Z).
  Variables (E : penv) (D : variant) (cr : bool).
  (** main.rs 146-158: an error of the loader is ignored, one of instantiation panics *)
  Definition instance (F : list payload) : option minst :=
    match load sg F with
    | LPanic => None
    | LOk m | LErr m =>
        match to_src m with
        | None => None
        | Some Sr => match instantiate Sr with IDone x => Some x | _ => None end
        end
    end.
  Definition main (k n : nat) (F : list payload) (name : String.string) (params : list (list Z)) : report :=
    match instance F with
    | None => Aborted
    | Some x =>
        match get_export_func x name with
        | None => Exit 1 [MNoExport] []
        | Some f =>
            match parse_params ff params with
            | None => Aborted
            | Some args =>
                match start (mi_modul x) (mi_inst x) f args with
                | Ok st => handle_result (run hf host (mi_modul x) E D cr k n st)
                | Trap _ => Exit 0 [MInit] []
                | UB => Undefined_behaviour
                end
            end
        end
    end.
  (** main.rs 172-195 *)
  Definition main_restore (k n : nat) (F : list payload) (g : image) (log : list event) (t : nat) : report :=
    match instance F with
    | None => Aborted
    | Some x =>
        match restore (mi_modul x) (mi_inst x) g log t with
        | None => Exit 1 [MRestore] []
        | Some st => handle_result (run hf host (mi_modul x) E D cr k n st)
        end
    end.
End Main.
