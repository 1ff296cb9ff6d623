(** The repository's own tests on the model: tests/*.rs with the modules tests/wasm/*.wasm they load.
    Written by tools/conform.py from the binaries and the test functions; each test loads its module
    (Load.instance), makes its calls one after the other on the same instance (Runtime.start, Runtime.run) and compares.
    These are concrete runs, evidence that the model is faithful, and not theorems about all inputs. *)
From Coq Require Import String ZArith List Bool.
From Verif Require Import Word Value Numeric Float Mem Store Regs IR Machine Wasm Decoder Module WasmPrims PrimFacts Check Restrict Runtime Load Accept Ieee.
Import ListNotations.
Local Open Scope string_scope.
Local Open Scope list_scope.
Local Open Scope nat_scope.

Inductive expect := EVal (v : val) | EFeq (v : val) | ENan | ENone | EOk | EFunc | EOverflowOr (v : val) | EAll (vs : list val) | EAny.
Record call := Call { c_name : string; c_args : list val; c_exp : expect }.
Record test := T { t_name : string; t_mod : list payload; t_calls : list call }.

Definition ref_eqb (a b : ref) : bool :=
  match a, b with RNull, RNull => true | RFunc a, RFunc b | RExtern a, RExtern b => Nat.eqb a b | _, _ => false end.
Definition val_eqb (a b : val) : bool :=
  match a, b with
  | VI32 a, VI32 b | VI64 a, VI64 b | VF32 a, VF32 b | VF64 a, VF64 b | VV128 a, VV128 b => Z.eqb a b
  | VRef a, VRef b => ref_eqb a b
  | _, _ => false
  end.
(** Rust's [==] on floats *)
Definition float_eqb (a b : val) : bool :=
  match a, b with VF32 a, VF32 b => f_eq F32 a b | VF64 a, VF64 b => f_eq F64 a b | _, _ => false end.
Definition nan (a : val) : bool := match a with VF32 a => is_nan F32 a | VF64 a => is_nan F64 a | _ => false end.
Definition meets (e : expect) (vs : list val) : bool :=
  match e, rev vs with
  | (EOk | EAny), _ => true
  | EAll l, _ => Nat.eqb (List.length l) (List.length vs) && forallb (fun p => val_eqb (fst p) (snd p)) (combine l vs)
  | ENone, [] => true
  | (EVal v | EOverflowOr v), u :: _ => val_eqb u v
  | EFeq v, u :: _ => float_eqb u v
  | ENan, u :: _ => nan u
  | EFunc, VRef (RFunc _) :: _ => true
  | _, _ => false
  end.
(** what the model answers: the results, or why not *)
Inductive answer := Got (vs : list val) | Trapped_ (t : trap) | Missing | NoStart | Other.
Definition quiet_env : penv := {| atomics := false; has_wasi := true; request := fun _ => false |}.
Definition fuel : nat := Z.to_nat 60000.
Definition invoke_ (D : variant) (x : minst) (s : inst) (c : call) : answer * inst :=
  match get_export_func x (c_name c) with
  | None => (Missing, s)
  | Some f =>
      match start (mi_modul x) s f (c_args c) with
      | Ok st => match run ieee (fun _ => HoErr) (mi_modul x) quiet_env D true fuel fuel st with
                 | RDone vs s' _ => (Got vs, s')
                 | RTrap t _ => (Trapped_ t, s)
                 | _ => (Other, s)
                 end
      | _ => (NoStart, s)
      end
  end.
Fixpoint calls (D : variant) (x : minst) (s : inst) (cs : list call) : list (call * answer) :=
  match cs with
  | [] => []
  | c :: cs =>
      let (a, s') := invoke_ D x s c in
      (if match a, c_exp c with Got vs, e => meets e vs | Trapped_ TIntOverflow, EOverflowOr _ => true | Missing, EAny => true | _, _ => false end then [] else [(c, a)]) ++ calls D x s' cs
  end.
(** the calls of a test that the model answers differently; [None]: its module cannot be loaded *)
Definition failures (D : variant) (t : test) : option (list (call * answer)) :=
  match instance (fun _ => ([], [])) (t_mod t) with Some x => Some (calls D x (mi_inst x) (t_calls t)) | None => None end.
Definition bad (D : variant) (ts : list test) : list (string * option (list (call * answer))) :=
  flat_map (fun t => match failures D t with Some [] => [] | r => [(t_name t, r)] end) ts.


(** ** the same tests on the specification *)
Fixpoint sections (F : list payload) : list ftype * list nat * list pbody :=
  match F with
  | [] => ([], [], [])
  | p :: F => let '(ts, fs, bs) := sections F in
      match p with
      | PTypes l => (flat_map (fun o => match o with Some t => [t] | None => [] end) l ++ ts, fs, bs)
      | PFuncs l => (ts, flat_map (fun o => match o with Some t => [t] | None => [] end) l ++ fs, bs)
      | PCode b => (ts, fs, b :: bs)
      | _ => (ts, fs, bs)
      end
  end.
Definition smod (F : list payload) : option smodule :=
  let '(ts, fs, bs) := sections F in
  match map_opt (fun p => match structured (b_ops (snd p)), nth_error ts (fst p) with
                          | Some c, Some t => Some (SWasm {| sf_type := t; sf_locals := b_locals (snd p); sf_body := c |})
                          | _, _ => None end) (combine fs bs) with
  | Some l => Some {| sm_types := ts; sm_funcs := l |}
  | None => None
  end.
Definition spec_invoke (SM : smodule) (x : minst) (s : inst) (c : call) : answer * inst :=
  match get_export_func x (c_name c) with
  | None => (Missing, s)
  | Some f =>
      match invoke (wasm_prims ieee) (fun _ => HoErr) SM fuel f (c_args c) s with
      | ONorm vs y => (Got vs, x_inst y)
      | OTrap t _ => (Trapped_ t, s)
      | _ => (Other, s)
      end
  end.
Fixpoint spec_calls (SM : smodule) (x : minst) (s : inst) (cs : list call) : list (call * answer) :=
  match cs with
  | [] => []
  | c :: cs =>
      let (a, s') := spec_invoke SM x s c in
      (if match a, c_exp c with Got vs, e => meets e vs | Trapped_ TIntOverflow, EOverflowOr _ => true | Missing, EAny => true | _, _ => false end then [] else [(c, a)]) ++ spec_calls SM x s' cs
  end.
(** calls with a negative or huge argument left out: the specification's [br_table] counts in unary and an index near 2^32 is too much *)
Definition positive (ts : list test) : list test :=
  map (fun t => T (t_name t) (t_mod t) (filter (fun c => forallb (fun v => match v with VI32 n | VI64 n => Z.leb 0 n && Z.ltb n 100000 | _ => true end) (c_args c)) (t_calls t))) ts.
Definition spec_bad (ts : list test) : list (string * option (list (call * answer))) :=
  flat_map (fun t => match instance (fun _ => ([], [])) (t_mod t), smod (t_mod t) with
                     | Some x, Some SM => match spec_calls SM x (mi_inst x) (t_calls t) with [] => [] | l => [(t_name t, Some l)] end
                     | _, _ => [(t_name t, None)] end) ts.
(** functions of a module outside the fragment of Restrict.v, by index *)
Definition outside (F : list payload) : option (list nat * nat) :=
  match smod F with
  | Some SM => Some (flat_map (fun p => if restricted_func SM (snd p) then [] else [fst p]) (combine (seq 0 (List.length (sm_funcs SM))) (sm_funcs SM)), List.length (sm_funcs SM))
  | None => None
  end.

(** does the module meet all the conditions the theorems put on the file of a module (Accept.v) *)
Definition meets_all (F : list payload) : bool := match admit (fun _ => ([], [])) F with Some _ => true | None => false end.
