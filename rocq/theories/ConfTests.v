(** The repository's own tests on the model: tests/*.rs with the modules tests/wasm/*.wasm they load.
    Written by tools/conform.py from the binaries and the test functions; each test loads its module
    (Load.instance), makes its calls one after the other on the same instance (Runtime.start, Runtime.run) and compares.
    These are concrete runs, evidence that the model is faithful, and not theorems about all inputs. *)
From Coq Require Import String ZArith List Bool.
From Verif Require Import Word Value Numeric Float Mem Store Regs IR Machine Wasm Decoder Module WasmPrims PrimFacts Check Restrict Runtime Load Accept Ieee.
Import ListNotations.
Local Open Scope string_scope.
Local Open Scope list_scope.
Local Open Scope nat_scope.

Inductive expect := EVal (v : val) | EFeq (v : val) | ENan | ENone | EOk | EFunc | EOverflowOr (v : val) | EAll (vs : list val) | EAny.
Record call := Call { c_name : string; c_args : list val; c_exp : expect }.
Record test := T { t_name : string; t_mod : list payload; t_calls : list call }.

Definition ref_eqb (a b : ref) : bool :=
  match a, b with RNull, RNull => true | RFunc a, RFunc b | RExtern a, RExtern b => Nat.eqb a b | _, _ => false end.
Definition val_eqb (a b : val) : bool :=
  match a, b with
  | VI32 a, VI32 b | VI64 a, VI64 b | VF32 a, VF32 b | VF64 a, VF64 b | VV128 a, VV128 b => Z.eqb a b
  | VRef a, VRef b => ref_eqb a b
  | _, _ => false
  end.
(** Rust's [==] on floats *)
Definition float_eqb (a b : val) : bool :=
  match a, b with VF32 a, VF32 b => f_eq F32 a b | VF64 a, VF64 b => f_eq F64 a b | _, _ => false end.
Definition nan (a : val) : bool := match a with VF32 a => is_nan F32 a | VF64 a => is_nan F64 a | _ => false end.
Definition meets (e : expect) (vs : list val) : bool :=
  match e, rev vs with
  | (EOk | EAny), _ => true
  | EAll l, _ => Nat.eqb (List.length l) (List.length vs) && forallb (fun p => val_eqb (fst p) (snd p)) (combine l vs)
  | ENone, [] => true
  | (EVal v | EOverflowOr v), u :: _ => val_eqb u v
  | EFeq v, u :: _ => float_eqb u v
  | ENan, u :: _ => nan u
  | EFunc, VRef (RFunc _) :: _ => true
  | _, _ => false
  end.
(** what the model answers: the results, or why not *)
Inductive answer := Got (vs : list val) | Trapped_ (t : trap) | Missing | NoStart | Other.
Definition quiet_env : penv := {| atomics := false; has_wasi := true; request := fun _ => false |}.
Definition fuel : nat := Z.to_nat 60000.
Definition invoke_ (D : variant) (x : minst) (s : inst) (c : call) : answer * inst :=
  match get_export_func x (c_name c) with
  | None => (Missing, s)
  | Some f =>
      match start (mi_modul x) s f (c_args c) with
      | Ok st => match run ieee (fun _ => HoErr) (mi_modul x) quiet_env D true fuel fuel st with
                 | RDone vs s' _ => (Got vs, s')
                 | RTrap t _ => (Trapped_ t, s)
                 | _ => (Other, s)
                 end
      | _ => (NoStart, s)
      end
  end.
Fixpoint calls (D : variant) (x : minst) (s : inst) (cs : list call) : list (call * answer) :=
  match cs with
  | [] => []
  | c :: cs =>
      let (a, s') := invoke_ D x s c in
      (if match a, c_exp c with Got vs, e => meets e vs | Trapped_ TIntOverflow, EOverflowOr _ => true | Missing, EAny => true | _, _ => false end then [] else [(c, a)]) ++ calls D x s' cs
  end.
(** the calls of a test that the model answers differently; [None]: its module cannot be loaded *)
Definition failures (D : variant) (t : test) : option (list (call * answer)) :=
  match instance (fun _ => ([], [])) (t_mod t) with Some x => Some (calls D x (mi_inst x) (t_calls t)) | None => None end.
Definition bad (D : variant) (ts : list test) : list (string * option (list (call * answer))) :=
  flat_map (fun t => match failures D t with Some [] => [] | r => [(t_name t, r)] end) ts.


(** ** the same tests on the specification *)
Fixpoint sections (F : list payload) : list ftype * list nat * list pbody :=
  match F with
  | [] => ([], [], [])
  | p :: F => let '(ts, fs, bs) := sections F in
      match p with
      | PTypes l => (flat_map (fun o => match o with Some t => [t] | None => [] end) l ++ ts, fs, bs)
      | PFuncs l => (ts, flat_map (fun o => match o with Some t => [t] | None => [] end) l ++ fs, bs)
      | PCode b => (ts, fs, b :: bs)
      | _ => (ts, fs, bs)
      end
  end.
Definition smod (F : list payload) : option smodule :=
  let '(ts, fs, bs) := sections F in
  match map_opt (fun p => match structured (b_ops (snd p)), nth_error ts (fst p) with
                          | Some c, Some t => Some (SWasm {| sf_type := t; sf_locals := b_locals (snd p); sf_body := c |})
                          | _, _ => None end) (combine fs bs) with
  | Some l => Some {| sm_types := ts; sm_funcs := l |}
  | None => None
  end.
Definition spec_invoke (SM : smodule) (x : minst) (s : inst) (c : call) : answer * inst :=
  match get_export_func x (c_name c) with
  | None => (Missing, s)
  | Some f =>
      match invoke (wasm_prims ieee) (fun _ => HoErr) SM fuel f (c_args c) s with
      | ONorm vs y => (Got vs, x_inst y)
      | OTrap t _ => (Trapped_ t, s)
      | _ => (Other, s)
      end
  end.
Fixpoint spec_calls (SM : smodule) (x : minst) (s : inst) (cs : list call) : list (call * answer) :=
  match cs with
  | [] => []
  | c :: cs =>
      let (a, s') := spec_invoke SM x s c in
      (if match a, c_exp c with Got vs, e => meets e vs | Trapped_ TIntOverflow, EOverflowOr _ => true | Missing, EAny => true | _, _ => false end then [] else [(c, a)]) ++ spec_calls SM x s' cs
  end.
(** calls with a negative or huge argument left out: the specification's [br_table] counts in unary and an index near 2^32 is too much *)
Definition positive (ts : list test) : list test :=
  map (fun t => T (t_name t) (t_mod t) (filter (fun c => forallb (fun v => match v with VI32 n | VI64 n => Z.leb 0 n && Z.ltb n 100000 | _ => true end) (c_args c)) (t_calls t))) ts.
Definition spec_bad (ts : list test) : list (string * option (list (call * answer))) :=
  flat_map (fun t => match instance (fun _ => ([], [])) (t_mod t), smod (t_mod t) with
                     | Some x, Some SM => match spec_calls SM x (mi_inst x) (t_calls t) with [] => [] | l => [(t_name t, Some l)] end
                     | _, _ => [(t_name t, None)] end) ts.
(** functions of a module outside the fragment of Restrict.v, by index *)
Definition outside (F : list payload) : option (list nat * nat) :=
  match smod F with
  | Some SM => Some (flat_map (fun p => if restricted_func SM (snd p) then [] else [fst p]) (combine (seq 0 (List.length (sm_funcs SM))) (sm_funcs SM)), List.length (sm_funcs SM))
  | None => None
  end.

(** does the module meet all the conditions the theorems put on the file of a module (Accept.v) *)
Definition meets_all (F : list payload) : bool := match admit (fun _ => ([], [])) F with Some _ => true | None => false end.
Definition w_block : list payload :=
  [ PVersion 1;
    PTypes [Some ([TI32; TI32], [TI32]); Some ([], []); Some ([], [TI32]); Some ([TI32], []); Some ([TI32; TF64; TI32], [TI32; TF64; TI32]); Some ([], [TI32; TI64; TI32]); Some ([TI32], [TI32]); Some ([], [TI32; TI32]); Some ([], [TF32; TF32]); Some ([TI32; TI32], [TI32; TI32])];
    PFuncs [Some 1; Some 1; Some 2; Some 2; Some 2; Some 2; Some 2; Some 2; Some 2; Some 2; Some 2; Some 2; Some 1; Some 2; Some 2; Some 2; Some 2; Some 2; Some 2; Some 0; Some 2; Some 2; Some 2; Some 1; Some 1; Some 2; Some 6; Some 2; Some 2; Some 1; Some 2; Some 2; Some 2; Some 2; Some 2; Some 2; Some 2; Some 2; Some 2; Some 2; Some 2; Some 2; Some 2; Some 2; Some 2; Some 2; Some 2; Some 2; Some 2; Some 2; Some 2; Some 2; Some 2; Some 1];
    PTables [Some 1%Z];
    PMems [Some (1%Z, None)];
    PGlobals [Some [CVal (VI32 10%Z)]];
    PExports [Some ("empty", ExFunc 1); Some ("singular", ExFunc 2); Some ("multi", ExFunc 3); Some ("nested", ExFunc 4); Some ("deep", ExFunc 5); Some ("as-select-first", ExFunc 6); Some ("as-select-mid", ExFunc 7); Some ("as-select-last", ExFunc 8); Some ("as-loop-first", ExFunc 9); Some ("as-loop-mid", ExFunc 10); Some ("as-loop-last", ExFunc 11); Some ("as-if-condition", ExFunc 12); Some ("as-if-then", ExFunc 13); Some ("as-if-else", ExFunc 14); Some ("as-br_if-first", ExFunc 15); Some ("as-br_if-last", ExFunc 16); Some ("as-br_table-first", ExFunc 17); Some ("as-br_table-last", ExFunc 18); Some ("as-call_indirect-first", ExFunc 20); Some ("as-call_indirect-mid", ExFunc 21); Some ("as-call_indirect-last", ExFunc 22); Some ("as-store-first", ExFunc 23); Some ("as-store-last", ExFunc 24); Some ("as-memory.grow-value", ExFunc 25); Some ("as-call-value", ExFunc 27); Some ("as-return-value", ExFunc 28); Some ("as-drop-operand", ExFunc 29); Some ("as-br-value", ExFunc 30); Some ("as-local.set-value", ExFunc 31); Some ("as-local.tee-value", ExFunc 32); Some ("as-global.set-value", ExFunc 33); Some ("as-load-operand", ExFunc 34); Some ("as-unary-operand", ExFunc 35); Some ("as-binary-operand", ExFunc 36); Some ("as-test-operand", ExFunc 37); Some ("as-compare-operand", ExFunc 38); Some ("as-binary-operands", ExFunc 39); Some ("as-compare-operands", ExFunc 40); Some ("as-mixed-operands", ExFunc 41); Some ("break-bare", ExFunc 42); Some ("break-value", ExFunc 43); Some ("break-repeated", ExFunc 44); Some ("break-inner", ExFunc 45); Some ("param", ExFunc 46); Some ("params", ExFunc 47); Some ("params-id", ExFunc 48); Some ("param-break", ExFunc 49); Some ("params-break", ExFunc 50); Some ("params-id-break", ExFunc 51); Some ("effects", ExFunc 52); Some ("type-use", ExFunc 53)];
    PElems [Some {| e_extern := false; e_idxes := Some [19]; e_init := None; e_mode := MActive 0 [CVal (VI32 0%Z)] |}];
    PCode {| b_locals := []; b_badlocals := false; b_ops := [FEnd]; b_bad := false |};
    PCode {| b_locals := []; b_badlocals := false; b_ops := [FBlock false [] []; FEnd; FBlock false [] []; FEnd; FEnd]; b_bad := false |};
    PCode {| b_locals := []; b_badlocals := false; b_ops := [FBlock false [] []; FBasic BNop; FEnd; FBlock false [] [TI32]; FBasic (BConst (VI32 7%Z)); FEnd; FEnd]; b_bad := false |};
    PCode {| b_locals := []; b_badlocals := false; b_ops := [FBlock false [] []; FCall 0; FCall 0; FCall 0; FCall 0; FEnd; FBlock false [] [TI32]; FCall 0; FCall 0; FCall 0; FBasic (BConst (VI32 7%Z)); FCall 0; FEnd; FBasic BDrop; FBlock false [] [TI32; TI64; TI32]; FCall 0; FCall 0; FCall 0; FBasic (BConst (VI32 8%Z)); FCall 0; FCall 0; FCall 0; FCall 0; FBasic (BConst (VI64 7%Z)); FCall 0; FCall 0; FCall 0; FCall 0; FBasic (BConst (VI32 9%Z)); FCall 0; FEnd; FBasic BDrop; FBasic BDrop; FEnd]; b_bad := false |};
    PCode {| b_locals := []; b_badlocals := false; b_ops := [FBlock false [] [TI32]; FBlock false [] []; FCall 0; FBlock false [] []; FEnd; FBasic BNop; FEnd; FBlock false [] [TI32]; FCall 0; FBasic (BConst (VI32 9%Z)); FEnd; FEnd; FEnd]; b_bad := false |};
    PCode {| b_locals := []; b_badlocals := false; b_ops := [FBlock false [] [TI32]; FBlock false [] [TI32]; FBlock false [] [TI32]; FBlock false [] [TI32]; FBlock false [] [TI32]; FBlock false [] [TI32]; FBlock false [] [TI32]; FBlock false [] [TI32]; FBlock false [] [TI32]; FBlock false [] [TI32]; FBlock false [] [TI32]; FBlock false [] [TI32]; FBlock false [] [TI32]; FBlock false [] [TI32]; FBlock false [] [TI32]; FBlock false [] [TI32]; FBlock false [] [TI32]; FBlock false [] [TI32]; FBlock false [] [TI32]; FBlock false [] [TI32]; FBlock false [] [TI32]; FBlock false [] [TI32]; FBlock false [] [TI32]; FBlock false [] [TI32]; FBlock false [] [TI32]; FBlock false [] [TI32]; FBlock false [] [TI32]; FBlock false [] [TI32]; FBlock false [] [TI32]; FBlock false [] [TI32]; FBlock false [] [TI32]; FBlock false [] [TI32]; FBlock false [] [TI32]; FBlock false [] [TI32]; FBlock false [] [TI32]; FBlock false [] [TI32]; FBlock false [] [TI32]; FBlock false [] [TI32]; FCall 0; FBasic (BConst (VI32 150%Z)); FEnd; FEnd; FEnd; FEnd; FEnd; FEnd; FEnd; FEnd; FEnd; FEnd; FEnd; FEnd; FEnd; FEnd; FEnd; FEnd; FEnd; FEnd; FEnd; FEnd; FEnd; FEnd; FEnd; FEnd; FEnd; FEnd; FEnd; FEnd; FEnd; FEnd; FEnd; FEnd; FEnd; FEnd; FEnd; FEnd; FEnd; FEnd; FEnd]; b_bad := false |};
    PCode {| b_locals := []; b_badlocals := false; b_ops := [FBlock false [] [TI32]; FBasic (BConst (VI32 1%Z)); FEnd; FBasic (BConst (VI32 2%Z)); FBasic (BConst (VI32 3%Z)); FBasic (BSelect None); FEnd]; b_bad := false |};
    PCode {| b_locals := []; b_badlocals := false; b_ops := [FBasic (BConst (VI32 2%Z)); FBlock false [] [TI32]; FBasic (BConst (VI32 1%Z)); FEnd; FBasic (BConst (VI32 3%Z)); FBasic (BSelect None); FEnd]; b_bad := false |};
    PCode {| b_locals := []; b_badlocals := false; b_ops := [FBasic (BConst (VI32 2%Z)); FBasic (BConst (VI32 3%Z)); FBlock false [] [TI32]; FBasic (BConst (VI32 1%Z)); FEnd; FBasic (BSelect None); FEnd]; b_bad := false |};
    PCode {| b_locals := []; b_badlocals := false; b_ops := [FBlock true [] [TI32]; FBlock false [] [TI32]; FBasic (BConst (VI32 1%Z)); FEnd; FCall 0; FCall 0; FEnd; FEnd]; b_bad := false |};
    PCode {| b_locals := []; b_badlocals := false; b_ops := [FBlock true [] [TI32]; FCall 0; FBlock false [] [TI32]; FBasic (BConst (VI32 1%Z)); FEnd; FCall 0; FEnd; FEnd]; b_bad := false |};
    PCode {| b_locals := []; b_badlocals := false; b_ops := [FBlock true [] [TI32]; FCall 0; FCall 0; FBlock false [] [TI32]; FBasic (BConst (VI32 1%Z)); FEnd; FEnd; FEnd]; b_bad := false |};
    PCode {| b_locals := []; b_badlocals := false; b_ops := [FBlock false [] [TI32]; FBasic (BConst (VI32 1%Z)); FEnd; FIf [] []; FCall 0; FEnd; FEnd]; b_bad := false |};
    PCode {| b_locals := []; b_badlocals := false; b_ops := [FBasic (BConst (VI32 1%Z)); FIf [] [TI32]; FBlock false [] [TI32]; FBasic (BConst (VI32 1%Z)); FEnd; FElse; FBasic (BConst (VI32 2%Z)); FEnd; FEnd]; b_bad := false |};
    PCode {| b_locals := []; b_badlocals := false; b_ops := [FBasic (BConst (VI32 1%Z)); FIf [] [TI32]; FBasic (BConst (VI32 2%Z)); FElse; FBlock false [] [TI32]; FBasic (BConst (VI32 1%Z)); FEnd; FEnd; FEnd]; b_bad := false |};
    PCode {| b_locals := []; b_badlocals := false; b_ops := [FBlock false [] [TI32]; FBlock false [] [TI32]; FBasic (BConst (VI32 1%Z)); FEnd; FBasic (BConst (VI32 2%Z)); FBrIf 0; FEnd; FEnd]; b_bad := false |};
    PCode {| b_locals := []; b_badlocals := false; b_ops := [FBlock false [] [TI32]; FBasic (BConst (VI32 2%Z)); FBlock false [] [TI32]; FBasic (BConst (VI32 1%Z)); FEnd; FBrIf 0; FEnd; FEnd]; b_bad := false |};
    PCode {| b_locals := []; b_badlocals := false; b_ops := [FBlock false [] [TI32]; FBlock false [] [TI32]; FBasic (BConst (VI32 1%Z)); FEnd; FBasic (BConst (VI32 2%Z)); FBrTable [0] 0; FEnd; FEnd]; b_bad := false |};
    PCode {| b_locals := []; b_badlocals := false; b_ops := [FBlock false [] [TI32]; FBasic (BConst (VI32 2%Z)); FBlock false [] [TI32]; FBasic (BConst (VI32 1%Z)); FEnd; FBrTable [0] 0; FEnd; FEnd]; b_bad := false |};
    PCode {| b_locals := []; b_badlocals := false; b_ops := [FBasic (BGet 0); FEnd]; b_bad := false |};
    PCode {| b_locals := []; b_badlocals := false; b_ops := [FBlock false [] [TI32]; FBlock false [] [TI32]; FBasic (BConst (VI32 1%Z)); FEnd; FBasic (BConst (VI32 2%Z)); FBasic (BConst (VI32 0%Z)); FCallInd 0 0; FEnd; FEnd]; b_bad := false |};
    PCode {| b_locals := []; b_badlocals := false; b_ops := [FBlock false [] [TI32]; FBasic (BConst (VI32 2%Z)); FBlock false [] [TI32]; FBasic (BConst (VI32 1%Z)); FEnd; FBasic (BConst (VI32 0%Z)); FCallInd 0 0; FEnd; FEnd]; b_bad := false |};
    PCode {| b_locals := []; b_badlocals := false; b_ops := [FBlock false [] [TI32]; FBasic (BConst (VI32 1%Z)); FBasic (BConst (VI32 2%Z)); FBlock false [] [TI32]; FBasic (BConst (VI32 0%Z)); FEnd; FCallInd 0 0; FEnd; FEnd]; b_bad := false |};
    PCode {| b_locals := []; b_badlocals := false; b_ops := [FBlock false [] [TI32]; FBasic (BConst (VI32 1%Z)); FEnd; FBasic (BConst (VI32 1%Z)); FBasic (BOp (SStore SI32 0%Z)); FEnd]; b_bad := false |};
    PCode {| b_locals := []; b_badlocals := false; b_ops := [FBasic (BConst (VI32 10%Z)); FBlock false [] [TI32]; FBasic (BConst (VI32 1%Z)); FEnd; FBasic (BOp (SStore SI32 0%Z)); FEnd]; b_bad := false |};
    PCode {| b_locals := []; b_badlocals := false; b_ops := [FBlock false [] [TI32]; FBasic (BConst (VI32 1%Z)); FEnd; FBasic (BOp SMemGrow); FEnd]; b_bad := false |};
    PCode {| b_locals := []; b_badlocals := false; b_ops := [FBasic (BGet 0); FEnd]; b_bad := false |};
    PCode {| b_locals := []; b_badlocals := false; b_ops := [FBlock false [] [TI32]; FBasic (BConst (VI32 1%Z)); FEnd; FCall 26; FEnd]; b_bad := false |};
    PCode {| b_locals := []; b_badlocals := false; b_ops := [FBlock false [] [TI32]; FBasic (BConst (VI32 1%Z)); FEnd; FReturn; FEnd]; b_bad := false |};
    PCode {| b_locals := []; b_badlocals := false; b_ops := [FBlock false [] [TI32]; FBasic (BConst (VI32 1%Z)); FEnd; FBasic BDrop; FEnd]; b_bad := false |};
    PCode {| b_locals := []; b_badlocals := false; b_ops := [FBlock false [] [TI32]; FBlock false [] [TI32]; FBasic (BConst (VI32 1%Z)); FEnd; FBr 0; FEnd; FEnd]; b_bad := false |};
    PCode {| b_locals := [TI32]; b_badlocals := false; b_ops := [FBlock false [] [TI32]; FBasic (BConst (VI32 1%Z)); FEnd; FBasic (BSet 0); FBasic (BGet 0); FEnd]; b_bad := false |};
    PCode {| b_locals := [TI32]; b_badlocals := false; b_ops := [FBlock false [] [TI32]; FBasic (BConst (VI32 1%Z)); FEnd; FBasic (BTee 0); FEnd]; b_bad := false |};
    PCode {| b_locals := []; b_badlocals := false; b_ops := [FBlock false [] [TI32]; FBasic (BConst (VI32 1%Z)); FEnd; FBasic (BOp (SGlobalSet TI32 0)); FBasic (BOp (SGlobalGet TI32 0)); FEnd]; b_bad := false |};
    PCode {| b_locals := []; b_badlocals := false; b_ops := [FBlock false [] [TI32]; FBasic (BConst (VI32 1%Z)); FEnd; FBasic (BOp (SLoad LI32 0%Z)); FEnd]; b_bad := false |};
    PCode {| b_locals := []; b_badlocals := false; b_ops := [FBlock false [] [TI32]; FCall 0; FBasic (BConst (VI32 13%Z)); FEnd; FBasic (BOp (SNum1 (U_int W32 Ictz))); FEnd]; b_bad := false |};
    PCode {| b_locals := []; b_badlocals := false; b_ops := [FBlock false [] [TI32]; FCall 0; FBasic (BConst (VI32 3%Z)); FEnd; FBlock false [] [TI32]; FCall 0; FBasic (BConst (VI32 4%Z)); FEnd; FBasic (BOp (SNum2 (B_int W32 Imul))); FEnd]; b_bad := false |};
    PCode {| b_locals := []; b_badlocals := false; b_ops := [FBlock false [] [TI32]; FCall 0; FBasic (BConst (VI32 13%Z)); FEnd; FBasic (BOp (SNum1 (U_eqz W32))); FEnd]; b_bad := false |};
    PCode {| b_locals := []; b_badlocals := false; b_ops := [FBlock false [] [TF32]; FCall 0; FBasic (BConst (VF32 1077936128%Z)); FEnd; FBlock false [] [TF32]; FCall 0; FBasic (BConst (VF32 1077936128%Z)); FEnd; FBasic (BOp (SNum2 (B_frel FT32 Fgt))); FEnd]; b_bad := false |};
    PCode {| b_locals := []; b_badlocals := false; b_ops := [FBlock false [] [TI32; TI32]; FCall 0; FBasic (BConst (VI32 3%Z)); FCall 0; FBasic (BConst (VI32 4%Z)); FEnd; FBasic (BOp (SNum2 (B_int W32 Imul))); FEnd]; b_bad := false |};
    PCode {| b_locals := []; b_badlocals := false; b_ops := [FBlock false [] [TF32; TF32]; FCall 0; FBasic (BConst (VF32 1077936128%Z)); FCall 0; FBasic (BConst (VF32 1077936128%Z)); FEnd; FBasic (BOp (SNum2 (B_frel FT32 Fgt))); FEnd]; b_bad := false |};
    PCode {| b_locals := []; b_badlocals := false; b_ops := [FBlock false [] [TI32; TI32]; FCall 0; FBasic (BConst (VI32 3%Z)); FCall 0; FBasic (BConst (VI32 4%Z)); FEnd; FBasic (BConst (VI32 5%Z)); FBasic (BOp (SNum2 (B_int W32 Iadd))); FBasic (BOp (SNum2 (B_int W32 Imul))); FEnd]; b_bad := false |};
    PCode {| b_locals := []; b_badlocals := false; b_ops := [FBlock false [] []; FBr 0; FUnreachable; FEnd; FBlock false [] []; FBasic (BConst (VI32 1%Z)); FBrIf 0; FUnreachable; FEnd; FBlock false [] []; FBasic (BConst (VI32 0%Z)); FBrTable [] 0; FUnreachable; FEnd; FBlock false [] []; FBasic (BConst (VI32 1%Z)); FBrTable [0; 0] 0; FUnreachable; FEnd; FBasic (BConst (VI32 19%Z)); FEnd]; b_bad := false |};
    PCode {| b_locals := []; b_badlocals := false; b_ops := [FBlock false [] [TI32]; FBasic (BConst (VI32 18%Z)); FBr 0; FBasic (BConst (VI32 19%Z)); FEnd; FEnd]; b_bad := false |};
    PCode {| b_locals := []; b_badlocals := false; b_ops := [FBlock false [] [TI32]; FBasic (BConst (VI32 18%Z)); FBr 0; FBasic (BConst (VI32 19%Z)); FBr 0; FBasic (BConst (VI32 20%Z)); FBasic (BConst (VI32 0%Z)); FBrIf 0; FBasic BDrop; FBasic (BConst (VI32 20%Z)); FBasic (BConst (VI32 1%Z)); FBrIf 0; FBasic BDrop; FBasic (BConst (VI32 21%Z)); FBr 0; FBasic (BConst (VI32 22%Z)); FBasic (BConst (VI32 4%Z)); FBrTable [] 0; FBasic (BConst (VI32 23%Z)); FBasic (BConst (VI32 1%Z)); FBrTable [0; 0] 0; FBasic (BConst (VI32 21%Z)); FEnd; FEnd]; b_bad := false |};
    PCode {| b_locals := [TI32]; b_badlocals := false; b_ops := [FBasic (BConst (VI32 0%Z)); FBasic (BSet 0); FBasic (BGet 0); FBlock false [] [TI32]; FBlock false [] [TI32]; FBasic (BConst (VI32 1%Z)); FBr 1; FEnd; FEnd; FBasic (BOp (SNum2 (B_int W32 Iadd))); FBasic (BSet 0); FBasic (BGet 0); FBlock false [] [TI32]; FBlock false [] []; FBr 0; FEnd; FBasic (BConst (VI32 2%Z)); FEnd; FBasic (BOp (SNum2 (B_int W32 Iadd))); FBasic (BSet 0); FBasic (BGet 0); FBlock false [] [TI32]; FBasic (BConst (VI32 4%Z)); FBr 0; FBasic (BOp (SNum1 (U_int W32 Ictz))); FEnd; FBasic (BOp (SNum2 (B_int W32 Iadd))); FBasic (BSet 0); FBasic (BGet 0); FBlock false [] [TI32]; FBlock false [] [TI32]; FBasic (BConst (VI32 8%Z)); FBr 1; FEnd; FBasic (BOp (SNum1 (U_int W32 Ictz))); FEnd; FBasic (BOp (SNum2 (B_int W32 Iadd))); FBasic (BSet 0); FBasic (BGet 0); FEnd]; b_bad := false |};
    PCode {| b_locals := []; b_badlocals := false; b_ops := [FBasic (BConst (VI32 1%Z)); FBlock false [TI32] [TI32]; FBasic (BConst (VI32 2%Z)); FBasic (BOp (SNum2 (B_int W32 Iadd))); FEnd; FEnd]; b_bad := false |};
    PCode {| b_locals := []; b_badlocals := false; b_ops := [FBasic (BConst (VI32 1%Z)); FBasic (BConst (VI32 2%Z)); FBlock false [TI32; TI32] [TI32]; FBasic (BOp (SNum2 (B_int W32 Iadd))); FEnd; FEnd]; b_bad := false |};
    PCode {| b_locals := []; b_badlocals := false; b_ops := [FBasic (BConst (VI32 1%Z)); FBasic (BConst (VI32 2%Z)); FBlock false [TI32; TI32] [TI32; TI32]; FEnd; FBasic (BOp (SNum2 (B_int W32 Iadd))); FEnd]; b_bad := false |};
    PCode {| b_locals := []; b_badlocals := false; b_ops := [FBasic (BConst (VI32 1%Z)); FBlock false [TI32] [TI32]; FBasic (BConst (VI32 2%Z)); FBasic (BOp (SNum2 (B_int W32 Iadd))); FBr 0; FEnd; FEnd]; b_bad := false |};
    PCode {| b_locals := []; b_badlocals := false; b_ops := [FBasic (BConst (VI32 1%Z)); FBasic (BConst (VI32 2%Z)); FBlock false [TI32; TI32] [TI32]; FBasic (BOp (SNum2 (B_int W32 Iadd))); FBr 0; FEnd; FEnd]; b_bad := false |};
    PCode {| b_locals := []; b_badlocals := false; b_ops := [FBasic (BConst (VI32 1%Z)); FBasic (BConst (VI32 2%Z)); FBlock false [TI32; TI32] [TI32; TI32]; FBr 0; FEnd; FBasic (BOp (SNum2 (B_int W32 Iadd))); FEnd]; b_bad := false |};
    PCode {| b_locals := [TI32]; b_badlocals := false; b_ops := [FBlock false [] []; FBasic (BConst (VI32 1%Z)); FBasic (BSet 0); FBasic (BGet 0); FBasic (BConst (VI32 3%Z)); FBasic (BOp (SNum2 (B_int W32 Imul))); FBasic (BSet 0); FBasic (BGet 0); FBasic (BConst (VI32 5%Z)); FBasic (BOp (SNum2 (B_int W32 Isub))); FBasic (BSet 0); FBasic (BGet 0); FBasic (BConst (VI32 7%Z)); FBasic (BOp (SNum2 (B_int W32 Imul))); FBasic (BSet 0); FBr 0; FBasic (BGet 0); FBasic (BConst (VI32 100%Z)); FBasic (BOp (SNum2 (B_int W32 Imul))); FBasic (BSet 0); FEnd; FBasic (BGet 0); FBasic (BConst (VI32 (-14)%Z)); FBasic (BOp (SNum2 (B_irel W32 Ieq))); FEnd]; b_bad := false |};
    PCode {| b_locals := []; b_badlocals := false; b_ops := [FBlock false [] []; FEnd; FBlock false [] [TI32]; FBasic (BConst (VI32 0%Z)); FEnd; FBlock false [TI32] []; FBasic BDrop; FEnd; FBasic (BConst (VI32 0%Z)); FBasic (BConst (VF64 0%Z)); FBasic (BConst (VI32 0%Z)); FBlock false [TI32; TF64; TI32] [TI32; TF64; TI32]; FEnd; FBasic BDrop; FBasic BDrop; FBasic BDrop; FBlock false [] [TI32]; FBasic (BConst (VI32 0%Z)); FEnd; FBlock false [TI32] []; FBasic BDrop; FEnd; FBasic (BConst (VI32 0%Z)); FBasic (BConst (VF64 0%Z)); FBasic (BConst (VI32 0%Z)); FBlock false [TI32; TF64; TI32] [TI32; TF64; TI32]; FEnd; FBasic BDrop; FBasic BDrop; FBasic BDrop; FEnd]; b_bad := false |} ].
Definition w_br : list payload :=
  [ PVersion 1;
    PTypes [Some ([TI32; TI32; TI32], [TI32]); Some ([], []); Some ([], [TI32]); Some ([], [TI64]); Some ([], [TF32]); Some ([], [TF64]); Some ([TI32; TI32], [TI32])];
    PFuncs [Some 1; Some 1; Some 1; Some 1; Some 1; Some 1; Some 1; Some 1; Some 1; Some 2; Some 3; Some 4; Some 5; Some 1; Some 1; Some 1; Some 2; Some 2; Some 2; Some 2; Some 2; Some 1; Some 2; Some 2; Some 1; Some 2; Some 2; Some 3; Some 2; Some 6; Some 6; Some 6; Some 6; Some 2; Some 2; Some 0; Some 2; Some 2; Some 2; Some 2; Some 2; Some 2; Some 2; Some 2; Some 2; Some 2; Some 2; Some 2; Some 4; Some 3; Some 2; Some 2; Some 2; Some 2; Some 2; Some 2; Some 4; Some 2; Some 3; Some 2; Some 2; Some 2; Some 2; Some 2; Some 2; Some 2; Some 2; Some 2; Some 2; Some 2; Some 2; Some 2];
    PTables [Some 1%Z];
    PMems [Some (1%Z, None)];
    PGlobals [Some [CVal (VI32 10%Z)]];
    PExports [Some ("type-i32", ExFunc 1); Some ("type-i64", ExFunc 2); Some ("type-f32", ExFunc 3); Some ("type-f64", ExFunc 4); Some ("type-i32-i32", ExFunc 5); Some ("type-i64-i64", ExFunc 6); Some ("type-f32-f32", ExFunc 7); Some ("type-f64-f64", ExFunc 8); Some ("type-i32-value", ExFunc 9); Some ("type-i64-value", ExFunc 10); Some ("type-f32-value", ExFunc 11); Some ("type-f64-value", ExFunc 12); Some ("as-block-first", ExFunc 13); Some ("as-block-mid", ExFunc 14); Some ("as-block-last", ExFunc 15); Some ("as-block-value", ExFunc 16); Some ("as-loop-first", ExFunc 17); Some ("as-loop-mid", ExFunc 18); Some ("as-loop-last", ExFunc 19); Some ("as-br-value", ExFunc 20); Some ("as-br_if-cond", ExFunc 21); Some ("as-br_if-value", ExFunc 22); Some ("as-br_if-value-cond", ExFunc 23); Some ("as-br_table-index", ExFunc 24); Some ("as-br_table-value", ExFunc 25); Some ("as-br_table-value-index", ExFunc 26); Some ("as-return-value", ExFunc 27); Some ("as-if-cond", ExFunc 28); Some ("as-if-then", ExFunc 29); Some ("as-if-else", ExFunc 30); Some ("as-select-first", ExFunc 31); Some ("as-select-second", ExFunc 32); Some ("as-select-cond", ExFunc 33); Some ("as-select-all", ExFunc 34); Some ("as-call-first", ExFunc 36); Some ("as-call-mid", ExFunc 37); Some ("as-call-last", ExFunc 38); Some ("as-call-all", ExFunc 39); Some ("as-call_indirect-func", ExFunc 40); Some ("as-call_indirect-first", ExFunc 41); Some ("as-call_indirect-mid", ExFunc 42); Some ("as-call_indirect-last", ExFunc 43); Some ("as-call_indirect-all", ExFunc 44); Some ("as-local.set-value", ExFunc 45); Some ("as-local.tee-value", ExFunc 46); Some ("as-global.set-value", ExFunc 47); Some ("as-load-address", ExFunc 48); Some ("as-loadN-address", ExFunc 49); Some ("as-store-address", ExFunc 50); Some ("as-store-value", ExFunc 51); Some ("as-store-both", ExFunc 52); Some ("as-storeN-address", ExFunc 53); Some ("as-storeN-value", ExFunc 54); Some ("as-storeN-both", ExFunc 55); Some ("as-unary-operand", ExFunc 56); Some ("as-binary-left", ExFunc 57); Some ("as-binary-right", ExFunc 58); Some ("as-binary-both", ExFunc 59); Some ("as-test-operand", ExFunc 60); Some ("as-compare-left", ExFunc 61); Some ("as-compare-right", ExFunc 62); Some ("as-compare-both", ExFunc 63); Some ("as-convert-operand", ExFunc 64); Some ("as-memory.grow-size", ExFunc 65); Some ("nested-block-value", ExFunc 66); Some ("nested-br-value", ExFunc 67); Some ("nested-br_if-value", ExFunc 68); Some ("nested-br_if-value-cond", ExFunc 69); Some ("nested-br_table-value", ExFunc 70); Some ("nested-br_table-value-index", ExFunc 71)];
    PElems [Some {| e_extern := false; e_idxes := Some [35]; e_init := None; e_mode := MActive 0 [CVal (VI32 0%Z)] |}];
    PCode {| b_locals := []; b_badlocals := false; b_ops := [FEnd]; b_bad := false |};
    PCode {| b_locals := []; b_badlocals := false; b_ops := [FBlock false [] []; FBr 0; FBasic (BOp (SNum1 (U_int W32 Ictz))); FBasic BDrop; FEnd; FEnd]; b_bad := false |};
    PCode {| b_locals := []; b_badlocals := false; b_ops := [FBlock false [] []; FBr 0; FBasic (BOp (SNum1 (U_int W64 Ictz))); FBasic BDrop; FEnd; FEnd]; b_bad := false |};
    PCode {| b_locals := []; b_badlocals := false; b_ops := [FBlock false [] []; FBr 0; FBasic (BOp (SNum1 (U_flt FT32 FUneg))); FBasic BDrop; FEnd; FEnd]; b_bad := false |};
    PCode {| b_locals := []; b_badlocals := false; b_ops := [FBlock false [] []; FBr 0; FBasic (BOp (SNum1 (U_flt FT64 FUneg))); FBasic BDrop; FEnd; FEnd]; b_bad := false |};
    PCode {| b_locals := []; b_badlocals := false; b_ops := [FBlock false [] []; FBr 0; FBasic (BOp (SNum2 (B_int W32 Iadd))); FBasic BDrop; FEnd; FEnd]; b_bad := false |};
    PCode {| b_locals := []; b_badlocals := false; b_ops := [FBlock false [] []; FBr 0; FBasic (BOp (SNum2 (B_int W64 Iadd))); FBasic BDrop; FEnd; FEnd]; b_bad := false |};
    PCode {| b_locals := []; b_badlocals := false; b_ops := [FBlock false [] []; FBr 0; FBasic (BOp (SNum2 (B_flt FT32 (FBarith Fadd)))); FBasic BDrop; FEnd; FEnd]; b_bad := false |};
    PCode {| b_locals := []; b_badlocals := false; b_ops := [FBlock false [] []; FBr 0; FBasic (BOp (SNum2 (B_flt FT64 (FBarith Fadd)))); FBasic BDrop; FEnd; FEnd]; b_bad := false |};
    PCode {| b_locals := []; b_badlocals := false; b_ops := [FBlock false [] [TI32]; FBasic (BConst (VI32 1%Z)); FBr 0; FBasic (BOp (SNum1 (U_int W32 Ictz))); FEnd; FEnd]; b_bad := false |};
    PCode {| b_locals := []; b_badlocals := false; b_ops := [FBlock false [] [TI64]; FBasic (BConst (VI64 2%Z)); FBr 0; FBasic (BOp (SNum1 (U_int W64 Ictz))); FEnd; FEnd]; b_bad := false |};
    PCode {| b_locals := []; b_badlocals := false; b_ops := [FBlock false [] [TF32]; FBasic (BConst (VF32 1077936128%Z)); FBr 0; FBasic (BOp (SNum1 (U_flt FT32 FUneg))); FEnd; FEnd]; b_bad := false |};
    PCode {| b_locals := []; b_badlocals := false; b_ops := [FBlock false [] [TF64]; FBasic (BConst (VF64 4616189618054758400%Z)); FBr 0; FBasic (BOp (SNum1 (U_flt FT64 FUneg))); FEnd; FEnd]; b_bad := false |};
    PCode {| b_locals := []; b_badlocals := false; b_ops := [FBlock false [] []; FBr 0; FCall 0; FEnd; FEnd]; b_bad := false |};
    PCode {| b_locals := []; b_badlocals := false; b_ops := [FBlock false [] []; FCall 0; FBr 0; FCall 0; FEnd; FEnd]; b_bad := false |};
    PCode {| b_locals := []; b_badlocals := false; b_ops := [FBlock false [] []; FBasic BNop; FCall 0; FBr 0; FEnd; FEnd]; b_bad := false |};
    PCode {| b_locals := []; b_badlocals := false; b_ops := [FBlock false [] [TI32]; FBasic BNop; FCall 0; FBasic (BConst (VI32 2%Z)); FBr 0; FEnd; FEnd]; b_bad := false |};
    PCode {| b_locals := []; b_badlocals := false; b_ops := [FBlock false [] [TI32]; FBlock true [] [TI32]; FBasic (BConst (VI32 3%Z)); FBr 1; FBasic (BConst (VI32 2%Z)); FEnd; FEnd; FEnd]; b_bad := false |};
    PCode {| b_locals := []; b_badlocals := false; b_ops := [FBlock false [] [TI32]; FBlock true [] [TI32]; FCall 0; FBasic (BConst (VI32 4%Z)); FBr 1; FBasic (BConst (VI32 2%Z)); FEnd; FEnd; FEnd]; b_bad := false |};
    PCode {| b_locals := []; b_badlocals := false; b_ops := [FBlock false [] [TI32]; FBlock true [] [TI32]; FBasic BNop; FCall 0; FBasic (BConst (VI32 5%Z)); FBr 1; FEnd; FEnd; FEnd]; b_bad := false |};
    PCode {| b_locals := []; b_badlocals := false; b_ops := [FBlock false [] [TI32]; FBasic (BConst (VI32 9%Z)); FBr 0; FBr 0; FEnd; FEnd]; b_bad := false |};
    PCode {| b_locals := []; b_badlocals := false; b_ops := [FBlock false [] []; FBr 0; FBrIf 0; FEnd; FEnd]; b_bad := false |};
    PCode {| b_locals := []; b_badlocals := false; b_ops := [FBlock false [] [TI32]; FBasic (BConst (VI32 8%Z)); FBr 0; FBasic (BConst (VI32 1%Z)); FBrIf 0; FBasic BDrop; FBasic (BConst (VI32 7%Z)); FEnd; FEnd]; b_bad := false |};
    PCode {| b_locals := []; b_badlocals := false; b_ops := [FBlock false [] [TI32]; FBasic (BConst (VI32 6%Z)); FBasic (BConst (VI32 9%Z)); FBr 0; FBrIf 0; FBasic BDrop; FBasic (BConst (VI32 7%Z)); FEnd; FEnd]; b_bad := false |};
    PCode {| b_locals := []; b_badlocals := false; b_ops := [FBlock false [] []; FBr 0; FBrTable [0; 0] 0; FEnd; FEnd]; b_bad := false |};
    PCode {| b_locals := []; b_badlocals := false; b_ops := [FBlock false [] [TI32]; FBasic (BConst (VI32 10%Z)); FBr 0; FBasic (BConst (VI32 1%Z)); FBrTable [0; 0] 0; FBasic (BConst (VI32 7%Z)); FEnd; FEnd]; b_bad := false |};
    PCode {| b_locals := []; b_badlocals := false; b_ops := [FBlock false [] [TI32]; FBasic (BConst (VI32 6%Z)); FBasic (BConst (VI32 11%Z)); FBr 0; FBrTable [0] 0; FBasic (BConst (VI32 7%Z)); FEnd; FEnd]; b_bad := false |};
    PCode {| b_locals := []; b_badlocals := false; b_ops := [FBlock false [] [TI64]; FBasic (BConst (VI64 7%Z)); FBr 0; FReturn; FEnd; FEnd]; b_bad := false |};
    PCode {| b_locals := []; b_badlocals := false; b_ops := [FBlock false [] [TI32]; FBasic (BConst (VI32 2%Z)); FBr 0; FIf [] [TI32]; FBasic (BConst (VI32 0%Z)); FElse; FBasic (BConst (VI32 1%Z)); FEnd; FEnd; FEnd]; b_bad := false |};
    PCode {| b_locals := []; b_badlocals := false; b_ops := [FBlock false [] [TI32]; FBasic (BGet 0); FIf [] [TI32]; FBasic (BConst (VI32 3%Z)); FBr 1; FElse; FBasic (BGet 1); FEnd; FEnd; FEnd]; b_bad := false |};
    PCode {| b_locals := []; b_badlocals := false; b_ops := [FBlock false [] [TI32]; FBasic (BGet 0); FIf [] [TI32]; FBasic (BGet 1); FElse; FBasic (BConst (VI32 4%Z)); FBr 1; FEnd; FEnd; FEnd]; b_bad := false |};
    PCode {| b_locals := []; b_badlocals := false; b_ops := [FBlock false [] [TI32]; FBasic (BConst (VI32 5%Z)); FBr 0; FBasic (BGet 0); FBasic (BGet 1); FBasic (BSelect None); FEnd; FEnd]; b_bad := false |};
    PCode {| b_locals := []; b_badlocals := false; b_ops := [FBlock false [] [TI32]; FBasic (BGet 0); FBasic (BConst (VI32 6%Z)); FBr 0; FBasic (BGet 1); FBasic (BSelect None); FEnd; FEnd]; b_bad := false |};
    PCode {| b_locals := []; b_badlocals := false; b_ops := [FBlock false [] [TI32]; FBasic (BConst (VI32 0%Z)); FBasic (BConst (VI32 1%Z)); FBasic (BConst (VI32 7%Z)); FBr 0; FBasic (BSelect None); FEnd; FEnd]; b_bad := false |};
    PCode {| b_locals := []; b_badlocals := false; b_ops := [FBlock false [] [TI32]; FBasic (BConst (VI32 8%Z)); FBr 0; FBasic (BSelect None); FEnd; FEnd]; b_bad := false |};
    PCode {| b_locals := []; b_badlocals := false; b_ops := [FBasic (BConst (VI32 (-1)%Z)); FEnd]; b_bad := false |};
    PCode {| b_locals := []; b_badlocals := false; b_ops := [FBlock false [] [TI32]; FBasic (BConst (VI32 12%Z)); FBr 0; FBasic (BConst (VI32 2%Z)); FBasic (BConst (VI32 3%Z)); FCall 35; FEnd; FEnd]; b_bad := false |};
    PCode {| b_locals := []; b_badlocals := false; b_ops := [FBlock false [] [TI32]; FBasic (BConst (VI32 1%Z)); FBasic (BConst (VI32 13%Z)); FBr 0; FBasic (BConst (VI32 3%Z)); FCall 35; FEnd; FEnd]; b_bad := false |};
    PCode {| b_locals := []; b_badlocals := false; b_ops := [FBlock false [] [TI32]; FBasic (BConst (VI32 1%Z)); FBasic (BConst (VI32 2%Z)); FBasic (BConst (VI32 14%Z)); FBr 0; FCall 35; FEnd; FEnd]; b_bad := false |};
    PCode {| b_locals := []; b_badlocals := false; b_ops := [FBlock false [] [TI32]; FBasic (BConst (VI32 15%Z)); FBr 0; FCall 35; FEnd; FEnd]; b_bad := false |};
    PCode {| b_locals := []; b_badlocals := false; b_ops := [FBlock false [] [TI32]; FBasic (BConst (VI32 20%Z)); FBr 0; FBasic (BConst (VI32 1%Z)); FBasic (BConst (VI32 2%Z)); FBasic (BConst (VI32 3%Z)); FCallInd 0 0; FEnd; FEnd]; b_bad := false |};
    PCode {| b_locals := []; b_badlocals := false; b_ops := [FBlock false [] [TI32]; FBasic (BConst (VI32 0%Z)); FBasic (BConst (VI32 21%Z)); FBr 0; FBasic (BConst (VI32 2%Z)); FBasic (BConst (VI32 3%Z)); FCallInd 0 0; FEnd; FEnd]; b_bad := false |};
    PCode {| b_locals := []; b_badlocals := false; b_ops := [FBlock false [] [TI32]; FBasic (BConst (VI32 0%Z)); FBasic (BConst (VI32 1%Z)); FBasic (BConst (VI32 22%Z)); FBr 0; FBasic (BConst (VI32 3%Z)); FCallInd 0 0; FEnd; FEnd]; b_bad := false |};
    PCode {| b_locals := []; b_badlocals := false; b_ops := [FBlock false [] [TI32]; FBasic (BConst (VI32 0%Z)); FBasic (BConst (VI32 1%Z)); FBasic (BConst (VI32 2%Z)); FBasic (BConst (VI32 23%Z)); FBr 0; FCallInd 0 0; FEnd; FEnd]; b_bad := false |};
    PCode {| b_locals := []; b_badlocals := false; b_ops := [FBlock false [] [TI32]; FBasic (BConst (VI32 24%Z)); FBr 0; FCallInd 0 0; FEnd; FEnd]; b_bad := false |};
    PCode {| b_locals := [TF32]; b_badlocals := false; b_ops := [FBlock false [] [TI32]; FBasic (BConst (VI32 17%Z)); FBr 0; FBasic (BSet 0); FBasic (BConst (VI32 (-1)%Z)); FEnd; FEnd]; b_bad := false |};
    PCode {| b_locals := [TI32]; b_badlocals := false; b_ops := [FBlock false [] [TI32]; FBasic (BConst (VI32 1%Z)); FBr 0; FBasic (BTee 0); FEnd; FEnd]; b_bad := false |};
    PCode {| b_locals := []; b_badlocals := false; b_ops := [FBlock false [] [TI32]; FBasic (BConst (VI32 1%Z)); FBr 0; FBasic (BOp (SGlobalSet TI32 0)); FEnd; FEnd]; b_bad := false |};
    PCode {| b_locals := []; b_badlocals := false; b_ops := [FBlock false [] [TF32]; FBasic (BConst (VF32 1071225242%Z)); FBr 0; FBasic (BOp (SLoad LF32 0%Z)); FEnd; FEnd]; b_bad := false |};
    PCode {| b_locals := []; b_badlocals := false; b_ops := [FBlock false [] [TI64]; FBasic (BConst (VI64 30%Z)); FBr 0; FBasic (BOp (SLoad LI64_8s 0%Z)); FEnd; FEnd]; b_bad := false |};
    PCode {| b_locals := []; b_badlocals := false; b_ops := [FBlock false [] [TI32]; FBasic (BConst (VI32 30%Z)); FBr 0; FBasic (BConst (VF64 4619567317775286272%Z)); FBasic (BOp (SStore SF64 0%Z)); FBasic (BConst (VI32 (-1)%Z)); FEnd; FEnd]; b_bad := false |};
    PCode {| b_locals := []; b_badlocals := false; b_ops := [FBlock false [] [TI32]; FBasic (BConst (VI32 2%Z)); FBasic (BConst (VI32 31%Z)); FBr 0; FBasic (BOp (SStore SI64 0%Z)); FBasic (BConst (VI32 (-1)%Z)); FEnd; FEnd]; b_bad := false |};
    PCode {| b_locals := []; b_badlocals := false; b_ops := [FBlock false [] [TI32]; FBasic (BConst (VI32 32%Z)); FBr 0; FBasic (BOp (SStore SI64 0%Z)); FBasic (BConst (VI32 (-1)%Z)); FEnd; FEnd]; b_bad := false |};
    PCode {| b_locals := []; b_badlocals := false; b_ops := [FBlock false [] [TI32]; FBasic (BConst (VI32 32%Z)); FBr 0; FBasic (BConst (VI32 7%Z)); FBasic (BOp (SStore SI32_8 0%Z)); FBasic (BConst (VI32 (-1)%Z)); FEnd; FEnd]; b_bad := false |};
    PCode {| b_locals := []; b_badlocals := false; b_ops := [FBlock false [] [TI32]; FBasic (BConst (VI32 2%Z)); FBasic (BConst (VI32 33%Z)); FBr 0; FBasic (BOp (SStore SI64_16 0%Z)); FBasic (BConst (VI32 (-1)%Z)); FEnd; FEnd]; b_bad := false |};
    PCode {| b_locals := []; b_badlocals := false; b_ops := [FBlock false [] [TI32]; FBasic (BConst (VI32 34%Z)); FBr 0; FBasic (BOp (SStore SI64_16 0%Z)); FBasic (BConst (VI32 (-1)%Z)); FEnd; FEnd]; b_bad := false |};
    PCode {| b_locals := []; b_badlocals := false; b_ops := [FBlock false [] [TF32]; FBasic (BConst (VF32 1079613850%Z)); FBr 0; FBasic (BOp (SNum1 (U_flt FT32 FUneg))); FEnd; FEnd]; b_bad := false |};
    PCode {| b_locals := []; b_badlocals := false; b_ops := [FBlock false [] [TI32]; FBasic (BConst (VI32 3%Z)); FBr 0; FBasic (BConst (VI32 10%Z)); FBasic (BOp (SNum2 (B_int W32 Iadd))); FEnd; FEnd]; b_bad := false |};
    PCode {| b_locals := []; b_badlocals := false; b_ops := [FBlock false [] [TI64]; FBasic (BConst (VI64 10%Z)); FBasic (BConst (VI64 45%Z)); FBr 0; FBasic (BOp (SNum2 (B_int W64 Isub))); FEnd; FEnd]; b_bad := false |};
    PCode {| b_locals := []; b_badlocals := false; b_ops := [FBlock false [] [TI32]; FBasic (BConst (VI32 46%Z)); FBr 0; FBasic (BOp (SNum2 (B_int W32 Iadd))); FEnd; FEnd]; b_bad := false |};
    PCode {| b_locals := []; b_badlocals := false; b_ops := [FBlock false [] [TI32]; FBasic (BConst (VI32 44%Z)); FBr 0; FBasic (BOp (SNum1 (U_eqz W32))); FEnd; FEnd]; b_bad := false |};
    PCode {| b_locals := []; b_badlocals := false; b_ops := [FBlock false [] [TI32]; FBasic (BConst (VI32 43%Z)); FBr 0; FBasic (BConst (VF64 4621819117588971520%Z)); FBasic (BOp (SNum2 (B_frel FT64 Fle))); FEnd; FEnd]; b_bad := false |};
    PCode {| b_locals := []; b_badlocals := false; b_ops := [FBlock false [] [TI32]; FBasic (BConst (VF32 1092616192%Z)); FBasic (BConst (VI32 42%Z)); FBr 0; FBasic (BOp (SNum2 (B_frel FT32 Fne))); FEnd; FEnd]; b_bad := false |};
    PCode {| b_locals := []; b_badlocals := false; b_ops := [FBlock false [] [TI32]; FBasic (BConst (VI32 44%Z)); FBr 0; FBasic (BOp (SNum2 (B_frel FT64 Fle))); FEnd; FEnd]; b_bad := false |};
    PCode {| b_locals := []; b_badlocals := false; b_ops := [FBlock false [] [TI32]; FBasic (BConst (VI32 41%Z)); FBr 0; FBasic (BOp (SCvt (C_wrap))); FEnd; FEnd]; b_bad := false |};
    PCode {| b_locals := []; b_badlocals := false; b_ops := [FBlock false [] [TI32]; FBasic (BConst (VI32 40%Z)); FBr 0; FBasic (BOp SMemGrow); FEnd; FEnd]; b_bad := false |};
    PCode {| b_locals := []; b_badlocals := false; b_ops := [FBasic (BConst (VI32 1%Z)); FBlock false [] [TI32]; FCall 0; FBasic (BConst (VI32 4%Z)); FBasic (BConst (VI32 8%Z)); FBr 0; FBasic (BOp (SNum2 (B_int W32 Iadd))); FEnd; FBasic (BOp (SNum2 (B_int W32 Iadd))); FEnd]; b_bad := false |};
    PCode {| b_locals := []; b_badlocals := false; b_ops := [FBasic (BConst (VI32 1%Z)); FBlock false [] [TI32]; FBasic (BConst (VI32 2%Z)); FBasic BDrop; FBlock false [] [TI32]; FBasic (BConst (VI32 4%Z)); FBasic BDrop; FBasic (BConst (VI32 8%Z)); FBr 1; FBr 0; FEnd; FBasic BDrop; FBasic (BConst (VI32 16%Z)); FEnd; FBasic (BOp (SNum2 (B_int W32 Iadd))); FEnd]; b_bad := false |};
    PCode {| b_locals := []; b_badlocals := false; b_ops := [FBasic (BConst (VI32 1%Z)); FBlock false [] [TI32]; FBasic (BConst (VI32 2%Z)); FBasic BDrop; FBlock false [] [TI32]; FBasic (BConst (VI32 4%Z)); FBasic BDrop; FBasic (BConst (VI32 8%Z)); FBr 1; FBasic (BConst (VI32 1%Z)); FBrIf 0; FBasic BDrop; FBasic (BConst (VI32 32%Z)); FEnd; FBasic BDrop; FBasic (BConst (VI32 16%Z)); FEnd; FBasic (BOp (SNum2 (B_int W32 Iadd))); FEnd]; b_bad := false |};
    PCode {| b_locals := []; b_badlocals := false; b_ops := [FBasic (BConst (VI32 1%Z)); FBlock false [] [TI32]; FBasic (BConst (VI32 2%Z)); FBasic BDrop; FBasic (BConst (VI32 4%Z)); FBasic (BConst (VI32 8%Z)); FBr 0; FBrIf 0; FBasic BDrop; FBasic (BConst (VI32 16%Z)); FEnd; FBasic (BOp (SNum2 (B_int W32 Iadd))); FEnd]; b_bad := false |};
    PCode {| b_locals := []; b_badlocals := false; b_ops := [FBasic (BConst (VI32 1%Z)); FBlock false [] [TI32]; FBasic (BConst (VI32 2%Z)); FBasic BDrop; FBlock false [] [TI32]; FBasic (BConst (VI32 4%Z)); FBasic BDrop; FBasic (BConst (VI32 8%Z)); FBr 1; FBasic (BConst (VI32 1%Z)); FBrTable [] 0; FEnd; FBasic BDrop; FBasic (BConst (VI32 16%Z)); FEnd; FBasic (BOp (SNum2 (B_int W32 Iadd))); FEnd]; b_bad := false |};
    PCode {| b_locals := []; b_badlocals := false; b_ops := [FBasic (BConst (VI32 1%Z)); FBlock false [] [TI32]; FBasic (BConst (VI32 2%Z)); FBasic BDrop; FBasic (BConst (VI32 4%Z)); FBasic (BConst (VI32 8%Z)); FBr 0; FBrTable [] 0; FBasic (BConst (VI32 16%Z)); FEnd; FBasic (BOp (SNum2 (B_int W32 Iadd))); FEnd]; b_bad := false |} ].
Definition w_br_if : list payload :=
  [ PVersion 1;
    PTypes [Some ([TI32; TI32; TI32], [TI32]); Some ([], []); Some ([], [TI32]); Some ([], [TI64]); Some ([], [TF32]); Some ([], [TF64]); Some ([TI32], [TI32]); Some ([TI32], []); Some ([TI32; TI32], [])];
    PFuncs [Some 1; Some 1; Some 1; Some 1; Some 1; Some 2; Some 3; Some 4; Some 5; Some 6; Some 6; Some 7; Some 6; Some 6; Some 6; Some 6; Some 6; Some 7; Some 2; Some 1; Some 2; Some 6; Some 1; Some 2; Some 2; Some 3; Some 6; Some 8; Some 8; Some 6; Some 6; Some 2; Some 0; Some 2; Some 2; Some 2; Some 0; Some 2; Some 2; Some 2; Some 2; Some 6; Some 6; Some 6; Some 2; Some 2; Some 2; Some 2; Some 2; Some 2; Some 5; Some 2; Some 2; Some 2; Some 2; Some 2; Some 2; Some 6; Some 6; Some 6; Some 6; Some 6; Some 6];
    PTables [Some 1%Z];
    PMems [Some (1%Z, None)];
    PGlobals [Some [CVal (VI32 10%Z)]];
    PExports [Some ("type-i32", ExFunc 1); Some ("type-i64", ExFunc 2); Some ("type-f32", ExFunc 3); Some ("type-f64", ExFunc 4); Some ("type-i32-value", ExFunc 5); Some ("type-i64-value", ExFunc 6); Some ("type-f32-value", ExFunc 7); Some ("type-f64-value", ExFunc 8); Some ("as-block-first", ExFunc 9); Some ("as-block-mid", ExFunc 10); Some ("as-block-last", ExFunc 11); Some ("as-block-first-value", ExFunc 12); Some ("as-block-mid-value", ExFunc 13); Some ("as-block-last-value", ExFunc 14); Some ("as-loop-first", ExFunc 15); Some ("as-loop-mid", ExFunc 16); Some ("as-loop-last", ExFunc 17); Some ("as-br-value", ExFunc 18); Some ("as-br_if-cond", ExFunc 19); Some ("as-br_if-value", ExFunc 20); Some ("as-br_if-value-cond", ExFunc 21); Some ("as-br_table-index", ExFunc 22); Some ("as-br_table-value", ExFunc 23); Some ("as-br_table-value-index", ExFunc 24); Some ("as-return-value", ExFunc 25); Some ("as-if-cond", ExFunc 26); Some ("as-if-then", ExFunc 27); Some ("as-if-else", ExFunc 28); Some ("as-select-first", ExFunc 29); Some ("as-select-second", ExFunc 30); Some ("as-select-cond", ExFunc 31); Some ("as-call-first", ExFunc 33); Some ("as-call-mid", ExFunc 34); Some ("as-call-last", ExFunc 35); Some ("as-call_indirect-func", ExFunc 37); Some ("as-call_indirect-first", ExFunc 38); Some ("as-call_indirect-mid", ExFunc 39); Some ("as-call_indirect-last", ExFunc 40); Some ("as-local.set-value", ExFunc 41); Some ("as-local.tee-value", ExFunc 42); Some ("as-global.set-value", ExFunc 43); Some ("as-load-address", ExFunc 44); Some ("as-loadN-address", ExFunc 45); Some ("as-store-address", ExFunc 46); Some ("as-store-value", ExFunc 47); Some ("as-storeN-address", ExFunc 48); Some ("as-storeN-value", ExFunc 49); Some ("as-unary-operand", ExFunc 50); Some ("as-binary-left", ExFunc 51); Some ("as-binary-right", ExFunc 52); Some ("as-test-operand", ExFunc 53); Some ("as-compare-left", ExFunc 54); Some ("as-compare-right", ExFunc 55); Some ("as-memory.grow-size", ExFunc 56); Some ("nested-block-value", ExFunc 57); Some ("nested-br-value", ExFunc 58); Some ("nested-br_if-value", ExFunc 59); Some ("nested-br_if-value-cond", ExFunc 60); Some ("nested-br_table-value", ExFunc 61); Some ("nested-br_table-value-index", ExFunc 62)];
    PElems [Some {| e_extern := false; e_idxes := Some [36]; e_init := None; e_mode := MActive 0 [CVal (VI32 0%Z)] |}];
    PCode {| b_locals := []; b_badlocals := false; b_ops := [FEnd]; b_bad := false |};
    PCode {| b_locals := []; b_badlocals := false; b_ops := [FBlock false [] []; FBasic (BConst (VI32 0%Z)); FBasic (BConst (VI32 1%Z)); FBrIf 0; FBasic (BOp (SNum1 (U_int W32 Ictz))); FBasic BDrop; FEnd; FEnd]; b_bad := false |};
    PCode {| b_locals := []; b_badlocals := false; b_ops := [FBlock false [] []; FBasic (BConst (VI64 0%Z)); FBasic (BConst (VI32 1%Z)); FBrIf 0; FBasic (BOp (SNum1 (U_int W64 Ictz))); FBasic BDrop; FEnd; FEnd]; b_bad := false |};
    PCode {| b_locals := []; b_badlocals := false; b_ops := [FBlock false [] []; FBasic (BConst (VF32 0%Z)); FBasic (BConst (VI32 1%Z)); FBrIf 0; FBasic (BOp (SNum1 (U_flt FT32 FUneg))); FBasic BDrop; FEnd; FEnd]; b_bad := false |};
    PCode {| b_locals := []; b_badlocals := false; b_ops := [FBlock false [] []; FBasic (BConst (VF64 0%Z)); FBasic (BConst (VI32 1%Z)); FBrIf 0; FBasic (BOp (SNum1 (U_flt FT64 FUneg))); FBasic BDrop; FEnd; FEnd]; b_bad := false |};
    PCode {| b_locals := []; b_badlocals := false; b_ops := [FBlock false [] [TI32]; FBasic (BConst (VI32 1%Z)); FBasic (BConst (VI32 1%Z)); FBrIf 0; FBasic (BOp (SNum1 (U_int W32 Ictz))); FEnd; FEnd]; b_bad := false |};
    PCode {| b_locals := []; b_badlocals := false; b_ops := [FBlock false [] [TI64]; FBasic (BConst (VI64 2%Z)); FBasic (BConst (VI32 1%Z)); FBrIf 0; FBasic (BOp (SNum1 (U_int W64 Ictz))); FEnd; FEnd]; b_bad := false |};
    PCode {| b_locals := []; b_badlocals := false; b_ops := [FBlock false [] [TF32]; FBasic (BConst (VF32 1077936128%Z)); FBasic (BConst (VI32 1%Z)); FBrIf 0; FBasic (BOp (SNum1 (U_flt FT32 FUneg))); FEnd; FEnd]; b_bad := false |};
    PCode {| b_locals := []; b_badlocals := false; b_ops := [FBlock false [] [TF64]; FBasic (BConst (VF64 4616189618054758400%Z)); FBasic (BConst (VI32 1%Z)); FBrIf 0; FBasic (BOp (SNum1 (U_flt FT64 FUneg))); FEnd; FEnd]; b_bad := false |};
    PCode {| b_locals := []; b_badlocals := false; b_ops := [FBlock false [] []; FBasic (BGet 0); FBrIf 0; FBasic (BConst (VI32 2%Z)); FReturn; FEnd; FBasic (BConst (VI32 3%Z)); FEnd]; b_bad := false |};
    PCode {| b_locals := []; b_badlocals := false; b_ops := [FBlock false [] []; FCall 0; FBasic (BGet 0); FBrIf 0; FBasic (BConst (VI32 2%Z)); FReturn; FEnd; FBasic (BConst (VI32 3%Z)); FEnd]; b_bad := false |};
    PCode {| b_locals := []; b_badlocals := false; b_ops := [FBlock false [] []; FCall 0; FCall 0; FBasic (BGet 0); FBrIf 0; FEnd; FEnd]; b_bad := false |};
    PCode {| b_locals := []; b_badlocals := false; b_ops := [FBlock false [] [TI32]; FBasic (BConst (VI32 10%Z)); FBasic (BGet 0); FBrIf 0; FBasic BDrop; FBasic (BConst (VI32 11%Z)); FReturn; FEnd; FEnd]; b_bad := false |};
    PCode {| b_locals := []; b_badlocals := false; b_ops := [FBlock false [] [TI32]; FCall 0; FBasic (BConst (VI32 20%Z)); FBasic (BGet 0); FBrIf 0; FBasic BDrop; FBasic (BConst (VI32 21%Z)); FReturn; FEnd; FEnd]; b_bad := false |};
    PCode {| b_locals := []; b_badlocals := false; b_ops := [FBlock false [] [TI32]; FCall 0; FCall 0; FBasic (BConst (VI32 11%Z)); FBasic (BGet 0); FBrIf 0; FEnd; FEnd]; b_bad := false |};
    PCode {| b_locals := []; b_badlocals := false; b_ops := [FBlock false [] []; FBlock true [] []; FBasic (BGet 0); FBrIf 1; FBasic (BConst (VI32 2%Z)); FReturn; FEnd; FEnd; FBasic (BConst (VI32 3%Z)); FEnd]; b_bad := false |};
    PCode {| b_locals := []; b_badlocals := false; b_ops := [FBlock false [] []; FBlock true [] []; FCall 0; FBasic (BGet 0); FBrIf 1; FBasic (BConst (VI32 2%Z)); FReturn; FEnd; FEnd; FBasic (BConst (VI32 4%Z)); FEnd]; b_bad := false |};
    PCode {| b_locals := []; b_badlocals := false; b_ops := [FBlock true [] []; FCall 0; FBasic (BGet 0); FBrIf 1; FEnd; FEnd]; b_bad := false |};
    PCode {| b_locals := []; b_badlocals := false; b_ops := [FBlock false [] [TI32]; FBasic (BConst (VI32 1%Z)); FBasic (BConst (VI32 2%Z)); FBrIf 0; FBr 0; FEnd; FEnd]; b_bad := false |};
    PCode {| b_locals := []; b_badlocals := false; b_ops := [FBlock false [] []; FBasic (BConst (VI32 1%Z)); FBasic (BConst (VI32 1%Z)); FBrIf 0; FBrIf 0; FEnd; FEnd]; b_bad := false |};
    PCode {| b_locals := []; b_badlocals := false; b_ops := [FBlock false [] [TI32]; FBasic (BConst (VI32 1%Z)); FBasic (BConst (VI32 2%Z)); FBrIf 0; FBasic (BConst (VI32 3%Z)); FBrIf 0; FBasic BDrop; FBasic (BConst (VI32 4%Z)); FEnd; FEnd]; b_bad := false |};
    PCode {| b_locals := []; b_badlocals := false; b_ops := [FBlock false [] [TI32]; FBasic (BConst (VI32 2%Z)); FBasic (BConst (VI32 1%Z)); FBasic (BGet 0); FBrIf 0; FBrIf 0; FBasic BDrop; FBasic (BConst (VI32 4%Z)); FEnd; FEnd]; b_bad := false |};
    PCode {| b_locals := []; b_badlocals := false; b_ops := [FBlock false [] []; FBasic (BConst (VI32 1%Z)); FBasic (BConst (VI32 2%Z)); FBrIf 0; FBrTable [0; 0] 0; FEnd; FEnd]; b_bad := false |};
    PCode {| b_locals := []; b_badlocals := false; b_ops := [FBlock false [] [TI32]; FBasic (BConst (VI32 1%Z)); FBasic (BConst (VI32 2%Z)); FBrIf 0; FBasic (BConst (VI32 3%Z)); FBrTable [0; 0] 0; FBasic (BConst (VI32 4%Z)); FEnd; FEnd]; b_bad := false |};
    PCode {| b_locals := []; b_badlocals := false; b_ops := [FBlock false [] [TI32]; FBasic (BConst (VI32 2%Z)); FBasic (BConst (VI32 1%Z)); FBasic (BConst (VI32 3%Z)); FBrIf 0; FBrTable [0] 0; FBasic (BConst (VI32 4%Z)); FEnd; FEnd]; b_bad := false |};
    PCode {| b_locals := []; b_badlocals := false; b_ops := [FBlock false [] [TI64]; FBasic (BConst (VI64 1%Z)); FBasic (BConst (VI32 2%Z)); FBrIf 0; FReturn; FEnd; FEnd]; b_bad := false |};
    PCode {| b_locals := []; b_badlocals := false; b_ops := [FBlock false [] [TI32]; FBasic (BConst (VI32 1%Z)); FBasic (BGet 0); FBrIf 0; FIf [] [TI32]; FBasic (BConst (VI32 2%Z)); FElse; FBasic (BConst (VI32 3%Z)); FEnd; FEnd; FEnd]; b_bad := false |};
    PCode {| b_locals := []; b_badlocals := false; b_ops := [FBlock false [] []; FBasic (BGet 0); FIf [] []; FBasic (BGet 1); FBrIf 1; FElse; FCall 0; FEnd; FEnd; FEnd]; b_bad := false |};
    PCode {| b_locals := []; b_badlocals := false; b_ops := [FBlock false [] []; FBasic (BGet 0); FIf [] []; FCall 0; FElse; FBasic (BGet 1); FBrIf 1; FEnd; FEnd; FEnd]; b_bad := false |};
    PCode {| b_locals := []; b_badlocals := false; b_ops := [FBlock false [] [TI32]; FBasic (BConst (VI32 3%Z)); FBasic (BConst (VI32 10%Z)); FBrIf 0; FBasic (BConst (VI32 2%Z)); FBasic (BGet 0); FBasic (BSelect None); FEnd; FEnd]; b_bad := false |};
    PCode {| b_locals := []; b_badlocals := false; b_ops := [FBlock false [] [TI32]; FBasic (BConst (VI32 1%Z)); FBasic (BConst (VI32 3%Z)); FBasic (BConst (VI32 10%Z)); FBrIf 0; FBasic (BGet 0); FBasic (BSelect None); FEnd; FEnd]; b_bad := false |};
    PCode {| b_locals := []; b_badlocals := false; b_ops := [FBlock false [] [TI32]; FBasic (BConst (VI32 1%Z)); FBasic (BConst (VI32 2%Z)); FBasic (BConst (VI32 3%Z)); FBasic (BConst (VI32 10%Z)); FBrIf 0; FBasic (BSelect None); FEnd; FEnd]; b_bad := false |};
    PCode {| b_locals := []; b_badlocals := false; b_ops := [FBasic (BConst (VI32 (-1)%Z)); FEnd]; b_bad := false |};
    PCode {| b_locals := []; b_badlocals := false; b_ops := [FBlock false [] [TI32]; FBasic (BConst (VI32 12%Z)); FBasic (BConst (VI32 1%Z)); FBrIf 0; FBasic (BConst (VI32 2%Z)); FBasic (BConst (VI32 3%Z)); FCall 32; FEnd; FEnd]; b_bad := false |};
    PCode {| b_locals := []; b_badlocals := false; b_ops := [FBlock false [] [TI32]; FBasic (BConst (VI32 1%Z)); FBasic (BConst (VI32 13%Z)); FBasic (BConst (VI32 1%Z)); FBrIf 0; FBasic (BConst (VI32 3%Z)); FCall 32; FEnd; FEnd]; b_bad := false |};
    PCode {| b_locals := []; b_badlocals := false; b_ops := [FBlock false [] [TI32]; FBasic (BConst (VI32 1%Z)); FBasic (BConst (VI32 2%Z)); FBasic (BConst (VI32 14%Z)); FBasic (BConst (VI32 1%Z)); FBrIf 0; FCall 32; FEnd; FEnd]; b_bad := false |};
    PCode {| b_locals := []; b_badlocals := false; b_ops := [FBasic (BGet 0); FEnd]; b_bad := false |};
    PCode {| b_locals := []; b_badlocals := false; b_ops := [FBlock false [] [TI32]; FBasic (BConst (VI32 4%Z)); FBasic (BConst (VI32 10%Z)); FBrIf 0; FBasic (BConst (VI32 1%Z)); FBasic (BConst (VI32 2%Z)); FBasic (BConst (VI32 0%Z)); FCallInd 0 0; FEnd; FEnd]; b_bad := false |};
    PCode {| b_locals := []; b_badlocals := false; b_ops := [FBlock false [] [TI32]; FBasic (BConst (VI32 1%Z)); FBasic (BConst (VI32 4%Z)); FBasic (BConst (VI32 10%Z)); FBrIf 0; FBasic (BConst (VI32 2%Z)); FBasic (BConst (VI32 0%Z)); FCallInd 0 0; FEnd; FEnd]; b_bad := false |};
    PCode {| b_locals := []; b_badlocals := false; b_ops := [FBlock false [] [TI32]; FBasic (BConst (VI32 1%Z)); FBasic (BConst (VI32 2%Z)); FBasic (BConst (VI32 4%Z)); FBasic (BConst (VI32 10%Z)); FBrIf 0; FBasic (BConst (VI32 0%Z)); FCallInd 0 0; FEnd; FEnd]; b_bad := false |};
    PCode {| b_locals := []; b_badlocals := false; b_ops := [FBlock false [] [TI32]; FBasic (BConst (VI32 1%Z)); FBasic (BConst (VI32 2%Z)); FBasic (BConst (VI32 3%Z)); FBasic (BConst (VI32 4%Z)); FBasic (BConst (VI32 10%Z)); FBrIf 0; FCallInd 0 0; FEnd; FEnd]; b_bad := false |};
    PCode {| b_locals := [TI32]; b_badlocals := false; b_ops := [FBlock false [] [TI32]; FBasic (BConst (VI32 17%Z)); FBasic (BGet 0); FBrIf 0; FBasic (BSet 0); FBasic (BConst (VI32 (-1)%Z)); FEnd; FEnd]; b_bad := false |};
    PCode {| b_locals := []; b_badlocals := false; b_ops := [FBlock false [] [TI32]; FBasic (BConst (VI32 1%Z)); FBasic (BGet 0); FBrIf 0; FBasic (BTee 0); FBasic (BConst (VI32 (-1)%Z)); FReturn; FEnd; FEnd]; b_bad := false |};
    PCode {| b_locals := []; b_badlocals := false; b_ops := [FBlock false [] [TI32]; FBasic (BConst (VI32 1%Z)); FBasic (BGet 0); FBrIf 0; FBasic (BOp (SGlobalSet TI32 0)); FBasic (BConst (VI32 (-1)%Z)); FReturn; FEnd; FEnd]; b_bad := false |};
    PCode {| b_locals := []; b_badlocals := false; b_ops := [FBlock false [] [TI32]; FBasic (BConst (VI32 1%Z)); FBasic (BConst (VI32 1%Z)); FBrIf 0; FBasic (BOp (SLoad LI32 0%Z)); FEnd; FEnd]; b_bad := false |};
    PCode {| b_locals := []; b_badlocals := false; b_ops := [FBlock false [] [TI32]; FBasic (BConst (VI32 30%Z)); FBasic (BConst (VI32 1%Z)); FBrIf 0; FBasic (BOp (SLoad LI32_8s 0%Z)); FEnd; FEnd]; b_bad := false |};
    PCode {| b_locals := []; b_badlocals := false; b_ops := [FBlock false [] [TI32]; FBasic (BConst (VI32 30%Z)); FBasic (BConst (VI32 1%Z)); FBrIf 0; FBasic (BConst (VI32 7%Z)); FBasic (BOp (SStore SI32 0%Z)); FBasic (BConst (VI32 (-1)%Z)); FEnd; FEnd]; b_bad := false |};
    PCode {| b_locals := []; b_badlocals := false; b_ops := [FBlock false [] [TI32]; FBasic (BConst (VI32 2%Z)); FBasic (BConst (VI32 31%Z)); FBasic (BConst (VI32 1%Z)); FBrIf 0; FBasic (BOp (SStore SI32 0%Z)); FBasic (BConst (VI32 (-1)%Z)); FEnd; FEnd]; b_bad := false |};
    PCode {| b_locals := []; b_badlocals := false; b_ops := [FBlock false [] [TI32]; FBasic (BConst (VI32 32%Z)); FBasic (BConst (VI32 1%Z)); FBrIf 0; FBasic (BConst (VI32 7%Z)); FBasic (BOp (SStore SI32_8 0%Z)); FBasic (BConst (VI32 (-1)%Z)); FEnd; FEnd]; b_bad := false |};
    PCode {| b_locals := []; b_badlocals := false; b_ops := [FBlock false [] [TI32]; FBasic (BConst (VI32 2%Z)); FBasic (BConst (VI32 33%Z)); FBasic (BConst (VI32 1%Z)); FBrIf 0; FBasic (BOp (SStore SI32_16 0%Z)); FBasic (BConst (VI32 (-1)%Z)); FEnd; FEnd]; b_bad := false |};
    PCode {| b_locals := []; b_badlocals := false; b_ops := [FBlock false [] [TF64]; FBasic (BConst (VF64 4607182418800017408%Z)); FBasic (BConst (VI32 1%Z)); FBrIf 0; FBasic (BOp (SNum1 (U_flt FT64 FUneg))); FEnd; FEnd]; b_bad := false |};
    PCode {| b_locals := []; b_badlocals := false; b_ops := [FBlock false [] [TI32]; FBasic (BConst (VI32 1%Z)); FBasic (BConst (VI32 1%Z)); FBrIf 0; FBasic (BConst (VI32 10%Z)); FBasic (BOp (SNum2 (B_int W32 Iadd))); FEnd; FEnd]; b_bad := false |};
    PCode {| b_locals := []; b_badlocals := false; b_ops := [FBlock false [] [TI32]; FBasic (BConst (VI32 10%Z)); FBasic (BConst (VI32 1%Z)); FBasic (BConst (VI32 1%Z)); FBrIf 0; FBasic (BOp (SNum2 (B_int W32 Isub))); FEnd; FEnd]; b_bad := false |};
    PCode {| b_locals := []; b_badlocals := false; b_ops := [FBlock false [] [TI32]; FBasic (BConst (VI32 0%Z)); FBasic (BConst (VI32 1%Z)); FBrIf 0; FBasic (BOp (SNum1 (U_eqz W32))); FEnd; FEnd]; b_bad := false |};
    PCode {| b_locals := []; b_badlocals := false; b_ops := [FBlock false [] [TI32]; FBasic (BConst (VI32 1%Z)); FBasic (BConst (VI32 1%Z)); FBrIf 0; FBasic (BConst (VI32 10%Z)); FBasic (BOp (SNum2 (B_irel W32 Ile_u))); FEnd; FEnd]; b_bad := false |};
    PCode {| b_locals := []; b_badlocals := false; b_ops := [FBlock false [] [TI32]; FBasic (BConst (VI32 10%Z)); FBasic (BConst (VI32 1%Z)); FBasic (BConst (VI32 42%Z)); FBrIf 0; FBasic (BOp (SNum2 (B_irel W32 Ine))); FEnd; FEnd]; b_bad := false |};
    PCode {| b_locals := []; b_badlocals := false; b_ops := [FBlock false [] [TI32]; FBasic (BConst (VI32 1%Z)); FBasic (BConst (VI32 1%Z)); FBrIf 0; FBasic (BOp SMemGrow); FEnd; FEnd]; b_bad := false |};
    PCode {| b_locals := []; b_badlocals := false; b_ops := [FBasic (BConst (VI32 1%Z)); FBlock false [] [TI32]; FBasic (BConst (VI32 2%Z)); FBasic BDrop; FBasic (BConst (VI32 4%Z)); FBlock false [] [TI32]; FBasic (BConst (VI32 8%Z)); FBasic (BGet 0); FBrIf 1; FBasic BDrop; FBasic (BConst (VI32 16%Z)); FEnd; FBasic (BOp (SNum2 (B_int W32 Iadd))); FEnd; FBasic (BOp (SNum2 (B_int W32 Iadd))); FEnd]; b_bad := false |};
    PCode {| b_locals := []; b_badlocals := false; b_ops := [FBasic (BConst (VI32 1%Z)); FBlock false [] [TI32]; FBasic (BConst (VI32 2%Z)); FBasic BDrop; FBlock false [] [TI32]; FBasic (BConst (VI32 8%Z)); FBasic (BGet 0); FBrIf 1; FBasic BDrop; FBasic (BConst (VI32 4%Z)); FEnd; FBr 0; FBasic (BConst (VI32 16%Z)); FEnd; FBasic (BOp (SNum2 (B_int W32 Iadd))); FEnd]; b_bad := false |};
    PCode {| b_locals := []; b_badlocals := false; b_ops := [FBasic (BConst (VI32 1%Z)); FBlock false [] [TI32]; FBasic (BConst (VI32 2%Z)); FBasic BDrop; FBlock false [] [TI32]; FBasic (BConst (VI32 8%Z)); FBasic (BGet 0); FBrIf 1; FBasic BDrop; FBasic (BConst (VI32 4%Z)); FEnd; FBasic (BConst (VI32 1%Z)); FBrIf 0; FBasic BDrop; FBasic (BConst (VI32 16%Z)); FEnd; FBasic (BOp (SNum2 (B_int W32 Iadd))); FEnd]; b_bad := false |};
    PCode {| b_locals := []; b_badlocals := false; b_ops := [FBasic (BConst (VI32 1%Z)); FBlock false [] [TI32]; FBasic (BConst (VI32 2%Z)); FBasic BDrop; FBasic (BConst (VI32 4%Z)); FBlock false [] [TI32]; FBasic (BConst (VI32 8%Z)); FBasic (BGet 0); FBrIf 1; FBasic BDrop; FBasic (BConst (VI32 1%Z)); FEnd; FBrIf 0; FBasic BDrop; FBasic (BConst (VI32 16%Z)); FEnd; FBasic (BOp (SNum2 (B_int W32 Iadd))); FEnd]; b_bad := false |};
    PCode {| b_locals := []; b_badlocals := false; b_ops := [FBasic (BConst (VI32 1%Z)); FBlock false [] [TI32]; FBasic (BConst (VI32 2%Z)); FBasic BDrop; FBlock false [] [TI32]; FBasic (BConst (VI32 8%Z)); FBasic (BGet 0); FBrIf 1; FBasic BDrop; FBasic (BConst (VI32 4%Z)); FEnd; FBasic (BConst (VI32 1%Z)); FBrTable [] 0; FBasic (BConst (VI32 16%Z)); FEnd; FBasic (BOp (SNum2 (B_int W32 Iadd))); FEnd]; b_bad := false |};
    PCode {| b_locals := []; b_badlocals := false; b_ops := [FBasic (BConst (VI32 1%Z)); FBlock false [] [TI32]; FBasic (BConst (VI32 2%Z)); FBasic BDrop; FBasic (BConst (VI32 4%Z)); FBlock false [] [TI32]; FBasic (BConst (VI32 8%Z)); FBasic (BGet 0); FBrIf 1; FBasic BDrop; FBasic (BConst (VI32 1%Z)); FEnd; FBrTable [] 0; FBasic (BConst (VI32 16%Z)); FEnd; FBasic (BOp (SNum2 (B_int W32 Iadd))); FEnd]; b_bad := false |} ].
Definition w_call : list payload :=
  [ PVersion 1;
    PTypes [Some ([TI32; TI32], [TI32]); Some ([], [TI32]); Some ([], [TI64]); Some ([], [TF32]); Some ([], [TF64]); Some ([], [TI32; TI64]); Some ([TI32], [TI32]); Some ([TI64], [TI64]); Some ([TF32], [TF32]); Some ([TF64], [TF64]); Some ([TI32; TF64], [TI32; TF64]); Some ([TI32; TI32], [TI32; TI32]); Some ([TF32; TF64], [TF64; TF32]); Some ([TF64; TI32], [TI32; TF64]); Some ([TF32; TI32], [TI32]); Some ([TI32; TI64], [TI64]); Some ([TF64; TF32], [TF32]); Some ([TI64; TF64], [TF64]); Some ([], [TI32; TF64]); Some ([], [TI32; TI32]); Some ([], [TF64; TF32]); Some ([TI64; TI64], [TI64]); Some ([TI64], [TI32]); Some ([], []); Some ([TF32; TI32; TI32; TF64; TF32; TF32; TF32; TF64; TF32; TI32; TI32; TF32; TF64; TI64; TI64; TI32; TI64; TI64; TF32; TI64; TI64; TI64; TI32; TF32; TF32; TF32; TF64; TF32; TI32; TI64; TF32; TF64; TF64; TF32; TI32; TF32; TF32; TF64; TI64; TF64; TI32; TI64; TF32; TF64; TI32; TI32; TI32; TI64; TF64; TI32; TI64; TI64; TF64; TF64; TF64; TF64; TF64; TF64; TI32; TF32; TF64; TF64; TI32; TI64; TF32; TF32; TF32; TI32; TF64; TF64; TF64; TF64; TF64; TF32; TI64; TI64; TI32; TI32; TI32; TF32; TF64; TI32; TI64; TF32; TF32; TF32; TI32; TI32; TF32; TF64; TI64; TF32; TF64; TF32; TF32; TF32; TI32; TF32; TI64; TI32], [TI32])];
    PFuncs [Some 1; Some 2; Some 3; Some 4; Some 5; Some 6; Some 7; Some 8; Some 9; Some 10; Some 11; Some 12; Some 13; Some 14; Some 15; Some 16; Some 17; Some 1; Some 2; Some 3; Some 4; Some 5; Some 1; Some 2; Some 3; Some 4; Some 1; Some 2; Some 3; Some 4; Some 18; Some 19; Some 20; Some 18; Some 1; Some 1; Some 19; Some 7; Some 21; Some 7; Some 22; Some 22; Some 23; Some 23; Some 23; Some 1; Some 1; Some 1; Some 1; Some 1; Some 1; Some 1; Some 1; Some 0; Some 1; Some 1; Some 1; Some 23; Some 23; Some 1; Some 1; Some 23; Some 1; Some 1; Some 1; Some 1; Some 1; Some 6; Some 8; Some 3; Some 1; Some 1; Some 1; Some 1; Some 1; Some 2; Some 24; Some 6];
    PTables [Some 1%Z];
    PMems [Some (1%Z, None)];
    PGlobals [Some [CVal (VI32 10%Z)]];
    PExports [Some ("type-i32", ExFunc 17); Some ("type-i64", ExFunc 18); Some ("type-f32", ExFunc 19); Some ("type-f64", ExFunc 20); Some ("type-i32-i64", ExFunc 21); Some ("type-first-i32", ExFunc 22); Some ("type-first-i64", ExFunc 23); Some ("type-first-f32", ExFunc 24); Some ("type-first-f64", ExFunc 25); Some ("type-second-i32", ExFunc 26); Some ("type-second-i64", ExFunc 27); Some ("type-second-f32", ExFunc 28); Some ("type-second-f64", ExFunc 29); Some ("type-all-i32-f64", ExFunc 30); Some ("type-all-i32-i32", ExFunc 31); Some ("type-all-f32-f64", ExFunc 32); Some ("type-all-f64-i32", ExFunc 33); Some ("as-binary-all-operands", ExFunc 34); Some ("as-mixed-operands", ExFunc 35); Some ("as-call-all-operands", ExFunc 36); Some ("fac", ExFunc 37); Some ("fac-acc", ExFunc 38); Some ("fib", ExFunc 39); Some ("even", ExFunc 40); Some ("odd", ExFunc 41); Some ("runaway", ExFunc 42); Some ("mutual-runaway", ExFunc 43); Some ("as-select-first", ExFunc 45); Some ("as-select-mid", ExFunc 46); Some ("as-select-last", ExFunc 47); Some ("as-if-condition", ExFunc 48); Some ("as-br_if-first", ExFunc 49); Some ("as-br_if-last", ExFunc 50); Some ("as-br_table-first", ExFunc 51); Some ("as-br_table-last", ExFunc 52); Some ("as-call_indirect-first", ExFunc 54); Some ("as-call_indirect-mid", ExFunc 55); Some ("as-call_indirect-last", ExFunc 56); Some ("as-store-first", ExFunc 57); Some ("as-store-last", ExFunc 58); Some ("as-memory.grow-value", ExFunc 59); Some ("as-return-value", ExFunc 60); Some ("as-drop-operand", ExFunc 61); Some ("as-br-value", ExFunc 62); Some ("as-local.set-value", ExFunc 63); Some ("as-local.tee-value", ExFunc 64); Some ("as-global.set-value", ExFunc 65); Some ("as-load-operand", ExFunc 66); Some ("as-unary-operand", ExFunc 69); Some ("as-binary-left", ExFunc 70); Some ("as-binary-right", ExFunc 71); Some ("as-test-operand", ExFunc 72); Some ("as-compare-left", ExFunc 73); Some ("as-compare-right", ExFunc 74); Some ("as-convert-operand", ExFunc 75); Some ("return-from-long-argument-list", ExFunc 77)];
    PElems [Some {| e_extern := false; e_idxes := Some [53]; e_init := None; e_mode := MActive 0 [CVal (VI32 0%Z)] |}];
    PCode {| b_locals := []; b_badlocals := false; b_ops := [FBasic (BConst (VI32 306%Z)); FEnd]; b_bad := false |};
    PCode {| b_locals := []; b_badlocals := false; b_ops := [FBasic (BConst (VI64 356%Z)); FEnd]; b_bad := false |};
    PCode {| b_locals := []; b_badlocals := false; b_ops := [FBasic (BConst (VF32 1165172736%Z)); FEnd]; b_bad := false |};
    PCode {| b_locals := []; b_badlocals := false; b_ops := [FBasic (BConst (VF64 4660882566700597248%Z)); FEnd]; b_bad := false |};
    PCode {| b_locals := []; b_badlocals := false; b_ops := [FBasic (BConst (VI32 306%Z)); FBasic (BConst (VI64 356%Z)); FEnd]; b_bad := false |};
    PCode {| b_locals := []; b_badlocals := false; b_ops := [FBasic (BGet 0); FEnd]; b_bad := false |};
    PCode {| b_locals := []; b_badlocals := false; b_ops := [FBasic (BGet 0); FEnd]; b_bad := false |};
    PCode {| b_locals := []; b_badlocals := false; b_ops := [FBasic (BGet 0); FEnd]; b_bad := false |};
    PCode {| b_locals := []; b_badlocals := false; b_ops := [FBasic (BGet 0); FEnd]; b_bad := false |};
    PCode {| b_locals := []; b_badlocals := false; b_ops := [FBasic (BGet 0); FBasic (BGet 1); FEnd]; b_bad := false |};
    PCode {| b_locals := []; b_badlocals := false; b_ops := [FBasic (BGet 1); FBasic (BGet 0); FEnd]; b_bad := false |};
    PCode {| b_locals := []; b_badlocals := false; b_ops := [FBasic (BGet 1); FBasic (BGet 0); FEnd]; b_bad := false |};
    PCode {| b_locals := []; b_badlocals := false; b_ops := [FBasic (BGet 1); FBasic (BGet 0); FEnd]; b_bad := false |};
    PCode {| b_locals := []; b_badlocals := false; b_ops := [FBasic (BGet 1); FEnd]; b_bad := false |};
    PCode {| b_locals := []; b_badlocals := false; b_ops := [FBasic (BGet 1); FEnd]; b_bad := false |};
    PCode {| b_locals := []; b_badlocals := false; b_ops := [FBasic (BGet 1); FEnd]; b_bad := false |};
    PCode {| b_locals := []; b_badlocals := false; b_ops := [FBasic (BGet 1); FEnd]; b_bad := false |};
    PCode {| b_locals := []; b_badlocals := false; b_ops := [FCall 0; FEnd]; b_bad := false |};
    PCode {| b_locals := []; b_badlocals := false; b_ops := [FCall 1; FEnd]; b_bad := false |};
    PCode {| b_locals := []; b_badlocals := false; b_ops := [FCall 2; FEnd]; b_bad := false |};
    PCode {| b_locals := []; b_badlocals := false; b_ops := [FCall 3; FEnd]; b_bad := false |};
    PCode {| b_locals := []; b_badlocals := false; b_ops := [FCall 4; FEnd]; b_bad := false |};
    PCode {| b_locals := []; b_badlocals := false; b_ops := [FBasic (BConst (VI32 32%Z)); FCall 5; FEnd]; b_bad := false |};
    PCode {| b_locals := []; b_badlocals := false; b_ops := [FBasic (BConst (VI64 64%Z)); FCall 6; FEnd]; b_bad := false |};
    PCode {| b_locals := []; b_badlocals := false; b_ops := [FBasic (BConst (VF32 1068037571%Z)); FCall 7; FEnd]; b_bad := false |};
    PCode {| b_locals := []; b_badlocals := false; b_ops := [FBasic (BConst (VF64 4610064722561534525%Z)); FCall 8; FEnd]; b_bad := false |};
    PCode {| b_locals := []; b_badlocals := false; b_ops := [FBasic (BConst (VF32 1107322470%Z)); FBasic (BConst (VI32 32%Z)); FCall 13; FEnd]; b_bad := false |};
    PCode {| b_locals := []; b_badlocals := false; b_ops := [FBasic (BConst (VI32 32%Z)); FBasic (BConst (VI64 64%Z)); FCall 14; FEnd]; b_bad := false |};
    PCode {| b_locals := []; b_badlocals := false; b_ops := [FBasic (BConst (VF64 4634204016564240384%Z)); FBasic (BConst (VF32 1107296256%Z)); FCall 15; FEnd]; b_bad := false |};
    PCode {| b_locals := []; b_badlocals := false; b_ops := [FBasic (BConst (VI64 64%Z)); FBasic (BConst (VF64 4634211053438658150%Z)); FCall 16; FEnd]; b_bad := false |};
    PCode {| b_locals := []; b_badlocals := false; b_ops := [FBasic (BConst (VI32 32%Z)); FBasic (BConst (VF64 4610064722561534525%Z)); FCall 9; FEnd]; b_bad := false |};
    PCode {| b_locals := []; b_badlocals := false; b_ops := [FBasic (BConst (VI32 1%Z)); FBasic (BConst (VI32 2%Z)); FCall 10; FEnd]; b_bad := false |};
    PCode {| b_locals := []; b_badlocals := false; b_ops := [FBasic (BConst (VF32 1065353216%Z)); FBasic (BConst (VF64 4611686018427387904%Z)); FCall 11; FEnd]; b_bad := false |};
    PCode {| b_locals := []; b_badlocals := false; b_ops := [FBasic (BConst (VF64 4607182418800017408%Z)); FBasic (BConst (VI32 2%Z)); FCall 12; FEnd]; b_bad := false |};
    PCode {| b_locals := []; b_badlocals := false; b_ops := [FBasic (BConst (VI32 3%Z)); FBasic (BConst (VI32 4%Z)); FCall 10; FBasic (BOp (SNum2 (B_int W32 Iadd))); FEnd]; b_bad := false |};
    PCode {| b_locals := []; b_badlocals := false; b_ops := [FBasic (BConst (VI32 3%Z)); FBasic (BConst (VI32 4%Z)); FCall 10; FBasic (BConst (VI32 5%Z)); FBasic (BOp (SNum2 (B_int W32 Iadd))); FBasic (BOp (SNum2 (B_int W32 Imul))); FEnd]; b_bad := false |};
    PCode {| b_locals := []; b_badlocals := false; b_ops := [FBasic (BConst (VI32 3%Z)); FBasic (BConst (VI32 4%Z)); FCall 10; FCall 10; FEnd]; b_bad := false |};
    PCode {| b_locals := []; b_badlocals := false; b_ops := [FBasic (BGet 0); FBasic (BOp (SNum1 (U_eqz W64))); FIf [] [TI64]; FBasic (BConst (VI64 1%Z)); FElse; FBasic (BGet 0); FBasic (BGet 0); FBasic (BConst (VI64 1%Z)); FBasic (BOp (SNum2 (B_int W64 Isub))); FCall 37; FBasic (BOp (SNum2 (B_int W64 Imul))); FEnd; FEnd]; b_bad := false |};
    PCode {| b_locals := []; b_badlocals := false; b_ops := [FBasic (BGet 0); FBasic (BOp (SNum1 (U_eqz W64))); FIf [] [TI64]; FBasic (BGet 1); FElse; FBasic (BGet 0); FBasic (BConst (VI64 1%Z)); FBasic (BOp (SNum2 (B_int W64 Isub))); FBasic (BGet 0); FBasic (BGet 1); FBasic (BOp (SNum2 (B_int W64 Imul))); FCall 38; FEnd; FEnd]; b_bad := false |};
    PCode {| b_locals := []; b_badlocals := false; b_ops := [FBasic (BGet 0); FBasic (BConst (VI64 1%Z)); FBasic (BOp (SNum2 (B_irel W64 Ile_u))); FIf [] [TI64]; FBasic (BConst (VI64 1%Z)); FElse; FBasic (BGet 0); FBasic (BConst (VI64 2%Z)); FBasic (BOp (SNum2 (B_int W64 Isub))); FCall 39; FBasic (BGet 0); FBasic (BConst (VI64 1%Z)); FBasic (BOp (SNum2 (B_int W64 Isub))); FCall 39; FBasic (BOp (SNum2 (B_int W64 Iadd))); FEnd; FEnd]; b_bad := false |};
    PCode {| b_locals := []; b_badlocals := false; b_ops := [FBasic (BGet 0); FBasic (BOp (SNum1 (U_eqz W64))); FIf [] [TI32]; FBasic (BConst (VI32 44%Z)); FElse; FBasic (BGet 0); FBasic (BConst (VI64 1%Z)); FBasic (BOp (SNum2 (B_int W64 Isub))); FCall 41; FEnd; FEnd]; b_bad := false |};
    PCode {| b_locals := []; b_badlocals := false; b_ops := [FBasic (BGet 0); FBasic (BOp (SNum1 (U_eqz W64))); FIf [] [TI32]; FBasic (BConst (VI32 99%Z)); FElse; FBasic (BGet 0); FBasic (BConst (VI64 1%Z)); FBasic (BOp (SNum2 (B_int W64 Isub))); FCall 40; FEnd; FEnd]; b_bad := false |};
    PCode {| b_locals := []; b_badlocals := false; b_ops := [FCall 42; FEnd]; b_bad := false |};
    PCode {| b_locals := []; b_badlocals := false; b_ops := [FCall 44; FEnd]; b_bad := false |};
    PCode {| b_locals := []; b_badlocals := false; b_ops := [FCall 43; FEnd]; b_bad := false |};
    PCode {| b_locals := []; b_badlocals := false; b_ops := [FCall 0; FBasic (BConst (VI32 2%Z)); FBasic (BConst (VI32 3%Z)); FBasic (BSelect None); FEnd]; b_bad := false |};
    PCode {| b_locals := []; b_badlocals := false; b_ops := [FBasic (BConst (VI32 2%Z)); FCall 0; FBasic (BConst (VI32 3%Z)); FBasic (BSelect None); FEnd]; b_bad := false |};
    PCode {| b_locals := []; b_badlocals := false; b_ops := [FBasic (BConst (VI32 2%Z)); FBasic (BConst (VI32 3%Z)); FCall 0; FBasic (BSelect None); FEnd]; b_bad := false |};
    PCode {| b_locals := []; b_badlocals := false; b_ops := [FCall 0; FIf [] [TI32]; FBasic (BConst (VI32 1%Z)); FElse; FBasic (BConst (VI32 2%Z)); FEnd; FEnd]; b_bad := false |};
    PCode {| b_locals := []; b_badlocals := false; b_ops := [FBlock false [] [TI32]; FCall 0; FBasic (BConst (VI32 2%Z)); FBrIf 0; FEnd; FEnd]; b_bad := false |};
    PCode {| b_locals := []; b_badlocals := false; b_ops := [FBlock false [] [TI32]; FBasic (BConst (VI32 2%Z)); FCall 0; FBrIf 0; FEnd; FEnd]; b_bad := false |};
    PCode {| b_locals := []; b_badlocals := false; b_ops := [FBlock false [] [TI32]; FCall 0; FBasic (BConst (VI32 2%Z)); FBrTable [0] 0; FEnd; FEnd]; b_bad := false |};
    PCode {| b_locals := []; b_badlocals := false; b_ops := [FBlock false [] [TI32]; FBasic (BConst (VI32 2%Z)); FCall 0; FBrTable [0] 0; FEnd; FEnd]; b_bad := false |};
    PCode {| b_locals := []; b_badlocals := false; b_ops := [FBasic (BGet 0); FEnd]; b_bad := false |};
    PCode {| b_locals := []; b_badlocals := false; b_ops := [FBlock false [] [TI32]; FCall 0; FBasic (BConst (VI32 2%Z)); FBasic (BConst (VI32 0%Z)); FCallInd 0 0; FEnd; FEnd]; b_bad := false |};
    PCode {| b_locals := []; b_badlocals := false; b_ops := [FBlock false [] [TI32]; FBasic (BConst (VI32 2%Z)); FCall 0; FBasic (BConst (VI32 0%Z)); FCallInd 0 0; FEnd; FEnd]; b_bad := false |};
    PCode {| b_locals := []; b_badlocals := false; b_ops := [FBlock false [] [TI32]; FBasic (BConst (VI32 1%Z)); FBasic (BConst (VI32 2%Z)); FCall 0; FCallInd 0 0; FEnd; FEnd]; b_bad := false |};
    PCode {| b_locals := []; b_badlocals := false; b_ops := [FCall 0; FBasic (BConst (VI32 1%Z)); FBasic (BOp (SStore SI32 0%Z)); FEnd]; b_bad := false |};
    PCode {| b_locals := []; b_badlocals := false; b_ops := [FBasic (BConst (VI32 10%Z)); FCall 0; FBasic (BOp (SStore SI32 0%Z)); FEnd]; b_bad := false |};
    PCode {| b_locals := []; b_badlocals := false; b_ops := [FCall 0; FBasic (BOp SMemGrow); FEnd]; b_bad := false |};
    PCode {| b_locals := []; b_badlocals := false; b_ops := [FCall 0; FReturn; FEnd]; b_bad := false |};
    PCode {| b_locals := []; b_badlocals := false; b_ops := [FCall 0; FBasic BDrop; FEnd]; b_bad := false |};
    PCode {| b_locals := []; b_badlocals := false; b_ops := [FBlock false [] [TI32]; FCall 0; FBr 0; FEnd; FEnd]; b_bad := false |};
    PCode {| b_locals := [TI32]; b_badlocals := false; b_ops := [FCall 0; FBasic (BSet 0); FBasic (BGet 0); FEnd]; b_bad := false |};
    PCode {| b_locals := [TI32]; b_badlocals := false; b_ops := [FCall 0; FBasic (BTee 0); FEnd]; b_bad := false |};
    PCode {| b_locals := []; b_badlocals := false; b_ops := [FCall 0; FBasic (BOp (SGlobalSet TI32 0)); FBasic (BOp (SGlobalGet TI32 0)); FEnd]; b_bad := false |};
    PCode {| b_locals := []; b_badlocals := false; b_ops := [FCall 0; FBasic (BOp (SLoad LI32 0%Z)); FEnd]; b_bad := false |};
    PCode {| b_locals := []; b_badlocals := false; b_ops := [FBasic (BGet 0); FEnd]; b_bad := false |};
    PCode {| b_locals := []; b_badlocals := false; b_ops := [FBasic (BGet 0); FEnd]; b_bad := false |};
    PCode {| b_locals := []; b_badlocals := false; b_ops := [FBlock false [] [TF32]; FBasic (BConst (VF32 0%Z)); FCall 68; FBasic (BOp (SNum1 (U_flt FT32 (FUround Fsqrt)))); FEnd; FEnd]; b_bad := false |};
    PCode {| b_locals := []; b_badlocals := false; b_ops := [FBlock false [] [TI32]; FBasic (BConst (VI32 1%Z)); FCall 67; FBasic (BConst (VI32 10%Z)); FBasic (BOp (SNum2 (B_int W32 Iadd))); FEnd; FEnd]; b_bad := false |};
    PCode {| b_locals := []; b_badlocals := false; b_ops := [FBlock false [] [TI32]; FBasic (BConst (VI32 10%Z)); FBasic (BConst (VI32 1%Z)); FCall 67; FBasic (BOp (SNum2 (B_int W32 Isub))); FEnd; FEnd]; b_bad := false |};
    PCode {| b_locals := []; b_badlocals := false; b_ops := [FBlock false [] [TI32]; FBasic (BConst (VI32 1%Z)); FCall 67; FBasic (BOp (SNum1 (U_eqz W32))); FEnd; FEnd]; b_bad := false |};
    PCode {| b_locals := []; b_badlocals := false; b_ops := [FBlock false [] [TI32]; FBasic (BConst (VI32 1%Z)); FCall 67; FBasic (BConst (VI32 10%Z)); FBasic (BOp (SNum2 (B_irel W32 Ile_u))); FEnd; FEnd]; b_bad := false |};
    PCode {| b_locals := []; b_badlocals := false; b_ops := [FBlock false [] [TI32]; FBasic (BConst (VI32 10%Z)); FBasic (BConst (VI32 1%Z)); FCall 67; FBasic (BOp (SNum2 (B_irel W32 Ine))); FEnd; FEnd]; b_bad := false |};
    PCode {| b_locals := []; b_badlocals := false; b_ops := [FBlock false [] [TI64]; FBasic (BConst (VI32 1%Z)); FCall 67; FBasic (BOp (SCvt (C_ext Sx))); FEnd; FEnd]; b_bad := false |};
    PCode {| b_locals := []; b_badlocals := false; b_ops := [FBasic (BGet 99); FEnd]; b_bad := false |};
    PCode {| b_locals := []; b_badlocals := false; b_ops := [FBasic (BConst (VF32 0%Z)); FBasic (BConst (VI32 0%Z)); FBasic (BConst (VI32 0%Z)); FBasic (BConst (VF64 0%Z)); FBasic (BConst (VF32 0%Z)); FBasic (BConst (VF32 0%Z)); FBasic (BConst (VF32 0%Z)); FBasic (BConst (VF64 0%Z)); FBasic (BConst (VF32 0%Z)); FBasic (BConst (VI32 0%Z)); FBasic (BConst (VI32 0%Z)); FBasic (BConst (VF32 0%Z)); FBasic (BConst (VF64 0%Z)); FBasic (BConst (VI64 0%Z)); FBasic (BConst (VI64 0%Z)); FBasic (BConst (VI32 0%Z)); FBasic (BConst (VI64 0%Z)); FBasic (BConst (VI64 0%Z)); FBasic (BConst (VF32 0%Z)); FBasic (BConst (VI64 0%Z)); FBasic (BConst (VI64 0%Z)); FBasic (BConst (VI64 0%Z)); FBasic (BConst (VI32 0%Z)); FBasic (BConst (VF32 0%Z)); FBasic (BConst (VF32 0%Z)); FBasic (BConst (VF32 0%Z)); FBasic (BConst (VF64 0%Z)); FBasic (BConst (VF32 0%Z)); FBasic (BConst (VI32 0%Z)); FBasic (BConst (VI64 0%Z)); FBasic (BConst (VF32 0%Z)); FBasic (BConst (VF64 0%Z)); FBasic (BConst (VF64 0%Z)); FBasic (BConst (VF32 0%Z)); FBasic (BConst (VI32 0%Z)); FBasic (BConst (VF32 0%Z)); FBasic (BConst (VF32 0%Z)); FBasic (BConst (VF64 0%Z)); FBasic (BConst (VI64 0%Z)); FBasic (BConst (VF64 0%Z)); FBasic (BConst (VI32 0%Z)); FBasic (BConst (VI64 0%Z)); FBasic (BConst (VF32 0%Z)); FBasic (BConst (VF64 0%Z)); FBasic (BConst (VI32 0%Z)); FBasic (BConst (VI32 0%Z)); FBasic (BConst (VI32 0%Z)); FBasic (BConst (VI64 0%Z)); FBasic (BConst (VF64 0%Z)); FBasic (BConst (VI32 0%Z)); FBasic (BConst (VI64 0%Z)); FBasic (BConst (VI64 0%Z)); FBasic (BConst (VF64 0%Z)); FBasic (BConst (VF64 0%Z)); FBasic (BConst (VF64 0%Z)); FBasic (BConst (VF64 0%Z)); FBasic (BConst (VF64 0%Z)); FBasic (BConst (VF64 0%Z)); FBasic (BConst (VI32 0%Z)); FBasic (BConst (VF32 0%Z)); FBasic (BConst (VF64 0%Z)); FBasic (BConst (VF64 0%Z)); FBasic (BConst (VI32 0%Z)); FBasic (BConst (VI64 0%Z)); FBasic (BConst (VF32 0%Z)); FBasic (BConst (VF32 0%Z)); FBasic (BConst (VF32 0%Z)); FBasic (BConst (VI32 0%Z)); FBasic (BConst (VF64 0%Z)); FBasic (BConst (VF64 0%Z)); FBasic (BConst (VF64 0%Z)); FBasic (BConst (VF64 0%Z)); FBasic (BConst (VF64 0%Z)); FBasic (BConst (VF32 0%Z)); FBasic (BConst (VI64 0%Z)); FBasic (BConst (VI64 0%Z)); FBasic (BConst (VI32 0%Z)); FBasic (BConst (VI32 0%Z)); FBasic (BConst (VI32 0%Z)); FBasic (BConst (VF32 0%Z)); FBasic (BConst (VF64 0%Z)); FBasic (BConst (VI32 0%Z)); FBasic (BConst (VI64 0%Z)); FBasic (BConst (VF32 0%Z)); FBasic (BConst (VF32 0%Z)); FBasic (BConst (VF32 0%Z)); FBasic (BConst (VI32 0%Z)); FBasic (BConst (VI32 0%Z)); FBasic (BConst (VF32 0%Z)); FBasic (BConst (VF64 0%Z)); FBasic (BConst (VI64 0%Z)); FBasic (BConst (VF32 0%Z)); FBasic (BConst (VF64 0%Z)); FBasic (BConst (VF32 0%Z)); FBasic (BConst (VF32 0%Z)); FBasic (BConst (VF32 0%Z)); FBasic (BConst (VI32 0%Z)); FBasic (BConst (VF32 0%Z)); FBasic (BConst (VI64 0%Z)); FBasic (BGet 0); FCall 76; FEnd]; b_bad := false |} ].
Definition w_call_indirect : list payload :=
  [ PVersion 1;
    PTypes [Some ([], []); Some ([], [TI32]); Some ([], [TI64]); Some ([], [TF32]); Some ([], [TF64]); Some ([], [TF64; TI32]); Some ([TI32], [TI32]); Some ([TI64], [TI64]); Some ([TF32], [TF32]); Some ([TF64], [TF64]); Some ([TI32; TF64], [TI32; TF64]); Some ([TI32; TI64], [TI64; TI32]); Some ([TF32; TI32], [TI32]); Some ([TI32; TI64], [TI64]); Some ([TF64; TF32], [TF32]); Some ([TI64; TF64], [TF64]); Some ([TI32], [TI32]); Some ([TI64], [TI64]); Some ([TF32], [TF32]); Some ([TF64], [TF64]); Some ([TI64], []); Some ([TI64; TF64; TI32; TI64], []); Some ([TI64], [TI32]); Some ([TI64; TF64; TI32; TI64], [TI32]); Some ([], [TI32; TF64]); Some ([], [TI64; TI32]); Some ([TI32], [TI64]); Some ([TI32], [TF32]); Some ([TI32], [TF64])];
    PFuncs [Some 1; Some 2; Some 3; Some 4; Some 5; Some 6; Some 7; Some 8; Some 9; Some 10; Some 11; Some 13; Some 15; Some 12; Some 14; Some 16; Some 17; Some 18; Some 19; Some 0; Some 1; Some 2; Some 3; Some 4; Some 5; Some 2; Some 1; Some 2; Some 3; Some 4; Some 1; Some 2; Some 3; Some 4; Some 5; Some 24; Some 25; Some 13; Some 26; Some 6; Some 27; Some 28; Some 7; Some 7; Some 6; Some 8; Some 9; Some 6; Some 8; Some 9; Some 6; Some 6; Some 0; Some 0; Some 0; Some 1; Some 1; Some 1; Some 1; Some 2; Some 1; Some 3; Some 1; Some 0; Some 0; Some 1; Some 1; Some 0; Some 3; Some 4; Some 4; Some 4; Some 1; Some 3; Some 1; Some 1; Some 1; Some 1; Some 1; Some 2];
    PTables [Some 32%Z];
    PMems [Some (1%Z, None)];
    PGlobals [Some [CVal (VF64 4621819117588971520%Z)]];
    PExports [Some ("type-i32", ExFunc 20); Some ("type-i64", ExFunc 21); Some ("type-f32", ExFunc 22); Some ("type-f64", ExFunc 23); Some ("type-f64-i32", ExFunc 24); Some ("type-index", ExFunc 25); Some ("type-first-i32", ExFunc 26); Some ("type-first-i64", ExFunc 27); Some ("type-first-f32", ExFunc 28); Some ("type-first-f64", ExFunc 29); Some ("type-second-i32", ExFunc 30); Some ("type-second-i64", ExFunc 31); Some ("type-second-f32", ExFunc 32); Some ("type-second-f64", ExFunc 33); Some ("type-all-f64-i32", ExFunc 34); Some ("type-all-i32-f64", ExFunc 35); Some ("type-all-i32-i64", ExFunc 36); Some ("dispatch", ExFunc 37); Some ("dispatch-structural-i64", ExFunc 38); Some ("dispatch-structural-i32", ExFunc 39); Some ("dispatch-structural-f32", ExFunc 40); Some ("dispatch-structural-f64", ExFunc 41); Some ("fac-i64", ExFunc 42); Some ("fib-i64", ExFunc 43); Some ("fac-i32", ExFunc 44); Some ("fac-f32", ExFunc 45); Some ("fac-f64", ExFunc 46); Some ("fib-i32", ExFunc 47); Some ("fib-f32", ExFunc 48); Some ("fib-f64", ExFunc 49); Some ("even", ExFunc 50); Some ("odd", ExFunc 51); Some ("runaway", ExFunc 52); Some ("mutual-runaway", ExFunc 53); Some ("as-select-first", ExFunc 55); Some ("as-select-mid", ExFunc 56); Some ("as-select-last", ExFunc 57); Some ("as-if-condition", ExFunc 58); Some ("as-br_if-first", ExFunc 59); Some ("as-br_if-last", ExFunc 60); Some ("as-br_table-first", ExFunc 61); Some ("as-br_table-last", ExFunc 62); Some ("as-store-first", ExFunc 63); Some ("as-store-last", ExFunc 64); Some ("as-memory.grow-value", ExFunc 65); Some ("as-return-value", ExFunc 66); Some ("as-drop-operand", ExFunc 67); Some ("as-br-value", ExFunc 68); Some ("as-local.set-value", ExFunc 69); Some ("as-local.tee-value", ExFunc 70); Some ("as-global.set-value", ExFunc 71); Some ("as-load-operand", ExFunc 72); Some ("as-unary-operand", ExFunc 73); Some ("as-binary-left", ExFunc 74); Some ("as-binary-right", ExFunc 75); Some ("as-test-operand", ExFunc 76); Some ("as-compare-left", ExFunc 77); Some ("as-compare-right", ExFunc 78); Some ("as-convert-operand", ExFunc 79)];
    PElems [Some {| e_extern := false; e_idxes := Some [0; 1; 2; 3; 5; 6; 7; 8; 13; 11; 14; 12; 42; 43; 50; 51; 52; 53; 54; 15; 16; 17; 18; 44; 45; 46; 47; 48; 49; 4; 9; 10]; e_init := None; e_mode := MActive 0 [CVal (VI32 0%Z)] |}];
    PCode {| b_locals := []; b_badlocals := false; b_ops := [FBasic (BConst (VI32 306%Z)); FEnd]; b_bad := false |};
    PCode {| b_locals := []; b_badlocals := false; b_ops := [FBasic (BConst (VI64 356%Z)); FEnd]; b_bad := false |};
    PCode {| b_locals := []; b_badlocals := false; b_ops := [FBasic (BConst (VF32 1165172736%Z)); FEnd]; b_bad := false |};
    PCode {| b_locals := []; b_badlocals := false; b_ops := [FBasic (BConst (VF64 4660882566700597248%Z)); FEnd]; b_bad := false |};
    PCode {| b_locals := []; b_badlocals := false; b_ops := [FBasic (BConst (VF64 4660882566700597248%Z)); FBasic (BConst (VI32 32%Z)); FEnd]; b_bad := false |};
    PCode {| b_locals := []; b_badlocals := false; b_ops := [FBasic (BGet 0); FEnd]; b_bad := false |};
    PCode {| b_locals := []; b_badlocals := false; b_ops := [FBasic (BGet 0); FEnd]; b_bad := false |};
    PCode {| b_locals := []; b_badlocals := false; b_ops := [FBasic (BGet 0); FEnd]; b_bad := false |};
    PCode {| b_locals := []; b_badlocals := false; b_ops := [FBasic (BGet 0); FEnd]; b_bad := false |};
    PCode {| b_locals := []; b_badlocals := false; b_ops := [FBasic (BGet 0); FBasic (BGet 1); FEnd]; b_bad := false |};
    PCode {| b_locals := []; b_badlocals := false; b_ops := [FBasic (BGet 1); FBasic (BGet 0); FEnd]; b_bad := false |};
    PCode {| b_locals := []; b_badlocals := false; b_ops := [FBasic (BGet 1); FEnd]; b_bad := false |};
    PCode {| b_locals := []; b_badlocals := false; b_ops := [FBasic (BGet 1); FEnd]; b_bad := false |};
    PCode {| b_locals := []; b_badlocals := false; b_ops := [FBasic (BGet 1); FEnd]; b_bad := false |};
    PCode {| b_locals := []; b_badlocals := false; b_ops := [FBasic (BGet 1); FEnd]; b_bad := false |};
    PCode {| b_locals := []; b_badlocals := false; b_ops := [FBasic (BGet 0); FEnd]; b_bad := false |};
    PCode {| b_locals := []; b_badlocals := false; b_ops := [FBasic (BGet 0); FEnd]; b_bad := false |};
    PCode {| b_locals := []; b_badlocals := false; b_ops := [FBasic (BGet 0); FEnd]; b_bad := false |};
    PCode {| b_locals := []; b_badlocals := false; b_ops := [FBasic (BGet 0); FEnd]; b_bad := false |};
    PCode {| b_locals := []; b_badlocals := false; b_ops := [FBasic (BConst (VI32 0%Z)); FCallInd 0 0; FBasic (BConst (VI64 0%Z)); FBasic (BConst (VI32 0%Z)); FCallInd 20 0; FBasic (BConst (VI64 0%Z)); FBasic (BConst (VF64 0%Z)); FBasic (BConst (VI32 0%Z)); FBasic (BConst (VI64 0%Z)); FBasic (BConst (VI32 0%Z)); FCallInd 21 0; FBasic (BConst (VI32 0%Z)); FCallInd 0 0; FBasic (BConst (VI32 0%Z)); FCallInd 1 0; FBasic (BOp (SNum1 (U_eqz W32))); FBasic BDrop; FBasic (BConst (VI32 0%Z)); FCallInd 1 0; FBasic (BOp (SNum1 (U_eqz W32))); FBasic BDrop; FBasic (BConst (VI64 0%Z)); FBasic (BConst (VI32 0%Z)); FCallInd 22 0; FBasic (BOp (SNum1 (U_eqz W32))); FBasic BDrop; FBasic (BConst (VI64 0%Z)); FBasic (BConst (VF64 0%Z)); FBasic (BConst (VI32 0%Z)); FBasic (BConst (VI64 0%Z)); FBasic (BConst (VI32 0%Z)); FCallInd 23 0; FBasic (BOp (SNum1 (U_eqz W32))); FBasic BDrop; FBasic (BConst (VI64 0%Z)); FBasic (BConst (VI32 0%Z)); FCallInd 7 0; FBasic (BOp (SNum1 (U_eqz W64))); FBasic BDrop; FEnd]; b_bad := false |};
    PCode {| b_locals := []; b_badlocals := false; b_ops := [FBasic (BConst (VI32 0%Z)); FCallInd 1 0; FEnd]; b_bad := false |};
    PCode {| b_locals := []; b_badlocals := false; b_ops := [FBasic (BConst (VI32 1%Z)); FCallInd 2 0; FEnd]; b_bad := false |};
    PCode {| b_locals := []; b_badlocals := false; b_ops := [FBasic (BConst (VI32 2%Z)); FCallInd 3 0; FEnd]; b_bad := false |};
    PCode {| b_locals := []; b_badlocals := false; b_ops := [FBasic (BConst (VI32 3%Z)); FCallInd 4 0; FEnd]; b_bad := false |};
    PCode {| b_locals := []; b_badlocals := false; b_ops := [FBasic (BConst (VI32 29%Z)); FCallInd 5 0; FEnd]; b_bad := false |};
    PCode {| b_locals := []; b_badlocals := false; b_ops := [FBasic (BConst (VI64 100%Z)); FBasic (BConst (VI32 5%Z)); FCallInd 7 0; FEnd]; b_bad := false |};
    PCode {| b_locals := []; b_badlocals := false; b_ops := [FBasic (BConst (VI32 32%Z)); FBasic (BConst (VI32 4%Z)); FCallInd 6 0; FEnd]; b_bad := false |};
    PCode {| b_locals := []; b_badlocals := false; b_ops := [FBasic (BConst (VI64 64%Z)); FBasic (BConst (VI32 5%Z)); FCallInd 7 0; FEnd]; b_bad := false |};
    PCode {| b_locals := []; b_badlocals := false; b_ops := [FBasic (BConst (VF32 1068037571%Z)); FBasic (BConst (VI32 6%Z)); FCallInd 8 0; FEnd]; b_bad := false |};
    PCode {| b_locals := []; b_badlocals := false; b_ops := [FBasic (BConst (VF64 4610064722561534525%Z)); FBasic (BConst (VI32 7%Z)); FCallInd 9 0; FEnd]; b_bad := false |};
    PCode {| b_locals := []; b_badlocals := false; b_ops := [FBasic (BConst (VF32 1107322470%Z)); FBasic (BConst (VI32 32%Z)); FBasic (BConst (VI32 8%Z)); FCallInd 12 0; FEnd]; b_bad := false |};
    PCode {| b_locals := []; b_badlocals := false; b_ops := [FBasic (BConst (VI32 32%Z)); FBasic (BConst (VI64 64%Z)); FBasic (BConst (VI32 9%Z)); FCallInd 13 0; FEnd]; b_bad := false |};
    PCode {| b_locals := []; b_badlocals := false; b_ops := [FBasic (BConst (VF64 4634204016564240384%Z)); FBasic (BConst (VF32 1107296256%Z)); FBasic (BConst (VI32 10%Z)); FCallInd 14 0; FEnd]; b_bad := false |};
    PCode {| b_locals := []; b_badlocals := false; b_ops := [FBasic (BConst (VI64 64%Z)); FBasic (BConst (VF64 4634211053438658150%Z)); FBasic (BConst (VI32 11%Z)); FCallInd 15 0; FEnd]; b_bad := false |};
    PCode {| b_locals := []; b_badlocals := false; b_ops := [FBasic (BConst (VI32 29%Z)); FCallInd 5 0; FEnd]; b_bad := false |};
    PCode {| b_locals := []; b_badlocals := false; b_ops := [FBasic (BConst (VI32 1%Z)); FBasic (BConst (VF64 4611686018427387904%Z)); FBasic (BConst (VI32 30%Z)); FCallInd 10 0; FEnd]; b_bad := false |};
    PCode {| b_locals := []; b_badlocals := false; b_ops := [FBasic (BConst (VI32 1%Z)); FBasic (BConst (VI64 2%Z)); FBasic (BConst (VI32 31%Z)); FCallInd 11 0; FEnd]; b_bad := false |};
    PCode {| b_locals := []; b_badlocals := false; b_ops := [FBasic (BGet 1); FBasic (BGet 0); FCallInd 7 0; FEnd]; b_bad := false |};
    PCode {| b_locals := []; b_badlocals := false; b_ops := [FBasic (BConst (VI64 9%Z)); FBasic (BGet 0); FCallInd 17 0; FEnd]; b_bad := false |};
    PCode {| b_locals := []; b_badlocals := false; b_ops := [FBasic (BConst (VI32 9%Z)); FBasic (BGet 0); FCallInd 16 0; FEnd]; b_bad := false |};
    PCode {| b_locals := []; b_badlocals := false; b_ops := [FBasic (BConst (VF32 1091567616%Z)); FBasic (BGet 0); FCallInd 18 0; FEnd]; b_bad := false |};
    PCode {| b_locals := []; b_badlocals := false; b_ops := [FBasic (BConst (VF64 4621256167635550208%Z)); FBasic (BGet 0); FCallInd 19 0; FEnd]; b_bad := false |};
    PCode {| b_locals := []; b_badlocals := false; b_ops := [FBasic (BGet 0); FBasic (BOp (SNum1 (U_eqz W64))); FIf [] [TI64]; FBasic (BConst (VI64 1%Z)); FElse; FBasic (BGet 0); FBasic (BGet 0); FBasic (BConst (VI64 1%Z)); FBasic (BOp (SNum2 (B_int W64 Isub))); FBasic (BConst (VI32 12%Z)); FCallInd 7 0; FBasic (BOp (SNum2 (B_int W64 Imul))); FEnd; FEnd]; b_bad := false |};
    PCode {| b_locals := []; b_badlocals := false; b_ops := [FBasic (BGet 0); FBasic (BConst (VI64 1%Z)); FBasic (BOp (SNum2 (B_irel W64 Ile_u))); FIf [] [TI64]; FBasic (BConst (VI64 1%Z)); FElse; FBasic (BGet 0); FBasic (BConst (VI64 2%Z)); FBasic (BOp (SNum2 (B_int W64 Isub))); FBasic (BConst (VI32 13%Z)); FCallInd 7 0; FBasic (BGet 0); FBasic (BConst (VI64 1%Z)); FBasic (BOp (SNum2 (B_int W64 Isub))); FBasic (BConst (VI32 13%Z)); FCallInd 7 0; FBasic (BOp (SNum2 (B_int W64 Iadd))); FEnd; FEnd]; b_bad := false |};
    PCode {| b_locals := []; b_badlocals := false; b_ops := [FBasic (BGet 0); FBasic (BOp (SNum1 (U_eqz W32))); FIf [] [TI32]; FBasic (BConst (VI32 1%Z)); FElse; FBasic (BGet 0); FBasic (BGet 0); FBasic (BConst (VI32 1%Z)); FBasic (BOp (SNum2 (B_int W32 Isub))); FBasic (BConst (VI32 23%Z)); FCallInd 6 0; FBasic (BOp (SNum2 (B_int W32 Imul))); FEnd; FEnd]; b_bad := false |};
    PCode {| b_locals := []; b_badlocals := false; b_ops := [FBasic (BGet 0); FBasic (BConst (VF32 0%Z)); FBasic (BOp (SNum2 (B_frel FT32 Feq))); FIf [] [TF32]; FBasic (BConst (VF32 1065353216%Z)); FElse; FBasic (BGet 0); FBasic (BGet 0); FBasic (BConst (VF32 1065353216%Z)); FBasic (BOp (SNum2 (B_flt FT32 (FBarith Fsub)))); FBasic (BConst (VI32 24%Z)); FCallInd 8 0; FBasic (BOp (SNum2 (B_flt FT32 (FBarith Fmul)))); FEnd; FEnd]; b_bad := false |};
    PCode {| b_locals := []; b_badlocals := false; b_ops := [FBasic (BGet 0); FBasic (BConst (VF64 0%Z)); FBasic (BOp (SNum2 (B_frel FT64 Feq))); FIf [] [TF64]; FBasic (BConst (VF64 4607182418800017408%Z)); FElse; FBasic (BGet 0); FBasic (BGet 0); FBasic (BConst (VF64 4607182418800017408%Z)); FBasic (BOp (SNum2 (B_flt FT64 (FBarith Fsub)))); FBasic (BConst (VI32 25%Z)); FCallInd 9 0; FBasic (BOp (SNum2 (B_flt FT64 (FBarith Fmul)))); FEnd; FEnd]; b_bad := false |};
    PCode {| b_locals := []; b_badlocals := false; b_ops := [FBasic (BGet 0); FBasic (BConst (VI32 1%Z)); FBasic (BOp (SNum2 (B_irel W32 Ile_u))); FIf [] [TI32]; FBasic (BConst (VI32 1%Z)); FElse; FBasic (BGet 0); FBasic (BConst (VI32 2%Z)); FBasic (BOp (SNum2 (B_int W32 Isub))); FBasic (BConst (VI32 26%Z)); FCallInd 6 0; FBasic (BGet 0); FBasic (BConst (VI32 1%Z)); FBasic (BOp (SNum2 (B_int W32 Isub))); FBasic (BConst (VI32 26%Z)); FCallInd 6 0; FBasic (BOp (SNum2 (B_int W32 Iadd))); FEnd; FEnd]; b_bad := false |};
    PCode {| b_locals := []; b_badlocals := false; b_ops := [FBasic (BGet 0); FBasic (BConst (VF32 1065353216%Z)); FBasic (BOp (SNum2 (B_frel FT32 Fle))); FIf [] [TF32]; FBasic (BConst (VF32 1065353216%Z)); FElse; FBasic (BGet 0); FBasic (BConst (VF32 1073741824%Z)); FBasic (BOp (SNum2 (B_flt FT32 (FBarith Fsub)))); FBasic (BConst (VI32 27%Z)); FCallInd 8 0; FBasic (BGet 0); FBasic (BConst (VF32 1065353216%Z)); FBasic (BOp (SNum2 (B_flt FT32 (FBarith Fsub)))); FBasic (BConst (VI32 27%Z)); FCallInd 8 0; FBasic (BOp (SNum2 (B_flt FT32 (FBarith Fadd)))); FEnd; FEnd]; b_bad := false |};
    PCode {| b_locals := []; b_badlocals := false; b_ops := [FBasic (BGet 0); FBasic (BConst (VF64 4607182418800017408%Z)); FBasic (BOp (SNum2 (B_frel FT64 Fle))); FIf [] [TF64]; FBasic (BConst (VF64 4607182418800017408%Z)); FElse; FBasic (BGet 0); FBasic (BConst (VF64 4611686018427387904%Z)); FBasic (BOp (SNum2 (B_flt FT64 (FBarith Fsub)))); FBasic (BConst (VI32 28%Z)); FCallInd 9 0; FBasic (BGet 0); FBasic (BConst (VF64 4607182418800017408%Z)); FBasic (BOp (SNum2 (B_flt FT64 (FBarith Fsub)))); FBasic (BConst (VI32 28%Z)); FCallInd 9 0; FBasic (BOp (SNum2 (B_flt FT64 (FBarith Fadd)))); FEnd; FEnd]; b_bad := false |};
    PCode {| b_locals := []; b_badlocals := false; b_ops := [FBasic (BGet 0); FBasic (BOp (SNum1 (U_eqz W32))); FIf [] [TI32]; FBasic (BConst (VI32 44%Z)); FElse; FBasic (BGet 0); FBasic (BConst (VI32 1%Z)); FBasic (BOp (SNum2 (B_int W32 Isub))); FBasic (BConst (VI32 15%Z)); FCallInd 6 0; FEnd; FEnd]; b_bad := false |};
    PCode {| b_locals := []; b_badlocals := false; b_ops := [FBasic (BGet 0); FBasic (BOp (SNum1 (U_eqz W32))); FIf [] [TI32]; FBasic (BConst (VI32 99%Z)); FElse; FBasic (BGet 0); FBasic (BConst (VI32 1%Z)); FBasic (BOp (SNum2 (B_int W32 Isub))); FBasic (BConst (VI32 14%Z)); FCallInd 6 0; FEnd; FEnd]; b_bad := false |};
    PCode {| b_locals := []; b_badlocals := false; b_ops := [FBasic (BConst (VI32 16%Z)); FCallInd 0 0; FEnd]; b_bad := false |};
    PCode {| b_locals := []; b_badlocals := false; b_ops := [FBasic (BConst (VI32 18%Z)); FCallInd 0 0; FEnd]; b_bad := false |};
    PCode {| b_locals := []; b_badlocals := false; b_ops := [FBasic (BConst (VI32 17%Z)); FCallInd 0 0; FEnd]; b_bad := false |};
    PCode {| b_locals := []; b_badlocals := false; b_ops := [FBasic (BConst (VI32 0%Z)); FCallInd 1 0; FBasic (BConst (VI32 2%Z)); FBasic (BConst (VI32 3%Z)); FBasic (BSelect None); FEnd]; b_bad := false |};
    PCode {| b_locals := []; b_badlocals := false; b_ops := [FBasic (BConst (VI32 2%Z)); FBasic (BConst (VI32 0%Z)); FCallInd 1 0; FBasic (BConst (VI32 3%Z)); FBasic (BSelect None); FEnd]; b_bad := false |};
    PCode {| b_locals := []; b_badlocals := false; b_ops := [FBasic (BConst (VI32 2%Z)); FBasic (BConst (VI32 3%Z)); FBasic (BConst (VI32 0%Z)); FCallInd 1 0; FBasic (BSelect None); FEnd]; b_bad := false |};
    PCode {| b_locals := []; b_badlocals := false; b_ops := [FBasic (BConst (VI32 0%Z)); FCallInd 1 0; FIf [] [TI32]; FBasic (BConst (VI32 1%Z)); FElse; FBasic (BConst (VI32 2%Z)); FEnd; FEnd]; b_bad := false |};
    PCode {| b_locals := []; b_badlocals := false; b_ops := [FBlock false [] [TI64]; FBasic (BConst (VI32 1%Z)); FCallInd 2 0; FBasic (BConst (VI32 2%Z)); FBrIf 0; FEnd; FEnd]; b_bad := false |};
    PCode {| b_locals := []; b_badlocals := false; b_ops := [FBlock false [] [TI32]; FBasic (BConst (VI32 2%Z)); FBasic (BConst (VI32 0%Z)); FCallInd 1 0; FBrIf 0; FEnd; FEnd]; b_bad := false |};
    PCode {| b_locals := []; b_badlocals := false; b_ops := [FBlock false [] [TF32]; FBasic (BConst (VI32 2%Z)); FCallInd 3 0; FBasic (BConst (VI32 2%Z)); FBrTable [0] 0; FEnd; FEnd]; b_bad := false |};
    PCode {| b_locals := []; b_badlocals := false; b_ops := [FBlock false [] [TI32]; FBasic (BConst (VI32 2%Z)); FBasic (BConst (VI32 0%Z)); FCallInd 1 0; FBrTable [0] 0; FEnd; FEnd]; b_bad := false |};
    PCode {| b_locals := []; b_badlocals := false; b_ops := [FBasic (BConst (VI32 0%Z)); FCallInd 1 0; FBasic (BConst (VI32 1%Z)); FBasic (BOp (SStore SI32 0%Z)); FEnd]; b_bad := false |};
    PCode {| b_locals := []; b_badlocals := false; b_ops := [FBasic (BConst (VI32 10%Z)); FBasic (BConst (VI32 3%Z)); FCallInd 4 0; FBasic (BOp (SStore SF64 0%Z)); FEnd]; b_bad := false |};
    PCode {| b_locals := []; b_badlocals := false; b_ops := [FBasic (BConst (VI32 0%Z)); FCallInd 1 0; FBasic (BOp SMemGrow); FEnd]; b_bad := false |};
    PCode {| b_locals := []; b_badlocals := false; b_ops := [FBasic (BConst (VI32 1%Z)); FBasic (BConst (VI32 4%Z)); FCallInd 6 0; FReturn; FEnd]; b_bad := false |};
    PCode {| b_locals := []; b_badlocals := false; b_ops := [FBasic (BConst (VI64 1%Z)); FBasic (BConst (VI32 5%Z)); FCallInd 7 0; FBasic BDrop; FEnd]; b_bad := false |};
    PCode {| b_locals := []; b_badlocals := false; b_ops := [FBlock false [] [TF32]; FBasic (BConst (VF32 1065353216%Z)); FBasic (BConst (VI32 6%Z)); FCallInd 8 0; FBr 0; FEnd; FEnd]; b_bad := false |};
    PCode {| b_locals := [TF64]; b_badlocals := false; b_ops := [FBasic (BConst (VF64 4607182418800017408%Z)); FBasic (BConst (VI32 7%Z)); FCallInd 9 0; FBasic (BSet 0); FBasic (BGet 0); FEnd]; b_bad := false |};
    PCode {| b_locals := [TF64]; b_badlocals := false; b_ops := [FBasic (BConst (VF64 4607182418800017408%Z)); FBasic (BConst (VI32 7%Z)); FCallInd 9 0; FBasic (BTee 0); FEnd]; b_bad := false |};
    PCode {| b_locals := []; b_badlocals := false; b_ops := [FBasic (BConst (VF64 4607182418800017408%Z)); FBasic (BConst (VI32 7%Z)); FCallInd 9 0; FBasic (BOp (SGlobalSet TF64 0)); FBasic (BOp (SGlobalGet TF64 0)); FEnd]; b_bad := false |};
    PCode {| b_locals := []; b_badlocals := false; b_ops := [FBasic (BConst (VI32 0%Z)); FCallInd 1 0; FBasic (BOp (SLoad LI32 0%Z)); FEnd]; b_bad := false |};
    PCode {| b_locals := []; b_badlocals := false; b_ops := [FBlock false [] [TF32]; FBasic (BConst (VF32 0%Z)); FBasic (BConst (VI32 6%Z)); FCallInd 8 0; FBasic (BOp (SNum1 (U_flt FT32 (FUround Fsqrt)))); FEnd; FEnd]; b_bad := false |};
    PCode {| b_locals := []; b_badlocals := false; b_ops := [FBlock false [] [TI32]; FBasic (BConst (VI32 1%Z)); FBasic (BConst (VI32 4%Z)); FCallInd 6 0; FBasic (BConst (VI32 10%Z)); FBasic (BOp (SNum2 (B_int W32 Iadd))); FEnd; FEnd]; b_bad := false |};
    PCode {| b_locals := []; b_badlocals := false; b_ops := [FBlock false [] [TI32]; FBasic (BConst (VI32 10%Z)); FBasic (BConst (VI32 1%Z)); FBasic (BConst (VI32 4%Z)); FCallInd 6 0; FBasic (BOp (SNum2 (B_int W32 Isub))); FEnd; FEnd]; b_bad := false |};
    PCode {| b_locals := []; b_badlocals := false; b_ops := [FBlock false [] [TI32]; FBasic (BConst (VI32 1%Z)); FBasic (BConst (VI32 4%Z)); FCallInd 6 0; FBasic (BOp (SNum1 (U_eqz W32))); FEnd; FEnd]; b_bad := false |};
    PCode {| b_locals := []; b_badlocals := false; b_ops := [FBlock false [] [TI32]; FBasic (BConst (VI32 1%Z)); FBasic (BConst (VI32 4%Z)); FCallInd 6 0; FBasic (BConst (VI32 10%Z)); FBasic (BOp (SNum2 (B_irel W32 Ile_u))); FEnd; FEnd]; b_bad := false |};
    PCode {| b_locals := []; b_badlocals := false; b_ops := [FBlock false [] [TI32]; FBasic (BConst (VI32 10%Z)); FBasic (BConst (VI32 1%Z)); FBasic (BConst (VI32 4%Z)); FCallInd 6 0; FBasic (BOp (SNum2 (B_irel W32 Ine))); FEnd; FEnd]; b_bad := false |};
    PCode {| b_locals := []; b_badlocals := false; b_ops := [FBlock false [] [TI64]; FBasic (BConst (VI32 1%Z)); FBasic (BConst (VI32 4%Z)); FCallInd 6 0; FBasic (BOp (SCvt (C_ext Sx))); FEnd; FEnd]; b_bad := false |} ].
Definition w_conversions : list payload :=
  [ PVersion 1;
    PTypes [Some ([TI32], [TI64]); Some ([TI64], [TI32]); Some ([TF32], [TI32]); Some ([TF64], [TI32]); Some ([TF32], [TI64]); Some ([TF64], [TI64]); Some ([TI32], [TF32]); Some ([TI64], [TF32]); Some ([TI32], [TF64]); Some ([TI64], [TF64]); Some ([TF32], [TF64]); Some ([TF64], [TF32])];
    PFuncs [Some 0; Some 0; Some 1; Some 2; Some 2; Some 3; Some 3; Some 4; Some 4; Some 5; Some 5; Some 2; Some 2; Some 3; Some 3; Some 4; Some 4; Some 5; Some 5; Some 6; Some 7; Some 8; Some 9; Some 6; Some 7; Some 8; Some 9; Some 10; Some 11; Some 6; Some 9; Some 2; Some 5];
    PExports [Some ("i64.extend_i32_s", ExFunc 0); Some ("i64.extend_i32_u", ExFunc 1); Some ("i32.wrap_i64", ExFunc 2); Some ("i32.trunc_f32_s", ExFunc 3); Some ("i32.trunc_f32_u", ExFunc 4); Some ("i32.trunc_f64_s", ExFunc 5); Some ("i32.trunc_f64_u", ExFunc 6); Some ("i64.trunc_f32_s", ExFunc 7); Some ("i64.trunc_f32_u", ExFunc 8); Some ("i64.trunc_f64_s", ExFunc 9); Some ("i64.trunc_f64_u", ExFunc 10); Some ("i32.trunc_sat_f32_s", ExFunc 11); Some ("i32.trunc_sat_f32_u", ExFunc 12); Some ("i32.trunc_sat_f64_s", ExFunc 13); Some ("i32.trunc_sat_f64_u", ExFunc 14); Some ("i64.trunc_sat_f32_s", ExFunc 15); Some ("i64.trunc_sat_f32_u", ExFunc 16); Some ("i64.trunc_sat_f64_s", ExFunc 17); Some ("i64.trunc_sat_f64_u", ExFunc 18); Some ("f32.convert_i32_s", ExFunc 19); Some ("f32.convert_i64_s", ExFunc 20); Some ("f64.convert_i32_s", ExFunc 21); Some ("f64.convert_i64_s", ExFunc 22); Some ("f32.convert_i32_u", ExFunc 23); Some ("f32.convert_i64_u", ExFunc 24); Some ("f64.convert_i32_u", ExFunc 25); Some ("f64.convert_i64_u", ExFunc 26); Some ("f64.promote_f32", ExFunc 27); Some ("f32.demote_f64", ExFunc 28); Some ("f32.reinterpret_i32", ExFunc 29); Some ("f64.reinterpret_i64", ExFunc 30); Some ("i32.reinterpret_f32", ExFunc 31); Some ("i64.reinterpret_f64", ExFunc 32)];
    PCode {| b_locals := []; b_badlocals := false; b_ops := [FBasic (BGet 0); FBasic (BOp (SCvt (C_ext Sx))); FEnd]; b_bad := false |};
    PCode {| b_locals := []; b_badlocals := false; b_ops := [FBasic (BGet 0); FBasic (BOp (SCvt (C_ext Ux))); FEnd]; b_bad := false |};
    PCode {| b_locals := []; b_badlocals := false; b_ops := [FBasic (BGet 0); FBasic (BOp (SCvt (C_wrap))); FEnd]; b_bad := false |};
    PCode {| b_locals := []; b_badlocals := false; b_ops := [FBasic (BGet 0); FBasic (BOp (SCvt (C_trunc W32 FT32 Sx))); FEnd]; b_bad := false |};
    PCode {| b_locals := []; b_badlocals := false; b_ops := [FBasic (BGet 0); FBasic (BOp (SCvt (C_trunc W32 FT32 Ux))); FEnd]; b_bad := false |};
    PCode {| b_locals := []; b_badlocals := false; b_ops := [FBasic (BGet 0); FBasic (BOp (SCvt (C_trunc W32 FT64 Sx))); FEnd]; b_bad := false |};
    PCode {| b_locals := []; b_badlocals := false; b_ops := [FBasic (BGet 0); FBasic (BOp (SCvt (C_trunc W32 FT64 Ux))); FEnd]; b_bad := false |};
    PCode {| b_locals := []; b_badlocals := false; b_ops := [FBasic (BGet 0); FBasic (BOp (SCvt (C_trunc W64 FT32 Sx))); FEnd]; b_bad := false |};
    PCode {| b_locals := []; b_badlocals := false; b_ops := [FBasic (BGet 0); FBasic (BOp (SCvt (C_trunc W64 FT32 Ux))); FEnd]; b_bad := false |};
    PCode {| b_locals := []; b_badlocals := false; b_ops := [FBasic (BGet 0); FBasic (BOp (SCvt (C_trunc W64 FT64 Sx))); FEnd]; b_bad := false |};
    PCode {| b_locals := []; b_badlocals := false; b_ops := [FBasic (BGet 0); FBasic (BOp (SCvt (C_trunc W64 FT64 Ux))); FEnd]; b_bad := false |};
    PCode {| b_locals := []; b_badlocals := false; b_ops := [FBasic (BGet 0); FBasic (BOp (SCvt (C_trunc_sat W32 FT32 Sx))); FEnd]; b_bad := false |};
    PCode {| b_locals := []; b_badlocals := false; b_ops := [FBasic (BGet 0); FBasic (BOp (SCvt (C_trunc_sat W32 FT32 Ux))); FEnd]; b_bad := false |};
    PCode {| b_locals := []; b_badlocals := false; b_ops := [FBasic (BGet 0); FBasic (BOp (SCvt (C_trunc_sat W32 FT64 Sx))); FEnd]; b_bad := false |};
    PCode {| b_locals := []; b_badlocals := false; b_ops := [FBasic (BGet 0); FBasic (BOp (SCvt (C_trunc_sat W32 FT64 Ux))); FEnd]; b_bad := false |};
    PCode {| b_locals := []; b_badlocals := false; b_ops := [FBasic (BGet 0); FBasic (BOp (SCvt (C_trunc_sat W64 FT32 Sx))); FEnd]; b_bad := false |};
    PCode {| b_locals := []; b_badlocals := false; b_ops := [FBasic (BGet 0); FBasic (BOp (SCvt (C_trunc_sat W64 FT32 Ux))); FEnd]; b_bad := false |};
    PCode {| b_locals := []; b_badlocals := false; b_ops := [FBasic (BGet 0); FBasic (BOp (SCvt (C_trunc_sat W64 FT64 Sx))); FEnd]; b_bad := false |};
    PCode {| b_locals := []; b_badlocals := false; b_ops := [FBasic (BGet 0); FBasic (BOp (SCvt (C_trunc_sat W64 FT64 Ux))); FEnd]; b_bad := false |};
    PCode {| b_locals := []; b_badlocals := false; b_ops := [FBasic (BGet 0); FBasic (BOp (SCvt (C_convert FT32 W32 Sx))); FEnd]; b_bad := false |};
    PCode {| b_locals := []; b_badlocals := false; b_ops := [FBasic (BGet 0); FBasic (BOp (SCvt (C_convert FT32 W64 Sx))); FEnd]; b_bad := false |};
    PCode {| b_locals := []; b_badlocals := false; b_ops := [FBasic (BGet 0); FBasic (BOp (SCvt (C_convert FT64 W32 Sx))); FEnd]; b_bad := false |};
    PCode {| b_locals := []; b_badlocals := false; b_ops := [FBasic (BGet 0); FBasic (BOp (SCvt (C_convert FT64 W64 Sx))); FEnd]; b_bad := false |};
    PCode {| b_locals := []; b_badlocals := false; b_ops := [FBasic (BGet 0); FBasic (BOp (SCvt (C_convert FT32 W32 Ux))); FEnd]; b_bad := false |};
    PCode {| b_locals := []; b_badlocals := false; b_ops := [FBasic (BGet 0); FBasic (BOp (SCvt (C_convert FT32 W64 Ux))); FEnd]; b_bad := false |};
    PCode {| b_locals := []; b_badlocals := false; b_ops := [FBasic (BGet 0); FBasic (BOp (SCvt (C_convert FT64 W32 Ux))); FEnd]; b_bad := false |};
    PCode {| b_locals := []; b_badlocals := false; b_ops := [FBasic (BGet 0); FBasic (BOp (SCvt (C_convert FT64 W64 Ux))); FEnd]; b_bad := false |};
    PCode {| b_locals := []; b_badlocals := false; b_ops := [FBasic (BGet 0); FBasic (BOp (SCvt (C_promote))); FEnd]; b_bad := false |};
    PCode {| b_locals := []; b_badlocals := false; b_ops := [FBasic (BGet 0); FBasic (BOp (SCvt (C_demote))); FEnd]; b_bad := false |};
    PCode {| b_locals := []; b_badlocals := false; b_ops := [FBasic (BGet 0); FBasic (BOp (SCvt (C_i2f W32))); FEnd]; b_bad := false |};
    PCode {| b_locals := []; b_badlocals := false; b_ops := [FBasic (BGet 0); FBasic (BOp (SCvt (C_i2f W64))); FEnd]; b_bad := false |};
    PCode {| b_locals := []; b_badlocals := false; b_ops := [FBasic (BGet 0); FBasic (BOp (SCvt (C_f2i W32))); FEnd]; b_bad := false |};
    PCode {| b_locals := []; b_badlocals := false; b_ops := [FBasic (BGet 0); FBasic (BOp (SCvt (C_f2i W64))); FEnd]; b_bad := false |} ].
Definition w_f32 : list payload :=
  [ PVersion 1;
    PTypes [Some ([TF32; TF32], [TF32]); Some ([TF32], [TF32])];
    PFuncs [Some 0; Some 0; Some 0; Some 0; Some 1; Some 0; Some 0; Some 1; Some 1; Some 1; Some 1];
    PExports [Some ("add", ExFunc 0); Some ("sub", ExFunc 1); Some ("mul", ExFunc 2); Some ("div", ExFunc 3); Some ("sqrt", ExFunc 4); Some ("min", ExFunc 5); Some ("max", ExFunc 6); Some ("ceil", ExFunc 7); Some ("floor", ExFunc 8); Some ("trunc", ExFunc 9); Some ("nearest", ExFunc 10)];
    PCode {| b_locals := []; b_badlocals := false; b_ops := [FBasic (BGet 0); FBasic (BGet 1); FBasic (BOp (SNum2 (B_flt FT32 (FBarith Fadd)))); FEnd]; b_bad := false |};
    PCode {| b_locals := []; b_badlocals := false; b_ops := [FBasic (BGet 0); FBasic (BGet 1); FBasic (BOp (SNum2 (B_flt FT32 (FBarith Fsub)))); FEnd]; b_bad := false |};
    PCode {| b_locals := []; b_badlocals := false; b_ops := [FBasic (BGet 0); FBasic (BGet 1); FBasic (BOp (SNum2 (B_flt FT32 (FBarith Fmul)))); FEnd]; b_bad := false |};
    PCode {| b_locals := []; b_badlocals := false; b_ops := [FBasic (BGet 0); FBasic (BGet 1); FBasic (BOp (SNum2 (B_flt FT32 (FBarith Fdiv)))); FEnd]; b_bad := false |};
    PCode {| b_locals := []; b_badlocals := false; b_ops := [FBasic (BGet 0); FBasic (BOp (SNum1 (U_flt FT32 (FUround Fsqrt)))); FEnd]; b_bad := false |};
    PCode {| b_locals := []; b_badlocals := false; b_ops := [FBasic (BGet 0); FBasic (BGet 1); FBasic (BOp (SNum2 (B_flt FT32 FBmin))); FEnd]; b_bad := false |};
    PCode {| b_locals := []; b_badlocals := false; b_ops := [FBasic (BGet 0); FBasic (BGet 1); FBasic (BOp (SNum2 (B_flt FT32 FBmax))); FEnd]; b_bad := false |};
    PCode {| b_locals := []; b_badlocals := false; b_ops := [FBasic (BGet 0); FBasic (BOp (SNum1 (U_flt FT32 (FUround Fceil)))); FEnd]; b_bad := false |};
    PCode {| b_locals := []; b_badlocals := false; b_ops := [FBasic (BGet 0); FBasic (BOp (SNum1 (U_flt FT32 (FUround Ffloor)))); FEnd]; b_bad := false |};
    PCode {| b_locals := []; b_badlocals := false; b_ops := [FBasic (BGet 0); FBasic (BOp (SNum1 (U_flt FT32 (FUround Ftrunc)))); FEnd]; b_bad := false |};
    PCode {| b_locals := []; b_badlocals := false; b_ops := [FBasic (BGet 0); FBasic (BOp (SNum1 (U_flt FT32 (FUround Fnearest)))); FEnd]; b_bad := false |} ].
Definition w_i32 : list payload :=
  [ PVersion 1;
    PTypes [Some ([TI32; TI32], [TI32]); Some ([TI32], [TI32])];
    PFuncs [Some 0; Some 0; Some 0; Some 0; Some 0; Some 0; Some 0; Some 0; Some 0; Some 0; Some 0; Some 0; Some 0; Some 0; Some 0; Some 1; Some 1; Some 1; Some 1; Some 1; Some 1; Some 0; Some 0; Some 0; Some 0; Some 0; Some 0; Some 0; Some 0; Some 0; Some 0];
    PExports [Some ("add", ExFunc 0); Some ("sub", ExFunc 1); Some ("mul", ExFunc 2); Some ("div_s", ExFunc 3); Some ("div_u", ExFunc 4); Some ("rem_s", ExFunc 5); Some ("rem_u", ExFunc 6); Some ("and", ExFunc 7); Some ("or", ExFunc 8); Some ("xor", ExFunc 9); Some ("shl", ExFunc 10); Some ("shr_s", ExFunc 11); Some ("shr_u", ExFunc 12); Some ("rotl", ExFunc 13); Some ("rotr", ExFunc 14); Some ("clz", ExFunc 15); Some ("ctz", ExFunc 16); Some ("popcnt", ExFunc 17); Some ("extend8_s", ExFunc 18); Some ("extend16_s", ExFunc 19); Some ("eqz", ExFunc 20); Some ("eq", ExFunc 21); Some ("ne", ExFunc 22); Some ("lt_s", ExFunc 23); Some ("lt_u", ExFunc 24); Some ("le_s", ExFunc 25); Some ("le_u", ExFunc 26); Some ("gt_s", ExFunc 27); Some ("gt_u", ExFunc 28); Some ("ge_s", ExFunc 29); Some ("ge_u", ExFunc 30)];
    PCode {| b_locals := []; b_badlocals := false; b_ops := [FBasic (BGet 0); FBasic (BGet 1); FBasic (BOp (SNum2 (B_int W32 Iadd))); FEnd]; b_bad := false |};
    PCode {| b_locals := []; b_badlocals := false; b_ops := [FBasic (BGet 0); FBasic (BGet 1); FBasic (BOp (SNum2 (B_int W32 Isub))); FEnd]; b_bad := false |};
    PCode {| b_locals := []; b_badlocals := false; b_ops := [FBasic (BGet 0); FBasic (BGet 1); FBasic (BOp (SNum2 (B_int W32 Imul))); FEnd]; b_bad := false |};
    PCode {| b_locals := []; b_badlocals := false; b_ops := [FBasic (BGet 0); FBasic (BGet 1); FBasic (BOp (SNum2 (B_int W32 Idiv_s))); FEnd]; b_bad := false |};
    PCode {| b_locals := []; b_badlocals := false; b_ops := [FBasic (BGet 0); FBasic (BGet 1); FBasic (BOp (SNum2 (B_int W32 Idiv_u))); FEnd]; b_bad := false |};
    PCode {| b_locals := []; b_badlocals := false; b_ops := [FBasic (BGet 0); FBasic (BGet 1); FBasic (BOp (SNum2 (B_int W32 Irem_s))); FEnd]; b_bad := false |};
    PCode {| b_locals := []; b_badlocals := false; b_ops := [FBasic (BGet 0); FBasic (BGet 1); FBasic (BOp (SNum2 (B_int W32 Irem_u))); FEnd]; b_bad := false |};
    PCode {| b_locals := []; b_badlocals := false; b_ops := [FBasic (BGet 0); FBasic (BGet 1); FBasic (BOp (SNum2 (B_int W32 Iand))); FEnd]; b_bad := false |};
    PCode {| b_locals := []; b_badlocals := false; b_ops := [FBasic (BGet 0); FBasic (BGet 1); FBasic (BOp (SNum2 (B_int W32 Ior))); FEnd]; b_bad := false |};
    PCode {| b_locals := []; b_badlocals := false; b_ops := [FBasic (BGet 0); FBasic (BGet 1); FBasic (BOp (SNum2 (B_int W32 Ixor))); FEnd]; b_bad := false |};
    PCode {| b_locals := []; b_badlocals := false; b_ops := [FBasic (BGet 0); FBasic (BGet 1); FBasic (BOp (SNum2 (B_int W32 Ishl))); FEnd]; b_bad := false |};
    PCode {| b_locals := []; b_badlocals := false; b_ops := [FBasic (BGet 0); FBasic (BGet 1); FBasic (BOp (SNum2 (B_int W32 Ishr_s))); FEnd]; b_bad := false |};
    PCode {| b_locals := []; b_badlocals := false; b_ops := [FBasic (BGet 0); FBasic (BGet 1); FBasic (BOp (SNum2 (B_int W32 Ishr_u))); FEnd]; b_bad := false |};
    PCode {| b_locals := []; b_badlocals := false; b_ops := [FBasic (BGet 0); FBasic (BGet 1); FBasic (BOp (SNum2 (B_int W32 Irotl))); FEnd]; b_bad := false |};
    PCode {| b_locals := []; b_badlocals := false; b_ops := [FBasic (BGet 0); FBasic (BGet 1); FBasic (BOp (SNum2 (B_int W32 Irotr))); FEnd]; b_bad := false |};
    PCode {| b_locals := []; b_badlocals := false; b_ops := [FBasic (BGet 0); FBasic (BOp (SNum1 (U_int W32 Iclz))); FEnd]; b_bad := false |};
    PCode {| b_locals := []; b_badlocals := false; b_ops := [FBasic (BGet 0); FBasic (BOp (SNum1 (U_int W32 Ictz))); FEnd]; b_bad := false |};
    PCode {| b_locals := []; b_badlocals := false; b_ops := [FBasic (BGet 0); FBasic (BOp (SNum1 (U_int W32 Ipopcnt))); FEnd]; b_bad := false |};
    PCode {| b_locals := []; b_badlocals := false; b_ops := [FBasic (BGet 0); FBasic (BOp (SNum1 (U_int W32 Iext8))); FEnd]; b_bad := false |};
    PCode {| b_locals := []; b_badlocals := false; b_ops := [FBasic (BGet 0); FBasic (BOp (SNum1 (U_int W32 Iext16))); FEnd]; b_bad := false |};
    PCode {| b_locals := []; b_badlocals := false; b_ops := [FBasic (BGet 0); FBasic (BOp (SNum1 (U_eqz W32))); FEnd]; b_bad := false |};
    PCode {| b_locals := []; b_badlocals := false; b_ops := [FBasic (BGet 0); FBasic (BGet 1); FBasic (BOp (SNum2 (B_irel W32 Ieq))); FEnd]; b_bad := false |};
    PCode {| b_locals := []; b_badlocals := false; b_ops := [FBasic (BGet 0); FBasic (BGet 1); FBasic (BOp (SNum2 (B_irel W32 Ine))); FEnd]; b_bad := false |};
    PCode {| b_locals := []; b_badlocals := false; b_ops := [FBasic (BGet 0); FBasic (BGet 1); FBasic (BOp (SNum2 (B_irel W32 Ilt_s))); FEnd]; b_bad := false |};
    PCode {| b_locals := []; b_badlocals := false; b_ops := [FBasic (BGet 0); FBasic (BGet 1); FBasic (BOp (SNum2 (B_irel W32 Ilt_u))); FEnd]; b_bad := false |};
    PCode {| b_locals := []; b_badlocals := false; b_ops := [FBasic (BGet 0); FBasic (BGet 1); FBasic (BOp (SNum2 (B_irel W32 Ile_s))); FEnd]; b_bad := false |};
    PCode {| b_locals := []; b_badlocals := false; b_ops := [FBasic (BGet 0); FBasic (BGet 1); FBasic (BOp (SNum2 (B_irel W32 Ile_u))); FEnd]; b_bad := false |};
    PCode {| b_locals := []; b_badlocals := false; b_ops := [FBasic (BGet 0); FBasic (BGet 1); FBasic (BOp (SNum2 (B_irel W32 Igt_s))); FEnd]; b_bad := false |};
    PCode {| b_locals := []; b_badlocals := false; b_ops := [FBasic (BGet 0); FBasic (BGet 1); FBasic (BOp (SNum2 (B_irel W32 Igt_u))); FEnd]; b_bad := false |};
    PCode {| b_locals := []; b_badlocals := false; b_ops := [FBasic (BGet 0); FBasic (BGet 1); FBasic (BOp (SNum2 (B_irel W32 Ige_s))); FEnd]; b_bad := false |};
    PCode {| b_locals := []; b_badlocals := false; b_ops := [FBasic (BGet 0); FBasic (BGet 1); FBasic (BOp (SNum2 (B_irel W32 Ige_u))); FEnd]; b_bad := false |} ].
Definition w_i64 : list payload :=
  [ PVersion 1;
    PTypes [Some ([TI64; TI64], [TI64]); Some ([TI64], [TI64]); Some ([TI64], [TI32]); Some ([TI64; TI64], [TI32])];
    PFuncs [Some 0; Some 0; Some 0; Some 0; Some 0; Some 0; Some 0; Some 0; Some 0; Some 0; Some 0; Some 0; Some 0; Some 0; Some 0; Some 1; Some 1; Some 1; Some 1; Some 1; Some 1; Some 2; Some 3; Some 3; Some 3; Some 3; Some 3; Some 3; Some 3; Some 3; Some 3; Some 3];
    PExports [Some ("add", ExFunc 0); Some ("sub", ExFunc 1); Some ("mul", ExFunc 2); Some ("div_s", ExFunc 3); Some ("div_u", ExFunc 4); Some ("rem_s", ExFunc 5); Some ("rem_u", ExFunc 6); Some ("and", ExFunc 7); Some ("or", ExFunc 8); Some ("xor", ExFunc 9); Some ("shl", ExFunc 10); Some ("shr_s", ExFunc 11); Some ("shr_u", ExFunc 12); Some ("rotl", ExFunc 13); Some ("rotr", ExFunc 14); Some ("clz", ExFunc 15); Some ("ctz", ExFunc 16); Some ("popcnt", ExFunc 17); Some ("extend8_s", ExFunc 18); Some ("extend16_s", ExFunc 19); Some ("extend32_s", ExFunc 20); Some ("eqz", ExFunc 21); Some ("eq", ExFunc 22); Some ("ne", ExFunc 23); Some ("lt_s", ExFunc 24); Some ("lt_u", ExFunc 25); Some ("le_s", ExFunc 26); Some ("le_u", ExFunc 27); Some ("gt_s", ExFunc 28); Some ("gt_u", ExFunc 29); Some ("ge_s", ExFunc 30); Some ("ge_u", ExFunc 31)];
    PCode {| b_locals := []; b_badlocals := false; b_ops := [FBasic (BGet 0); FBasic (BGet 1); FBasic (BOp (SNum2 (B_int W64 Iadd))); FEnd]; b_bad := false |};
    PCode {| b_locals := []; b_badlocals := false; b_ops := [FBasic (BGet 0); FBasic (BGet 1); FBasic (BOp (SNum2 (B_int W64 Isub))); FEnd]; b_bad := false |};
    PCode {| b_locals := []; b_badlocals := false; b_ops := [FBasic (BGet 0); FBasic (BGet 1); FBasic (BOp (SNum2 (B_int W64 Imul))); FEnd]; b_bad := false |};
    PCode {| b_locals := []; b_badlocals := false; b_ops := [FBasic (BGet 0); FBasic (BGet 1); FBasic (BOp (SNum2 (B_int W64 Idiv_s))); FEnd]; b_bad := false |};
    PCode {| b_locals := []; b_badlocals := false; b_ops := [FBasic (BGet 0); FBasic (BGet 1); FBasic (BOp (SNum2 (B_int W64 Idiv_u))); FEnd]; b_bad := false |};
    PCode {| b_locals := []; b_badlocals := false; b_ops := [FBasic (BGet 0); FBasic (BGet 1); FBasic (BOp (SNum2 (B_int W64 Irem_s))); FEnd]; b_bad := false |};
    PCode {| b_locals := []; b_badlocals := false; b_ops := [FBasic (BGet 0); FBasic (BGet 1); FBasic (BOp (SNum2 (B_int W64 Irem_u))); FEnd]; b_bad := false |};
    PCode {| b_locals := []; b_badlocals := false; b_ops := [FBasic (BGet 0); FBasic (BGet 1); FBasic (BOp (SNum2 (B_int W64 Iand))); FEnd]; b_bad := false |};
    PCode {| b_locals := []; b_badlocals := false; b_ops := [FBasic (BGet 0); FBasic (BGet 1); FBasic (BOp (SNum2 (B_int W64 Ior))); FEnd]; b_bad := false |};
    PCode {| b_locals := []; b_badlocals := false; b_ops := [FBasic (BGet 0); FBasic (BGet 1); FBasic (BOp (SNum2 (B_int W64 Ixor))); FEnd]; b_bad := false |};
    PCode {| b_locals := []; b_badlocals := false; b_ops := [FBasic (BGet 0); FBasic (BGet 1); FBasic (BOp (SNum2 (B_int W64 Ishl))); FEnd]; b_bad := false |};
    PCode {| b_locals := []; b_badlocals := false; b_ops := [FBasic (BGet 0); FBasic (BGet 1); FBasic (BOp (SNum2 (B_int W64 Ishr_s))); FEnd]; b_bad := false |};
    PCode {| b_locals := []; b_badlocals := false; b_ops := [FBasic (BGet 0); FBasic (BGet 1); FBasic (BOp (SNum2 (B_int W64 Ishr_u))); FEnd]; b_bad := false |};
    PCode {| b_locals := []; b_badlocals := false; b_ops := [FBasic (BGet 0); FBasic (BGet 1); FBasic (BOp (SNum2 (B_int W64 Irotl))); FEnd]; b_bad := false |};
    PCode {| b_locals := []; b_badlocals := false; b_ops := [FBasic (BGet 0); FBasic (BGet 1); FBasic (BOp (SNum2 (B_int W64 Irotr))); FEnd]; b_bad := false |};
    PCode {| b_locals := []; b_badlocals := false; b_ops := [FBasic (BGet 0); FBasic (BOp (SNum1 (U_int W64 Iclz))); FEnd]; b_bad := false |};
    PCode {| b_locals := []; b_badlocals := false; b_ops := [FBasic (BGet 0); FBasic (BOp (SNum1 (U_int W64 Ictz))); FEnd]; b_bad := false |};
    PCode {| b_locals := []; b_badlocals := false; b_ops := [FBasic (BGet 0); FBasic (BOp (SNum1 (U_int W64 Ipopcnt))); FEnd]; b_bad := false |};
    PCode {| b_locals := []; b_badlocals := false; b_ops := [FBasic (BGet 0); FBasic (BOp (SNum1 (U_int W64 Iext8))); FEnd]; b_bad := false |};
    PCode {| b_locals := []; b_badlocals := false; b_ops := [FBasic (BGet 0); FBasic (BOp (SNum1 (U_int W64 Iext16))); FEnd]; b_bad := false |};
    PCode {| b_locals := []; b_badlocals := false; b_ops := [FBasic (BGet 0); FBasic (BOp (SNum1 (U_int W64 Iext32))); FEnd]; b_bad := false |};
    PCode {| b_locals := []; b_badlocals := false; b_ops := [FBasic (BGet 0); FBasic (BOp (SNum1 (U_eqz W64))); FEnd]; b_bad := false |};
    PCode {| b_locals := []; b_badlocals := false; b_ops := [FBasic (BGet 0); FBasic (BGet 1); FBasic (BOp (SNum2 (B_irel W64 Ieq))); FEnd]; b_bad := false |};
    PCode {| b_locals := []; b_badlocals := false; b_ops := [FBasic (BGet 0); FBasic (BGet 1); FBasic (BOp (SNum2 (B_irel W64 Ine))); FEnd]; b_bad := false |};
    PCode {| b_locals := []; b_badlocals := false; b_ops := [FBasic (BGet 0); FBasic (BGet 1); FBasic (BOp (SNum2 (B_irel W64 Ilt_s))); FEnd]; b_bad := false |};
    PCode {| b_locals := []; b_badlocals := false; b_ops := [FBasic (BGet 0); FBasic (BGet 1); FBasic (BOp (SNum2 (B_irel W64 Ilt_u))); FEnd]; b_bad := false |};
    PCode {| b_locals := []; b_badlocals := false; b_ops := [FBasic (BGet 0); FBasic (BGet 1); FBasic (BOp (SNum2 (B_irel W64 Ile_s))); FEnd]; b_bad := false |};
    PCode {| b_locals := []; b_badlocals := false; b_ops := [FBasic (BGet 0); FBasic (BGet 1); FBasic (BOp (SNum2 (B_irel W64 Ile_u))); FEnd]; b_bad := false |};
    PCode {| b_locals := []; b_badlocals := false; b_ops := [FBasic (BGet 0); FBasic (BGet 1); FBasic (BOp (SNum2 (B_irel W64 Igt_s))); FEnd]; b_bad := false |};
    PCode {| b_locals := []; b_badlocals := false; b_ops := [FBasic (BGet 0); FBasic (BGet 1); FBasic (BOp (SNum2 (B_irel W64 Igt_u))); FEnd]; b_bad := false |};
    PCode {| b_locals := []; b_badlocals := false; b_ops := [FBasic (BGet 0); FBasic (BGet 1); FBasic (BOp (SNum2 (B_irel W64 Ige_s))); FEnd]; b_bad := false |};
    PCode {| b_locals := []; b_badlocals := false; b_ops := [FBasic (BGet 0); FBasic (BGet 1); FBasic (BOp (SNum2 (B_irel W64 Ige_u))); FEnd]; b_bad := false |} ].
Definition w_if : list payload :=
  [ PVersion 1;
    PTypes [Some ([TI32; TI32], [TI32]); Some ([], []); Some ([TI32], []); Some ([TI32], [TI32]); Some ([], [TI32; TI32]); Some ([], [TF32; TF32]); Some ([], [TI32]); Some ([TI32; TI32], [TI32; TI32])];
    PFuncs [Some 1; Some 2; Some 3; Some 0; Some 3; Some 3; Some 3; Some 3; Some 3; Some 3; Some 3; Some 3; Some 3; Some 3; Some 3; Some 0; Some 3; Some 3; Some 3; Some 2; Some 2; Some 3; Some 3; Some 3; Some 3; Some 2; Some 3; Some 3; Some 3; Some 3; Some 3; Some 3; Some 0; Some 3; Some 0; Some 3; Some 3; Some 3; Some 6; Some 3; Some 3; Some 3; Some 3; Some 3; Some 3; Some 3; Some 3];
    PTables [Some 1%Z];
    PMems [Some (1%Z, None)];
    PGlobals [Some [CVal (VI32 10%Z)]];
    PExports [Some ("empty", ExFunc 1); Some ("singular", ExFunc 2); Some ("nested", ExFunc 3); Some ("as-select-first", ExFunc 4); Some ("as-select-mid", ExFunc 5); Some ("as-select-last", ExFunc 6); Some ("as-loop-first", ExFunc 7); Some ("as-loop-mid", ExFunc 8); Some ("as-loop-last", ExFunc 9); Some ("as-if-condition", ExFunc 10); Some ("as-br_if-first", ExFunc 11); Some ("as-br_if-last", ExFunc 12); Some ("as-br_table-first", ExFunc 13); Some ("as-br_table-last", ExFunc 14); Some ("as-call_indirect-first", ExFunc 16); Some ("as-call_indirect-mid", ExFunc 17); Some ("as-call_indirect-last", ExFunc 18); Some ("as-store-first", ExFunc 19); Some ("as-store-last", ExFunc 20); Some ("as-memory.grow-value", ExFunc 21); Some ("as-call-value", ExFunc 23); Some ("as-return-value", ExFunc 24); Some ("as-drop-operand", ExFunc 25); Some ("as-br-value", ExFunc 26); Some ("as-local.set-value", ExFunc 27); Some ("as-local.tee-value", ExFunc 28); Some ("as-global.set-value", ExFunc 29); Some ("as-load-operand", ExFunc 30); Some ("as-unary-operand", ExFunc 31); Some ("as-binary-operand", ExFunc 32); Some ("as-test-operand", ExFunc 33); Some ("as-compare-operand", ExFunc 34); Some ("as-binary-operands", ExFunc 35); Some ("as-compare-operands", ExFunc 36); Some ("as-mixed-operands", ExFunc 37); Some ("break-bare", ExFunc 38); Some ("break-value", ExFunc 39); Some ("param", ExFunc 40); Some ("params", ExFunc 41); Some ("params-id", ExFunc 42); Some ("param-break", ExFunc 43); Some ("params-break", ExFunc 44); Some ("params-id-break", ExFunc 45); Some ("effects", ExFunc 46)];
    PElems [Some {| e_extern := false; e_idxes := Some [15]; e_init := None; e_mode := MActive 0 [CVal (VI32 0%Z)] |}];
    PCode {| b_locals := []; b_badlocals := false; b_ops := [FEnd]; b_bad := false |};
    PCode {| b_locals := []; b_badlocals := false; b_ops := [FBasic (BGet 0); FIf [] []; FEnd; FBasic (BGet 0); FIf [] []; FEnd; FBasic (BGet 0); FIf [] []; FEnd; FBasic (BGet 0); FIf [] []; FEnd; FEnd]; b_bad := false |};
    PCode {| b_locals := []; b_badlocals := false; b_ops := [FBasic (BGet 0); FIf [] []; FBasic BNop; FEnd; FBasic (BGet 0); FIf [] []; FBasic BNop; FElse; FBasic BNop; FEnd; FBasic (BGet 0); FIf [] [TI32]; FBasic (BConst (VI32 7%Z)); FElse; FBasic (BConst (VI32 8%Z)); FEnd; FEnd]; b_bad := false |};
    PCode {| b_locals := []; b_badlocals := false; b_ops := [FBasic (BGet 0); FIf [] [TI32]; FBasic (BGet 1); FIf [] []; FCall 0; FBlock false [] []; FEnd; FBasic BNop; FEnd; FBasic (BGet 1); FIf [] []; FElse; FCall 0; FBlock false [] []; FEnd; FBasic BNop; FEnd; FBasic (BGet 1); FIf [] [TI32]; FCall 0; FBasic (BConst (VI32 9%Z)); FElse; FCall 0; FBasic (BConst (VI32 10%Z)); FEnd; FElse; FBasic (BGet 1); FIf [] []; FCall 0; FBlock false [] []; FEnd; FBasic BNop; FEnd; FBasic (BGet 1); FIf [] []; FElse; FCall 0; FBlock false [] []; FEnd; FBasic BNop; FEnd; FBasic (BGet 1); FIf [] [TI32]; FCall 0; FBasic (BConst (VI32 10%Z)); FElse; FCall 0; FBasic (BConst (VI32 11%Z)); FEnd; FEnd; FEnd]; b_bad := false |};
    PCode {| b_locals := []; b_badlocals := false; b_ops := [FBasic (BGet 0); FIf [] [TI32]; FCall 0; FBasic (BConst (VI32 1%Z)); FElse; FCall 0; FBasic (BConst (VI32 0%Z)); FEnd; FBasic (BConst (VI32 2%Z)); FBasic (BConst (VI32 3%Z)); FBasic (BSelect None); FEnd]; b_bad := false |};
    PCode {| b_locals := []; b_badlocals := false; b_ops := [FBasic (BConst (VI32 2%Z)); FBasic (BGet 0); FIf [] [TI32]; FCall 0; FBasic (BConst (VI32 1%Z)); FElse; FCall 0; FBasic (BConst (VI32 0%Z)); FEnd; FBasic (BConst (VI32 3%Z)); FBasic (BSelect None); FEnd]; b_bad := false |};
    PCode {| b_locals := []; b_badlocals := false; b_ops := [FBasic (BConst (VI32 2%Z)); FBasic (BConst (VI32 3%Z)); FBasic (BGet 0); FIf [] [TI32]; FCall 0; FBasic (BConst (VI32 1%Z)); FElse; FCall 0; FBasic (BConst (VI32 0%Z)); FEnd; FBasic (BSelect None); FEnd]; b_bad := false |};
    PCode {| b_locals := []; b_badlocals := false; b_ops := [FBlock true [] [TI32]; FBasic (BGet 0); FIf [] [TI32]; FCall 0; FBasic (BConst (VI32 1%Z)); FElse; FCall 0; FBasic (BConst (VI32 0%Z)); FEnd; FCall 0; FCall 0; FEnd; FEnd]; b_bad := false |};
    PCode {| b_locals := []; b_badlocals := false; b_ops := [FBlock true [] [TI32]; FCall 0; FBasic (BGet 0); FIf [] [TI32]; FCall 0; FBasic (BConst (VI32 1%Z)); FElse; FCall 0; FBasic (BConst (VI32 0%Z)); FEnd; FCall 0; FEnd; FEnd]; b_bad := false |};
    PCode {| b_locals := []; b_badlocals := false; b_ops := [FBlock true [] [TI32]; FCall 0; FCall 0; FBasic (BGet 0); FIf [] [TI32]; FCall 0; FBasic (BConst (VI32 1%Z)); FElse; FCall 0; FBasic (BConst (VI32 0%Z)); FEnd; FEnd; FEnd]; b_bad := false |};
    PCode {| b_locals := []; b_badlocals := false; b_ops := [FBasic (BGet 0); FIf [] [TI32]; FBasic (BConst (VI32 1%Z)); FElse; FBasic (BConst (VI32 0%Z)); FEnd; FIf [] [TI32]; FCall 0; FBasic (BConst (VI32 2%Z)); FElse; FCall 0; FBasic (BConst (VI32 3%Z)); FEnd; FEnd]; b_bad := false |};
    PCode {| b_locals := []; b_badlocals := false; b_ops := [FBlock false [] [TI32]; FBasic (BGet 0); FIf [] [TI32]; FCall 0; FBasic (BConst (VI32 1%Z)); FElse; FCall 0; FBasic (BConst (VI32 0%Z)); FEnd; FBasic (BConst (VI32 2%Z)); FBrIf 0; FBasic (BConst (VI32 3%Z)); FReturn; FEnd; FEnd]; b_bad := false |};
    PCode {| b_locals := []; b_badlocals := false; b_ops := [FBlock false [] [TI32]; FBasic (BConst (VI32 2%Z)); FBasic (BGet 0); FIf [] [TI32]; FCall 0; FBasic (BConst (VI32 1%Z)); FElse; FCall 0; FBasic (BConst (VI32 0%Z)); FEnd; FBrIf 0; FBasic (BConst (VI32 3%Z)); FReturn; FEnd; FEnd]; b_bad := false |};
    PCode {| b_locals := []; b_badlocals := false; b_ops := [FBlock false [] [TI32]; FBasic (BGet 0); FIf [] [TI32]; FCall 0; FBasic (BConst (VI32 1%Z)); FElse; FCall 0; FBasic (BConst (VI32 0%Z)); FEnd; FBasic (BConst (VI32 2%Z)); FBrTable [0] 0; FEnd; FEnd]; b_bad := false |};
    PCode {| b_locals := []; b_badlocals := false; b_ops := [FBlock false [] [TI32]; FBasic (BConst (VI32 2%Z)); FBasic (BGet 0); FIf [] [TI32]; FCall 0; FBasic (BConst (VI32 1%Z)); FElse; FCall 0; FBasic (BConst (VI32 0%Z)); FEnd; FBrTable [0] 0; FEnd; FEnd]; b_bad := false |};
    PCode {| b_locals := []; b_badlocals := false; b_ops := [FBasic (BGet 0); FEnd]; b_bad := false |};
    PCode {| b_locals := []; b_badlocals := false; b_ops := [FBlock false [] [TI32]; FBasic (BGet 0); FIf [] [TI32]; FCall 0; FBasic (BConst (VI32 1%Z)); FElse; FCall 0; FBasic (BConst (VI32 0%Z)); FEnd; FBasic (BConst (VI32 2%Z)); FBasic (BConst (VI32 0%Z)); FCallInd 0 0; FEnd; FEnd]; b_bad := false |};
    PCode {| b_locals := []; b_badlocals := false; b_ops := [FBlock false [] [TI32]; FBasic (BConst (VI32 2%Z)); FBasic (BGet 0); FIf [] [TI32]; FCall 0; FBasic (BConst (VI32 1%Z)); FElse; FCall 0; FBasic (BConst (VI32 0%Z)); FEnd; FBasic (BConst (VI32 0%Z)); FCallInd 0 0; FEnd; FEnd]; b_bad := false |};
    PCode {| b_locals := []; b_badlocals := false; b_ops := [FBlock false [] [TI32]; FBasic (BConst (VI32 2%Z)); FBasic (BConst (VI32 0%Z)); FBasic (BGet 0); FIf [] [TI32]; FCall 0; FBasic (BConst (VI32 1%Z)); FElse; FCall 0; FBasic (BConst (VI32 0%Z)); FEnd; FCallInd 0 0; FEnd; FEnd]; b_bad := false |};
    PCode {| b_locals := []; b_badlocals := false; b_ops := [FBasic (BGet 0); FIf [] [TI32]; FCall 0; FBasic (BConst (VI32 1%Z)); FElse; FCall 0; FBasic (BConst (VI32 0%Z)); FEnd; FBasic (BConst (VI32 2%Z)); FBasic (BOp (SStore SI32 0%Z)); FEnd]; b_bad := false |};
    PCode {| b_locals := []; b_badlocals := false; b_ops := [FBasic (BConst (VI32 2%Z)); FBasic (BGet 0); FIf [] [TI32]; FCall 0; FBasic (BConst (VI32 1%Z)); FElse; FCall 0; FBasic (BConst (VI32 0%Z)); FEnd; FBasic (BOp (SStore SI32 0%Z)); FEnd]; b_bad := false |};
    PCode {| b_locals := []; b_badlocals := false; b_ops := [FBasic (BGet 0); FIf [] [TI32]; FBasic (BConst (VI32 1%Z)); FElse; FBasic (BConst (VI32 0%Z)); FEnd; FBasic (BOp SMemGrow); FEnd]; b_bad := false |};
    PCode {| b_locals := []; b_badlocals := false; b_ops := [FBasic (BGet 0); FEnd]; b_bad := false |};
    PCode {| b_locals := []; b_badlocals := false; b_ops := [FBasic (BGet 0); FIf [] [TI32]; FBasic (BConst (VI32 1%Z)); FElse; FBasic (BConst (VI32 0%Z)); FEnd; FCall 22; FEnd]; b_bad := false |};
    PCode {| b_locals := []; b_badlocals := false; b_ops := [FBasic (BGet 0); FIf [] [TI32]; FBasic (BConst (VI32 1%Z)); FElse; FBasic (BConst (VI32 0%Z)); FEnd; FReturn; FEnd]; b_bad := false |};
    PCode {| b_locals := []; b_badlocals := false; b_ops := [FBasic (BGet 0); FIf [] [TI32]; FBasic (BConst (VI32 1%Z)); FElse; FBasic (BConst (VI32 0%Z)); FEnd; FBasic BDrop; FEnd]; b_bad := false |};
    PCode {| b_locals := []; b_badlocals := false; b_ops := [FBlock false [] [TI32]; FBasic (BGet 0); FIf [] [TI32]; FBasic (BConst (VI32 1%Z)); FElse; FBasic (BConst (VI32 0%Z)); FEnd; FBr 0; FEnd; FEnd]; b_bad := false |};
    PCode {| b_locals := [TI32]; b_badlocals := false; b_ops := [FBasic (BGet 0); FIf [] [TI32]; FBasic (BConst (VI32 1%Z)); FElse; FBasic (BConst (VI32 0%Z)); FEnd; FBasic (BSet 0); FBasic (BGet 0); FEnd]; b_bad := false |};
    PCode {| b_locals := []; b_badlocals := false; b_ops := [FBasic (BGet 0); FIf [] [TI32]; FBasic (BConst (VI32 1%Z)); FElse; FBasic (BConst (VI32 0%Z)); FEnd; FBasic (BTee 0); FEnd]; b_bad := false |};
    PCode {| b_locals := []; b_badlocals := false; b_ops := [FBasic (BGet 0); FIf [] [TI32]; FBasic (BConst (VI32 1%Z)); FElse; FBasic (BConst (VI32 0%Z)); FEnd; FBasic (BOp (SGlobalSet TI32 0)); FBasic (BOp (SGlobalGet TI32 0)); FEnd]; b_bad := false |};
    PCode {| b_locals := []; b_badlocals := false; b_ops := [FBasic (BGet 0); FIf [] [TI32]; FBasic (BConst (VI32 11%Z)); FElse; FBasic (BConst (VI32 10%Z)); FEnd; FBasic (BOp (SLoad LI32 0%Z)); FEnd]; b_bad := false |};
    PCode {| b_locals := []; b_badlocals := false; b_ops := [FBasic (BGet 0); FIf [] [TI32]; FCall 0; FBasic (BConst (VI32 13%Z)); FElse; FCall 0; FBasic (BConst (VI32 (-13)%Z)); FEnd; FBasic (BOp (SNum1 (U_int W32 Ictz))); FEnd]; b_bad := false |};
    PCode {| b_locals := []; b_badlocals := false; b_ops := [FBasic (BGet 0); FIf [] [TI32]; FCall 0; FBasic (BConst (VI32 3%Z)); FElse; FCall 0; FBasic (BConst (VI32 (-3)%Z)); FEnd; FBasic (BGet 1); FIf [] [TI32]; FCall 0; FBasic (BConst (VI32 4%Z)); FElse; FCall 0; FBasic (BConst (VI32 (-5)%Z)); FEnd; FBasic (BOp (SNum2 (B_int W32 Imul))); FEnd]; b_bad := false |};
    PCode {| b_locals := []; b_badlocals := false; b_ops := [FBasic (BGet 0); FIf [] [TI32]; FCall 0; FBasic (BConst (VI32 13%Z)); FElse; FCall 0; FBasic (BConst (VI32 0%Z)); FEnd; FBasic (BOp (SNum1 (U_eqz W32))); FEnd]; b_bad := false |};
    PCode {| b_locals := []; b_badlocals := false; b_ops := [FBasic (BGet 0); FIf [] [TF32]; FCall 0; FBasic (BConst (VF32 1077936128%Z)); FElse; FCall 0; FBasic (BConst (VF32 3225419776%Z)); FEnd; FBasic (BGet 1); FIf [] [TF32]; FCall 0; FBasic (BConst (VF32 1082130432%Z)); FElse; FCall 0; FBasic (BConst (VF32 3229614080%Z)); FEnd; FBasic (BOp (SNum2 (B_frel FT32 Fgt))); FEnd]; b_bad := false |};
    PCode {| b_locals := []; b_badlocals := false; b_ops := [FBasic (BGet 0); FIf [] [TI32; TI32]; FCall 0; FBasic (BConst (VI32 3%Z)); FCall 0; FBasic (BConst (VI32 4%Z)); FElse; FCall 0; FBasic (BConst (VI32 3%Z)); FCall 0; FBasic (BConst (VI32 (-4)%Z)); FEnd; FBasic (BOp (SNum2 (B_int W32 Imul))); FEnd]; b_bad := false |};
    PCode {| b_locals := []; b_badlocals := false; b_ops := [FBasic (BGet 0); FIf [] [TF32; TF32]; FCall 0; FBasic (BConst (VF32 1077936128%Z)); FCall 0; FBasic (BConst (VF32 1077936128%Z)); FElse; FCall 0; FBasic (BConst (VF32 3221225472%Z)); FCall 0; FBasic (BConst (VF32 3225419776%Z)); FEnd; FBasic (BOp (SNum2 (B_frel FT32 Fgt))); FEnd]; b_bad := false |};
    PCode {| b_locals := []; b_badlocals := false; b_ops := [FBasic (BGet 0); FIf [] [TI32; TI32]; FCall 0; FBasic (BConst (VI32 3%Z)); FCall 0; FBasic (BConst (VI32 4%Z)); FElse; FCall 0; FBasic (BConst (VI32 (-3)%Z)); FCall 0; FBasic (BConst (VI32 (-4)%Z)); FEnd; FBasic (BConst (VI32 5%Z)); FBasic (BOp (SNum2 (B_int W32 Iadd))); FBasic (BOp (SNum2 (B_int W32 Imul))); FEnd]; b_bad := false |};
    PCode {| b_locals := []; b_badlocals := false; b_ops := [FBasic (BConst (VI32 1%Z)); FIf [] []; FBr 0; FUnreachable; FEnd; FBasic (BConst (VI32 1%Z)); FIf [] []; FBr 0; FUnreachable; FElse; FUnreachable; FEnd; FBasic (BConst (VI32 0%Z)); FIf [] []; FUnreachable; FElse; FBr 0; FUnreachable; FEnd; FBasic (BConst (VI32 1%Z)); FIf [] []; FBasic (BConst (VI32 1%Z)); FBrIf 0; FUnreachable; FEnd; FBasic (BConst (VI32 1%Z)); FIf [] []; FBasic (BConst (VI32 1%Z)); FBrIf 0; FUnreachable; FElse; FUnreachable; FEnd; FBasic (BConst (VI32 0%Z)); FIf [] []; FUnreachable; FElse; FBasic (BConst (VI32 1%Z)); FBrIf 0; FUnreachable; FEnd; FBasic (BConst (VI32 1%Z)); FIf [] []; FBasic (BConst (VI32 0%Z)); FBrTable [] 0; FUnreachable; FEnd; FBasic (BConst (VI32 1%Z)); FIf [] []; FBasic (BConst (VI32 0%Z)); FBrTable [] 0; FUnreachable; FElse; FUnreachable; FEnd; FBasic (BConst (VI32 0%Z)); FIf [] []; FUnreachable; FElse; FBasic (BConst (VI32 0%Z)); FBrTable [] 0; FUnreachable; FEnd; FBasic (BConst (VI32 19%Z)); FEnd]; b_bad := false |};
    PCode {| b_locals := []; b_badlocals := false; b_ops := [FBasic (BGet 0); FIf [] [TI32]; FBasic (BConst (VI32 18%Z)); FBr 0; FBasic (BConst (VI32 19%Z)); FElse; FBasic (BConst (VI32 21%Z)); FBr 0; FBasic (BConst (VI32 20%Z)); FEnd; FEnd]; b_bad := false |};
    PCode {| b_locals := []; b_badlocals := false; b_ops := [FBasic (BConst (VI32 1%Z)); FBasic (BGet 0); FIf [TI32] [TI32]; FBasic (BConst (VI32 2%Z)); FBasic (BOp (SNum2 (B_int W32 Iadd))); FElse; FBasic (BConst (VI32 (-2)%Z)); FBasic (BOp (SNum2 (B_int W32 Iadd))); FEnd; FEnd]; b_bad := false |};
    PCode {| b_locals := []; b_badlocals := false; b_ops := [FBasic (BConst (VI32 1%Z)); FBasic (BConst (VI32 2%Z)); FBasic (BGet 0); FIf [TI32; TI32] [TI32]; FBasic (BOp (SNum2 (B_int W32 Iadd))); FElse; FBasic (BOp (SNum2 (B_int W32 Isub))); FEnd; FEnd]; b_bad := false |};
    PCode {| b_locals := []; b_badlocals := false; b_ops := [FBasic (BConst (VI32 1%Z)); FBasic (BConst (VI32 2%Z)); FBasic (BGet 0); FIf [TI32; TI32] [TI32; TI32]; FEnd; FBasic (BOp (SNum2 (B_int W32 Iadd))); FEnd]; b_bad := false |};
    PCode {| b_locals := []; b_badlocals := false; b_ops := [FBasic (BConst (VI32 1%Z)); FBasic (BGet 0); FIf [TI32] [TI32]; FBasic (BConst (VI32 2%Z)); FBasic (BOp (SNum2 (B_int W32 Iadd))); FBr 0; FElse; FBasic (BConst (VI32 (-2)%Z)); FBasic (BOp (SNum2 (B_int W32 Iadd))); FBr 0; FEnd; FEnd]; b_bad := false |};
    PCode {| b_locals := []; b_badlocals := false; b_ops := [FBasic (BConst (VI32 1%Z)); FBasic (BConst (VI32 2%Z)); FBasic (BGet 0); FIf [TI32; TI32] [TI32]; FBasic (BOp (SNum2 (B_int W32 Iadd))); FBr 0; FElse; FBasic (BOp (SNum2 (B_int W32 Isub))); FBr 0; FEnd; FEnd]; b_bad := false |};
    PCode {| b_locals := []; b_badlocals := false; b_ops := [FBasic (BConst (VI32 1%Z)); FBasic (BConst (VI32 2%Z)); FBasic (BGet 0); FIf [TI32; TI32] [TI32; TI32]; FBr 0; FEnd; FBasic (BOp (SNum2 (B_int W32 Iadd))); FEnd]; b_bad := false |};
    PCode {| b_locals := [TI32]; b_badlocals := false; b_ops := [FBlock false [] [TI32]; FBasic (BConst (VI32 1%Z)); FBasic (BSet 1); FBasic (BGet 0); FEnd; FIf [] []; FBasic (BGet 1); FBasic (BConst (VI32 3%Z)); FBasic (BOp (SNum2 (B_int W32 Imul))); FBasic (BSet 1); FBasic (BGet 1); FBasic (BConst (VI32 5%Z)); FBasic (BOp (SNum2 (B_int W32 Isub))); FBasic (BSet 1); FBasic (BGet 1); FBasic (BConst (VI32 7%Z)); FBasic (BOp (SNum2 (B_int W32 Imul))); FBasic (BSet 1); FBr 0; FBasic (BGet 1); FBasic (BConst (VI32 100%Z)); FBasic (BOp (SNum2 (B_int W32 Imul))); FBasic (BSet 1); FElse; FBasic (BGet 1); FBasic (BConst (VI32 5%Z)); FBasic (BOp (SNum2 (B_int W32 Imul))); FBasic (BSet 1); FBasic (BGet 1); FBasic (BConst (VI32 7%Z)); FBasic (BOp (SNum2 (B_int W32 Isub))); FBasic (BSet 1); FBasic (BGet 1); FBasic (BConst (VI32 3%Z)); FBasic (BOp (SNum2 (B_int W32 Imul))); FBasic (BSet 1); FBr 0; FBasic (BGet 1); FBasic (BConst (VI32 1000%Z)); FBasic (BOp (SNum2 (B_int W32 Imul))); FBasic (BSet 1); FEnd; FBasic (BGet 1); FEnd]; b_bad := false |} ].
Definition w_labels : list payload :=
  [ PVersion 1;
    PTypes [Some ([], [TI32]); Some ([TI32], [TI32])];
    PFuncs [Some 0; Some 0; Some 0; Some 0; Some 1; Some 0; Some 0; Some 0; Some 0; Some 1; Some 1; Some 0; Some 0; Some 0; Some 0; Some 0; Some 0; Some 0];
    PExports [Some ("block", ExFunc 0); Some ("loop1", ExFunc 1); Some ("loop2", ExFunc 2); Some ("loop3", ExFunc 3); Some ("loop4", ExFunc 4); Some ("loop5", ExFunc 5); Some ("loop6", ExFunc 6); Some ("if", ExFunc 7); Some ("if2", ExFunc 8); Some ("switch", ExFunc 9); Some ("return", ExFunc 10); Some ("br_if0", ExFunc 11); Some ("br_if1", ExFunc 12); Some ("br_if2", ExFunc 13); Some ("br_if3", ExFunc 14); Some ("br", ExFunc 15); Some ("shadowing", ExFunc 16); Some ("redefinition", ExFunc 17)];
    PCode {| b_locals := []; b_badlocals := false; b_ops := [FBlock false [] [TI32]; FBasic (BConst (VI32 1%Z)); FBr 0; FBasic (BConst (VI32 0%Z)); FEnd; FEnd]; b_bad := false |};
    PCode {| b_locals := [TI32]; b_badlocals := false; b_ops := [FBasic (BConst (VI32 0%Z)); FBasic (BSet 0); FBlock false [] [TI32]; FBlock true [] [TI32]; FBasic (BGet 0); FBasic (BConst (VI32 1%Z)); FBasic (BOp (SNum2 (B_int W32 Iadd))); FBasic (BSet 0); FBasic (BGet 0); FBasic (BConst (VI32 5%Z)); FBasic (BOp (SNum2 (B_irel W32 Ieq))); FIf [] []; FBasic (BGet 0); FBr 2; FEnd; FBr 0; FEnd; FEnd; FEnd]; b_bad := false |};
    PCode {| b_locals := [TI32]; b_badlocals := false; b_ops := [FBasic (BConst (VI32 0%Z)); FBasic (BSet 0); FBlock false [] [TI32]; FBlock true [] [TI32]; FBasic (BGet 0); FBasic (BConst (VI32 1%Z)); FBasic (BOp (SNum2 (B_int W32 Iadd))); FBasic (BSet 0); FBasic (BGet 0); FBasic (BConst (VI32 5%Z)); FBasic (BOp (SNum2 (B_irel W32 Ieq))); FIf [] []; FBr 1; FEnd; FBasic (BGet 0); FBasic (BConst (VI32 8%Z)); FBasic (BOp (SNum2 (B_irel W32 Ieq))); FIf [] []; FBasic (BGet 0); FBr 2; FEnd; FBasic (BGet 0); FBasic (BConst (VI32 1%Z)); FBasic (BOp (SNum2 (B_int W32 Iadd))); FBasic (BSet 0); FBr 0; FEnd; FEnd; FEnd]; b_bad := false |};
    PCode {| b_locals := [TI32]; b_badlocals := false; b_ops := [FBasic (BConst (VI32 0%Z)); FBasic (BSet 0); FBlock false [] [TI32]; FBlock true [] [TI32]; FBasic (BGet 0); FBasic (BConst (VI32 1%Z)); FBasic (BOp (SNum2 (B_int W32 Iadd))); FBasic (BSet 0); FBasic (BGet 0); FBasic (BConst (VI32 5%Z)); FBasic (BOp (SNum2 (B_irel W32 Ieq))); FIf [] []; FBasic (BGet 0); FBr 2; FEnd; FBasic (BGet 0); FEnd; FEnd; FEnd]; b_bad := false |};
    PCode {| b_locals := [TI32]; b_badlocals := false; b_ops := [FBasic (BConst (VI32 1%Z)); FBasic (BSet 1); FBlock false [] [TI32]; FBlock true [] [TI32]; FBasic (BGet 1); FBasic (BGet 1); FBasic (BOp (SNum2 (B_int W32 Iadd))); FBasic (BSet 1); FBasic (BGet 1); FBasic (BGet 0); FBasic (BOp (SNum2 (B_irel W32 Igt_u))); FIf [] []; FBasic (BGet 1); FBr 2; FEnd; FBr 0; FEnd; FEnd; FEnd]; b_bad := false |};
    PCode {| b_locals := []; b_badlocals := false; b_ops := [FBlock true [] [TI32]; FBasic (BConst (VI32 1%Z)); FEnd; FBasic (BConst (VI32 1%Z)); FBasic (BOp (SNum2 (B_int W32 Iadd))); FEnd]; b_bad := false |};
    PCode {| b_locals := []; b_badlocals := false; b_ops := [FBlock true [] [TI32]; FBasic (BConst (VI32 0%Z)); FBrIf 0; FBasic (BConst (VI32 3%Z)); FEnd; FEnd]; b_bad := false |};
    PCode {| b_locals := [TI32]; b_badlocals := false; b_ops := [FBasic (BConst (VI32 0%Z)); FBasic (BSet 0); FBlock false [] []; FBasic (BConst (VI32 1%Z)); FIf [] []; FBr 0; FBasic (BConst (VI32 666%Z)); FBasic (BSet 0); FEnd; FBasic (BGet 0); FBasic (BConst (VI32 1%Z)); FBasic (BOp (SNum2 (B_int W32 Iadd))); FBasic (BSet 0); FBasic (BConst (VI32 1%Z)); FIf [] []; FBr 0; FBasic (BConst (VI32 666%Z)); FBasic (BSet 0); FElse; FBasic (BConst (VI32 888%Z)); FBasic (BSet 0); FEnd; FBasic (BGet 0); FBasic (BConst (VI32 1%Z)); FBasic (BOp (SNum2 (B_int W32 Iadd))); FBasic (BSet 0); FBasic (BConst (VI32 1%Z)); FIf [] []; FBr 0; FBasic (BConst (VI32 666%Z)); FBasic (BSet 0); FElse; FBasic (BConst (VI32 888%Z)); FBasic (BSet 0); FEnd; FBasic (BGet 0); FBasic (BConst (VI32 1%Z)); FBasic (BOp (SNum2 (B_int W32 Iadd))); FBasic (BSet 0); FBasic (BConst (VI32 0%Z)); FIf [] []; FBasic (BConst (VI32 888%Z)); FBasic (BSet 0); FElse; FBr 0; FBasic (BConst (VI32 666%Z)); FBasic (BSet 0); FEnd; FBasic (BGet 0); FBasic (BConst (VI32 1%Z)); FBasic (BOp (SNum2 (B_int W32 Iadd))); FBasic (BSet 0); FBasic (BConst (VI32 0%Z)); FIf [] []; FBasic (BConst (VI32 888%Z)); FBasic (BSet 0); FElse; FBr 0; FBasic (BConst (VI32 666%Z)); FBasic (BSet 0); FEnd; FBasic (BGet 0); FBasic (BConst (VI32 1%Z)); FBasic (BOp (SNum2 (B_int W32 Iadd))); FBasic (BSet 0); FEnd; FBasic (BGet 0); FEnd]; b_bad := false |};
    PCode {| b_locals := [TI32]; b_badlocals := false; b_ops := [FBasic (BConst (VI32 0%Z)); FBasic (BSet 0); FBlock false [] []; FBasic (BConst (VI32 1%Z)); FIf [] []; FBr 0; FBasic (BConst (VI32 666%Z)); FBasic (BSet 0); FEnd; FBasic (BGet 0); FBasic (BConst (VI32 1%Z)); FBasic (BOp (SNum2 (B_int W32 Iadd))); FBasic (BSet 0); FBasic (BConst (VI32 1%Z)); FIf [] []; FBr 0; FBasic (BConst (VI32 666%Z)); FBasic (BSet 0); FElse; FBasic (BConst (VI32 888%Z)); FBasic (BSet 0); FEnd; FBasic (BGet 0); FBasic (BConst (VI32 1%Z)); FBasic (BOp (SNum2 (B_int W32 Iadd))); FBasic (BSet 0); FBasic (BConst (VI32 1%Z)); FIf [] []; FBr 0; FBasic (BConst (VI32 666%Z)); FBasic (BSet 0); FElse; FBasic (BConst (VI32 888%Z)); FBasic (BSet 0); FEnd; FBasic (BGet 0); FBasic (BConst (VI32 1%Z)); FBasic (BOp (SNum2 (B_int W32 Iadd))); FBasic (BSet 0); FBasic (BConst (VI32 0%Z)); FIf [] []; FBasic (BConst (VI32 888%Z)); FBasic (BSet 0); FElse; FBr 0; FBasic (BConst (VI32 666%Z)); FBasic (BSet 0); FEnd; FBasic (BGet 0); FBasic (BConst (VI32 1%Z)); FBasic (BOp (SNum2 (B_int W32 Iadd))); FBasic (BSet 0); FBasic (BConst (VI32 0%Z)); FIf [] []; FBasic (BConst (VI32 888%Z)); FBasic (BSet 0); FElse; FBr 0; FBasic (BConst (VI32 666%Z)); FBasic (BSet 0); FEnd; FBasic (BGet 0); FBasic (BConst (VI32 1%Z)); FBasic (BOp (SNum2 (B_int W32 Iadd))); FBasic (BSet 0); FEnd; FBasic (BGet 0); FEnd]; b_bad := false |};
    PCode {| b_locals := []; b_badlocals := false; b_ops := [FBlock false [] [TI32]; FBasic (BConst (VI32 10%Z)); FBlock false [] [TI32]; FBlock false [] []; FBlock false [] []; FBlock false [] []; FBlock false [] []; FBlock false [] []; FBasic (BGet 0); FBrTable [4; 0; 1; 2] 3; FEnd; FEnd; FBasic (BConst (VI32 2%Z)); FBr 3; FEnd; FBasic (BConst (VI32 3%Z)); FBr 3; FEnd; FEnd; FBasic (BConst (VI32 5%Z)); FEnd; FBasic (BOp (SNum2 (B_int W32 Imul))); FEnd; FEnd]; b_bad := false |};
    PCode {| b_locals := []; b_badlocals := false; b_ops := [FBlock false [] []; FBlock false [] []; FBlock false [] []; FBasic (BGet 0); FBrTable [0] 1; FBr 2; FEnd; FBasic (BConst (VI32 0%Z)); FReturn; FEnd; FEnd; FBasic (BConst (VI32 2%Z)); FEnd]; b_bad := false |};
    PCode {| b_locals := [TI32]; b_badlocals := false; b_ops := [FBasic (BConst (VI32 0%Z)); FBasic (BSet 0); FBlock false [] [TI32]; FBlock false [] []; FBasic (BConst (VI32 0%Z)); FBrIf 0; FBasic (BGet 0); FBasic (BConst (VI32 1%Z)); FBasic (BOp (SNum2 (B_int W32 Ior))); FBasic (BSet 0); FBasic (BConst (VI32 1%Z)); FBrIf 0; FBasic (BGet 0); FBasic (BConst (VI32 2%Z)); FBasic (BOp (SNum2 (B_int W32 Ior))); FBasic (BSet 0); FEnd; FBlock false [] [TI32]; FBasic (BGet 0); FBasic (BConst (VI32 4%Z)); FBasic (BOp (SNum2 (B_int W32 Ior))); FBasic (BSet 0); FBasic (BGet 0); FEnd; FBasic (BConst (VI32 0%Z)); FBrIf 0; FBasic BDrop; FBasic (BGet 0); FBasic (BConst (VI32 8%Z)); FBasic (BOp (SNum2 (B_int W32 Ior))); FBasic (BSet 0); FBlock false [] [TI32]; FBasic (BGet 0); FBasic (BConst (VI32 16%Z)); FBasic (BOp (SNum2 (B_int W32 Ior))); FBasic (BSet 0); FBasic (BGet 0); FEnd; FBasic (BConst (VI32 1%Z)); FBrIf 0; FBasic BDrop; FBasic (BGet 0); FBasic (BConst (VI32 32%Z)); FBasic (BOp (SNum2 (B_int W32 Ior))); FBasic (BSet 0); FBasic (BGet 0); FEnd; FEnd]; b_bad := false |};
    PCode {| b_locals := []; b_badlocals := false; b_ops := [FBlock false [] [TI32]; FBlock false [] [TI32]; FBasic (BConst (VI32 1%Z)); FBr 0; FEnd; FBasic (BConst (VI32 1%Z)); FBrIf 0; FBasic BDrop; FBasic (BConst (VI32 0%Z)); FEnd; FEnd]; b_bad := false |};
    PCode {| b_locals := []; b_badlocals := false; b_ops := [FBlock false [] [TI32]; FBasic (BConst (VI32 1%Z)); FIf [] []; FBlock false [] [TI32]; FBasic (BConst (VI32 1%Z)); FBr 0; FEnd; FBasic (BConst (VI32 1%Z)); FBrIf 1; FBasic BDrop; FEnd; FBasic (BConst (VI32 0%Z)); FEnd; FEnd]; b_bad := false |};
    PCode {| b_locals := [TI32]; b_badlocals := false; b_ops := [FBlock false [] [TI32]; FBlock false [] [TI32]; FBasic (BConst (VI32 1%Z)); FBasic (BSet 0); FBasic (BGet 0); FEnd; FBlock false [] [TI32]; FBasic (BConst (VI32 2%Z)); FBasic (BSet 0); FBasic (BGet 0); FEnd; FBrIf 0; FBasic BDrop; FBasic (BConst (VI32 0%Z)); FEnd; FBasic (BConst (VI32 0%Z)); FBasic (BOp (SNum2 (B_int W32 Iadd))); FBasic BDrop; FBasic (BGet 0); FEnd]; b_bad := false |};
    PCode {| b_locals := []; b_badlocals := false; b_ops := [FBlock false [] [TI32]; FBasic (BConst (VI32 1%Z)); FIf [] []; FBlock false [] [TI32]; FBasic (BConst (VI32 1%Z)); FBr 0; FEnd; FBr 1; FElse; FBlock false [] []; FBlock false [] [TI32]; FBasic (BConst (VI32 1%Z)); FBr 0; FEnd; FBasic BDrop; FEnd; FEnd; FBasic (BConst (VI32 1%Z)); FEnd; FEnd]; b_bad := false |};
    PCode {| b_locals := []; b_badlocals := false; b_ops := [FBlock false [] [TI32]; FBasic (BConst (VI32 1%Z)); FBr 0; FBasic (BConst (VI32 2%Z)); FBasic (BOp (SNum2 (B_int W32 Ixor))); FEnd; FEnd]; b_bad := false |};
    PCode {| b_locals := []; b_badlocals := false; b_ops := [FBlock false [] [TI32]; FBlock false [] [TI32]; FBasic (BConst (VI32 2%Z)); FEnd; FBlock false [] [TI32]; FBasic (BConst (VI32 3%Z)); FBr 0; FEnd; FBasic (BOp (SNum2 (B_int W32 Iadd))); FEnd; FEnd]; b_bad := false |} ].
Definition w_loop : list payload :=
  [ PVersion 1;
    PTypes [Some ([TI32; TI32], [TI32]); Some ([], []); Some ([], [TI32]); Some ([TI32], []); Some ([TI32; TF64; TI32], [TI32; TF64; TI32]); Some ([], [TI32; TI64; TI32]); Some ([TI32], [TI32]); Some ([], [TI32; TI32]); Some ([], [TF32; TF32]); Some ([], [TI32; TI32; TI64]); Some ([TI32; TI32; TI64], []); Some ([TI32; TI32], [TI32; TI32]); Some ([TI64], [TI64]); Some ([TF32; TF32], [TF32])];
    PFuncs [Some 1; Some 1; Some 2; Some 2; Some 2; Some 2; Some 2; Some 2; Some 2; Some 1; Some 2; Some 2; Some 2; Some 2; Some 2; Some 2; Some 0; Some 2; Some 2; Some 2; Some 1; Some 1; Some 2; Some 6; Some 2; Some 2; Some 1; Some 2; Some 2; Some 2; Some 2; Some 2; Some 2; Some 2; Some 2; Some 2; Some 2; Some 2; Some 2; Some 2; Some 2; Some 9; Some 2; Some 2; Some 2; Some 2; Some 2; Some 2; Some 2; Some 2; Some 2; Some 2; Some 12; Some 12; Some 13; Some 1];
    PTables [Some 1%Z];
    PMems [Some (1%Z, None)];
    PGlobals [Some [CVal (VI32 0%Z)]];
    PExports [Some ("empty", ExFunc 1); Some ("singular", ExFunc 2); Some ("multi", ExFunc 3); Some ("nested", ExFunc 4); Some ("deep", ExFunc 5); Some ("as-select-first", ExFunc 6); Some ("as-select-mid", ExFunc 7); Some ("as-select-last", ExFunc 8); Some ("as-if-condition", ExFunc 9); Some ("as-if-then", ExFunc 10); Some ("as-if-else", ExFunc 11); Some ("as-br_if-first", ExFunc 12); Some ("as-br_if-last", ExFunc 13); Some ("as-br_table-first", ExFunc 14); Some ("as-br_table-last", ExFunc 15); Some ("as-call_indirect-first", ExFunc 17); Some ("as-call_indirect-mid", ExFunc 18); Some ("as-call_indirect-last", ExFunc 19); Some ("as-store-first", ExFunc 20); Some ("as-store-last", ExFunc 21); Some ("as-memory.grow-value", ExFunc 22); Some ("as-call-value", ExFunc 24); Some ("as-return-value", ExFunc 25); Some ("as-drop-operand", ExFunc 26); Some ("as-br-value", ExFunc 27); Some ("as-local.set-value", ExFunc 28); Some ("as-local.tee-value", ExFunc 29); Some ("as-global.set-value", ExFunc 30); Some ("as-load-operand", ExFunc 31); Some ("as-unary-operand", ExFunc 32); Some ("as-binary-operand", ExFunc 33); Some ("as-test-operand", ExFunc 34); Some ("as-compare-operand", ExFunc 35); Some ("as-binary-operands", ExFunc 36); Some ("as-compare-operands", ExFunc 37); Some ("as-mixed-operands", ExFunc 38); Some ("break-bare", ExFunc 39); Some ("break-value", ExFunc 40); Some ("break-multi-value", ExFunc 41); Some ("break-repeated", ExFunc 42); Some ("break-inner", ExFunc 43); Some ("cont-inner", ExFunc 44); Some ("param", ExFunc 45); Some ("params", ExFunc 46); Some ("params-id", ExFunc 47); Some ("param-break", ExFunc 48); Some ("params-break", ExFunc 49); Some ("params-id-break", ExFunc 50); Some ("effects", ExFunc 51); Some ("while", ExFunc 52); Some ("for", ExFunc 53); Some ("nesting", ExFunc 54); Some ("type-use", ExFunc 55)];
    PElems [Some {| e_extern := false; e_idxes := Some [16]; e_init := None; e_mode := MActive 0 [CVal (VI32 0%Z)] |}];
    PCode {| b_locals := []; b_badlocals := false; b_ops := [FEnd]; b_bad := false |};
    PCode {| b_locals := []; b_badlocals := false; b_ops := [FBlock true [] []; FEnd; FBlock true [] []; FEnd; FEnd]; b_bad := false |};
    PCode {| b_locals := []; b_badlocals := false; b_ops := [FBlock true [] []; FBasic BNop; FEnd; FBlock true [] [TI32]; FBasic (BConst (VI32 7%Z)); FEnd; FEnd]; b_bad := false |};
    PCode {| b_locals := []; b_badlocals := false; b_ops := [FBlock true [] []; FCall 0; FCall 0; FCall 0; FCall 0; FEnd; FBlock true [] [TI32]; FCall 0; FCall 0; FBasic (BConst (VI32 8%Z)); FCall 0; FEnd; FBasic BDrop; FBlock true [] [TI32; TI64; TI32]; FCall 0; FCall 0; FCall 0; FBasic (BConst (VI32 8%Z)); FCall 0; FCall 0; FCall 0; FCall 0; FBasic (BConst (VI64 7%Z)); FCall 0; FCall 0; FCall 0; FCall 0; FBasic (BConst (VI32 9%Z)); FCall 0; FEnd; FBasic BDrop; FBasic BDrop; FEnd]; b_bad := false |};
    PCode {| b_locals := []; b_badlocals := false; b_ops := [FBlock true [] [TI32]; FBlock true [] []; FCall 0; FBlock false [] []; FEnd; FBasic BNop; FEnd; FBlock true [] [TI32]; FCall 0; FBasic (BConst (VI32 9%Z)); FEnd; FEnd; FEnd]; b_bad := false |};
    PCode {| b_locals := []; b_badlocals := false; b_ops := [FBlock true [] [TI32]; FBlock false [] [TI32]; FBlock true [] [TI32]; FBlock false [] [TI32]; FBlock true [] [TI32]; FBlock false [] [TI32]; FBlock true [] [TI32]; FBlock false [] [TI32]; FBlock true [] [TI32]; FBlock false [] [TI32]; FBlock true [] [TI32]; FBlock false [] [TI32]; FBlock true [] [TI32]; FBlock false [] [TI32]; FBlock true [] [TI32]; FBlock false [] [TI32]; FBlock true [] [TI32]; FBlock false [] [TI32]; FBlock true [] [TI32]; FBlock false [] [TI32]; FBlock true [] [TI32]; FBlock false [] [TI32]; FBlock true [] [TI32]; FBlock false [] [TI32]; FBlock true [] [TI32]; FBlock false [] [TI32]; FBlock true [] [TI32]; FBlock false [] [TI32]; FBlock true [] [TI32]; FBlock false [] [TI32]; FBlock true [] [TI32]; FBlock false [] [TI32]; FBlock true [] [TI32]; FBlock false [] [TI32]; FBlock true [] [TI32]; FBlock false [] [TI32]; FBlock true [] [TI32]; FBlock false [] [TI32]; FBlock true [] [TI32]; FBlock false [] [TI32]; FCall 0; FBasic (BConst (VI32 150%Z)); FEnd; FEnd; FEnd; FEnd; FEnd; FEnd; FEnd; FEnd; FEnd; FEnd; FEnd; FEnd; FEnd; FEnd; FEnd; FEnd; FEnd; FEnd; FEnd; FEnd; FEnd; FEnd; FEnd; FEnd; FEnd; FEnd; FEnd; FEnd; FEnd; FEnd; FEnd; FEnd; FEnd; FEnd; FEnd; FEnd; FEnd; FEnd; FEnd; FEnd; FEnd]; b_bad := false |};
    PCode {| b_locals := []; b_badlocals := false; b_ops := [FBlock true [] [TI32]; FBasic (BConst (VI32 1%Z)); FEnd; FBasic (BConst (VI32 2%Z)); FBasic (BConst (VI32 3%Z)); FBasic (BSelect None); FEnd]; b_bad := false |};
    PCode {| b_locals := []; b_badlocals := false; b_ops := [FBasic (BConst (VI32 2%Z)); FBlock true [] [TI32]; FBasic (BConst (VI32 1%Z)); FEnd; FBasic (BConst (VI32 3%Z)); FBasic (BSelect None); FEnd]; b_bad := false |};
    PCode {| b_locals := []; b_badlocals := false; b_ops := [FBasic (BConst (VI32 2%Z)); FBasic (BConst (VI32 3%Z)); FBlock true [] [TI32]; FBasic (BConst (VI32 1%Z)); FEnd; FBasic (BSelect None); FEnd]; b_bad := false |};
    PCode {| b_locals := []; b_badlocals := false; b_ops := [FBlock true [] [TI32]; FBasic (BConst (VI32 1%Z)); FEnd; FIf [] []; FCall 0; FEnd; FEnd]; b_bad := false |};
    PCode {| b_locals := []; b_badlocals := false; b_ops := [FBasic (BConst (VI32 1%Z)); FIf [] [TI32]; FBlock true [] [TI32]; FBasic (BConst (VI32 1%Z)); FEnd; FElse; FBasic (BConst (VI32 2%Z)); FEnd; FEnd]; b_bad := false |};
    PCode {| b_locals := []; b_badlocals := false; b_ops := [FBasic (BConst (VI32 1%Z)); FIf [] [TI32]; FBasic (BConst (VI32 2%Z)); FElse; FBlock true [] [TI32]; FBasic (BConst (VI32 1%Z)); FEnd; FEnd; FEnd]; b_bad := false |};
    PCode {| b_locals := []; b_badlocals := false; b_ops := [FBlock false [] [TI32]; FBlock true [] [TI32]; FBasic (BConst (VI32 1%Z)); FEnd; FBasic (BConst (VI32 2%Z)); FBrIf 0; FEnd; FEnd]; b_bad := false |};
    PCode {| b_locals := []; b_badlocals := false; b_ops := [FBlock false [] [TI32]; FBasic (BConst (VI32 2%Z)); FBlock true [] [TI32]; FBasic (BConst (VI32 1%Z)); FEnd; FBrIf 0; FEnd; FEnd]; b_bad := false |};
    PCode {| b_locals := []; b_badlocals := false; b_ops := [FBlock false [] [TI32]; FBlock true [] [TI32]; FBasic (BConst (VI32 1%Z)); FEnd; FBasic (BConst (VI32 2%Z)); FBrTable [0] 0; FEnd; FEnd]; b_bad := false |};
    PCode {| b_locals := []; b_badlocals := false; b_ops := [FBlock false [] [TI32]; FBasic (BConst (VI32 2%Z)); FBlock true [] [TI32]; FBasic (BConst (VI32 1%Z)); FEnd; FBrTable [0] 0; FEnd; FEnd]; b_bad := false |};
    PCode {| b_locals := []; b_badlocals := false; b_ops := [FBasic (BGet 0); FEnd]; b_bad := false |};
    PCode {| b_locals := []; b_badlocals := false; b_ops := [FBlock false [] [TI32]; FBlock true [] [TI32]; FBasic (BConst (VI32 1%Z)); FEnd; FBasic (BConst (VI32 2%Z)); FBasic (BConst (VI32 0%Z)); FCallInd 0 0; FEnd; FEnd]; b_bad := false |};
    PCode {| b_locals := []; b_badlocals := false; b_ops := [FBlock false [] [TI32]; FBasic (BConst (VI32 2%Z)); FBlock true [] [TI32]; FBasic (BConst (VI32 1%Z)); FEnd; FBasic (BConst (VI32 0%Z)); FCallInd 0 0; FEnd; FEnd]; b_bad := false |};
    PCode {| b_locals := []; b_badlocals := false; b_ops := [FBlock false [] [TI32]; FBasic (BConst (VI32 1%Z)); FBasic (BConst (VI32 2%Z)); FBlock true [] [TI32]; FBasic (BConst (VI32 0%Z)); FEnd; FCallInd 0 0; FEnd; FEnd]; b_bad := false |};
    PCode {| b_locals := []; b_badlocals := false; b_ops := [FBlock true [] [TI32]; FBasic (BConst (VI32 1%Z)); FEnd; FBasic (BConst (VI32 1%Z)); FBasic (BOp (SStore SI32 0%Z)); FEnd]; b_bad := false |};
    PCode {| b_locals := []; b_badlocals := false; b_ops := [FBasic (BConst (VI32 10%Z)); FBlock true [] [TI32]; FBasic (BConst (VI32 1%Z)); FEnd; FBasic (BOp (SStore SI32 0%Z)); FEnd]; b_bad := false |};
    PCode {| b_locals := []; b_badlocals := false; b_ops := [FBlock true [] [TI32]; FBasic (BConst (VI32 1%Z)); FEnd; FBasic (BOp SMemGrow); FEnd]; b_bad := false |};
    PCode {| b_locals := []; b_badlocals := false; b_ops := [FBasic (BGet 0); FEnd]; b_bad := false |};
    PCode {| b_locals := []; b_badlocals := false; b_ops := [FBlock true [] [TI32]; FBasic (BConst (VI32 1%Z)); FEnd; FCall 23; FEnd]; b_bad := false |};
    PCode {| b_locals := []; b_badlocals := false; b_ops := [FBlock true [] [TI32]; FBasic (BConst (VI32 1%Z)); FEnd; FReturn; FEnd]; b_bad := false |};
    PCode {| b_locals := []; b_badlocals := false; b_ops := [FBlock true [] [TI32]; FBasic (BConst (VI32 1%Z)); FEnd; FBasic BDrop; FEnd]; b_bad := false |};
    PCode {| b_locals := []; b_badlocals := false; b_ops := [FBlock false [] [TI32]; FBlock true [] [TI32]; FBasic (BConst (VI32 1%Z)); FEnd; FBr 0; FEnd; FEnd]; b_bad := false |};
    PCode {| b_locals := [TI32]; b_badlocals := false; b_ops := [FBlock true [] [TI32]; FBasic (BConst (VI32 1%Z)); FEnd; FBasic (BSet 0); FBasic (BGet 0); FEnd]; b_bad := false |};
    PCode {| b_locals := [TI32]; b_badlocals := false; b_ops := [FBlock true [] [TI32]; FBasic (BConst (VI32 1%Z)); FEnd; FBasic (BTee 0); FEnd]; b_bad := false |};
    PCode {| b_locals := []; b_badlocals := false; b_ops := [FBlock true [] [TI32]; FBasic (BConst (VI32 1%Z)); FEnd; FBasic (BOp (SGlobalSet TI32 0)); FBasic (BOp (SGlobalGet TI32 0)); FEnd]; b_bad := false |};
    PCode {| b_locals := []; b_badlocals := false; b_ops := [FBlock true [] [TI32]; FBasic (BConst (VI32 1%Z)); FEnd; FBasic (BOp (SLoad LI32 0%Z)); FEnd]; b_bad := false |};
    PCode {| b_locals := []; b_badlocals := false; b_ops := [FBlock true [] [TI32]; FCall 0; FBasic (BConst (VI32 13%Z)); FEnd; FBasic (BOp (SNum1 (U_int W32 Ictz))); FEnd]; b_bad := false |};
    PCode {| b_locals := []; b_badlocals := false; b_ops := [FBlock true [] [TI32]; FCall 0; FBasic (BConst (VI32 3%Z)); FEnd; FBlock true [] [TI32]; FCall 0; FBasic (BConst (VI32 4%Z)); FEnd; FBasic (BOp (SNum2 (B_int W32 Imul))); FEnd]; b_bad := false |};
    PCode {| b_locals := []; b_badlocals := false; b_ops := [FBlock true [] [TI32]; FCall 0; FBasic (BConst (VI32 13%Z)); FEnd; FBasic (BOp (SNum1 (U_eqz W32))); FEnd]; b_bad := false |};
    PCode {| b_locals := []; b_badlocals := false; b_ops := [FBlock true [] [TF32]; FCall 0; FBasic (BConst (VF32 1077936128%Z)); FEnd; FBlock true [] [TF32]; FCall 0; FBasic (BConst (VF32 1077936128%Z)); FEnd; FBasic (BOp (SNum2 (B_frel FT32 Fgt))); FEnd]; b_bad := false |};
    PCode {| b_locals := []; b_badlocals := false; b_ops := [FBlock true [] [TI32; TI32]; FCall 0; FBasic (BConst (VI32 3%Z)); FCall 0; FBasic (BConst (VI32 4%Z)); FEnd; FBasic (BOp (SNum2 (B_int W32 Imul))); FEnd]; b_bad := false |};
    PCode {| b_locals := []; b_badlocals := false; b_ops := [FBlock true [] [TF32; TF32]; FCall 0; FBasic (BConst (VF32 1077936128%Z)); FCall 0; FBasic (BConst (VF32 1077936128%Z)); FEnd; FBasic (BOp (SNum2 (B_frel FT32 Fgt))); FEnd]; b_bad := false |};
    PCode {| b_locals := []; b_badlocals := false; b_ops := [FBlock true [] [TI32; TI32]; FCall 0; FBasic (BConst (VI32 3%Z)); FCall 0; FBasic (BConst (VI32 4%Z)); FEnd; FBasic (BConst (VI32 5%Z)); FBasic (BOp (SNum2 (B_int W32 Iadd))); FBasic (BOp (SNum2 (B_int W32 Imul))); FEnd]; b_bad := false |};
    PCode {| b_locals := []; b_badlocals := false; b_ops := [FBlock false [] []; FBlock true [] []; FBr 1; FBr 0; FUnreachable; FEnd; FEnd; FBlock false [] []; FBlock true [] []; FBasic (BConst (VI32 1%Z)); FBrIf 1; FUnreachable; FEnd; FEnd; FBlock false [] []; FBlock true [] []; FBasic (BConst (VI32 0%Z)); FBrTable [] 1; FUnreachable; FEnd; FEnd; FBlock false [] []; FBlock true [] []; FBasic (BConst (VI32 1%Z)); FBrTable [1; 1] 1; FUnreachable; FEnd; FEnd; FBasic (BConst (VI32 19%Z)); FEnd]; b_bad := false |};
    PCode {| b_locals := []; b_badlocals := false; b_ops := [FBlock false [] [TI32]; FBasic (BConst (VI32 0%Z)); FBlock true [TI32] []; FBlock false [] []; FBasic (BConst (VI32 18%Z)); FBr 2; FEnd; FBasic (BConst (VI32 20%Z)); FBr 0; FEnd; FBasic (BConst (VI32 19%Z)); FEnd; FEnd]; b_bad := false |};
    PCode {| b_locals := []; b_badlocals := false; b_ops := [FBlock false [] [TI32; TI32; TI64]; FBasic (BConst (VI32 0%Z)); FBasic (BConst (VI32 0%Z)); FBasic (BConst (VI64 0%Z)); FBlock true [TI32; TI32; TI64] []; FBlock false [] []; FBasic (BConst (VI32 18%Z)); FBasic (BConst (VI32 (-18)%Z)); FBasic (BConst (VI64 18%Z)); FBr 2; FEnd; FBasic (BConst (VI32 20%Z)); FBasic (BConst (VI32 (-20)%Z)); FBasic (BConst (VI64 20%Z)); FBr 0; FEnd; FBasic (BConst (VI32 19%Z)); FBasic (BConst (VI32 (-19)%Z)); FBasic (BConst (VI64 19%Z)); FEnd; FEnd]; b_bad := false |};
    PCode {| b_locals := []; b_badlocals := false; b_ops := [FBlock false [] [TI32]; FBlock true [] [TI32]; FBasic (BConst (VI32 18%Z)); FBr 1; FBasic (BConst (VI32 19%Z)); FBr 1; FBasic (BConst (VI32 20%Z)); FBasic (BConst (VI32 0%Z)); FBrIf 1; FBasic BDrop; FBasic (BConst (VI32 20%Z)); FBasic (BConst (VI32 1%Z)); FBrIf 1; FBasic BDrop; FBasic (BConst (VI32 21%Z)); FBr 1; FBasic (BConst (VI32 22%Z)); FBasic (BConst (VI32 0%Z)); FBrTable [] 1; FBasic (BConst (VI32 23%Z)); FBasic (BConst (VI32 1%Z)); FBrTable [1; 1] 1; FBasic (BConst (VI32 21%Z)); FEnd; FEnd; FEnd]; b_bad := false |};
    PCode {| b_locals := [TI32]; b_badlocals := false; b_ops := [FBasic (BConst (VI32 0%Z)); FBasic (BSet 0); FBasic (BGet 0); FBlock false [] [TI32]; FBlock true [] [TI32]; FBlock false [] [TI32]; FBasic (BConst (VI32 1%Z)); FBr 2; FEnd; FEnd; FEnd; FBasic (BOp (SNum2 (B_int W32 Iadd))); FBasic (BSet 0); FBasic (BGet 0); FBlock false [] [TI32]; FBlock true [] [TI32]; FBlock true [] [TI32]; FBasic (BConst (VI32 2%Z)); FBr 2; FEnd; FEnd; FEnd; FBasic (BOp (SNum2 (B_int W32 Iadd))); FBasic (BSet 0); FBasic (BGet 0); FBlock false [] [TI32]; FBlock true [] [TI32]; FBlock false [] [TI32]; FBlock true [] [TI32]; FBasic (BConst (VI32 4%Z)); FBr 1; FEnd; FEnd; FEnd; FEnd; FBasic (BOp (SNum2 (B_int W32 Iadd))); FBasic (BSet 0); FBasic (BGet 0); FBlock false [] [TI32]; FBlock true [] [TI32]; FBasic (BConst (VI32 8%Z)); FBr 1; FBasic (BOp (SNum1 (U_int W32 Ictz))); FEnd; FEnd; FBasic (BOp (SNum2 (B_int W32 Iadd))); FBasic (BSet 0); FBasic (BGet 0); FBlock false [] [TI32]; FBlock true [] [TI32]; FBlock true [] [TI32]; FBasic (BConst (VI32 16%Z)); FBr 2; FEnd; FBasic (BOp (SNum1 (U_int W32 Ictz))); FEnd; FEnd; FBasic (BOp (SNum2 (B_int W32 Iadd))); FBasic (BSet 0); FBasic (BGet 0); FEnd]; b_bad := false |};
    PCode {| b_locals := [TI32]; b_badlocals := false; b_ops := [FBasic (BConst (VI32 0%Z)); FBasic (BSet 0); FBasic (BGet 0); FBlock true [] [TI32]; FBlock true [] [TI32]; FBr 1; FEnd; FEnd; FBasic (BOp (SNum2 (B_int W32 Iadd))); FBasic (BSet 0); FBasic (BGet 0); FBlock true [] [TI32]; FBr 0; FBasic (BOp (SNum1 (U_int W32 Ictz))); FEnd; FBasic (BOp (SNum2 (B_int W32 Iadd))); FBasic (BSet 0); FBasic (BGet 0); FBlock true [] [TI32]; FBlock true [] [TI32]; FBr 1; FEnd; FBasic (BOp (SNum1 (U_int W32 Ictz))); FEnd; FBasic (BOp (SNum2 (B_int W32 Iadd))); FBasic (BSet 0); FBasic (BGet 0); FEnd]; b_bad := false |};
    PCode {| b_locals := []; b_badlocals := false; b_ops := [FBasic (BConst (VI32 1%Z)); FBlock true [TI32] [TI32]; FBasic (BConst (VI32 2%Z)); FBasic (BOp (SNum2 (B_int W32 Iadd))); FEnd; FEnd]; b_bad := false |};
    PCode {| b_locals := []; b_badlocals := false; b_ops := [FBasic (BConst (VI32 1%Z)); FBasic (BConst (VI32 2%Z)); FBlock true [TI32; TI32] [TI32]; FBasic (BOp (SNum2 (B_int W32 Iadd))); FEnd; FEnd]; b_bad := false |};
    PCode {| b_locals := []; b_badlocals := false; b_ops := [FBasic (BConst (VI32 1%Z)); FBasic (BConst (VI32 2%Z)); FBlock true [TI32; TI32] [TI32; TI32]; FEnd; FBasic (BOp (SNum2 (B_int W32 Iadd))); FEnd]; b_bad := false |};
    PCode {| b_locals := [TI32]; b_badlocals := false; b_ops := [FBasic (BConst (VI32 1%Z)); FBlock true [TI32] [TI32]; FBasic (BConst (VI32 4%Z)); FBasic (BOp (SNum2 (B_int W32 Iadd))); FBasic (BTee 0); FBasic (BGet 0); FBasic (BConst (VI32 10%Z)); FBasic (BOp (SNum2 (B_irel W32 Ilt_u))); FBrIf 0; FEnd; FEnd]; b_bad := false |};
    PCode {| b_locals := [TI32]; b_badlocals := false; b_ops := [FBasic (BConst (VI32 1%Z)); FBasic (BConst (VI32 2%Z)); FBlock true [TI32; TI32] [TI32]; FBasic (BOp (SNum2 (B_int W32 Iadd))); FBasic (BTee 0); FBasic (BConst (VI32 3%Z)); FBasic (BGet 0); FBasic (BConst (VI32 10%Z)); FBasic (BOp (SNum2 (B_irel W32 Ilt_u))); FBrIf 0; FBasic BDrop; FEnd; FEnd]; b_bad := false |};
    PCode {| b_locals := [TI32]; b_badlocals := false; b_ops := [FBasic (BConst (VI32 0%Z)); FBasic (BSet 0); FBasic (BConst (VI32 1%Z)); FBasic (BConst (VI32 2%Z)); FBlock true [TI32; TI32] [TI32; TI32]; FBasic (BGet 0); FBasic (BConst (VI32 1%Z)); FBasic (BOp (SNum2 (B_int W32 Iadd))); FBasic (BSet 0); FBasic (BGet 0); FBasic (BConst (VI32 10%Z)); FBasic (BOp (SNum2 (B_irel W32 Ilt_u))); FBrIf 0; FEnd; FBasic (BOp (SNum2 (B_int W32 Iadd))); FEnd]; b_bad := false |};
    PCode {| b_locals := [TI32]; b_badlocals := false; b_ops := [FBlock false [] []; FBlock true [] []; FBasic (BConst (VI32 1%Z)); FBasic (BSet 0); FBasic (BGet 0); FBasic (BConst (VI32 3%Z)); FBasic (BOp (SNum2 (B_int W32 Imul))); FBasic (BSet 0); FBasic (BGet 0); FBasic (BConst (VI32 5%Z)); FBasic (BOp (SNum2 (B_int W32 Isub))); FBasic (BSet 0); FBasic (BGet 0); FBasic (BConst (VI32 7%Z)); FBasic (BOp (SNum2 (B_int W32 Imul))); FBasic (BSet 0); FBr 1; FBasic (BGet 0); FBasic (BConst (VI32 100%Z)); FBasic (BOp (SNum2 (B_int W32 Imul))); FBasic (BSet 0); FEnd; FEnd; FBasic (BGet 0); FBasic (BConst (VI32 (-14)%Z)); FBasic (BOp (SNum2 (B_irel W32 Ieq))); FEnd]; b_bad := false |};
    PCode {| b_locals := [TI64]; b_badlocals := false; b_ops := [FBasic (BConst (VI64 1%Z)); FBasic (BSet 1); FBlock false [] []; FBlock true [] []; FBasic (BGet 0); FBasic (BOp (SNum1 (U_eqz W64))); FBrIf 1; FBasic (BGet 0); FBasic (BGet 1); FBasic (BOp (SNum2 (B_int W64 Imul))); FBasic (BSet 1); FBasic (BGet 0); FBasic (BConst (VI64 1%Z)); FBasic (BOp (SNum2 (B_int W64 Isub))); FBasic (BSet 0); FBr 0; FEnd; FEnd; FBasic (BGet 1); FEnd]; b_bad := false |};
    PCode {| b_locals := [TI64; TI64]; b_badlocals := false; b_ops := [FBasic (BConst (VI64 1%Z)); FBasic (BSet 1); FBasic (BConst (VI64 2%Z)); FBasic (BSet 2); FBlock false [] []; FBlock true [] []; FBasic (BGet 2); FBasic (BGet 0); FBasic (BOp (SNum2 (B_irel W64 Igt_u))); FBrIf 1; FBasic (BGet 1); FBasic (BGet 2); FBasic (BOp (SNum2 (B_int W64 Imul))); FBasic (BSet 1); FBasic (BGet 2); FBasic (BConst (VI64 1%Z)); FBasic (BOp (SNum2 (B_int W64 Iadd))); FBasic (BSet 2); FBr 0; FEnd; FEnd; FBasic (BGet 1); FEnd]; b_bad := false |};
    PCode {| b_locals := [TF32; TF32]; b_badlocals := false; b_ops := [FBlock false [] []; FBlock true [] []; FBasic (BGet 0); FBasic (BConst (VF32 0%Z)); FBasic (BOp (SNum2 (B_frel FT32 Feq))); FBrIf 1; FBasic (BGet 1); FBasic (BSet 2); FBlock false [] []; FBlock true [] []; FBasic (BGet 2); FBasic (BConst (VF32 0%Z)); FBasic (BOp (SNum2 (B_frel FT32 Feq))); FBrIf 1; FBasic (BGet 2); FBasic (BConst (VF32 0%Z)); FBasic (BOp (SNum2 (B_frel FT32 Flt))); FBrIf 3; FBasic (BGet 3); FBasic (BGet 2); FBasic (BOp (SNum2 (B_flt FT32 (FBarith Fadd)))); FBasic (BSet 3); FBasic (BGet 2); FBasic (BConst (VF32 1073741824%Z)); FBasic (BOp (SNum2 (B_flt FT32 (FBarith Fsub)))); FBasic (BSet 2); FBr 0; FEnd; FEnd; FBasic (BGet 3); FBasic (BGet 0); FBasic (BOp (SNum2 (B_flt FT32 (FBarith Fdiv)))); FBasic (BSet 3); FBasic (BGet 0); FBasic (BConst (VF32 1065353216%Z)); FBasic (BOp (SNum2 (B_flt FT32 (FBarith Fsub)))); FBasic (BSet 0); FBr 0; FEnd; FEnd; FBasic (BGet 3); FEnd]; b_bad := false |};
    PCode {| b_locals := []; b_badlocals := false; b_ops := [FBlock true [] []; FEnd; FBlock true [] [TI32]; FBasic (BConst (VI32 0%Z)); FEnd; FBlock true [TI32] []; FBasic BDrop; FEnd; FBasic (BConst (VI32 0%Z)); FBasic (BConst (VF64 0%Z)); FBasic (BConst (VI32 0%Z)); FBlock true [TI32; TF64; TI32] [TI32; TF64; TI32]; FEnd; FBasic BDrop; FBasic BDrop; FBasic BDrop; FBlock true [] [TI32]; FBasic (BConst (VI32 0%Z)); FEnd; FBlock true [TI32] []; FBasic BDrop; FEnd; FBasic (BConst (VI32 0%Z)); FBasic (BConst (VF64 0%Z)); FBasic (BConst (VI32 0%Z)); FBlock true [TI32; TF64; TI32] [TI32; TF64; TI32]; FEnd; FBasic BDrop; FBasic BDrop; FBasic BDrop; FEnd]; b_bad := false |} ].
Definition w_memory : list payload :=
  [ PVersion 1;
    PTypes [Some ([], [TI32]); Some ([], [TF64]); Some ([TI32], [TI32]); Some ([TI64], [TI64])];
    PFuncs [Some 0; Some 1; Some 2; Some 2; Some 2; Some 2; Some 3; Some 3; Some 3; Some 3; Some 3; Some 3];
    PMems [Some (1%Z, None)];
    PExports [Some ("data", ExFunc 0); Some ("cast", ExFunc 1); Some ("i32_load8_s", ExFunc 2); Some ("i32_load8_u", ExFunc 3); Some ("i32_load16_s", ExFunc 4); Some ("i32_load16_u", ExFunc 5); Some ("i64_load8_s", ExFunc 6); Some ("i64_load8_u", ExFunc 7); Some ("i64_load16_s", ExFunc 8); Some ("i64_load16_u", ExFunc 9); Some ("i64_load32_s", ExFunc 10); Some ("i64_load32_u", ExFunc 11)];
    PCode {| b_locals := []; b_badlocals := false; b_ops := [FBasic (BConst (VI32 0%Z)); FBasic (BOp (SLoad LI32_8u 0%Z)); FBasic (BConst (VI32 65%Z)); FBasic (BOp (SNum2 (B_irel W32 Ieq))); FBasic (BConst (VI32 3%Z)); FBasic (BOp (SLoad LI32_8u 0%Z)); FBasic (BConst (VI32 167%Z)); FBasic (BOp (SNum2 (B_irel W32 Ieq))); FBasic (BOp (SNum2 (B_int W32 Iand))); FBasic (BConst (VI32 6%Z)); FBasic (BOp (SLoad LI32_8u 0%Z)); FBasic (BConst (VI32 0%Z)); FBasic (BOp (SNum2 (B_irel W32 Ieq))); FBasic (BConst (VI32 19%Z)); FBasic (BOp (SLoad LI32_8u 0%Z)); FBasic (BConst (VI32 0%Z)); FBasic (BOp (SNum2 (B_irel W32 Ieq))); FBasic (BOp (SNum2 (B_int W32 Iand))); FBasic (BOp (SNum2 (B_int W32 Iand))); FBasic (BConst (VI32 20%Z)); FBasic (BOp (SLoad LI32_8u 0%Z)); FBasic (BConst (VI32 87%Z)); FBasic (BOp (SNum2 (B_irel W32 Ieq))); FBasic (BConst (VI32 23%Z)); FBasic (BOp (SLoad LI32_8u 0%Z)); FBasic (BConst (VI32 77%Z)); FBasic (BOp (SNum2 (B_irel W32 Ieq))); FBasic (BOp (SNum2 (B_int W32 Iand))); FBasic (BConst (VI32 24%Z)); FBasic (BOp (SLoad LI32_8u 0%Z)); FBasic (BConst (VI32 0%Z)); FBasic (BOp (SNum2 (B_irel W32 Ieq))); FBasic (BConst (VI32 1023%Z)); FBasic (BOp (SLoad LI32_8u 0%Z)); FBasic (BConst (VI32 0%Z)); FBasic (BOp (SNum2 (B_irel W32 Ieq))); FBasic (BOp (SNum2 (B_int W32 Iand))); FBasic (BOp (SNum2 (B_int W32 Iand))); FBasic (BOp (SNum2 (B_int W32 Iand))); FEnd]; b_bad := false |};
    PCode {| b_locals := []; b_badlocals := false; b_ops := [FBasic (BConst (VI32 8%Z)); FBasic (BConst (VI64 (-12345)%Z)); FBasic (BOp (SStore SI64 0%Z)); FBasic (BConst (VI32 8%Z)); FBasic (BOp (SLoad LF64 0%Z)); FBasic (BConst (VI64 (-12345)%Z)); FBasic (BOp (SCvt (C_i2f W64))); FBasic (BOp (SNum2 (B_frel FT64 Feq))); FIf [] []; FBasic (BConst (VF64 0%Z)); FReturn; FEnd; FBasic (BConst (VI32 9%Z)); FBasic (BConst (VI64 0%Z)); FBasic (BOp (SStore SI64 0%Z)); FBasic (BConst (VI32 15%Z)); FBasic (BConst (VI32 16453%Z)); FBasic (BOp (SStore SI32_16 0%Z)); FBasic (BConst (VI32 9%Z)); FBasic (BOp (SLoad LF64 0%Z)); FEnd]; b_bad := false |};
    PCode {| b_locals := []; b_badlocals := false; b_ops := [FBasic (BConst (VI32 8%Z)); FBasic (BGet 0); FBasic (BOp (SStore SI32_8 0%Z)); FBasic (BConst (VI32 8%Z)); FBasic (BOp (SLoad LI32_8s 0%Z)); FEnd]; b_bad := false |};
    PCode {| b_locals := []; b_badlocals := false; b_ops := [FBasic (BConst (VI32 8%Z)); FBasic (BGet 0); FBasic (BOp (SStore SI32_8 0%Z)); FBasic (BConst (VI32 8%Z)); FBasic (BOp (SLoad LI32_8u 0%Z)); FEnd]; b_bad := false |};
    PCode {| b_locals := []; b_badlocals := false; b_ops := [FBasic (BConst (VI32 8%Z)); FBasic (BGet 0); FBasic (BOp (SStore SI32_16 0%Z)); FBasic (BConst (VI32 8%Z)); FBasic (BOp (SLoad LI32_16s 0%Z)); FEnd]; b_bad := false |};
    PCode {| b_locals := []; b_badlocals := false; b_ops := [FBasic (BConst (VI32 8%Z)); FBasic (BGet 0); FBasic (BOp (SStore SI32_16 0%Z)); FBasic (BConst (VI32 8%Z)); FBasic (BOp (SLoad LI32_16u 0%Z)); FEnd]; b_bad := false |};
    PCode {| b_locals := []; b_badlocals := false; b_ops := [FBasic (BConst (VI32 8%Z)); FBasic (BGet 0); FBasic (BOp (SStore SI64_8 0%Z)); FBasic (BConst (VI32 8%Z)); FBasic (BOp (SLoad LI64_8s 0%Z)); FEnd]; b_bad := false |};
    PCode {| b_locals := []; b_badlocals := false; b_ops := [FBasic (BConst (VI32 8%Z)); FBasic (BGet 0); FBasic (BOp (SStore SI64_8 0%Z)); FBasic (BConst (VI32 8%Z)); FBasic (BOp (SLoad LI64_8u 0%Z)); FEnd]; b_bad := false |};
    PCode {| b_locals := []; b_badlocals := false; b_ops := [FBasic (BConst (VI32 8%Z)); FBasic (BGet 0); FBasic (BOp (SStore SI64_16 0%Z)); FBasic (BConst (VI32 8%Z)); FBasic (BOp (SLoad LI64_16s 0%Z)); FEnd]; b_bad := false |};
    PCode {| b_locals := []; b_badlocals := false; b_ops := [FBasic (BConst (VI32 8%Z)); FBasic (BGet 0); FBasic (BOp (SStore SI64_16 0%Z)); FBasic (BConst (VI32 8%Z)); FBasic (BOp (SLoad LI64_16u 0%Z)); FEnd]; b_bad := false |};
    PCode {| b_locals := []; b_badlocals := false; b_ops := [FBasic (BConst (VI32 8%Z)); FBasic (BGet 0); FBasic (BOp (SStore SI64_32 0%Z)); FBasic (BConst (VI32 8%Z)); FBasic (BOp (SLoad LI64_32s 0%Z)); FEnd]; b_bad := false |};
    PCode {| b_locals := []; b_badlocals := false; b_ops := [FBasic (BConst (VI32 8%Z)); FBasic (BGet 0); FBasic (BOp (SStore SI64_32 0%Z)); FBasic (BConst (VI32 8%Z)); FBasic (BOp (SLoad LI64_32u 0%Z)); FEnd]; b_bad := false |};
    PDatas [Some {| ds_bytes := [65%Z; 66%Z; 67%Z; 167%Z; 68%Z]; ds_mode := MActive 0 [CVal (VI32 0%Z)] |}; Some {| ds_bytes := [87%Z; 65%Z; 83%Z; 77%Z]; ds_mode := MActive 0 [CVal (VI32 20%Z)] |}] ].
Definition w_memorycopy_1 : list payload :=
  [ PVersion 1;
    PTypes [Some ([], []); Some ([TI32], [TI32])];
    PFuncs [Some 0; Some 1];
    PMems [Some (1%Z, Some 1%Z)];
    PExports [Some ("memory0", ExMem 0); Some ("test", ExFunc 0); Some ("load8_u", ExFunc 1)];
    PCode {| b_locals := []; b_badlocals := false; b_ops := [FBasic BNop; FEnd]; b_bad := false |};
    PCode {| b_locals := []; b_badlocals := false; b_ops := [FBasic (BGet 0); FBasic (BOp (SLoad LI32_8u 0%Z)); FEnd]; b_bad := false |};
    PDatas [Some {| ds_bytes := [3%Z; 1%Z; 4%Z; 1%Z]; ds_mode := MActive 0 [CVal (VI32 2%Z)] |}; Some {| ds_bytes := [7%Z; 5%Z; 2%Z; 3%Z; 6%Z]; ds_mode := MActive 0 [CVal (VI32 12%Z)] |}] ].
Definition w_memorycopy_2 : list payload :=
  [ PVersion 1;
    PTypes [Some ([], []); Some ([TI32], [TI32])];
    PFuncs [Some 0; Some 1];
    PMems [Some (1%Z, Some 1%Z)];
    PExports [Some ("memory0", ExMem 0); Some ("test", ExFunc 0); Some ("load8_u", ExFunc 1)];
    PCode {| b_locals := []; b_badlocals := false; b_ops := [FBasic (BConst (VI32 13%Z)); FBasic (BConst (VI32 2%Z)); FBasic (BConst (VI32 3%Z)); FBasic (BOp SMemCopy); FEnd]; b_bad := false |};
    PCode {| b_locals := []; b_badlocals := false; b_ops := [FBasic (BGet 0); FBasic (BOp (SLoad LI32_8u 0%Z)); FEnd]; b_bad := false |};
    PDatas [Some {| ds_bytes := [3%Z; 1%Z; 4%Z; 1%Z]; ds_mode := MActive 0 [CVal (VI32 2%Z)] |}; Some {| ds_bytes := [7%Z; 5%Z; 2%Z; 3%Z; 6%Z]; ds_mode := MActive 0 [CVal (VI32 12%Z)] |}] ].
Definition w_memorycopy_3 : list payload :=
  [ PVersion 1;
    PTypes [Some ([], []); Some ([TI32], [TI32])];
    PFuncs [Some 0; Some 1];
    PMems [Some (1%Z, Some 1%Z)];
    PExports [Some ("memory0", ExMem 0); Some ("test", ExFunc 0); Some ("load8_u", ExFunc 1)];
    PCode {| b_locals := []; b_badlocals := false; b_ops := [FBasic (BConst (VI32 25%Z)); FBasic (BConst (VI32 15%Z)); FBasic (BConst (VI32 2%Z)); FBasic (BOp SMemCopy); FEnd]; b_bad := false |};
    PCode {| b_locals := []; b_badlocals := false; b_ops := [FBasic (BGet 0); FBasic (BOp (SLoad LI32_8u 0%Z)); FEnd]; b_bad := false |};
    PDatas [Some {| ds_bytes := [3%Z; 1%Z; 4%Z; 1%Z]; ds_mode := MActive 0 [CVal (VI32 2%Z)] |}; Some {| ds_bytes := [7%Z; 5%Z; 2%Z; 3%Z; 6%Z]; ds_mode := MActive 0 [CVal (VI32 12%Z)] |}] ].
Definition w_memorycopy_4 : list payload :=
  [ PVersion 1;
    PTypes [Some ([], []); Some ([TI32], [TI32])];
    PFuncs [Some 0; Some 1];
    PMems [Some (1%Z, Some 1%Z)];
    PExports [Some ("memory0", ExMem 0); Some ("test", ExFunc 0); Some ("load8_u", ExFunc 1)];
    PCode {| b_locals := []; b_badlocals := false; b_ops := [FBasic (BConst (VI32 13%Z)); FBasic (BConst (VI32 25%Z)); FBasic (BConst (VI32 3%Z)); FBasic (BOp SMemCopy); FEnd]; b_bad := false |};
    PCode {| b_locals := []; b_badlocals := false; b_ops := [FBasic (BGet 0); FBasic (BOp (SLoad LI32_8u 0%Z)); FEnd]; b_bad := false |};
    PDatas [Some {| ds_bytes := [3%Z; 1%Z; 4%Z; 1%Z]; ds_mode := MActive 0 [CVal (VI32 2%Z)] |}; Some {| ds_bytes := [7%Z; 5%Z; 2%Z; 3%Z; 6%Z]; ds_mode := MActive 0 [CVal (VI32 12%Z)] |}] ].
Definition w_memorycopy_5 : list payload :=
  [ PVersion 1;
    PTypes [Some ([], []); Some ([TI32], [TI32])];
    PFuncs [Some 0; Some 1];
    PMems [Some (1%Z, Some 1%Z)];
    PExports [Some ("memory0", ExMem 0); Some ("test", ExFunc 0); Some ("load8_u", ExFunc 1)];
    PCode {| b_locals := []; b_badlocals := false; b_ops := [FBasic (BConst (VI32 20%Z)); FBasic (BConst (VI32 22%Z)); FBasic (BConst (VI32 4%Z)); FBasic (BOp SMemCopy); FEnd]; b_bad := false |};
    PCode {| b_locals := []; b_badlocals := false; b_ops := [FBasic (BGet 0); FBasic (BOp (SLoad LI32_8u 0%Z)); FEnd]; b_bad := false |};
    PDatas [Some {| ds_bytes := [3%Z; 1%Z; 4%Z; 1%Z]; ds_mode := MActive 0 [CVal (VI32 2%Z)] |}; Some {| ds_bytes := [7%Z; 5%Z; 2%Z; 3%Z; 6%Z]; ds_mode := MActive 0 [CVal (VI32 12%Z)] |}] ].
Definition w_memorycopy_6 : list payload :=
  [ PVersion 1;
    PTypes [Some ([], []); Some ([TI32], [TI32])];
    PFuncs [Some 0; Some 1];
    PMems [Some (1%Z, Some 1%Z)];
    PExports [Some ("memory0", ExMem 0); Some ("test", ExFunc 0); Some ("load8_u", ExFunc 1)];
    PCode {| b_locals := []; b_badlocals := false; b_ops := [FBasic (BConst (VI32 25%Z)); FBasic (BConst (VI32 1%Z)); FBasic (BConst (VI32 3%Z)); FBasic (BOp SMemCopy); FEnd]; b_bad := false |};
    PCode {| b_locals := []; b_badlocals := false; b_ops := [FBasic (BGet 0); FBasic (BOp (SLoad LI32_8u 0%Z)); FEnd]; b_bad := false |};
    PDatas [Some {| ds_bytes := [3%Z; 1%Z; 4%Z; 1%Z]; ds_mode := MActive 0 [CVal (VI32 2%Z)] |}; Some {| ds_bytes := [7%Z; 5%Z; 2%Z; 3%Z; 6%Z]; ds_mode := MActive 0 [CVal (VI32 12%Z)] |}] ].
Definition w_memorycopy_7 : list payload :=
  [ PVersion 1;
    PTypes [Some ([], []); Some ([TI32], [TI32])];
    PFuncs [Some 0; Some 1];
    PMems [Some (1%Z, Some 1%Z)];
    PExports [Some ("memory0", ExMem 0); Some ("test", ExFunc 0); Some ("load8_u", ExFunc 1)];
    PCode {| b_locals := []; b_badlocals := false; b_ops := [FBasic (BConst (VI32 10%Z)); FBasic (BConst (VI32 12%Z)); FBasic (BConst (VI32 7%Z)); FBasic (BOp SMemCopy); FEnd]; b_bad := false |};
    PCode {| b_locals := []; b_badlocals := false; b_ops := [FBasic (BGet 0); FBasic (BOp (SLoad LI32_8u 0%Z)); FEnd]; b_bad := false |};
    PDatas [Some {| ds_bytes := [3%Z; 1%Z; 4%Z; 1%Z]; ds_mode := MActive 0 [CVal (VI32 2%Z)] |}; Some {| ds_bytes := [7%Z; 5%Z; 2%Z; 3%Z; 6%Z]; ds_mode := MActive 0 [CVal (VI32 12%Z)] |}] ].
Definition w_memorycopy_8 : list payload :=
  [ PVersion 1;
    PTypes [Some ([], []); Some ([TI32], [TI32])];
    PFuncs [Some 0; Some 1];
    PMems [Some (1%Z, Some 1%Z)];
    PExports [Some ("memory0", ExMem 0); Some ("test", ExFunc 0); Some ("load8_u", ExFunc 1)];
    PCode {| b_locals := []; b_badlocals := false; b_ops := [FBasic (BConst (VI32 12%Z)); FBasic (BConst (VI32 10%Z)); FBasic (BConst (VI32 7%Z)); FBasic (BOp SMemCopy); FEnd]; b_bad := false |};
    PCode {| b_locals := []; b_badlocals := false; b_ops := [FBasic (BGet 0); FBasic (BOp (SLoad LI32_8u 0%Z)); FEnd]; b_bad := false |};
    PDatas [Some {| ds_bytes := [3%Z; 1%Z; 4%Z; 1%Z]; ds_mode := MActive 0 [CVal (VI32 2%Z)] |}; Some {| ds_bytes := [7%Z; 5%Z; 2%Z; 3%Z; 6%Z]; ds_mode := MActive 0 [CVal (VI32 12%Z)] |}] ].
Definition w_memorycopy_9 : list payload :=
  [ PVersion 1;
    PTypes [Some ([TI32; TI32; TI32], []); Some ([TI32], [TI32])];
    PFuncs [Some 0; Some 1];
    PMems [Some (1%Z, Some 1%Z)];
    PExports [Some ("mem", ExMem 0); Some ("run", ExFunc 0); Some ("load8_u", ExFunc 1)];
    PCode {| b_locals := []; b_badlocals := false; b_ops := [FBasic (BGet 0); FBasic (BGet 1); FBasic (BGet 2); FBasic (BOp SMemCopy); FEnd]; b_bad := false |};
    PCode {| b_locals := []; b_badlocals := false; b_ops := [FBasic (BGet 0); FBasic (BOp (SLoad LI32_8u 0%Z)); FEnd]; b_bad := false |};
    PDatas [Some {| ds_bytes := [0%Z; 1%Z; 2%Z; 3%Z; 4%Z; 5%Z; 6%Z; 7%Z; 8%Z; 9%Z; 10%Z; 11%Z; 12%Z; 13%Z; 14%Z; 15%Z; 16%Z; 17%Z; 18%Z; 19%Z]; ds_mode := MActive 0 [CVal (VI32 0%Z)] |}] ].
Definition w_memorycopy_10 : list payload :=
  [ PVersion 1;
    PTypes [Some ([TI32; TI32; TI32], []); Some ([TI32], [TI32])];
    PFuncs [Some 0; Some 1];
    PMems [Some (1%Z, Some 1%Z)];
    PExports [Some ("mem", ExMem 0); Some ("run", ExFunc 0); Some ("load8_u", ExFunc 1)];
    PCode {| b_locals := []; b_badlocals := false; b_ops := [FBasic (BGet 0); FBasic (BGet 1); FBasic (BGet 2); FBasic (BOp SMemCopy); FEnd]; b_bad := false |};
    PCode {| b_locals := []; b_badlocals := false; b_ops := [FBasic (BGet 0); FBasic (BOp (SLoad LI32_8u 0%Z)); FEnd]; b_bad := false |};
    PDatas [Some {| ds_bytes := [0%Z; 1%Z; 2%Z; 3%Z; 4%Z; 5%Z; 6%Z; 7%Z; 8%Z; 9%Z; 10%Z; 11%Z; 12%Z; 13%Z; 14%Z; 15%Z; 16%Z; 17%Z; 18%Z; 19%Z; 20%Z]; ds_mode := MActive 0 [CVal (VI32 0%Z)] |}] ].
Definition w_memorycopy_11 : list payload :=
  [ PVersion 1;
    PTypes [Some ([TI32; TI32; TI32], []); Some ([TI32], [TI32])];
    PFuncs [Some 0; Some 1];
    PMems [Some (1%Z, Some 1%Z)];
    PExports [Some ("mem", ExMem 0); Some ("run", ExFunc 0); Some ("load8_u", ExFunc 1)];
    PCode {| b_locals := []; b_badlocals := false; b_ops := [FBasic (BGet 0); FBasic (BGet 1); FBasic (BGet 2); FBasic (BOp SMemCopy); FEnd]; b_bad := false |};
    PCode {| b_locals := []; b_badlocals := false; b_ops := [FBasic (BGet 0); FBasic (BOp (SLoad LI32_8u 0%Z)); FEnd]; b_bad := false |};
    PDatas [Some {| ds_bytes := [0%Z; 1%Z; 2%Z; 3%Z; 4%Z; 5%Z; 6%Z; 7%Z; 8%Z; 9%Z; 10%Z; 11%Z; 12%Z; 13%Z; 14%Z; 15%Z; 16%Z; 17%Z; 18%Z; 19%Z]; ds_mode := MActive 0 [CVal (VI32 65516%Z)] |}] ].
Definition w_memorycopy_12 : list payload :=
  [ PVersion 1;
    PTypes [Some ([TI32; TI32; TI32], []); Some ([TI32], [TI32])];
    PFuncs [Some 0; Some 1];
    PMems [Some (1%Z, Some 1%Z)];
    PExports [Some ("mem", ExMem 0); Some ("run", ExFunc 0); Some ("load8_u", ExFunc 1)];
    PCode {| b_locals := []; b_badlocals := false; b_ops := [FBasic (BGet 0); FBasic (BGet 1); FBasic (BGet 2); FBasic (BOp SMemCopy); FEnd]; b_bad := false |};
    PCode {| b_locals := []; b_badlocals := false; b_ops := [FBasic (BGet 0); FBasic (BOp (SLoad LI32_8u 0%Z)); FEnd]; b_bad := false |};
    PDatas [Some {| ds_bytes := [0%Z; 1%Z; 2%Z; 3%Z; 4%Z; 5%Z; 6%Z; 7%Z; 8%Z; 9%Z; 10%Z; 11%Z; 12%Z; 13%Z; 14%Z; 15%Z; 16%Z; 17%Z; 18%Z; 19%Z; 20%Z]; ds_mode := MActive 0 [CVal (VI32 65515%Z)] |}] ].
Definition w_memorycopy_13 : list payload :=
  [ PVersion 1;
    PTypes [Some ([TI32; TI32; TI32], []); Some ([TI32], [TI32])];
    PFuncs [Some 0; Some 1];
    PMems [Some (1%Z, Some 1%Z)];
    PExports [Some ("mem", ExMem 0); Some ("run", ExFunc 0); Some ("load8_u", ExFunc 1)];
    PCode {| b_locals := []; b_badlocals := false; b_ops := [FBasic (BGet 0); FBasic (BGet 1); FBasic (BGet 2); FBasic (BOp SMemCopy); FEnd]; b_bad := false |};
    PCode {| b_locals := []; b_badlocals := false; b_ops := [FBasic (BGet 0); FBasic (BOp (SLoad LI32_8u 0%Z)); FEnd]; b_bad := false |};
    PDatas [Some {| ds_bytes := [0%Z; 1%Z; 2%Z; 3%Z; 4%Z; 5%Z; 6%Z; 7%Z; 8%Z; 9%Z; 10%Z; 11%Z; 12%Z; 13%Z; 14%Z; 15%Z; 16%Z; 17%Z; 18%Z; 19%Z]; ds_mode := MActive 0 [CVal (VI32 61440%Z)] |}] ].
Definition w_memoryfill_1 : list payload :=
  [ PVersion 1;
    PTypes [Some ([TI32; TI32; TI32], [TI32]); Some ([], [])];
    PFuncs [Some 0; Some 1];
    PMems [Some (1%Z, Some 1%Z)];
    PExports [Some ("checkRange", ExFunc 0); Some ("test", ExFunc 1)];
    PCode {| b_locals := []; b_badlocals := false; b_ops := [FBlock true [] []; FBasic (BGet 0); FBasic (BGet 1); FBasic (BOp (SNum2 (B_irel W32 Ieq))); FIf [] []; FBasic (BConst (VI32 (-1)%Z)); FReturn; FEnd; FBasic (BGet 0); FBasic (BOp (SLoad LI32_8u 0%Z)); FBasic (BGet 2); FBasic (BOp (SNum2 (B_irel W32 Ieq))); FIf [] []; FBasic (BGet 0); FBasic (BConst (VI32 1%Z)); FBasic (BOp (SNum2 (B_int W32 Iadd))); FBasic (BSet 0); FBr 1; FEnd; FEnd; FBasic (BGet 0); FReturn; FEnd]; b_bad := false |};
    PCode {| b_locals := []; b_badlocals := false; b_ops := [FBasic (BConst (VI32 65280%Z)); FBasic (BConst (VI32 85%Z)); FBasic (BConst (VI32 256%Z)); FBasic (BOp SMemFill); FEnd]; b_bad := false |} ].
Definition w_memoryfill_2 : list payload :=
  [ PVersion 1;
    PTypes [Some ([TI32; TI32; TI32], [TI32]); Some ([], [])];
    PFuncs [Some 0; Some 1];
    PMems [Some (1%Z, Some 1%Z)];
    PExports [Some ("checkRange", ExFunc 0); Some ("test", ExFunc 1)];
    PCode {| b_locals := []; b_badlocals := false; b_ops := [FBlock true [] []; FBasic (BGet 0); FBasic (BGet 1); FBasic (BOp (SNum2 (B_irel W32 Ieq))); FIf [] []; FBasic (BConst (VI32 (-1)%Z)); FReturn; FEnd; FBasic (BGet 0); FBasic (BOp (SLoad LI32_8u 0%Z)); FBasic (BGet 2); FBasic (BOp (SNum2 (B_irel W32 Ieq))); FIf [] []; FBasic (BGet 0); FBasic (BConst (VI32 1%Z)); FBasic (BOp (SNum2 (B_int W32 Iadd))); FBasic (BSet 0); FBr 1; FEnd; FEnd; FBasic (BGet 0); FReturn; FEnd]; b_bad := false |};
    PCode {| b_locals := []; b_badlocals := false; b_ops := [FBasic (BConst (VI32 18%Z)); FBasic (BConst (VI32 85%Z)); FBasic (BConst (VI32 0%Z)); FBasic (BOp SMemFill); FEnd]; b_bad := false |} ].
Definition w_memoryfill_3 : list payload :=
  [ PVersion 1;
    PTypes [Some ([TI32; TI32; TI32], [TI32]); Some ([], [])];
    PFuncs [Some 0; Some 1];
    PMems [Some (1%Z, Some 1%Z)];
    PExports [Some ("checkRange", ExFunc 0); Some ("test", ExFunc 1)];
    PCode {| b_locals := []; b_badlocals := false; b_ops := [FBlock true [] []; FBasic (BGet 0); FBasic (BGet 1); FBasic (BOp (SNum2 (B_irel W32 Ieq))); FIf [] []; FBasic (BConst (VI32 (-1)%Z)); FReturn; FEnd; FBasic (BGet 0); FBasic (BOp (SLoad LI32_8u 0%Z)); FBasic (BGet 2); FBasic (BOp (SNum2 (B_irel W32 Ieq))); FIf [] []; FBasic (BGet 0); FBasic (BConst (VI32 1%Z)); FBasic (BOp (SNum2 (B_int W32 Iadd))); FBasic (BSet 0); FBr 1; FEnd; FEnd; FBasic (BGet 0); FReturn; FEnd]; b_bad := false |};
    PCode {| b_locals := []; b_badlocals := false; b_ops := [FBasic (BConst (VI32 1%Z)); FBasic (BConst (VI32 170%Z)); FBasic (BConst (VI32 65534%Z)); FBasic (BOp SMemFill); FEnd]; b_bad := false |} ].
Definition w_memoryfill_4 : list payload :=
  [ PVersion 1;
    PTypes [Some ([TI32; TI32; TI32], [TI32]); Some ([], [])];
    PFuncs [Some 0; Some 1];
    PMems [Some (1%Z, Some 1%Z)];
    PExports [Some ("checkRange", ExFunc 0); Some ("test", ExFunc 1)];
    PCode {| b_locals := []; b_badlocals := false; b_ops := [FBlock true [] []; FBasic (BGet 0); FBasic (BGet 1); FBasic (BOp (SNum2 (B_irel W32 Ieq))); FIf [] []; FBasic (BConst (VI32 (-1)%Z)); FReturn; FEnd; FBasic (BGet 0); FBasic (BOp (SLoad LI32_8u 0%Z)); FBasic (BGet 2); FBasic (BOp (SNum2 (B_irel W32 Ieq))); FIf [] []; FBasic (BGet 0); FBasic (BConst (VI32 1%Z)); FBasic (BOp (SNum2 (B_int W32 Iadd))); FBasic (BSet 0); FBr 1; FEnd; FEnd; FBasic (BGet 0); FReturn; FEnd]; b_bad := false |};
    PCode {| b_locals := []; b_badlocals := false; b_ops := [FBasic (BConst (VI32 18%Z)); FBasic (BConst (VI32 85%Z)); FBasic (BConst (VI32 10%Z)); FBasic (BOp SMemFill); FBasic (BConst (VI32 21%Z)); FBasic (BConst (VI32 170%Z)); FBasic (BConst (VI32 4%Z)); FBasic (BOp SMemFill); FEnd]; b_bad := false |} ].
Definition w_memoryfill_5 : list payload :=
  [ PVersion 1;
    PTypes [Some ([TI32; TI32; TI32], [TI32]); Some ([TI32; TI32; TI32], [])];
    PFuncs [Some 0; Some 1];
    PMems [Some (1%Z, Some 1%Z)];
    PExports [Some ("checkRange", ExFunc 0); Some ("run", ExFunc 1)];
    PCode {| b_locals := []; b_badlocals := false; b_ops := [FBlock true [] []; FBasic (BGet 0); FBasic (BGet 1); FBasic (BOp (SNum2 (B_irel W32 Ieq))); FIf [] []; FBasic (BConst (VI32 (-1)%Z)); FReturn; FEnd; FBasic (BGet 0); FBasic (BOp (SLoad LI32_8u 0%Z)); FBasic (BGet 2); FBasic (BOp (SNum2 (B_irel W32 Ieq))); FIf [] []; FBasic (BGet 0); FBasic (BConst (VI32 1%Z)); FBasic (BOp (SNum2 (B_int W32 Iadd))); FBasic (BSet 0); FBr 1; FEnd; FEnd; FBasic (BGet 0); FReturn; FEnd]; b_bad := false |};
    PCode {| b_locals := []; b_badlocals := false; b_ops := [FBasic (BGet 0); FBasic (BGet 1); FBasic (BGet 2); FBasic (BOp SMemFill); FEnd]; b_bad := false |} ].
Definition w_memoryfill_6 : list payload :=
  [ PVersion 1;
    PTypes [Some ([TI32; TI32; TI32], [TI32]); Some ([TI32; TI32; TI32], [])];
    PFuncs [Some 0; Some 1];
    PMems [Some (1%Z, Some 1%Z)];
    PExports [Some ("checkRange", ExFunc 0); Some ("run", ExFunc 1)];
    PCode {| b_locals := []; b_badlocals := false; b_ops := [FBlock true [] []; FBasic (BGet 0); FBasic (BGet 1); FBasic (BOp (SNum2 (B_irel W32 Ieq))); FIf [] []; FBasic (BConst (VI32 (-1)%Z)); FReturn; FEnd; FBasic (BGet 0); FBasic (BOp (SLoad LI32_8u 0%Z)); FBasic (BGet 2); FBasic (BOp (SNum2 (B_irel W32 Ieq))); FIf [] []; FBasic (BGet 0); FBasic (BConst (VI32 1%Z)); FBasic (BOp (SNum2 (B_int W32 Iadd))); FBasic (BSet 0); FBr 1; FEnd; FEnd; FBasic (BGet 0); FReturn; FEnd]; b_bad := false |};
    PCode {| b_locals := []; b_badlocals := false; b_ops := [FBasic (BGet 0); FBasic (BGet 1); FBasic (BGet 2); FBasic (BOp SMemFill); FEnd]; b_bad := false |} ].
Definition w_memoryfill_7 : list payload :=
  [ PVersion 1;
    PTypes [Some ([TI32; TI32; TI32], [TI32]); Some ([TI32; TI32; TI32], [])];
    PFuncs [Some 0; Some 1];
    PMems [Some (1%Z, Some 1%Z)];
    PExports [Some ("checkRange", ExFunc 0); Some ("run", ExFunc 1)];
    PCode {| b_locals := []; b_badlocals := false; b_ops := [FBlock true [] []; FBasic (BGet 0); FBasic (BGet 1); FBasic (BOp (SNum2 (B_irel W32 Ieq))); FIf [] []; FBasic (BConst (VI32 (-1)%Z)); FReturn; FEnd; FBasic (BGet 0); FBasic (BOp (SLoad LI32_8u 0%Z)); FBasic (BGet 2); FBasic (BOp (SNum2 (B_irel W32 Ieq))); FIf [] []; FBasic (BGet 0); FBasic (BConst (VI32 1%Z)); FBasic (BOp (SNum2 (B_int W32 Iadd))); FBasic (BSet 0); FBr 1; FEnd; FEnd; FBasic (BGet 0); FReturn; FEnd]; b_bad := false |};
    PCode {| b_locals := []; b_badlocals := false; b_ops := [FBasic (BGet 0); FBasic (BGet 1); FBasic (BGet 2); FBasic (BOp SMemFill); FEnd]; b_bad := false |} ].
Definition w_memoryinit_1 : list payload :=
  [ PVersion 1;
    PTypes [Some ([], []); Some ([TI32], [TI32])];
    PFuncs [Some 0; Some 1];
    PMems [Some (1%Z, Some 1%Z)];
    PExports [Some ("memory0", ExMem 0); Some ("test", ExFunc 0); Some ("load8_u", ExFunc 1)];
    PCode {| b_locals := []; b_badlocals := false; b_ops := [FBasic BNop; FEnd]; b_bad := false |};
    PCode {| b_locals := []; b_badlocals := false; b_ops := [FBasic (BGet 0); FBasic (BOp (SLoad LI32_8u 0%Z)); FEnd]; b_bad := false |};
    PDatas [Some {| ds_bytes := [3%Z; 1%Z; 4%Z; 1%Z]; ds_mode := MActive 0 [CVal (VI32 2%Z)] |}; Some {| ds_bytes := [2%Z; 7%Z; 1%Z; 8%Z]; ds_mode := MPassive |}; Some {| ds_bytes := [7%Z; 5%Z; 2%Z; 3%Z; 6%Z]; ds_mode := MActive 0 [CVal (VI32 12%Z)] |}; Some {| ds_bytes := [5%Z; 9%Z; 2%Z; 7%Z; 6%Z]; ds_mode := MPassive |}] ].
Definition w_memoryinit_2 : list payload :=
  [ PVersion 1;
    PTypes [Some ([], []); Some ([TI32], [TI32])];
    PFuncs [Some 0; Some 1];
    PMems [Some (1%Z, Some 1%Z)];
    PExports [Some ("memory0", ExMem 0); Some ("test", ExFunc 0); Some ("load8_u", ExFunc 1)];
    POther;
    PCode {| b_locals := []; b_badlocals := false; b_ops := [FBasic (BConst (VI32 7%Z)); FBasic (BConst (VI32 0%Z)); FBasic (BConst (VI32 4%Z)); FBasic (BOp (SMemInit 1)); FEnd]; b_bad := false |};
    PCode {| b_locals := []; b_badlocals := false; b_ops := [FBasic (BGet 0); FBasic (BOp (SLoad LI32_8u 0%Z)); FEnd]; b_bad := false |};
    PDatas [Some {| ds_bytes := [3%Z; 1%Z; 4%Z; 1%Z]; ds_mode := MActive 0 [CVal (VI32 2%Z)] |}; Some {| ds_bytes := [2%Z; 7%Z; 1%Z; 8%Z]; ds_mode := MPassive |}; Some {| ds_bytes := [7%Z; 5%Z; 2%Z; 3%Z; 6%Z]; ds_mode := MActive 0 [CVal (VI32 12%Z)] |}; Some {| ds_bytes := [5%Z; 9%Z; 2%Z; 7%Z; 6%Z]; ds_mode := MPassive |}] ].
Definition w_memoryinit_3 : list payload :=
  [ PVersion 1;
    PTypes [Some ([], []); Some ([TI32], [TI32])];
    PFuncs [Some 0; Some 1];
    PMems [Some (1%Z, Some 1%Z)];
    PExports [Some ("memory0", ExMem 0); Some ("test", ExFunc 0); Some ("load8_u", ExFunc 1)];
    POther;
    PCode {| b_locals := []; b_badlocals := false; b_ops := [FBasic (BConst (VI32 15%Z)); FBasic (BConst (VI32 1%Z)); FBasic (BConst (VI32 3%Z)); FBasic (BOp (SMemInit 3)); FEnd]; b_bad := false |};
    PCode {| b_locals := []; b_badlocals := false; b_ops := [FBasic (BGet 0); FBasic (BOp (SLoad LI32_8u 0%Z)); FEnd]; b_bad := false |};
    PDatas [Some {| ds_bytes := [3%Z; 1%Z; 4%Z; 1%Z]; ds_mode := MActive 0 [CVal (VI32 2%Z)] |}; Some {| ds_bytes := [2%Z; 7%Z; 1%Z; 8%Z]; ds_mode := MPassive |}; Some {| ds_bytes := [7%Z; 5%Z; 2%Z; 3%Z; 6%Z]; ds_mode := MActive 0 [CVal (VI32 12%Z)] |}; Some {| ds_bytes := [5%Z; 9%Z; 2%Z; 7%Z; 6%Z]; ds_mode := MPassive |}] ].
Definition w_memoryinit_4 : list payload :=
  [ PVersion 1;
    PTypes [Some ([], []); Some ([TI32], [TI32])];
    PFuncs [Some 0; Some 1];
    PMems [Some (1%Z, Some 1%Z)];
    PExports [Some ("memory0", ExMem 0); Some ("test", ExFunc 0); Some ("load8_u", ExFunc 1)];
    POther;
    PCode {| b_locals := []; b_badlocals := false; b_ops := [FBasic (BConst (VI32 7%Z)); FBasic (BConst (VI32 0%Z)); FBasic (BConst (VI32 4%Z)); FBasic (BOp (SMemInit 1)); FBasic (BOp (SDataDrop 1)); FBasic (BConst (VI32 15%Z)); FBasic (BConst (VI32 1%Z)); FBasic (BConst (VI32 3%Z)); FBasic (BOp (SMemInit 3)); FBasic (BOp (SDataDrop 3)); FBasic (BConst (VI32 20%Z)); FBasic (BConst (VI32 15%Z)); FBasic (BConst (VI32 5%Z)); FBasic (BOp SMemCopy); FBasic (BConst (VI32 21%Z)); FBasic (BConst (VI32 29%Z)); FBasic (BConst (VI32 1%Z)); FBasic (BOp SMemCopy); FBasic (BConst (VI32 24%Z)); FBasic (BConst (VI32 10%Z)); FBasic (BConst (VI32 1%Z)); FBasic (BOp SMemCopy); FBasic (BConst (VI32 13%Z)); FBasic (BConst (VI32 11%Z)); FBasic (BConst (VI32 4%Z)); FBasic (BOp SMemCopy); FBasic (BConst (VI32 19%Z)); FBasic (BConst (VI32 20%Z)); FBasic (BConst (VI32 5%Z)); FBasic (BOp SMemCopy); FEnd]; b_bad := false |};
    PCode {| b_locals := []; b_badlocals := false; b_ops := [FBasic (BGet 0); FBasic (BOp (SLoad LI32_8u 0%Z)); FEnd]; b_bad := false |};
    PDatas [Some {| ds_bytes := [3%Z; 1%Z; 4%Z; 1%Z]; ds_mode := MActive 0 [CVal (VI32 2%Z)] |}; Some {| ds_bytes := [2%Z; 7%Z; 1%Z; 8%Z]; ds_mode := MPassive |}; Some {| ds_bytes := [7%Z; 5%Z; 2%Z; 3%Z; 6%Z]; ds_mode := MActive 0 [CVal (VI32 12%Z)] |}; Some {| ds_bytes := [5%Z; 9%Z; 2%Z; 7%Z; 6%Z]; ds_mode := MPassive |}] ].
Definition w_memoryinit_5 : list payload :=
  [ PVersion 1;
    PTypes [Some ([TI32; TI32; TI32], [TI32]); Some ([TI32; TI32], [])];
    PFuncs [Some 0; Some 1];
    PMems [Some (1%Z, Some 1%Z)];
    PExports [Some ("checkRange", ExFunc 0); Some ("run", ExFunc 1)];
    POther;
    PCode {| b_locals := []; b_badlocals := false; b_ops := [FBlock true [] []; FBasic (BGet 0); FBasic (BGet 1); FBasic (BOp (SNum2 (B_irel W32 Ieq))); FIf [] []; FBasic (BConst (VI32 (-1)%Z)); FReturn; FEnd; FBasic (BGet 0); FBasic (BOp (SLoad LI32_8u 0%Z)); FBasic (BGet 2); FBasic (BOp (SNum2 (B_irel W32 Ieq))); FIf [] []; FBasic (BGet 0); FBasic (BConst (VI32 1%Z)); FBasic (BOp (SNum2 (B_int W32 Iadd))); FBasic (BSet 0); FBr 1; FEnd; FEnd; FBasic (BGet 0); FReturn; FEnd]; b_bad := false |};
    PCode {| b_locals := []; b_badlocals := false; b_ops := [FBasic (BGet 0); FBasic (BConst (VI32 0%Z)); FBasic (BGet 1); FBasic (BOp (SMemInit 0)); FEnd]; b_bad := false |};
    PDatas [Some {| ds_bytes := [66%Z; 66%Z; 66%Z; 66%Z; 66%Z; 66%Z; 66%Z; 66%Z; 66%Z; 66%Z; 66%Z; 66%Z; 66%Z; 66%Z; 66%Z; 66%Z]; ds_mode := MPassive |}] ].
Definition w_memoryinit_6 : list payload :=
  [ PVersion 1;
    PTypes [Some ([TI32; TI32; TI32], [TI32]); Some ([TI32; TI32], [])];
    PFuncs [Some 0; Some 1];
    PMems [Some (1%Z, Some 1%Z)];
    PExports [Some ("checkRange", ExFunc 0); Some ("run", ExFunc 1)];
    POther;
    PCode {| b_locals := []; b_badlocals := false; b_ops := [FBlock true [] []; FBasic (BGet 0); FBasic (BGet 1); FBasic (BOp (SNum2 (B_irel W32 Ieq))); FIf [] []; FBasic (BConst (VI32 (-1)%Z)); FReturn; FEnd; FBasic (BGet 0); FBasic (BOp (SLoad LI32_8u 0%Z)); FBasic (BGet 2); FBasic (BOp (SNum2 (B_irel W32 Ieq))); FIf [] []; FBasic (BGet 0); FBasic (BConst (VI32 1%Z)); FBasic (BOp (SNum2 (B_int W32 Iadd))); FBasic (BSet 0); FBr 1; FEnd; FEnd; FBasic (BGet 0); FReturn; FEnd]; b_bad := false |};
    PCode {| b_locals := []; b_badlocals := false; b_ops := [FBasic (BGet 0); FBasic (BConst (VI32 0%Z)); FBasic (BGet 1); FBasic (BOp (SMemInit 0)); FEnd]; b_bad := false |};
    PDatas [Some {| ds_bytes := [66%Z; 66%Z; 66%Z; 66%Z; 66%Z; 66%Z; 66%Z; 66%Z; 66%Z; 66%Z; 66%Z; 66%Z; 66%Z; 66%Z; 66%Z; 66%Z]; ds_mode := MPassive |}] ].
Definition w_memoryinit_7 : list payload :=
  [ PVersion 1;
    PTypes [Some ([TI32; TI32; TI32], [TI32]); Some ([TI32; TI32], [])];
    PFuncs [Some 0; Some 1];
    PMems [Some (1%Z, Some 1%Z)];
    PExports [Some ("checkRange", ExFunc 0); Some ("run", ExFunc 1)];
    POther;
    PCode {| b_locals := []; b_badlocals := false; b_ops := [FBlock true [] []; FBasic (BGet 0); FBasic (BGet 1); FBasic (BOp (SNum2 (B_irel W32 Ieq))); FIf [] []; FBasic (BConst (VI32 (-1)%Z)); FReturn; FEnd; FBasic (BGet 0); FBasic (BOp (SLoad LI32_8u 0%Z)); FBasic (BGet 2); FBasic (BOp (SNum2 (B_irel W32 Ieq))); FIf [] []; FBasic (BGet 0); FBasic (BConst (VI32 1%Z)); FBasic (BOp (SNum2 (B_int W32 Iadd))); FBasic (BSet 0); FBr 1; FEnd; FEnd; FBasic (BGet 0); FReturn; FEnd]; b_bad := false |};
    PCode {| b_locals := []; b_badlocals := false; b_ops := [FBasic (BGet 0); FBasic (BConst (VI32 0%Z)); FBasic (BGet 1); FBasic (BOp (SMemInit 0)); FEnd]; b_bad := false |};
    PDatas [Some {| ds_bytes := [66%Z; 66%Z; 66%Z; 66%Z; 66%Z; 66%Z; 66%Z; 66%Z; 66%Z; 66%Z; 66%Z; 66%Z; 66%Z; 66%Z; 66%Z; 66%Z]; ds_mode := MPassive |}] ].
Definition w_memoryinit_8 : list payload :=
  [ PVersion 1;
    PTypes [Some ([TI32; TI32; TI32], [TI32]); Some ([TI32; TI32], [])];
    PFuncs [Some 0; Some 1];
    PMems [Some (1%Z, Some 1%Z)];
    PExports [Some ("checkRange", ExFunc 0); Some ("run", ExFunc 1)];
    POther;
    PCode {| b_locals := []; b_badlocals := false; b_ops := [FBlock true [] []; FBasic (BGet 0); FBasic (BGet 1); FBasic (BOp (SNum2 (B_irel W32 Ieq))); FIf [] []; FBasic (BConst (VI32 (-1)%Z)); FReturn; FEnd; FBasic (BGet 0); FBasic (BOp (SLoad LI32_8u 0%Z)); FBasic (BGet 2); FBasic (BOp (SNum2 (B_irel W32 Ieq))); FIf [] []; FBasic (BGet 0); FBasic (BConst (VI32 1%Z)); FBasic (BOp (SNum2 (B_int W32 Iadd))); FBasic (BSet 0); FBr 1; FEnd; FEnd; FBasic (BGet 0); FReturn; FEnd]; b_bad := false |};
    PCode {| b_locals := []; b_badlocals := false; b_ops := [FBasic (BGet 0); FBasic (BConst (VI32 0%Z)); FBasic (BGet 1); FBasic (BOp (SMemInit 0)); FEnd]; b_bad := false |};
    PDatas [Some {| ds_bytes := [66%Z; 66%Z; 66%Z; 66%Z; 66%Z; 66%Z; 66%Z; 66%Z; 66%Z; 66%Z; 66%Z; 66%Z; 66%Z; 66%Z; 66%Z; 66%Z]; ds_mode := MPassive |}] ].
Definition w_memoryinit_9 : list payload :=
  [ PVersion 1;
    PTypes [Some ([TI32; TI32; TI32], [TI32]); Some ([TI32; TI32], [])];
    PFuncs [Some 0; Some 1];
    PMems [Some (1%Z, None)];
    PExports [Some ("checkRange", ExFunc 0); Some ("run", ExFunc 1)];
    POther;
    PCode {| b_locals := []; b_badlocals := false; b_ops := [FBlock true [] []; FBasic (BGet 0); FBasic (BGet 1); FBasic (BOp (SNum2 (B_irel W32 Ieq))); FIf [] []; FBasic (BConst (VI32 (-1)%Z)); FReturn; FEnd; FBasic (BGet 0); FBasic (BOp (SLoad LI32_8u 0%Z)); FBasic (BGet 2); FBasic (BOp (SNum2 (B_irel W32 Ieq))); FIf [] []; FBasic (BGet 0); FBasic (BConst (VI32 1%Z)); FBasic (BOp (SNum2 (B_int W32 Iadd))); FBasic (BSet 0); FBr 1; FEnd; FEnd; FBasic (BGet 0); FReturn; FEnd]; b_bad := false |};
    PCode {| b_locals := []; b_badlocals := false; b_ops := [FBasic (BGet 0); FBasic (BConst (VI32 0%Z)); FBasic (BGet 1); FBasic (BOp (SMemInit 0)); FEnd]; b_bad := false |};
    PDatas [Some {| ds_bytes := [66%Z; 66%Z; 66%Z; 66%Z; 66%Z; 66%Z; 66%Z; 66%Z; 66%Z; 66%Z; 66%Z; 66%Z; 66%Z; 66%Z; 66%Z; 66%Z]; ds_mode := MPassive |}] ].
Definition w_memoryinit_10 : list payload :=
  [ PVersion 1;
    PTypes [Some ([TI32; TI32; TI32], [TI32]); Some ([TI32; TI32], [])];
    PFuncs [Some 0; Some 1];
    PMems [Some (1%Z, None)];
    PExports [Some ("checkRange", ExFunc 0); Some ("run", ExFunc 1)];
    POther;
    PCode {| b_locals := []; b_badlocals := false; b_ops := [FBlock true [] []; FBasic (BGet 0); FBasic (BGet 1); FBasic (BOp (SNum2 (B_irel W32 Ieq))); FIf [] []; FBasic (BConst (VI32 (-1)%Z)); FReturn; FEnd; FBasic (BGet 0); FBasic (BOp (SLoad LI32_8u 0%Z)); FBasic (BGet 2); FBasic (BOp (SNum2 (B_irel W32 Ieq))); FIf [] []; FBasic (BGet 0); FBasic (BConst (VI32 1%Z)); FBasic (BOp (SNum2 (B_int W32 Iadd))); FBasic (BSet 0); FBr 1; FEnd; FEnd; FBasic (BGet 0); FReturn; FEnd]; b_bad := false |};
    PCode {| b_locals := []; b_badlocals := false; b_ops := [FBasic (BGet 0); FBasic (BConst (VI32 0%Z)); FBasic (BGet 1); FBasic (BOp (SMemInit 0)); FEnd]; b_bad := false |};
    PDatas [Some {| ds_bytes := [66%Z; 66%Z; 66%Z; 66%Z; 66%Z; 66%Z; 66%Z; 66%Z; 66%Z; 66%Z; 66%Z; 66%Z; 66%Z; 66%Z; 66%Z; 66%Z]; ds_mode := MPassive |}] ].
Definition w_memorysize_1 : list payload :=
  [ PVersion 1;
    PTypes [Some ([], [TI32]); Some ([TI32], [])];
    PFuncs [Some 0; Some 1];
    PMems [Some (0%Z, None)];
    PExports [Some ("size", ExFunc 0); Some ("grow", ExFunc 1)];
    PCode {| b_locals := []; b_badlocals := false; b_ops := [FBasic (BOp SMemSize); FEnd]; b_bad := false |};
    PCode {| b_locals := []; b_badlocals := false; b_ops := [FBasic (BGet 0); FBasic (BOp SMemGrow); FBasic BDrop; FEnd]; b_bad := false |} ].
Definition w_memorysize_2 : list payload :=
  [ PVersion 1;
    PTypes [Some ([], [TI32]); Some ([TI32], [])];
    PFuncs [Some 0; Some 1];
    PMems [Some (1%Z, None)];
    PExports [Some ("size", ExFunc 0); Some ("grow", ExFunc 1)];
    PCode {| b_locals := []; b_badlocals := false; b_ops := [FBasic (BOp SMemSize); FEnd]; b_bad := false |};
    PCode {| b_locals := []; b_badlocals := false; b_ops := [FBasic (BGet 0); FBasic (BOp SMemGrow); FBasic BDrop; FEnd]; b_bad := false |} ].
Definition w_memorysize_3 : list payload :=
  [ PVersion 1;
    PTypes [Some ([], [TI32]); Some ([TI32], [])];
    PFuncs [Some 0; Some 1];
    PMems [Some (0%Z, Some 2%Z)];
    PExports [Some ("size", ExFunc 0); Some ("grow", ExFunc 1)];
    PCode {| b_locals := []; b_badlocals := false; b_ops := [FBasic (BOp SMemSize); FEnd]; b_bad := false |};
    PCode {| b_locals := []; b_badlocals := false; b_ops := [FBasic (BGet 0); FBasic (BOp SMemGrow); FBasic BDrop; FEnd]; b_bad := false |} ].
Definition w_memorysize_4 : list payload :=
  [ PVersion 1;
    PTypes [Some ([], [TI32]); Some ([TI32], [])];
    PFuncs [Some 0; Some 1];
    PMems [Some (3%Z, Some 8%Z)];
    PExports [Some ("size", ExFunc 0); Some ("grow", ExFunc 1)];
    PCode {| b_locals := []; b_badlocals := false; b_ops := [FBasic (BOp SMemSize); FEnd]; b_bad := false |};
    PCode {| b_locals := []; b_badlocals := false; b_ops := [FBasic (BGet 0); FBasic (BOp SMemGrow); FBasic BDrop; FEnd]; b_bad := false |} ].
Definition w_ref_is_null : list payload :=
  [ PVersion 1;
    PTypes [Some ([TFuncRef], [TI32]); Some ([TExternRef], [TI32]); Some ([], []); Some ([TExternRef], []); Some ([TI32], [TI32])];
    PFuncs [Some 0; Some 1; Some 2; Some 3; Some 2; Some 4; Some 4];
    PTables [Some 2%Z; Some 2%Z];
    PExports [Some ("funcref", ExFunc 0); Some ("externref", ExFunc 1); Some ("init", ExFunc 3); Some ("deinit", ExFunc 4); Some ("funcref-elem", ExFunc 5); Some ("externref-elem", ExFunc 6)];
    PElems [Some {| e_extern := false; e_idxes := Some [2]; e_init := None; e_mode := MActive 0 [CVal (VI32 1%Z)] |}];
    PCode {| b_locals := []; b_badlocals := false; b_ops := [FBasic (BGet 0); FBasic (BOp SRefIsNull); FEnd]; b_bad := false |};
    PCode {| b_locals := []; b_badlocals := false; b_ops := [FBasic (BGet 0); FBasic (BOp SRefIsNull); FEnd]; b_bad := false |};
    PCode {| b_locals := []; b_badlocals := false; b_ops := [FEnd]; b_bad := false |};
    PCode {| b_locals := []; b_badlocals := false; b_ops := [FBasic (BConst (VI32 1%Z)); FBasic (BGet 0); FBasic (BOp (STableSet 1 TExternRef)); FEnd]; b_bad := false |};
    PCode {| b_locals := []; b_badlocals := false; b_ops := [FBasic (BConst (VI32 1%Z)); FBasic (BOp (SRefNull TFuncRef)); FBasic (BOp (STableSet 0 TFuncRef)); FBasic (BConst (VI32 1%Z)); FBasic (BOp (SRefNull TExternRef)); FBasic (BOp (STableSet 1 TExternRef)); FEnd]; b_bad := false |};
    PCode {| b_locals := []; b_badlocals := false; b_ops := [FBasic (BGet 0); FBasic (BOp (STableGet 0 TFuncRef)); FCall 0; FEnd]; b_bad := false |};
    PCode {| b_locals := []; b_badlocals := false; b_ops := [FBasic (BGet 0); FBasic (BOp (STableGet 1 TExternRef)); FCall 1; FEnd]; b_bad := false |} ].
Definition w_ref_null : list payload :=
  [ PVersion 1;
    PTypes [Some ([], [TExternRef]); Some ([], [TFuncRef])];
    PFuncs [Some 0; Some 1];
    PGlobals [Some [CNull]; Some [CNull]];
    PExports [Some ("externref", ExFunc 0); Some ("funcref", ExFunc 1)];
    PCode {| b_locals := []; b_badlocals := false; b_ops := [FBasic (BOp (SRefNull TExternRef)); FEnd]; b_bad := false |};
    PCode {| b_locals := []; b_badlocals := false; b_ops := [FBasic (BOp (SRefNull TFuncRef)); FEnd]; b_bad := false |} ].
Definition w_select : list payload :=
  [ PVersion 1;
    PTypes [Some ([TI32; TI32], [TI32]); Some ([], []); Some ([TI32; TI32; TI32], [TI32]); Some ([TI64; TI64; TI32], [TI64]); Some ([TF32; TF32; TI32], [TF32]); Some ([TF64; TF64; TI32], [TF64]); Some ([TFuncRef; TFuncRef; TI32], [TFuncRef]); Some ([TExternRef; TExternRef; TI32], [TExternRef]); Some ([TI32], [TI32]); Some ([TI32], [])];
    PFuncs [Some 1; Some 2; Some 3; Some 4; Some 5; Some 2; Some 3; Some 4; Some 5; Some 6; Some 7; Some 8; Some 8; Some 8; Some 8; Some 8; Some 8; Some 9; Some 8; Some 8; Some 8; Some 8; Some 8; Some 8; Some 0; Some 8; Some 8; Some 8; Some 9; Some 9; Some 8; Some 8; Some 8; Some 8; Some 9; Some 8; Some 8; Some 8; Some 8; Some 8; Some 8; Some 8; Some 8; Some 8; Some 8; Some 8];
    PTables [Some 1%Z; Some 1%Z];
    PMems [Some (1%Z, None)];
    PGlobals [Some [CVal (VI32 10%Z)]];
    PExports [Some ("select-i32", ExFunc 1); Some ("select-i64", ExFunc 2); Some ("select-f32", ExFunc 3); Some ("select-f64", ExFunc 4); Some ("select-i32-t", ExFunc 5); Some ("select-i64-t", ExFunc 6); Some ("select-f32-t", ExFunc 7); Some ("select-f64-t", ExFunc 8); Some ("select-funcref", ExFunc 9); Some ("select-externref", ExFunc 10); Some ("as-select-first", ExFunc 11); Some ("as-select-mid", ExFunc 12); Some ("as-select-last", ExFunc 13); Some ("as-loop-first", ExFunc 14); Some ("as-loop-mid", ExFunc 15); Some ("as-loop-last", ExFunc 16); Some ("as-if-condition", ExFunc 17); Some ("as-if-then", ExFunc 18); Some ("as-if-else", ExFunc 19); Some ("as-br_if-first", ExFunc 20); Some ("as-br_if-last", ExFunc 21); Some ("as-br_table-first", ExFunc 22); Some ("as-br_table-last", ExFunc 23); Some ("as-call_indirect-first", ExFunc 25); Some ("as-call_indirect-mid", ExFunc 26); Some ("as-call_indirect-last", ExFunc 27); Some ("as-store-first", ExFunc 28); Some ("as-store-last", ExFunc 29); Some ("as-memory.grow-value", ExFunc 30); Some ("as-call-value", ExFunc 32); Some ("as-return-value", ExFunc 33); Some ("as-drop-operand", ExFunc 34); Some ("as-br-value", ExFunc 35); Some ("as-local.set-value", ExFunc 36); Some ("as-local.tee-value", ExFunc 37); Some ("as-global.set-value", ExFunc 38); Some ("as-load-operand", ExFunc 39); Some ("as-unary-operand", ExFunc 40); Some ("as-binary-operand", ExFunc 41); Some ("as-test-operand", ExFunc 42); Some ("as-compare-left", ExFunc 43); Some ("as-compare-right", ExFunc 44); Some ("as-convert-operand", ExFunc 45)];
    PElems [Some {| e_extern := false; e_idxes := Some [0]; e_init := None; e_mode := MActive 0 [CVal (VI32 0%Z)] |}; Some {| e_extern := false; e_idxes := Some [24]; e_init := None; e_mode := MActive 1 [CVal (VI32 0%Z)] |}];
    PCode {| b_locals := []; b_badlocals := false; b_ops := [FEnd]; b_bad := false |};
    PCode {| b_locals := []; b_badlocals := false; b_ops := [FBasic (BGet 0); FBasic (BGet 1); FBasic (BGet 2); FBasic (BSelect None); FEnd]; b_bad := false |};
    PCode {| b_locals := []; b_badlocals := false; b_ops := [FBasic (BGet 0); FBasic (BGet 1); FBasic (BGet 2); FBasic (BSelect None); FEnd]; b_bad := false |};
    PCode {| b_locals := []; b_badlocals := false; b_ops := [FBasic (BGet 0); FBasic (BGet 1); FBasic (BGet 2); FBasic (BSelect None); FEnd]; b_bad := false |};
    PCode {| b_locals := []; b_badlocals := false; b_ops := [FBasic (BGet 0); FBasic (BGet 1); FBasic (BGet 2); FBasic (BSelect None); FEnd]; b_bad := false |};
    PCode {| b_locals := []; b_badlocals := false; b_ops := [FBasic (BGet 0); FBasic (BGet 1); FBasic (BGet 2); FBasic (BSelect (Some TI32)); FEnd]; b_bad := false |};
    PCode {| b_locals := []; b_badlocals := false; b_ops := [FBasic (BGet 0); FBasic (BGet 1); FBasic (BGet 2); FBasic (BSelect (Some TI64)); FEnd]; b_bad := false |};
    PCode {| b_locals := []; b_badlocals := false; b_ops := [FBasic (BGet 0); FBasic (BGet 1); FBasic (BGet 2); FBasic (BSelect (Some TF32)); FEnd]; b_bad := false |};
    PCode {| b_locals := []; b_badlocals := false; b_ops := [FBasic (BGet 0); FBasic (BGet 1); FBasic (BGet 2); FBasic (BSelect (Some TF64)); FEnd]; b_bad := false |};
    PCode {| b_locals := []; b_badlocals := false; b_ops := [FBasic (BGet 0); FBasic (BGet 1); FBasic (BGet 2); FBasic (BSelect (Some TFuncRef)); FEnd]; b_bad := false |};
    PCode {| b_locals := []; b_badlocals := false; b_ops := [FBasic (BGet 0); FBasic (BGet 1); FBasic (BGet 2); FBasic (BSelect (Some TExternRef)); FEnd]; b_bad := false |};
    PCode {| b_locals := []; b_badlocals := false; b_ops := [FBasic (BConst (VI32 0%Z)); FBasic (BConst (VI32 1%Z)); FBasic (BGet 0); FBasic (BSelect None); FBasic (BConst (VI32 2%Z)); FBasic (BConst (VI32 3%Z)); FBasic (BSelect None); FEnd]; b_bad := false |};
    PCode {| b_locals := []; b_badlocals := false; b_ops := [FBasic (BConst (VI32 2%Z)); FBasic (BConst (VI32 0%Z)); FBasic (BConst (VI32 1%Z)); FBasic (BGet 0); FBasic (BSelect None); FBasic (BConst (VI32 3%Z)); FBasic (BSelect None); FEnd]; b_bad := false |};
    PCode {| b_locals := []; b_badlocals := false; b_ops := [FBasic (BConst (VI32 2%Z)); FBasic (BConst (VI32 3%Z)); FBasic (BConst (VI32 0%Z)); FBasic (BConst (VI32 1%Z)); FBasic (BGet 0); FBasic (BSelect None); FBasic (BSelect None); FEnd]; b_bad := false |};
    PCode {| b_locals := []; b_badlocals := false; b_ops := [FBlock true [] [TI32]; FBasic (BConst (VI32 2%Z)); FBasic (BConst (VI32 3%Z)); FBasic (BGet 0); FBasic (BSelect None); FCall 0; FCall 0; FEnd; FEnd]; b_bad := false |};
    PCode {| b_locals := []; b_badlocals := false; b_ops := [FBlock true [] [TI32]; FCall 0; FBasic (BConst (VI32 2%Z)); FBasic (BConst (VI32 3%Z)); FBasic (BGet 0); FBasic (BSelect None); FCall 0; FEnd; FEnd]; b_bad := false |};
    PCode {| b_locals := []; b_badlocals := false; b_ops := [FBlock true [] [TI32]; FCall 0; FCall 0; FBasic (BConst (VI32 2%Z)); FBasic (BConst (VI32 3%Z)); FBasic (BGet 0); FBasic (BSelect None); FEnd; FEnd]; b_bad := false |};
    PCode {| b_locals := []; b_badlocals := false; b_ops := [FBasic (BConst (VI32 2%Z)); FBasic (BConst (VI32 3%Z)); FBasic (BGet 0); FBasic (BSelect None); FIf [] []; FCall 0; FEnd; FEnd]; b_bad := false |};
    PCode {| b_locals := []; b_badlocals := false; b_ops := [FBasic (BConst (VI32 1%Z)); FIf [] [TI32]; FBasic (BConst (VI32 2%Z)); FBasic (BConst (VI32 3%Z)); FBasic (BGet 0); FBasic (BSelect None); FElse; FBasic (BConst (VI32 4%Z)); FEnd; FEnd]; b_bad := false |};
    PCode {| b_locals := []; b_badlocals := false; b_ops := [FBasic (BConst (VI32 0%Z)); FIf [] [TI32]; FBasic (BConst (VI32 2%Z)); FElse; FBasic (BConst (VI32 2%Z)); FBasic (BConst (VI32 3%Z)); FBasic (BGet 0); FBasic (BSelect None); FEnd; FEnd]; b_bad := false |};
    PCode {| b_locals := []; b_badlocals := false; b_ops := [FBlock false [] [TI32]; FBasic (BConst (VI32 2%Z)); FBasic (BConst (VI32 3%Z)); FBasic (BGet 0); FBasic (BSelect None); FBasic (BConst (VI32 4%Z)); FBrIf 0; FEnd; FEnd]; b_bad := false |};
    PCode {| b_locals := []; b_badlocals := false; b_ops := [FBlock false [] [TI32]; FBasic (BConst (VI32 2%Z)); FBasic (BConst (VI32 2%Z)); FBasic (BConst (VI32 3%Z)); FBasic (BGet 0); FBasic (BSelect None); FBrIf 0; FEnd; FEnd]; b_bad := false |};
    PCode {| b_locals := []; b_badlocals := false; b_ops := [FBlock false [] [TI32]; FBasic (BConst (VI32 2%Z)); FBasic (BConst (VI32 3%Z)); FBasic (BGet 0); FBasic (BSelect None); FBasic (BConst (VI32 2%Z)); FBrTable [0] 0; FEnd; FEnd]; b_bad := false |};
    PCode {| b_locals := []; b_badlocals := false; b_ops := [FBlock false [] [TI32]; FBasic (BConst (VI32 2%Z)); FBasic (BConst (VI32 2%Z)); FBasic (BConst (VI32 3%Z)); FBasic (BGet 0); FBasic (BSelect None); FBrTable [0] 0; FEnd; FEnd]; b_bad := false |};
    PCode {| b_locals := []; b_badlocals := false; b_ops := [FBasic (BGet 0); FEnd]; b_bad := false |};
    PCode {| b_locals := []; b_badlocals := false; b_ops := [FBlock false [] [TI32]; FBasic (BConst (VI32 2%Z)); FBasic (BConst (VI32 3%Z)); FBasic (BGet 0); FBasic (BSelect None); FBasic (BConst (VI32 1%Z)); FBasic (BConst (VI32 0%Z)); FCallInd 0 1; FEnd; FEnd]; b_bad := false |};
    PCode {| b_locals := []; b_badlocals := false; b_ops := [FBlock false [] [TI32]; FBasic (BConst (VI32 1%Z)); FBasic (BConst (VI32 2%Z)); FBasic (BConst (VI32 3%Z)); FBasic (BGet 0); FBasic (BSelect None); FBasic (BConst (VI32 0%Z)); FCallInd 0 1; FEnd; FEnd]; b_bad := false |};
    PCode {| b_locals := []; b_badlocals := false; b_ops := [FBlock false [] [TI32]; FBasic (BConst (VI32 1%Z)); FBasic (BConst (VI32 4%Z)); FBasic (BConst (VI32 2%Z)); FBasic (BConst (VI32 3%Z)); FBasic (BGet 0); FBasic (BSelect None); FCallInd 0 1; FEnd; FEnd]; b_bad := false |};
    PCode {| b_locals := []; b_badlocals := false; b_ops := [FBasic (BConst (VI32 0%Z)); FBasic (BConst (VI32 4%Z)); FBasic (BGet 0); FBasic (BSelect None); FBasic (BConst (VI32 1%Z)); FBasic (BOp (SStore SI32 0%Z)); FEnd]; b_bad := false |};
    PCode {| b_locals := []; b_badlocals := false; b_ops := [FBasic (BConst (VI32 8%Z)); FBasic (BConst (VI32 1%Z)); FBasic (BConst (VI32 2%Z)); FBasic (BGet 0); FBasic (BSelect None); FBasic (BOp (SStore SI32 0%Z)); FEnd]; b_bad := false |};
    PCode {| b_locals := []; b_badlocals := false; b_ops := [FBasic (BConst (VI32 1%Z)); FBasic (BConst (VI32 2%Z)); FBasic (BGet 0); FBasic (BSelect None); FBasic (BOp SMemGrow); FEnd]; b_bad := false |};
    PCode {| b_locals := []; b_badlocals := false; b_ops := [FBasic (BGet 0); FEnd]; b_bad := false |};
    PCode {| b_locals := []; b_badlocals := false; b_ops := [FBasic (BConst (VI32 1%Z)); FBasic (BConst (VI32 2%Z)); FBasic (BGet 0); FBasic (BSelect None); FCall 31; FEnd]; b_bad := false |};
    PCode {| b_locals := []; b_badlocals := false; b_ops := [FBasic (BConst (VI32 1%Z)); FBasic (BConst (VI32 2%Z)); FBasic (BGet 0); FBasic (BSelect None); FReturn; FEnd]; b_bad := false |};
    PCode {| b_locals := []; b_badlocals := false; b_ops := [FBasic (BConst (VI32 1%Z)); FBasic (BConst (VI32 2%Z)); FBasic (BGet 0); FBasic (BSelect None); FBasic BDrop; FEnd]; b_bad := false |};
    PCode {| b_locals := []; b_badlocals := false; b_ops := [FBlock false [] [TI32]; FBasic (BConst (VI32 1%Z)); FBasic (BConst (VI32 2%Z)); FBasic (BGet 0); FBasic (BSelect None); FBr 0; FEnd; FEnd]; b_bad := false |};
    PCode {| b_locals := [TI32]; b_badlocals := false; b_ops := [FBasic (BConst (VI32 1%Z)); FBasic (BConst (VI32 2%Z)); FBasic (BGet 0); FBasic (BSelect None); FBasic (BSet 0); FBasic (BGet 0); FEnd]; b_bad := false |};
    PCode {| b_locals := []; b_badlocals := false; b_ops := [FBasic (BConst (VI32 1%Z)); FBasic (BConst (VI32 2%Z)); FBasic (BGet 0); FBasic (BSelect None); FBasic (BTee 0); FEnd]; b_bad := false |};
    PCode {| b_locals := []; b_badlocals := false; b_ops := [FBasic (BConst (VI32 1%Z)); FBasic (BConst (VI32 2%Z)); FBasic (BGet 0); FBasic (BSelect None); FBasic (BOp (SGlobalSet TI32 0)); FBasic (BOp (SGlobalGet TI32 0)); FEnd]; b_bad := false |};
    PCode {| b_locals := []; b_badlocals := false; b_ops := [FBasic (BConst (VI32 0%Z)); FBasic (BConst (VI32 4%Z)); FBasic (BGet 0); FBasic (BSelect None); FBasic (BOp (SLoad LI32 0%Z)); FEnd]; b_bad := false |};
    PCode {| b_locals := []; b_badlocals := false; b_ops := [FBasic (BConst (VI32 0%Z)); FBasic (BConst (VI32 1%Z)); FBasic (BGet 0); FBasic (BSelect None); FBasic (BOp (SNum1 (U_eqz W32))); FEnd]; b_bad := false |};
    PCode {| b_locals := []; b_badlocals := false; b_ops := [FBasic (BConst (VI32 1%Z)); FBasic (BConst (VI32 2%Z)); FBasic (BGet 0); FBasic (BSelect None); FBasic (BConst (VI32 1%Z)); FBasic (BConst (VI32 2%Z)); FBasic (BGet 0); FBasic (BSelect None); FBasic (BOp (SNum2 (B_int W32 Imul))); FEnd]; b_bad := false |};
    PCode {| b_locals := []; b_badlocals := false; b_ops := [FBlock false [] [TI32]; FBasic (BConst (VI32 0%Z)); FBasic (BConst (VI32 1%Z)); FBasic (BGet 0); FBasic (BSelect None); FBasic (BOp (SNum1 (U_eqz W32))); FEnd; FEnd]; b_bad := false |};
    PCode {| b_locals := []; b_badlocals := false; b_ops := [FBlock false [] [TI32]; FBasic (BConst (VI32 1%Z)); FBasic (BConst (VI32 2%Z)); FBasic (BGet 0); FBasic (BSelect None); FBasic (BConst (VI32 1%Z)); FBasic (BOp (SNum2 (B_irel W32 Ile_s))); FEnd; FEnd]; b_bad := false |};
    PCode {| b_locals := []; b_badlocals := false; b_ops := [FBlock false [] [TI32]; FBasic (BConst (VI32 1%Z)); FBasic (BConst (VI32 0%Z)); FBasic (BConst (VI32 1%Z)); FBasic (BGet 0); FBasic (BSelect None); FBasic (BOp (SNum2 (B_irel W32 Ine))); FEnd; FEnd]; b_bad := false |};
    PCode {| b_locals := []; b_badlocals := false; b_ops := [FBlock false [] [TI32]; FBasic (BConst (VI64 1%Z)); FBasic (BConst (VI64 0%Z)); FBasic (BGet 0); FBasic (BSelect None); FBasic (BOp (SCvt (C_wrap))); FEnd; FEnd]; b_bad := false |} ].
Definition w_stack : list payload :=
  [ PVersion 1;
    PTypes [Some ([TI64], [TI64]); Some ([], [TI32]); Some ([], [])];
    PFuncs [Some 0; Some 0; Some 0; Some 0; Some 0; Some 1; Some 2; Some 1];
    PGlobals [Some [CVal (VI32 0%Z)]];
    PExports [Some ("fac-expr", ExFunc 0); Some ("fac-stack", ExFunc 1); Some ("fac-stack-raw", ExFunc 2); Some ("fac-mixed", ExFunc 3); Some ("fac-mixed-raw", ExFunc 4); Some ("not-quite-a-tree", ExFunc 7)];
    PCode {| b_locals := [TI64; TI64]; b_badlocals := false; b_ops := [FBasic (BGet 0); FBasic (BSet 1); FBasic (BConst (VI64 1%Z)); FBasic (BSet 2); FBlock false [] []; FBlock true [] []; FBasic (BGet 1); FBasic (BConst (VI64 0%Z)); FBasic (BOp (SNum2 (B_irel W64 Ieq))); FIf [] []; FBr 2; FElse; FBasic (BGet 1); FBasic (BGet 2); FBasic (BOp (SNum2 (B_int W64 Imul))); FBasic (BSet 2); FBasic (BGet 1); FBasic (BConst (VI64 1%Z)); FBasic (BOp (SNum2 (B_int W64 Isub))); FBasic (BSet 1); FEnd; FBr 0; FEnd; FEnd; FBasic (BGet 2); FEnd]; b_bad := false |};
    PCode {| b_locals := [TI64; TI64]; b_badlocals := false; b_ops := [FBasic (BGet 0); FBasic (BSet 1); FBasic (BConst (VI64 1%Z)); FBasic (BSet 2); FBlock false [] []; FBlock true [] []; FBasic (BGet 1); FBasic (BConst (VI64 0%Z)); FBasic (BOp (SNum2 (B_irel W64 Ieq))); FIf [] []; FBr 2; FElse; FBasic (BGet 1); FBasic (BGet 2); FBasic (BOp (SNum2 (B_int W64 Imul))); FBasic (BSet 2); FBasic (BGet 1); FBasic (BConst (VI64 1%Z)); FBasic (BOp (SNum2 (B_int W64 Isub))); FBasic (BSet 1); FEnd; FBr 0; FEnd; FEnd; FBasic (BGet 2); FEnd]; b_bad := false |};
    PCode {| b_locals := [TI64; TI64]; b_badlocals := false; b_ops := [FBasic (BGet 0); FBasic (BSet 1); FBasic (BConst (VI64 1%Z)); FBasic (BSet 2); FBlock false [] []; FBlock true [] []; FBasic (BGet 1); FBasic (BConst (VI64 0%Z)); FBasic (BOp (SNum2 (B_irel W64 Ieq))); FIf [] []; FBr 2; FElse; FBasic (BGet 1); FBasic (BGet 2); FBasic (BOp (SNum2 (B_int W64 Imul))); FBasic (BSet 2); FBasic (BGet 1); FBasic (BConst (VI64 1%Z)); FBasic (BOp (SNum2 (B_int W64 Isub))); FBasic (BSet 1); FEnd; FBr 0; FEnd; FEnd; FBasic (BGet 2); FEnd]; b_bad := false |};
    PCode {| b_locals := [TI64; TI64]; b_badlocals := false; b_ops := [FBasic (BGet 0); FBasic (BSet 1); FBasic (BConst (VI64 1%Z)); FBasic (BSet 2); FBlock false [] []; FBlock true [] []; FBasic (BGet 1); FBasic (BConst (VI64 0%Z)); FBasic (BOp (SNum2 (B_irel W64 Ieq))); FIf [] []; FBr 2; FElse; FBasic (BGet 1); FBasic (BGet 2); FBasic (BOp (SNum2 (B_int W64 Imul))); FBasic (BSet 2); FBasic (BGet 1); FBasic (BConst (VI64 1%Z)); FBasic (BOp (SNum2 (B_int W64 Isub))); FBasic (BSet 1); FEnd; FBr 0; FEnd; FEnd; FBasic (BGet 2); FEnd]; b_bad := false |};
    PCode {| b_locals := [TI64; TI64]; b_badlocals := false; b_ops := [FBasic (BGet 0); FBasic (BSet 1); FBasic (BConst (VI64 1%Z)); FBasic (BSet 2); FBlock false [] []; FBlock true [] []; FBasic (BGet 1); FBasic (BConst (VI64 0%Z)); FBasic (BOp (SNum2 (B_irel W64 Ieq))); FIf [] []; FBr 2; FElse; FBasic (BGet 1); FBasic (BGet 2); FBasic (BOp (SNum2 (B_int W64 Imul))); FBasic (BSet 2); FBasic (BGet 1); FBasic (BConst (VI64 1%Z)); FBasic (BOp (SNum2 (B_int W64 Isub))); FBasic (BSet 1); FEnd; FBr 0; FEnd; FEnd; FBasic (BGet 2); FEnd]; b_bad := false |};
    PCode {| b_locals := [TI32]; b_badlocals := false; b_ops := [FBasic (BConst (VI32 1%Z)); FBasic (BOp (SGlobalGet TI32 0)); FBasic (BOp (SNum2 (B_int W32 Iadd))); FBasic (BOp (SGlobalSet TI32 0)); FBasic (BOp (SGlobalGet TI32 0)); FEnd]; b_bad := false |};
    PCode {| b_locals := []; b_badlocals := false; b_ops := [FCall 5; FBasic BDrop; FEnd]; b_bad := false |};
    PCode {| b_locals := []; b_badlocals := false; b_ops := [FCall 5; FCall 5; FCall 6; FBasic (BOp (SNum2 (B_int W32 Iadd))); FEnd]; b_bad := false |} ].
Definition w_store : list payload :=
  [ PVersion 1;
    PTypes [Some ([], [])];
    PFuncs [Some 0; Some 0; Some 0; Some 0; Some 0; Some 0; Some 0; Some 0; Some 0];
    PMems [Some (1%Z, None)];
    PExports [Some ("as-block-value", ExFunc 0); Some ("as-loop-value", ExFunc 1); Some ("as-br-value", ExFunc 2); Some ("as-br_if-value", ExFunc 3); Some ("as-br_if-value-cond", ExFunc 4); Some ("as-br_table-value", ExFunc 5); Some ("as-return-value", ExFunc 6); Some ("as-if-then", ExFunc 7); Some ("as-if-else", ExFunc 8)];
    PCode {| b_locals := []; b_badlocals := false; b_ops := [FBlock false [] []; FBasic (BConst (VI32 0%Z)); FBasic (BConst (VI32 1%Z)); FBasic (BOp (SStore SI32 0%Z)); FEnd; FEnd]; b_bad := false |};
    PCode {| b_locals := []; b_badlocals := false; b_ops := [FBlock true [] []; FBasic (BConst (VI32 0%Z)); FBasic (BConst (VI32 1%Z)); FBasic (BOp (SStore SI32 0%Z)); FEnd; FEnd]; b_bad := false |};
    PCode {| b_locals := []; b_badlocals := false; b_ops := [FBlock false [] []; FBasic (BConst (VI32 0%Z)); FBasic (BConst (VI32 1%Z)); FBasic (BOp (SStore SI32 0%Z)); FBr 0; FEnd; FEnd]; b_bad := false |};
    PCode {| b_locals := []; b_badlocals := false; b_ops := [FBlock false [] []; FBasic (BConst (VI32 0%Z)); FBasic (BConst (VI32 1%Z)); FBasic (BOp (SStore SI32 0%Z)); FBasic (BConst (VI32 1%Z)); FBrIf 0; FEnd; FEnd]; b_bad := false |};
    PCode {| b_locals := []; b_badlocals := false; b_ops := [FBlock false [] []; FBasic (BConst (VI32 6%Z)); FBasic (BConst (VI32 0%Z)); FBasic (BConst (VI32 1%Z)); FBasic (BOp (SStore SI32 0%Z)); FBrIf 0; FEnd; FEnd]; b_bad := false |};
    PCode {| b_locals := []; b_badlocals := false; b_ops := [FBlock false [] []; FBasic (BConst (VI32 0%Z)); FBasic (BConst (VI32 1%Z)); FBasic (BOp (SStore SI32 0%Z)); FBasic (BConst (VI32 1%Z)); FBrTable [] 0; FEnd; FEnd]; b_bad := false |};
    PCode {| b_locals := []; b_badlocals := false; b_ops := [FBasic (BConst (VI32 0%Z)); FBasic (BConst (VI32 1%Z)); FBasic (BOp (SStore SI32 0%Z)); FReturn; FEnd]; b_bad := false |};
    PCode {| b_locals := []; b_badlocals := false; b_ops := [FBasic (BConst (VI32 1%Z)); FIf [] []; FBasic (BConst (VI32 0%Z)); FBasic (BConst (VI32 1%Z)); FBasic (BOp (SStore SI32 0%Z)); FEnd; FEnd]; b_bad := false |};
    PCode {| b_locals := []; b_badlocals := false; b_ops := [FBasic (BConst (VI32 0%Z)); FIf [] []; FElse; FBasic (BConst (VI32 0%Z)); FBasic (BConst (VI32 1%Z)); FBasic (BOp (SStore SI32 0%Z)); FEnd; FEnd]; b_bad := false |} ].
Definition w_switch : list payload :=
  [ PVersion 1;
    PTypes [Some ([TI32], [TI32]); Some ([TI64], [TI64]); Some ([], [TI32])];
    PFuncs [Some 0; Some 1; Some 0; Some 2];
    PExports [Some ("stmt", ExFunc 0); Some ("expr", ExFunc 1); Some ("arg", ExFunc 2); Some ("corner", ExFunc 3)];
    PCode {| b_locals := [TI32]; b_badlocals := false; b_ops := [FBasic (BConst (VI32 100%Z)); FBasic (BSet 1); FBlock false [] []; FBlock false [] []; FBlock false [] []; FBlock false [] []; FBlock false [] []; FBlock false [] []; FBlock false [] []; FBlock false [] []; FBlock false [] []; FBlock false [] []; FBasic (BGet 0); FBrTable [0; 1; 2; 3; 4; 5; 6; 8] 7; FEnd; FBasic (BGet 0); FReturn; FEnd; FBasic BNop; FEnd; FEnd; FBasic (BConst (VI32 0%Z)); FBasic (BGet 0); FBasic (BOp (SNum2 (B_int W32 Isub))); FBasic (BSet 1); FBr 5; FEnd; FBr 4; FEnd; FBasic (BConst (VI32 101%Z)); FBasic (BSet 1); FBr 3; FEnd; FBasic (BConst (VI32 101%Z)); FBasic (BSet 1); FEnd; FBasic (BConst (VI32 102%Z)); FBasic (BSet 1); FEnd; FEnd; FBasic (BGet 1); FReturn; FEnd]; b_bad := false |};
    PCode {| b_locals := [TI64]; b_badlocals := false; b_ops := [FBasic (BConst (VI64 100%Z)); FBasic (BSet 1); FBlock false [] [TI64]; FBlock false [] []; FBlock false [] []; FBlock false [] []; FBlock false [] []; FBlock false [] []; FBlock false [] []; FBlock false [] []; FBlock false [] []; FBlock false [] []; FBasic (BGet 0); FBasic (BOp (SCvt (C_wrap))); FBrTable [0; 1; 2; 3; 6; 5; 4; 8] 7; FEnd; FBasic (BGet 0); FReturn; FEnd; FBasic BNop; FEnd; FEnd; FBasic (BConst (VI64 0%Z)); FBasic (BGet 0); FBasic (BOp (SNum2 (B_int W64 Isub))); FBr 5; FEnd; FBasic (BConst (VI64 101%Z)); FBasic (BSet 1); FEnd; FEnd; FEnd; FBasic (BGet 1); FBr 1; FEnd; FBasic (BConst (VI64 (-5)%Z)); FEnd; FReturn; FEnd]; b_bad := false |};
    PCode {| b_locals := []; b_badlocals := false; b_ops := [FBlock false [] [TI32]; FBasic (BConst (VI32 10%Z)); FBlock false [] [TI32]; FBasic (BConst (VI32 100%Z)); FBlock false [] [TI32]; FBasic (BConst (VI32 1000%Z)); FBlock false [] [TI32]; FBasic (BConst (VI32 2%Z)); FBasic (BGet 0); FBasic (BOp (SNum2 (B_int W32 Imul))); FBasic (BConst (VI32 3%Z)); FBasic (BGet 0); FBasic (BOp (SNum2 (B_int W32 Iand))); FBrTable [1; 2; 3] 0; FEnd; FBasic (BOp (SNum2 (B_int W32 Iadd))); FEnd; FBasic (BOp (SNum2 (B_int W32 Iadd))); FEnd; FBasic (BOp (SNum2 (B_int W32 Iadd))); FEnd; FReturn; FEnd]; b_bad := false |};
    PCode {| b_locals := []; b_badlocals := false; b_ops := [FBlock false [] []; FBasic (BConst (VI32 0%Z)); FBrTable [] 0; FEnd; FBasic (BConst (VI32 1%Z)); FEnd]; b_bad := false |} ].
Definition w_table_fill : list payload :=
  [ PVersion 1;
    PTypes [Some ([TI32; TExternRef; TI32], []); Some ([TI32], [TExternRef])];
    PFuncs [Some 0; Some 0; Some 1];
    PTables [Some 10%Z];
    PExports [Some ("fill", ExFunc 0); Some ("fill-abbrev", ExFunc 1); Some ("get", ExFunc 2)];
    PCode {| b_locals := []; b_badlocals := false; b_ops := [FBasic (BGet 0); FBasic (BGet 1); FBasic (BGet 2); FBasic (BOp (STableFill 0 TExternRef)); FEnd]; b_bad := false |};
    PCode {| b_locals := []; b_badlocals := false; b_ops := [FBasic (BGet 0); FBasic (BGet 1); FBasic (BGet 2); FBasic (BOp (STableFill 0 TExternRef)); FEnd]; b_bad := false |};
    PCode {| b_locals := []; b_badlocals := false; b_ops := [FBasic (BGet 0); FBasic (BOp (STableGet 0 TExternRef)); FEnd]; b_bad := false |} ].
Definition w_table_get : list payload :=
  [ PVersion 1;
    PTypes [Some ([], []); Some ([TExternRef], []); Some ([TI32], [TExternRef]); Some ([TI32], [TFuncRef]); Some ([TI32], [TI32])];
    PFuncs [Some 0; Some 1; Some 2; Some 3; Some 4];
    PTables [Some 2%Z; Some 3%Z];
    PExports [Some ("init", ExFunc 1); Some ("get-externref", ExFunc 2); Some ("get-funcref", ExFunc 3); Some ("is_null-funcref", ExFunc 4)];
    PElems [Some {| e_extern := false; e_idxes := Some [0]; e_init := None; e_mode := MActive 1 [CVal (VI32 1%Z)] |}];
    PCode {| b_locals := []; b_badlocals := false; b_ops := [FEnd]; b_bad := false |};
    PCode {| b_locals := []; b_badlocals := false; b_ops := [FBasic (BConst (VI32 1%Z)); FBasic (BGet 0); FBasic (BOp (STableSet 0 TExternRef)); FBasic (BConst (VI32 2%Z)); FBasic (BConst (VI32 1%Z)); FBasic (BOp (STableGet 1 TFuncRef)); FBasic (BOp (STableSet 1 TFuncRef)); FEnd]; b_bad := false |};
    PCode {| b_locals := []; b_badlocals := false; b_ops := [FBasic (BGet 0); FBasic (BOp (STableGet 0 TExternRef)); FEnd]; b_bad := false |};
    PCode {| b_locals := []; b_badlocals := false; b_ops := [FBasic (BGet 0); FBasic (BOp (STableGet 1 TFuncRef)); FEnd]; b_bad := false |};
    PCode {| b_locals := []; b_badlocals := false; b_ops := [FBasic (BGet 0); FCall 3; FBasic (BOp SRefIsNull); FEnd]; b_bad := false |} ].
Definition w_table_set : list payload :=
  [ PVersion 1;
    PTypes [Some ([], []); Some ([TI32], [TExternRef]); Some ([TI32], [TFuncRef]); Some ([TI32; TExternRef], []); Some ([TI32; TFuncRef], []); Some ([TI32; TI32], []); Some ([TI32], [TI32])];
    PFuncs [Some 0; Some 1; Some 2; Some 3; Some 4; Some 5; Some 6];
    PTables [Some 1%Z; Some 2%Z];
    PExports [Some ("get-externref", ExFunc 1); Some ("get-funcref", ExFunc 2); Some ("set-externref", ExFunc 3); Some ("set-funcref", ExFunc 4); Some ("set-funcref-from", ExFunc 5); Some ("is_null-funcref", ExFunc 6)];
    PElems [Some {| e_extern := false; e_idxes := Some [0]; e_init := None; e_mode := MActive 1 [CVal (VI32 1%Z)] |}];
    PCode {| b_locals := []; b_badlocals := false; b_ops := [FEnd]; b_bad := false |};
    PCode {| b_locals := []; b_badlocals := false; b_ops := [FBasic (BGet 0); FBasic (BOp (STableGet 0 TExternRef)); FEnd]; b_bad := false |};
    PCode {| b_locals := []; b_badlocals := false; b_ops := [FBasic (BGet 0); FBasic (BOp (STableGet 1 TFuncRef)); FEnd]; b_bad := false |};
    PCode {| b_locals := []; b_badlocals := false; b_ops := [FBasic (BGet 0); FBasic (BGet 1); FBasic (BOp (STableSet 0 TExternRef)); FEnd]; b_bad := false |};
    PCode {| b_locals := []; b_badlocals := false; b_ops := [FBasic (BGet 0); FBasic (BGet 1); FBasic (BOp (STableSet 1 TFuncRef)); FEnd]; b_bad := false |};
    PCode {| b_locals := []; b_badlocals := false; b_ops := [FBasic (BGet 0); FBasic (BGet 1); FBasic (BOp (STableGet 1 TFuncRef)); FBasic (BOp (STableSet 1 TFuncRef)); FEnd]; b_bad := false |};
    PCode {| b_locals := []; b_badlocals := false; b_ops := [FBasic (BGet 0); FCall 2; FBasic (BOp SRefIsNull); FEnd]; b_bad := false |} ].
Definition t_block : list test :=
  [ T "test_empty" w_block
      [ Call "empty" [] (EOk) ];
    T "test_singular" w_block
      [ Call "singular" [] (EVal (VI32 7%Z)) ];
    T "test_multi" w_block
      [ Call "multi" [] (EVal (VI32 8%Z)) ];
    T "test_nested" w_block
      [ Call "nested" [] (EVal (VI32 9%Z)) ];
    T "test_deep" w_block
      [ Call "deep" [] (EVal (VI32 150%Z)) ];
    T "test_as_select_first" w_block
      [ Call "as-select-first" [] (EVal (VI32 1%Z)) ];
    T "test_as_select_mid" w_block
      [ Call "as-select-mid" [] (EVal (VI32 2%Z)) ];
    T "test_as_select_last" w_block
      [ Call "as-select-last" [] (EVal (VI32 2%Z)) ];
    T "test_as_loop_first" w_block
      [ Call "as-loop-first" [] (EVal (VI32 1%Z)) ];
    T "test_as_loop_mid" w_block
      [ Call "as-loop-mid" [] (EVal (VI32 1%Z)) ];
    T "test_as_loop_last" w_block
      [ Call "as-loop-last" [] (EVal (VI32 1%Z)) ];
    T "test_as_if_condition" w_block
      [ Call "as-if-condition" [] (EOk) ];
    T "test_as_if_then" w_block
      [ Call "as-if-then" [] (EVal (VI32 1%Z)) ];
    T "test_as_if_else" w_block
      [ Call "as-if-else" [] (EVal (VI32 2%Z)) ];
    T "test_as_br_if_first" w_block
      [ Call "as-br_if-first" [] (EVal (VI32 1%Z)) ];
    T "test_as_br_if_last" w_block
      [ Call "as-br_if-last" [] (EVal (VI32 2%Z)) ];
    T "test_as_br_table_first" w_block
      [ Call "as-br_table-first" [] (EVal (VI32 1%Z)) ];
    T "test_as_br_table_last" w_block
      [ Call "as-br_table-last" [] (EVal (VI32 2%Z)) ];
    T "test_as_call_indirect_first" w_block
      [ Call "as-call_indirect-first" [] (EVal (VI32 1%Z)) ];
    T "test_as_call_indirect_mid" w_block
      [ Call "as-call_indirect-mid" [] (EVal (VI32 2%Z)) ];
    T "test_as_call_indirect_last" w_block
      [ Call "as-call_indirect-last" [] (EVal (VI32 1%Z)) ];
    T "test_as_store_and_load" w_block
      [ Call "as-store-first" [] (EOk);
        Call "as-store-last" [] (EOk);
        Call "as-load-operand" [] (EVal (VI32 1%Z)) ];
    T "test_as_memory_grow_value" w_block
      [ Call "as-memory.grow-value" [] (EVal (VI32 1%Z)) ];
    T "test_as_call_value" w_block
      [ Call "as-call-value" [] (EVal (VI32 1%Z)) ];
    T "test_as_return_value" w_block
      [ Call "as-return-value" [] (EVal (VI32 1%Z)) ];
    T "test_as_drop_operand" w_block
      [ Call "as-drop-operand" [] (EOk) ];
    T "test_as_br_value" w_block
      [ Call "as-br-value" [] (EVal (VI32 1%Z)) ];
    T "test_as_local_set_value" w_block
      [ Call "as-local.set-value" [] (EVal (VI32 1%Z)) ];
    T "test_as_local_tee_value" w_block
      [ Call "as-local.tee-value" [] (EVal (VI32 1%Z)) ];
    T "test_as_global_set_value" w_block
      [ Call "as-global.set-value" [] (EVal (VI32 1%Z)) ];
    T "test_as_unary_operand" w_block
      [ Call "as-unary-operand" [] (EVal (VI32 0%Z)) ];
    T "test_as_binary_operand" w_block
      [ Call "as-binary-operand" [] (EVal (VI32 12%Z)) ];
    T "test_as_test_operand" w_block
      [ Call "as-test-operand" [] (EVal (VI32 0%Z)) ];
    T "test_as_compare_operand" w_block
      [ Call "as-compare-operand" [] (EVal (VI32 0%Z)) ];
    T "test_as_binary_operands" w_block
      [ Call "as-binary-operands" [] (EVal (VI32 12%Z)) ];
    T "test_as_compare_operands" w_block
      [ Call "as-compare-operands" [] (EVal (VI32 0%Z)) ];
    T "test_as_mixed_operands" w_block
      [ Call "as-mixed-operands" [] (EVal (VI32 27%Z)) ];
    T "test_break_bare" w_block
      [ Call "break-bare" [] (EVal (VI32 19%Z)) ];
    T "test_break_value" w_block
      [ Call "break-value" [] (EVal (VI32 18%Z)) ];
    T "test_break_repeated" w_block
      [ Call "break-repeated" [] (EVal (VI32 18%Z)) ];
    T "test_break_inner" w_block
      [ Call "break-inner" [] (EVal (VI32 15%Z)) ];
    T "test_param" w_block
      [ Call "param" [] (EVal (VI32 3%Z)) ];
    T "test_params" w_block
      [ Call "params" [] (EVal (VI32 3%Z)) ];
    T "test_params_id" w_block
      [ Call "params-id" [] (EVal (VI32 3%Z)) ];
    T "test_param_break" w_block
      [ Call "param-break" [] (EVal (VI32 3%Z)) ];
    T "test_params_break" w_block
      [ Call "params-break" [] (EVal (VI32 3%Z)) ];
    T "test_params_id_break" w_block
      [ Call "params-id-break" [] (EVal (VI32 3%Z)) ];
    T "test_effects" w_block
      [ Call "effects" [] (EVal (VI32 1%Z)) ];
    T "test_type_use" w_block
      [ Call "type-use" [] (EOk) ] ].
Definition t_br : list test :=
  [ T "test_type_i32" w_br
      [ Call "type-i32" [] (EOk) ];
    T "test_type_i64" w_br
      [ Call "type-i64" [] (EOk) ];
    T "test_type_f32" w_br
      [ Call "type-f32" [] (EOk) ];
    T "test_type_f64" w_br
      [ Call "type-f64" [] (EOk) ];
    T "test_type_i32_i32" w_br
      [ Call "type-i32-i32" [] (EOk) ];
    T "test_type_i64_i64" w_br
      [ Call "type-i64-i64" [] (EOk) ];
    T "test_type_f32_f32" w_br
      [ Call "type-f32-f32" [] (EOk) ];
    T "test_type_f64_f64" w_br
      [ Call "type-f64-f64" [] (EOk) ];
    T "test_type_i32_value" w_br
      [ Call "type-i32-value" [] (EVal (VI32 1%Z)) ];
    T "test_type_i64_value" w_br
      [ Call "type-i64-value" [] (EVal (VI64 2%Z)) ];
    T "test_type_f32_value" w_br
      [ Call "type-f32-value" [] (EFeq (VF32 1077936128%Z)) ];
    T "test_type_f64_value" w_br
      [ Call "type-f64-value" [] (EFeq (VF64 4616189618054758400%Z)) ];
    T "test_as_block_first" w_br
      [ Call "as-block-first" [] (EOk) ];
    T "test_as_block_mid" w_br
      [ Call "as-block-mid" [] (EOk) ];
    T "test_as_block_last" w_br
      [ Call "as-block-last" [] (EOk) ];
    T "test_as_block_value" w_br
      [ Call "as-block-value" [] (EVal (VI32 2%Z)) ];
    T "test_as_loop_first" w_br
      [ Call "as-loop-first" [] (EVal (VI32 3%Z)) ];
    T "test_as_loop_mid" w_br
      [ Call "as-loop-mid" [] (EVal (VI32 4%Z)) ];
    T "test_as_loop_last" w_br
      [ Call "as-loop-last" [] (EVal (VI32 5%Z)) ];
    T "test_as_br_value" w_br
      [ Call "as-br-value" [] (EVal (VI32 9%Z)) ];
    T "test_as_br_if_cond" w_br
      [ Call "as-br_if-cond" [] (EOk) ];
    T "test_as_br_if_value" w_br
      [ Call "as-br_if-value" [] (EVal (VI32 8%Z)) ];
    T "test_as_br_if_value_cond" w_br
      [ Call "as-br_if-value-cond" [] (EVal (VI32 9%Z)) ];
    T "test_as_br_table_index" w_br
      [ Call "as-br_table-index" [] (EOk) ];
    T "test_as_br_table_value" w_br
      [ Call "as-br_table-value" [] (EVal (VI32 10%Z)) ];
    T "test_as_br_table_value_index" w_br
      [ Call "as-br_table-value-index" [] (EVal (VI32 11%Z)) ];
    T "test_as_return_value" w_br
      [ Call "as-return-value" [] (EVal (VI64 7%Z)) ];
    T "test_as_if_cond" w_br
      [ Call "as-if-cond" [] (EVal (VI32 2%Z)) ];
    T "test_as_if_then" w_br
      [ Call "as-if-then" [VI32 1%Z; VI32 6%Z] (EVal (VI32 3%Z));
        Call "as-if-then" [VI32 0%Z; VI32 6%Z] (EVal (VI32 6%Z)) ];
    T "test_as_if_else" w_br
      [ Call "as-if-else" [VI32 0%Z; VI32 6%Z] (EVal (VI32 4%Z));
        Call "as-if-else" [VI32 1%Z; VI32 6%Z] (EVal (VI32 6%Z)) ];
    T "test_as_select_first" w_br
      [ Call "as-select-first" [VI32 0%Z; VI32 6%Z] (EVal (VI32 5%Z));
        Call "as-select-first" [VI32 1%Z; VI32 6%Z] (EVal (VI32 5%Z)) ];
    T "test_as_select_second" w_br
      [ Call "as-select-second" [VI32 0%Z; VI32 6%Z] (EVal (VI32 6%Z));
        Call "as-select-second" [VI32 1%Z; VI32 6%Z] (EVal (VI32 6%Z)) ];
    T "test_as_select_cond" w_br
      [ Call "as-select-cond" [] (EVal (VI32 7%Z)) ];
    T "test_as_select_all" w_br
      [ Call "as-select-all" [] (EVal (VI32 8%Z)) ];
    T "test_as_call_first" w_br
      [ Call "as-call-first" [] (EVal (VI32 12%Z)) ];
    T "test_as_call_mid" w_br
      [ Call "as-call-mid" [] (EVal (VI32 13%Z)) ];
    T "test_as_call_last" w_br
      [ Call "as-call-last" [] (EVal (VI32 14%Z)) ];
    T "test_as_call_all" w_br
      [ Call "as-call-all" [] (EVal (VI32 15%Z)) ];
    T "test_as_call_indirect_func" w_br
      [ Call "as-call_indirect-func" [] (EVal (VI32 20%Z)) ];
    T "test_as_call_indirect_first" w_br
      [ Call "as-call_indirect-first" [] (EVal (VI32 21%Z)) ];
    T "test_as_call_indirect_mid" w_br
      [ Call "as-call_indirect-mid" [] (EVal (VI32 22%Z)) ];
    T "test_as_call_indirect_last" w_br
      [ Call "as-call_indirect-last" [] (EVal (VI32 23%Z)) ];
    T "test_as_call_indirect_all" w_br
      [ Call "as-call_indirect-all" [] (EVal (VI32 24%Z)) ];
    T "test_as_local_set_value" w_br
      [ Call "as-local.set-value" [] (EVal (VI32 17%Z)) ];
    T "test_as_local_tee_value" w_br
      [ Call "as-local.tee-value" [] (EVal (VI32 1%Z)) ];
    T "test_as_global_set_value" w_br
      [ Call "as-global.set-value" [] (EVal (VI32 1%Z)) ];
    T "test_as_load_address" w_br
      [ Call "as-load-address" [] (EFeq (VF32 1071225242%Z)) ];
    T "test_as_loadn_address" w_br
      [ Call "as-loadN-address" [] (EVal (VI64 30%Z)) ];
    T "test_as_store_address" w_br
      [ Call "as-store-address" [] (EVal (VI32 30%Z)) ];
    T "test_as_store_value" w_br
      [ Call "as-store-value" [] (EVal (VI32 31%Z)) ];
    T "test_as_store_both" w_br
      [ Call "as-store-both" [] (EVal (VI32 32%Z)) ];
    T "test_as_storen_address" w_br
      [ Call "as-storeN-address" [] (EVal (VI32 32%Z)) ];
    T "test_as_storen_value" w_br
      [ Call "as-storeN-value" [] (EVal (VI32 33%Z)) ];
    T "test_as_storen_both" w_br
      [ Call "as-storeN-both" [] (EVal (VI32 34%Z)) ];
    T "test_as_unary_operand" w_br
      [ Call "as-unary-operand" [] (EFeq (VF32 1079613850%Z)) ];
    T "test_as_binary_left" w_br
      [ Call "as-binary-left" [] (EVal (VI32 3%Z)) ];
    T "test_as_binary_right" w_br
      [ Call "as-binary-right" [] (EVal (VI64 45%Z)) ];
    T "test_as_binary_both" w_br
      [ Call "as-binary-both" [] (EVal (VI32 46%Z)) ];
    T "test_as_test_operand" w_br
      [ Call "as-test-operand" [] (EVal (VI32 44%Z)) ];
    T "test_as_compare_left" w_br
      [ Call "as-compare-left" [] (EVal (VI32 43%Z)) ];
    T "test_as_compare_right" w_br
      [ Call "as-compare-right" [] (EVal (VI32 42%Z)) ];
    T "test_as_compare_both" w_br
      [ Call "as-compare-both" [] (EVal (VI32 44%Z)) ];
    T "test_as_convert_operand" w_br
      [ Call "as-convert-operand" [] (EVal (VI32 41%Z)) ];
    T "test_as_memory_grow_size" w_br
      [ Call "as-memory.grow-size" [] (EVal (VI32 40%Z)) ];
    T "test_nested_block_value" w_br
      [ Call "nested-block-value" [] (EVal (VI32 9%Z)) ];
    T "test_nested_br_value" w_br
      [ Call "nested-br-value" [] (EVal (VI32 9%Z)) ];
    T "test_nested_br_if_value" w_br
      [ Call "nested-br_if-value" [] (EVal (VI32 9%Z)) ];
    T "test_nested_br_if_value_cond" w_br
      [ Call "nested-br_if-value-cond" [] (EVal (VI32 9%Z)) ];
    T "test_nested_br_table_value" w_br
      [ Call "nested-br_table-value" [] (EVal (VI32 9%Z)) ];
    T "test_nested_br_table_value_index" w_br
      [ Call "nested-br_table-value-index" [] (EVal (VI32 9%Z)) ] ].
Definition t_br_if : list test :=
  [ T "test_type_i32" w_br_if
      [ Call "type-i32" [] (EOk) ];
    T "test_type_i64" w_br_if
      [ Call "type-i64" [] (EOk) ];
    T "test_type_f32" w_br_if
      [ Call "type-f32" [] (EOk) ];
    T "test_type_f64" w_br_if
      [ Call "type-f64" [] (EOk) ];
    T "test_type_i32_value" w_br_if
      [ Call "type-i32-value" [] (EVal (VI32 1%Z)) ];
    T "test_type_i64_value" w_br_if
      [ Call "type-i64-value" [] (EVal (VI64 2%Z)) ];
    T "test_type_f32_value" w_br_if
      [ Call "type-f32-value" [] (EFeq (VF32 1077936128%Z)) ];
    T "test_type_f64_value" w_br_if
      [ Call "type-f64-value" [] (EFeq (VF64 4616189618054758400%Z)) ];
    T "test_as_block_first" w_br_if
      [ Call "as-block-first" [VI32 0%Z] (EVal (VI32 2%Z));
        Call "as-block-first" [VI32 1%Z] (EVal (VI32 3%Z)) ];
    T "test_as_block_mid" w_br_if
      [ Call "as-block-mid" [VI32 0%Z] (EVal (VI32 2%Z));
        Call "as-block-mid" [VI32 1%Z] (EVal (VI32 3%Z)) ];
    T "test_as_block_last" w_br_if
      [ Call "as-block-last" [VI32 0%Z] (EOk);
        Call "as-block-last" [VI32 1%Z] (EOk) ];
    T "test_as_block_first_value" w_br_if
      [ Call "as-block-first-value" [VI32 0%Z] (EVal (VI32 11%Z));
        Call "as-block-first-value" [VI32 1%Z] (EVal (VI32 10%Z)) ];
    T "test_as_block_mid_value" w_br_if
      [ Call "as-block-mid-value" [VI32 0%Z] (EVal (VI32 21%Z));
        Call "as-block-mid-value" [VI32 1%Z] (EVal (VI32 20%Z)) ];
    T "test_as_block_last_value" w_br_if
      [ Call "as-block-last-value" [VI32 0%Z] (EVal (VI32 11%Z));
        Call "as-block-last-value" [VI32 1%Z] (EVal (VI32 11%Z)) ];
    T "test_as_loop_first" w_br_if
      [ Call "as-loop-first" [VI32 0%Z] (EVal (VI32 2%Z));
        Call "as-loop-first" [VI32 1%Z] (EVal (VI32 3%Z)) ];
    T "test_as_loop_mid" w_br_if
      [ Call "as-loop-mid" [VI32 0%Z] (EVal (VI32 2%Z));
        Call "as-loop-mid" [VI32 1%Z] (EVal (VI32 4%Z)) ];
    T "test_as_loop_last" w_br_if
      [ Call "as-loop-last" [VI32 0%Z] (EOk);
        Call "as-loop-last" [VI32 1%Z] (EOk) ];
    T "test_as_br_value" w_br_if
      [ Call "as-br-value" [] (EVal (VI32 1%Z)) ];
    T "test_as_br_if_cond" w_br_if
      [ Call "as-br_if-cond" [] (EOk) ];
    T "test_as_br_if_value" w_br_if
      [ Call "as-br_if-value" [] (EVal (VI32 1%Z)) ];
    T "test_as_br_if_value_cond" w_br_if
      [ Call "as-br_if-value-cond" [VI32 0%Z] (EVal (VI32 2%Z));
        Call "as-br_if-value-cond" [VI32 1%Z] (EVal (VI32 1%Z)) ];
    T "test_as_br_table_index" w_br_if
      [ Call "as-br_table-index" [] (EOk) ];
    T "test_as_br_table_value" w_br_if
      [ Call "as-br_table-value" [] (EVal (VI32 1%Z)) ];
    T "test_as_br_table_value_index" w_br_if
      [ Call "as-br_table-value-index" [] (EVal (VI32 1%Z)) ];
    T "test_as_return_value" w_br_if
      [ Call "as-return-value" [] (EVal (VI64 1%Z)) ];
    T "test_as_if_cond" w_br_if
      [ Call "as-if-cond" [VI32 0%Z] (EVal (VI32 2%Z));
        Call "as-if-cond" [VI32 1%Z] (EVal (VI32 1%Z)) ];
    T "test_as_if_then" w_br_if
      [ Call "as-if-then" [VI32 0%Z; VI32 0%Z] (EOk);
        Call "as-if-then" [VI32 4%Z; VI32 0%Z] (EOk);
        Call "as-if-then" [VI32 0%Z; VI32 1%Z] (EOk);
        Call "as-if-then" [VI32 4%Z; VI32 1%Z] (EOk) ];
    T "test_as_if_else" w_br_if
      [ Call "as-if-else" [VI32 0%Z; VI32 0%Z] (EOk);
        Call "as-if-else" [VI32 3%Z; VI32 0%Z] (EOk);
        Call "as-if-else" [VI32 0%Z; VI32 1%Z] (EOk);
        Call "as-if-else" [VI32 3%Z; VI32 1%Z] (EOk) ];
    T "test_as_select_first" w_br_if
      [ Call "as-select-first" [VI32 0%Z] (EVal (VI32 3%Z));
        Call "as-select-first" [VI32 1%Z] (EVal (VI32 3%Z)) ];
    T "test_as_select_second" w_br_if
      [ Call "as-select-second" [VI32 0%Z] (EVal (VI32 3%Z));
        Call "as-select-second" [VI32 1%Z] (EVal (VI32 3%Z)) ];
    T "test_as_select_cond" w_br_if
      [ Call "as-select-cond" [] (EVal (VI32 3%Z)) ];
    T "test_as_call_first" w_br_if
      [ Call "as-call-first" [] (EVal (VI32 12%Z)) ];
    T "test_as_call_mid" w_br_if
      [ Call "as-call-mid" [] (EVal (VI32 13%Z)) ];
    T "test_as_call_last" w_br_if
      [ Call "as-call-last" [] (EVal (VI32 14%Z)) ];
    T "test_as_call_indirect_func" w_br_if
      [ Call "as-call_indirect-func" [] (EVal (VI32 4%Z)) ];
    T "test_as_call_indirect_first" w_br_if
      [ Call "as-call_indirect-first" [] (EVal (VI32 4%Z)) ];
    T "test_as_call_indirect_mid" w_br_if
      [ Call "as-call_indirect-mid" [] (EVal (VI32 4%Z)) ];
    T "test_as_call_indirect_last" w_br_if
      [ Call "as-call_indirect-last" [] (EVal (VI32 4%Z)) ];
    T "test_as_local_set_value" w_br_if
      [ Call "as-local.set-value" [VI32 0%Z] (EVal (VI32 (-1)%Z));
        Call "as-local.set-value" [VI32 1%Z] (EVal (VI32 17%Z)) ];
    T "test_as_local_tee_value" w_br_if
      [ Call "as-local.tee-value" [VI32 0%Z] (EVal (VI32 (-1)%Z));
        Call "as-local.tee-value" [VI32 1%Z] (EVal (VI32 1%Z)) ];
    T "test_as_global_set_value" w_br_if
      [ Call "as-global.set-value" [VI32 0%Z] (EVal (VI32 (-1)%Z));
        Call "as-global.set-value" [VI32 1%Z] (EVal (VI32 1%Z)) ];
    T "test_as_load_address" w_br_if
      [ Call "as-load-address" [] (EVal (VI32 1%Z)) ];
    T "test_as_loadn_address" w_br_if
      [ Call "as-loadN-address" [] (EVal (VI32 30%Z)) ];
    T "test_as_store_address" w_br_if
      [ Call "as-store-address" [] (EVal (VI32 30%Z)) ];
    T "test_as_store_value" w_br_if
      [ Call "as-store-value" [] (EVal (VI32 31%Z)) ];
    T "test_as_storen_address" w_br_if
      [ Call "as-storeN-address" [] (EVal (VI32 32%Z)) ];
    T "test_as_storen_value" w_br_if
      [ Call "as-storeN-value" [] (EVal (VI32 33%Z)) ];
    T "test_as_unary_operand" w_br_if
      [ Call "as-unary-operand" [] (EFeq (VF64 4607182418800017408%Z)) ];
    T "test_as_binary_left" w_br_if
      [ Call "as-binary-left" [] (EVal (VI32 1%Z)) ];
    T "test_as_binary_right" w_br_if
      [ Call "as-binary-right" [] (EVal (VI32 1%Z)) ];
    T "test_as_test_operand" w_br_if
      [ Call "as-test-operand" [] (EVal (VI32 0%Z)) ];
    T "test_as_compare_left" w_br_if
      [ Call "as-compare-left" [] (EVal (VI32 1%Z)) ];
    T "test_as_compare_right" w_br_if
      [ Call "as-compare-right" [] (EVal (VI32 1%Z)) ];
    T "test_as_memory_grow_size" w_br_if
      [ Call "as-memory.grow-size" [] (EVal (VI32 1%Z)) ];
    T "test_nested_block_value" w_br_if
      [ Call "nested-block-value" [VI32 0%Z] (EVal (VI32 21%Z));
        Call "nested-block-value" [VI32 1%Z] (EVal (VI32 9%Z)) ];
    T "test_nested_br_value" w_br_if
      [ Call "nested-br-value" [VI32 0%Z] (EVal (VI32 5%Z));
        Call "nested-br-value" [VI32 1%Z] (EVal (VI32 9%Z)) ];
    T "test_nested_br_if_value" w_br_if
      [ Call "nested-br_if-value" [VI32 0%Z] (EVal (VI32 5%Z));
        Call "nested-br_if-value" [VI32 1%Z] (EVal (VI32 9%Z)) ];
    T "test_nested_br_if_value_cond" w_br_if
      [ Call "nested-br_if-value-cond" [VI32 0%Z] (EVal (VI32 5%Z));
        Call "nested-br_if-value-cond" [VI32 1%Z] (EVal (VI32 9%Z)) ];
    T "test_nested_br_table_value" w_br_if
      [ Call "nested-br_table-value" [VI32 0%Z] (EVal (VI32 5%Z));
        Call "nested-br_table-value" [VI32 1%Z] (EVal (VI32 9%Z)) ];
    T "test_nested_br_table_value_index" w_br_if
      [ Call "nested-br_table-value-index" [VI32 0%Z] (EVal (VI32 5%Z));
        Call "nested-br_table-value-index" [VI32 1%Z] (EVal (VI32 9%Z)) ] ].
Definition t_call : list test :=
  [ T "test_call_type_i32" w_call
      [ Call "type-i32" [] (EVal (VI32 306%Z)) ];
    T "test_call_fac" w_call
      [ Call "fac" [VI64 0%Z] (EVal (VI64 1%Z));
        Call "fac" [VI64 1%Z] (EVal (VI64 1%Z));
        Call "fac" [VI64 5%Z] (EVal (VI64 120%Z)) ] ].
Definition t_call_indirect : list test :=
  [ T "test_call_indirect_type_i32" w_call_indirect
      [ Call "type-i32" [] (EVal (VI32 306%Z)) ];
    T "test_call_indirect_type_i64" w_call_indirect
      [ Call "type-i64" [] (EVal (VI64 356%Z)) ];
    T "test_call_indirect_type_f32" w_call_indirect
      [ Call "type-f32" [] (EVal (VF32 1165172736%Z)) ];
    T "test_call_indirect_type_f64" w_call_indirect
      [ Call "type-f64" [] (EVal (VF64 4660882566700597248%Z)) ];
    T "test_call_indirect_type_index" w_call_indirect
      [ Call "type-index" [] (EVal (VI64 100%Z)) ];
    T "test_call_indirect_type_first_i32" w_call_indirect
      [ Call "type-first-i32" [] (EVal (VI32 32%Z)) ];
    T "test_call_indirect_type_first_i64" w_call_indirect
      [ Call "type-first-i64" [] (EVal (VI64 64%Z)) ];
    T "test_call_indirect_type_first_f32" w_call_indirect
      [ Call "type-first-f32" [] (EVal (VF32 1068037571%Z)) ];
    T "test_call_indirect_type_first_f64" w_call_indirect
      [ Call "type-first-f64" [] (EVal (VF64 4610064722561534525%Z)) ];
    T "test_call_indirect_type_second_i32" w_call_indirect
      [ Call "type-second-i32" [] (EVal (VI32 32%Z)) ];
    T "test_call_indirect_type_second_i64" w_call_indirect
      [ Call "type-second-i64" [] (EVal (VI64 64%Z)) ];
    T "test_call_indirect_type_second_f32" w_call_indirect
      [ Call "type-second-f32" [] (EVal (VF32 1107296256%Z)) ];
    T "test_call_indirect_type_second_f64" w_call_indirect
      [ Call "type-second-f64" [] (EVal (VF64 4634211053438658150%Z)) ];
    T "test_call_indirect_type_all_i32_i64" w_call_indirect
      [ Call "type-all-i32-i64" [] (EAll [VI64 2%Z; VI32 1%Z]) ];
    T "test_call_indirect_dispatch" w_call_indirect
      [ Call "dispatch" [VI32 5%Z; VI64 64%Z] (EVal (VI64 64%Z));
        Call "dispatch" [VI32 5%Z; VI64 123%Z] (EVal (VI64 123%Z)) ];
    T "test_call_indirect_dispatch_structural_i64" w_call_indirect
      [ Call "dispatch-structural-i64" [VI32 20%Z] (EVal (VI64 9%Z)) ];
    T "test_call_indirect_dispatch_structural_i32" w_call_indirect
      [ Call "dispatch-structural-i32" [VI32 19%Z] (EVal (VI32 9%Z)) ];
    T "test_call_indirect_dispatch_structural_f32" w_call_indirect
      [ Call "dispatch-structural-f32" [VI32 21%Z] (EVal (VF32 1091567616%Z)) ];
    T "test_call_indirect_dispatch_structural_f64" w_call_indirect
      [ Call "dispatch-structural-f64" [VI32 22%Z] (EVal (VF64 4621256167635550208%Z)) ];
    T "test_call_indirect_fac_i64" w_call_indirect
      [ Call "fac-i64" [VI64 0%Z] (EVal (VI64 1%Z));
        Call "fac-i64" [VI64 1%Z] (EVal (VI64 1%Z));
        Call "fac-i64" [VI64 5%Z] (EVal (VI64 120%Z));
        Call "fac-i64" [VI64 10%Z] (EVal (VI64 3628800%Z)) ];
    T "test_call_indirect_fib_i64" w_call_indirect
      [ Call "fib-i64" [VI64 0%Z] (EVal (VI64 1%Z));
        Call "fib-i64" [VI64 1%Z] (EVal (VI64 1%Z));
        Call "fib-i64" [VI64 2%Z] (EVal (VI64 2%Z));
        Call "fib-i64" [VI64 5%Z] (EVal (VI64 8%Z));
        Call "fib-i64" [VI64 10%Z] (EVal (VI64 89%Z)) ];
    T "test_call_indirect_fac_i32" w_call_indirect
      [ Call "fac-i32" [VI32 0%Z] (EVal (VI32 1%Z));
        Call "fac-i32" [VI32 5%Z] (EVal (VI32 120%Z)) ];
    T "test_call_indirect_fac_f32" w_call_indirect
      [ Call "fac-f32" [VF32 0%Z] (EVal (VF32 1065353216%Z));
        Call "fac-f32" [VF32 1084227584%Z] (EVal (VF32 1123024896%Z)) ];
    T "test_call_indirect_fac_f64" w_call_indirect
      [ Call "fac-f64" [VF64 0%Z] (EVal (VF64 4607182418800017408%Z));
        Call "fac-f64" [VF64 4617315517961601024%Z] (EVal (VF64 4638144666238189568%Z)) ];
    T "test_call_indirect_fib_i32" w_call_indirect
      [ Call "fib-i32" [VI32 0%Z] (EVal (VI32 1%Z));
        Call "fib-i32" [VI32 5%Z] (EVal (VI32 8%Z)) ];
    T "test_call_indirect_fib_f32" w_call_indirect
      [ Call "fib-f32" [VF32 0%Z] (EVal (VF32 1065353216%Z));
        Call "fib-f32" [VF32 1084227584%Z] (EVal (VF32 1090519040%Z)) ];
    T "test_call_indirect_fib_f64" w_call_indirect
      [ Call "fib-f64" [VF64 0%Z] (EVal (VF64 4607182418800017408%Z));
        Call "fib-f64" [VF64 4617315517961601024%Z] (EVal (VF64 4620693217682128896%Z)) ];
    T "test_call_indirect_even_odd" w_call_indirect
      [ Call "even" [VI32 0%Z] (EVal (VI32 44%Z));
        Call "even" [VI32 1%Z] (EVal (VI32 99%Z));
        Call "even" [VI32 100%Z] (EVal (VI32 44%Z));
        Call "even" [VI32 77%Z] (EVal (VI32 99%Z));
        Call "odd" [VI32 0%Z] (EVal (VI32 99%Z));
        Call "odd" [VI32 1%Z] (EVal (VI32 44%Z));
        Call "odd" [VI32 200%Z] (EVal (VI32 99%Z));
        Call "odd" [VI32 77%Z] (EVal (VI32 44%Z)) ];
    T "test_call_indirect_as_select_first" w_call_indirect
      [ Call "as-select-first" [] (EVal (VI32 306%Z)) ];
    T "test_call_indirect_as_select_mid" w_call_indirect
      [ Call "as-select-mid" [] (EVal (VI32 2%Z)) ];
    T "test_call_indirect_as_select_last" w_call_indirect
      [ Call "as-select-last" [] (EVal (VI32 2%Z)) ];
    T "test_call_indirect_as_if_condition" w_call_indirect
      [ Call "as-if-condition" [] (EVal (VI32 1%Z)) ];
    T "test_call_indirect_as_br_if_first" w_call_indirect
      [ Call "as-br_if-first" [] (EVal (VI64 356%Z)) ];
    T "test_call_indirect_as_br_if_last" w_call_indirect
      [ Call "as-br_if-last" [] (EVal (VI32 2%Z)) ];
    T "test_call_indirect_as_br_table_first" w_call_indirect
      [ Call "as-br_table-first" [] (EVal (VF32 1165172736%Z)) ];
    T "test_call_indirect_as_br_table_last" w_call_indirect
      [ Call "as-br_table-last" [] (EVal (VI32 2%Z)) ];
    T "test_call_indirect_as_store_first" w_call_indirect
      [ Call "as-store-first" [] (EOk) ];
    T "test_call_indirect_as_store_last" w_call_indirect
      [ Call "as-store-last" [] (EOk) ];
    T "test_call_indirect_as_memory_grow_value" w_call_indirect
      [ Call "as-memory.grow-value" [] (EVal (VI32 1%Z)) ];
    T "test_call_indirect_as_return_value" w_call_indirect
      [ Call "as-return-value" [] (EVal (VI32 1%Z)) ];
    T "test_call_indirect_as_drop_operand" w_call_indirect
      [ Call "as-drop-operand" [] (EOk) ];
    T "test_call_indirect_as_br_value" w_call_indirect
      [ Call "as-br-value" [] (EVal (VF32 1065353216%Z)) ];
    T "test_call_indirect_as_local_set_value" w_call_indirect
      [ Call "as-local.set-value" [] (EVal (VF64 4607182418800017408%Z)) ];
    T "test_call_indirect_as_local_tee_value" w_call_indirect
      [ Call "as-local.tee-value" [] (EVal (VF64 4607182418800017408%Z)) ];
    T "test_call_indirect_as_global_set_value" w_call_indirect
      [ Call "as-global.set-value" [] (EVal (VF64 4607182418800017408%Z)) ];
    T "test_call_indirect_as_load_operand" w_call_indirect
      [ Call "as-load-operand" [] (EVal (VI32 0%Z)) ];
    T "test_call_indirect_as_unary_operand" w_call_indirect
      [ Call "as-unary-operand" [] (EVal (VF32 0%Z)) ];
    T "test_call_indirect_as_binary_left" w_call_indirect
      [ Call "as-binary-left" [] (EVal (VI32 11%Z)) ];
    T "test_call_indirect_as_binary_right" w_call_indirect
      [ Call "as-binary-right" [] (EVal (VI32 9%Z)) ];
    T "test_call_indirect_as_test_operand" w_call_indirect
      [ Call "as-test-operand" [] (EVal (VI32 0%Z)) ];
    T "test_call_indirect_as_compare_left" w_call_indirect
      [ Call "as-compare-left" [] (EVal (VI32 1%Z)) ];
    T "test_call_indirect_as_compare_right" w_call_indirect
      [ Call "as-compare-right" [] (EVal (VI32 1%Z)) ];
    T "test_call_indirect_as_convert_operand" w_call_indirect
      [ Call "as-convert-operand" [] (EVal (VI64 1%Z)) ] ].
Definition t_conversions : list test :=
  [ T "test_i64_extend_i32_s" w_conversions
      [ Call "i64.extend_i32_s" [VI32 0%Z] (EVal (VI64 0%Z));
        Call "i64.extend_i32_s" [VI32 10000%Z] (EVal (VI64 10000%Z));
        Call "i64.extend_i32_s" [VI32 (-10000)%Z] (EVal (VI64 (-10000)%Z));
        Call "i64.extend_i32_s" [VI32 (-1)%Z] (EVal (VI64 (-1)%Z));
        Call "i64.extend_i32_s" [VI32 2147483647%Z] (EVal (VI64 2147483647%Z));
        Call "i64.extend_i32_s" [VI32 (-2147483648)%Z] (EVal (VI64 (-2147483648)%Z)) ];
    T "test_i64_extend_i32_u" w_conversions
      [ Call "i64.extend_i32_u" [VI32 0%Z] (EVal (VI64 0%Z));
        Call "i64.extend_i32_u" [VI32 10000%Z] (EVal (VI64 10000%Z));
        Call "i64.extend_i32_u" [VI32 (-10000)%Z] (EVal (VI64 4294957296%Z));
        Call "i64.extend_i32_u" [VI32 (-1)%Z] (EVal (VI64 4294967295%Z));
        Call "i64.extend_i32_u" [VI32 2147483647%Z] (EVal (VI64 2147483647%Z));
        Call "i64.extend_i32_u" [VI32 (-2147483648)%Z] (EVal (VI64 2147483648%Z)) ];
    T "test_i32_wrap_i64" w_conversions
      [ Call "i32.wrap_i64" [VI64 (-1)%Z] (EVal (VI32 (-1)%Z));
        Call "i32.wrap_i64" [VI64 (-100000)%Z] (EVal (VI32 (-100000)%Z));
        Call "i32.wrap_i64" [VI64 2147483648%Z] (EVal (VI32 (-2147483648)%Z));
        Call "i32.wrap_i64" [VI64 (-2147483649)%Z] (EVal (VI32 2147483647%Z));
        Call "i32.wrap_i64" [VI64 (-4294967296)%Z] (EVal (VI32 0%Z));
        Call "i32.wrap_i64" [VI64 (-4294967297)%Z] (EVal (VI32 (-1)%Z));
        Call "i32.wrap_i64" [VI64 (-4294967295)%Z] (EVal (VI32 1%Z));
        Call "i32.wrap_i64" [VI64 0%Z] (EVal (VI32 0%Z));
        Call "i32.wrap_i64" [VI64 1311768467463790320%Z] (EVal (VI32 (-1698898192)%Z));
        Call "i32.wrap_i64" [VI64 4294967295%Z] (EVal (VI32 (-1)%Z));
        Call "i32.wrap_i64" [VI64 4294967296%Z] (EVal (VI32 0%Z));
        Call "i32.wrap_i64" [VI64 4294967297%Z] (EVal (VI32 1%Z)) ];
    T "test_i32_trunc_f32_s" w_conversions
      [ Call "i32.trunc_f32_s" [VF32 0%Z] (EVal (VI32 0%Z));
        Call "i32.trunc_f32_s" [VF32 2147483648%Z] (EVal (VI32 0%Z));
        Call "i32.trunc_f32_s" [VF32 1%Z] (EVal (VI32 0%Z));
        Call "i32.trunc_f32_s" [VF32 2147483649%Z] (EVal (VI32 0%Z));
        Call "i32.trunc_f32_s" [VF32 1065353216%Z] (EVal (VI32 1%Z));
        Call "i32.trunc_f32_s" [VF32 1066192077%Z] (EVal (VI32 1%Z));
        Call "i32.trunc_f32_s" [VF32 1069547520%Z] (EVal (VI32 1%Z));
        Call "i32.trunc_f32_s" [VF32 3212836864%Z] (EVal (VI32 (-1)%Z));
        Call "i32.trunc_f32_s" [VF32 3213675725%Z] (EVal (VI32 (-1)%Z));
        Call "i32.trunc_f32_s" [VF32 3217031168%Z] (EVal (VI32 (-1)%Z));
        Call "i32.trunc_f32_s" [VF32 3220386611%Z] (EVal (VI32 (-1)%Z));
        Call "i32.trunc_f32_s" [VF32 3221225472%Z] (EVal (VI32 (-2)%Z));
        Call "i32.trunc_f32_s" [VF32 1325400063%Z] (EVal (VI32 2147483520%Z));
        Call "i32.trunc_f32_s" [VF32 3472883712%Z] (EVal (VI32 (-2147483648)%Z)) ];
    T "test_i32_trunc_f32_u" w_conversions
      [ Call "i32.trunc_f32_u" [VF32 0%Z] (EVal (VI32 0%Z));
        Call "i32.trunc_f32_u" [VF32 2147483648%Z] (EVal (VI32 0%Z));
        Call "i32.trunc_f32_u" [VF32 1%Z] (EVal (VI32 0%Z));
        Call "i32.trunc_f32_u" [VF32 2147483649%Z] (EVal (VI32 0%Z));
        Call "i32.trunc_f32_u" [VF32 1065353216%Z] (EVal (VI32 1%Z));
        Call "i32.trunc_f32_u" [VF32 1066192077%Z] (EVal (VI32 1%Z));
        Call "i32.trunc_f32_u" [VF32 1069547520%Z] (EVal (VI32 1%Z));
        Call "i32.trunc_f32_u" [VF32 1072902963%Z] (EVal (VI32 1%Z));
        Call "i32.trunc_f32_u" [VF32 1073741824%Z] (EVal (VI32 2%Z));
        Call "i32.trunc_f32_u" [VF32 1325400064%Z] (EVal (VI32 (-2147483648)%Z));
        Call "i32.trunc_f32_u" [VF32 1333788671%Z] (EVal (VI32 (-256)%Z));
        Call "i32.trunc_f32_u" [VF32 3194381926%Z] (EVal (VI32 0%Z));
        Call "i32.trunc_f32_u" [VF32 3212836863%Z] (EVal (VI32 0%Z)) ];
    T "test_i32_trunc_f64_s" w_conversions
      [ Call "i32.trunc_f64_s" [VF64 0%Z] (EVal (VI32 0%Z));
        Call "i32.trunc_f64_s" [VF64 9223372036854775808%Z] (EVal (VI32 0%Z));
        Call "i32.trunc_f64_s" [VF64 1%Z] (EVal (VI32 0%Z));
        Call "i32.trunc_f64_s" [VF64 9223372036854775809%Z] (EVal (VI32 0%Z));
        Call "i32.trunc_f64_s" [VF64 4607182418800017408%Z] (EVal (VI32 1%Z));
        Call "i32.trunc_f64_s" [VF64 4607632778762754458%Z] (EVal (VI32 1%Z));
        Call "i32.trunc_f64_s" [VF64 4609434218613702656%Z] (EVal (VI32 1%Z));
        Call "i32.trunc_f64_s" [VF64 13830554455654793216%Z] (EVal (VI32 (-1)%Z));
        Call "i32.trunc_f64_s" [VF64 13831004815617530266%Z] (EVal (VI32 (-1)%Z));
        Call "i32.trunc_f64_s" [VF64 13832806255468478464%Z] (EVal (VI32 (-1)%Z));
        Call "i32.trunc_f64_s" [VF64 13834607695319426662%Z] (EVal (VI32 (-1)%Z));
        Call "i32.trunc_f64_s" [VF64 13835058055282163712%Z] (EVal (VI32 (-2)%Z));
        Call "i32.trunc_f64_s" [VF64 4746794007244308480%Z] (EVal (VI32 2147483647%Z));
        Call "i32.trunc_f64_s" [VF64 13970166044103278592%Z] (EVal (VI32 (-2147483648)%Z));
        Call "i32.trunc_f64_s" [VF64 13970166044105166029%Z] (EVal (VI32 (-2147483648)%Z));
        Call "i32.trunc_f64_s" [VF64 4746794007248083354%Z] (EVal (VI32 2147483647%Z)) ];
    T "test_i32_trunc_f64_u" w_conversions
      [ Call "i32.trunc_f64_u" [VF64 0%Z] (EVal (VI32 0%Z));
        Call "i32.trunc_f64_u" [VF64 9223372036854775808%Z] (EVal (VI32 0%Z));
        Call "i32.trunc_f64_u" [VF64 1%Z] (EVal (VI32 0%Z));
        Call "i32.trunc_f64_u" [VF64 9223372036854775809%Z] (EVal (VI32 0%Z));
        Call "i32.trunc_f64_u" [VF64 4607182418800017408%Z] (EVal (VI32 1%Z));
        Call "i32.trunc_f64_u" [VF64 4607632778762754458%Z] (EVal (VI32 1%Z));
        Call "i32.trunc_f64_u" [VF64 4609434218613702656%Z] (EVal (VI32 1%Z));
        Call "i32.trunc_f64_u" [VF64 4611235658464650854%Z] (EVal (VI32 1%Z));
        Call "i32.trunc_f64_u" [VF64 4611686018427387904%Z] (EVal (VI32 2%Z));
        Call "i32.trunc_f64_u" [VF64 4746794007248502784%Z] (EVal (VI32 (-2147483648)%Z));
        Call "i32.trunc_f64_u" [VF64 4751297606873776128%Z] (EVal (VI32 (-1)%Z));
        Call "i32.trunc_f64_u" [VF64 13829653735729319117%Z] (EVal (VI32 0%Z));
        Call "i32.trunc_f64_u" [VF64 13830554455654793215%Z] (EVal (VI32 0%Z));
        Call "i32.trunc_f64_u" [VF64 4726483295884279808%Z] (EVal (VI32 100000000%Z));
        Call "i32.trunc_f64_u" [VF64 13829653735729319117%Z] (EVal (VI32 0%Z));
        Call "i32.trunc_f64_u" [VF64 4751297606875663565%Z] (EVal (VI32 (-1)%Z)) ];
    T "test_i64_trunc_f32_s" w_conversions
      [ Call "i64.trunc_f32_s" [VF32 0%Z] (EVal (VI64 0%Z));
        Call "i64.trunc_f32_s" [VF32 2147483648%Z] (EVal (VI64 0%Z));
        Call "i64.trunc_f32_s" [VF32 1%Z] (EVal (VI64 0%Z));
        Call "i64.trunc_f32_s" [VF32 2147483649%Z] (EVal (VI64 0%Z));
        Call "i64.trunc_f32_s" [VF32 1065353216%Z] (EVal (VI64 1%Z));
        Call "i64.trunc_f32_s" [VF32 1066192077%Z] (EVal (VI64 1%Z));
        Call "i64.trunc_f32_s" [VF32 1069547520%Z] (EVal (VI64 1%Z));
        Call "i64.trunc_f32_s" [VF32 3212836864%Z] (EVal (VI64 (-1)%Z));
        Call "i64.trunc_f32_s" [VF32 3213675725%Z] (EVal (VI64 (-1)%Z));
        Call "i64.trunc_f32_s" [VF32 3217031168%Z] (EVal (VI64 (-1)%Z));
        Call "i64.trunc_f32_s" [VF32 3220386611%Z] (EVal (VI64 (-1)%Z));
        Call "i64.trunc_f32_s" [VF32 3221225472%Z] (EVal (VI64 (-2)%Z));
        Call "i64.trunc_f32_s" [VF32 1333788672%Z] (EVal (VI64 4294967296%Z));
        Call "i64.trunc_f32_s" [VF32 3481272320%Z] (EVal (VI64 (-4294967296)%Z));
        Call "i64.trunc_f32_s" [VF32 1593835519%Z] (EVal (VI64 9223371487098961920%Z));
        Call "i64.trunc_f32_s" [VF32 3741319168%Z] (EVal (VI64 (-9223372036854775808)%Z)) ];
    T "test_i64_trunc_f32_u" w_conversions
      [ Call "i64.trunc_f32_u" [VF32 0%Z] (EVal (VI64 0%Z));
        Call "i64.trunc_f32_u" [VF32 2147483648%Z] (EVal (VI64 0%Z));
        Call "i64.trunc_f32_u" [VF32 1%Z] (EVal (VI64 0%Z));
        Call "i64.trunc_f32_u" [VF32 2147483649%Z] (EOverflowOr (VI64 0%Z));
        Call "i64.trunc_f32_u" [VF32 1065353216%Z] (EVal (VI64 1%Z));
        Call "i64.trunc_f32_u" [VF32 1066192077%Z] (EOverflowOr (VI64 1%Z));
        Call "i64.trunc_f32_u" [VF32 1069547520%Z] (EVal (VI64 1%Z));
        Call "i64.trunc_f32_u" [VF32 1333788672%Z] (EOverflowOr (VI64 4294967296%Z));
        Call "i64.trunc_f32_u" [VF32 1602224127%Z] (EOverflowOr (VI64 (-1099511627776)%Z));
        Call "i64.trunc_f32_u" [VF32 3211159142%Z] (EOverflowOr (VI64 0%Z));
        Call "i64.trunc_f32_u" [VF32 3221225471%Z] (EOverflowOr (VI64 0%Z)) ];
    T "test_i64_trunc_f64_s" w_conversions
      [ Call "i64.trunc_f64_s" [VF64 0%Z] (EVal (VI64 0%Z));
        Call "i64.trunc_f64_s" [VF64 9223372036854775808%Z] (EVal (VI64 0%Z));
        Call "i64.trunc_f64_s" [VF64 1%Z] (EVal (VI64 0%Z));
        Call "i64.trunc_f64_s" [VF64 9223372036854775809%Z] (EVal (VI64 0%Z));
        Call "i64.trunc_f64_s" [VF64 4607182418800017408%Z] (EVal (VI64 1%Z));
        Call "i64.trunc_f64_s" [VF64 4607632778762754458%Z] (EVal (VI64 1%Z));
        Call "i64.trunc_f64_s" [VF64 4609434218613702656%Z] (EVal (VI64 1%Z));
        Call "i64.trunc_f64_s" [VF64 13830554455654793216%Z] (EVal (VI64 (-1)%Z));
        Call "i64.trunc_f64_s" [VF64 13831004815617530266%Z] (EVal (VI64 (-1)%Z));
        Call "i64.trunc_f64_s" [VF64 13832806255468478464%Z] (EVal (VI64 (-1)%Z));
        Call "i64.trunc_f64_s" [VF64 13834607695319426662%Z] (EVal (VI64 (-1)%Z));
        Call "i64.trunc_f64_s" [VF64 13835058055282163712%Z] (EVal (VI64 (-2)%Z));
        Call "i64.trunc_f64_s" [VF64 4751297606875873280%Z] (EVal (VI64 4294967296%Z));
        Call "i64.trunc_f64_s" [VF64 13974669643730649088%Z] (EVal (VI64 (-4294967296)%Z));
        Call "i64.trunc_f64_s" [VF64 4890909195324358655%Z] (EVal (VI64 9223372036854774784%Z));
        Call "i64.trunc_f64_s" [VF64 14114281232179134464%Z] (EVal (VI64 (-9223372036854775808)%Z)) ];
    T "test_i64_trunc_f64_u" w_conversions
      [ Call "i64.trunc_f64_u" [VF64 0%Z] (EVal (VI64 0%Z));
        Call "i64.trunc_f64_u" [VF64 9223372036854775808%Z] (EVal (VI64 0%Z));
        Call "i64.trunc_f64_u" [VF64 1%Z] (EVal (VI64 0%Z));
        Call "i64.trunc_f64_u" [VF64 9223372036854775809%Z] (EVal (VI64 0%Z));
        Call "i64.trunc_f64_u" [VF64 4607182418800017408%Z] (EVal (VI64 1%Z));
        Call "i64.trunc_f64_u" [VF64 4607632778762754458%Z] (EVal (VI64 1%Z));
        Call "i64.trunc_f64_u" [VF64 4609434218613702656%Z] (EVal (VI64 1%Z));
        Call "i64.trunc_f64_u" [VF64 4751297606873776128%Z] (EVal (VI64 4294967295%Z));
        Call "i64.trunc_f64_u" [VF64 4751297606875873280%Z] (EVal (VI64 4294967296%Z));
        Call "i64.trunc_f64_u" [VF64 4895412794951729151%Z] (EVal (VI64 (-2048)%Z));
        Call "i64.trunc_f64_u" [VF64 13828753015803845018%Z] (EVal (VI64 0%Z));
        Call "i64.trunc_f64_u" [VF64 13830554455654793215%Z] (EVal (VI64 0%Z));
        Call "i64.trunc_f64_u" [VF64 4726483295884279808%Z] (EVal (VI64 100000000%Z));
        Call "i64.trunc_f64_u" [VF64 4846369599423283200%Z] (EVal (VI64 10000000000000000%Z));
        Call "i64.trunc_f64_u" [VF64 4890909195324358656%Z] (EVal (VI64 (-9223372036854775808)%Z)) ];
    T "test_f32_convert_i32_s" w_conversions
      [ Call "f32.convert_i32_s" [VI32 1%Z] (EFeq (VF32 1065353216%Z));
        Call "f32.convert_i32_s" [VI32 (-1)%Z] (EFeq (VF32 3212836864%Z));
        Call "f32.convert_i32_s" [VI32 0%Z] (EVal (VF32 0%Z));
        Call "f32.convert_i32_s" [VI32 2147483647%Z] (EFeq (VF32 1325400064%Z));
        Call "f32.convert_i32_s" [VI32 (-2147483648)%Z] (EFeq (VF32 3472883712%Z));
        Call "f32.convert_i32_s" [VI32 1234567890%Z] (EFeq (VF32 1318267910%Z));
        Call "f32.convert_i32_s" [VI32 16777217%Z] (EFeq (VF32 1266679808%Z));
        Call "f32.convert_i32_s" [VI32 (-16777217)%Z] (EFeq (VF32 3414163456%Z));
        Call "f32.convert_i32_s" [VI32 16777219%Z] (EFeq (VF32 1266679810%Z));
        Call "f32.convert_i32_s" [VI32 (-16777219)%Z] (EFeq (VF32 3414163458%Z)) ];
    T "test_i32_trunc_sat_f32_s" w_conversions
      [ Call "i32.trunc_sat_f32_s" [VF32 0%Z] (EVal (VI32 0%Z));
        Call "i32.trunc_sat_f32_s" [VF32 2147483648%Z] (EVal (VI32 0%Z));
        Call "i32.trunc_sat_f32_s" [VF32 1%Z] (EVal (VI32 0%Z));
        Call "i32.trunc_sat_f32_s" [VF32 2147483649%Z] (EVal (VI32 0%Z));
        Call "i32.trunc_sat_f32_s" [VF32 1065353216%Z] (EVal (VI32 1%Z));
        Call "i32.trunc_sat_f32_s" [VF32 1066192077%Z] (EVal (VI32 1%Z));
        Call "i32.trunc_sat_f32_s" [VF32 1069547520%Z] (EVal (VI32 1%Z));
        Call "i32.trunc_sat_f32_s" [VF32 3212836864%Z] (EVal (VI32 (-1)%Z));
        Call "i32.trunc_sat_f32_s" [VF32 3213675725%Z] (EVal (VI32 (-1)%Z));
        Call "i32.trunc_sat_f32_s" [VF32 3217031168%Z] (EVal (VI32 (-1)%Z));
        Call "i32.trunc_sat_f32_s" [VF32 3220386611%Z] (EVal (VI32 (-1)%Z));
        Call "i32.trunc_sat_f32_s" [VF32 3221225472%Z] (EVal (VI32 (-2)%Z));
        Call "i32.trunc_sat_f32_s" [VF32 1325400063%Z] (EVal (VI32 2147483520%Z));
        Call "i32.trunc_sat_f32_s" [VF32 3472883712%Z] (EVal (VI32 (-2147483648)%Z));
        Call "i32.trunc_sat_f32_s" [VF32 1325400064%Z] (EVal (VI32 2147483647%Z));
        Call "i32.trunc_sat_f32_s" [VF32 3472883713%Z] (EVal (VI32 (-2147483648)%Z));
        Call "i32.trunc_sat_f32_s" [VF32 2139095040%Z] (EVal (VI32 2147483647%Z));
        Call "i32.trunc_sat_f32_s" [VF32 4286578688%Z] (EVal (VI32 (-2147483648)%Z));
        Call "i32.trunc_sat_f32_s" [VF32 2143289344%Z] (EVal (VI32 0%Z));
        Call "i32.trunc_sat_f32_s" [VF32 2141192192%Z] (EVal (VI32 0%Z));
        Call "i32.trunc_sat_f32_s" [VF32 4290772992%Z] (EVal (VI32 0%Z));
        Call "i32.trunc_sat_f32_s" [VF32 4288675840%Z] (EVal (VI32 0%Z)) ];
    T "test_i32_trunc_sat_f32_u" w_conversions
      [ Call "i32.trunc_sat_f32_u" [VF32 0%Z] (EVal (VI32 0%Z));
        Call "i32.trunc_sat_f32_u" [VF32 2147483648%Z] (EVal (VI32 0%Z));
        Call "i32.trunc_sat_f32_u" [VF32 1%Z] (EVal (VI32 0%Z));
        Call "i32.trunc_sat_f32_u" [VF32 2147483649%Z] (EVal (VI32 0%Z));
        Call "i32.trunc_sat_f32_u" [VF32 1065353216%Z] (EVal (VI32 1%Z));
        Call "i32.trunc_sat_f32_u" [VF32 1066192077%Z] (EVal (VI32 1%Z));
        Call "i32.trunc_sat_f32_u" [VF32 1069547520%Z] (EVal (VI32 1%Z));
        Call "i32.trunc_sat_f32_u" [VF32 1072902963%Z] (EVal (VI32 1%Z));
        Call "i32.trunc_sat_f32_u" [VF32 1073741824%Z] (EVal (VI32 2%Z));
        Call "i32.trunc_sat_f32_u" [VF32 1325400064%Z] (EVal (VI32 (-2147483648)%Z));
        Call "i32.trunc_sat_f32_u" [VF32 1333788671%Z] (EVal (VI32 (-256)%Z));
        Call "i32.trunc_sat_f32_u" [VF32 3211159142%Z] (EVal (VI32 0%Z));
        Call "i32.trunc_sat_f32_u" [VF32 3221225471%Z] (EVal (VI32 0%Z));
        Call "i32.trunc_sat_f32_u" [VF32 1333788672%Z] (EVal (VI32 (-1)%Z));
        Call "i32.trunc_sat_f32_u" [VF32 3212836864%Z] (EVal (VI32 0%Z));
        Call "i32.trunc_sat_f32_u" [VF32 2139095040%Z] (EVal (VI32 (-1)%Z));
        Call "i32.trunc_sat_f32_u" [VF32 4286578688%Z] (EVal (VI32 0%Z));
        Call "i32.trunc_sat_f32_u" [VF32 2143289344%Z] (EVal (VI32 0%Z));
        Call "i32.trunc_sat_f32_u" [VF32 2141192192%Z] (EVal (VI32 0%Z));
        Call "i32.trunc_sat_f32_u" [VF32 4290772992%Z] (EVal (VI32 0%Z));
        Call "i32.trunc_sat_f32_u" [VF32 4288675840%Z] (EVal (VI32 0%Z)) ];
    T "test_i32_trunc_sat_f64_s" w_conversions
      [ Call "i32.trunc_sat_f64_s" [VF64 0%Z] (EVal (VI32 0%Z));
        Call "i32.trunc_sat_f64_s" [VF64 9223372036854775808%Z] (EVal (VI32 0%Z));
        Call "i32.trunc_sat_f64_s" [VF64 1%Z] (EVal (VI32 0%Z));
        Call "i32.trunc_sat_f64_s" [VF64 9223372036854775809%Z] (EVal (VI32 0%Z));
        Call "i32.trunc_sat_f64_s" [VF64 4607182418800017408%Z] (EVal (VI32 1%Z));
        Call "i32.trunc_sat_f64_s" [VF64 4607632778762754458%Z] (EVal (VI32 1%Z));
        Call "i32.trunc_sat_f64_s" [VF64 4609434218613702656%Z] (EVal (VI32 1%Z));
        Call "i32.trunc_sat_f64_s" [VF64 13830554455654793216%Z] (EVal (VI32 (-1)%Z));
        Call "i32.trunc_sat_f64_s" [VF64 13831004815617530266%Z] (EVal (VI32 (-1)%Z));
        Call "i32.trunc_sat_f64_s" [VF64 13832806255468478464%Z] (EVal (VI32 (-1)%Z));
        Call "i32.trunc_sat_f64_s" [VF64 13834607695319426662%Z] (EVal (VI32 (-1)%Z));
        Call "i32.trunc_sat_f64_s" [VF64 13835058055282163712%Z] (EVal (VI32 (-2)%Z));
        Call "i32.trunc_sat_f64_s" [VF64 4746794007244308480%Z] (EVal (VI32 2147483647%Z));
        Call "i32.trunc_sat_f64_s" [VF64 13970166044103278592%Z] (EVal (VI32 (-2147483648)%Z));
        Call "i32.trunc_sat_f64_s" [VF64 4746794007248502784%Z] (EVal (VI32 2147483647%Z));
        Call "i32.trunc_sat_f64_s" [VF64 13970166044105375744%Z] (EVal (VI32 (-2147483648)%Z));
        Call "i32.trunc_sat_f64_s" [VF64 9218868437227405312%Z] (EVal (VI32 2147483647%Z));
        Call "i32.trunc_sat_f64_s" [VF64 18442240474082181120%Z] (EVal (VI32 (-2147483648)%Z));
        Call "i32.trunc_sat_f64_s" [VF64 9221120237041090560%Z] (EVal (VI32 0%Z));
        Call "i32.trunc_sat_f64_s" [VF64 9219994337134247936%Z] (EVal (VI32 0%Z));
        Call "i32.trunc_sat_f64_s" [VF64 18444492273895866368%Z] (EVal (VI32 0%Z));
        Call "i32.trunc_sat_f64_s" [VF64 18443366373989023744%Z] (EVal (VI32 0%Z)) ];
    T "test_i32_trunc_sat_f64_u" w_conversions
      [ Call "i32.trunc_sat_f64_u" [VF64 0%Z] (EVal (VI32 0%Z));
        Call "i32.trunc_sat_f64_u" [VF64 9223372036854775808%Z] (EVal (VI32 0%Z));
        Call "i32.trunc_sat_f64_u" [VF64 1%Z] (EVal (VI32 0%Z));
        Call "i32.trunc_sat_f64_u" [VF64 9223372036854775809%Z] (EVal (VI32 0%Z));
        Call "i32.trunc_sat_f64_u" [VF64 4607182418800017408%Z] (EVal (VI32 1%Z));
        Call "i32.trunc_sat_f64_u" [VF64 4607632778762754458%Z] (EVal (VI32 1%Z));
        Call "i32.trunc_sat_f64_u" [VF64 4609434218613702656%Z] (EVal (VI32 1%Z));
        Call "i32.trunc_sat_f64_u" [VF64 4611235658464650854%Z] (EVal (VI32 1%Z));
        Call "i32.trunc_sat_f64_u" [VF64 4611686018427387904%Z] (EVal (VI32 2%Z));
        Call "i32.trunc_sat_f64_u" [VF64 4746794007248502784%Z] (EVal (VI32 (-2147483648)%Z));
        Call "i32.trunc_sat_f64_u" [VF64 4751297606873776128%Z] (EVal (VI32 (-1)%Z));
        Call "i32.trunc_sat_f64_u" [VF64 13828753015803845018%Z] (EVal (VI32 0%Z));
        Call "i32.trunc_sat_f64_u" [VF64 13830554455654793215%Z] (EVal (VI32 0%Z));
        Call "i32.trunc_sat_f64_u" [VF64 4726483295884279808%Z] (EVal (VI32 100000000%Z));
        Call "i32.trunc_sat_f64_u" [VF64 4751297606875873280%Z] (EVal (VI32 (-1)%Z));
        Call "i32.trunc_sat_f64_u" [VF64 13830554455654793216%Z] (EVal (VI32 0%Z));
        Call "i32.trunc_sat_f64_u" [VF64 4846369599423283200%Z] (EVal (VI32 (-1)%Z));
        Call "i32.trunc_sat_f64_u" [VF64 5055640609639927018%Z] (EVal (VI32 (-1)%Z));
        Call "i32.trunc_sat_f64_u" [VF64 4890909195324358656%Z] (EVal (VI32 (-1)%Z));
        Call "i32.trunc_sat_f64_u" [VF64 9218868437227405312%Z] (EVal (VI32 (-1)%Z));
        Call "i32.trunc_sat_f64_u" [VF64 18442240474082181120%Z] (EVal (VI32 0%Z));
        Call "i32.trunc_sat_f64_u" [VF64 9221120237041090560%Z] (EVal (VI32 0%Z));
        Call "i32.trunc_sat_f64_u" [VF64 9219994337134247936%Z] (EVal (VI32 0%Z));
        Call "i32.trunc_sat_f64_u" [VF64 18444492273895866368%Z] (EVal (VI32 0%Z));
        Call "i32.trunc_sat_f64_u" [VF64 18443366373989023744%Z] (EVal (VI32 0%Z)) ];
    T "test_i64_trunc_sat_f32_s" w_conversions
      [ Call "i64.trunc_sat_f32_s" [VF32 0%Z] (EVal (VI64 0%Z));
        Call "i64.trunc_sat_f32_s" [VF32 2147483648%Z] (EVal (VI64 0%Z));
        Call "i64.trunc_sat_f32_s" [VF32 1%Z] (EVal (VI64 0%Z));
        Call "i64.trunc_sat_f32_s" [VF32 2147483649%Z] (EVal (VI64 0%Z));
        Call "i64.trunc_sat_f32_s" [VF32 1065353216%Z] (EVal (VI64 1%Z));
        Call "i64.trunc_sat_f32_s" [VF32 1066192077%Z] (EVal (VI64 1%Z));
        Call "i64.trunc_sat_f32_s" [VF32 1069547520%Z] (EVal (VI64 1%Z));
        Call "i64.trunc_sat_f32_s" [VF32 3212836864%Z] (EVal (VI64 (-1)%Z));
        Call "i64.trunc_sat_f32_s" [VF32 3213675725%Z] (EVal (VI64 (-1)%Z));
        Call "i64.trunc_sat_f32_s" [VF32 3217031168%Z] (EVal (VI64 (-1)%Z));
        Call "i64.trunc_sat_f32_s" [VF32 3220386611%Z] (EVal (VI64 (-1)%Z));
        Call "i64.trunc_sat_f32_s" [VF32 3221225472%Z] (EVal (VI64 (-2)%Z));
        Call "i64.trunc_sat_f32_s" [VF32 1333788672%Z] (EVal (VI64 4294967296%Z));
        Call "i64.trunc_sat_f32_s" [VF32 3481272320%Z] (EVal (VI64 (-4294967296)%Z));
        Call "i64.trunc_sat_f32_s" [VF32 1593835519%Z] (EVal (VI64 9223371487098961920%Z));
        Call "i64.trunc_sat_f32_s" [VF32 3741319168%Z] (EVal (VI64 (-9223372036854775808)%Z));
        Call "i64.trunc_sat_f32_s" [VF32 1593835520%Z] (EVal (VI64 9223372036854775807%Z));
        Call "i64.trunc_sat_f32_s" [VF32 3741319169%Z] (EVal (VI64 (-9223372036854775808)%Z));
        Call "i64.trunc_sat_f32_s" [VF32 2139095040%Z] (EVal (VI64 9223372036854775807%Z));
        Call "i64.trunc_sat_f32_s" [VF32 4286578688%Z] (EVal (VI64 (-9223372036854775808)%Z));
        Call "i64.trunc_sat_f32_s" [VF32 2143289344%Z] (EVal (VI64 0%Z));
        Call "i64.trunc_sat_f32_s" [VF32 2141192192%Z] (EVal (VI64 0%Z));
        Call "i64.trunc_sat_f32_s" [VF32 4290772992%Z] (EVal (VI64 0%Z));
        Call "i64.trunc_sat_f32_s" [VF32 4288675840%Z] (EVal (VI64 0%Z)) ];
    T "test_i64_trunc_sat_f32_u" w_conversions
      [ Call "i64.trunc_sat_f32_u" [VF32 0%Z] (EVal (VI64 0%Z));
        Call "i64.trunc_sat_f32_u" [VF32 2147483648%Z] (EVal (VI64 0%Z));
        Call "i64.trunc_sat_f32_u" [VF32 1%Z] (EVal (VI64 0%Z));
        Call "i64.trunc_sat_f32_u" [VF32 2147483649%Z] (EVal (VI64 0%Z));
        Call "i64.trunc_sat_f32_u" [VF32 1065353216%Z] (EVal (VI64 1%Z));
        Call "i64.trunc_sat_f32_u" [VF32 1066192077%Z] (EVal (VI64 1%Z));
        Call "i64.trunc_sat_f32_u" [VF32 1069547520%Z] (EVal (VI64 1%Z));
        Call "i64.trunc_sat_f32_u" [VF32 1333788672%Z] (EVal (VI64 4294967296%Z));
        Call "i64.trunc_sat_f32_u" [VF32 1602224127%Z] (EVal (VI64 (-1099511627776)%Z));
        Call "i64.trunc_sat_f32_u" [VF32 3211159142%Z] (EVal (VI64 0%Z));
        Call "i64.trunc_sat_f32_u" [VF32 3221225471%Z] (EVal (VI64 0%Z));
        Call "i64.trunc_sat_f32_u" [VF32 1602224128%Z] (EVal (VI64 (-1)%Z));
        Call "i64.trunc_sat_f32_u" [VF32 3212836864%Z] (EVal (VI64 0%Z));
        Call "i64.trunc_sat_f32_u" [VF32 2139095040%Z] (EVal (VI64 (-1)%Z));
        Call "i64.trunc_sat_f32_u" [VF32 4286578688%Z] (EVal (VI64 0%Z));
        Call "i64.trunc_sat_f32_u" [VF32 2143289344%Z] (EVal (VI64 0%Z));
        Call "i64.trunc_sat_f32_u" [VF32 2141192192%Z] (EVal (VI64 0%Z));
        Call "i64.trunc_sat_f32_u" [VF32 4290772992%Z] (EVal (VI64 0%Z));
        Call "i64.trunc_sat_f32_u" [VF32 4288675840%Z] (EVal (VI64 0%Z)) ];
    T "test_i64_trunc_sat_f64_s" w_conversions
      [ Call "i64.trunc_sat_f64_s" [VF64 0%Z] (EVal (VI64 0%Z));
        Call "i64.trunc_sat_f64_s" [VF64 9223372036854775808%Z] (EVal (VI64 0%Z));
        Call "i64.trunc_sat_f64_s" [VF64 1%Z] (EVal (VI64 0%Z));
        Call "i64.trunc_sat_f64_s" [VF64 9223372036854775809%Z] (EVal (VI64 0%Z));
        Call "i64.trunc_sat_f64_s" [VF64 4607182418800017408%Z] (EVal (VI64 1%Z));
        Call "i64.trunc_sat_f64_s" [VF64 4607632778762754458%Z] (EVal (VI64 1%Z));
        Call "i64.trunc_sat_f64_s" [VF64 4609434218613702656%Z] (EVal (VI64 1%Z));
        Call "i64.trunc_sat_f64_s" [VF64 13830554455654793216%Z] (EVal (VI64 (-1)%Z));
        Call "i64.trunc_sat_f64_s" [VF64 13831004815617530266%Z] (EVal (VI64 (-1)%Z));
        Call "i64.trunc_sat_f64_s" [VF64 13832806255468478464%Z] (EVal (VI64 (-1)%Z));
        Call "i64.trunc_sat_f64_s" [VF64 13834607695319426662%Z] (EVal (VI64 (-1)%Z));
        Call "i64.trunc_sat_f64_s" [VF64 13835058055282163712%Z] (EVal (VI64 (-2)%Z));
        Call "i64.trunc_sat_f64_s" [VF64 4751297606875873280%Z] (EVal (VI64 4294967296%Z));
        Call "i64.trunc_sat_f64_s" [VF64 13974669643730649088%Z] (EVal (VI64 (-4294967296)%Z));
        Call "i64.trunc_sat_f64_s" [VF64 4890909195324358655%Z] (EVal (VI64 9223372036854774784%Z));
        Call "i64.trunc_sat_f64_s" [VF64 14114281232179134464%Z] (EVal (VI64 (-9223372036854775808)%Z));
        Call "i64.trunc_sat_f64_s" [VF64 4890909195324358656%Z] (EVal (VI64 9223372036854775807%Z));
        Call "i64.trunc_sat_f64_s" [VF64 14114281232179134465%Z] (EVal (VI64 (-9223372036854775808)%Z));
        Call "i64.trunc_sat_f64_s" [VF64 9218868437227405312%Z] (EVal (VI64 9223372036854775807%Z));
        Call "i64.trunc_sat_f64_s" [VF64 18442240474082181120%Z] (EVal (VI64 (-9223372036854775808)%Z));
        Call "i64.trunc_sat_f64_s" [VF64 9221120237041090560%Z] (EVal (VI64 0%Z));
        Call "i64.trunc_sat_f64_s" [VF64 9219994337134247936%Z] (EVal (VI64 0%Z));
        Call "i64.trunc_sat_f64_s" [VF64 18444492273895866368%Z] (EVal (VI64 0%Z));
        Call "i64.trunc_sat_f64_s" [VF64 18443366373989023744%Z] (EVal (VI64 0%Z)) ];
    T "test_i64_trunc_sat_f64_u" w_conversions
      [ Call "i64.trunc_sat_f64_u" [VF64 0%Z] (EVal (VI64 0%Z));
        Call "i64.trunc_sat_f64_u" [VF64 9223372036854775808%Z] (EVal (VI64 0%Z));
        Call "i64.trunc_sat_f64_u" [VF64 1%Z] (EVal (VI64 0%Z));
        Call "i64.trunc_sat_f64_u" [VF64 9223372036854775809%Z] (EVal (VI64 0%Z));
        Call "i64.trunc_sat_f64_u" [VF64 4607182418800017408%Z] (EVal (VI64 1%Z));
        Call "i64.trunc_sat_f64_u" [VF64 4607632778762754458%Z] (EVal (VI64 1%Z));
        Call "i64.trunc_sat_f64_u" [VF64 4609434218613702656%Z] (EVal (VI64 1%Z));
        Call "i64.trunc_sat_f64_u" [VF64 4751297606873776128%Z] (EVal (VI64 4294967295%Z));
        Call "i64.trunc_sat_f64_u" [VF64 4751297606875873280%Z] (EVal (VI64 4294967296%Z));
        Call "i64.trunc_sat_f64_u" [VF64 4895412794951729151%Z] (EVal (VI64 (-2048)%Z));
        Call "i64.trunc_sat_f64_u" [VF64 13828753015803845018%Z] (EVal (VI64 0%Z));
        Call "i64.trunc_sat_f64_u" [VF64 13830554455654793215%Z] (EVal (VI64 0%Z));
        Call "i64.trunc_sat_f64_u" [VF64 4726483295884279808%Z] (EVal (VI64 100000000%Z));
        Call "i64.trunc_sat_f64_u" [VF64 4846369599423283200%Z] (EVal (VI64 10000000000000000%Z));
        Call "i64.trunc_sat_f64_u" [VF64 4890909195324358656%Z] (EVal (VI64 (-9223372036854775808)%Z));
        Call "i64.trunc_sat_f64_u" [VF64 4895412794951729152%Z] (EVal (VI64 (-1)%Z));
        Call "i64.trunc_sat_f64_u" [VF64 13830554455654793216%Z] (EVal (VI64 0%Z));
        Call "i64.trunc_sat_f64_u" [VF64 9218868437227405312%Z] (EVal (VI64 (-1)%Z));
        Call "i64.trunc_sat_f64_u" [VF64 18442240474082181120%Z] (EVal (VI64 0%Z));
        Call "i64.trunc_sat_f64_u" [VF64 9221120237041090560%Z] (EVal (VI64 0%Z));
        Call "i64.trunc_sat_f64_u" [VF64 9219994337134247936%Z] (EVal (VI64 0%Z));
        Call "i64.trunc_sat_f64_u" [VF64 18444492273895866368%Z] (EVal (VI64 0%Z));
        Call "i64.trunc_sat_f64_u" [VF64 18443366373989023744%Z] (EVal (VI64 0%Z)) ];
    T "test_f32_convert_i64_s" w_conversions
      [ Call "f32.convert_i64_s" [VI64 1%Z] (EFeq (VF32 1065353216%Z));
        Call "f32.convert_i64_s" [VI64 (-1)%Z] (EFeq (VF32 3212836864%Z));
        Call "f32.convert_i64_s" [VI64 0%Z] (EVal (VF32 0%Z));
        Call "f32.convert_i64_s" [VI64 9223372036854775807%Z] (EFeq (VF32 1593835520%Z));
        Call "f32.convert_i64_s" [VI64 (-9223372036854775808)%Z] (EFeq (VF32 3741319168%Z));
        Call "f32.convert_i64_s" [VI64 314159265358979%Z] (EVal (VF32 1468980468%Z));
        Call "f32.convert_i64_s" [VI64 16777217%Z] (EFeq (VF32 1266679808%Z));
        Call "f32.convert_i64_s" [VI64 (-16777217)%Z] (EFeq (VF32 3414163456%Z));
        Call "f32.convert_i64_s" [VI64 16777219%Z] (EFeq (VF32 1266679810%Z));
        Call "f32.convert_i64_s" [VI64 (-16777219)%Z] (EFeq (VF32 3414163458%Z));
        Call "f32.convert_i64_s" [VI64 9223371212221054977%Z] (EVal (VF32 1593835519%Z));
        Call "f32.convert_i64_s" [VI64 (-9223371761976868863)%Z] (EVal (VF32 3741319167%Z));
        Call "f32.convert_i64_s" [VI64 9007199791611905%Z] (EVal (VF32 1509949441%Z));
        Call "f32.convert_i64_s" [VI64 (-9007199791611905)%Z] (EVal (VF32 3657433089%Z)) ];
    T "test_f64_convert_i32_s" w_conversions
      [ Call "f64.convert_i32_s" [VI32 1%Z] (EVal (VF64 4607182418800017408%Z));
        Call "f64.convert_i32_s" [VI32 (-1)%Z] (EVal (VF64 13830554455654793216%Z));
        Call "f64.convert_i32_s" [VI32 0%Z] (EVal (VF64 0%Z));
        Call "f64.convert_i32_s" [VI32 2147483647%Z] (EVal (VF64 4746794007244308480%Z));
        Call "f64.convert_i32_s" [VI32 (-2147483648)%Z] (EVal (VF64 13970166044103278592%Z));
        Call "f64.convert_i32_s" [VI32 987654321%Z] (EVal (VF64 4741568253304766464%Z)) ];
    T "test_f64_convert_i64_s" w_conversions
      [ Call "f64.convert_i64_s" [VI64 1%Z] (EVal (VF64 4607182418800017408%Z));
        Call "f64.convert_i64_s" [VI64 (-1)%Z] (EVal (VF64 13830554455654793216%Z));
        Call "f64.convert_i64_s" [VI64 0%Z] (EVal (VF64 0%Z));
        Call "f64.convert_i64_s" [VI64 9223372036854775807%Z] (EVal (VF64 4890909195324358656%Z));
        Call "f64.convert_i64_s" [VI64 (-9223372036854775808)%Z] (EVal (VF64 14114281232179134464%Z));
        Call "f64.convert_i64_s" [VI64 4669201609102990%Z] (EVal (VF64 4841535201405015694%Z));
        Call "f64.convert_i64_s" [VI64 9007199254740993%Z] (EVal (VF64 4845873199050653696%Z));
        Call "f64.convert_i64_s" [VI64 (-9007199254740993)%Z] (EVal (VF64 14069245235905429504%Z));
        Call "f64.convert_i64_s" [VI64 9007199254740995%Z] (EVal (VF64 4845873199050653698%Z));
        Call "f64.convert_i64_s" [VI64 (-9007199254740995)%Z] (EVal (VF64 14069245235905429506%Z)) ];
    T "test_f32_convert_i32_u" w_conversions
      [ Call "f32.convert_i32_u" [VI32 1%Z] (EVal (VF32 1065353216%Z));
        Call "f32.convert_i32_u" [VI32 0%Z] (EVal (VF32 0%Z));
        Call "f32.convert_i32_u" [VI32 2147483647%Z] (EVal (VF32 1325400064%Z));
        Call "f32.convert_i32_u" [VI32 (-2147483648)%Z] (EVal (VF32 1325400064%Z));
        Call "f32.convert_i32_u" [VI32 305419896%Z] (EVal (VF32 1301390004%Z));
        Call "f32.convert_i32_u" [VI32 (-1)%Z] (EVal (VF32 1333788672%Z));
        Call "f32.convert_i32_u" [VI32 (-2147483520)%Z] (EVal (VF32 1325400064%Z));
        Call "f32.convert_i32_u" [VI32 (-2147483519)%Z] (EVal (VF32 1325400065%Z));
        Call "f32.convert_i32_u" [VI32 (-2147483518)%Z] (EVal (VF32 1325400065%Z));
        Call "f32.convert_i32_u" [VI32 (-384)%Z] (EVal (VF32 1333788670%Z));
        Call "f32.convert_i32_u" [VI32 (-383)%Z] (EVal (VF32 1333788671%Z));
        Call "f32.convert_i32_u" [VI32 (-382)%Z] (EVal (VF32 1333788671%Z));
        Call "f32.convert_i32_u" [VI32 16777217%Z] (EVal (VF32 1266679808%Z));
        Call "f32.convert_i32_u" [VI32 16777219%Z] (EVal (VF32 1266679810%Z)) ];
    T "test_f32_convert_i64_u" w_conversions
      [ Call "f32.convert_i64_u" [VI64 1%Z] (EVal (VF32 1065353216%Z));
        Call "f32.convert_i64_u" [VI64 0%Z] (EVal (VF32 0%Z));
        Call "f32.convert_i64_u" [VI64 9223372036854775807%Z] (EVal (VF32 1593835520%Z));
        Call "f32.convert_i64_u" [VI64 (-9223372036854775808)%Z] (EVal (VF32 1593835520%Z));
        Call "f32.convert_i64_u" [VI64 (-1)%Z] (EVal (VF32 1602224128%Z));
        Call "f32.convert_i64_u" [VI64 16777217%Z] (EVal (VF32 1266679808%Z));
        Call "f32.convert_i64_u" [VI64 16777219%Z] (EVal (VF32 1266679810%Z));
        Call "f32.convert_i64_u" [VI64 9007199791611905%Z] (EVal (VF32 1509949441%Z));
        Call "f32.convert_i64_u" [VI64 9223371761976868863%Z] (EVal (VF32 1593835519%Z));
        Call "f32.convert_i64_u" [VI64 (-9223371487098961919)%Z] (EVal (VF32 1593835521%Z));
        Call "f32.convert_i64_u" [VI64 (-1649267441663)%Z] (EVal (VF32 1602224127%Z)) ];
    T "test_f64_convert_i32_u" w_conversions
      [ Call "f64.convert_i32_u" [VI32 1%Z] (EVal (VF64 4607182418800017408%Z));
        Call "f64.convert_i32_u" [VI32 0%Z] (EVal (VF64 0%Z));
        Call "f64.convert_i32_u" [VI32 2147483647%Z] (EVal (VF64 4746794007244308480%Z));
        Call "f64.convert_i32_u" [VI32 (-2147483648)%Z] (EVal (VF64 4746794007248502784%Z));
        Call "f64.convert_i32_u" [VI32 (-1)%Z] (EVal (VF64 4751297606873776128%Z)) ];
    T "test_f64_convert_i64_u" w_conversions
      [ Call "f64.convert_i64_u" [VI64 1%Z] (EVal (VF64 4607182418800017408%Z));
        Call "f64.convert_i64_u" [VI64 0%Z] (EVal (VF64 0%Z));
        Call "f64.convert_i64_u" [VI64 9223372036854775807%Z] (EVal (VF64 4890909195324358656%Z));
        Call "f64.convert_i64_u" [VI64 (-9223372036854775808)%Z] (EVal (VF64 4890909195324358656%Z));
        Call "f64.convert_i64_u" [VI64 (-1)%Z] (EVal (VF64 4895412794951729152%Z));
        Call "f64.convert_i64_u" [VI64 (-9223372036854774784)%Z] (EVal (VF64 4890909195324358656%Z));
        Call "f64.convert_i64_u" [VI64 (-9223372036854774783)%Z] (EVal (VF64 4890909195324358657%Z));
        Call "f64.convert_i64_u" [VI64 (-9223372036854774782)%Z] (EVal (VF64 4890909195324358657%Z));
        Call "f64.convert_i64_u" [VI64 (-3072)%Z] (EVal (VF64 4895412794951729150%Z));
        Call "f64.convert_i64_u" [VI64 (-3071)%Z] (EVal (VF64 4895412794951729151%Z));
        Call "f64.convert_i64_u" [VI64 (-3070)%Z] (EVal (VF64 4895412794951729151%Z));
        Call "f64.convert_i64_u" [VI64 9007199254740993%Z] (EVal (VF64 4845873199050653696%Z));
        Call "f64.convert_i64_u" [VI64 9007199254740995%Z] (EVal (VF64 4845873199050653698%Z)) ];
    T "test_f64_promote_f32" w_conversions
      [ Call "f64.promote_f32" [VF32 0%Z] (EVal (VF64 0%Z));
        Call "f64.promote_f32" [VF32 2147483648%Z] (EVal (VF64 9223372036854775808%Z));
        Call "f64.promote_f32" [VF32 1%Z] (EVal (VF64 3936146074321813504%Z));
        Call "f64.promote_f32" [VF32 2147483649%Z] (EVal (VF64 13159518111176589312%Z));
        Call "f64.promote_f32" [VF32 1065353216%Z] (EVal (VF64 4607182418800017408%Z));
        Call "f64.promote_f32" [VF32 3212836864%Z] (EVal (VF64 13830554455654793216%Z));
        Call "f64.promote_f32" [VF32 4286578687%Z] (EVal (VF64 14407015207421345792%Z));
        Call "f64.promote_f32" [VF32 2139095039%Z] (EVal (VF64 5183643170566569984%Z));
        Call "f64.promote_f32" [VF32 67108864%Z] (EVal (VF64 4071254063142928384%Z));
        Call "f64.promote_f32" [VF32 2085077823%Z] (EVal (VF64 5154642898548948992%Z));
        Call "f64.promote_f32" [VF32 2139095040%Z] (EVal (VF64 9218868437227405312%Z));
        Call "f64.promote_f32" [VF32 4286578688%Z] (EVal (VF64 18442240474082181120%Z));
        Call "f64.promote_f32" [VF32 2143289344%Z] (ENan);
        Call "f64.promote_f32" [VF32 2141192192%Z] (ENan);
        Call "f64.promote_f32" [VF32 4290772992%Z] (ENan);
        Call "f64.promote_f32" [VF32 4288675840%Z] (ENan) ];
    T "test_f32_demote_f64" w_conversions
      [ Call "f32.demote_f64" [VF64 0%Z] (EVal (VF32 0%Z));
        Call "f32.demote_f64" [VF64 9223372036854775808%Z] (EVal (VF32 2147483648%Z));
        Call "f32.demote_f64" [VF64 1%Z] (EVal (VF32 0%Z));
        Call "f32.demote_f64" [VF64 9223372036854775809%Z] (EVal (VF32 2147483648%Z));
        Call "f32.demote_f64" [VF64 4607182418800017408%Z] (EVal (VF32 1065353216%Z));
        Call "f32.demote_f64" [VF64 13830554455654793216%Z] (EVal (VF32 3212836864%Z));
        Call "f32.demote_f64" [VF64 4039728865214464000%Z] (EVal (VF32 8388608%Z));
        Call "f32.demote_f64" [VF64 13263100902069239808%Z] (EVal (VF32 2155872256%Z));
        Call "f32.demote_f64" [VF64 4039728865214463999%Z] (EVal (VF32 8388607%Z));
        Call "f32.demote_f64" [VF64 13263100902069239807%Z] (EVal (VF32 2155872255%Z));
        Call "f32.demote_f64" [VF64 3936146074321813504%Z] (EVal (VF32 1%Z));
        Call "f32.demote_f64" [VF64 13159518111176589312%Z] (EVal (VF32 2147483649%Z));
        Call "f32.demote_f64" [VF64 5183643170298134528%Z] (EVal (VF32 2139095038%Z));
        Call "f32.demote_f64" [VF64 14407015207152910336%Z] (EVal (VF32 4286578686%Z));
        Call "f32.demote_f64" [VF64 5183643170298134529%Z] (EVal (VF32 2139095039%Z));
        Call "f32.demote_f64" [VF64 14407015207152910337%Z] (EVal (VF32 4286578687%Z));
        Call "f32.demote_f64" [VF64 5183643170566569984%Z] (EVal (VF32 2139095039%Z));
        Call "f32.demote_f64" [VF64 14407015207421345792%Z] (EVal (VF32 4286578687%Z));
        Call "f32.demote_f64" [VF64 20248606136074239%Z] (EVal (VF32 0%Z));
        Call "f32.demote_f64" [VF64 56277403155038207%Z] (EVal (VF32 0%Z));
        Call "f32.demote_f64" [VF64 5183643170835005440%Z] (EVal (VF32 2139095040%Z));
        Call "f32.demote_f64" [VF64 14407015207689781248%Z] (EVal (VF32 4286578688%Z));
        Call "f32.demote_f64" [VF64 4071254063142928384%Z] (EVal (VF32 67108864%Z));
        Call "f32.demote_f64" [VF64 5172657297058430976%Z] (EVal (VF32 2118632255%Z));
        Call "f32.demote_f64" [VF64 9218868437227405312%Z] (EVal (VF32 2139095040%Z));
        Call "f32.demote_f64" [VF64 18442240474082181120%Z] (EVal (VF32 4286578688%Z));
        Call "f32.demote_f64" [VF64 4607182418800017409%Z] (EVal (VF32 1065353216%Z));
        Call "f32.demote_f64" [VF64 4607182418800017407%Z] (EVal (VF32 1065353216%Z));
        Call "f32.demote_f64" [VF64 4607182419068452864%Z] (EVal (VF32 1065353216%Z));
        Call "f32.demote_f64" [VF64 4607182419068452865%Z] (EVal (VF32 1065353217%Z));
        Call "f32.demote_f64" [VF64 4607182419605323775%Z] (EVal (VF32 1065353217%Z));
        Call "f32.demote_f64" [VF64 4607182419605323776%Z] (EVal (VF32 1065353218%Z));
        Call "f32.demote_f64" [VF64 4607182420142194688%Z] (EVal (VF32 1065353218%Z));
        Call "f32.demote_f64" [VF64 4715268810125344768%Z] (EVal (VF32 1266679808%Z));
        Call "f32.demote_f64" [VF64 4715268810125344769%Z] (EVal (VF32 1266679809%Z));
        Call "f32.demote_f64" [VF64 4715268810662215679%Z] (EVal (VF32 1266679809%Z));
        Call "f32.demote_f64" [VF64 4715268810662215680%Z] (EVal (VF32 1266679810%Z));
        Call "f32.demote_f64" [VF64 5094955347580439664%Z] (EVal (VF32 1973901096%Z));
        Call "f32.demote_f64" [VF64 4101111194527827589%Z] (EVal (VF32 122722105%Z));
        Call "f32.demote_f64" [VF64 4038806939559600639%Z] (EVal (VF32 7529997%Z));
        Call "f32.demote_f64" [VF64 13836913116900734306%Z] (EVal (VF32 3224680794%Z));
        Call "f32.demote_f64" [VF64 14338315240173327556%Z] (EVal (VF32 4158615026%Z));
        Call "f32.demote_f64" [VF64 9221120237041090560%Z] (ENan);
        Call "f32.demote_f64" [VF64 9219994337134247936%Z] (ENan);
        Call "f32.demote_f64" [VF64 18444492273895866368%Z] (ENan);
        Call "f32.demote_f64" [VF64 18443366373989023744%Z] (ENan);
        Call "f32.demote_f64" [VF64 4503599627370496%Z] (EVal (VF32 0%Z));
        Call "f32.demote_f64" [VF64 9227875636482146304%Z] (EVal (VF32 2147483648%Z));
        Call "f32.demote_f64" [VF64 3931642474694443008%Z] (EVal (VF32 0%Z));
        Call "f32.demote_f64" [VF64 13155014511549218816%Z] (EVal (VF32 2147483648%Z));
        Call "f32.demote_f64" [VF64 3931642474694443009%Z] (EVal (VF32 1%Z));
        Call "f32.demote_f64" [VF64 13155014511549218817%Z] (EVal (VF32 2147483649%Z)) ];
    T "test_f32_reinterpret_i32" w_conversions
      [ Call "f32.reinterpret_i32" [VI32 0%Z] (EVal (VF32 0%Z));
        Call "f32.reinterpret_i32" [VI32 (-2147483648)%Z] (EVal (VF32 2147483648%Z));
        Call "f32.reinterpret_i32" [VI32 1%Z] (EVal (VF32 1%Z));
        Call "f32.reinterpret_i32" [VI32 (-1)%Z] (EVal (VF32 4294967295%Z));
        Call "f32.reinterpret_i32" [VI32 123456789%Z] (EVal (VF32 123456789%Z));
        Call "f32.reinterpret_i32" [VI32 (-2147483647)%Z] (EVal (VF32 2147483649%Z));
        Call "f32.reinterpret_i32" [VI32 2139095040%Z] (EVal (VF32 2139095040%Z));
        Call "f32.reinterpret_i32" [VI32 (-8388608)%Z] (EVal (VF32 4286578688%Z));
        Call "f32.reinterpret_i32" [VI32 2143289344%Z] (EVal (VF32 2143289344%Z));
        Call "f32.reinterpret_i32" [VI32 (-4194304)%Z] (EVal (VF32 4290772992%Z));
        Call "f32.reinterpret_i32" [VI32 2141192192%Z] (EVal (VF32 2141192192%Z));
        Call "f32.reinterpret_i32" [VI32 (-6291456)%Z] (EVal (VF32 4288675840%Z)) ];
    T "test_f64_reinterpret_i64" w_conversions
      [ Call "f64.reinterpret_i64" [VI64 0%Z] (EVal (VF64 0%Z));
        Call "f64.reinterpret_i64" [VI64 1%Z] (EVal (VF64 1%Z));
        Call "f64.reinterpret_i64" [VI64 (-1)%Z] (EVal (VF64 18446744073709551615%Z));
        Call "f64.reinterpret_i64" [VI64 (-9223372036854775808)%Z] (EVal (VF64 9223372036854775808%Z));
        Call "f64.reinterpret_i64" [VI64 1234567890%Z] (EVal (VF64 1234567890%Z));
        Call "f64.reinterpret_i64" [VI64 (-9223372036854775807)%Z] (EVal (VF64 9223372036854775809%Z));
        Call "f64.reinterpret_i64" [VI64 9218868437227405312%Z] (EVal (VF64 9218868437227405312%Z));
        Call "f64.reinterpret_i64" [VI64 (-4503599627370496)%Z] (EVal (VF64 18442240474082181120%Z));
        Call "f64.reinterpret_i64" [VI64 9221120237041090560%Z] (ENan);
        Call "f64.reinterpret_i64" [VI64 (-2251799813685248)%Z] (ENan);
        Call "f64.reinterpret_i64" [VI64 9219994337134247936%Z] (ENan);
        Call "f64.reinterpret_i64" [VI64 (-3377699720527872)%Z] (ENan) ];
    T "test_i32_reinterpret_f32" w_conversions
      [ Call "i32.reinterpret_f32" [VF32 0%Z] (EVal (VI32 0%Z));
        Call "i32.reinterpret_f32" [VF32 2147483648%Z] (EVal (VI32 (-2147483648)%Z));
        Call "i32.reinterpret_f32" [VF32 1%Z] (EVal (VI32 1%Z));
        Call "i32.reinterpret_f32" [VF32 4294967295%Z] (EVal (VI32 (-1)%Z));
        Call "i32.reinterpret_f32" [VF32 2147483649%Z] (EVal (VI32 (-2147483647)%Z));
        Call "i32.reinterpret_f32" [VF32 1065353216%Z] (EVal (VI32 1065353216%Z));
        Call "i32.reinterpret_f32" [VF32 1078530010%Z] (EVal (VI32 1078530010%Z));
        Call "i32.reinterpret_f32" [VF32 2139095039%Z] (EVal (VI32 2139095039%Z));
        Call "i32.reinterpret_f32" [VF32 4286578687%Z] (EVal (VI32 (-8388609)%Z));
        Call "i32.reinterpret_f32" [VF32 2139095040%Z] (EVal (VI32 2139095040%Z));
        Call "i32.reinterpret_f32" [VF32 4286578688%Z] (EVal (VI32 (-8388608)%Z));
        Call "i32.reinterpret_f32" [VF32 2143289344%Z] (EAny);
        Call "i32.reinterpret_f32" [VF32 4290772992%Z] (EVal (VI32 (-4194304)%Z));
        Call "i32.reinterpret_f32" [VF32 2141192192%Z] (EVal (VI32 2141192192%Z));
        Call "i32.reinterpret_f32" [VF32 4288675840%Z] (EVal (VI32 (-6291456)%Z)) ];
    T "test_i64_reinterpret_f64" w_conversions
      [ Call "i64.reinterpret_f64" [VF64 0%Z] (EVal (VI64 0%Z));
        Call "i64.reinterpret_f64" [VF64 9223372036854775808%Z] (EVal (VI64 (-9223372036854775808)%Z));
        Call "i64.reinterpret_f64" [VF64 1%Z] (EVal (VI64 1%Z));
        Call "i64.reinterpret_f64" [VF64 18446744073709551615%Z] (EVal (VI64 (-1)%Z));
        Call "i64.reinterpret_f64" [VF64 9223372036854775809%Z] (EVal (VI64 (-9223372036854775807)%Z));
        Call "i64.reinterpret_f64" [VF64 4607182418800017408%Z] (EVal (VI64 4607182418800017408%Z));
        Call "i64.reinterpret_f64" [VF64 4614256656552045841%Z] (EVal (VI64 4614256656552045841%Z));
        Call "i64.reinterpret_f64" [VF64 9218868437227405311%Z] (EVal (VI64 9218868437227405311%Z));
        Call "i64.reinterpret_f64" [VF64 18442240474082181119%Z] (EVal (VI64 (-4503599627370497)%Z));
        Call "i64.reinterpret_f64" [VF64 9218868437227405312%Z] (EVal (VI64 9218868437227405312%Z));
        Call "i64.reinterpret_f64" [VF64 18442240474082181120%Z] (EVal (VI64 (-4503599627370496)%Z));
        Call "i64.reinterpret_f64" [VF64 9221120237041090560%Z] (EVal (VI64 9221120237041090560%Z));
        Call "i64.reinterpret_f64" [VF64 18444492273895866368%Z] (EVal (VI64 (-2251799813685248)%Z));
        Call "i64.reinterpret_f64" [VF64 9219994337134247936%Z] (EVal (VI64 9219994337134247936%Z));
        Call "i64.reinterpret_f64" [VF64 18443366373989023744%Z] (EVal (VI64 (-3377699720527872)%Z)) ] ].
Definition t_f32 : list test :=
  [ T "test_f32_add" w_f32
      [ Call "add" [VF32 1065353216%Z; VF32 1065353216%Z] (EFeq (VF32 1073741824%Z));
        Call "add" [VF32 0%Z; VF32 0%Z] (EFeq (VF32 0%Z));
        Call "add" [VF32 2147483648%Z; VF32 0%Z] (EFeq (VF32 0%Z));
        Call "add" [VF32 2147483648%Z; VF32 2147483648%Z] (EFeq (VF32 2147483648%Z));
        Call "add" [VF32 2139095040%Z; VF32 1065353216%Z] (EFeq (VF32 2139095040%Z));
        Call "add" [VF32 4286578688%Z; VF32 1065353216%Z] (EFeq (VF32 4286578688%Z));
        Call "add" [VF32 2143289344%Z; VF32 1065353216%Z] (ENan);
        Call "add" [VF32 2139095040%Z; VF32 4286578688%Z] (ENan);
        Call "add" [VF32 2139095039%Z; VF32 2139095039%Z] (EFeq (VF32 2139095040%Z));
        Call "add" [VF32 8388608%Z; VF32 8388608%Z] (EFeq (VF32 16777216%Z)) ];
    T "test_f32_sub" w_f32
      [ Call "sub" [VF32 1065353216%Z; VF32 1065353216%Z] (EFeq (VF32 0%Z));
        Call "sub" [VF32 1065353216%Z; VF32 1056964608%Z] (EFeq (VF32 1056964608%Z));
        Call "sub" [VF32 0%Z; VF32 0%Z] (EFeq (VF32 0%Z));
        Call "sub" [VF32 2147483648%Z; VF32 2147483648%Z] (EFeq (VF32 0%Z));
        Call "sub" [VF32 0%Z; VF32 2147483648%Z] (EFeq (VF32 0%Z));
        Call "sub" [VF32 2139095040%Z; VF32 1065353216%Z] (EFeq (VF32 2139095040%Z));
        Call "sub" [VF32 2139095040%Z; VF32 2139095040%Z] (ENan);
        Call "sub" [VF32 2143289344%Z; VF32 1065353216%Z] (ENan) ];
    T "test_f32_mul" w_f32
      [ Call "mul" [VF32 1073741824%Z; VF32 1077936128%Z] (EFeq (VF32 1086324736%Z));
        Call "mul" [VF32 3221225472%Z; VF32 1077936128%Z] (EFeq (VF32 3233808384%Z));
        Call "mul" [VF32 0%Z; VF32 1084227584%Z] (EFeq (VF32 0%Z));
        Call "mul" [VF32 2147483648%Z; VF32 1084227584%Z] (EFeq (VF32 2147483648%Z));
        Call "mul" [VF32 0%Z; VF32 3231711232%Z] (EFeq (VF32 2147483648%Z));
        Call "mul" [VF32 2139095040%Z; VF32 1073741824%Z] (EFeq (VF32 2139095040%Z));
        Call "mul" [VF32 2139095040%Z; VF32 3221225472%Z] (EFeq (VF32 4286578688%Z));
        Call "mul" [VF32 2139095040%Z; VF32 0%Z] (ENan);
        Call "mul" [VF32 2143289344%Z; VF32 1065353216%Z] (ENan);
        Call "mul" [VF32 2139095039%Z; VF32 1073741824%Z] (EFeq (VF32 2139095040%Z)) ];
    T "test_f32_div" w_f32
      [ Call "div" [VF32 1086324736%Z; VF32 1073741824%Z] (EFeq (VF32 1077936128%Z));
        Call "div" [VF32 3233808384%Z; VF32 1073741824%Z] (EFeq (VF32 3225419776%Z));
        Call "div" [VF32 1065353216%Z; VF32 0%Z] (EFeq (VF32 2139095040%Z));
        Call "div" [VF32 3212836864%Z; VF32 0%Z] (EFeq (VF32 4286578688%Z));
        Call "div" [VF32 0%Z; VF32 0%Z] (ENan);
        Call "div" [VF32 2139095040%Z; VF32 1073741824%Z] (EFeq (VF32 2139095040%Z));
        Call "div" [VF32 2139095040%Z; VF32 2139095040%Z] (ENan);
        Call "div" [VF32 2143289344%Z; VF32 1065353216%Z] (ENan) ];
    T "test_f32_sqrt" w_f32
      [ Call "sqrt" [VF32 1082130432%Z] (EFeq (VF32 1073741824%Z));
        Call "sqrt" [VF32 1091567616%Z] (EFeq (VF32 1077936128%Z));
        Call "sqrt" [VF32 0%Z] (EFeq (VF32 0%Z));
        Call "sqrt" [VF32 2147483648%Z] (EFeq (VF32 2147483648%Z));
        Call "sqrt" [VF32 3212836864%Z] (ENan);
        Call "sqrt" [VF32 2139095040%Z] (EFeq (VF32 2139095040%Z));
        Call "sqrt" [VF32 2143289344%Z] (ENan) ];
    T "test_f32_min" w_f32
      [ Call "min" [VF32 1065353216%Z; VF32 1073741824%Z] (EFeq (VF32 1065353216%Z));
        Call "min" [VF32 1073741824%Z; VF32 1065353216%Z] (EFeq (VF32 1065353216%Z));
        Call "min" [VF32 0%Z; VF32 2147483648%Z] (EFeq (VF32 2147483648%Z));
        Call "min" [VF32 2147483648%Z; VF32 0%Z] (EFeq (VF32 2147483648%Z));
        Call "min" [VF32 2139095040%Z; VF32 1065353216%Z] (EFeq (VF32 1065353216%Z));
        Call "min" [VF32 4286578688%Z; VF32 1065353216%Z] (EFeq (VF32 4286578688%Z));
        Call "min" [VF32 2143289344%Z; VF32 1065353216%Z] (ENan);
        Call "min" [VF32 1065353216%Z; VF32 2143289344%Z] (ENan) ];
    T "test_f32_max" w_f32
      [ Call "max" [VF32 1065353216%Z; VF32 1073741824%Z] (EFeq (VF32 1073741824%Z));
        Call "max" [VF32 1073741824%Z; VF32 1065353216%Z] (EFeq (VF32 1073741824%Z));
        Call "max" [VF32 0%Z; VF32 2147483648%Z] (EFeq (VF32 0%Z));
        Call "max" [VF32 2147483648%Z; VF32 0%Z] (EFeq (VF32 0%Z));
        Call "max" [VF32 2139095040%Z; VF32 1065353216%Z] (EFeq (VF32 2139095040%Z));
        Call "max" [VF32 4286578688%Z; VF32 1065353216%Z] (EFeq (VF32 1065353216%Z));
        Call "max" [VF32 2143289344%Z; VF32 1065353216%Z] (ENan);
        Call "max" [VF32 1065353216%Z; VF32 2143289344%Z] (ENan) ];
    T "test_f32_ceil" w_f32
      [ Call "ceil" [VF32 1069547520%Z] (EFeq (VF32 1073741824%Z));
        Call "ceil" [VF32 3217031168%Z] (EFeq (VF32 3212836864%Z));
        Call "ceil" [VF32 1066192077%Z] (EFeq (VF32 1073741824%Z));
        Call "ceil" [VF32 3213675725%Z] (EFeq (VF32 3212836864%Z));
        Call "ceil" [VF32 1073741824%Z] (EFeq (VF32 1073741824%Z));
        Call "ceil" [VF32 0%Z] (EFeq (VF32 0%Z));
        Call "ceil" [VF32 2147483648%Z] (EFeq (VF32 2147483648%Z));
        Call "ceil" [VF32 2139095040%Z] (EFeq (VF32 2139095040%Z));
        Call "ceil" [VF32 4286578688%Z] (EFeq (VF32 4286578688%Z));
        Call "ceil" [VF32 2143289344%Z] (ENan) ];
    T "test_f32_floor" w_f32
      [ Call "floor" [VF32 1069547520%Z] (EFeq (VF32 1065353216%Z));
        Call "floor" [VF32 3217031168%Z] (EFeq (VF32 3221225472%Z));
        Call "floor" [VF32 1072902963%Z] (EFeq (VF32 1065353216%Z));
        Call "floor" [VF32 3213675725%Z] (EFeq (VF32 3221225472%Z));
        Call "floor" [VF32 1073741824%Z] (EFeq (VF32 1073741824%Z));
        Call "floor" [VF32 0%Z] (EFeq (VF32 0%Z));
        Call "floor" [VF32 2147483648%Z] (EFeq (VF32 2147483648%Z));
        Call "floor" [VF32 2139095040%Z] (EFeq (VF32 2139095040%Z));
        Call "floor" [VF32 4286578688%Z] (EFeq (VF32 4286578688%Z));
        Call "floor" [VF32 2143289344%Z] (ENan) ];
    T "test_f32_trunc" w_f32
      [ Call "trunc" [VF32 1069547520%Z] (EFeq (VF32 1065353216%Z));
        Call "trunc" [VF32 3217031168%Z] (EFeq (VF32 3212836864%Z));
        Call "trunc" [VF32 1072902963%Z] (EFeq (VF32 1065353216%Z));
        Call "trunc" [VF32 3220386611%Z] (EFeq (VF32 3212836864%Z));
        Call "trunc" [VF32 1073741824%Z] (EFeq (VF32 1073741824%Z));
        Call "trunc" [VF32 0%Z] (EFeq (VF32 0%Z));
        Call "trunc" [VF32 2147483648%Z] (EFeq (VF32 2147483648%Z));
        Call "trunc" [VF32 2139095040%Z] (EFeq (VF32 2139095040%Z));
        Call "trunc" [VF32 4286578688%Z] (EFeq (VF32 4286578688%Z));
        Call "trunc" [VF32 2143289344%Z] (ENan) ];
    T "test_f32_nearest" w_f32
      [ Call "nearest" [VF32 1068708659%Z] (EFeq (VF32 1065353216%Z));
        Call "nearest" [VF32 1070386381%Z] (EFeq (VF32 1073741824%Z));
        Call "nearest" [VF32 3216192307%Z] (EFeq (VF32 3212836864%Z));
        Call "nearest" [VF32 3217870029%Z] (EFeq (VF32 3221225472%Z));
        Call "nearest" [VF32 1056964608%Z] (EFeq (VF32 0%Z));
        Call "nearest" [VF32 1069547520%Z] (EFeq (VF32 1073741824%Z));
        Call "nearest" [VF32 1075838976%Z] (EFeq (VF32 1073741824%Z));
        Call "nearest" [VF32 3204448256%Z] (EFeq (VF32 2147483648%Z));
        Call "nearest" [VF32 3217031168%Z] (EFeq (VF32 3221225472%Z));
        Call "nearest" [VF32 1073741824%Z] (EFeq (VF32 1073741824%Z));
        Call "nearest" [VF32 0%Z] (EFeq (VF32 0%Z));
        Call "nearest" [VF32 2147483648%Z] (EFeq (VF32 2147483648%Z));
        Call "nearest" [VF32 2139095040%Z] (EFeq (VF32 2139095040%Z));
        Call "nearest" [VF32 4286578688%Z] (EFeq (VF32 4286578688%Z));
        Call "nearest" [VF32 2143289344%Z] (ENan) ];
    T "test_f32_edge_cases" w_f32
      [ Call "add" [VF32 1%Z; VF32 1%Z] (EFeq (VF32 2%Z));
        Call "add" [VF32 2139095039%Z; VF32 0%Z] (EFeq (VF32 2139095039%Z));
        Call "add" [VF32 4286578687%Z; VF32 0%Z] (EFeq (VF32 4286578687%Z)) ];
    T "test_f32_special_arithmetic" w_f32
      [ Call "div" [VF32 8388608%Z; VF32 1073741824%Z] (EFeq (VF32 4194304%Z));
        Call "mul" [VF32 8388608%Z; VF32 1056964608%Z] (EAny) ];
    T "test_f32_spec_hex_values" w_f32
      [ Call "add" [VF32 1%Z; VF32 1%Z] (EFeq (VF32 2%Z));
        Call "add" [VF32 0%Z; VF32 8388608%Z] (EFeq (VF32 8388608%Z));
        Call "mul" [VF32 1078530011%Z; VF32 1065353216%Z] (EFeq (VF32 1078530011%Z));
        Call "add" [VF32 2139095039%Z; VF32 0%Z] (EFeq (VF32 2139095039%Z)) ];
    T "test_f32_spec_overflow" w_f32
      [ Call "add" [VF32 2139095039%Z; VF32 2139095039%Z] (EFeq (VF32 2139095040%Z));
        Call "add" [VF32 4286578687%Z; VF32 4286578687%Z] (EFeq (VF32 4286578688%Z)) ];
    T "test_f32_spec_underflow" w_f32
      [ Call "div" [VF32 1%Z; VF32 2139095039%Z] (EFeq (VF32 0%Z)) ];
    T "test_f32_spec_canonical_nan_arithmetic" w_f32
      [ Call "add" [VF32 2143289344%Z; VF32 1065353216%Z] (ENan);
        Call "sub" [VF32 2141192192%Z; VF32 1065353216%Z] (ENan);
        Call "mul" [VF32 2143289344%Z; VF32 1065353216%Z] (ENan);
        Call "div" [VF32 2141192192%Z; VF32 1065353216%Z] (ENan) ];
    T "test_f32_spec_precise_zero_signs" w_f32
      [ Call "add" [VF32 2147483648%Z; VF32 2147483648%Z] (EVal (VF32 2147483648%Z));
        Call "sub" [VF32 0%Z; VF32 0%Z] (EVal (VF32 0%Z));
        Call "mul" [VF32 2147483648%Z; VF32 1065353216%Z] (EVal (VF32 2147483648%Z)) ];
    T "test_f32_spec_subnormal_arithmetic" w_f32
      [ Call "sub" [VF32 1%Z; VF32 1%Z] (EFeq (VF32 0%Z));
        Call "add" [VF32 1%Z; VF32 1%Z] (EFeq (VF32 2%Z));
        Call "add" [VF32 2147483649%Z; VF32 2147483649%Z] (EFeq (VF32 2147483650%Z)) ];
    T "test_f32_spec_min_max_precise" w_f32
      [ Call "min" [VF32 0%Z; VF32 2147483648%Z] (EVal (VF32 2147483648%Z));
        Call "max" [VF32 0%Z; VF32 2147483648%Z] (EVal (VF32 0%Z));
        Call "min" [VF32 1%Z; VF32 0%Z] (EFeq (VF32 0%Z));
        Call "max" [VF32 1%Z; VF32 0%Z] (EFeq (VF32 1%Z)) ] ].
Definition t_i32 : list test :=
  [ T "test_i32_add" w_i32
      [ Call "add" [VI32 1%Z; VI32 1%Z] (EVal (VI32 2%Z));
        Call "add" [VI32 (-1)%Z; VI32 (-1)%Z] (EVal (VI32 (-2)%Z));
        Call "add" [VI32 1073741823%Z; VI32 1%Z] (EVal (VI32 1073741824%Z)) ];
    T "test_i32_sub" w_i32
      [ Call "sub" [VI32 1%Z; VI32 1%Z] (EVal (VI32 0%Z));
        Call "sub" [VI32 (-1)%Z; VI32 (-1)%Z] (EVal (VI32 0%Z));
        Call "sub" [VI32 1073741823%Z; VI32 (-1)%Z] (EVal (VI32 1073741824%Z)) ];
    T "test_i32_mul" w_i32
      [ Call "mul" [VI32 1%Z; VI32 1%Z] (EVal (VI32 1%Z));
        Call "mul" [VI32 1%Z; VI32 0%Z] (EVal (VI32 0%Z));
        Call "mul" [VI32 (-1)%Z; VI32 (-1)%Z] (EVal (VI32 1%Z)) ];
    T "test_i32_div_s" w_i32
      [ Call "div_s" [VI32 1%Z; VI32 1%Z] (EVal (VI32 1%Z));
        Call "div_s" [VI32 0%Z; VI32 1%Z] (EVal (VI32 0%Z));
        Call "div_s" [VI32 0%Z; VI32 (-1)%Z] (EVal (VI32 0%Z));
        Call "div_s" [VI32 (-1)%Z; VI32 (-1)%Z] (EVal (VI32 1%Z));
        Call "div_s" [VI32 (-2147483648)%Z; VI32 2%Z] (EVal (VI32 (-1073741824)%Z));
        Call "div_s" [VI32 5%Z; VI32 2%Z] (EVal (VI32 2%Z));
        Call "div_s" [VI32 5%Z; VI32 (-2)%Z] (EVal (VI32 (-2)%Z));
        Call "div_s" [VI32 (-5)%Z; VI32 (-2)%Z] (EVal (VI32 2%Z)) ];
    T "test_i32_div_u" w_i32
      [ Call "div_u" [VI32 1%Z; VI32 1%Z] (EVal (VI32 1%Z));
        Call "div_u" [VI32 0%Z; VI32 1%Z] (EVal (VI32 0%Z));
        Call "div_u" [VI32 (-1)%Z; VI32 (-1)%Z] (EVal (VI32 1%Z));
        Call "div_u" [VI32 (-2147483648)%Z; VI32 2%Z] (EVal (VI32 1073741824%Z));
        Call "div_u" [VI32 (-2147483647)%Z; VI32 1000%Z] (EVal (VI32 2147483%Z));
        Call "div_u" [VI32 5%Z; VI32 2%Z] (EVal (VI32 2%Z));
        Call "div_u" [VI32 5%Z; VI32 (-2)%Z] (EVal (VI32 0%Z));
        Call "div_u" [VI32 (-5)%Z; VI32 (-2)%Z] (EVal (VI32 0%Z));
        Call "div_u" [VI32 17%Z; VI32 7%Z] (EVal (VI32 2%Z)) ];
    T "test_i32_rem_s" w_i32
      [ Call "rem_s" [VI32 2147483647%Z; VI32 (-1)%Z] (EVal (VI32 0%Z));
        Call "rem_s" [VI32 1%Z; VI32 1%Z] (EVal (VI32 0%Z));
        Call "rem_s" [VI32 0%Z; VI32 1%Z] (EVal (VI32 0%Z));
        Call "rem_s" [VI32 0%Z; VI32 (-1)%Z] (EVal (VI32 0%Z));
        Call "rem_s" [VI32 (-1)%Z; VI32 (-1)%Z] (EVal (VI32 0%Z));
        Call "rem_s" [VI32 (-2147483648)%Z; VI32 (-1)%Z] (EVal (VI32 0%Z));
        Call "rem_s" [VI32 5%Z; VI32 2%Z] (EVal (VI32 1%Z));
        Call "rem_s" [VI32 (-5)%Z; VI32 2%Z] (EVal (VI32 (-1)%Z)) ];
    T "test_i32_rem_u" w_i32
      [ Call "rem_u" [VI32 1%Z; VI32 1%Z] (EVal (VI32 0%Z));
        Call "rem_u" [VI32 0%Z; VI32 1%Z] (EVal (VI32 0%Z));
        Call "rem_u" [VI32 0%Z; VI32 1%Z] (EVal (VI32 0%Z));
        Call "rem_u" [VI32 (-1)%Z; VI32 (-1)%Z] (EVal (VI32 0%Z));
        Call "rem_u" [VI32 (-2147483648)%Z; VI32 (-1)%Z] (EVal (VI32 (-2147483648)%Z));
        Call "rem_u" [VI32 (-2147483648)%Z; VI32 2%Z] (EVal (VI32 0%Z));
        Call "rem_u" [VI32 (-1880092688)%Z; VI32 65537%Z] (EVal (VI32 32769%Z));
        Call "rem_u" [VI32 5%Z; VI32 2%Z] (EVal (VI32 1%Z));
        Call "rem_u" [VI32 (-5)%Z; VI32 2%Z] (EVal (VI32 1%Z));
        Call "rem_u" [VI32 (-5)%Z; VI32 (-2)%Z] (EVal (VI32 (-5)%Z)) ];
    T "test_i32_and" w_i32
      [ Call "and" [VI32 1%Z; VI32 0%Z] (EVal (VI32 0%Z));
        Call "and" [VI32 0%Z; VI32 1%Z] (EVal (VI32 0%Z));
        Call "and" [VI32 1%Z; VI32 1%Z] (EVal (VI32 1%Z));
        Call "and" [VI32 0%Z; VI32 0%Z] (EVal (VI32 0%Z));
        Call "and" [VI32 2147483647%Z; VI32 (-2147483648)%Z] (EVal (VI32 0%Z));
        Call "and" [VI32 2147483647%Z; VI32 (-1)%Z] (EVal (VI32 2147483647%Z));
        Call "and" [VI32 (-252641281)%Z; VI32 (-3856)%Z] (EVal (VI32 (-252645136)%Z));
        Call "and" [VI32 (-1)%Z; VI32 (-1)%Z] (EVal (VI32 (-1)%Z)) ];
    T "test_i32_or" w_i32
      [ Call "or" [VI32 1%Z; VI32 0%Z] (EVal (VI32 1%Z));
        Call "or" [VI32 0%Z; VI32 1%Z] (EVal (VI32 1%Z));
        Call "or" [VI32 1%Z; VI32 1%Z] (EVal (VI32 1%Z));
        Call "or" [VI32 0%Z; VI32 0%Z] (EVal (VI32 0%Z));
        Call "or" [VI32 2147483647%Z; VI32 (-2147483648)%Z] (EVal (VI32 (-1)%Z));
        Call "or" [VI32 (-2147483648)%Z; VI32 0%Z] (EVal (VI32 (-2147483648)%Z));
        Call "or" [VI32 (-252641281)%Z; VI32 (-3856)%Z] (EVal (VI32 (-1)%Z)) ];
    T "test_i32_xor" w_i32
      [ Call "xor" [VI32 1%Z; VI32 0%Z] (EVal (VI32 1%Z));
        Call "xor" [VI32 0%Z; VI32 1%Z] (EVal (VI32 1%Z));
        Call "xor" [VI32 1%Z; VI32 1%Z] (EVal (VI32 0%Z));
        Call "xor" [VI32 0%Z; VI32 0%Z] (EVal (VI32 0%Z));
        Call "xor" [VI32 2147483647%Z; VI32 (-2147483648)%Z] (EVal (VI32 (-1)%Z));
        Call "xor" [VI32 (-2147483648)%Z; VI32 0%Z] (EVal (VI32 (-2147483648)%Z));
        Call "xor" [VI32 (-1)%Z; VI32 (-2147483648)%Z] (EVal (VI32 2147483647%Z));
        Call "xor" [VI32 (-252641281)%Z; VI32 (-3856)%Z] (EVal (VI32 252645135%Z)) ];
    T "test_i32_shl" w_i32
      [ Call "shl" [VI32 1%Z; VI32 1%Z] (EVal (VI32 2%Z));
        Call "shl" [VI32 1%Z; VI32 0%Z] (EVal (VI32 1%Z));
        Call "shl" [VI32 2147483647%Z; VI32 1%Z] (EVal (VI32 (-2)%Z));
        Call "shl" [VI32 (-2147483648)%Z; VI32 1%Z] (EVal (VI32 0%Z));
        Call "shl" [VI32 1073741824%Z; VI32 1%Z] (EVal (VI32 (-2147483648)%Z));
        Call "shl" [VI32 1%Z; VI32 31%Z] (EVal (VI32 (-2147483648)%Z)) ];
    T "test_i32_shr_s" w_i32
      [ Call "shr_s" [VI32 1%Z; VI32 1%Z] (EVal (VI32 0%Z));
        Call "shr_s" [VI32 1%Z; VI32 0%Z] (EVal (VI32 1%Z));
        Call "shr_s" [VI32 (-1)%Z; VI32 1%Z] (EVal (VI32 (-1)%Z));
        Call "shr_s" [VI32 2147483647%Z; VI32 1%Z] (EVal (VI32 1073741823%Z));
        Call "shr_s" [VI32 (-2147483648)%Z; VI32 1%Z] (EVal (VI32 (-1073741824)%Z));
        Call "shr_s" [VI32 1073741824%Z; VI32 1%Z] (EVal (VI32 536870912%Z));
        Call "shr_s" [VI32 (-2147483648)%Z; VI32 31%Z] (EVal (VI32 (-1)%Z)) ];
    T "test_i32_shr_u" w_i32
      [ Call "shr_u" [VI32 1%Z; VI32 1%Z] (EVal (VI32 0%Z));
        Call "shr_u" [VI32 1%Z; VI32 0%Z] (EVal (VI32 1%Z));
        Call "shr_u" [VI32 (-1)%Z; VI32 1%Z] (EVal (VI32 2147483647%Z));
        Call "shr_u" [VI32 2147483647%Z; VI32 1%Z] (EVal (VI32 1073741823%Z));
        Call "shr_u" [VI32 (-2147483648)%Z; VI32 1%Z] (EVal (VI32 1073741824%Z));
        Call "shr_u" [VI32 1073741824%Z; VI32 1%Z] (EVal (VI32 536870912%Z));
        Call "shr_u" [VI32 (-2147483648)%Z; VI32 31%Z] (EVal (VI32 1%Z)) ];
    T "test_i32_rotl" w_i32
      [ Call "rotl" [VI32 1%Z; VI32 1%Z] (EVal (VI32 2%Z));
        Call "rotl" [VI32 1%Z; VI32 0%Z] (EVal (VI32 1%Z));
        Call "rotl" [VI32 (-1)%Z; VI32 1%Z] (EVal (VI32 (-1)%Z));
        Call "rotl" [VI32 1%Z; VI32 32%Z] (EVal (VI32 1%Z));
        Call "rotl" [VI32 (-1412589450)%Z; VI32 1%Z] (EVal (VI32 1469788397%Z));
        Call "rotl" [VI32 (-33498112)%Z; VI32 4%Z] (EVal (VI32 (-535969777)%Z));
        Call "rotl" [VI32 (-1329474845)%Z; VI32 5%Z] (EVal (VI32 406477942%Z));
        Call "rotl" [VI32 32768%Z; VI32 37%Z] (EVal (VI32 1048576%Z));
        Call "rotl" [VI32 (-1329474845)%Z; VI32 65285%Z] (EVal (VI32 406477942%Z));
        Call "rotl" [VI32 1989852383%Z; VI32 (-19)%Z] (EVal (VI32 1469837011%Z));
        Call "rotl" [VI32 1989852383%Z; VI32 (-2147483635)%Z] (EVal (VI32 1469837011%Z));
        Call "rotl" [VI32 1%Z; VI32 31%Z] (EVal (VI32 (-2147483648)%Z));
        Call "rotl" [VI32 (-2147483648)%Z; VI32 1%Z] (EVal (VI32 1%Z)) ];
    T "test_i32_rotr" w_i32
      [ Call "rotr" [VI32 1%Z; VI32 1%Z] (EVal (VI32 (-2147483648)%Z));
        Call "rotr" [VI32 1%Z; VI32 0%Z] (EVal (VI32 1%Z));
        Call "rotr" [VI32 (-1)%Z; VI32 1%Z] (EVal (VI32 (-1)%Z));
        Call "rotr" [VI32 1%Z; VI32 32%Z] (EVal (VI32 1%Z));
        Call "rotr" [VI32 (-16724992)%Z; VI32 1%Z] (EVal (VI32 2139121152%Z));
        Call "rotr" [VI32 524288%Z; VI32 4%Z] (EVal (VI32 32768%Z));
        Call "rotr" [VI32 (-1329474845)%Z; VI32 5%Z] (EVal (VI32 495324823%Z));
        Call "rotr" [VI32 32768%Z; VI32 37%Z] (EVal (VI32 1024%Z));
        Call "rotr" [VI32 (-1329474845)%Z; VI32 65285%Z] (EVal (VI32 495324823%Z));
        Call "rotr" [VI32 1989852383%Z; VI32 (-19)%Z] (EVal (VI32 (-419711787)%Z));
        Call "rotr" [VI32 1989852383%Z; VI32 (-2147483635)%Z] (EVal (VI32 (-419711787)%Z));
        Call "rotr" [VI32 1%Z; VI32 31%Z] (EVal (VI32 2%Z));
        Call "rotr" [VI32 (-2147483648)%Z; VI32 31%Z] (EVal (VI32 1%Z)) ];
    T "test_i32_clz" w_i32
      [ Call "clz" [VI32 (-1)%Z] (EVal (VI32 0%Z));
        Call "clz" [VI32 0%Z] (EVal (VI32 32%Z));
        Call "clz" [VI32 32768%Z] (EVal (VI32 16%Z));
        Call "clz" [VI32 255%Z] (EVal (VI32 24%Z));
        Call "clz" [VI32 (-2147483648)%Z] (EVal (VI32 0%Z));
        Call "clz" [VI32 1%Z] (EVal (VI32 31%Z));
        Call "clz" [VI32 2%Z] (EVal (VI32 30%Z));
        Call "clz" [VI32 2147483647%Z] (EVal (VI32 1%Z)) ];
    T "test_i32_ctz" w_i32
      [ Call "ctz" [VI32 (-1)%Z] (EVal (VI32 0%Z));
        Call "ctz" [VI32 0%Z] (EVal (VI32 32%Z));
        Call "ctz" [VI32 32768%Z] (EVal (VI32 15%Z));
        Call "ctz" [VI32 65536%Z] (EVal (VI32 16%Z));
        Call "ctz" [VI32 (-2147483648)%Z] (EVal (VI32 31%Z));
        Call "ctz" [VI32 2147483647%Z] (EVal (VI32 0%Z)) ];
    T "test_i32_popcnt" w_i32
      [ Call "popcnt" [VI32 (-1)%Z] (EVal (VI32 32%Z));
        Call "popcnt" [VI32 0%Z] (EVal (VI32 0%Z));
        Call "popcnt" [VI32 32768%Z] (EVal (VI32 1%Z));
        Call "popcnt" [VI32 (-2147450880)%Z] (EVal (VI32 2%Z));
        Call "popcnt" [VI32 2147483647%Z] (EVal (VI32 31%Z));
        Call "popcnt" [VI32 (-1431655766)%Z] (EVal (VI32 16%Z));
        Call "popcnt" [VI32 1431655765%Z] (EVal (VI32 16%Z));
        Call "popcnt" [VI32 (-559038737)%Z] (EVal (VI32 24%Z)) ];
    T "test_i32_eqz" w_i32
      [ Call "eqz" [VI32 0%Z] (EVal (VI32 1%Z));
        Call "eqz" [VI32 1%Z] (EVal (VI32 0%Z));
        Call "eqz" [VI32 (-2147483648)%Z] (EVal (VI32 0%Z));
        Call "eqz" [VI32 2147483647%Z] (EVal (VI32 0%Z));
        Call "eqz" [VI32 (-1)%Z] (EVal (VI32 0%Z)) ];
    T "test_i32_eq" w_i32
      [ Call "eq" [VI32 0%Z; VI32 0%Z] (EVal (VI32 1%Z));
        Call "eq" [VI32 1%Z; VI32 1%Z] (EVal (VI32 1%Z));
        Call "eq" [VI32 (-1)%Z; VI32 1%Z] (EVal (VI32 0%Z));
        Call "eq" [VI32 (-2147483648)%Z; VI32 (-2147483648)%Z] (EVal (VI32 1%Z));
        Call "eq" [VI32 2147483647%Z; VI32 2147483647%Z] (EVal (VI32 1%Z));
        Call "eq" [VI32 (-1)%Z; VI32 (-1)%Z] (EVal (VI32 1%Z));
        Call "eq" [VI32 1%Z; VI32 0%Z] (EVal (VI32 0%Z));
        Call "eq" [VI32 0%Z; VI32 1%Z] (EVal (VI32 0%Z));
        Call "eq" [VI32 (-2147483648)%Z; VI32 0%Z] (EVal (VI32 0%Z));
        Call "eq" [VI32 0%Z; VI32 (-2147483648)%Z] (EVal (VI32 0%Z));
        Call "eq" [VI32 (-2147483648)%Z; VI32 (-1)%Z] (EVal (VI32 0%Z));
        Call "eq" [VI32 (-1)%Z; VI32 (-2147483648)%Z] (EVal (VI32 0%Z));
        Call "eq" [VI32 2147483647%Z; VI32 (-2147483648)%Z] (EVal (VI32 0%Z));
        Call "eq" [VI32 (-2147483648)%Z; VI32 2147483647%Z] (EVal (VI32 0%Z)) ];
    T "test_i32_ne" w_i32
      [ Call "ne" [VI32 0%Z; VI32 0%Z] (EVal (VI32 0%Z));
        Call "ne" [VI32 1%Z; VI32 1%Z] (EVal (VI32 0%Z));
        Call "ne" [VI32 (-1)%Z; VI32 1%Z] (EVal (VI32 1%Z));
        Call "ne" [VI32 (-2147483648)%Z; VI32 (-2147483648)%Z] (EVal (VI32 0%Z));
        Call "ne" [VI32 2147483647%Z; VI32 2147483647%Z] (EVal (VI32 0%Z));
        Call "ne" [VI32 (-1)%Z; VI32 (-1)%Z] (EVal (VI32 0%Z));
        Call "ne" [VI32 1%Z; VI32 0%Z] (EVal (VI32 1%Z));
        Call "ne" [VI32 0%Z; VI32 1%Z] (EVal (VI32 1%Z));
        Call "ne" [VI32 (-2147483648)%Z; VI32 0%Z] (EVal (VI32 1%Z));
        Call "ne" [VI32 0%Z; VI32 (-2147483648)%Z] (EVal (VI32 1%Z));
        Call "ne" [VI32 (-2147483648)%Z; VI32 (-1)%Z] (EVal (VI32 1%Z));
        Call "ne" [VI32 (-1)%Z; VI32 (-2147483648)%Z] (EVal (VI32 1%Z));
        Call "ne" [VI32 (-2147483648)%Z; VI32 2147483647%Z] (EVal (VI32 1%Z)) ];
    T "test_i32_lt_s" w_i32
      [ Call "lt_s" [VI32 0%Z; VI32 0%Z] (EVal (VI32 0%Z));
        Call "lt_s" [VI32 1%Z; VI32 1%Z] (EVal (VI32 0%Z));
        Call "lt_s" [VI32 (-1)%Z; VI32 1%Z] (EVal (VI32 1%Z));
        Call "lt_s" [VI32 (-2147483648)%Z; VI32 (-2147483648)%Z] (EVal (VI32 0%Z));
        Call "lt_s" [VI32 2147483647%Z; VI32 2147483647%Z] (EVal (VI32 0%Z));
        Call "lt_s" [VI32 (-1)%Z; VI32 (-1)%Z] (EVal (VI32 0%Z));
        Call "lt_s" [VI32 1%Z; VI32 0%Z] (EVal (VI32 0%Z));
        Call "lt_s" [VI32 0%Z; VI32 1%Z] (EVal (VI32 1%Z));
        Call "lt_s" [VI32 (-2147483648)%Z; VI32 0%Z] (EVal (VI32 1%Z));
        Call "lt_s" [VI32 0%Z; VI32 (-2147483648)%Z] (EVal (VI32 0%Z));
        Call "lt_s" [VI32 (-2147483648)%Z; VI32 (-1)%Z] (EVal (VI32 1%Z));
        Call "lt_s" [VI32 (-1)%Z; VI32 (-2147483648)%Z] (EVal (VI32 0%Z));
        Call "lt_s" [VI32 (-2147483648)%Z; VI32 2147483647%Z] (EVal (VI32 1%Z));
        Call "lt_s" [VI32 2147483647%Z; VI32 (-2147483648)%Z] (EVal (VI32 0%Z)) ];
    T "test_i32_lt_u" w_i32
      [ Call "lt_u" [VI32 0%Z; VI32 0%Z] (EVal (VI32 0%Z));
        Call "lt_u" [VI32 1%Z; VI32 1%Z] (EVal (VI32 0%Z));
        Call "lt_u" [VI32 (-1)%Z; VI32 1%Z] (EVal (VI32 0%Z));
        Call "lt_u" [VI32 (-2147483648)%Z; VI32 (-2147483648)%Z] (EVal (VI32 0%Z));
        Call "lt_u" [VI32 2147483647%Z; VI32 2147483647%Z] (EVal (VI32 0%Z));
        Call "lt_u" [VI32 (-1)%Z; VI32 (-1)%Z] (EVal (VI32 0%Z));
        Call "lt_u" [VI32 1%Z; VI32 0%Z] (EVal (VI32 0%Z));
        Call "lt_u" [VI32 0%Z; VI32 1%Z] (EVal (VI32 1%Z));
        Call "lt_u" [VI32 (-2147483648)%Z; VI32 0%Z] (EVal (VI32 0%Z));
        Call "lt_u" [VI32 0%Z; VI32 (-2147483648)%Z] (EVal (VI32 1%Z));
        Call "lt_u" [VI32 (-2147483648)%Z; VI32 (-1)%Z] (EVal (VI32 1%Z));
        Call "lt_u" [VI32 (-1)%Z; VI32 (-2147483648)%Z] (EVal (VI32 0%Z));
        Call "lt_u" [VI32 (-2147483648)%Z; VI32 2147483647%Z] (EVal (VI32 0%Z));
        Call "lt_u" [VI32 2147483647%Z; VI32 (-2147483648)%Z] (EVal (VI32 1%Z)) ];
    T "test_i32_le_s" w_i32
      [ Call "le_s" [VI32 0%Z; VI32 0%Z] (EVal (VI32 1%Z));
        Call "le_s" [VI32 1%Z; VI32 1%Z] (EVal (VI32 1%Z));
        Call "le_s" [VI32 (-1)%Z; VI32 1%Z] (EVal (VI32 1%Z));
        Call "le_s" [VI32 (-2147483648)%Z; VI32 (-2147483648)%Z] (EVal (VI32 1%Z));
        Call "le_s" [VI32 2147483647%Z; VI32 2147483647%Z] (EVal (VI32 1%Z));
        Call "le_s" [VI32 (-1)%Z; VI32 (-1)%Z] (EVal (VI32 1%Z));
        Call "le_s" [VI32 1%Z; VI32 0%Z] (EVal (VI32 0%Z));
        Call "le_s" [VI32 0%Z; VI32 1%Z] (EVal (VI32 1%Z));
        Call "le_s" [VI32 (-2147483648)%Z; VI32 0%Z] (EVal (VI32 1%Z));
        Call "le_s" [VI32 0%Z; VI32 (-2147483648)%Z] (EVal (VI32 0%Z));
        Call "le_s" [VI32 (-2147483648)%Z; VI32 (-1)%Z] (EVal (VI32 1%Z));
        Call "le_s" [VI32 (-1)%Z; VI32 (-2147483648)%Z] (EVal (VI32 0%Z));
        Call "le_s" [VI32 (-2147483648)%Z; VI32 2147483647%Z] (EVal (VI32 1%Z));
        Call "le_s" [VI32 2147483647%Z; VI32 (-2147483648)%Z] (EVal (VI32 0%Z)) ];
    T "test_i32_le_u" w_i32
      [ Call "le_u" [VI32 0%Z; VI32 0%Z] (EVal (VI32 1%Z));
        Call "le_u" [VI32 1%Z; VI32 1%Z] (EVal (VI32 1%Z));
        Call "le_u" [VI32 (-1)%Z; VI32 1%Z] (EVal (VI32 0%Z));
        Call "le_u" [VI32 (-2147483648)%Z; VI32 (-2147483648)%Z] (EVal (VI32 1%Z));
        Call "le_u" [VI32 2147483647%Z; VI32 2147483647%Z] (EVal (VI32 1%Z));
        Call "le_u" [VI32 (-1)%Z; VI32 (-1)%Z] (EVal (VI32 1%Z));
        Call "le_u" [VI32 1%Z; VI32 0%Z] (EVal (VI32 0%Z));
        Call "le_u" [VI32 0%Z; VI32 1%Z] (EVal (VI32 1%Z));
        Call "le_u" [VI32 (-2147483648)%Z; VI32 0%Z] (EVal (VI32 0%Z));
        Call "le_u" [VI32 0%Z; VI32 (-2147483648)%Z] (EVal (VI32 1%Z));
        Call "le_u" [VI32 (-2147483648)%Z; VI32 (-1)%Z] (EVal (VI32 1%Z));
        Call "le_u" [VI32 (-1)%Z; VI32 (-2147483648)%Z] (EVal (VI32 0%Z));
        Call "le_u" [VI32 (-2147483648)%Z; VI32 2147483647%Z] (EVal (VI32 0%Z));
        Call "le_u" [VI32 2147483647%Z; VI32 (-2147483648)%Z] (EVal (VI32 1%Z)) ];
    T "test_i32_gt_s" w_i32
      [ Call "gt_s" [VI32 0%Z; VI32 0%Z] (EVal (VI32 0%Z));
        Call "gt_s" [VI32 1%Z; VI32 1%Z] (EVal (VI32 0%Z));
        Call "gt_s" [VI32 (-1)%Z; VI32 1%Z] (EVal (VI32 0%Z));
        Call "gt_s" [VI32 (-2147483648)%Z; VI32 (-2147483648)%Z] (EVal (VI32 0%Z));
        Call "gt_s" [VI32 2147483647%Z; VI32 2147483647%Z] (EVal (VI32 0%Z));
        Call "gt_s" [VI32 (-1)%Z; VI32 (-1)%Z] (EVal (VI32 0%Z));
        Call "gt_s" [VI32 1%Z; VI32 0%Z] (EVal (VI32 1%Z));
        Call "gt_s" [VI32 0%Z; VI32 1%Z] (EVal (VI32 0%Z));
        Call "gt_s" [VI32 (-2147483648)%Z; VI32 0%Z] (EVal (VI32 0%Z));
        Call "gt_s" [VI32 0%Z; VI32 (-2147483648)%Z] (EVal (VI32 1%Z));
        Call "gt_s" [VI32 (-2147483648)%Z; VI32 (-1)%Z] (EVal (VI32 0%Z));
        Call "gt_s" [VI32 (-1)%Z; VI32 (-2147483648)%Z] (EVal (VI32 1%Z));
        Call "gt_s" [VI32 (-2147483648)%Z; VI32 2147483647%Z] (EVal (VI32 0%Z));
        Call "gt_s" [VI32 2147483647%Z; VI32 (-2147483648)%Z] (EVal (VI32 1%Z)) ];
    T "test_i32_gt_u" w_i32
      [ Call "gt_u" [VI32 0%Z; VI32 0%Z] (EVal (VI32 0%Z));
        Call "gt_u" [VI32 1%Z; VI32 1%Z] (EVal (VI32 0%Z));
        Call "gt_u" [VI32 (-1)%Z; VI32 1%Z] (EVal (VI32 1%Z));
        Call "gt_u" [VI32 (-2147483648)%Z; VI32 (-2147483648)%Z] (EVal (VI32 0%Z));
        Call "gt_u" [VI32 2147483647%Z; VI32 2147483647%Z] (EVal (VI32 0%Z));
        Call "gt_u" [VI32 (-1)%Z; VI32 (-1)%Z] (EVal (VI32 0%Z));
        Call "gt_u" [VI32 1%Z; VI32 0%Z] (EVal (VI32 1%Z));
        Call "gt_u" [VI32 0%Z; VI32 1%Z] (EVal (VI32 0%Z));
        Call "gt_u" [VI32 (-2147483648)%Z; VI32 0%Z] (EVal (VI32 1%Z));
        Call "gt_u" [VI32 0%Z; VI32 (-2147483648)%Z] (EVal (VI32 0%Z));
        Call "gt_u" [VI32 (-2147483648)%Z; VI32 (-1)%Z] (EVal (VI32 0%Z));
        Call "gt_u" [VI32 (-1)%Z; VI32 (-2147483648)%Z] (EVal (VI32 1%Z));
        Call "gt_u" [VI32 (-2147483648)%Z; VI32 2147483647%Z] (EVal (VI32 1%Z));
        Call "gt_u" [VI32 2147483647%Z; VI32 (-2147483648)%Z] (EVal (VI32 0%Z)) ];
    T "test_i32_ge_s" w_i32
      [ Call "ge_s" [VI32 0%Z; VI32 0%Z] (EVal (VI32 1%Z));
        Call "ge_s" [VI32 1%Z; VI32 1%Z] (EVal (VI32 1%Z));
        Call "ge_s" [VI32 (-1)%Z; VI32 1%Z] (EVal (VI32 0%Z));
        Call "ge_s" [VI32 (-2147483648)%Z; VI32 (-2147483648)%Z] (EVal (VI32 1%Z));
        Call "ge_s" [VI32 2147483647%Z; VI32 2147483647%Z] (EVal (VI32 1%Z));
        Call "ge_s" [VI32 (-1)%Z; VI32 (-1)%Z] (EVal (VI32 1%Z));
        Call "ge_s" [VI32 1%Z; VI32 0%Z] (EVal (VI32 1%Z));
        Call "ge_s" [VI32 0%Z; VI32 1%Z] (EVal (VI32 0%Z));
        Call "ge_s" [VI32 (-2147483648)%Z; VI32 0%Z] (EVal (VI32 0%Z));
        Call "ge_s" [VI32 0%Z; VI32 (-2147483648)%Z] (EVal (VI32 1%Z));
        Call "ge_s" [VI32 (-2147483648)%Z; VI32 (-1)%Z] (EVal (VI32 0%Z));
        Call "ge_s" [VI32 (-1)%Z; VI32 (-2147483648)%Z] (EVal (VI32 1%Z));
        Call "ge_s" [VI32 (-2147483648)%Z; VI32 2147483647%Z] (EVal (VI32 0%Z));
        Call "ge_s" [VI32 2147483647%Z; VI32 (-2147483648)%Z] (EVal (VI32 1%Z)) ];
    T "test_i32_ge_u" w_i32
      [ Call "ge_u" [VI32 0%Z; VI32 0%Z] (EVal (VI32 1%Z));
        Call "ge_u" [VI32 1%Z; VI32 1%Z] (EVal (VI32 1%Z));
        Call "ge_u" [VI32 (-1)%Z; VI32 1%Z] (EVal (VI32 1%Z));
        Call "ge_u" [VI32 (-2147483648)%Z; VI32 (-2147483648)%Z] (EVal (VI32 1%Z));
        Call "ge_u" [VI32 2147483647%Z; VI32 2147483647%Z] (EVal (VI32 1%Z));
        Call "ge_u" [VI32 (-1)%Z; VI32 (-1)%Z] (EVal (VI32 1%Z));
        Call "ge_u" [VI32 1%Z; VI32 0%Z] (EVal (VI32 1%Z));
        Call "ge_u" [VI32 0%Z; VI32 1%Z] (EVal (VI32 0%Z));
        Call "ge_u" [VI32 (-2147483648)%Z; VI32 0%Z] (EVal (VI32 1%Z));
        Call "ge_u" [VI32 0%Z; VI32 (-2147483648)%Z] (EVal (VI32 0%Z));
        Call "ge_u" [VI32 (-2147483648)%Z; VI32 (-1)%Z] (EVal (VI32 0%Z));
        Call "ge_u" [VI32 (-1)%Z; VI32 (-2147483648)%Z] (EVal (VI32 1%Z));
        Call "ge_u" [VI32 (-2147483648)%Z; VI32 2147483647%Z] (EVal (VI32 1%Z));
        Call "ge_u" [VI32 2147483647%Z; VI32 (-2147483648)%Z] (EVal (VI32 0%Z)) ];
    T "test_i32_extend8_s" w_i32
      [ Call "extend8_s" [VI32 0%Z] (EVal (VI32 0%Z));
        Call "extend8_s" [VI32 127%Z] (EVal (VI32 127%Z));
        Call "extend8_s" [VI32 128%Z] (EVal (VI32 (-128)%Z));
        Call "extend8_s" [VI32 255%Z] (EVal (VI32 (-1)%Z));
        Call "extend8_s" [VI32 19088640%Z] (EVal (VI32 0%Z));
        Call "extend8_s" [VI32 (-19088768)%Z] (EVal (VI32 (-128)%Z));
        Call "extend8_s" [VI32 (-1)%Z] (EVal (VI32 (-1)%Z)) ];
    T "test_i32_extend16_s" w_i32
      [ Call "extend16_s" [VI32 0%Z] (EVal (VI32 0%Z));
        Call "extend16_s" [VI32 32767%Z] (EVal (VI32 32767%Z));
        Call "extend16_s" [VI32 32768%Z] (EVal (VI32 (-32768)%Z));
        Call "extend16_s" [VI32 65535%Z] (EVal (VI32 (-1)%Z));
        Call "extend16_s" [VI32 19070976%Z] (EVal (VI32 0%Z));
        Call "extend16_s" [VI32 (-19103744)%Z] (EVal (VI32 (-32768)%Z));
        Call "extend16_s" [VI32 (-1)%Z] (EVal (VI32 (-1)%Z)) ] ].
Definition t_i64 : list test :=
  [ T "test_i64_add" w_i64
      [ Call "add" [VI64 1%Z; VI64 1%Z] (EVal (VI64 2%Z));
        Call "add" [VI64 1%Z; VI64 0%Z] (EVal (VI64 1%Z));
        Call "add" [VI64 (-1)%Z; VI64 (-1)%Z] (EVal (VI64 (-2)%Z));
        Call "add" [VI64 (-1)%Z; VI64 1%Z] (EVal (VI64 0%Z));
        Call "add" [VI64 9223372036854775807%Z; VI64 1%Z] (EVal (VI64 (-9223372036854775808)%Z));
        Call "add" [VI64 (-9223372036854775808)%Z; VI64 (-1)%Z] (EVal (VI64 9223372036854775807%Z));
        Call "add" [VI64 (-9223372036854775808)%Z; VI64 (-9223372036854775808)%Z] (EVal (VI64 0%Z));
        Call "add" [VI64 1073741823%Z; VI64 1%Z] (EVal (VI64 1073741824%Z)) ];
    T "test_i64_sub" w_i64
      [ Call "sub" [VI64 1%Z; VI64 1%Z] (EVal (VI64 0%Z));
        Call "sub" [VI64 1%Z; VI64 0%Z] (EVal (VI64 1%Z));
        Call "sub" [VI64 (-1)%Z; VI64 (-1)%Z] (EVal (VI64 0%Z));
        Call "sub" [VI64 9223372036854775807%Z; VI64 (-1)%Z] (EVal (VI64 (-9223372036854775808)%Z));
        Call "sub" [VI64 (-9223372036854775808)%Z; VI64 1%Z] (EVal (VI64 9223372036854775807%Z));
        Call "sub" [VI64 (-9223372036854775808)%Z; VI64 (-9223372036854775808)%Z] (EVal (VI64 0%Z));
        Call "sub" [VI64 1073741823%Z; VI64 (-1)%Z] (EVal (VI64 1073741824%Z)) ];
    T "test_i64_mul" w_i64
      [ Call "mul" [VI64 1%Z; VI64 1%Z] (EVal (VI64 1%Z));
        Call "mul" [VI64 1%Z; VI64 0%Z] (EVal (VI64 0%Z));
        Call "mul" [VI64 (-1)%Z; VI64 (-1)%Z] (EVal (VI64 1%Z));
        Call "mul" [VI64 1152921504606846976%Z; VI64 4096%Z] (EVal (VI64 0%Z));
        Call "mul" [VI64 (-9223372036854775808)%Z; VI64 0%Z] (EVal (VI64 0%Z));
        Call "mul" [VI64 (-9223372036854775808)%Z; VI64 (-1)%Z] (EVal (VI64 (-9223372036854775808)%Z));
        Call "mul" [VI64 9223372036854775807%Z; VI64 (-1)%Z] (EVal (VI64 (-9223372036854775807)%Z));
        Call "mul" [VI64 81985529216486895%Z; VI64 (-81985529216486896)%Z] (EVal (VI64 2465395958572223728%Z));
        Call "mul" [VI64 9223372036854775807%Z; VI64 9223372036854775807%Z] (EVal (VI64 1%Z)) ];
    T "test_i64_div_s" w_i64
      [ Call "div_s" [VI64 1%Z; VI64 1%Z] (EVal (VI64 1%Z));
        Call "div_s" [VI64 0%Z; VI64 1%Z] (EVal (VI64 0%Z));
        Call "div_s" [VI64 0%Z; VI64 (-1)%Z] (EVal (VI64 0%Z));
        Call "div_s" [VI64 (-1)%Z; VI64 (-1)%Z] (EVal (VI64 1%Z));
        Call "div_s" [VI64 (-9223372036854775808)%Z; VI64 2%Z] (EVal (VI64 (-4611686018427387904)%Z));
        Call "div_s" [VI64 (-9223372036854775807)%Z; VI64 1000%Z] (EVal (VI64 (-9223372036854775)%Z));
        Call "div_s" [VI64 5%Z; VI64 2%Z] (EVal (VI64 2%Z));
        Call "div_s" [VI64 (-5)%Z; VI64 2%Z] (EVal (VI64 (-2)%Z));
        Call "div_s" [VI64 5%Z; VI64 (-2)%Z] (EVal (VI64 (-2)%Z));
        Call "div_s" [VI64 (-5)%Z; VI64 (-2)%Z] (EVal (VI64 2%Z));
        Call "div_s" [VI64 7%Z; VI64 3%Z] (EVal (VI64 2%Z));
        Call "div_s" [VI64 (-7)%Z; VI64 3%Z] (EVal (VI64 (-2)%Z));
        Call "div_s" [VI64 7%Z; VI64 (-3)%Z] (EVal (VI64 (-2)%Z));
        Call "div_s" [VI64 (-7)%Z; VI64 (-3)%Z] (EVal (VI64 2%Z));
        Call "div_s" [VI64 11%Z; VI64 5%Z] (EVal (VI64 2%Z));
        Call "div_s" [VI64 17%Z; VI64 7%Z] (EVal (VI64 2%Z)) ];
    T "test_i64_div_u" w_i64
      [ Call "div_u" [VI64 1%Z; VI64 1%Z] (EVal (VI64 1%Z));
        Call "div_u" [VI64 0%Z; VI64 1%Z] (EVal (VI64 0%Z));
        Call "div_u" [VI64 (-1)%Z; VI64 (-1)%Z] (EVal (VI64 1%Z));
        Call "div_u" [VI64 (-9223372036854775808)%Z; VI64 (-1)%Z] (EVal (VI64 0%Z));
        Call "div_u" [VI64 (-9223372036854775808)%Z; VI64 2%Z] (EVal (VI64 4611686018427387904%Z));
        Call "div_u" [VI64 (-8074936608141340688)%Z; VI64 4294967297%Z] (EVal (VI64 2414874607%Z));
        Call "div_u" [VI64 (-9223372036854775807)%Z; VI64 1000%Z] (EVal (VI64 9223372036854775%Z));
        Call "div_u" [VI64 5%Z; VI64 2%Z] (EVal (VI64 2%Z));
        Call "div_u" [VI64 (-5)%Z; VI64 2%Z] (EVal (VI64 9223372036854775805%Z));
        Call "div_u" [VI64 5%Z; VI64 (-2)%Z] (EVal (VI64 0%Z));
        Call "div_u" [VI64 (-5)%Z; VI64 (-2)%Z] (EVal (VI64 0%Z));
        Call "div_u" [VI64 7%Z; VI64 3%Z] (EVal (VI64 2%Z));
        Call "div_u" [VI64 11%Z; VI64 5%Z] (EVal (VI64 2%Z));
        Call "div_u" [VI64 17%Z; VI64 7%Z] (EVal (VI64 2%Z)) ];
    T "test_i64_rem_s" w_i64
      [ Call "rem_s" [VI64 9223372036854775807%Z; VI64 (-1)%Z] (EVal (VI64 0%Z));
        Call "rem_s" [VI64 1%Z; VI64 1%Z] (EVal (VI64 0%Z));
        Call "rem_s" [VI64 0%Z; VI64 1%Z] (EVal (VI64 0%Z));
        Call "rem_s" [VI64 0%Z; VI64 (-1)%Z] (EVal (VI64 0%Z));
        Call "rem_s" [VI64 (-1)%Z; VI64 (-1)%Z] (EVal (VI64 0%Z));
        Call "rem_s" [VI64 (-9223372036854775808)%Z; VI64 2%Z] (EVal (VI64 0%Z));
        Call "rem_s" [VI64 (-9223372036854775807)%Z; VI64 1000%Z] (EVal (VI64 (-807)%Z));
        Call "rem_s" [VI64 5%Z; VI64 2%Z] (EVal (VI64 1%Z));
        Call "rem_s" [VI64 (-5)%Z; VI64 2%Z] (EVal (VI64 (-1)%Z));
        Call "rem_s" [VI64 5%Z; VI64 (-2)%Z] (EVal (VI64 1%Z));
        Call "rem_s" [VI64 (-5)%Z; VI64 (-2)%Z] (EVal (VI64 (-1)%Z));
        Call "rem_s" [VI64 7%Z; VI64 3%Z] (EVal (VI64 1%Z));
        Call "rem_s" [VI64 (-7)%Z; VI64 3%Z] (EVal (VI64 (-1)%Z));
        Call "rem_s" [VI64 7%Z; VI64 (-3)%Z] (EVal (VI64 1%Z));
        Call "rem_s" [VI64 (-7)%Z; VI64 (-3)%Z] (EVal (VI64 (-1)%Z));
        Call "rem_s" [VI64 11%Z; VI64 5%Z] (EVal (VI64 1%Z));
        Call "rem_s" [VI64 17%Z; VI64 7%Z] (EVal (VI64 3%Z)) ];
    T "test_i64_rem_u" w_i64
      [ Call "rem_u" [VI64 1%Z; VI64 1%Z] (EVal (VI64 0%Z));
        Call "rem_u" [VI64 0%Z; VI64 1%Z] (EVal (VI64 0%Z));
        Call "rem_u" [VI64 (-1)%Z; VI64 (-1)%Z] (EVal (VI64 0%Z));
        Call "rem_u" [VI64 (-9223372036854775808)%Z; VI64 (-1)%Z] (EVal (VI64 (-9223372036854775808)%Z));
        Call "rem_u" [VI64 (-9223372036854775808)%Z; VI64 2%Z] (EVal (VI64 0%Z));
        Call "rem_u" [VI64 (-8074936608141340688)%Z; VI64 4294967297%Z] (EVal (VI64 2147483649%Z));
        Call "rem_u" [VI64 (-9223372036854775807)%Z; VI64 1000%Z] (EVal (VI64 809%Z));
        Call "rem_u" [VI64 5%Z; VI64 2%Z] (EVal (VI64 1%Z));
        Call "rem_u" [VI64 (-5)%Z; VI64 2%Z] (EVal (VI64 1%Z));
        Call "rem_u" [VI64 5%Z; VI64 (-2)%Z] (EVal (VI64 5%Z));
        Call "rem_u" [VI64 (-5)%Z; VI64 (-2)%Z] (EVal (VI64 (-5)%Z));
        Call "rem_u" [VI64 7%Z; VI64 3%Z] (EVal (VI64 1%Z));
        Call "rem_u" [VI64 11%Z; VI64 5%Z] (EVal (VI64 1%Z));
        Call "rem_u" [VI64 17%Z; VI64 7%Z] (EVal (VI64 3%Z)) ];
    T "test_i64_and" w_i64
      [ Call "and" [VI64 1%Z; VI64 0%Z] (EVal (VI64 0%Z));
        Call "and" [VI64 0%Z; VI64 1%Z] (EVal (VI64 0%Z));
        Call "and" [VI64 1%Z; VI64 1%Z] (EVal (VI64 1%Z));
        Call "and" [VI64 0%Z; VI64 0%Z] (EVal (VI64 0%Z));
        Call "and" [VI64 9223372036854775807%Z; VI64 (-9223372036854775808)%Z] (EVal (VI64 0%Z));
        Call "and" [VI64 9223372036854775807%Z; VI64 (-1)%Z] (EVal (VI64 9223372036854775807%Z));
        Call "and" [VI64 4042326015%Z; VI64 4294963440%Z] (EVal (VI64 4042322160%Z));
        Call "and" [VI64 (-256)%Z; VI64 255%Z] (EVal (VI64 0%Z));
        Call "and" [VI64 (-1)%Z; VI64 85%Z] (EVal (VI64 85%Z)) ];
    T "test_i64_or" w_i64
      [ Call "or" [VI64 1%Z; VI64 0%Z] (EVal (VI64 1%Z));
        Call "or" [VI64 0%Z; VI64 1%Z] (EVal (VI64 1%Z));
        Call "or" [VI64 1%Z; VI64 1%Z] (EVal (VI64 1%Z));
        Call "or" [VI64 0%Z; VI64 0%Z] (EVal (VI64 0%Z));
        Call "or" [VI64 9223372036854775807%Z; VI64 (-9223372036854775808)%Z] (EVal (VI64 (-1)%Z));
        Call "or" [VI64 (-9223372036854775808)%Z; VI64 0%Z] (EVal (VI64 (-9223372036854775808)%Z));
        Call "or" [VI64 4042326015%Z; VI64 4294963440%Z] (EVal (VI64 4294967295%Z));
        Call "or" [VI64 (-256)%Z; VI64 255%Z] (EVal (VI64 (-1)%Z));
        Call "or" [VI64 (-6148914691236517206)%Z; VI64 6148914691236517205%Z] (EVal (VI64 (-1)%Z)) ];
    T "test_i64_xor" w_i64
      [ Call "xor" [VI64 1%Z; VI64 0%Z] (EVal (VI64 1%Z));
        Call "xor" [VI64 0%Z; VI64 1%Z] (EVal (VI64 1%Z));
        Call "xor" [VI64 1%Z; VI64 1%Z] (EVal (VI64 0%Z));
        Call "xor" [VI64 0%Z; VI64 0%Z] (EVal (VI64 0%Z));
        Call "xor" [VI64 9223372036854775807%Z; VI64 (-9223372036854775808)%Z] (EVal (VI64 (-1)%Z));
        Call "xor" [VI64 (-9223372036854775808)%Z; VI64 0%Z] (EVal (VI64 (-9223372036854775808)%Z));
        Call "xor" [VI64 (-1)%Z; VI64 (-9223372036854775808)%Z] (EVal (VI64 9223372036854775807%Z));
        Call "xor" [VI64 (-1)%Z; VI64 9223372036854775807%Z] (EVal (VI64 (-9223372036854775808)%Z));
        Call "xor" [VI64 4042326015%Z; VI64 4294963440%Z] (EVal (VI64 252645135%Z));
        Call "xor" [VI64 (-256)%Z; VI64 255%Z] (EVal (VI64 (-1)%Z));
        Call "xor" [VI64 (-6148914691236517206)%Z; VI64 6148914691236517205%Z] (EVal (VI64 (-1)%Z)) ];
    T "test_i64_shl" w_i64
      [ Call "shl" [VI64 1%Z; VI64 1%Z] (EVal (VI64 2%Z));
        Call "shl" [VI64 1%Z; VI64 0%Z] (EVal (VI64 1%Z));
        Call "shl" [VI64 9223372036854775807%Z; VI64 1%Z] (EVal (VI64 (-2)%Z));
        Call "shl" [VI64 (-1)%Z; VI64 1%Z] (EVal (VI64 (-2)%Z));
        Call "shl" [VI64 (-9223372036854775808)%Z; VI64 1%Z] (EVal (VI64 0%Z));
        Call "shl" [VI64 4611686018427387904%Z; VI64 1%Z] (EVal (VI64 (-9223372036854775808)%Z));
        Call "shl" [VI64 1%Z; VI64 63%Z] (EVal (VI64 (-9223372036854775808)%Z));
        Call "shl" [VI64 1%Z; VI64 64%Z] (EVal (VI64 1%Z));
        Call "shl" [VI64 1%Z; VI64 65%Z] (EVal (VI64 2%Z));
        Call "shl" [VI64 1%Z; VI64 (-1)%Z] (EVal (VI64 (-9223372036854775808)%Z));
        Call "shl" [VI64 1%Z; VI64 9223372036854775807%Z] (EVal (VI64 (-9223372036854775808)%Z)) ];
    T "test_i64_shr_s" w_i64
      [ Call "shr_s" [VI64 1%Z; VI64 1%Z] (EVal (VI64 0%Z));
        Call "shr_s" [VI64 1%Z; VI64 0%Z] (EVal (VI64 1%Z));
        Call "shr_s" [VI64 (-1)%Z; VI64 1%Z] (EVal (VI64 (-1)%Z));
        Call "shr_s" [VI64 9223372036854775807%Z; VI64 1%Z] (EVal (VI64 4611686018427387903%Z));
        Call "shr_s" [VI64 (-9223372036854775808)%Z; VI64 1%Z] (EVal (VI64 (-4611686018427387904)%Z));
        Call "shr_s" [VI64 4611686018427387904%Z; VI64 1%Z] (EVal (VI64 2305843009213693952%Z));
        Call "shr_s" [VI64 1%Z; VI64 64%Z] (EVal (VI64 1%Z));
        Call "shr_s" [VI64 1%Z; VI64 65%Z] (EVal (VI64 0%Z));
        Call "shr_s" [VI64 1%Z; VI64 (-1)%Z] (EVal (VI64 0%Z));
        Call "shr_s" [VI64 1%Z; VI64 9223372036854775807%Z] (EVal (VI64 0%Z));
        Call "shr_s" [VI64 1%Z; VI64 (-9223372036854775808)%Z] (EVal (VI64 1%Z));
        Call "shr_s" [VI64 (-9223372036854775808)%Z; VI64 63%Z] (EVal (VI64 (-1)%Z));
        Call "shr_s" [VI64 (-1)%Z; VI64 64%Z] (EVal (VI64 (-1)%Z));
        Call "shr_s" [VI64 (-1)%Z; VI64 65%Z] (EVal (VI64 (-1)%Z));
        Call "shr_s" [VI64 (-1)%Z; VI64 (-1)%Z] (EVal (VI64 (-1)%Z));
        Call "shr_s" [VI64 (-1)%Z; VI64 9223372036854775807%Z] (EVal (VI64 (-1)%Z));
        Call "shr_s" [VI64 (-1)%Z; VI64 (-9223372036854775808)%Z] (EVal (VI64 (-1)%Z)) ];
    T "test_i64_shr_u" w_i64
      [ Call "shr_u" [VI64 1%Z; VI64 1%Z] (EVal (VI64 0%Z));
        Call "shr_u" [VI64 1%Z; VI64 0%Z] (EVal (VI64 1%Z));
        Call "shr_u" [VI64 (-1)%Z; VI64 1%Z] (EVal (VI64 9223372036854775807%Z));
        Call "shr_u" [VI64 9223372036854775807%Z; VI64 1%Z] (EVal (VI64 4611686018427387903%Z));
        Call "shr_u" [VI64 (-9223372036854775808)%Z; VI64 1%Z] (EVal (VI64 4611686018427387904%Z));
        Call "shr_u" [VI64 4611686018427387904%Z; VI64 1%Z] (EVal (VI64 2305843009213693952%Z));
        Call "shr_u" [VI64 1%Z; VI64 64%Z] (EVal (VI64 1%Z));
        Call "shr_u" [VI64 1%Z; VI64 65%Z] (EVal (VI64 0%Z));
        Call "shr_u" [VI64 1%Z; VI64 (-1)%Z] (EVal (VI64 0%Z));
        Call "shr_u" [VI64 1%Z; VI64 9223372036854775807%Z] (EVal (VI64 0%Z));
        Call "shr_u" [VI64 1%Z; VI64 (-9223372036854775808)%Z] (EVal (VI64 1%Z));
        Call "shr_u" [VI64 (-9223372036854775808)%Z; VI64 63%Z] (EVal (VI64 1%Z));
        Call "shr_u" [VI64 (-1)%Z; VI64 64%Z] (EVal (VI64 (-1)%Z));
        Call "shr_u" [VI64 (-1)%Z; VI64 65%Z] (EVal (VI64 9223372036854775807%Z));
        Call "shr_u" [VI64 (-1)%Z; VI64 (-1)%Z] (EVal (VI64 1%Z));
        Call "shr_u" [VI64 (-1)%Z; VI64 9223372036854775807%Z] (EVal (VI64 1%Z));
        Call "shr_u" [VI64 (-1)%Z; VI64 (-9223372036854775808)%Z] (EVal (VI64 (-1)%Z)) ];
    T "test_i64_rotl" w_i64
      [ Call "rotl" [VI64 1%Z; VI64 1%Z] (EVal (VI64 2%Z));
        Call "rotl" [VI64 1%Z; VI64 0%Z] (EVal (VI64 1%Z));
        Call "rotl" [VI64 (-1)%Z; VI64 1%Z] (EVal (VI64 (-1)%Z));
        Call "rotl" [VI64 1%Z; VI64 64%Z] (EVal (VI64 1%Z));
        Call "rotl" [VI64 (-6067025490386449714)%Z; VI64 1%Z] (EVal (VI64 6312693092936652189%Z));
        Call "rotl" [VI64 (-144115184384868352)%Z; VI64 4%Z] (EVal (VI64 (-2305842950157893617)%Z));
        Call "rotl" [VI64 (-6067173104435169271)%Z; VI64 53%Z] (EVal (VI64 87109505680009935%Z));
        Call "rotl" [VI64 (-6066028401059725156)%Z; VI64 63%Z] (EVal (VI64 6190357836324913230%Z));
        Call "rotl" [VI64 (-6067173104435169271)%Z; VI64 245%Z] (EVal (VI64 87109505680009935%Z));
        Call "rotl" [VI64 1%Z; VI64 63%Z] (EVal (VI64 (-9223372036854775808)%Z));
        Call "rotl" [VI64 (-9223372036854775808)%Z; VI64 1%Z] (EVal (VI64 1%Z)) ];
    T "test_i64_rotr" w_i64
      [ Call "rotr" [VI64 1%Z; VI64 1%Z] (EVal (VI64 (-9223372036854775808)%Z));
        Call "rotr" [VI64 1%Z; VI64 0%Z] (EVal (VI64 1%Z));
        Call "rotr" [VI64 (-1)%Z; VI64 1%Z] (EVal (VI64 (-1)%Z));
        Call "rotr" [VI64 1%Z; VI64 64%Z] (EVal (VI64 1%Z));
        Call "rotr" [VI64 (-6067025490386449714)%Z; VI64 1%Z] (EVal (VI64 6189859291661550951%Z));
        Call "rotr" [VI64 (-144115184384868352)%Z; VI64 4%Z] (EVal (VI64 1143914305582792704%Z));
        Call "rotr" [VI64 (-6067173104435169271)%Z; VI64 53%Z] (EVal (VI64 7534987797011123550%Z));
        Call "rotr" [VI64 (-6066028401059725156)%Z; VI64 63%Z] (EVal (VI64 6314687271590101305%Z));
        Call "rotr" [VI64 (-6067173104435169271)%Z; VI64 245%Z] (EVal (VI64 7534987797011123550%Z)) ];
    T "test_i64_clz" w_i64
      [ Call "clz" [VI64 (-1)%Z] (EVal (VI64 0%Z));
        Call "clz" [VI64 0%Z] (EVal (VI64 64%Z));
        Call "clz" [VI64 32768%Z] (EVal (VI64 48%Z));
        Call "clz" [VI64 255%Z] (EVal (VI64 56%Z));
        Call "clz" [VI64 (-9223372036854775808)%Z] (EVal (VI64 0%Z));
        Call "clz" [VI64 1%Z] (EVal (VI64 63%Z));
        Call "clz" [VI64 2%Z] (EVal (VI64 62%Z));
        Call "clz" [VI64 9223372036854775807%Z] (EVal (VI64 1%Z)) ];
    T "test_i64_ctz" w_i64
      [ Call "ctz" [VI64 (-1)%Z] (EVal (VI64 0%Z));
        Call "ctz" [VI64 0%Z] (EVal (VI64 64%Z));
        Call "ctz" [VI64 32768%Z] (EVal (VI64 15%Z));
        Call "ctz" [VI64 65536%Z] (EVal (VI64 16%Z));
        Call "ctz" [VI64 (-9223372036854775808)%Z] (EVal (VI64 63%Z));
        Call "ctz" [VI64 9223372036854775807%Z] (EVal (VI64 0%Z)) ];
    T "test_i64_popcnt" w_i64
      [ Call "popcnt" [VI64 (-1)%Z] (EVal (VI64 64%Z));
        Call "popcnt" [VI64 0%Z] (EVal (VI64 0%Z));
        Call "popcnt" [VI64 32768%Z] (EVal (VI64 1%Z));
        Call "popcnt" [VI64 (-9223231297218904064)%Z] (EVal (VI64 4%Z));
        Call "popcnt" [VI64 9223372036854775807%Z] (EVal (VI64 63%Z));
        Call "popcnt" [VI64 (-6148914692668172971)%Z] (EVal (VI64 32%Z));
        Call "popcnt" [VI64 (-7378697629197489494)%Z] (EVal (VI64 32%Z));
        Call "popcnt" [VI64 (-2401053088876216593)%Z] (EVal (VI64 48%Z)) ];
    T "test_i64_eq" w_i64
      [ Call "eq" [VI64 0%Z; VI64 0%Z] (EVal (VI32 1%Z));
        Call "eq" [VI64 1%Z; VI64 1%Z] (EVal (VI32 1%Z));
        Call "eq" [VI64 (-1)%Z; VI64 1%Z] (EVal (VI32 0%Z));
        Call "eq" [VI64 (-9223372036854775808)%Z; VI64 (-9223372036854775808)%Z] (EVal (VI32 1%Z));
        Call "eq" [VI64 9223372036854775807%Z; VI64 9223372036854775807%Z] (EVal (VI32 1%Z));
        Call "eq" [VI64 (-1)%Z; VI64 (-1)%Z] (EVal (VI32 1%Z));
        Call "eq" [VI64 1%Z; VI64 0%Z] (EVal (VI32 0%Z));
        Call "eq" [VI64 0%Z; VI64 1%Z] (EVal (VI32 0%Z));
        Call "eq" [VI64 (-9223372036854775808)%Z; VI64 0%Z] (EVal (VI32 0%Z));
        Call "eq" [VI64 (-9223372036854775808)%Z; VI64 (-1)%Z] (EVal (VI32 0%Z));
        Call "eq" [VI64 (-9223372036854775808)%Z; VI64 9223372036854775807%Z] (EVal (VI32 0%Z)) ];
    T "test_i64_ne" w_i64
      [ Call "ne" [VI64 0%Z; VI64 0%Z] (EVal (VI32 0%Z));
        Call "ne" [VI64 1%Z; VI64 1%Z] (EVal (VI32 0%Z));
        Call "ne" [VI64 (-1)%Z; VI64 1%Z] (EVal (VI32 1%Z));
        Call "ne" [VI64 (-9223372036854775808)%Z; VI64 (-9223372036854775808)%Z] (EVal (VI32 0%Z));
        Call "ne" [VI64 9223372036854775807%Z; VI64 9223372036854775807%Z] (EVal (VI32 0%Z));
        Call "ne" [VI64 (-1)%Z; VI64 (-1)%Z] (EVal (VI32 0%Z));
        Call "ne" [VI64 1%Z; VI64 0%Z] (EVal (VI32 1%Z));
        Call "ne" [VI64 0%Z; VI64 1%Z] (EVal (VI32 1%Z));
        Call "ne" [VI64 (-9223372036854775808)%Z; VI64 0%Z] (EVal (VI32 1%Z));
        Call "ne" [VI64 (-9223372036854775808)%Z; VI64 (-1)%Z] (EVal (VI32 1%Z));
        Call "ne" [VI64 (-9223372036854775808)%Z; VI64 9223372036854775807%Z] (EVal (VI32 1%Z)) ];
    T "test_i64_lt_s" w_i64
      [ Call "lt_s" [VI64 0%Z; VI64 0%Z] (EVal (VI32 0%Z));
        Call "lt_s" [VI64 1%Z; VI64 1%Z] (EVal (VI32 0%Z));
        Call "lt_s" [VI64 (-1)%Z; VI64 1%Z] (EVal (VI32 1%Z));
        Call "lt_s" [VI64 (-9223372036854775808)%Z; VI64 (-9223372036854775808)%Z] (EVal (VI32 0%Z));
        Call "lt_s" [VI64 9223372036854775807%Z; VI64 9223372036854775807%Z] (EVal (VI32 0%Z));
        Call "lt_s" [VI64 (-1)%Z; VI64 (-1)%Z] (EVal (VI32 0%Z));
        Call "lt_s" [VI64 1%Z; VI64 0%Z] (EVal (VI32 0%Z));
        Call "lt_s" [VI64 0%Z; VI64 1%Z] (EVal (VI32 1%Z));
        Call "lt_s" [VI64 (-9223372036854775808)%Z; VI64 0%Z] (EVal (VI32 1%Z));
        Call "lt_s" [VI64 0%Z; VI64 (-9223372036854775808)%Z] (EVal (VI32 0%Z));
        Call "lt_s" [VI64 (-9223372036854775808)%Z; VI64 (-1)%Z] (EVal (VI32 1%Z));
        Call "lt_s" [VI64 (-1)%Z; VI64 (-9223372036854775808)%Z] (EVal (VI32 0%Z));
        Call "lt_s" [VI64 (-9223372036854775808)%Z; VI64 9223372036854775807%Z] (EVal (VI32 1%Z));
        Call "lt_s" [VI64 9223372036854775807%Z; VI64 (-9223372036854775808)%Z] (EVal (VI32 0%Z)) ];
    T "test_i64_lt_u" w_i64
      [ Call "lt_u" [VI64 0%Z; VI64 0%Z] (EVal (VI32 0%Z));
        Call "lt_u" [VI64 1%Z; VI64 1%Z] (EVal (VI32 0%Z));
        Call "lt_u" [VI64 (-1)%Z; VI64 1%Z] (EVal (VI32 0%Z));
        Call "lt_u" [VI64 (-9223372036854775808)%Z; VI64 (-9223372036854775808)%Z] (EVal (VI32 0%Z));
        Call "lt_u" [VI64 9223372036854775807%Z; VI64 9223372036854775807%Z] (EVal (VI32 0%Z));
        Call "lt_u" [VI64 (-1)%Z; VI64 (-1)%Z] (EVal (VI32 0%Z));
        Call "lt_u" [VI64 1%Z; VI64 0%Z] (EVal (VI32 0%Z));
        Call "lt_u" [VI64 0%Z; VI64 1%Z] (EVal (VI32 1%Z));
        Call "lt_u" [VI64 (-9223372036854775808)%Z; VI64 0%Z] (EVal (VI32 0%Z));
        Call "lt_u" [VI64 0%Z; VI64 (-9223372036854775808)%Z] (EVal (VI32 1%Z));
        Call "lt_u" [VI64 (-9223372036854775808)%Z; VI64 (-1)%Z] (EVal (VI32 1%Z));
        Call "lt_u" [VI64 (-1)%Z; VI64 (-9223372036854775808)%Z] (EVal (VI32 0%Z));
        Call "lt_u" [VI64 (-9223372036854775808)%Z; VI64 9223372036854775807%Z] (EVal (VI32 0%Z));
        Call "lt_u" [VI64 9223372036854775807%Z; VI64 (-9223372036854775808)%Z] (EVal (VI32 1%Z)) ];
    T "test_i64_gt_s" w_i64
      [ Call "gt_s" [VI64 0%Z; VI64 0%Z] (EVal (VI32 0%Z));
        Call "gt_s" [VI64 1%Z; VI64 1%Z] (EVal (VI32 0%Z));
        Call "gt_s" [VI64 (-1)%Z; VI64 1%Z] (EVal (VI32 0%Z));
        Call "gt_s" [VI64 (-9223372036854775808)%Z; VI64 (-9223372036854775808)%Z] (EVal (VI32 0%Z));
        Call "gt_s" [VI64 9223372036854775807%Z; VI64 9223372036854775807%Z] (EVal (VI32 0%Z));
        Call "gt_s" [VI64 1%Z; VI64 0%Z] (EVal (VI32 1%Z));
        Call "gt_s" [VI64 0%Z; VI64 1%Z] (EVal (VI32 0%Z));
        Call "gt_s" [VI64 (-9223372036854775808)%Z; VI64 0%Z] (EVal (VI32 0%Z));
        Call "gt_s" [VI64 0%Z; VI64 (-9223372036854775808)%Z] (EVal (VI32 1%Z));
        Call "gt_s" [VI64 9223372036854775807%Z; VI64 (-9223372036854775808)%Z] (EVal (VI32 1%Z)) ];
    T "test_i64_gt_u" w_i64
      [ Call "gt_u" [VI64 0%Z; VI64 0%Z] (EVal (VI32 0%Z));
        Call "gt_u" [VI64 1%Z; VI64 1%Z] (EVal (VI32 0%Z));
        Call "gt_u" [VI64 (-1)%Z; VI64 1%Z] (EVal (VI32 1%Z));
        Call "gt_u" [VI64 (-9223372036854775808)%Z; VI64 (-9223372036854775808)%Z] (EVal (VI32 0%Z));
        Call "gt_u" [VI64 9223372036854775807%Z; VI64 9223372036854775807%Z] (EVal (VI32 0%Z));
        Call "gt_u" [VI64 1%Z; VI64 0%Z] (EVal (VI32 1%Z));
        Call "gt_u" [VI64 0%Z; VI64 1%Z] (EVal (VI32 0%Z));
        Call "gt_u" [VI64 (-9223372036854775808)%Z; VI64 0%Z] (EVal (VI32 1%Z));
        Call "gt_u" [VI64 0%Z; VI64 (-9223372036854775808)%Z] (EVal (VI32 0%Z));
        Call "gt_u" [VI64 (-1)%Z; VI64 (-9223372036854775808)%Z] (EVal (VI32 1%Z)) ];
    T "test_i64_le_s" w_i64
      [ Call "le_s" [VI64 0%Z; VI64 0%Z] (EVal (VI32 1%Z));
        Call "le_s" [VI64 1%Z; VI64 1%Z] (EVal (VI32 1%Z));
        Call "le_s" [VI64 (-1)%Z; VI64 1%Z] (EVal (VI32 1%Z));
        Call "le_s" [VI64 (-9223372036854775808)%Z; VI64 (-9223372036854775808)%Z] (EVal (VI32 1%Z));
        Call "le_s" [VI64 9223372036854775807%Z; VI64 9223372036854775807%Z] (EVal (VI32 1%Z));
        Call "le_s" [VI64 1%Z; VI64 0%Z] (EVal (VI32 0%Z));
        Call "le_s" [VI64 0%Z; VI64 1%Z] (EVal (VI32 1%Z));
        Call "le_s" [VI64 (-9223372036854775808)%Z; VI64 0%Z] (EVal (VI32 1%Z));
        Call "le_s" [VI64 0%Z; VI64 (-9223372036854775808)%Z] (EVal (VI32 0%Z)) ];
    T "test_i64_le_u" w_i64
      [ Call "le_u" [VI64 0%Z; VI64 0%Z] (EVal (VI32 1%Z));
        Call "le_u" [VI64 1%Z; VI64 1%Z] (EVal (VI32 1%Z));
        Call "le_u" [VI64 (-1)%Z; VI64 1%Z] (EVal (VI32 0%Z));
        Call "le_u" [VI64 (-9223372036854775808)%Z; VI64 (-9223372036854775808)%Z] (EVal (VI32 1%Z));
        Call "le_u" [VI64 9223372036854775807%Z; VI64 9223372036854775807%Z] (EVal (VI32 1%Z));
        Call "le_u" [VI64 1%Z; VI64 0%Z] (EVal (VI32 0%Z));
        Call "le_u" [VI64 0%Z; VI64 1%Z] (EVal (VI32 1%Z));
        Call "le_u" [VI64 (-9223372036854775808)%Z; VI64 0%Z] (EVal (VI32 0%Z));
        Call "le_u" [VI64 0%Z; VI64 (-9223372036854775808)%Z] (EVal (VI32 1%Z)) ];
    T "test_i64_ge_s" w_i64
      [ Call "ge_s" [VI64 0%Z; VI64 0%Z] (EVal (VI32 1%Z));
        Call "ge_s" [VI64 1%Z; VI64 1%Z] (EVal (VI32 1%Z));
        Call "ge_s" [VI64 (-1)%Z; VI64 1%Z] (EVal (VI32 0%Z));
        Call "ge_s" [VI64 (-9223372036854775808)%Z; VI64 (-9223372036854775808)%Z] (EVal (VI32 1%Z));
        Call "ge_s" [VI64 9223372036854775807%Z; VI64 9223372036854775807%Z] (EVal (VI32 1%Z));
        Call "ge_s" [VI64 1%Z; VI64 0%Z] (EVal (VI32 1%Z));
        Call "ge_s" [VI64 0%Z; VI64 1%Z] (EVal (VI32 0%Z));
        Call "ge_s" [VI64 (-9223372036854775808)%Z; VI64 0%Z] (EVal (VI32 0%Z));
        Call "ge_s" [VI64 0%Z; VI64 (-9223372036854775808)%Z] (EVal (VI32 1%Z)) ];
    T "test_i64_ge_u" w_i64
      [ Call "ge_u" [VI64 0%Z; VI64 0%Z] (EVal (VI32 1%Z));
        Call "ge_u" [VI64 1%Z; VI64 1%Z] (EVal (VI32 1%Z));
        Call "ge_u" [VI64 (-1)%Z; VI64 1%Z] (EVal (VI32 1%Z));
        Call "ge_u" [VI64 (-9223372036854775808)%Z; VI64 (-9223372036854775808)%Z] (EVal (VI32 1%Z));
        Call "ge_u" [VI64 9223372036854775807%Z; VI64 9223372036854775807%Z] (EVal (VI32 1%Z));
        Call "ge_u" [VI64 1%Z; VI64 0%Z] (EVal (VI32 1%Z));
        Call "ge_u" [VI64 0%Z; VI64 1%Z] (EVal (VI32 0%Z));
        Call "ge_u" [VI64 (-9223372036854775808)%Z; VI64 0%Z] (EVal (VI32 1%Z));
        Call "ge_u" [VI64 0%Z; VI64 (-9223372036854775808)%Z] (EVal (VI32 0%Z)) ] ].
Definition t_if : list test :=
  [ T "test_empty" w_if
      [ Call "empty" [VI32 0%Z] (EOk);
        Call "empty" [VI32 1%Z] (EOk);
        Call "empty" [VI32 100%Z] (EOk);
        Call "empty" [VI32 (-2)%Z] (EOk) ];
    T "test_singular" w_if
      [ Call "singular" [VI32 0%Z] (EVal (VI32 8%Z));
        Call "singular" [VI32 1%Z] (EVal (VI32 7%Z));
        Call "singular" [VI32 10%Z] (EVal (VI32 7%Z));
        Call "singular" [VI32 (-10)%Z] (EVal (VI32 7%Z)) ];
    T "test_nested" w_if
      [ Call "nested" [VI32 0%Z; VI32 0%Z] (EVal (VI32 11%Z));
        Call "nested" [VI32 1%Z; VI32 0%Z] (EVal (VI32 10%Z));
        Call "nested" [VI32 0%Z; VI32 1%Z] (EVal (VI32 10%Z));
        Call "nested" [VI32 3%Z; VI32 2%Z] (EVal (VI32 9%Z));
        Call "nested" [VI32 0%Z; VI32 (-100)%Z] (EVal (VI32 10%Z));
        Call "nested" [VI32 10%Z; VI32 10%Z] (EVal (VI32 9%Z));
        Call "nested" [VI32 0%Z; VI32 (-1)%Z] (EVal (VI32 10%Z));
        Call "nested" [VI32 (-111)%Z; VI32 (-2)%Z] (EVal (VI32 9%Z)) ];
    T "test_as_select_first" w_if
      [ Call "as-select-first" [VI32 0%Z] (EVal (VI32 0%Z));
        Call "as-select-first" [VI32 1%Z] (EVal (VI32 1%Z)) ];
    T "test_as_select_mid" w_if
      [ Call "as-select-mid" [VI32 0%Z] (EVal (VI32 2%Z));
        Call "as-select-mid" [VI32 1%Z] (EVal (VI32 2%Z)) ];
    T "test_as_select_last" w_if
      [ Call "as-select-last" [VI32 0%Z] (EVal (VI32 3%Z));
        Call "as-select-last" [VI32 1%Z] (EVal (VI32 2%Z)) ];
    T "test_as_loop_first" w_if
      [ Call "as-loop-first" [VI32 0%Z] (EVal (VI32 0%Z));
        Call "as-loop-first" [VI32 1%Z] (EVal (VI32 1%Z)) ];
    T "test_as_loop_mid" w_if
      [ Call "as-loop-mid" [VI32 0%Z] (EVal (VI32 0%Z));
        Call "as-loop-mid" [VI32 1%Z] (EVal (VI32 1%Z)) ];
    T "test_as_loop_last" w_if
      [ Call "as-loop-last" [VI32 0%Z] (EVal (VI32 0%Z));
        Call "as-loop-last" [VI32 1%Z] (EVal (VI32 1%Z)) ];
    T "test_as_if_condition" w_if
      [ Call "as-if-condition" [VI32 0%Z] (EVal (VI32 3%Z));
        Call "as-if-condition" [VI32 1%Z] (EVal (VI32 2%Z)) ];
    T "test_as_br_if_first" w_if
      [ Call "as-br_if-first" [VI32 0%Z] (EVal (VI32 0%Z));
        Call "as-br_if-first" [VI32 1%Z] (EVal (VI32 1%Z)) ];
    T "test_as_br_if_last" w_if
      [ Call "as-br_if-last" [VI32 0%Z] (EVal (VI32 3%Z));
        Call "as-br_if-last" [VI32 1%Z] (EVal (VI32 2%Z)) ];
    T "test_as_br_table_first" w_if
      [ Call "as-br_table-first" [VI32 0%Z] (EVal (VI32 0%Z));
        Call "as-br_table-first" [VI32 1%Z] (EVal (VI32 1%Z)) ];
    T "test_as_br_table_last" w_if
      [ Call "as-br_table-last" [VI32 0%Z] (EVal (VI32 2%Z));
        Call "as-br_table-last" [VI32 1%Z] (EVal (VI32 2%Z)) ];
    T "test_as_call_indirect_first" w_if
      [ Call "as-call_indirect-first" [VI32 0%Z] (EVal (VI32 0%Z));
        Call "as-call_indirect-first" [VI32 1%Z] (EVal (VI32 1%Z)) ];
    T "test_as_call_indirect_mid" w_if
      [ Call "as-call_indirect-mid" [VI32 0%Z] (EVal (VI32 2%Z));
        Call "as-call_indirect-mid" [VI32 1%Z] (EVal (VI32 2%Z)) ];
    T "test_as_call_indirect_last" w_if
      [ Call "as-call_indirect-last" [VI32 0%Z] (EVal (VI32 2%Z)) ];
    T "test_as_store_first" w_if
      [ Call "as-store-first" [VI32 0%Z] (EOk);
        Call "as-store-first" [VI32 1%Z] (EOk) ];
    T "test_as_store_last" w_if
      [ Call "as-store-last" [VI32 0%Z] (EOk);
        Call "as-store-last" [VI32 1%Z] (EOk) ];
    T "test_as_memory_grow_value" w_if
      [ Call "as-memory.grow-value" [VI32 0%Z] (EVal (VI32 1%Z));
        Call "as-memory.grow-value" [VI32 1%Z] (EVal (VI32 1%Z)) ];
    T "test_as_call_value" w_if
      [ Call "as-call-value" [VI32 0%Z] (EVal (VI32 0%Z));
        Call "as-call-value" [VI32 1%Z] (EVal (VI32 1%Z)) ];
    T "test_as_return_value" w_if
      [ Call "as-return-value" [VI32 0%Z] (EVal (VI32 0%Z));
        Call "as-return-value" [VI32 1%Z] (EVal (VI32 1%Z)) ];
    T "test_as_drop_operand" w_if
      [ Call "as-drop-operand" [VI32 0%Z] (EOk);
        Call "as-drop-operand" [VI32 1%Z] (EOk) ];
    T "test_as_br_value" w_if
      [ Call "as-br-value" [VI32 0%Z] (EVal (VI32 0%Z));
        Call "as-br-value" [VI32 1%Z] (EVal (VI32 1%Z)) ];
    T "test_as_local_set_value" w_if
      [ Call "as-local.set-value" [VI32 0%Z] (EVal (VI32 0%Z));
        Call "as-local.set-value" [VI32 1%Z] (EVal (VI32 1%Z)) ];
    T "test_as_local_tee_value" w_if
      [ Call "as-local.tee-value" [VI32 0%Z] (EVal (VI32 0%Z));
        Call "as-local.tee-value" [VI32 1%Z] (EVal (VI32 1%Z)) ];
    T "test_as_global_set_value" w_if
      [ Call "as-global.set-value" [VI32 0%Z] (EVal (VI32 0%Z));
        Call "as-global.set-value" [VI32 1%Z] (EVal (VI32 1%Z)) ];
    T "test_as_load_operand" w_if
      [ Call "as-load-operand" [VI32 0%Z] (EVal (VI32 0%Z));
        Call "as-load-operand" [VI32 1%Z] (EVal (VI32 0%Z)) ];
    T "test_as_unary_operand" w_if
      [ Call "as-unary-operand" [VI32 0%Z] (EVal (VI32 0%Z));
        Call "as-unary-operand" [VI32 1%Z] (EVal (VI32 0%Z));
        Call "as-unary-operand" [VI32 (-1)%Z] (EVal (VI32 0%Z)) ];
    T "test_as_binary_operand" w_if
      [ Call "as-binary-operand" [VI32 0%Z; VI32 0%Z] (EVal (VI32 15%Z));
        Call "as-binary-operand" [VI32 0%Z; VI32 1%Z] (EVal (VI32 (-12)%Z));
        Call "as-binary-operand" [VI32 1%Z; VI32 0%Z] (EVal (VI32 (-15)%Z));
        Call "as-binary-operand" [VI32 1%Z; VI32 1%Z] (EVal (VI32 12%Z)) ];
    T "test_as_test_operand" w_if
      [ Call "as-test-operand" [VI32 0%Z] (EVal (VI32 1%Z));
        Call "as-test-operand" [VI32 1%Z] (EVal (VI32 0%Z)) ];
    T "test_as_compare_operand" w_if
      [ Call "as-compare-operand" [VI32 0%Z; VI32 0%Z] (EVal (VI32 1%Z));
        Call "as-compare-operand" [VI32 0%Z; VI32 1%Z] (EVal (VI32 0%Z));
        Call "as-compare-operand" [VI32 1%Z; VI32 0%Z] (EVal (VI32 1%Z));
        Call "as-compare-operand" [VI32 1%Z; VI32 1%Z] (EVal (VI32 0%Z)) ];
    T "test_as_binary_operands" w_if
      [ Call "as-binary-operands" [VI32 0%Z] (EVal (VI32 (-12)%Z));
        Call "as-binary-operands" [VI32 1%Z] (EVal (VI32 12%Z)) ];
    T "test_as_compare_operands" w_if
      [ Call "as-compare-operands" [VI32 0%Z] (EVal (VI32 1%Z));
        Call "as-compare-operands" [VI32 1%Z] (EVal (VI32 0%Z)) ];
    T "test_as_mixed_operands" w_if
      [ Call "as-mixed-operands" [VI32 0%Z] (EVal (VI32 (-3)%Z));
        Call "as-mixed-operands" [VI32 1%Z] (EVal (VI32 27%Z)) ];
    T "test_break_bare" w_if
      [ Call "break-bare" [] (EVal (VI32 19%Z)) ];
    T "test_break_value" w_if
      [ Call "break-value" [VI32 1%Z] (EVal (VI32 18%Z));
        Call "break-value" [VI32 0%Z] (EVal (VI32 21%Z)) ];
    T "test_param" w_if
      [ Call "param" [VI32 0%Z] (EVal (VI32 (-1)%Z));
        Call "param" [VI32 1%Z] (EVal (VI32 3%Z)) ];
    T "test_params" w_if
      [ Call "params" [VI32 0%Z] (EVal (VI32 (-1)%Z));
        Call "params" [VI32 1%Z] (EVal (VI32 3%Z)) ];
    T "test_params_id" w_if
      [ Call "params-id" [VI32 0%Z] (EVal (VI32 3%Z));
        Call "params-id" [VI32 1%Z] (EVal (VI32 3%Z)) ];
    T "test_param_break" w_if
      [ Call "param-break" [VI32 0%Z] (EVal (VI32 (-1)%Z));
        Call "param-break" [VI32 1%Z] (EVal (VI32 3%Z)) ];
    T "test_params_break" w_if
      [ Call "params-break" [VI32 0%Z] (EVal (VI32 (-1)%Z));
        Call "params-break" [VI32 1%Z] (EVal (VI32 3%Z)) ];
    T "test_params_id_break" w_if
      [ Call "params-id-break" [VI32 0%Z] (EVal (VI32 3%Z));
        Call "params-id-break" [VI32 1%Z] (EVal (VI32 3%Z)) ];
    T "test_effects" w_if
      [ Call "effects" [VI32 1%Z] (EVal (VI32 (-14)%Z));
        Call "effects" [VI32 0%Z] (EVal (VI32 (-6)%Z)) ] ].
Definition t_labels : list test :=
  [ T "test_block" w_labels
      [ Call "block" [] (EVal (VI32 1%Z)) ];
    T "test_loop1" w_labels
      [ Call "loop1" [] (EVal (VI32 5%Z)) ];
    T "test_loop2" w_labels
      [ Call "loop2" [] (EVal (VI32 8%Z)) ];
    T "test_loop3" w_labels
      [ Call "loop3" [] (EVal (VI32 1%Z)) ];
    T "test_loop4" w_labels
      [ Call "loop4" [VI32 8%Z] (EVal (VI32 16%Z)) ];
    T "test_loop5" w_labels
      [ Call "loop5" [] (EVal (VI32 2%Z)) ];
    T "test_loop6" w_labels
      [ Call "loop6" [] (EVal (VI32 3%Z)) ];
    T "test_if" w_labels
      [ Call "if" [] (EVal (VI32 5%Z)) ];
    T "test_if2" w_labels
      [ Call "if2" [] (EVal (VI32 5%Z)) ];
    T "test_switch_0" w_labels
      [ Call "switch" [VI32 0%Z] (EVal (VI32 50%Z)) ];
    T "test_switch_1" w_labels
      [ Call "switch" [VI32 1%Z] (EVal (VI32 20%Z)) ];
    T "test_switch_2" w_labels
      [ Call "switch" [VI32 2%Z] (EVal (VI32 20%Z)) ];
    T "test_switch_3" w_labels
      [ Call "switch" [VI32 3%Z] (EVal (VI32 3%Z)) ];
    T "test_switch_4" w_labels
      [ Call "switch" [VI32 4%Z] (EVal (VI32 50%Z)) ];
    T "test_switch_5" w_labels
      [ Call "switch" [VI32 5%Z] (EVal (VI32 50%Z)) ];
    T "test_return_0" w_labels
      [ Call "return" [VI32 0%Z] (EVal (VI32 0%Z)) ];
    T "test_return_1" w_labels
      [ Call "return" [VI32 1%Z] (EVal (VI32 2%Z)) ];
    T "test_return_2" w_labels
      [ Call "return" [VI32 2%Z] (EVal (VI32 2%Z)) ];
    T "test_br_if0" w_labels
      [ Call "br_if0" [] (EVal (VI32 29%Z)) ];
    T "test_br_if1" w_labels
      [ Call "br_if1" [] (EVal (VI32 1%Z)) ];
    T "test_br_if2" w_labels
      [ Call "br_if2" [] (EVal (VI32 1%Z)) ];
    T "test_br_if3" w_labels
      [ Call "br_if3" [] (EVal (VI32 2%Z)) ];
    T "test_br" w_labels
      [ Call "br" [] (EVal (VI32 1%Z)) ];
    T "test_shadowing" w_labels
      [ Call "shadowing" [] (EVal (VI32 1%Z)) ];
    T "test_redefinition" w_labels
      [ Call "redefinition" [] (EVal (VI32 5%Z)) ] ].
Definition t_loop : list test :=
  [ T "test_loop_empty" w_loop
      [ Call "empty" [] (EOk) ];
    T "test_loop_singular" w_loop
      [ Call "singular" [] (EVal (VI32 7%Z)) ];
    T "test_loop_multi" w_loop
      [ Call "multi" [] (EVal (VI32 8%Z)) ];
    T "test_loop_nested" w_loop
      [ Call "nested" [] (EVal (VI32 9%Z)) ];
    T "test_loop_deep" w_loop
      [ Call "deep" [] (EVal (VI32 150%Z)) ];
    T "test_loop_as_select_first" w_loop
      [ Call "as-select-first" [] (EVal (VI32 1%Z)) ];
    T "test_loop_as_select_mid" w_loop
      [ Call "as-select-mid" [] (EVal (VI32 2%Z)) ];
    T "test_loop_as_select_last" w_loop
      [ Call "as-select-last" [] (EVal (VI32 2%Z)) ];
    T "test_loop_as_if_condition" w_loop
      [ Call "as-if-condition" [] (EOk) ];
    T "test_loop_as_if_then" w_loop
      [ Call "as-if-then" [] (EVal (VI32 1%Z)) ];
    T "test_loop_as_if_else" w_loop
      [ Call "as-if-else" [] (EVal (VI32 2%Z)) ];
    T "test_loop_as_br_if_first" w_loop
      [ Call "as-br_if-first" [] (EVal (VI32 1%Z)) ];
    T "test_loop_as_br_if_last" w_loop
      [ Call "as-br_if-last" [] (EVal (VI32 2%Z)) ];
    T "test_loop_as_br_table_first" w_loop
      [ Call "as-br_table-first" [] (EVal (VI32 1%Z)) ];
    T "test_loop_as_br_table_last" w_loop
      [ Call "as-br_table-last" [] (EVal (VI32 2%Z)) ];
    T "test_loop_as_call_indirect_first" w_loop
      [ Call "as-call_indirect-first" [] (EVal (VI32 1%Z)) ];
    T "test_loop_as_call_indirect_mid" w_loop
      [ Call "as-call_indirect-mid" [] (EVal (VI32 2%Z)) ];
    T "test_loop_as_call_indirect_last" w_loop
      [ Call "as-call_indirect-last" [] (EVal (VI32 1%Z)) ];
    T "test_loop_as_store_first" w_loop
      [ Call "as-store-first" [] (EOk) ];
    T "test_loop_as_store_last" w_loop
      [ Call "as-store-last" [] (EOk) ];
    T "test_loop_as_memory_grow_value" w_loop
      [ Call "as-memory.grow-value" [] (EVal (VI32 1%Z)) ];
    T "test_loop_as_call_value" w_loop
      [ Call "as-call-value" [] (EVal (VI32 1%Z)) ];
    T "test_loop_as_return_value" w_loop
      [ Call "as-return-value" [] (EVal (VI32 1%Z)) ];
    T "test_loop_as_drop_operand" w_loop
      [ Call "as-drop-operand" [] (EOk) ];
    T "test_loop_as_br_value" w_loop
      [ Call "as-br-value" [] (EVal (VI32 1%Z)) ];
    T "test_loop_as_local_set_value" w_loop
      [ Call "as-local.set-value" [] (EVal (VI32 1%Z)) ];
    T "test_loop_as_local_tee_value" w_loop
      [ Call "as-local.tee-value" [] (EVal (VI32 1%Z)) ];
    T "test_loop_as_global_set_value" w_loop
      [ Call "as-global.set-value" [] (EVal (VI32 1%Z)) ];
    T "test_loop_as_load_operand" w_loop
      [ Call "as-store-first" [] (EAny);
        Call "as-store-last" [] (EAny);
        Call "as-load-operand" [] (EVal (VI32 1%Z)) ];
    T "test_loop_as_unary_operand" w_loop
      [ Call "as-unary-operand" [] (EVal (VI32 0%Z)) ];
    T "test_loop_as_binary_operand" w_loop
      [ Call "as-binary-operand" [] (EVal (VI32 12%Z)) ];
    T "test_loop_as_test_operand" w_loop
      [ Call "as-test-operand" [] (EVal (VI32 0%Z)) ];
    T "test_loop_as_compare_operand" w_loop
      [ Call "as-compare-operand" [] (EVal (VI32 0%Z)) ];
    T "test_loop_as_binary_operands" w_loop
      [ Call "as-binary-operands" [] (EVal (VI32 12%Z)) ];
    T "test_loop_as_compare_operands" w_loop
      [ Call "as-compare-operands" [] (EVal (VI32 0%Z)) ];
    T "test_loop_as_mixed_operands" w_loop
      [ Call "as-mixed-operands" [] (EVal (VI32 27%Z)) ];
    T "test_loop_break_bare" w_loop
      [ Call "break-bare" [] (EVal (VI32 19%Z)) ];
    T "test_loop_break_value" w_loop
      [ Call "break-value" [] (EVal (VI32 18%Z)) ];
    T "test_loop_break_repeated" w_loop
      [ Call "break-repeated" [] (EVal (VI32 18%Z)) ];
    T "test_loop_break_inner" w_loop
      [ Call "break-inner" [] (EVal (VI32 31%Z)) ];
    T "test_loop_param" w_loop
      [ Call "param" [] (EVal (VI32 3%Z)) ];
    T "test_loop_params" w_loop
      [ Call "params" [] (EVal (VI32 3%Z)) ];
    T "test_loop_params_id" w_loop
      [ Call "params-id" [] (EVal (VI32 3%Z)) ];
    T "test_loop_param_break" w_loop
      [ Call "param-break" [] (EVal (VI32 13%Z)) ];
    T "test_loop_params_break" w_loop
      [ Call "params-break" [] (EVal (VI32 12%Z)) ];
    T "test_loop_params_id_break" w_loop
      [ Call "params-id-break" [] (EVal (VI32 3%Z)) ];
    T "test_loop_effects" w_loop
      [ Call "effects" [] (EVal (VI32 1%Z)) ] ].
Definition t_memory : list test :=
  [ T "test_data" w_memory
      [ Call "data" [] (EVal (VI32 1%Z)) ];
    T "test_cast" w_memory
      [ Call "cast" [] (EFeq (VF64 4631107791820423168%Z)) ];
    T "test_i32_load8_s" w_memory
      [ Call "i32_load8_s" [VI32 (-1)%Z] (EVal (VI32 (-1)%Z));
        Call "i32_load8_s" [VI32 100%Z] (EVal (VI32 100%Z));
        Call "i32_load8_s" [VI32 (-19110589)%Z] (EVal (VI32 67%Z));
        Call "i32_load8_s" [VI32 878104047%Z] (EVal (VI32 (-17)%Z)) ];
    T "test_i32_load8_u" w_memory
      [ Call "i32_load8_u" [VI32 (-1)%Z] (EVal (VI32 255%Z));
        Call "i32_load8_u" [VI32 200%Z] (EVal (VI32 200%Z));
        Call "i32_load8_u" [VI32 (-19110589)%Z] (EVal (VI32 67%Z));
        Call "i32_load8_u" [VI32 878104047%Z] (EVal (VI32 239%Z)) ];
    T "test_i32_load16_s" w_memory
      [ Call "i32_load16_s" [VI32 (-1)%Z] (EVal (VI32 (-1)%Z));
        Call "i32_load16_s" [VI32 20000%Z] (EVal (VI32 20000%Z));
        Call "i32_load16_s" [VI32 (-19110589)%Z] (EVal (VI32 25923%Z));
        Call "i32_load16_s" [VI32 878104047%Z] (EVal (VI32 (-12817)%Z)) ];
    T "test_i32_load16_u" w_memory
      [ Call "i32_load16_u" [VI32 (-1)%Z] (EVal (VI32 65535%Z));
        Call "i32_load16_u" [VI32 40000%Z] (EVal (VI32 40000%Z));
        Call "i32_load16_u" [VI32 (-19110589)%Z] (EVal (VI32 25923%Z));
        Call "i32_load16_u" [VI32 878104047%Z] (EVal (VI32 52719%Z)) ];
    T "test_i64_load8_s" w_memory
      [ Call "i64_load8_s" [VI64 (-1)%Z] (EVal (VI64 (-1)%Z));
        Call "i64_load8_s" [VI64 100%Z] (EVal (VI64 100%Z));
        Call "i64_load8_s" [VI64 (-81985529755441853)%Z] (EVal (VI64 67%Z));
        Call "i64_load8_s" [VI64 3771275841602506223%Z] (EVal (VI64 (-17)%Z)) ];
    T "test_i64_load8_u" w_memory
      [ Call "i64_load8_u" [VI64 (-1)%Z] (EVal (VI64 255%Z));
        Call "i64_load8_u" [VI64 200%Z] (EVal (VI64 200%Z));
        Call "i64_load8_u" [VI64 (-81985529755441853)%Z] (EVal (VI64 67%Z));
        Call "i64_load8_u" [VI64 3771275841602506223%Z] (EVal (VI64 239%Z)) ];
    T "test_i64_load16_s" w_memory
      [ Call "i64_load16_s" [VI64 (-1)%Z] (EVal (VI64 (-1)%Z));
        Call "i64_load16_s" [VI64 20000%Z] (EVal (VI64 20000%Z));
        Call "i64_load16_s" [VI64 (-81985529755441853)%Z] (EVal (VI64 25923%Z));
        Call "i64_load16_s" [VI64 3771275841602506223%Z] (EVal (VI64 (-12817)%Z)) ];
    T "test_i64_load16_u" w_memory
      [ Call "i64_load16_u" [VI64 (-1)%Z] (EVal (VI64 65535%Z));
        Call "i64_load16_u" [VI64 40000%Z] (EVal (VI64 40000%Z));
        Call "i64_load16_u" [VI64 (-81985529755441853)%Z] (EVal (VI64 25923%Z));
        Call "i64_load16_u" [VI64 3771275841602506223%Z] (EVal (VI64 52719%Z)) ];
    T "test_i64_load32_s" w_memory
      [ Call "i64_load32_s" [VI64 (-1)%Z] (EVal (VI64 (-1)%Z));
        Call "i64_load32_s" [VI64 20000%Z] (EVal (VI64 20000%Z));
        Call "i64_load32_s" [VI64 (-81985529755441853)%Z] (EVal (VI64 1446274371%Z));
        Call "i64_load32_s" [VI64 3771275841602506223%Z] (EVal (VI64 (-1732588049)%Z)) ];
    T "test_i64_load32_u" w_memory
      [ Call "i64_load32_u" [VI64 (-1)%Z] (EVal (VI64 4294967295%Z));
        Call "i64_load32_u" [VI64 40000%Z] (EVal (VI64 40000%Z));
        Call "i64_load32_u" [VI64 (-81985529755441853)%Z] (EVal (VI64 1446274371%Z));
        Call "i64_load32_u" [VI64 3771275841602506223%Z] (EVal (VI64 2562379247%Z)) ] ].
Definition t_memorycopy : list test :=
  [ T "test_memory_copy1" w_memorycopy_1
      [ Call "test" [] (EAny);
        Call "load8_u" [VI32 0%Z] (EVal (VI32 0%Z));
        Call "load8_u" [VI32 1%Z] (EVal (VI32 0%Z));
        Call "load8_u" [VI32 2%Z] (EVal (VI32 3%Z));
        Call "load8_u" [VI32 3%Z] (EVal (VI32 1%Z));
        Call "load8_u" [VI32 4%Z] (EVal (VI32 4%Z));
        Call "load8_u" [VI32 5%Z] (EVal (VI32 1%Z));
        Call "load8_u" [VI32 6%Z] (EVal (VI32 0%Z));
        Call "load8_u" [VI32 7%Z] (EVal (VI32 0%Z));
        Call "load8_u" [VI32 8%Z] (EVal (VI32 0%Z));
        Call "load8_u" [VI32 9%Z] (EVal (VI32 0%Z));
        Call "load8_u" [VI32 10%Z] (EVal (VI32 0%Z));
        Call "load8_u" [VI32 11%Z] (EVal (VI32 0%Z));
        Call "load8_u" [VI32 12%Z] (EVal (VI32 7%Z));
        Call "load8_u" [VI32 13%Z] (EVal (VI32 5%Z));
        Call "load8_u" [VI32 14%Z] (EVal (VI32 2%Z));
        Call "load8_u" [VI32 15%Z] (EVal (VI32 3%Z));
        Call "load8_u" [VI32 16%Z] (EVal (VI32 6%Z));
        Call "load8_u" [VI32 17%Z] (EVal (VI32 0%Z));
        Call "load8_u" [VI32 18%Z] (EVal (VI32 0%Z));
        Call "load8_u" [VI32 19%Z] (EVal (VI32 0%Z));
        Call "load8_u" [VI32 20%Z] (EVal (VI32 0%Z));
        Call "load8_u" [VI32 21%Z] (EVal (VI32 0%Z));
        Call "load8_u" [VI32 22%Z] (EVal (VI32 0%Z));
        Call "load8_u" [VI32 23%Z] (EVal (VI32 0%Z));
        Call "load8_u" [VI32 24%Z] (EVal (VI32 0%Z));
        Call "load8_u" [VI32 25%Z] (EVal (VI32 0%Z));
        Call "load8_u" [VI32 26%Z] (EVal (VI32 0%Z));
        Call "load8_u" [VI32 27%Z] (EVal (VI32 0%Z));
        Call "load8_u" [VI32 28%Z] (EVal (VI32 0%Z));
        Call "load8_u" [VI32 29%Z] (EVal (VI32 0%Z)) ];
    T "test_memory_copy2" w_memorycopy_2
      [ Call "test" [] (EAny);
        Call "load8_u" [VI32 0%Z] (EVal (VI32 0%Z));
        Call "load8_u" [VI32 1%Z] (EVal (VI32 0%Z));
        Call "load8_u" [VI32 2%Z] (EVal (VI32 3%Z));
        Call "load8_u" [VI32 3%Z] (EVal (VI32 1%Z));
        Call "load8_u" [VI32 4%Z] (EVal (VI32 4%Z));
        Call "load8_u" [VI32 5%Z] (EVal (VI32 1%Z));
        Call "load8_u" [VI32 6%Z] (EVal (VI32 0%Z));
        Call "load8_u" [VI32 7%Z] (EVal (VI32 0%Z));
        Call "load8_u" [VI32 8%Z] (EVal (VI32 0%Z));
        Call "load8_u" [VI32 9%Z] (EVal (VI32 0%Z));
        Call "load8_u" [VI32 10%Z] (EVal (VI32 0%Z));
        Call "load8_u" [VI32 11%Z] (EVal (VI32 0%Z));
        Call "load8_u" [VI32 12%Z] (EVal (VI32 7%Z));
        Call "load8_u" [VI32 13%Z] (EVal (VI32 3%Z));
        Call "load8_u" [VI32 14%Z] (EVal (VI32 1%Z));
        Call "load8_u" [VI32 15%Z] (EVal (VI32 4%Z));
        Call "load8_u" [VI32 16%Z] (EVal (VI32 6%Z));
        Call "load8_u" [VI32 17%Z] (EVal (VI32 0%Z));
        Call "load8_u" [VI32 18%Z] (EVal (VI32 0%Z));
        Call "load8_u" [VI32 19%Z] (EVal (VI32 0%Z));
        Call "load8_u" [VI32 20%Z] (EVal (VI32 0%Z));
        Call "load8_u" [VI32 21%Z] (EVal (VI32 0%Z));
        Call "load8_u" [VI32 22%Z] (EVal (VI32 0%Z));
        Call "load8_u" [VI32 23%Z] (EVal (VI32 0%Z));
        Call "load8_u" [VI32 24%Z] (EVal (VI32 0%Z));
        Call "load8_u" [VI32 25%Z] (EVal (VI32 0%Z));
        Call "load8_u" [VI32 26%Z] (EVal (VI32 0%Z));
        Call "load8_u" [VI32 27%Z] (EVal (VI32 0%Z));
        Call "load8_u" [VI32 28%Z] (EVal (VI32 0%Z));
        Call "load8_u" [VI32 29%Z] (EVal (VI32 0%Z)) ];
    T "test_memory_copy3" w_memorycopy_3
      [ Call "test" [] (EAny);
        Call "load8_u" [VI32 0%Z] (EVal (VI32 0%Z));
        Call "load8_u" [VI32 1%Z] (EVal (VI32 0%Z));
        Call "load8_u" [VI32 2%Z] (EVal (VI32 3%Z));
        Call "load8_u" [VI32 3%Z] (EVal (VI32 1%Z));
        Call "load8_u" [VI32 4%Z] (EVal (VI32 4%Z));
        Call "load8_u" [VI32 5%Z] (EVal (VI32 1%Z));
        Call "load8_u" [VI32 6%Z] (EVal (VI32 0%Z));
        Call "load8_u" [VI32 7%Z] (EVal (VI32 0%Z));
        Call "load8_u" [VI32 8%Z] (EVal (VI32 0%Z));
        Call "load8_u" [VI32 9%Z] (EVal (VI32 0%Z));
        Call "load8_u" [VI32 10%Z] (EVal (VI32 0%Z));
        Call "load8_u" [VI32 11%Z] (EVal (VI32 0%Z));
        Call "load8_u" [VI32 12%Z] (EVal (VI32 7%Z));
        Call "load8_u" [VI32 13%Z] (EVal (VI32 5%Z));
        Call "load8_u" [VI32 14%Z] (EVal (VI32 2%Z));
        Call "load8_u" [VI32 15%Z] (EVal (VI32 3%Z));
        Call "load8_u" [VI32 16%Z] (EVal (VI32 6%Z));
        Call "load8_u" [VI32 17%Z] (EVal (VI32 0%Z));
        Call "load8_u" [VI32 18%Z] (EVal (VI32 0%Z));
        Call "load8_u" [VI32 19%Z] (EVal (VI32 0%Z));
        Call "load8_u" [VI32 20%Z] (EVal (VI32 0%Z));
        Call "load8_u" [VI32 21%Z] (EVal (VI32 0%Z));
        Call "load8_u" [VI32 22%Z] (EVal (VI32 0%Z));
        Call "load8_u" [VI32 23%Z] (EVal (VI32 0%Z));
        Call "load8_u" [VI32 24%Z] (EVal (VI32 0%Z));
        Call "load8_u" [VI32 25%Z] (EVal (VI32 3%Z));
        Call "load8_u" [VI32 26%Z] (EVal (VI32 6%Z));
        Call "load8_u" [VI32 27%Z] (EVal (VI32 0%Z));
        Call "load8_u" [VI32 28%Z] (EVal (VI32 0%Z));
        Call "load8_u" [VI32 29%Z] (EVal (VI32 0%Z)) ];
    T "test_memory_copy4" w_memorycopy_4
      [ Call "test" [] (EAny);
        Call "load8_u" [VI32 0%Z] (EVal (VI32 0%Z));
        Call "load8_u" [VI32 1%Z] (EVal (VI32 0%Z));
        Call "load8_u" [VI32 2%Z] (EVal (VI32 3%Z));
        Call "load8_u" [VI32 3%Z] (EVal (VI32 1%Z));
        Call "load8_u" [VI32 4%Z] (EVal (VI32 4%Z));
        Call "load8_u" [VI32 5%Z] (EVal (VI32 1%Z));
        Call "load8_u" [VI32 6%Z] (EVal (VI32 0%Z));
        Call "load8_u" [VI32 7%Z] (EVal (VI32 0%Z));
        Call "load8_u" [VI32 8%Z] (EVal (VI32 0%Z));
        Call "load8_u" [VI32 9%Z] (EVal (VI32 0%Z));
        Call "load8_u" [VI32 10%Z] (EVal (VI32 0%Z));
        Call "load8_u" [VI32 11%Z] (EVal (VI32 0%Z));
        Call "load8_u" [VI32 12%Z] (EVal (VI32 7%Z));
        Call "load8_u" [VI32 13%Z] (EVal (VI32 0%Z));
        Call "load8_u" [VI32 14%Z] (EVal (VI32 0%Z));
        Call "load8_u" [VI32 15%Z] (EVal (VI32 0%Z));
        Call "load8_u" [VI32 16%Z] (EVal (VI32 6%Z));
        Call "load8_u" [VI32 17%Z] (EVal (VI32 0%Z));
        Call "load8_u" [VI32 18%Z] (EVal (VI32 0%Z));
        Call "load8_u" [VI32 19%Z] (EVal (VI32 0%Z));
        Call "load8_u" [VI32 20%Z] (EVal (VI32 0%Z));
        Call "load8_u" [VI32 21%Z] (EVal (VI32 0%Z));
        Call "load8_u" [VI32 22%Z] (EVal (VI32 0%Z));
        Call "load8_u" [VI32 23%Z] (EVal (VI32 0%Z));
        Call "load8_u" [VI32 24%Z] (EVal (VI32 0%Z));
        Call "load8_u" [VI32 25%Z] (EVal (VI32 0%Z));
        Call "load8_u" [VI32 26%Z] (EVal (VI32 0%Z));
        Call "load8_u" [VI32 27%Z] (EVal (VI32 0%Z));
        Call "load8_u" [VI32 28%Z] (EVal (VI32 0%Z));
        Call "load8_u" [VI32 29%Z] (EVal (VI32 0%Z)) ];
    T "test_memory_copy5" w_memorycopy_5
      [ Call "test" [] (EAny);
        Call "load8_u" [VI32 0%Z] (EVal (VI32 0%Z));
        Call "load8_u" [VI32 1%Z] (EVal (VI32 0%Z));
        Call "load8_u" [VI32 2%Z] (EVal (VI32 3%Z));
        Call "load8_u" [VI32 3%Z] (EVal (VI32 1%Z));
        Call "load8_u" [VI32 4%Z] (EVal (VI32 4%Z));
        Call "load8_u" [VI32 5%Z] (EVal (VI32 1%Z));
        Call "load8_u" [VI32 6%Z] (EVal (VI32 0%Z));
        Call "load8_u" [VI32 7%Z] (EVal (VI32 0%Z));
        Call "load8_u" [VI32 8%Z] (EVal (VI32 0%Z));
        Call "load8_u" [VI32 9%Z] (EVal (VI32 0%Z));
        Call "load8_u" [VI32 10%Z] (EVal (VI32 0%Z));
        Call "load8_u" [VI32 11%Z] (EVal (VI32 0%Z));
        Call "load8_u" [VI32 12%Z] (EVal (VI32 7%Z));
        Call "load8_u" [VI32 13%Z] (EVal (VI32 5%Z));
        Call "load8_u" [VI32 14%Z] (EVal (VI32 2%Z));
        Call "load8_u" [VI32 15%Z] (EVal (VI32 3%Z));
        Call "load8_u" [VI32 16%Z] (EVal (VI32 6%Z));
        Call "load8_u" [VI32 17%Z] (EVal (VI32 0%Z));
        Call "load8_u" [VI32 18%Z] (EVal (VI32 0%Z));
        Call "load8_u" [VI32 19%Z] (EVal (VI32 0%Z));
        Call "load8_u" [VI32 20%Z] (EVal (VI32 0%Z));
        Call "load8_u" [VI32 21%Z] (EVal (VI32 0%Z));
        Call "load8_u" [VI32 22%Z] (EVal (VI32 0%Z));
        Call "load8_u" [VI32 23%Z] (EVal (VI32 0%Z));
        Call "load8_u" [VI32 24%Z] (EVal (VI32 0%Z));
        Call "load8_u" [VI32 25%Z] (EVal (VI32 0%Z));
        Call "load8_u" [VI32 26%Z] (EVal (VI32 0%Z));
        Call "load8_u" [VI32 27%Z] (EVal (VI32 0%Z));
        Call "load8_u" [VI32 28%Z] (EVal (VI32 0%Z));
        Call "load8_u" [VI32 29%Z] (EVal (VI32 0%Z)) ];
    T "test_memory_copy6" w_memorycopy_6
      [ Call "test" [] (EAny);
        Call "load8_u" [VI32 0%Z] (EVal (VI32 0%Z));
        Call "load8_u" [VI32 1%Z] (EVal (VI32 0%Z));
        Call "load8_u" [VI32 2%Z] (EVal (VI32 3%Z));
        Call "load8_u" [VI32 3%Z] (EVal (VI32 1%Z));
        Call "load8_u" [VI32 4%Z] (EVal (VI32 4%Z));
        Call "load8_u" [VI32 5%Z] (EVal (VI32 1%Z));
        Call "load8_u" [VI32 6%Z] (EVal (VI32 0%Z));
        Call "load8_u" [VI32 7%Z] (EVal (VI32 0%Z));
        Call "load8_u" [VI32 8%Z] (EVal (VI32 0%Z));
        Call "load8_u" [VI32 9%Z] (EVal (VI32 0%Z));
        Call "load8_u" [VI32 10%Z] (EVal (VI32 0%Z));
        Call "load8_u" [VI32 11%Z] (EVal (VI32 0%Z));
        Call "load8_u" [VI32 12%Z] (EVal (VI32 7%Z));
        Call "load8_u" [VI32 13%Z] (EVal (VI32 5%Z));
        Call "load8_u" [VI32 14%Z] (EVal (VI32 2%Z));
        Call "load8_u" [VI32 15%Z] (EVal (VI32 3%Z));
        Call "load8_u" [VI32 16%Z] (EVal (VI32 6%Z));
        Call "load8_u" [VI32 17%Z] (EVal (VI32 0%Z));
        Call "load8_u" [VI32 18%Z] (EVal (VI32 0%Z));
        Call "load8_u" [VI32 19%Z] (EVal (VI32 0%Z));
        Call "load8_u" [VI32 20%Z] (EVal (VI32 0%Z));
        Call "load8_u" [VI32 21%Z] (EVal (VI32 0%Z));
        Call "load8_u" [VI32 22%Z] (EVal (VI32 0%Z));
        Call "load8_u" [VI32 23%Z] (EVal (VI32 0%Z));
        Call "load8_u" [VI32 24%Z] (EVal (VI32 0%Z));
        Call "load8_u" [VI32 25%Z] (EVal (VI32 0%Z));
        Call "load8_u" [VI32 26%Z] (EVal (VI32 3%Z));
        Call "load8_u" [VI32 27%Z] (EVal (VI32 1%Z));
        Call "load8_u" [VI32 28%Z] (EVal (VI32 0%Z));
        Call "load8_u" [VI32 29%Z] (EVal (VI32 0%Z)) ];
    T "test_memory_copy7" w_memorycopy_7
      [ Call "test" [] (EAny);
        Call "load8_u" [VI32 0%Z] (EVal (VI32 0%Z));
        Call "load8_u" [VI32 1%Z] (EVal (VI32 0%Z));
        Call "load8_u" [VI32 2%Z] (EVal (VI32 3%Z));
        Call "load8_u" [VI32 3%Z] (EVal (VI32 1%Z));
        Call "load8_u" [VI32 4%Z] (EVal (VI32 4%Z));
        Call "load8_u" [VI32 5%Z] (EVal (VI32 1%Z));
        Call "load8_u" [VI32 6%Z] (EVal (VI32 0%Z));
        Call "load8_u" [VI32 7%Z] (EVal (VI32 0%Z));
        Call "load8_u" [VI32 8%Z] (EVal (VI32 0%Z));
        Call "load8_u" [VI32 9%Z] (EVal (VI32 0%Z));
        Call "load8_u" [VI32 10%Z] (EVal (VI32 7%Z));
        Call "load8_u" [VI32 11%Z] (EVal (VI32 5%Z));
        Call "load8_u" [VI32 12%Z] (EVal (VI32 2%Z));
        Call "load8_u" [VI32 13%Z] (EVal (VI32 3%Z));
        Call "load8_u" [VI32 14%Z] (EVal (VI32 6%Z));
        Call "load8_u" [VI32 15%Z] (EVal (VI32 0%Z));
        Call "load8_u" [VI32 16%Z] (EVal (VI32 0%Z));
        Call "load8_u" [VI32 17%Z] (EVal (VI32 0%Z));
        Call "load8_u" [VI32 18%Z] (EVal (VI32 0%Z));
        Call "load8_u" [VI32 19%Z] (EVal (VI32 0%Z));
        Call "load8_u" [VI32 20%Z] (EVal (VI32 0%Z));
        Call "load8_u" [VI32 21%Z] (EVal (VI32 0%Z));
        Call "load8_u" [VI32 22%Z] (EVal (VI32 0%Z));
        Call "load8_u" [VI32 23%Z] (EVal (VI32 0%Z));
        Call "load8_u" [VI32 24%Z] (EVal (VI32 0%Z));
        Call "load8_u" [VI32 25%Z] (EVal (VI32 0%Z));
        Call "load8_u" [VI32 26%Z] (EVal (VI32 0%Z));
        Call "load8_u" [VI32 27%Z] (EVal (VI32 0%Z));
        Call "load8_u" [VI32 28%Z] (EVal (VI32 0%Z));
        Call "load8_u" [VI32 29%Z] (EVal (VI32 0%Z)) ];
    T "test_memory_copy8" w_memorycopy_8
      [ Call "test" [] (EAny);
        Call "load8_u" [VI32 0%Z] (EVal (VI32 0%Z));
        Call "load8_u" [VI32 1%Z] (EVal (VI32 0%Z));
        Call "load8_u" [VI32 2%Z] (EVal (VI32 3%Z));
        Call "load8_u" [VI32 3%Z] (EVal (VI32 1%Z));
        Call "load8_u" [VI32 4%Z] (EVal (VI32 4%Z));
        Call "load8_u" [VI32 5%Z] (EVal (VI32 1%Z));
        Call "load8_u" [VI32 6%Z] (EVal (VI32 0%Z));
        Call "load8_u" [VI32 7%Z] (EVal (VI32 0%Z));
        Call "load8_u" [VI32 8%Z] (EVal (VI32 0%Z));
        Call "load8_u" [VI32 9%Z] (EVal (VI32 0%Z));
        Call "load8_u" [VI32 10%Z] (EVal (VI32 0%Z));
        Call "load8_u" [VI32 11%Z] (EVal (VI32 0%Z));
        Call "load8_u" [VI32 12%Z] (EVal (VI32 0%Z));
        Call "load8_u" [VI32 13%Z] (EVal (VI32 0%Z));
        Call "load8_u" [VI32 14%Z] (EVal (VI32 7%Z));
        Call "load8_u" [VI32 15%Z] (EVal (VI32 5%Z));
        Call "load8_u" [VI32 16%Z] (EVal (VI32 2%Z));
        Call "load8_u" [VI32 17%Z] (EVal (VI32 3%Z));
        Call "load8_u" [VI32 18%Z] (EVal (VI32 6%Z));
        Call "load8_u" [VI32 19%Z] (EVal (VI32 0%Z));
        Call "load8_u" [VI32 20%Z] (EVal (VI32 0%Z));
        Call "load8_u" [VI32 21%Z] (EVal (VI32 0%Z));
        Call "load8_u" [VI32 22%Z] (EVal (VI32 0%Z));
        Call "load8_u" [VI32 23%Z] (EVal (VI32 0%Z));
        Call "load8_u" [VI32 24%Z] (EVal (VI32 0%Z));
        Call "load8_u" [VI32 25%Z] (EVal (VI32 0%Z));
        Call "load8_u" [VI32 26%Z] (EVal (VI32 0%Z));
        Call "load8_u" [VI32 27%Z] (EVal (VI32 0%Z));
        Call "load8_u" [VI32 28%Z] (EVal (VI32 0%Z));
        Call "load8_u" [VI32 29%Z] (EVal (VI32 0%Z)) ];
    T "test_memory_copy9" w_memorycopy_9
      [ Call "load8_u" [VI32 0%Z] (EVal (VI32 0%Z));
        Call "load8_u" [VI32 1%Z] (EVal (VI32 1%Z));
        Call "load8_u" [VI32 2%Z] (EVal (VI32 2%Z));
        Call "load8_u" [VI32 3%Z] (EVal (VI32 3%Z));
        Call "load8_u" [VI32 4%Z] (EVal (VI32 4%Z));
        Call "load8_u" [VI32 5%Z] (EVal (VI32 5%Z));
        Call "load8_u" [VI32 6%Z] (EVal (VI32 6%Z));
        Call "load8_u" [VI32 7%Z] (EVal (VI32 7%Z));
        Call "load8_u" [VI32 8%Z] (EVal (VI32 8%Z));
        Call "load8_u" [VI32 9%Z] (EVal (VI32 9%Z));
        Call "load8_u" [VI32 10%Z] (EVal (VI32 10%Z));
        Call "load8_u" [VI32 11%Z] (EVal (VI32 11%Z));
        Call "load8_u" [VI32 12%Z] (EVal (VI32 12%Z));
        Call "load8_u" [VI32 13%Z] (EVal (VI32 13%Z));
        Call "load8_u" [VI32 14%Z] (EVal (VI32 14%Z));
        Call "load8_u" [VI32 15%Z] (EVal (VI32 15%Z));
        Call "load8_u" [VI32 16%Z] (EVal (VI32 16%Z));
        Call "load8_u" [VI32 17%Z] (EVal (VI32 17%Z));
        Call "load8_u" [VI32 18%Z] (EVal (VI32 18%Z));
        Call "load8_u" [VI32 19%Z] (EVal (VI32 19%Z));
        Call "load8_u" [VI32 218%Z] (EVal (VI32 0%Z));
        Call "load8_u" [VI32 417%Z] (EVal (VI32 0%Z));
        Call "load8_u" [VI32 616%Z] (EVal (VI32 0%Z));
        Call "load8_u" [VI32 815%Z] (EVal (VI32 0%Z));
        Call "load8_u" [VI32 1014%Z] (EVal (VI32 0%Z));
        Call "load8_u" [VI32 1213%Z] (EVal (VI32 0%Z));
        Call "load8_u" [VI32 1412%Z] (EVal (VI32 0%Z));
        Call "load8_u" [VI32 1611%Z] (EVal (VI32 0%Z));
        Call "load8_u" [VI32 1810%Z] (EVal (VI32 0%Z));
        Call "load8_u" [VI32 2009%Z] (EVal (VI32 0%Z));
        Call "load8_u" [VI32 2208%Z] (EVal (VI32 0%Z));
        Call "load8_u" [VI32 2407%Z] (EVal (VI32 0%Z));
        Call "load8_u" [VI32 2606%Z] (EVal (VI32 0%Z));
        Call "load8_u" [VI32 2805%Z] (EVal (VI32 0%Z));
        Call "load8_u" [VI32 3004%Z] (EVal (VI32 0%Z));
        Call "load8_u" [VI32 3203%Z] (EVal (VI32 0%Z));
        Call "load8_u" [VI32 3402%Z] (EVal (VI32 0%Z));
        Call "load8_u" [VI32 3601%Z] (EVal (VI32 0%Z));
        Call "load8_u" [VI32 3800%Z] (EVal (VI32 0%Z));
        Call "load8_u" [VI32 3999%Z] (EVal (VI32 0%Z));
        Call "load8_u" [VI32 4198%Z] (EVal (VI32 0%Z));
        Call "load8_u" [VI32 4397%Z] (EVal (VI32 0%Z));
        Call "load8_u" [VI32 4596%Z] (EVal (VI32 0%Z));
        Call "load8_u" [VI32 4795%Z] (EVal (VI32 0%Z));
        Call "load8_u" [VI32 4994%Z] (EVal (VI32 0%Z));
        Call "load8_u" [VI32 5193%Z] (EVal (VI32 0%Z));
        Call "load8_u" [VI32 5392%Z] (EVal (VI32 0%Z));
        Call "load8_u" [VI32 5591%Z] (EVal (VI32 0%Z));
        Call "load8_u" [VI32 5790%Z] (EVal (VI32 0%Z));
        Call "load8_u" [VI32 5989%Z] (EVal (VI32 0%Z));
        Call "load8_u" [VI32 6188%Z] (EVal (VI32 0%Z));
        Call "load8_u" [VI32 6387%Z] (EVal (VI32 0%Z));
        Call "load8_u" [VI32 6586%Z] (EVal (VI32 0%Z));
        Call "load8_u" [VI32 6785%Z] (EVal (VI32 0%Z));
        Call "load8_u" [VI32 6984%Z] (EVal (VI32 0%Z));
        Call "load8_u" [VI32 7183%Z] (EVal (VI32 0%Z));
        Call "load8_u" [VI32 7382%Z] (EVal (VI32 0%Z));
        Call "load8_u" [VI32 7581%Z] (EVal (VI32 0%Z));
        Call "load8_u" [VI32 7780%Z] (EVal (VI32 0%Z));
        Call "load8_u" [VI32 7979%Z] (EVal (VI32 0%Z));
        Call "load8_u" [VI32 8178%Z] (EVal (VI32 0%Z));
        Call "load8_u" [VI32 8377%Z] (EVal (VI32 0%Z));
        Call "load8_u" [VI32 8576%Z] (EVal (VI32 0%Z));
        Call "load8_u" [VI32 8775%Z] (EVal (VI32 0%Z));
        Call "load8_u" [VI32 8974%Z] (EVal (VI32 0%Z));
        Call "load8_u" [VI32 9173%Z] (EVal (VI32 0%Z));
        Call "load8_u" [VI32 9372%Z] (EVal (VI32 0%Z));
        Call "load8_u" [VI32 9571%Z] (EVal (VI32 0%Z));
        Call "load8_u" [VI32 9770%Z] (EVal (VI32 0%Z));
        Call "load8_u" [VI32 9969%Z] (EVal (VI32 0%Z));
        Call "load8_u" [VI32 10168%Z] (EVal (VI32 0%Z));
        Call "load8_u" [VI32 10367%Z] (EVal (VI32 0%Z));
        Call "load8_u" [VI32 10566%Z] (EVal (VI32 0%Z));
        Call "load8_u" [VI32 10765%Z] (EVal (VI32 0%Z));
        Call "load8_u" [VI32 10964%Z] (EVal (VI32 0%Z));
        Call "load8_u" [VI32 11163%Z] (EVal (VI32 0%Z));
        Call "load8_u" [VI32 11362%Z] (EVal (VI32 0%Z));
        Call "load8_u" [VI32 11561%Z] (EVal (VI32 0%Z));
        Call "load8_u" [VI32 11760%Z] (EVal (VI32 0%Z));
        Call "load8_u" [VI32 11959%Z] (EVal (VI32 0%Z));
        Call "load8_u" [VI32 12158%Z] (EVal (VI32 0%Z));
        Call "load8_u" [VI32 12357%Z] (EVal (VI32 0%Z));
        Call "load8_u" [VI32 12556%Z] (EVal (VI32 0%Z));
        Call "load8_u" [VI32 12755%Z] (EVal (VI32 0%Z));
        Call "load8_u" [VI32 12954%Z] (EVal (VI32 0%Z));
        Call "load8_u" [VI32 13153%Z] (EVal (VI32 0%Z));
        Call "load8_u" [VI32 13352%Z] (EVal (VI32 0%Z));
        Call "load8_u" [VI32 13551%Z] (EVal (VI32 0%Z));
        Call "load8_u" [VI32 13750%Z] (EVal (VI32 0%Z));
        Call "load8_u" [VI32 13949%Z] (EVal (VI32 0%Z));
        Call "load8_u" [VI32 14148%Z] (EVal (VI32 0%Z));
        Call "load8_u" [VI32 14347%Z] (EVal (VI32 0%Z));
        Call "load8_u" [VI32 14546%Z] (EVal (VI32 0%Z));
        Call "load8_u" [VI32 14745%Z] (EVal (VI32 0%Z));
        Call "load8_u" [VI32 14944%Z] (EVal (VI32 0%Z));
        Call "load8_u" [VI32 15143%Z] (EVal (VI32 0%Z));
        Call "load8_u" [VI32 15342%Z] (EVal (VI32 0%Z));
        Call "load8_u" [VI32 15541%Z] (EVal (VI32 0%Z));
        Call "load8_u" [VI32 15740%Z] (EVal (VI32 0%Z));
        Call "load8_u" [VI32 15939%Z] (EVal (VI32 0%Z));
        Call "load8_u" [VI32 16138%Z] (EVal (VI32 0%Z));
        Call "load8_u" [VI32 16337%Z] (EVal (VI32 0%Z));
        Call "load8_u" [VI32 16536%Z] (EVal (VI32 0%Z));
        Call "load8_u" [VI32 16735%Z] (EVal (VI32 0%Z));
        Call "load8_u" [VI32 16934%Z] (EVal (VI32 0%Z));
        Call "load8_u" [VI32 17133%Z] (EVal (VI32 0%Z));
        Call "load8_u" [VI32 17332%Z] (EVal (VI32 0%Z));
        Call "load8_u" [VI32 17531%Z] (EVal (VI32 0%Z));
        Call "load8_u" [VI32 17730%Z] (EVal (VI32 0%Z));
        Call "load8_u" [VI32 17929%Z] (EVal (VI32 0%Z));
        Call "load8_u" [VI32 18128%Z] (EVal (VI32 0%Z));
        Call "load8_u" [VI32 18327%Z] (EVal (VI32 0%Z));
        Call "load8_u" [VI32 18526%Z] (EVal (VI32 0%Z));
        Call "load8_u" [VI32 18725%Z] (EVal (VI32 0%Z));
        Call "load8_u" [VI32 18924%Z] (EVal (VI32 0%Z));
        Call "load8_u" [VI32 19123%Z] (EVal (VI32 0%Z));
        Call "load8_u" [VI32 19322%Z] (EVal (VI32 0%Z));
        Call "load8_u" [VI32 19521%Z] (EVal (VI32 0%Z));
        Call "load8_u" [VI32 19720%Z] (EVal (VI32 0%Z));
        Call "load8_u" [VI32 19919%Z] (EVal (VI32 0%Z));
        Call "load8_u" [VI32 20118%Z] (EVal (VI32 0%Z));
        Call "load8_u" [VI32 20317%Z] (EVal (VI32 0%Z));
        Call "load8_u" [VI32 20516%Z] (EVal (VI32 0%Z));
        Call "load8_u" [VI32 20715%Z] (EVal (VI32 0%Z));
        Call "load8_u" [VI32 20914%Z] (EVal (VI32 0%Z));
        Call "load8_u" [VI32 21113%Z] (EVal (VI32 0%Z));
        Call "load8_u" [VI32 21312%Z] (EVal (VI32 0%Z));
        Call "load8_u" [VI32 21511%Z] (EVal (VI32 0%Z));
        Call "load8_u" [VI32 21710%Z] (EVal (VI32 0%Z));
        Call "load8_u" [VI32 21909%Z] (EVal (VI32 0%Z));
        Call "load8_u" [VI32 22108%Z] (EVal (VI32 0%Z));
        Call "load8_u" [VI32 22307%Z] (EVal (VI32 0%Z));
        Call "load8_u" [VI32 22506%Z] (EVal (VI32 0%Z));
        Call "load8_u" [VI32 22705%Z] (EVal (VI32 0%Z));
        Call "load8_u" [VI32 22904%Z] (EVal (VI32 0%Z));
        Call "load8_u" [VI32 23103%Z] (EVal (VI32 0%Z));
        Call "load8_u" [VI32 23302%Z] (EVal (VI32 0%Z));
        Call "load8_u" [VI32 23501%Z] (EVal (VI32 0%Z));
        Call "load8_u" [VI32 23700%Z] (EVal (VI32 0%Z));
        Call "load8_u" [VI32 23899%Z] (EVal (VI32 0%Z));
        Call "load8_u" [VI32 24098%Z] (EVal (VI32 0%Z));
        Call "load8_u" [VI32 24297%Z] (EVal (VI32 0%Z));
        Call "load8_u" [VI32 24496%Z] (EVal (VI32 0%Z));
        Call "load8_u" [VI32 24695%Z] (EVal (VI32 0%Z));
        Call "load8_u" [VI32 24894%Z] (EVal (VI32 0%Z));
        Call "load8_u" [VI32 25093%Z] (EVal (VI32 0%Z));
        Call "load8_u" [VI32 25292%Z] (EVal (VI32 0%Z));
        Call "load8_u" [VI32 25491%Z] (EVal (VI32 0%Z));
        Call "load8_u" [VI32 25690%Z] (EVal (VI32 0%Z));
        Call "load8_u" [VI32 25889%Z] (EVal (VI32 0%Z));
        Call "load8_u" [VI32 26088%Z] (EVal (VI32 0%Z));
        Call "load8_u" [VI32 26287%Z] (EVal (VI32 0%Z));
        Call "load8_u" [VI32 26486%Z] (EVal (VI32 0%Z));
        Call "load8_u" [VI32 26685%Z] (EVal (VI32 0%Z));
        Call "load8_u" [VI32 26884%Z] (EVal (VI32 0%Z));
        Call "load8_u" [VI32 27083%Z] (EVal (VI32 0%Z));
        Call "load8_u" [VI32 27282%Z] (EVal (VI32 0%Z));
        Call "load8_u" [VI32 27481%Z] (EVal (VI32 0%Z));
        Call "load8_u" [VI32 27680%Z] (EVal (VI32 0%Z));
        Call "load8_u" [VI32 27879%Z] (EVal (VI32 0%Z));
        Call "load8_u" [VI32 28078%Z] (EVal (VI32 0%Z));
        Call "load8_u" [VI32 28277%Z] (EVal (VI32 0%Z));
        Call "load8_u" [VI32 28476%Z] (EVal (VI32 0%Z));
        Call "load8_u" [VI32 28675%Z] (EVal (VI32 0%Z));
        Call "load8_u" [VI32 28874%Z] (EVal (VI32 0%Z));
        Call "load8_u" [VI32 29073%Z] (EVal (VI32 0%Z));
        Call "load8_u" [VI32 29272%Z] (EVal (VI32 0%Z));
        Call "load8_u" [VI32 29471%Z] (EVal (VI32 0%Z));
        Call "load8_u" [VI32 29670%Z] (EVal (VI32 0%Z));
        Call "load8_u" [VI32 29869%Z] (EVal (VI32 0%Z));
        Call "load8_u" [VI32 30068%Z] (EVal (VI32 0%Z));
        Call "load8_u" [VI32 30267%Z] (EVal (VI32 0%Z));
        Call "load8_u" [VI32 30466%Z] (EVal (VI32 0%Z));
        Call "load8_u" [VI32 30665%Z] (EVal (VI32 0%Z));
        Call "load8_u" [VI32 30864%Z] (EVal (VI32 0%Z));
        Call "load8_u" [VI32 31063%Z] (EVal (VI32 0%Z));
        Call "load8_u" [VI32 31262%Z] (EVal (VI32 0%Z));
        Call "load8_u" [VI32 31461%Z] (EVal (VI32 0%Z));
        Call "load8_u" [VI32 31660%Z] (EVal (VI32 0%Z));
        Call "load8_u" [VI32 31859%Z] (EVal (VI32 0%Z));
        Call "load8_u" [VI32 32058%Z] (EVal (VI32 0%Z));
        Call "load8_u" [VI32 32257%Z] (EVal (VI32 0%Z));
        Call "load8_u" [VI32 32456%Z] (EVal (VI32 0%Z));
        Call "load8_u" [VI32 32655%Z] (EVal (VI32 0%Z));
        Call "load8_u" [VI32 32854%Z] (EVal (VI32 0%Z));
        Call "load8_u" [VI32 33053%Z] (EVal (VI32 0%Z));
        Call "load8_u" [VI32 33252%Z] (EVal (VI32 0%Z));
        Call "load8_u" [VI32 33451%Z] (EVal (VI32 0%Z));
        Call "load8_u" [VI32 33650%Z] (EVal (VI32 0%Z));
        Call "load8_u" [VI32 33849%Z] (EVal (VI32 0%Z));
        Call "load8_u" [VI32 34048%Z] (EVal (VI32 0%Z));
        Call "load8_u" [VI32 34247%Z] (EVal (VI32 0%Z));
        Call "load8_u" [VI32 34446%Z] (EVal (VI32 0%Z));
        Call "load8_u" [VI32 34645%Z] (EVal (VI32 0%Z));
        Call "load8_u" [VI32 34844%Z] (EVal (VI32 0%Z));
        Call "load8_u" [VI32 35043%Z] (EVal (VI32 0%Z));
        Call "load8_u" [VI32 35242%Z] (EVal (VI32 0%Z));
        Call "load8_u" [VI32 35441%Z] (EVal (VI32 0%Z));
        Call "load8_u" [VI32 35640%Z] (EVal (VI32 0%Z));
        Call "load8_u" [VI32 35839%Z] (EVal (VI32 0%Z));
        Call "load8_u" [VI32 36038%Z] (EVal (VI32 0%Z));
        Call "load8_u" [VI32 36237%Z] (EVal (VI32 0%Z));
        Call "load8_u" [VI32 36436%Z] (EVal (VI32 0%Z));
        Call "load8_u" [VI32 36635%Z] (EVal (VI32 0%Z));
        Call "load8_u" [VI32 36834%Z] (EVal (VI32 0%Z));
        Call "load8_u" [VI32 37033%Z] (EVal (VI32 0%Z));
        Call "load8_u" [VI32 37232%Z] (EVal (VI32 0%Z));
        Call "load8_u" [VI32 37431%Z] (EVal (VI32 0%Z));
        Call "load8_u" [VI32 37630%Z] (EVal (VI32 0%Z));
        Call "load8_u" [VI32 37829%Z] (EVal (VI32 0%Z));
        Call "load8_u" [VI32 38028%Z] (EVal (VI32 0%Z));
        Call "load8_u" [VI32 38227%Z] (EVal (VI32 0%Z));
        Call "load8_u" [VI32 38426%Z] (EVal (VI32 0%Z));
        Call "load8_u" [VI32 38625%Z] (EVal (VI32 0%Z));
        Call "load8_u" [VI32 38824%Z] (EVal (VI32 0%Z));
        Call "load8_u" [VI32 39023%Z] (EVal (VI32 0%Z));
        Call "load8_u" [VI32 39222%Z] (EVal (VI32 0%Z));
        Call "load8_u" [VI32 39421%Z] (EVal (VI32 0%Z));
        Call "load8_u" [VI32 39620%Z] (EVal (VI32 0%Z));
        Call "load8_u" [VI32 39819%Z] (EVal (VI32 0%Z));
        Call "load8_u" [VI32 40018%Z] (EVal (VI32 0%Z));
        Call "load8_u" [VI32 40217%Z] (EVal (VI32 0%Z));
        Call "load8_u" [VI32 40416%Z] (EVal (VI32 0%Z));
        Call "load8_u" [VI32 40615%Z] (EVal (VI32 0%Z));
        Call "load8_u" [VI32 40814%Z] (EVal (VI32 0%Z));
        Call "load8_u" [VI32 41013%Z] (EVal (VI32 0%Z));
        Call "load8_u" [VI32 41212%Z] (EVal (VI32 0%Z));
        Call "load8_u" [VI32 41411%Z] (EVal (VI32 0%Z));
        Call "load8_u" [VI32 41610%Z] (EVal (VI32 0%Z));
        Call "load8_u" [VI32 41809%Z] (EVal (VI32 0%Z));
        Call "load8_u" [VI32 42008%Z] (EVal (VI32 0%Z));
        Call "load8_u" [VI32 42207%Z] (EVal (VI32 0%Z));
        Call "load8_u" [VI32 42406%Z] (EVal (VI32 0%Z));
        Call "load8_u" [VI32 42605%Z] (EVal (VI32 0%Z));
        Call "load8_u" [VI32 42804%Z] (EVal (VI32 0%Z));
        Call "load8_u" [VI32 43003%Z] (EVal (VI32 0%Z));
        Call "load8_u" [VI32 43202%Z] (EVal (VI32 0%Z));
        Call "load8_u" [VI32 43401%Z] (EVal (VI32 0%Z));
        Call "load8_u" [VI32 43600%Z] (EVal (VI32 0%Z));
        Call "load8_u" [VI32 43799%Z] (EVal (VI32 0%Z));
        Call "load8_u" [VI32 43998%Z] (EVal (VI32 0%Z));
        Call "load8_u" [VI32 44197%Z] (EVal (VI32 0%Z));
        Call "load8_u" [VI32 44396%Z] (EVal (VI32 0%Z));
        Call "load8_u" [VI32 44595%Z] (EVal (VI32 0%Z));
        Call "load8_u" [VI32 44794%Z] (EVal (VI32 0%Z));
        Call "load8_u" [VI32 44993%Z] (EVal (VI32 0%Z));
        Call "load8_u" [VI32 45192%Z] (EVal (VI32 0%Z));
        Call "load8_u" [VI32 45391%Z] (EVal (VI32 0%Z));
        Call "load8_u" [VI32 45590%Z] (EVal (VI32 0%Z));
        Call "load8_u" [VI32 45789%Z] (EVal (VI32 0%Z));
        Call "load8_u" [VI32 45988%Z] (EVal (VI32 0%Z));
        Call "load8_u" [VI32 46187%Z] (EVal (VI32 0%Z));
        Call "load8_u" [VI32 46386%Z] (EVal (VI32 0%Z));
        Call "load8_u" [VI32 46585%Z] (EVal (VI32 0%Z));
        Call "load8_u" [VI32 46784%Z] (EVal (VI32 0%Z));
        Call "load8_u" [VI32 46983%Z] (EVal (VI32 0%Z));
        Call "load8_u" [VI32 47182%Z] (EVal (VI32 0%Z));
        Call "load8_u" [VI32 47381%Z] (EVal (VI32 0%Z));
        Call "load8_u" [VI32 47580%Z] (EVal (VI32 0%Z));
        Call "load8_u" [VI32 47779%Z] (EVal (VI32 0%Z));
        Call "load8_u" [VI32 47978%Z] (EVal (VI32 0%Z));
        Call "load8_u" [VI32 48177%Z] (EVal (VI32 0%Z));
        Call "load8_u" [VI32 48376%Z] (EVal (VI32 0%Z));
        Call "load8_u" [VI32 48575%Z] (EVal (VI32 0%Z));
        Call "load8_u" [VI32 48774%Z] (EVal (VI32 0%Z));
        Call "load8_u" [VI32 48973%Z] (EVal (VI32 0%Z));
        Call "load8_u" [VI32 49172%Z] (EVal (VI32 0%Z));
        Call "load8_u" [VI32 49371%Z] (EVal (VI32 0%Z));
        Call "load8_u" [VI32 49570%Z] (EVal (VI32 0%Z));
        Call "load8_u" [VI32 49769%Z] (EVal (VI32 0%Z));
        Call "load8_u" [VI32 49968%Z] (EVal (VI32 0%Z));
        Call "load8_u" [VI32 50167%Z] (EVal (VI32 0%Z));
        Call "load8_u" [VI32 50366%Z] (EVal (VI32 0%Z));
        Call "load8_u" [VI32 50565%Z] (EVal (VI32 0%Z));
        Call "load8_u" [VI32 50764%Z] (EVal (VI32 0%Z));
        Call "load8_u" [VI32 50963%Z] (EVal (VI32 0%Z));
        Call "load8_u" [VI32 51162%Z] (EVal (VI32 0%Z));
        Call "load8_u" [VI32 51361%Z] (EVal (VI32 0%Z));
        Call "load8_u" [VI32 51560%Z] (EVal (VI32 0%Z));
        Call "load8_u" [VI32 51759%Z] (EVal (VI32 0%Z));
        Call "load8_u" [VI32 51958%Z] (EVal (VI32 0%Z));
        Call "load8_u" [VI32 52157%Z] (EVal (VI32 0%Z));
        Call "load8_u" [VI32 52356%Z] (EVal (VI32 0%Z));
        Call "load8_u" [VI32 52555%Z] (EVal (VI32 0%Z));
        Call "load8_u" [VI32 52754%Z] (EVal (VI32 0%Z));
        Call "load8_u" [VI32 52953%Z] (EVal (VI32 0%Z));
        Call "load8_u" [VI32 53152%Z] (EVal (VI32 0%Z));
        Call "load8_u" [VI32 53351%Z] (EVal (VI32 0%Z));
        Call "load8_u" [VI32 53550%Z] (EVal (VI32 0%Z));
        Call "load8_u" [VI32 53749%Z] (EVal (VI32 0%Z));
        Call "load8_u" [VI32 53948%Z] (EVal (VI32 0%Z));
        Call "load8_u" [VI32 54147%Z] (EVal (VI32 0%Z));
        Call "load8_u" [VI32 54346%Z] (EVal (VI32 0%Z));
        Call "load8_u" [VI32 54545%Z] (EVal (VI32 0%Z));
        Call "load8_u" [VI32 54744%Z] (EVal (VI32 0%Z));
        Call "load8_u" [VI32 54943%Z] (EVal (VI32 0%Z));
        Call "load8_u" [VI32 55142%Z] (EVal (VI32 0%Z));
        Call "load8_u" [VI32 55341%Z] (EVal (VI32 0%Z));
        Call "load8_u" [VI32 55540%Z] (EVal (VI32 0%Z));
        Call "load8_u" [VI32 55739%Z] (EVal (VI32 0%Z));
        Call "load8_u" [VI32 55938%Z] (EVal (VI32 0%Z));
        Call "load8_u" [VI32 56137%Z] (EVal (VI32 0%Z));
        Call "load8_u" [VI32 56336%Z] (EVal (VI32 0%Z));
        Call "load8_u" [VI32 56535%Z] (EVal (VI32 0%Z));
        Call "load8_u" [VI32 56734%Z] (EVal (VI32 0%Z));
        Call "load8_u" [VI32 56933%Z] (EVal (VI32 0%Z));
        Call "load8_u" [VI32 57132%Z] (EVal (VI32 0%Z));
        Call "load8_u" [VI32 57331%Z] (EVal (VI32 0%Z));
        Call "load8_u" [VI32 57530%Z] (EVal (VI32 0%Z));
        Call "load8_u" [VI32 57729%Z] (EVal (VI32 0%Z));
        Call "load8_u" [VI32 57928%Z] (EVal (VI32 0%Z));
        Call "load8_u" [VI32 58127%Z] (EVal (VI32 0%Z));
        Call "load8_u" [VI32 58326%Z] (EVal (VI32 0%Z));
        Call "load8_u" [VI32 58525%Z] (EVal (VI32 0%Z));
        Call "load8_u" [VI32 58724%Z] (EVal (VI32 0%Z));
        Call "load8_u" [VI32 58923%Z] (EVal (VI32 0%Z));
        Call "load8_u" [VI32 59122%Z] (EVal (VI32 0%Z));
        Call "load8_u" [VI32 59321%Z] (EVal (VI32 0%Z));
        Call "load8_u" [VI32 59520%Z] (EVal (VI32 0%Z));
        Call "load8_u" [VI32 59719%Z] (EVal (VI32 0%Z));
        Call "load8_u" [VI32 59918%Z] (EVal (VI32 0%Z));
        Call "load8_u" [VI32 60117%Z] (EVal (VI32 0%Z));
        Call "load8_u" [VI32 60316%Z] (EVal (VI32 0%Z));
        Call "load8_u" [VI32 60515%Z] (EVal (VI32 0%Z));
        Call "load8_u" [VI32 60714%Z] (EVal (VI32 0%Z));
        Call "load8_u" [VI32 60913%Z] (EVal (VI32 0%Z));
        Call "load8_u" [VI32 61112%Z] (EVal (VI32 0%Z));
        Call "load8_u" [VI32 61311%Z] (EVal (VI32 0%Z));
        Call "load8_u" [VI32 61510%Z] (EVal (VI32 0%Z));
        Call "load8_u" [VI32 61709%Z] (EVal (VI32 0%Z));
        Call "load8_u" [VI32 61908%Z] (EVal (VI32 0%Z));
        Call "load8_u" [VI32 62107%Z] (EVal (VI32 0%Z));
        Call "load8_u" [VI32 62306%Z] (EVal (VI32 0%Z));
        Call "load8_u" [VI32 62505%Z] (EVal (VI32 0%Z));
        Call "load8_u" [VI32 62704%Z] (EVal (VI32 0%Z));
        Call "load8_u" [VI32 62903%Z] (EVal (VI32 0%Z));
        Call "load8_u" [VI32 63102%Z] (EVal (VI32 0%Z));
        Call "load8_u" [VI32 63301%Z] (EVal (VI32 0%Z));
        Call "load8_u" [VI32 63500%Z] (EVal (VI32 0%Z));
        Call "load8_u" [VI32 63699%Z] (EVal (VI32 0%Z));
        Call "load8_u" [VI32 63898%Z] (EVal (VI32 0%Z));
        Call "load8_u" [VI32 64097%Z] (EVal (VI32 0%Z));
        Call "load8_u" [VI32 64296%Z] (EVal (VI32 0%Z));
        Call "load8_u" [VI32 64495%Z] (EVal (VI32 0%Z));
        Call "load8_u" [VI32 64694%Z] (EVal (VI32 0%Z));
        Call "load8_u" [VI32 64893%Z] (EVal (VI32 0%Z));
        Call "load8_u" [VI32 65092%Z] (EVal (VI32 0%Z));
        Call "load8_u" [VI32 65291%Z] (EVal (VI32 0%Z));
        Call "load8_u" [VI32 65490%Z] (EVal (VI32 0%Z)) ];
    T "test_memory_copy10" w_memorycopy_10
      [ Call "load8_u" [VI32 0%Z] (EVal (VI32 0%Z));
        Call "load8_u" [VI32 1%Z] (EVal (VI32 1%Z));
        Call "load8_u" [VI32 2%Z] (EVal (VI32 2%Z));
        Call "load8_u" [VI32 3%Z] (EVal (VI32 3%Z));
        Call "load8_u" [VI32 4%Z] (EVal (VI32 4%Z));
        Call "load8_u" [VI32 5%Z] (EVal (VI32 5%Z));
        Call "load8_u" [VI32 6%Z] (EVal (VI32 6%Z));
        Call "load8_u" [VI32 7%Z] (EVal (VI32 7%Z));
        Call "load8_u" [VI32 8%Z] (EVal (VI32 8%Z));
        Call "load8_u" [VI32 9%Z] (EVal (VI32 9%Z));
        Call "load8_u" [VI32 10%Z] (EVal (VI32 10%Z));
        Call "load8_u" [VI32 11%Z] (EVal (VI32 11%Z));
        Call "load8_u" [VI32 12%Z] (EVal (VI32 12%Z));
        Call "load8_u" [VI32 13%Z] (EVal (VI32 13%Z));
        Call "load8_u" [VI32 14%Z] (EVal (VI32 14%Z));
        Call "load8_u" [VI32 15%Z] (EVal (VI32 15%Z));
        Call "load8_u" [VI32 16%Z] (EVal (VI32 16%Z));
        Call "load8_u" [VI32 17%Z] (EVal (VI32 17%Z));
        Call "load8_u" [VI32 18%Z] (EVal (VI32 18%Z));
        Call "load8_u" [VI32 19%Z] (EVal (VI32 19%Z));
        Call "load8_u" [VI32 20%Z] (EVal (VI32 20%Z));
        Call "load8_u" [VI32 219%Z] (EVal (VI32 0%Z));
        Call "load8_u" [VI32 418%Z] (EVal (VI32 0%Z));
        Call "load8_u" [VI32 617%Z] (EVal (VI32 0%Z));
        Call "load8_u" [VI32 816%Z] (EVal (VI32 0%Z));
        Call "load8_u" [VI32 1015%Z] (EVal (VI32 0%Z));
        Call "load8_u" [VI32 1214%Z] (EVal (VI32 0%Z));
        Call "load8_u" [VI32 1413%Z] (EVal (VI32 0%Z));
        Call "load8_u" [VI32 1612%Z] (EVal (VI32 0%Z));
        Call "load8_u" [VI32 1811%Z] (EVal (VI32 0%Z));
        Call "load8_u" [VI32 2010%Z] (EVal (VI32 0%Z));
        Call "load8_u" [VI32 2209%Z] (EVal (VI32 0%Z));
        Call "load8_u" [VI32 2408%Z] (EVal (VI32 0%Z));
        Call "load8_u" [VI32 2607%Z] (EVal (VI32 0%Z));
        Call "load8_u" [VI32 2806%Z] (EVal (VI32 0%Z));
        Call "load8_u" [VI32 3005%Z] (EVal (VI32 0%Z));
        Call "load8_u" [VI32 3204%Z] (EVal (VI32 0%Z));
        Call "load8_u" [VI32 3403%Z] (EVal (VI32 0%Z));
        Call "load8_u" [VI32 3602%Z] (EVal (VI32 0%Z));
        Call "load8_u" [VI32 3801%Z] (EVal (VI32 0%Z));
        Call "load8_u" [VI32 4000%Z] (EVal (VI32 0%Z));
        Call "load8_u" [VI32 4199%Z] (EVal (VI32 0%Z));
        Call "load8_u" [VI32 4398%Z] (EVal (VI32 0%Z));
        Call "load8_u" [VI32 4597%Z] (EVal (VI32 0%Z));
        Call "load8_u" [VI32 4796%Z] (EVal (VI32 0%Z));
        Call "load8_u" [VI32 4995%Z] (EVal (VI32 0%Z));
        Call "load8_u" [VI32 5194%Z] (EVal (VI32 0%Z));
        Call "load8_u" [VI32 5393%Z] (EVal (VI32 0%Z));
        Call "load8_u" [VI32 5592%Z] (EVal (VI32 0%Z));
        Call "load8_u" [VI32 5791%Z] (EVal (VI32 0%Z));
        Call "load8_u" [VI32 5990%Z] (EVal (VI32 0%Z));
        Call "load8_u" [VI32 6189%Z] (EVal (VI32 0%Z));
        Call "load8_u" [VI32 6388%Z] (EVal (VI32 0%Z));
        Call "load8_u" [VI32 6587%Z] (EVal (VI32 0%Z));
        Call "load8_u" [VI32 6786%Z] (EVal (VI32 0%Z));
        Call "load8_u" [VI32 6985%Z] (EVal (VI32 0%Z));
        Call "load8_u" [VI32 7184%Z] (EVal (VI32 0%Z));
        Call "load8_u" [VI32 7383%Z] (EVal (VI32 0%Z));
        Call "load8_u" [VI32 7582%Z] (EVal (VI32 0%Z));
        Call "load8_u" [VI32 7781%Z] (EVal (VI32 0%Z));
        Call "load8_u" [VI32 7980%Z] (EVal (VI32 0%Z));
        Call "load8_u" [VI32 8179%Z] (EVal (VI32 0%Z));
        Call "load8_u" [VI32 8378%Z] (EVal (VI32 0%Z));
        Call "load8_u" [VI32 8577%Z] (EVal (VI32 0%Z));
        Call "load8_u" [VI32 8776%Z] (EVal (VI32 0%Z));
        Call "load8_u" [VI32 8975%Z] (EVal (VI32 0%Z));
        Call "load8_u" [VI32 9174%Z] (EVal (VI32 0%Z));
        Call "load8_u" [VI32 9373%Z] (EVal (VI32 0%Z));
        Call "load8_u" [VI32 9572%Z] (EVal (VI32 0%Z));
        Call "load8_u" [VI32 9771%Z] (EVal (VI32 0%Z));
        Call "load8_u" [VI32 9970%Z] (EVal (VI32 0%Z));
        Call "load8_u" [VI32 10169%Z] (EVal (VI32 0%Z));
        Call "load8_u" [VI32 10368%Z] (EVal (VI32 0%Z));
        Call "load8_u" [VI32 10567%Z] (EVal (VI32 0%Z));
        Call "load8_u" [VI32 10766%Z] (EVal (VI32 0%Z));
        Call "load8_u" [VI32 10965%Z] (EVal (VI32 0%Z));
        Call "load8_u" [VI32 11164%Z] (EVal (VI32 0%Z));
        Call "load8_u" [VI32 11363%Z] (EVal (VI32 0%Z));
        Call "load8_u" [VI32 11562%Z] (EVal (VI32 0%Z));
        Call "load8_u" [VI32 11761%Z] (EVal (VI32 0%Z));
        Call "load8_u" [VI32 11960%Z] (EVal (VI32 0%Z));
        Call "load8_u" [VI32 12159%Z] (EVal (VI32 0%Z));
        Call "load8_u" [VI32 12358%Z] (EVal (VI32 0%Z));
        Call "load8_u" [VI32 12557%Z] (EVal (VI32 0%Z));
        Call "load8_u" [VI32 12756%Z] (EVal (VI32 0%Z));
        Call "load8_u" [VI32 12955%Z] (EVal (VI32 0%Z));
        Call "load8_u" [VI32 13154%Z] (EVal (VI32 0%Z));
        Call "load8_u" [VI32 13353%Z] (EVal (VI32 0%Z));
        Call "load8_u" [VI32 13552%Z] (EVal (VI32 0%Z));
        Call "load8_u" [VI32 13751%Z] (EVal (VI32 0%Z));
        Call "load8_u" [VI32 13950%Z] (EVal (VI32 0%Z));
        Call "load8_u" [VI32 14149%Z] (EVal (VI32 0%Z));
        Call "load8_u" [VI32 14348%Z] (EVal (VI32 0%Z));
        Call "load8_u" [VI32 14547%Z] (EVal (VI32 0%Z));
        Call "load8_u" [VI32 14746%Z] (EVal (VI32 0%Z));
        Call "load8_u" [VI32 14945%Z] (EVal (VI32 0%Z));
        Call "load8_u" [VI32 15144%Z] (EVal (VI32 0%Z));
        Call "load8_u" [VI32 15343%Z] (EVal (VI32 0%Z));
        Call "load8_u" [VI32 15542%Z] (EVal (VI32 0%Z));
        Call "load8_u" [VI32 15741%Z] (EVal (VI32 0%Z));
        Call "load8_u" [VI32 15940%Z] (EVal (VI32 0%Z));
        Call "load8_u" [VI32 16139%Z] (EVal (VI32 0%Z));
        Call "load8_u" [VI32 16338%Z] (EVal (VI32 0%Z));
        Call "load8_u" [VI32 16537%Z] (EVal (VI32 0%Z));
        Call "load8_u" [VI32 16736%Z] (EVal (VI32 0%Z));
        Call "load8_u" [VI32 16935%Z] (EVal (VI32 0%Z));
        Call "load8_u" [VI32 17134%Z] (EVal (VI32 0%Z));
        Call "load8_u" [VI32 17333%Z] (EVal (VI32 0%Z));
        Call "load8_u" [VI32 17532%Z] (EVal (VI32 0%Z));
        Call "load8_u" [VI32 17731%Z] (EVal (VI32 0%Z));
        Call "load8_u" [VI32 17930%Z] (EVal (VI32 0%Z));
        Call "load8_u" [VI32 18129%Z] (EVal (VI32 0%Z));
        Call "load8_u" [VI32 18328%Z] (EVal (VI32 0%Z));
        Call "load8_u" [VI32 18527%Z] (EVal (VI32 0%Z));
        Call "load8_u" [VI32 18726%Z] (EVal (VI32 0%Z));
        Call "load8_u" [VI32 18925%Z] (EVal (VI32 0%Z));
        Call "load8_u" [VI32 19124%Z] (EVal (VI32 0%Z));
        Call "load8_u" [VI32 19323%Z] (EVal (VI32 0%Z));
        Call "load8_u" [VI32 19522%Z] (EVal (VI32 0%Z));
        Call "load8_u" [VI32 19721%Z] (EVal (VI32 0%Z));
        Call "load8_u" [VI32 19920%Z] (EVal (VI32 0%Z));
        Call "load8_u" [VI32 20119%Z] (EVal (VI32 0%Z));
        Call "load8_u" [VI32 20318%Z] (EVal (VI32 0%Z));
        Call "load8_u" [VI32 20517%Z] (EVal (VI32 0%Z));
        Call "load8_u" [VI32 20716%Z] (EVal (VI32 0%Z));
        Call "load8_u" [VI32 20915%Z] (EVal (VI32 0%Z));
        Call "load8_u" [VI32 21114%Z] (EVal (VI32 0%Z));
        Call "load8_u" [VI32 21313%Z] (EVal (VI32 0%Z));
        Call "load8_u" [VI32 21512%Z] (EVal (VI32 0%Z));
        Call "load8_u" [VI32 21711%Z] (EVal (VI32 0%Z));
        Call "load8_u" [VI32 21910%Z] (EVal (VI32 0%Z));
        Call "load8_u" [VI32 22109%Z] (EVal (VI32 0%Z));
        Call "load8_u" [VI32 22308%Z] (EVal (VI32 0%Z));
        Call "load8_u" [VI32 22507%Z] (EVal (VI32 0%Z));
        Call "load8_u" [VI32 22706%Z] (EVal (VI32 0%Z));
        Call "load8_u" [VI32 22905%Z] (EVal (VI32 0%Z));
        Call "load8_u" [VI32 23104%Z] (EVal (VI32 0%Z));
        Call "load8_u" [VI32 23303%Z] (EVal (VI32 0%Z));
        Call "load8_u" [VI32 23502%Z] (EVal (VI32 0%Z));
        Call "load8_u" [VI32 23701%Z] (EVal (VI32 0%Z));
        Call "load8_u" [VI32 23900%Z] (EVal (VI32 0%Z));
        Call "load8_u" [VI32 24099%Z] (EVal (VI32 0%Z));
        Call "load8_u" [VI32 24298%Z] (EVal (VI32 0%Z));
        Call "load8_u" [VI32 24497%Z] (EVal (VI32 0%Z));
        Call "load8_u" [VI32 24696%Z] (EVal (VI32 0%Z));
        Call "load8_u" [VI32 24895%Z] (EVal (VI32 0%Z));
        Call "load8_u" [VI32 25094%Z] (EVal (VI32 0%Z));
        Call "load8_u" [VI32 25293%Z] (EVal (VI32 0%Z));
        Call "load8_u" [VI32 25492%Z] (EVal (VI32 0%Z));
        Call "load8_u" [VI32 25691%Z] (EVal (VI32 0%Z));
        Call "load8_u" [VI32 25890%Z] (EVal (VI32 0%Z));
        Call "load8_u" [VI32 26089%Z] (EVal (VI32 0%Z));
        Call "load8_u" [VI32 26288%Z] (EVal (VI32 0%Z));
        Call "load8_u" [VI32 26487%Z] (EVal (VI32 0%Z));
        Call "load8_u" [VI32 26686%Z] (EVal (VI32 0%Z));
        Call "load8_u" [VI32 26885%Z] (EVal (VI32 0%Z));
        Call "load8_u" [VI32 27084%Z] (EVal (VI32 0%Z));
        Call "load8_u" [VI32 27283%Z] (EVal (VI32 0%Z));
        Call "load8_u" [VI32 27482%Z] (EVal (VI32 0%Z));
        Call "load8_u" [VI32 27681%Z] (EVal (VI32 0%Z));
        Call "load8_u" [VI32 27880%Z] (EVal (VI32 0%Z));
        Call "load8_u" [VI32 28079%Z] (EVal (VI32 0%Z));
        Call "load8_u" [VI32 28278%Z] (EVal (VI32 0%Z));
        Call "load8_u" [VI32 28477%Z] (EVal (VI32 0%Z));
        Call "load8_u" [VI32 28676%Z] (EVal (VI32 0%Z));
        Call "load8_u" [VI32 28875%Z] (EVal (VI32 0%Z));
        Call "load8_u" [VI32 29074%Z] (EVal (VI32 0%Z));
        Call "load8_u" [VI32 29273%Z] (EVal (VI32 0%Z));
        Call "load8_u" [VI32 29472%Z] (EVal (VI32 0%Z));
        Call "load8_u" [VI32 29671%Z] (EVal (VI32 0%Z));
        Call "load8_u" [VI32 29870%Z] (EVal (VI32 0%Z));
        Call "load8_u" [VI32 30069%Z] (EVal (VI32 0%Z));
        Call "load8_u" [VI32 30268%Z] (EVal (VI32 0%Z));
        Call "load8_u" [VI32 30467%Z] (EVal (VI32 0%Z));
        Call "load8_u" [VI32 30666%Z] (EVal (VI32 0%Z));
        Call "load8_u" [VI32 30865%Z] (EVal (VI32 0%Z));
        Call "load8_u" [VI32 31064%Z] (EVal (VI32 0%Z));
        Call "load8_u" [VI32 31263%Z] (EVal (VI32 0%Z));
        Call "load8_u" [VI32 31462%Z] (EVal (VI32 0%Z));
        Call "load8_u" [VI32 31661%Z] (EVal (VI32 0%Z));
        Call "load8_u" [VI32 31860%Z] (EVal (VI32 0%Z));
        Call "load8_u" [VI32 32059%Z] (EVal (VI32 0%Z));
        Call "load8_u" [VI32 32258%Z] (EVal (VI32 0%Z));
        Call "load8_u" [VI32 32457%Z] (EVal (VI32 0%Z));
        Call "load8_u" [VI32 32656%Z] (EVal (VI32 0%Z));
        Call "load8_u" [VI32 32855%Z] (EVal (VI32 0%Z));
        Call "load8_u" [VI32 33054%Z] (EVal (VI32 0%Z));
        Call "load8_u" [VI32 33253%Z] (EVal (VI32 0%Z));
        Call "load8_u" [VI32 33452%Z] (EVal (VI32 0%Z));
        Call "load8_u" [VI32 33651%Z] (EVal (VI32 0%Z));
        Call "load8_u" [VI32 33850%Z] (EVal (VI32 0%Z));
        Call "load8_u" [VI32 34049%Z] (EVal (VI32 0%Z));
        Call "load8_u" [VI32 34248%Z] (EVal (VI32 0%Z));
        Call "load8_u" [VI32 34447%Z] (EVal (VI32 0%Z));
        Call "load8_u" [VI32 34646%Z] (EVal (VI32 0%Z));
        Call "load8_u" [VI32 34845%Z] (EVal (VI32 0%Z));
        Call "load8_u" [VI32 35044%Z] (EVal (VI32 0%Z));
        Call "load8_u" [VI32 35243%Z] (EVal (VI32 0%Z));
        Call "load8_u" [VI32 35442%Z] (EVal (VI32 0%Z));
        Call "load8_u" [VI32 35641%Z] (EVal (VI32 0%Z));
        Call "load8_u" [VI32 35840%Z] (EVal (VI32 0%Z));
        Call "load8_u" [VI32 36039%Z] (EVal (VI32 0%Z));
        Call "load8_u" [VI32 36238%Z] (EVal (VI32 0%Z));
        Call "load8_u" [VI32 36437%Z] (EVal (VI32 0%Z));
        Call "load8_u" [VI32 36636%Z] (EVal (VI32 0%Z));
        Call "load8_u" [VI32 36835%Z] (EVal (VI32 0%Z));
        Call "load8_u" [VI32 37034%Z] (EVal (VI32 0%Z));
        Call "load8_u" [VI32 37233%Z] (EVal (VI32 0%Z));
        Call "load8_u" [VI32 37432%Z] (EVal (VI32 0%Z));
        Call "load8_u" [VI32 37631%Z] (EVal (VI32 0%Z));
        Call "load8_u" [VI32 37830%Z] (EVal (VI32 0%Z));
        Call "load8_u" [VI32 38029%Z] (EVal (VI32 0%Z));
        Call "load8_u" [VI32 38228%Z] (EVal (VI32 0%Z));
        Call "load8_u" [VI32 38427%Z] (EVal (VI32 0%Z));
        Call "load8_u" [VI32 38626%Z] (EVal (VI32 0%Z));
        Call "load8_u" [VI32 38825%Z] (EVal (VI32 0%Z));
        Call "load8_u" [VI32 39024%Z] (EVal (VI32 0%Z));
        Call "load8_u" [VI32 39223%Z] (EVal (VI32 0%Z));
        Call "load8_u" [VI32 39422%Z] (EVal (VI32 0%Z));
        Call "load8_u" [VI32 39621%Z] (EVal (VI32 0%Z));
        Call "load8_u" [VI32 39820%Z] (EVal (VI32 0%Z));
        Call "load8_u" [VI32 40019%Z] (EVal (VI32 0%Z));
        Call "load8_u" [VI32 40218%Z] (EVal (VI32 0%Z));
        Call "load8_u" [VI32 40417%Z] (EVal (VI32 0%Z));
        Call "load8_u" [VI32 40616%Z] (EVal (VI32 0%Z));
        Call "load8_u" [VI32 40815%Z] (EVal (VI32 0%Z));
        Call "load8_u" [VI32 41014%Z] (EVal (VI32 0%Z));
        Call "load8_u" [VI32 41213%Z] (EVal (VI32 0%Z));
        Call "load8_u" [VI32 41412%Z] (EVal (VI32 0%Z));
        Call "load8_u" [VI32 41611%Z] (EVal (VI32 0%Z));
        Call "load8_u" [VI32 41810%Z] (EVal (VI32 0%Z));
        Call "load8_u" [VI32 42009%Z] (EVal (VI32 0%Z));
        Call "load8_u" [VI32 42208%Z] (EVal (VI32 0%Z));
        Call "load8_u" [VI32 42407%Z] (EVal (VI32 0%Z));
        Call "load8_u" [VI32 42606%Z] (EVal (VI32 0%Z));
        Call "load8_u" [VI32 42805%Z] (EVal (VI32 0%Z));
        Call "load8_u" [VI32 43004%Z] (EVal (VI32 0%Z));
        Call "load8_u" [VI32 43203%Z] (EVal (VI32 0%Z));
        Call "load8_u" [VI32 43402%Z] (EVal (VI32 0%Z));
        Call "load8_u" [VI32 43601%Z] (EVal (VI32 0%Z));
        Call "load8_u" [VI32 43800%Z] (EVal (VI32 0%Z));
        Call "load8_u" [VI32 43999%Z] (EVal (VI32 0%Z));
        Call "load8_u" [VI32 44198%Z] (EVal (VI32 0%Z));
        Call "load8_u" [VI32 44397%Z] (EVal (VI32 0%Z));
        Call "load8_u" [VI32 44596%Z] (EVal (VI32 0%Z));
        Call "load8_u" [VI32 44795%Z] (EVal (VI32 0%Z));
        Call "load8_u" [VI32 44994%Z] (EVal (VI32 0%Z));
        Call "load8_u" [VI32 45193%Z] (EVal (VI32 0%Z));
        Call "load8_u" [VI32 45392%Z] (EVal (VI32 0%Z));
        Call "load8_u" [VI32 45591%Z] (EVal (VI32 0%Z));
        Call "load8_u" [VI32 45790%Z] (EVal (VI32 0%Z));
        Call "load8_u" [VI32 45989%Z] (EVal (VI32 0%Z));
        Call "load8_u" [VI32 46188%Z] (EVal (VI32 0%Z));
        Call "load8_u" [VI32 46387%Z] (EVal (VI32 0%Z));
        Call "load8_u" [VI32 46586%Z] (EVal (VI32 0%Z));
        Call "load8_u" [VI32 46785%Z] (EVal (VI32 0%Z));
        Call "load8_u" [VI32 46984%Z] (EVal (VI32 0%Z));
        Call "load8_u" [VI32 47183%Z] (EVal (VI32 0%Z));
        Call "load8_u" [VI32 47382%Z] (EVal (VI32 0%Z));
        Call "load8_u" [VI32 47581%Z] (EVal (VI32 0%Z));
        Call "load8_u" [VI32 47780%Z] (EVal (VI32 0%Z));
        Call "load8_u" [VI32 47979%Z] (EVal (VI32 0%Z));
        Call "load8_u" [VI32 48178%Z] (EVal (VI32 0%Z));
        Call "load8_u" [VI32 48377%Z] (EVal (VI32 0%Z));
        Call "load8_u" [VI32 48576%Z] (EVal (VI32 0%Z));
        Call "load8_u" [VI32 48775%Z] (EVal (VI32 0%Z));
        Call "load8_u" [VI32 48974%Z] (EVal (VI32 0%Z));
        Call "load8_u" [VI32 49173%Z] (EVal (VI32 0%Z));
        Call "load8_u" [VI32 49372%Z] (EVal (VI32 0%Z));
        Call "load8_u" [VI32 49571%Z] (EVal (VI32 0%Z));
        Call "load8_u" [VI32 49770%Z] (EVal (VI32 0%Z));
        Call "load8_u" [VI32 49969%Z] (EVal (VI32 0%Z));
        Call "load8_u" [VI32 50168%Z] (EVal (VI32 0%Z));
        Call "load8_u" [VI32 50367%Z] (EVal (VI32 0%Z));
        Call "load8_u" [VI32 50566%Z] (EVal (VI32 0%Z));
        Call "load8_u" [VI32 50765%Z] (EVal (VI32 0%Z));
        Call "load8_u" [VI32 50964%Z] (EVal (VI32 0%Z));
        Call "load8_u" [VI32 51163%Z] (EVal (VI32 0%Z));
        Call "load8_u" [VI32 51362%Z] (EVal (VI32 0%Z));
        Call "load8_u" [VI32 51561%Z] (EVal (VI32 0%Z));
        Call "load8_u" [VI32 51760%Z] (EVal (VI32 0%Z));
        Call "load8_u" [VI32 51959%Z] (EVal (VI32 0%Z));
        Call "load8_u" [VI32 52158%Z] (EVal (VI32 0%Z));
        Call "load8_u" [VI32 52357%Z] (EVal (VI32 0%Z));
        Call "load8_u" [VI32 52556%Z] (EVal (VI32 0%Z));
        Call "load8_u" [VI32 52755%Z] (EVal (VI32 0%Z));
        Call "load8_u" [VI32 52954%Z] (EVal (VI32 0%Z));
        Call "load8_u" [VI32 53153%Z] (EVal (VI32 0%Z));
        Call "load8_u" [VI32 53352%Z] (EVal (VI32 0%Z));
        Call "load8_u" [VI32 53551%Z] (EVal (VI32 0%Z));
        Call "load8_u" [VI32 53750%Z] (EVal (VI32 0%Z));
        Call "load8_u" [VI32 53949%Z] (EVal (VI32 0%Z));
        Call "load8_u" [VI32 54148%Z] (EVal (VI32 0%Z));
        Call "load8_u" [VI32 54347%Z] (EVal (VI32 0%Z));
        Call "load8_u" [VI32 54546%Z] (EVal (VI32 0%Z));
        Call "load8_u" [VI32 54745%Z] (EVal (VI32 0%Z));
        Call "load8_u" [VI32 54944%Z] (EVal (VI32 0%Z));
        Call "load8_u" [VI32 55143%Z] (EVal (VI32 0%Z));
        Call "load8_u" [VI32 55342%Z] (EVal (VI32 0%Z));
        Call "load8_u" [VI32 55541%Z] (EVal (VI32 0%Z));
        Call "load8_u" [VI32 55740%Z] (EVal (VI32 0%Z));
        Call "load8_u" [VI32 55939%Z] (EVal (VI32 0%Z));
        Call "load8_u" [VI32 56138%Z] (EVal (VI32 0%Z));
        Call "load8_u" [VI32 56337%Z] (EVal (VI32 0%Z));
        Call "load8_u" [VI32 56536%Z] (EVal (VI32 0%Z));
        Call "load8_u" [VI32 56735%Z] (EVal (VI32 0%Z));
        Call "load8_u" [VI32 56934%Z] (EVal (VI32 0%Z));
        Call "load8_u" [VI32 57133%Z] (EVal (VI32 0%Z));
        Call "load8_u" [VI32 57332%Z] (EVal (VI32 0%Z));
        Call "load8_u" [VI32 57531%Z] (EVal (VI32 0%Z));
        Call "load8_u" [VI32 57730%Z] (EVal (VI32 0%Z));
        Call "load8_u" [VI32 57929%Z] (EVal (VI32 0%Z));
        Call "load8_u" [VI32 58128%Z] (EVal (VI32 0%Z));
        Call "load8_u" [VI32 58327%Z] (EVal (VI32 0%Z));
        Call "load8_u" [VI32 58526%Z] (EVal (VI32 0%Z));
        Call "load8_u" [VI32 58725%Z] (EVal (VI32 0%Z));
        Call "load8_u" [VI32 58924%Z] (EVal (VI32 0%Z));
        Call "load8_u" [VI32 59123%Z] (EVal (VI32 0%Z));
        Call "load8_u" [VI32 59322%Z] (EVal (VI32 0%Z));
        Call "load8_u" [VI32 59521%Z] (EVal (VI32 0%Z));
        Call "load8_u" [VI32 59720%Z] (EVal (VI32 0%Z));
        Call "load8_u" [VI32 59919%Z] (EVal (VI32 0%Z));
        Call "load8_u" [VI32 60118%Z] (EVal (VI32 0%Z));
        Call "load8_u" [VI32 60317%Z] (EVal (VI32 0%Z));
        Call "load8_u" [VI32 60516%Z] (EVal (VI32 0%Z));
        Call "load8_u" [VI32 60715%Z] (EVal (VI32 0%Z));
        Call "load8_u" [VI32 60914%Z] (EVal (VI32 0%Z));
        Call "load8_u" [VI32 61113%Z] (EVal (VI32 0%Z));
        Call "load8_u" [VI32 61312%Z] (EVal (VI32 0%Z));
        Call "load8_u" [VI32 61511%Z] (EVal (VI32 0%Z));
        Call "load8_u" [VI32 61710%Z] (EVal (VI32 0%Z));
        Call "load8_u" [VI32 61909%Z] (EVal (VI32 0%Z));
        Call "load8_u" [VI32 62108%Z] (EVal (VI32 0%Z));
        Call "load8_u" [VI32 62307%Z] (EVal (VI32 0%Z));
        Call "load8_u" [VI32 62506%Z] (EVal (VI32 0%Z));
        Call "load8_u" [VI32 62705%Z] (EVal (VI32 0%Z));
        Call "load8_u" [VI32 62904%Z] (EVal (VI32 0%Z));
        Call "load8_u" [VI32 63103%Z] (EVal (VI32 0%Z));
        Call "load8_u" [VI32 63302%Z] (EVal (VI32 0%Z));
        Call "load8_u" [VI32 63501%Z] (EVal (VI32 0%Z));
        Call "load8_u" [VI32 63700%Z] (EVal (VI32 0%Z));
        Call "load8_u" [VI32 63899%Z] (EVal (VI32 0%Z));
        Call "load8_u" [VI32 64098%Z] (EVal (VI32 0%Z));
        Call "load8_u" [VI32 64297%Z] (EVal (VI32 0%Z));
        Call "load8_u" [VI32 64496%Z] (EVal (VI32 0%Z));
        Call "load8_u" [VI32 64695%Z] (EVal (VI32 0%Z));
        Call "load8_u" [VI32 64894%Z] (EVal (VI32 0%Z));
        Call "load8_u" [VI32 65093%Z] (EVal (VI32 0%Z));
        Call "load8_u" [VI32 65292%Z] (EVal (VI32 0%Z));
        Call "load8_u" [VI32 65491%Z] (EVal (VI32 0%Z)) ];
    T "test_memory_copy11" w_memorycopy_11
      [ Call "load8_u" [VI32 198%Z] (EVal (VI32 0%Z));
        Call "load8_u" [VI32 397%Z] (EVal (VI32 0%Z));
        Call "load8_u" [VI32 596%Z] (EVal (VI32 0%Z));
        Call "load8_u" [VI32 795%Z] (EVal (VI32 0%Z));
        Call "load8_u" [VI32 994%Z] (EVal (VI32 0%Z));
        Call "load8_u" [VI32 1193%Z] (EVal (VI32 0%Z));
        Call "load8_u" [VI32 1392%Z] (EVal (VI32 0%Z));
        Call "load8_u" [VI32 1591%Z] (EVal (VI32 0%Z));
        Call "load8_u" [VI32 1790%Z] (EVal (VI32 0%Z));
        Call "load8_u" [VI32 1989%Z] (EVal (VI32 0%Z));
        Call "load8_u" [VI32 2188%Z] (EVal (VI32 0%Z));
        Call "load8_u" [VI32 2387%Z] (EVal (VI32 0%Z));
        Call "load8_u" [VI32 2586%Z] (EVal (VI32 0%Z));
        Call "load8_u" [VI32 2785%Z] (EVal (VI32 0%Z));
        Call "load8_u" [VI32 2984%Z] (EVal (VI32 0%Z));
        Call "load8_u" [VI32 3183%Z] (EVal (VI32 0%Z));
        Call "load8_u" [VI32 3382%Z] (EVal (VI32 0%Z));
        Call "load8_u" [VI32 3581%Z] (EVal (VI32 0%Z));
        Call "load8_u" [VI32 3780%Z] (EVal (VI32 0%Z));
        Call "load8_u" [VI32 3979%Z] (EVal (VI32 0%Z));
        Call "load8_u" [VI32 4178%Z] (EVal (VI32 0%Z));
        Call "load8_u" [VI32 4377%Z] (EVal (VI32 0%Z));
        Call "load8_u" [VI32 4576%Z] (EVal (VI32 0%Z));
        Call "load8_u" [VI32 4775%Z] (EVal (VI32 0%Z));
        Call "load8_u" [VI32 4974%Z] (EVal (VI32 0%Z));
        Call "load8_u" [VI32 5173%Z] (EVal (VI32 0%Z));
        Call "load8_u" [VI32 5372%Z] (EVal (VI32 0%Z));
        Call "load8_u" [VI32 5571%Z] (EVal (VI32 0%Z));
        Call "load8_u" [VI32 5770%Z] (EVal (VI32 0%Z));
        Call "load8_u" [VI32 5969%Z] (EVal (VI32 0%Z));
        Call "load8_u" [VI32 6168%Z] (EVal (VI32 0%Z));
        Call "load8_u" [VI32 6367%Z] (EVal (VI32 0%Z));
        Call "load8_u" [VI32 6566%Z] (EVal (VI32 0%Z));
        Call "load8_u" [VI32 6765%Z] (EVal (VI32 0%Z));
        Call "load8_u" [VI32 6964%Z] (EVal (VI32 0%Z));
        Call "load8_u" [VI32 7163%Z] (EVal (VI32 0%Z));
        Call "load8_u" [VI32 7362%Z] (EVal (VI32 0%Z));
        Call "load8_u" [VI32 7561%Z] (EVal (VI32 0%Z));
        Call "load8_u" [VI32 7760%Z] (EVal (VI32 0%Z));
        Call "load8_u" [VI32 7959%Z] (EVal (VI32 0%Z));
        Call "load8_u" [VI32 8158%Z] (EVal (VI32 0%Z));
        Call "load8_u" [VI32 8357%Z] (EVal (VI32 0%Z));
        Call "load8_u" [VI32 8556%Z] (EVal (VI32 0%Z));
        Call "load8_u" [VI32 8755%Z] (EVal (VI32 0%Z));
        Call "load8_u" [VI32 8954%Z] (EVal (VI32 0%Z));
        Call "load8_u" [VI32 9153%Z] (EVal (VI32 0%Z));
        Call "load8_u" [VI32 9352%Z] (EVal (VI32 0%Z));
        Call "load8_u" [VI32 9551%Z] (EVal (VI32 0%Z));
        Call "load8_u" [VI32 9750%Z] (EVal (VI32 0%Z));
        Call "load8_u" [VI32 9949%Z] (EVal (VI32 0%Z));
        Call "load8_u" [VI32 10148%Z] (EVal (VI32 0%Z));
        Call "load8_u" [VI32 10347%Z] (EVal (VI32 0%Z));
        Call "load8_u" [VI32 10546%Z] (EVal (VI32 0%Z));
        Call "load8_u" [VI32 10745%Z] (EVal (VI32 0%Z));
        Call "load8_u" [VI32 10944%Z] (EVal (VI32 0%Z));
        Call "load8_u" [VI32 11143%Z] (EVal (VI32 0%Z));
        Call "load8_u" [VI32 11342%Z] (EVal (VI32 0%Z));
        Call "load8_u" [VI32 11541%Z] (EVal (VI32 0%Z));
        Call "load8_u" [VI32 11740%Z] (EVal (VI32 0%Z));
        Call "load8_u" [VI32 11939%Z] (EVal (VI32 0%Z));
        Call "load8_u" [VI32 12138%Z] (EVal (VI32 0%Z));
        Call "load8_u" [VI32 12337%Z] (EVal (VI32 0%Z));
        Call "load8_u" [VI32 12536%Z] (EVal (VI32 0%Z));
        Call "load8_u" [VI32 12735%Z] (EVal (VI32 0%Z));
        Call "load8_u" [VI32 12934%Z] (EVal (VI32 0%Z));
        Call "load8_u" [VI32 13133%Z] (EVal (VI32 0%Z));
        Call "load8_u" [VI32 13332%Z] (EVal (VI32 0%Z));
        Call "load8_u" [VI32 13531%Z] (EVal (VI32 0%Z));
        Call "load8_u" [VI32 13730%Z] (EVal (VI32 0%Z));
        Call "load8_u" [VI32 13929%Z] (EVal (VI32 0%Z));
        Call "load8_u" [VI32 14128%Z] (EVal (VI32 0%Z));
        Call "load8_u" [VI32 14327%Z] (EVal (VI32 0%Z));
        Call "load8_u" [VI32 14526%Z] (EVal (VI32 0%Z));
        Call "load8_u" [VI32 14725%Z] (EVal (VI32 0%Z));
        Call "load8_u" [VI32 14924%Z] (EVal (VI32 0%Z));
        Call "load8_u" [VI32 15123%Z] (EVal (VI32 0%Z));
        Call "load8_u" [VI32 15322%Z] (EVal (VI32 0%Z));
        Call "load8_u" [VI32 15521%Z] (EVal (VI32 0%Z));
        Call "load8_u" [VI32 15720%Z] (EVal (VI32 0%Z));
        Call "load8_u" [VI32 15919%Z] (EVal (VI32 0%Z));
        Call "load8_u" [VI32 16118%Z] (EVal (VI32 0%Z));
        Call "load8_u" [VI32 16317%Z] (EVal (VI32 0%Z));
        Call "load8_u" [VI32 16516%Z] (EVal (VI32 0%Z));
        Call "load8_u" [VI32 16715%Z] (EVal (VI32 0%Z));
        Call "load8_u" [VI32 16914%Z] (EVal (VI32 0%Z));
        Call "load8_u" [VI32 17113%Z] (EVal (VI32 0%Z));
        Call "load8_u" [VI32 17312%Z] (EVal (VI32 0%Z));
        Call "load8_u" [VI32 17511%Z] (EVal (VI32 0%Z));
        Call "load8_u" [VI32 17710%Z] (EVal (VI32 0%Z));
        Call "load8_u" [VI32 17909%Z] (EVal (VI32 0%Z));
        Call "load8_u" [VI32 18108%Z] (EVal (VI32 0%Z));
        Call "load8_u" [VI32 18307%Z] (EVal (VI32 0%Z));
        Call "load8_u" [VI32 18506%Z] (EVal (VI32 0%Z));
        Call "load8_u" [VI32 18705%Z] (EVal (VI32 0%Z));
        Call "load8_u" [VI32 18904%Z] (EVal (VI32 0%Z));
        Call "load8_u" [VI32 19103%Z] (EVal (VI32 0%Z));
        Call "load8_u" [VI32 19302%Z] (EVal (VI32 0%Z));
        Call "load8_u" [VI32 19501%Z] (EVal (VI32 0%Z));
        Call "load8_u" [VI32 19700%Z] (EVal (VI32 0%Z));
        Call "load8_u" [VI32 19899%Z] (EVal (VI32 0%Z));
        Call "load8_u" [VI32 20098%Z] (EVal (VI32 0%Z));
        Call "load8_u" [VI32 20297%Z] (EVal (VI32 0%Z));
        Call "load8_u" [VI32 20496%Z] (EVal (VI32 0%Z));
        Call "load8_u" [VI32 20695%Z] (EVal (VI32 0%Z));
        Call "load8_u" [VI32 20894%Z] (EVal (VI32 0%Z));
        Call "load8_u" [VI32 21093%Z] (EVal (VI32 0%Z));
        Call "load8_u" [VI32 21292%Z] (EVal (VI32 0%Z));
        Call "load8_u" [VI32 21491%Z] (EVal (VI32 0%Z));
        Call "load8_u" [VI32 21690%Z] (EVal (VI32 0%Z));
        Call "load8_u" [VI32 21889%Z] (EVal (VI32 0%Z));
        Call "load8_u" [VI32 22088%Z] (EVal (VI32 0%Z));
        Call "load8_u" [VI32 22287%Z] (EVal (VI32 0%Z));
        Call "load8_u" [VI32 22486%Z] (EVal (VI32 0%Z));
        Call "load8_u" [VI32 22685%Z] (EVal (VI32 0%Z));
        Call "load8_u" [VI32 22884%Z] (EVal (VI32 0%Z));
        Call "load8_u" [VI32 23083%Z] (EVal (VI32 0%Z));
        Call "load8_u" [VI32 23282%Z] (EVal (VI32 0%Z));
        Call "load8_u" [VI32 23481%Z] (EVal (VI32 0%Z));
        Call "load8_u" [VI32 23680%Z] (EVal (VI32 0%Z));
        Call "load8_u" [VI32 23879%Z] (EVal (VI32 0%Z));
        Call "load8_u" [VI32 24078%Z] (EVal (VI32 0%Z));
        Call "load8_u" [VI32 24277%Z] (EVal (VI32 0%Z));
        Call "load8_u" [VI32 24476%Z] (EVal (VI32 0%Z));
        Call "load8_u" [VI32 24675%Z] (EVal (VI32 0%Z));
        Call "load8_u" [VI32 24874%Z] (EVal (VI32 0%Z));
        Call "load8_u" [VI32 25073%Z] (EVal (VI32 0%Z));
        Call "load8_u" [VI32 25272%Z] (EVal (VI32 0%Z));
        Call "load8_u" [VI32 25471%Z] (EVal (VI32 0%Z));
        Call "load8_u" [VI32 25670%Z] (EVal (VI32 0%Z));
        Call "load8_u" [VI32 25869%Z] (EVal (VI32 0%Z));
        Call "load8_u" [VI32 26068%Z] (EVal (VI32 0%Z));
        Call "load8_u" [VI32 26267%Z] (EVal (VI32 0%Z));
        Call "load8_u" [VI32 26466%Z] (EVal (VI32 0%Z));
        Call "load8_u" [VI32 26665%Z] (EVal (VI32 0%Z));
        Call "load8_u" [VI32 26864%Z] (EVal (VI32 0%Z));
        Call "load8_u" [VI32 27063%Z] (EVal (VI32 0%Z));
        Call "load8_u" [VI32 27262%Z] (EVal (VI32 0%Z));
        Call "load8_u" [VI32 27461%Z] (EVal (VI32 0%Z));
        Call "load8_u" [VI32 27660%Z] (EVal (VI32 0%Z));
        Call "load8_u" [VI32 27859%Z] (EVal (VI32 0%Z));
        Call "load8_u" [VI32 28058%Z] (EVal (VI32 0%Z));
        Call "load8_u" [VI32 28257%Z] (EVal (VI32 0%Z));
        Call "load8_u" [VI32 28456%Z] (EVal (VI32 0%Z));
        Call "load8_u" [VI32 28655%Z] (EVal (VI32 0%Z));
        Call "load8_u" [VI32 28854%Z] (EVal (VI32 0%Z));
        Call "load8_u" [VI32 29053%Z] (EVal (VI32 0%Z));
        Call "load8_u" [VI32 29252%Z] (EVal (VI32 0%Z));
        Call "load8_u" [VI32 29451%Z] (EVal (VI32 0%Z));
        Call "load8_u" [VI32 29650%Z] (EVal (VI32 0%Z));
        Call "load8_u" [VI32 29849%Z] (EVal (VI32 0%Z));
        Call "load8_u" [VI32 30048%Z] (EVal (VI32 0%Z));
        Call "load8_u" [VI32 30247%Z] (EVal (VI32 0%Z));
        Call "load8_u" [VI32 30446%Z] (EVal (VI32 0%Z));
        Call "load8_u" [VI32 30645%Z] (EVal (VI32 0%Z));
        Call "load8_u" [VI32 30844%Z] (EVal (VI32 0%Z));
        Call "load8_u" [VI32 31043%Z] (EVal (VI32 0%Z));
        Call "load8_u" [VI32 31242%Z] (EVal (VI32 0%Z));
        Call "load8_u" [VI32 31441%Z] (EVal (VI32 0%Z));
        Call "load8_u" [VI32 31640%Z] (EVal (VI32 0%Z));
        Call "load8_u" [VI32 31839%Z] (EVal (VI32 0%Z));
        Call "load8_u" [VI32 32038%Z] (EVal (VI32 0%Z));
        Call "load8_u" [VI32 32237%Z] (EVal (VI32 0%Z));
        Call "load8_u" [VI32 32436%Z] (EVal (VI32 0%Z));
        Call "load8_u" [VI32 32635%Z] (EVal (VI32 0%Z));
        Call "load8_u" [VI32 32834%Z] (EVal (VI32 0%Z));
        Call "load8_u" [VI32 33033%Z] (EVal (VI32 0%Z));
        Call "load8_u" [VI32 33232%Z] (EVal (VI32 0%Z));
        Call "load8_u" [VI32 33431%Z] (EVal (VI32 0%Z));
        Call "load8_u" [VI32 33630%Z] (EVal (VI32 0%Z));
        Call "load8_u" [VI32 33829%Z] (EVal (VI32 0%Z));
        Call "load8_u" [VI32 34028%Z] (EVal (VI32 0%Z));
        Call "load8_u" [VI32 34227%Z] (EVal (VI32 0%Z));
        Call "load8_u" [VI32 34426%Z] (EVal (VI32 0%Z));
        Call "load8_u" [VI32 34625%Z] (EVal (VI32 0%Z));
        Call "load8_u" [VI32 34824%Z] (EVal (VI32 0%Z));
        Call "load8_u" [VI32 35023%Z] (EVal (VI32 0%Z));
        Call "load8_u" [VI32 35222%Z] (EVal (VI32 0%Z));
        Call "load8_u" [VI32 35421%Z] (EVal (VI32 0%Z));
        Call "load8_u" [VI32 35620%Z] (EVal (VI32 0%Z));
        Call "load8_u" [VI32 35819%Z] (EVal (VI32 0%Z));
        Call "load8_u" [VI32 36018%Z] (EVal (VI32 0%Z));
        Call "load8_u" [VI32 36217%Z] (EVal (VI32 0%Z));
        Call "load8_u" [VI32 36416%Z] (EVal (VI32 0%Z));
        Call "load8_u" [VI32 36615%Z] (EVal (VI32 0%Z));
        Call "load8_u" [VI32 36814%Z] (EVal (VI32 0%Z));
        Call "load8_u" [VI32 37013%Z] (EVal (VI32 0%Z));
        Call "load8_u" [VI32 37212%Z] (EVal (VI32 0%Z));
        Call "load8_u" [VI32 37411%Z] (EVal (VI32 0%Z));
        Call "load8_u" [VI32 37610%Z] (EVal (VI32 0%Z));
        Call "load8_u" [VI32 37809%Z] (EVal (VI32 0%Z));
        Call "load8_u" [VI32 38008%Z] (EVal (VI32 0%Z));
        Call "load8_u" [VI32 38207%Z] (EVal (VI32 0%Z));
        Call "load8_u" [VI32 38406%Z] (EVal (VI32 0%Z));
        Call "load8_u" [VI32 38605%Z] (EVal (VI32 0%Z));
        Call "load8_u" [VI32 38804%Z] (EVal (VI32 0%Z));
        Call "load8_u" [VI32 39003%Z] (EVal (VI32 0%Z));
        Call "load8_u" [VI32 39202%Z] (EVal (VI32 0%Z));
        Call "load8_u" [VI32 39401%Z] (EVal (VI32 0%Z));
        Call "load8_u" [VI32 39600%Z] (EVal (VI32 0%Z));
        Call "load8_u" [VI32 39799%Z] (EVal (VI32 0%Z));
        Call "load8_u" [VI32 39998%Z] (EVal (VI32 0%Z));
        Call "load8_u" [VI32 40197%Z] (EVal (VI32 0%Z));
        Call "load8_u" [VI32 40396%Z] (EVal (VI32 0%Z));
        Call "load8_u" [VI32 40595%Z] (EVal (VI32 0%Z));
        Call "load8_u" [VI32 40794%Z] (EVal (VI32 0%Z));
        Call "load8_u" [VI32 40993%Z] (EVal (VI32 0%Z));
        Call "load8_u" [VI32 41192%Z] (EVal (VI32 0%Z));
        Call "load8_u" [VI32 41391%Z] (EVal (VI32 0%Z));
        Call "load8_u" [VI32 41590%Z] (EVal (VI32 0%Z));
        Call "load8_u" [VI32 41789%Z] (EVal (VI32 0%Z));
        Call "load8_u" [VI32 41988%Z] (EVal (VI32 0%Z));
        Call "load8_u" [VI32 42187%Z] (EVal (VI32 0%Z));
        Call "load8_u" [VI32 42386%Z] (EVal (VI32 0%Z));
        Call "load8_u" [VI32 42585%Z] (EVal (VI32 0%Z));
        Call "load8_u" [VI32 42784%Z] (EVal (VI32 0%Z));
        Call "load8_u" [VI32 42983%Z] (EVal (VI32 0%Z));
        Call "load8_u" [VI32 43182%Z] (EVal (VI32 0%Z));
        Call "load8_u" [VI32 43381%Z] (EVal (VI32 0%Z));
        Call "load8_u" [VI32 43580%Z] (EVal (VI32 0%Z));
        Call "load8_u" [VI32 43779%Z] (EVal (VI32 0%Z));
        Call "load8_u" [VI32 43978%Z] (EVal (VI32 0%Z));
        Call "load8_u" [VI32 44177%Z] (EVal (VI32 0%Z));
        Call "load8_u" [VI32 44376%Z] (EVal (VI32 0%Z));
        Call "load8_u" [VI32 44575%Z] (EVal (VI32 0%Z));
        Call "load8_u" [VI32 44774%Z] (EVal (VI32 0%Z));
        Call "load8_u" [VI32 44973%Z] (EVal (VI32 0%Z));
        Call "load8_u" [VI32 45172%Z] (EVal (VI32 0%Z));
        Call "load8_u" [VI32 45371%Z] (EVal (VI32 0%Z));
        Call "load8_u" [VI32 45570%Z] (EVal (VI32 0%Z));
        Call "load8_u" [VI32 45769%Z] (EVal (VI32 0%Z));
        Call "load8_u" [VI32 45968%Z] (EVal (VI32 0%Z));
        Call "load8_u" [VI32 46167%Z] (EVal (VI32 0%Z));
        Call "load8_u" [VI32 46366%Z] (EVal (VI32 0%Z));
        Call "load8_u" [VI32 46565%Z] (EVal (VI32 0%Z));
        Call "load8_u" [VI32 46764%Z] (EVal (VI32 0%Z));
        Call "load8_u" [VI32 46963%Z] (EVal (VI32 0%Z));
        Call "load8_u" [VI32 47162%Z] (EVal (VI32 0%Z));
        Call "load8_u" [VI32 47361%Z] (EVal (VI32 0%Z));
        Call "load8_u" [VI32 47560%Z] (EVal (VI32 0%Z));
        Call "load8_u" [VI32 47759%Z] (EVal (VI32 0%Z));
        Call "load8_u" [VI32 47958%Z] (EVal (VI32 0%Z));
        Call "load8_u" [VI32 48157%Z] (EVal (VI32 0%Z));
        Call "load8_u" [VI32 48356%Z] (EVal (VI32 0%Z));
        Call "load8_u" [VI32 48555%Z] (EVal (VI32 0%Z));
        Call "load8_u" [VI32 48754%Z] (EVal (VI32 0%Z));
        Call "load8_u" [VI32 48953%Z] (EVal (VI32 0%Z));
        Call "load8_u" [VI32 49152%Z] (EVal (VI32 0%Z));
        Call "load8_u" [VI32 49351%Z] (EVal (VI32 0%Z));
        Call "load8_u" [VI32 49550%Z] (EVal (VI32 0%Z));
        Call "load8_u" [VI32 49749%Z] (EVal (VI32 0%Z));
        Call "load8_u" [VI32 49948%Z] (EVal (VI32 0%Z));
        Call "load8_u" [VI32 50147%Z] (EVal (VI32 0%Z));
        Call "load8_u" [VI32 50346%Z] (EVal (VI32 0%Z));
        Call "load8_u" [VI32 50545%Z] (EVal (VI32 0%Z));
        Call "load8_u" [VI32 50744%Z] (EVal (VI32 0%Z));
        Call "load8_u" [VI32 50943%Z] (EVal (VI32 0%Z));
        Call "load8_u" [VI32 51142%Z] (EVal (VI32 0%Z));
        Call "load8_u" [VI32 51341%Z] (EVal (VI32 0%Z));
        Call "load8_u" [VI32 51540%Z] (EVal (VI32 0%Z));
        Call "load8_u" [VI32 51739%Z] (EVal (VI32 0%Z));
        Call "load8_u" [VI32 51938%Z] (EVal (VI32 0%Z));
        Call "load8_u" [VI32 52137%Z] (EVal (VI32 0%Z));
        Call "load8_u" [VI32 52336%Z] (EVal (VI32 0%Z));
        Call "load8_u" [VI32 52535%Z] (EVal (VI32 0%Z));
        Call "load8_u" [VI32 52734%Z] (EVal (VI32 0%Z));
        Call "load8_u" [VI32 52933%Z] (EVal (VI32 0%Z));
        Call "load8_u" [VI32 53132%Z] (EVal (VI32 0%Z));
        Call "load8_u" [VI32 53331%Z] (EVal (VI32 0%Z));
        Call "load8_u" [VI32 53530%Z] (EVal (VI32 0%Z));
        Call "load8_u" [VI32 53729%Z] (EVal (VI32 0%Z));
        Call "load8_u" [VI32 53928%Z] (EVal (VI32 0%Z));
        Call "load8_u" [VI32 54127%Z] (EVal (VI32 0%Z));
        Call "load8_u" [VI32 54326%Z] (EVal (VI32 0%Z));
        Call "load8_u" [VI32 54525%Z] (EVal (VI32 0%Z));
        Call "load8_u" [VI32 54724%Z] (EVal (VI32 0%Z));
        Call "load8_u" [VI32 54923%Z] (EVal (VI32 0%Z));
        Call "load8_u" [VI32 55122%Z] (EVal (VI32 0%Z));
        Call "load8_u" [VI32 55321%Z] (EVal (VI32 0%Z));
        Call "load8_u" [VI32 55520%Z] (EVal (VI32 0%Z));
        Call "load8_u" [VI32 55719%Z] (EVal (VI32 0%Z));
        Call "load8_u" [VI32 55918%Z] (EVal (VI32 0%Z));
        Call "load8_u" [VI32 56117%Z] (EVal (VI32 0%Z));
        Call "load8_u" [VI32 56316%Z] (EVal (VI32 0%Z));
        Call "load8_u" [VI32 56515%Z] (EVal (VI32 0%Z));
        Call "load8_u" [VI32 56714%Z] (EVal (VI32 0%Z));
        Call "load8_u" [VI32 56913%Z] (EVal (VI32 0%Z));
        Call "load8_u" [VI32 57112%Z] (EVal (VI32 0%Z));
        Call "load8_u" [VI32 57311%Z] (EVal (VI32 0%Z));
        Call "load8_u" [VI32 57510%Z] (EVal (VI32 0%Z));
        Call "load8_u" [VI32 57709%Z] (EVal (VI32 0%Z));
        Call "load8_u" [VI32 57908%Z] (EVal (VI32 0%Z));
        Call "load8_u" [VI32 58107%Z] (EVal (VI32 0%Z));
        Call "load8_u" [VI32 58306%Z] (EVal (VI32 0%Z));
        Call "load8_u" [VI32 58505%Z] (EVal (VI32 0%Z));
        Call "load8_u" [VI32 58704%Z] (EVal (VI32 0%Z));
        Call "load8_u" [VI32 58903%Z] (EVal (VI32 0%Z));
        Call "load8_u" [VI32 59102%Z] (EVal (VI32 0%Z));
        Call "load8_u" [VI32 59301%Z] (EVal (VI32 0%Z));
        Call "load8_u" [VI32 59500%Z] (EVal (VI32 0%Z));
        Call "load8_u" [VI32 59699%Z] (EVal (VI32 0%Z));
        Call "load8_u" [VI32 59898%Z] (EVal (VI32 0%Z));
        Call "load8_u" [VI32 60097%Z] (EVal (VI32 0%Z));
        Call "load8_u" [VI32 60296%Z] (EVal (VI32 0%Z));
        Call "load8_u" [VI32 60495%Z] (EVal (VI32 0%Z));
        Call "load8_u" [VI32 60694%Z] (EVal (VI32 0%Z));
        Call "load8_u" [VI32 60893%Z] (EVal (VI32 0%Z));
        Call "load8_u" [VI32 61092%Z] (EVal (VI32 0%Z));
        Call "load8_u" [VI32 61291%Z] (EVal (VI32 0%Z));
        Call "load8_u" [VI32 61490%Z] (EVal (VI32 0%Z));
        Call "load8_u" [VI32 61689%Z] (EVal (VI32 0%Z));
        Call "load8_u" [VI32 61888%Z] (EVal (VI32 0%Z));
        Call "load8_u" [VI32 62087%Z] (EVal (VI32 0%Z));
        Call "load8_u" [VI32 62286%Z] (EVal (VI32 0%Z));
        Call "load8_u" [VI32 62485%Z] (EVal (VI32 0%Z));
        Call "load8_u" [VI32 62684%Z] (EVal (VI32 0%Z));
        Call "load8_u" [VI32 62883%Z] (EVal (VI32 0%Z));
        Call "load8_u" [VI32 63082%Z] (EVal (VI32 0%Z));
        Call "load8_u" [VI32 63281%Z] (EVal (VI32 0%Z));
        Call "load8_u" [VI32 63480%Z] (EVal (VI32 0%Z));
        Call "load8_u" [VI32 63679%Z] (EVal (VI32 0%Z));
        Call "load8_u" [VI32 63878%Z] (EVal (VI32 0%Z));
        Call "load8_u" [VI32 64077%Z] (EVal (VI32 0%Z));
        Call "load8_u" [VI32 64276%Z] (EVal (VI32 0%Z));
        Call "load8_u" [VI32 64475%Z] (EVal (VI32 0%Z));
        Call "load8_u" [VI32 64674%Z] (EVal (VI32 0%Z));
        Call "load8_u" [VI32 64873%Z] (EVal (VI32 0%Z));
        Call "load8_u" [VI32 65072%Z] (EVal (VI32 0%Z));
        Call "load8_u" [VI32 65271%Z] (EVal (VI32 0%Z));
        Call "load8_u" [VI32 65470%Z] (EVal (VI32 0%Z));
        Call "load8_u" [VI32 65516%Z] (EVal (VI32 0%Z));
        Call "load8_u" [VI32 65517%Z] (EVal (VI32 1%Z));
        Call "load8_u" [VI32 65518%Z] (EVal (VI32 2%Z));
        Call "load8_u" [VI32 65519%Z] (EVal (VI32 3%Z));
        Call "load8_u" [VI32 65520%Z] (EVal (VI32 4%Z));
        Call "load8_u" [VI32 65521%Z] (EVal (VI32 5%Z));
        Call "load8_u" [VI32 65522%Z] (EVal (VI32 6%Z));
        Call "load8_u" [VI32 65523%Z] (EVal (VI32 7%Z));
        Call "load8_u" [VI32 65524%Z] (EVal (VI32 8%Z));
        Call "load8_u" [VI32 65525%Z] (EVal (VI32 9%Z));
        Call "load8_u" [VI32 65526%Z] (EVal (VI32 10%Z));
        Call "load8_u" [VI32 65527%Z] (EVal (VI32 11%Z));
        Call "load8_u" [VI32 65528%Z] (EVal (VI32 12%Z));
        Call "load8_u" [VI32 65529%Z] (EVal (VI32 13%Z));
        Call "load8_u" [VI32 65530%Z] (EVal (VI32 14%Z));
        Call "load8_u" [VI32 65531%Z] (EVal (VI32 15%Z));
        Call "load8_u" [VI32 65532%Z] (EVal (VI32 16%Z));
        Call "load8_u" [VI32 65533%Z] (EVal (VI32 17%Z));
        Call "load8_u" [VI32 65534%Z] (EVal (VI32 18%Z));
        Call "load8_u" [VI32 65535%Z] (EVal (VI32 19%Z)) ];
    T "test_memory_copy12" w_memorycopy_12
      [ Call "load8_u" [VI32 198%Z] (EVal (VI32 0%Z));
        Call "load8_u" [VI32 397%Z] (EVal (VI32 0%Z));
        Call "load8_u" [VI32 596%Z] (EVal (VI32 0%Z));
        Call "load8_u" [VI32 795%Z] (EVal (VI32 0%Z));
        Call "load8_u" [VI32 994%Z] (EVal (VI32 0%Z));
        Call "load8_u" [VI32 1193%Z] (EVal (VI32 0%Z));
        Call "load8_u" [VI32 1392%Z] (EVal (VI32 0%Z));
        Call "load8_u" [VI32 1591%Z] (EVal (VI32 0%Z));
        Call "load8_u" [VI32 1790%Z] (EVal (VI32 0%Z));
        Call "load8_u" [VI32 1989%Z] (EVal (VI32 0%Z));
        Call "load8_u" [VI32 2188%Z] (EVal (VI32 0%Z));
        Call "load8_u" [VI32 2387%Z] (EVal (VI32 0%Z));
        Call "load8_u" [VI32 2586%Z] (EVal (VI32 0%Z));
        Call "load8_u" [VI32 2785%Z] (EVal (VI32 0%Z));
        Call "load8_u" [VI32 2984%Z] (EVal (VI32 0%Z));
        Call "load8_u" [VI32 3183%Z] (EVal (VI32 0%Z));
        Call "load8_u" [VI32 3382%Z] (EVal (VI32 0%Z));
        Call "load8_u" [VI32 3581%Z] (EVal (VI32 0%Z));
        Call "load8_u" [VI32 3780%Z] (EVal (VI32 0%Z));
        Call "load8_u" [VI32 3979%Z] (EVal (VI32 0%Z));
        Call "load8_u" [VI32 4178%Z] (EVal (VI32 0%Z));
        Call "load8_u" [VI32 4377%Z] (EVal (VI32 0%Z));
        Call "load8_u" [VI32 4576%Z] (EVal (VI32 0%Z));
        Call "load8_u" [VI32 4775%Z] (EVal (VI32 0%Z));
        Call "load8_u" [VI32 4974%Z] (EVal (VI32 0%Z));
        Call "load8_u" [VI32 5173%Z] (EVal (VI32 0%Z));
        Call "load8_u" [VI32 5372%Z] (EVal (VI32 0%Z));
        Call "load8_u" [VI32 5571%Z] (EVal (VI32 0%Z));
        Call "load8_u" [VI32 5770%Z] (EVal (VI32 0%Z));
        Call "load8_u" [VI32 5969%Z] (EVal (VI32 0%Z));
        Call "load8_u" [VI32 6168%Z] (EVal (VI32 0%Z));
        Call "load8_u" [VI32 6367%Z] (EVal (VI32 0%Z));
        Call "load8_u" [VI32 6566%Z] (EVal (VI32 0%Z));
        Call "load8_u" [VI32 6765%Z] (EVal (VI32 0%Z));
        Call "load8_u" [VI32 6964%Z] (EVal (VI32 0%Z));
        Call "load8_u" [VI32 7163%Z] (EVal (VI32 0%Z));
        Call "load8_u" [VI32 7362%Z] (EVal (VI32 0%Z));
        Call "load8_u" [VI32 7561%Z] (EVal (VI32 0%Z));
        Call "load8_u" [VI32 7760%Z] (EVal (VI32 0%Z));
        Call "load8_u" [VI32 7959%Z] (EVal (VI32 0%Z));
        Call "load8_u" [VI32 8158%Z] (EVal (VI32 0%Z));
        Call "load8_u" [VI32 8357%Z] (EVal (VI32 0%Z));
        Call "load8_u" [VI32 8556%Z] (EVal (VI32 0%Z));
        Call "load8_u" [VI32 8755%Z] (EVal (VI32 0%Z));
        Call "load8_u" [VI32 8954%Z] (EVal (VI32 0%Z));
        Call "load8_u" [VI32 9153%Z] (EVal (VI32 0%Z));
        Call "load8_u" [VI32 9352%Z] (EVal (VI32 0%Z));
        Call "load8_u" [VI32 9551%Z] (EVal (VI32 0%Z));
        Call "load8_u" [VI32 9750%Z] (EVal (VI32 0%Z));
        Call "load8_u" [VI32 9949%Z] (EVal (VI32 0%Z));
        Call "load8_u" [VI32 10148%Z] (EVal (VI32 0%Z));
        Call "load8_u" [VI32 10347%Z] (EVal (VI32 0%Z));
        Call "load8_u" [VI32 10546%Z] (EVal (VI32 0%Z));
        Call "load8_u" [VI32 10745%Z] (EVal (VI32 0%Z));
        Call "load8_u" [VI32 10944%Z] (EVal (VI32 0%Z));
        Call "load8_u" [VI32 11143%Z] (EVal (VI32 0%Z));
        Call "load8_u" [VI32 11342%Z] (EVal (VI32 0%Z));
        Call "load8_u" [VI32 11541%Z] (EVal (VI32 0%Z));
        Call "load8_u" [VI32 11740%Z] (EVal (VI32 0%Z));
        Call "load8_u" [VI32 11939%Z] (EVal (VI32 0%Z));
        Call "load8_u" [VI32 12138%Z] (EVal (VI32 0%Z));
        Call "load8_u" [VI32 12337%Z] (EVal (VI32 0%Z));
        Call "load8_u" [VI32 12536%Z] (EVal (VI32 0%Z));
        Call "load8_u" [VI32 12735%Z] (EVal (VI32 0%Z));
        Call "load8_u" [VI32 12934%Z] (EVal (VI32 0%Z));
        Call "load8_u" [VI32 13133%Z] (EVal (VI32 0%Z));
        Call "load8_u" [VI32 13332%Z] (EVal (VI32 0%Z));
        Call "load8_u" [VI32 13531%Z] (EVal (VI32 0%Z));
        Call "load8_u" [VI32 13730%Z] (EVal (VI32 0%Z));
        Call "load8_u" [VI32 13929%Z] (EVal (VI32 0%Z));
        Call "load8_u" [VI32 14128%Z] (EVal (VI32 0%Z));
        Call "load8_u" [VI32 14327%Z] (EVal (VI32 0%Z));
        Call "load8_u" [VI32 14526%Z] (EVal (VI32 0%Z));
        Call "load8_u" [VI32 14725%Z] (EVal (VI32 0%Z));
        Call "load8_u" [VI32 14924%Z] (EVal (VI32 0%Z));
        Call "load8_u" [VI32 15123%Z] (EVal (VI32 0%Z));
        Call "load8_u" [VI32 15322%Z] (EVal (VI32 0%Z));
        Call "load8_u" [VI32 15521%Z] (EVal (VI32 0%Z));
        Call "load8_u" [VI32 15720%Z] (EVal (VI32 0%Z));
        Call "load8_u" [VI32 15919%Z] (EVal (VI32 0%Z));
        Call "load8_u" [VI32 16118%Z] (EVal (VI32 0%Z));
        Call "load8_u" [VI32 16317%Z] (EVal (VI32 0%Z));
        Call "load8_u" [VI32 16516%Z] (EVal (VI32 0%Z));
        Call "load8_u" [VI32 16715%Z] (EVal (VI32 0%Z));
        Call "load8_u" [VI32 16914%Z] (EVal (VI32 0%Z));
        Call "load8_u" [VI32 17113%Z] (EVal (VI32 0%Z));
        Call "load8_u" [VI32 17312%Z] (EVal (VI32 0%Z));
        Call "load8_u" [VI32 17511%Z] (EVal (VI32 0%Z));
        Call "load8_u" [VI32 17710%Z] (EVal (VI32 0%Z));
        Call "load8_u" [VI32 17909%Z] (EVal (VI32 0%Z));
        Call "load8_u" [VI32 18108%Z] (EVal (VI32 0%Z));
        Call "load8_u" [VI32 18307%Z] (EVal (VI32 0%Z));
        Call "load8_u" [VI32 18506%Z] (EVal (VI32 0%Z));
        Call "load8_u" [VI32 18705%Z] (EVal (VI32 0%Z));
        Call "load8_u" [VI32 18904%Z] (EVal (VI32 0%Z));
        Call "load8_u" [VI32 19103%Z] (EVal (VI32 0%Z));
        Call "load8_u" [VI32 19302%Z] (EVal (VI32 0%Z));
        Call "load8_u" [VI32 19501%Z] (EVal (VI32 0%Z));
        Call "load8_u" [VI32 19700%Z] (EVal (VI32 0%Z));
        Call "load8_u" [VI32 19899%Z] (EVal (VI32 0%Z));
        Call "load8_u" [VI32 20098%Z] (EVal (VI32 0%Z));
        Call "load8_u" [VI32 20297%Z] (EVal (VI32 0%Z));
        Call "load8_u" [VI32 20496%Z] (EVal (VI32 0%Z));
        Call "load8_u" [VI32 20695%Z] (EVal (VI32 0%Z));
        Call "load8_u" [VI32 20894%Z] (EVal (VI32 0%Z));
        Call "load8_u" [VI32 21093%Z] (EVal (VI32 0%Z));
        Call "load8_u" [VI32 21292%Z] (EVal (VI32 0%Z));
        Call "load8_u" [VI32 21491%Z] (EVal (VI32 0%Z));
        Call "load8_u" [VI32 21690%Z] (EVal (VI32 0%Z));
        Call "load8_u" [VI32 21889%Z] (EVal (VI32 0%Z));
        Call "load8_u" [VI32 22088%Z] (EVal (VI32 0%Z));
        Call "load8_u" [VI32 22287%Z] (EVal (VI32 0%Z));
        Call "load8_u" [VI32 22486%Z] (EVal (VI32 0%Z));
        Call "load8_u" [VI32 22685%Z] (EVal (VI32 0%Z));
        Call "load8_u" [VI32 22884%Z] (EVal (VI32 0%Z));
        Call "load8_u" [VI32 23083%Z] (EVal (VI32 0%Z));
        Call "load8_u" [VI32 23282%Z] (EVal (VI32 0%Z));
        Call "load8_u" [VI32 23481%Z] (EVal (VI32 0%Z));
        Call "load8_u" [VI32 23680%Z] (EVal (VI32 0%Z));
        Call "load8_u" [VI32 23879%Z] (EVal (VI32 0%Z));
        Call "load8_u" [VI32 24078%Z] (EVal (VI32 0%Z));
        Call "load8_u" [VI32 24277%Z] (EVal (VI32 0%Z));
        Call "load8_u" [VI32 24476%Z] (EVal (VI32 0%Z));
        Call "load8_u" [VI32 24675%Z] (EVal (VI32 0%Z));
        Call "load8_u" [VI32 24874%Z] (EVal (VI32 0%Z));
        Call "load8_u" [VI32 25073%Z] (EVal (VI32 0%Z));
        Call "load8_u" [VI32 25272%Z] (EVal (VI32 0%Z));
        Call "load8_u" [VI32 25471%Z] (EVal (VI32 0%Z));
        Call "load8_u" [VI32 25670%Z] (EVal (VI32 0%Z));
        Call "load8_u" [VI32 25869%Z] (EVal (VI32 0%Z));
        Call "load8_u" [VI32 26068%Z] (EVal (VI32 0%Z));
        Call "load8_u" [VI32 26267%Z] (EVal (VI32 0%Z));
        Call "load8_u" [VI32 26466%Z] (EVal (VI32 0%Z));
        Call "load8_u" [VI32 26665%Z] (EVal (VI32 0%Z));
        Call "load8_u" [VI32 26864%Z] (EVal (VI32 0%Z));
        Call "load8_u" [VI32 27063%Z] (EVal (VI32 0%Z));
        Call "load8_u" [VI32 27262%Z] (EVal (VI32 0%Z));
        Call "load8_u" [VI32 27461%Z] (EVal (VI32 0%Z));
        Call "load8_u" [VI32 27660%Z] (EVal (VI32 0%Z));
        Call "load8_u" [VI32 27859%Z] (EVal (VI32 0%Z));
        Call "load8_u" [VI32 28058%Z] (EVal (VI32 0%Z));
        Call "load8_u" [VI32 28257%Z] (EVal (VI32 0%Z));
        Call "load8_u" [VI32 28456%Z] (EVal (VI32 0%Z));
        Call "load8_u" [VI32 28655%Z] (EVal (VI32 0%Z));
        Call "load8_u" [VI32 28854%Z] (EVal (VI32 0%Z));
        Call "load8_u" [VI32 29053%Z] (EVal (VI32 0%Z));
        Call "load8_u" [VI32 29252%Z] (EVal (VI32 0%Z));
        Call "load8_u" [VI32 29451%Z] (EVal (VI32 0%Z));
        Call "load8_u" [VI32 29650%Z] (EVal (VI32 0%Z));
        Call "load8_u" [VI32 29849%Z] (EVal (VI32 0%Z));
        Call "load8_u" [VI32 30048%Z] (EVal (VI32 0%Z));
        Call "load8_u" [VI32 30247%Z] (EVal (VI32 0%Z));
        Call "load8_u" [VI32 30446%Z] (EVal (VI32 0%Z));
        Call "load8_u" [VI32 30645%Z] (EVal (VI32 0%Z));
        Call "load8_u" [VI32 30844%Z] (EVal (VI32 0%Z));
        Call "load8_u" [VI32 31043%Z] (EVal (VI32 0%Z));
        Call "load8_u" [VI32 31242%Z] (EVal (VI32 0%Z));
        Call "load8_u" [VI32 31441%Z] (EVal (VI32 0%Z));
        Call "load8_u" [VI32 31640%Z] (EVal (VI32 0%Z));
        Call "load8_u" [VI32 31839%Z] (EVal (VI32 0%Z));
        Call "load8_u" [VI32 32038%Z] (EVal (VI32 0%Z));
        Call "load8_u" [VI32 32237%Z] (EVal (VI32 0%Z));
        Call "load8_u" [VI32 32436%Z] (EVal (VI32 0%Z));
        Call "load8_u" [VI32 32635%Z] (EVal (VI32 0%Z));
        Call "load8_u" [VI32 32834%Z] (EVal (VI32 0%Z));
        Call "load8_u" [VI32 33033%Z] (EVal (VI32 0%Z));
        Call "load8_u" [VI32 33232%Z] (EVal (VI32 0%Z));
        Call "load8_u" [VI32 33431%Z] (EVal (VI32 0%Z));
        Call "load8_u" [VI32 33630%Z] (EVal (VI32 0%Z));
        Call "load8_u" [VI32 33829%Z] (EVal (VI32 0%Z));
        Call "load8_u" [VI32 34028%Z] (EVal (VI32 0%Z));
        Call "load8_u" [VI32 34227%Z] (EVal (VI32 0%Z));
        Call "load8_u" [VI32 34426%Z] (EVal (VI32 0%Z));
        Call "load8_u" [VI32 34625%Z] (EVal (VI32 0%Z));
        Call "load8_u" [VI32 34824%Z] (EVal (VI32 0%Z));
        Call "load8_u" [VI32 35023%Z] (EVal (VI32 0%Z));
        Call "load8_u" [VI32 35222%Z] (EVal (VI32 0%Z));
        Call "load8_u" [VI32 35421%Z] (EVal (VI32 0%Z));
        Call "load8_u" [VI32 35620%Z] (EVal (VI32 0%Z));
        Call "load8_u" [VI32 35819%Z] (EVal (VI32 0%Z));
        Call "load8_u" [VI32 36018%Z] (EVal (VI32 0%Z));
        Call "load8_u" [VI32 36217%Z] (EVal (VI32 0%Z));
        Call "load8_u" [VI32 36416%Z] (EVal (VI32 0%Z));
        Call "load8_u" [VI32 36615%Z] (EVal (VI32 0%Z));
        Call "load8_u" [VI32 36814%Z] (EVal (VI32 0%Z));
        Call "load8_u" [VI32 37013%Z] (EVal (VI32 0%Z));
        Call "load8_u" [VI32 37212%Z] (EVal (VI32 0%Z));
        Call "load8_u" [VI32 37411%Z] (EVal (VI32 0%Z));
        Call "load8_u" [VI32 37610%Z] (EVal (VI32 0%Z));
        Call "load8_u" [VI32 37809%Z] (EVal (VI32 0%Z));
        Call "load8_u" [VI32 38008%Z] (EVal (VI32 0%Z));
        Call "load8_u" [VI32 38207%Z] (EVal (VI32 0%Z));
        Call "load8_u" [VI32 38406%Z] (EVal (VI32 0%Z));
        Call "load8_u" [VI32 38605%Z] (EVal (VI32 0%Z));
        Call "load8_u" [VI32 38804%Z] (EVal (VI32 0%Z));
        Call "load8_u" [VI32 39003%Z] (EVal (VI32 0%Z));
        Call "load8_u" [VI32 39202%Z] (EVal (VI32 0%Z));
        Call "load8_u" [VI32 39401%Z] (EVal (VI32 0%Z));
        Call "load8_u" [VI32 39600%Z] (EVal (VI32 0%Z));
        Call "load8_u" [VI32 39799%Z] (EVal (VI32 0%Z));
        Call "load8_u" [VI32 39998%Z] (EVal (VI32 0%Z));
        Call "load8_u" [VI32 40197%Z] (EVal (VI32 0%Z));
        Call "load8_u" [VI32 40396%Z] (EVal (VI32 0%Z));
        Call "load8_u" [VI32 40595%Z] (EVal (VI32 0%Z));
        Call "load8_u" [VI32 40794%Z] (EVal (VI32 0%Z));
        Call "load8_u" [VI32 40993%Z] (EVal (VI32 0%Z));
        Call "load8_u" [VI32 41192%Z] (EVal (VI32 0%Z));
        Call "load8_u" [VI32 41391%Z] (EVal (VI32 0%Z));
        Call "load8_u" [VI32 41590%Z] (EVal (VI32 0%Z));
        Call "load8_u" [VI32 41789%Z] (EVal (VI32 0%Z));
        Call "load8_u" [VI32 41988%Z] (EVal (VI32 0%Z));
        Call "load8_u" [VI32 42187%Z] (EVal (VI32 0%Z));
        Call "load8_u" [VI32 42386%Z] (EVal (VI32 0%Z));
        Call "load8_u" [VI32 42585%Z] (EVal (VI32 0%Z));
        Call "load8_u" [VI32 42784%Z] (EVal (VI32 0%Z));
        Call "load8_u" [VI32 42983%Z] (EVal (VI32 0%Z));
        Call "load8_u" [VI32 43182%Z] (EVal (VI32 0%Z));
        Call "load8_u" [VI32 43381%Z] (EVal (VI32 0%Z));
        Call "load8_u" [VI32 43580%Z] (EVal (VI32 0%Z));
        Call "load8_u" [VI32 43779%Z] (EVal (VI32 0%Z));
        Call "load8_u" [VI32 43978%Z] (EVal (VI32 0%Z));
        Call "load8_u" [VI32 44177%Z] (EVal (VI32 0%Z));
        Call "load8_u" [VI32 44376%Z] (EVal (VI32 0%Z));
        Call "load8_u" [VI32 44575%Z] (EVal (VI32 0%Z));
        Call "load8_u" [VI32 44774%Z] (EVal (VI32 0%Z));
        Call "load8_u" [VI32 44973%Z] (EVal (VI32 0%Z));
        Call "load8_u" [VI32 45172%Z] (EVal (VI32 0%Z));
        Call "load8_u" [VI32 45371%Z] (EVal (VI32 0%Z));
        Call "load8_u" [VI32 45570%Z] (EVal (VI32 0%Z));
        Call "load8_u" [VI32 45769%Z] (EVal (VI32 0%Z));
        Call "load8_u" [VI32 45968%Z] (EVal (VI32 0%Z));
        Call "load8_u" [VI32 46167%Z] (EVal (VI32 0%Z));
        Call "load8_u" [VI32 46366%Z] (EVal (VI32 0%Z));
        Call "load8_u" [VI32 46565%Z] (EVal (VI32 0%Z));
        Call "load8_u" [VI32 46764%Z] (EVal (VI32 0%Z));
        Call "load8_u" [VI32 46963%Z] (EVal (VI32 0%Z));
        Call "load8_u" [VI32 47162%Z] (EVal (VI32 0%Z));
        Call "load8_u" [VI32 47361%Z] (EVal (VI32 0%Z));
        Call "load8_u" [VI32 47560%Z] (EVal (VI32 0%Z));
        Call "load8_u" [VI32 47759%Z] (EVal (VI32 0%Z));
        Call "load8_u" [VI32 47958%Z] (EVal (VI32 0%Z));
        Call "load8_u" [VI32 48157%Z] (EVal (VI32 0%Z));
        Call "load8_u" [VI32 48356%Z] (EVal (VI32 0%Z));
        Call "load8_u" [VI32 48555%Z] (EVal (VI32 0%Z));
        Call "load8_u" [VI32 48754%Z] (EVal (VI32 0%Z));
        Call "load8_u" [VI32 48953%Z] (EVal (VI32 0%Z));
        Call "load8_u" [VI32 49152%Z] (EVal (VI32 0%Z));
        Call "load8_u" [VI32 49351%Z] (EVal (VI32 0%Z));
        Call "load8_u" [VI32 49550%Z] (EVal (VI32 0%Z));
        Call "load8_u" [VI32 49749%Z] (EVal (VI32 0%Z));
        Call "load8_u" [VI32 49948%Z] (EVal (VI32 0%Z));
        Call "load8_u" [VI32 50147%Z] (EVal (VI32 0%Z));
        Call "load8_u" [VI32 50346%Z] (EVal (VI32 0%Z));
        Call "load8_u" [VI32 50545%Z] (EVal (VI32 0%Z));
        Call "load8_u" [VI32 50744%Z] (EVal (VI32 0%Z));
        Call "load8_u" [VI32 50943%Z] (EVal (VI32 0%Z));
        Call "load8_u" [VI32 51142%Z] (EVal (VI32 0%Z));
        Call "load8_u" [VI32 51341%Z] (EVal (VI32 0%Z));
        Call "load8_u" [VI32 51540%Z] (EVal (VI32 0%Z));
        Call "load8_u" [VI32 51739%Z] (EVal (VI32 0%Z));
        Call "load8_u" [VI32 51938%Z] (EVal (VI32 0%Z));
        Call "load8_u" [VI32 52137%Z] (EVal (VI32 0%Z));
        Call "load8_u" [VI32 52336%Z] (EVal (VI32 0%Z));
        Call "load8_u" [VI32 52535%Z] (EVal (VI32 0%Z));
        Call "load8_u" [VI32 52734%Z] (EVal (VI32 0%Z));
        Call "load8_u" [VI32 52933%Z] (EVal (VI32 0%Z));
        Call "load8_u" [VI32 53132%Z] (EVal (VI32 0%Z));
        Call "load8_u" [VI32 53331%Z] (EVal (VI32 0%Z));
        Call "load8_u" [VI32 53530%Z] (EVal (VI32 0%Z));
        Call "load8_u" [VI32 53729%Z] (EVal (VI32 0%Z));
        Call "load8_u" [VI32 53928%Z] (EVal (VI32 0%Z));
        Call "load8_u" [VI32 54127%Z] (EVal (VI32 0%Z));
        Call "load8_u" [VI32 54326%Z] (EVal (VI32 0%Z));
        Call "load8_u" [VI32 54525%Z] (EVal (VI32 0%Z));
        Call "load8_u" [VI32 54724%Z] (EVal (VI32 0%Z));
        Call "load8_u" [VI32 54923%Z] (EVal (VI32 0%Z));
        Call "load8_u" [VI32 55122%Z] (EVal (VI32 0%Z));
        Call "load8_u" [VI32 55321%Z] (EVal (VI32 0%Z));
        Call "load8_u" [VI32 55520%Z] (EVal (VI32 0%Z));
        Call "load8_u" [VI32 55719%Z] (EVal (VI32 0%Z));
        Call "load8_u" [VI32 55918%Z] (EVal (VI32 0%Z));
        Call "load8_u" [VI32 56117%Z] (EVal (VI32 0%Z));
        Call "load8_u" [VI32 56316%Z] (EVal (VI32 0%Z));
        Call "load8_u" [VI32 56515%Z] (EVal (VI32 0%Z));
        Call "load8_u" [VI32 56714%Z] (EVal (VI32 0%Z));
        Call "load8_u" [VI32 56913%Z] (EVal (VI32 0%Z));
        Call "load8_u" [VI32 57112%Z] (EVal (VI32 0%Z));
        Call "load8_u" [VI32 57311%Z] (EVal (VI32 0%Z));
        Call "load8_u" [VI32 57510%Z] (EVal (VI32 0%Z));
        Call "load8_u" [VI32 57709%Z] (EVal (VI32 0%Z));
        Call "load8_u" [VI32 57908%Z] (EVal (VI32 0%Z));
        Call "load8_u" [VI32 58107%Z] (EVal (VI32 0%Z));
        Call "load8_u" [VI32 58306%Z] (EVal (VI32 0%Z));
        Call "load8_u" [VI32 58505%Z] (EVal (VI32 0%Z));
        Call "load8_u" [VI32 58704%Z] (EVal (VI32 0%Z));
        Call "load8_u" [VI32 58903%Z] (EVal (VI32 0%Z));
        Call "load8_u" [VI32 59102%Z] (EVal (VI32 0%Z));
        Call "load8_u" [VI32 59301%Z] (EVal (VI32 0%Z));
        Call "load8_u" [VI32 59500%Z] (EVal (VI32 0%Z));
        Call "load8_u" [VI32 59699%Z] (EVal (VI32 0%Z));
        Call "load8_u" [VI32 59898%Z] (EVal (VI32 0%Z));
        Call "load8_u" [VI32 60097%Z] (EVal (VI32 0%Z));
        Call "load8_u" [VI32 60296%Z] (EVal (VI32 0%Z));
        Call "load8_u" [VI32 60495%Z] (EVal (VI32 0%Z));
        Call "load8_u" [VI32 60694%Z] (EVal (VI32 0%Z));
        Call "load8_u" [VI32 60893%Z] (EVal (VI32 0%Z));
        Call "load8_u" [VI32 61092%Z] (EVal (VI32 0%Z));
        Call "load8_u" [VI32 61291%Z] (EVal (VI32 0%Z));
        Call "load8_u" [VI32 61490%Z] (EVal (VI32 0%Z));
        Call "load8_u" [VI32 61689%Z] (EVal (VI32 0%Z));
        Call "load8_u" [VI32 61888%Z] (EVal (VI32 0%Z));
        Call "load8_u" [VI32 62087%Z] (EVal (VI32 0%Z));
        Call "load8_u" [VI32 62286%Z] (EVal (VI32 0%Z));
        Call "load8_u" [VI32 62485%Z] (EVal (VI32 0%Z));
        Call "load8_u" [VI32 62684%Z] (EVal (VI32 0%Z));
        Call "load8_u" [VI32 62883%Z] (EVal (VI32 0%Z));
        Call "load8_u" [VI32 63082%Z] (EVal (VI32 0%Z));
        Call "load8_u" [VI32 63281%Z] (EVal (VI32 0%Z));
        Call "load8_u" [VI32 63480%Z] (EVal (VI32 0%Z));
        Call "load8_u" [VI32 63679%Z] (EVal (VI32 0%Z));
        Call "load8_u" [VI32 63878%Z] (EVal (VI32 0%Z));
        Call "load8_u" [VI32 64077%Z] (EVal (VI32 0%Z));
        Call "load8_u" [VI32 64276%Z] (EVal (VI32 0%Z));
        Call "load8_u" [VI32 64475%Z] (EVal (VI32 0%Z));
        Call "load8_u" [VI32 64674%Z] (EVal (VI32 0%Z));
        Call "load8_u" [VI32 64873%Z] (EVal (VI32 0%Z));
        Call "load8_u" [VI32 65072%Z] (EVal (VI32 0%Z));
        Call "load8_u" [VI32 65271%Z] (EVal (VI32 0%Z));
        Call "load8_u" [VI32 65470%Z] (EVal (VI32 0%Z));
        Call "load8_u" [VI32 65515%Z] (EVal (VI32 0%Z));
        Call "load8_u" [VI32 65516%Z] (EVal (VI32 1%Z));
        Call "load8_u" [VI32 65517%Z] (EVal (VI32 2%Z));
        Call "load8_u" [VI32 65518%Z] (EVal (VI32 3%Z));
        Call "load8_u" [VI32 65519%Z] (EVal (VI32 4%Z));
        Call "load8_u" [VI32 65520%Z] (EVal (VI32 5%Z));
        Call "load8_u" [VI32 65521%Z] (EVal (VI32 6%Z));
        Call "load8_u" [VI32 65522%Z] (EVal (VI32 7%Z));
        Call "load8_u" [VI32 65523%Z] (EVal (VI32 8%Z));
        Call "load8_u" [VI32 65524%Z] (EVal (VI32 9%Z));
        Call "load8_u" [VI32 65525%Z] (EVal (VI32 10%Z));
        Call "load8_u" [VI32 65526%Z] (EVal (VI32 11%Z));
        Call "load8_u" [VI32 65527%Z] (EVal (VI32 12%Z));
        Call "load8_u" [VI32 65528%Z] (EVal (VI32 13%Z));
        Call "load8_u" [VI32 65529%Z] (EVal (VI32 14%Z));
        Call "load8_u" [VI32 65530%Z] (EVal (VI32 15%Z));
        Call "load8_u" [VI32 65531%Z] (EVal (VI32 16%Z));
        Call "load8_u" [VI32 65532%Z] (EVal (VI32 17%Z));
        Call "load8_u" [VI32 65533%Z] (EVal (VI32 18%Z));
        Call "load8_u" [VI32 65534%Z] (EVal (VI32 19%Z));
        Call "load8_u" [VI32 65535%Z] (EVal (VI32 20%Z)) ];
    T "test_memory_copy13" w_memorycopy_13
      [ Call "load8_u" [VI32 198%Z] (EVal (VI32 0%Z));
        Call "load8_u" [VI32 397%Z] (EVal (VI32 0%Z));
        Call "load8_u" [VI32 596%Z] (EVal (VI32 0%Z));
        Call "load8_u" [VI32 795%Z] (EVal (VI32 0%Z));
        Call "load8_u" [VI32 994%Z] (EVal (VI32 0%Z));
        Call "load8_u" [VI32 1193%Z] (EVal (VI32 0%Z));
        Call "load8_u" [VI32 1392%Z] (EVal (VI32 0%Z));
        Call "load8_u" [VI32 1591%Z] (EVal (VI32 0%Z));
        Call "load8_u" [VI32 1790%Z] (EVal (VI32 0%Z));
        Call "load8_u" [VI32 1989%Z] (EVal (VI32 0%Z));
        Call "load8_u" [VI32 2188%Z] (EVal (VI32 0%Z));
        Call "load8_u" [VI32 2387%Z] (EVal (VI32 0%Z));
        Call "load8_u" [VI32 2586%Z] (EVal (VI32 0%Z));
        Call "load8_u" [VI32 2785%Z] (EVal (VI32 0%Z));
        Call "load8_u" [VI32 2984%Z] (EVal (VI32 0%Z));
        Call "load8_u" [VI32 3183%Z] (EVal (VI32 0%Z));
        Call "load8_u" [VI32 3382%Z] (EVal (VI32 0%Z));
        Call "load8_u" [VI32 3581%Z] (EVal (VI32 0%Z));
        Call "load8_u" [VI32 3780%Z] (EVal (VI32 0%Z));
        Call "load8_u" [VI32 3979%Z] (EVal (VI32 0%Z));
        Call "load8_u" [VI32 4178%Z] (EVal (VI32 0%Z));
        Call "load8_u" [VI32 4377%Z] (EVal (VI32 0%Z));
        Call "load8_u" [VI32 4576%Z] (EVal (VI32 0%Z));
        Call "load8_u" [VI32 4775%Z] (EVal (VI32 0%Z));
        Call "load8_u" [VI32 4974%Z] (EVal (VI32 0%Z));
        Call "load8_u" [VI32 5173%Z] (EVal (VI32 0%Z));
        Call "load8_u" [VI32 5372%Z] (EVal (VI32 0%Z));
        Call "load8_u" [VI32 5571%Z] (EVal (VI32 0%Z));
        Call "load8_u" [VI32 5770%Z] (EVal (VI32 0%Z));
        Call "load8_u" [VI32 5969%Z] (EVal (VI32 0%Z));
        Call "load8_u" [VI32 6168%Z] (EVal (VI32 0%Z));
        Call "load8_u" [VI32 6367%Z] (EVal (VI32 0%Z));
        Call "load8_u" [VI32 6566%Z] (EVal (VI32 0%Z));
        Call "load8_u" [VI32 6765%Z] (EVal (VI32 0%Z));
        Call "load8_u" [VI32 6964%Z] (EVal (VI32 0%Z));
        Call "load8_u" [VI32 7163%Z] (EVal (VI32 0%Z));
        Call "load8_u" [VI32 7362%Z] (EVal (VI32 0%Z));
        Call "load8_u" [VI32 7561%Z] (EVal (VI32 0%Z));
        Call "load8_u" [VI32 7760%Z] (EVal (VI32 0%Z));
        Call "load8_u" [VI32 7959%Z] (EVal (VI32 0%Z));
        Call "load8_u" [VI32 8158%Z] (EVal (VI32 0%Z));
        Call "load8_u" [VI32 8357%Z] (EVal (VI32 0%Z));
        Call "load8_u" [VI32 8556%Z] (EVal (VI32 0%Z));
        Call "load8_u" [VI32 8755%Z] (EVal (VI32 0%Z));
        Call "load8_u" [VI32 8954%Z] (EVal (VI32 0%Z));
        Call "load8_u" [VI32 9153%Z] (EVal (VI32 0%Z));
        Call "load8_u" [VI32 9352%Z] (EVal (VI32 0%Z));
        Call "load8_u" [VI32 9551%Z] (EVal (VI32 0%Z));
        Call "load8_u" [VI32 9750%Z] (EVal (VI32 0%Z));
        Call "load8_u" [VI32 9949%Z] (EVal (VI32 0%Z));
        Call "load8_u" [VI32 10148%Z] (EVal (VI32 0%Z));
        Call "load8_u" [VI32 10347%Z] (EVal (VI32 0%Z));
        Call "load8_u" [VI32 10546%Z] (EVal (VI32 0%Z));
        Call "load8_u" [VI32 10745%Z] (EVal (VI32 0%Z));
        Call "load8_u" [VI32 10944%Z] (EVal (VI32 0%Z));
        Call "load8_u" [VI32 11143%Z] (EVal (VI32 0%Z));
        Call "load8_u" [VI32 11342%Z] (EVal (VI32 0%Z));
        Call "load8_u" [VI32 11541%Z] (EVal (VI32 0%Z));
        Call "load8_u" [VI32 11740%Z] (EVal (VI32 0%Z));
        Call "load8_u" [VI32 11939%Z] (EVal (VI32 0%Z));
        Call "load8_u" [VI32 12138%Z] (EVal (VI32 0%Z));
        Call "load8_u" [VI32 12337%Z] (EVal (VI32 0%Z));
        Call "load8_u" [VI32 12536%Z] (EVal (VI32 0%Z));
        Call "load8_u" [VI32 12735%Z] (EVal (VI32 0%Z));
        Call "load8_u" [VI32 12934%Z] (EVal (VI32 0%Z));
        Call "load8_u" [VI32 13133%Z] (EVal (VI32 0%Z));
        Call "load8_u" [VI32 13332%Z] (EVal (VI32 0%Z));
        Call "load8_u" [VI32 13531%Z] (EVal (VI32 0%Z));
        Call "load8_u" [VI32 13730%Z] (EVal (VI32 0%Z));
        Call "load8_u" [VI32 13929%Z] (EVal (VI32 0%Z));
        Call "load8_u" [VI32 14128%Z] (EVal (VI32 0%Z));
        Call "load8_u" [VI32 14327%Z] (EVal (VI32 0%Z));
        Call "load8_u" [VI32 14526%Z] (EVal (VI32 0%Z));
        Call "load8_u" [VI32 14725%Z] (EVal (VI32 0%Z));
        Call "load8_u" [VI32 14924%Z] (EVal (VI32 0%Z));
        Call "load8_u" [VI32 15123%Z] (EVal (VI32 0%Z));
        Call "load8_u" [VI32 15322%Z] (EVal (VI32 0%Z));
        Call "load8_u" [VI32 15521%Z] (EVal (VI32 0%Z));
        Call "load8_u" [VI32 15720%Z] (EVal (VI32 0%Z));
        Call "load8_u" [VI32 15919%Z] (EVal (VI32 0%Z));
        Call "load8_u" [VI32 16118%Z] (EVal (VI32 0%Z));
        Call "load8_u" [VI32 16317%Z] (EVal (VI32 0%Z));
        Call "load8_u" [VI32 16516%Z] (EVal (VI32 0%Z));
        Call "load8_u" [VI32 16715%Z] (EVal (VI32 0%Z));
        Call "load8_u" [VI32 16914%Z] (EVal (VI32 0%Z));
        Call "load8_u" [VI32 17113%Z] (EVal (VI32 0%Z));
        Call "load8_u" [VI32 17312%Z] (EVal (VI32 0%Z));
        Call "load8_u" [VI32 17511%Z] (EVal (VI32 0%Z));
        Call "load8_u" [VI32 17710%Z] (EVal (VI32 0%Z));
        Call "load8_u" [VI32 17909%Z] (EVal (VI32 0%Z));
        Call "load8_u" [VI32 18108%Z] (EVal (VI32 0%Z));
        Call "load8_u" [VI32 18307%Z] (EVal (VI32 0%Z));
        Call "load8_u" [VI32 18506%Z] (EVal (VI32 0%Z));
        Call "load8_u" [VI32 18705%Z] (EVal (VI32 0%Z));
        Call "load8_u" [VI32 18904%Z] (EVal (VI32 0%Z));
        Call "load8_u" [VI32 19103%Z] (EVal (VI32 0%Z));
        Call "load8_u" [VI32 19302%Z] (EVal (VI32 0%Z));
        Call "load8_u" [VI32 19501%Z] (EVal (VI32 0%Z));
        Call "load8_u" [VI32 19700%Z] (EVal (VI32 0%Z));
        Call "load8_u" [VI32 19899%Z] (EVal (VI32 0%Z));
        Call "load8_u" [VI32 20098%Z] (EVal (VI32 0%Z));
        Call "load8_u" [VI32 20297%Z] (EVal (VI32 0%Z));
        Call "load8_u" [VI32 20496%Z] (EVal (VI32 0%Z));
        Call "load8_u" [VI32 20695%Z] (EVal (VI32 0%Z));
        Call "load8_u" [VI32 20894%Z] (EVal (VI32 0%Z));
        Call "load8_u" [VI32 21093%Z] (EVal (VI32 0%Z));
        Call "load8_u" [VI32 21292%Z] (EVal (VI32 0%Z));
        Call "load8_u" [VI32 21491%Z] (EVal (VI32 0%Z));
        Call "load8_u" [VI32 21690%Z] (EVal (VI32 0%Z));
        Call "load8_u" [VI32 21889%Z] (EVal (VI32 0%Z));
        Call "load8_u" [VI32 22088%Z] (EVal (VI32 0%Z));
        Call "load8_u" [VI32 22287%Z] (EVal (VI32 0%Z));
        Call "load8_u" [VI32 22486%Z] (EVal (VI32 0%Z));
        Call "load8_u" [VI32 22685%Z] (EVal (VI32 0%Z));
        Call "load8_u" [VI32 22884%Z] (EVal (VI32 0%Z));
        Call "load8_u" [VI32 23083%Z] (EVal (VI32 0%Z));
        Call "load8_u" [VI32 23282%Z] (EVal (VI32 0%Z));
        Call "load8_u" [VI32 23481%Z] (EVal (VI32 0%Z));
        Call "load8_u" [VI32 23680%Z] (EVal (VI32 0%Z));
        Call "load8_u" [VI32 23879%Z] (EVal (VI32 0%Z));
        Call "load8_u" [VI32 24078%Z] (EVal (VI32 0%Z));
        Call "load8_u" [VI32 24277%Z] (EVal (VI32 0%Z));
        Call "load8_u" [VI32 24476%Z] (EVal (VI32 0%Z));
        Call "load8_u" [VI32 24675%Z] (EVal (VI32 0%Z));
        Call "load8_u" [VI32 24874%Z] (EVal (VI32 0%Z));
        Call "load8_u" [VI32 25073%Z] (EVal (VI32 0%Z));
        Call "load8_u" [VI32 25272%Z] (EVal (VI32 0%Z));
        Call "load8_u" [VI32 25471%Z] (EVal (VI32 0%Z));
        Call "load8_u" [VI32 25670%Z] (EVal (VI32 0%Z));
        Call "load8_u" [VI32 25869%Z] (EVal (VI32 0%Z));
        Call "load8_u" [VI32 26068%Z] (EVal (VI32 0%Z));
        Call "load8_u" [VI32 26267%Z] (EVal (VI32 0%Z));
        Call "load8_u" [VI32 26466%Z] (EVal (VI32 0%Z));
        Call "load8_u" [VI32 26665%Z] (EVal (VI32 0%Z));
        Call "load8_u" [VI32 26864%Z] (EVal (VI32 0%Z));
        Call "load8_u" [VI32 27063%Z] (EVal (VI32 0%Z));
        Call "load8_u" [VI32 27262%Z] (EVal (VI32 0%Z));
        Call "load8_u" [VI32 27461%Z] (EVal (VI32 0%Z));
        Call "load8_u" [VI32 27660%Z] (EVal (VI32 0%Z));
        Call "load8_u" [VI32 27859%Z] (EVal (VI32 0%Z));
        Call "load8_u" [VI32 28058%Z] (EVal (VI32 0%Z));
        Call "load8_u" [VI32 28257%Z] (EVal (VI32 0%Z));
        Call "load8_u" [VI32 28456%Z] (EVal (VI32 0%Z));
        Call "load8_u" [VI32 28655%Z] (EVal (VI32 0%Z));
        Call "load8_u" [VI32 28854%Z] (EVal (VI32 0%Z));
        Call "load8_u" [VI32 29053%Z] (EVal (VI32 0%Z));
        Call "load8_u" [VI32 29252%Z] (EVal (VI32 0%Z));
        Call "load8_u" [VI32 29451%Z] (EVal (VI32 0%Z));
        Call "load8_u" [VI32 29650%Z] (EVal (VI32 0%Z));
        Call "load8_u" [VI32 29849%Z] (EVal (VI32 0%Z));
        Call "load8_u" [VI32 30048%Z] (EVal (VI32 0%Z));
        Call "load8_u" [VI32 30247%Z] (EVal (VI32 0%Z));
        Call "load8_u" [VI32 30446%Z] (EVal (VI32 0%Z));
        Call "load8_u" [VI32 30645%Z] (EVal (VI32 0%Z));
        Call "load8_u" [VI32 30844%Z] (EVal (VI32 0%Z));
        Call "load8_u" [VI32 31043%Z] (EVal (VI32 0%Z));
        Call "load8_u" [VI32 31242%Z] (EVal (VI32 0%Z));
        Call "load8_u" [VI32 31441%Z] (EVal (VI32 0%Z));
        Call "load8_u" [VI32 31640%Z] (EVal (VI32 0%Z));
        Call "load8_u" [VI32 31839%Z] (EVal (VI32 0%Z));
        Call "load8_u" [VI32 32038%Z] (EVal (VI32 0%Z));
        Call "load8_u" [VI32 32237%Z] (EVal (VI32 0%Z));
        Call "load8_u" [VI32 32436%Z] (EVal (VI32 0%Z));
        Call "load8_u" [VI32 32635%Z] (EVal (VI32 0%Z));
        Call "load8_u" [VI32 32834%Z] (EVal (VI32 0%Z));
        Call "load8_u" [VI32 33033%Z] (EVal (VI32 0%Z));
        Call "load8_u" [VI32 33232%Z] (EVal (VI32 0%Z));
        Call "load8_u" [VI32 33431%Z] (EVal (VI32 0%Z));
        Call "load8_u" [VI32 33630%Z] (EVal (VI32 0%Z));
        Call "load8_u" [VI32 33829%Z] (EVal (VI32 0%Z));
        Call "load8_u" [VI32 34028%Z] (EVal (VI32 0%Z));
        Call "load8_u" [VI32 34227%Z] (EVal (VI32 0%Z));
        Call "load8_u" [VI32 34426%Z] (EVal (VI32 0%Z));
        Call "load8_u" [VI32 34625%Z] (EVal (VI32 0%Z));
        Call "load8_u" [VI32 34824%Z] (EVal (VI32 0%Z));
        Call "load8_u" [VI32 35023%Z] (EVal (VI32 0%Z));
        Call "load8_u" [VI32 35222%Z] (EVal (VI32 0%Z));
        Call "load8_u" [VI32 35421%Z] (EVal (VI32 0%Z));
        Call "load8_u" [VI32 35620%Z] (EVal (VI32 0%Z));
        Call "load8_u" [VI32 35819%Z] (EVal (VI32 0%Z));
        Call "load8_u" [VI32 36018%Z] (EVal (VI32 0%Z));
        Call "load8_u" [VI32 36217%Z] (EVal (VI32 0%Z));
        Call "load8_u" [VI32 36416%Z] (EVal (VI32 0%Z));
        Call "load8_u" [VI32 36615%Z] (EVal (VI32 0%Z));
        Call "load8_u" [VI32 36814%Z] (EVal (VI32 0%Z));
        Call "load8_u" [VI32 37013%Z] (EVal (VI32 0%Z));
        Call "load8_u" [VI32 37212%Z] (EVal (VI32 0%Z));
        Call "load8_u" [VI32 37411%Z] (EVal (VI32 0%Z));
        Call "load8_u" [VI32 37610%Z] (EVal (VI32 0%Z));
        Call "load8_u" [VI32 37809%Z] (EVal (VI32 0%Z));
        Call "load8_u" [VI32 38008%Z] (EVal (VI32 0%Z));
        Call "load8_u" [VI32 38207%Z] (EVal (VI32 0%Z));
        Call "load8_u" [VI32 38406%Z] (EVal (VI32 0%Z));
        Call "load8_u" [VI32 38605%Z] (EVal (VI32 0%Z));
        Call "load8_u" [VI32 38804%Z] (EVal (VI32 0%Z));
        Call "load8_u" [VI32 39003%Z] (EVal (VI32 0%Z));
        Call "load8_u" [VI32 39202%Z] (EVal (VI32 0%Z));
        Call "load8_u" [VI32 39401%Z] (EVal (VI32 0%Z));
        Call "load8_u" [VI32 39600%Z] (EVal (VI32 0%Z));
        Call "load8_u" [VI32 39799%Z] (EVal (VI32 0%Z));
        Call "load8_u" [VI32 39998%Z] (EVal (VI32 0%Z));
        Call "load8_u" [VI32 40197%Z] (EVal (VI32 0%Z));
        Call "load8_u" [VI32 40396%Z] (EVal (VI32 0%Z));
        Call "load8_u" [VI32 40595%Z] (EVal (VI32 0%Z));
        Call "load8_u" [VI32 40794%Z] (EVal (VI32 0%Z));
        Call "load8_u" [VI32 40993%Z] (EVal (VI32 0%Z));
        Call "load8_u" [VI32 41192%Z] (EVal (VI32 0%Z));
        Call "load8_u" [VI32 41391%Z] (EVal (VI32 0%Z));
        Call "load8_u" [VI32 41590%Z] (EVal (VI32 0%Z));
        Call "load8_u" [VI32 41789%Z] (EVal (VI32 0%Z));
        Call "load8_u" [VI32 41988%Z] (EVal (VI32 0%Z));
        Call "load8_u" [VI32 42187%Z] (EVal (VI32 0%Z));
        Call "load8_u" [VI32 42386%Z] (EVal (VI32 0%Z));
        Call "load8_u" [VI32 42585%Z] (EVal (VI32 0%Z));
        Call "load8_u" [VI32 42784%Z] (EVal (VI32 0%Z));
        Call "load8_u" [VI32 42983%Z] (EVal (VI32 0%Z));
        Call "load8_u" [VI32 43182%Z] (EVal (VI32 0%Z));
        Call "load8_u" [VI32 43381%Z] (EVal (VI32 0%Z));
        Call "load8_u" [VI32 43580%Z] (EVal (VI32 0%Z));
        Call "load8_u" [VI32 43779%Z] (EVal (VI32 0%Z));
        Call "load8_u" [VI32 43978%Z] (EVal (VI32 0%Z));
        Call "load8_u" [VI32 44177%Z] (EVal (VI32 0%Z));
        Call "load8_u" [VI32 44376%Z] (EVal (VI32 0%Z));
        Call "load8_u" [VI32 44575%Z] (EVal (VI32 0%Z));
        Call "load8_u" [VI32 44774%Z] (EVal (VI32 0%Z));
        Call "load8_u" [VI32 44973%Z] (EVal (VI32 0%Z));
        Call "load8_u" [VI32 45172%Z] (EVal (VI32 0%Z));
        Call "load8_u" [VI32 45371%Z] (EVal (VI32 0%Z));
        Call "load8_u" [VI32 45570%Z] (EVal (VI32 0%Z));
        Call "load8_u" [VI32 45769%Z] (EVal (VI32 0%Z));
        Call "load8_u" [VI32 45968%Z] (EVal (VI32 0%Z));
        Call "load8_u" [VI32 46167%Z] (EVal (VI32 0%Z));
        Call "load8_u" [VI32 46366%Z] (EVal (VI32 0%Z));
        Call "load8_u" [VI32 46565%Z] (EVal (VI32 0%Z));
        Call "load8_u" [VI32 46764%Z] (EVal (VI32 0%Z));
        Call "load8_u" [VI32 46963%Z] (EVal (VI32 0%Z));
        Call "load8_u" [VI32 47162%Z] (EVal (VI32 0%Z));
        Call "load8_u" [VI32 47361%Z] (EVal (VI32 0%Z));
        Call "load8_u" [VI32 47560%Z] (EVal (VI32 0%Z));
        Call "load8_u" [VI32 47759%Z] (EVal (VI32 0%Z));
        Call "load8_u" [VI32 47958%Z] (EVal (VI32 0%Z));
        Call "load8_u" [VI32 48157%Z] (EVal (VI32 0%Z));
        Call "load8_u" [VI32 48356%Z] (EVal (VI32 0%Z));
        Call "load8_u" [VI32 48555%Z] (EVal (VI32 0%Z));
        Call "load8_u" [VI32 48754%Z] (EVal (VI32 0%Z));
        Call "load8_u" [VI32 48953%Z] (EVal (VI32 0%Z));
        Call "load8_u" [VI32 49152%Z] (EVal (VI32 0%Z));
        Call "load8_u" [VI32 49351%Z] (EVal (VI32 0%Z));
        Call "load8_u" [VI32 49550%Z] (EVal (VI32 0%Z));
        Call "load8_u" [VI32 49749%Z] (EVal (VI32 0%Z));
        Call "load8_u" [VI32 49948%Z] (EVal (VI32 0%Z));
        Call "load8_u" [VI32 50147%Z] (EVal (VI32 0%Z));
        Call "load8_u" [VI32 50346%Z] (EVal (VI32 0%Z));
        Call "load8_u" [VI32 50545%Z] (EVal (VI32 0%Z));
        Call "load8_u" [VI32 50744%Z] (EVal (VI32 0%Z));
        Call "load8_u" [VI32 50943%Z] (EVal (VI32 0%Z));
        Call "load8_u" [VI32 51142%Z] (EVal (VI32 0%Z));
        Call "load8_u" [VI32 51341%Z] (EVal (VI32 0%Z));
        Call "load8_u" [VI32 51540%Z] (EVal (VI32 0%Z));
        Call "load8_u" [VI32 51739%Z] (EVal (VI32 0%Z));
        Call "load8_u" [VI32 51938%Z] (EVal (VI32 0%Z));
        Call "load8_u" [VI32 52137%Z] (EVal (VI32 0%Z));
        Call "load8_u" [VI32 52336%Z] (EVal (VI32 0%Z));
        Call "load8_u" [VI32 52535%Z] (EVal (VI32 0%Z));
        Call "load8_u" [VI32 52734%Z] (EVal (VI32 0%Z));
        Call "load8_u" [VI32 52933%Z] (EVal (VI32 0%Z));
        Call "load8_u" [VI32 53132%Z] (EVal (VI32 0%Z));
        Call "load8_u" [VI32 53331%Z] (EVal (VI32 0%Z));
        Call "load8_u" [VI32 53530%Z] (EVal (VI32 0%Z));
        Call "load8_u" [VI32 53729%Z] (EVal (VI32 0%Z));
        Call "load8_u" [VI32 53928%Z] (EVal (VI32 0%Z));
        Call "load8_u" [VI32 54127%Z] (EVal (VI32 0%Z));
        Call "load8_u" [VI32 54326%Z] (EVal (VI32 0%Z));
        Call "load8_u" [VI32 54525%Z] (EVal (VI32 0%Z));
        Call "load8_u" [VI32 54724%Z] (EVal (VI32 0%Z));
        Call "load8_u" [VI32 54923%Z] (EVal (VI32 0%Z));
        Call "load8_u" [VI32 55122%Z] (EVal (VI32 0%Z));
        Call "load8_u" [VI32 55321%Z] (EVal (VI32 0%Z));
        Call "load8_u" [VI32 55520%Z] (EVal (VI32 0%Z));
        Call "load8_u" [VI32 55719%Z] (EVal (VI32 0%Z));
        Call "load8_u" [VI32 55918%Z] (EVal (VI32 0%Z));
        Call "load8_u" [VI32 56117%Z] (EVal (VI32 0%Z));
        Call "load8_u" [VI32 56316%Z] (EVal (VI32 0%Z));
        Call "load8_u" [VI32 56515%Z] (EVal (VI32 0%Z));
        Call "load8_u" [VI32 56714%Z] (EVal (VI32 0%Z));
        Call "load8_u" [VI32 56913%Z] (EVal (VI32 0%Z));
        Call "load8_u" [VI32 57112%Z] (EVal (VI32 0%Z));
        Call "load8_u" [VI32 57311%Z] (EVal (VI32 0%Z));
        Call "load8_u" [VI32 57510%Z] (EVal (VI32 0%Z));
        Call "load8_u" [VI32 57709%Z] (EVal (VI32 0%Z));
        Call "load8_u" [VI32 57908%Z] (EVal (VI32 0%Z));
        Call "load8_u" [VI32 58107%Z] (EVal (VI32 0%Z));
        Call "load8_u" [VI32 58306%Z] (EVal (VI32 0%Z));
        Call "load8_u" [VI32 58505%Z] (EVal (VI32 0%Z));
        Call "load8_u" [VI32 58704%Z] (EVal (VI32 0%Z));
        Call "load8_u" [VI32 58903%Z] (EVal (VI32 0%Z));
        Call "load8_u" [VI32 59102%Z] (EVal (VI32 0%Z));
        Call "load8_u" [VI32 59301%Z] (EVal (VI32 0%Z));
        Call "load8_u" [VI32 59500%Z] (EVal (VI32 0%Z));
        Call "load8_u" [VI32 59699%Z] (EVal (VI32 0%Z));
        Call "load8_u" [VI32 59898%Z] (EVal (VI32 0%Z));
        Call "load8_u" [VI32 60097%Z] (EVal (VI32 0%Z));
        Call "load8_u" [VI32 60296%Z] (EVal (VI32 0%Z));
        Call "load8_u" [VI32 60495%Z] (EVal (VI32 0%Z));
        Call "load8_u" [VI32 60694%Z] (EVal (VI32 0%Z));
        Call "load8_u" [VI32 60893%Z] (EVal (VI32 0%Z));
        Call "load8_u" [VI32 61092%Z] (EVal (VI32 0%Z));
        Call "load8_u" [VI32 61291%Z] (EVal (VI32 0%Z));
        Call "load8_u" [VI32 61440%Z] (EVal (VI32 0%Z));
        Call "load8_u" [VI32 61441%Z] (EVal (VI32 1%Z));
        Call "load8_u" [VI32 61442%Z] (EVal (VI32 2%Z));
        Call "load8_u" [VI32 61443%Z] (EVal (VI32 3%Z));
        Call "load8_u" [VI32 61444%Z] (EVal (VI32 4%Z));
        Call "load8_u" [VI32 61445%Z] (EVal (VI32 5%Z));
        Call "load8_u" [VI32 61446%Z] (EVal (VI32 6%Z));
        Call "load8_u" [VI32 61447%Z] (EVal (VI32 7%Z));
        Call "load8_u" [VI32 61448%Z] (EVal (VI32 8%Z));
        Call "load8_u" [VI32 61449%Z] (EVal (VI32 9%Z));
        Call "load8_u" [VI32 61450%Z] (EVal (VI32 10%Z));
        Call "load8_u" [VI32 61451%Z] (EVal (VI32 11%Z));
        Call "load8_u" [VI32 61452%Z] (EVal (VI32 12%Z));
        Call "load8_u" [VI32 61453%Z] (EVal (VI32 13%Z));
        Call "load8_u" [VI32 61454%Z] (EVal (VI32 14%Z));
        Call "load8_u" [VI32 61455%Z] (EVal (VI32 15%Z));
        Call "load8_u" [VI32 61456%Z] (EVal (VI32 16%Z));
        Call "load8_u" [VI32 61457%Z] (EVal (VI32 17%Z));
        Call "load8_u" [VI32 61458%Z] (EVal (VI32 18%Z));
        Call "load8_u" [VI32 61459%Z] (EVal (VI32 19%Z));
        Call "load8_u" [VI32 61510%Z] (EVal (VI32 0%Z));
        Call "load8_u" [VI32 61709%Z] (EVal (VI32 0%Z));
        Call "load8_u" [VI32 61908%Z] (EVal (VI32 0%Z));
        Call "load8_u" [VI32 62107%Z] (EVal (VI32 0%Z));
        Call "load8_u" [VI32 62306%Z] (EVal (VI32 0%Z));
        Call "load8_u" [VI32 62505%Z] (EVal (VI32 0%Z));
        Call "load8_u" [VI32 62704%Z] (EVal (VI32 0%Z));
        Call "load8_u" [VI32 62903%Z] (EVal (VI32 0%Z));
        Call "load8_u" [VI32 63102%Z] (EVal (VI32 0%Z));
        Call "load8_u" [VI32 63301%Z] (EVal (VI32 0%Z));
        Call "load8_u" [VI32 63500%Z] (EVal (VI32 0%Z));
        Call "load8_u" [VI32 63699%Z] (EVal (VI32 0%Z));
        Call "load8_u" [VI32 63898%Z] (EVal (VI32 0%Z));
        Call "load8_u" [VI32 64097%Z] (EVal (VI32 0%Z));
        Call "load8_u" [VI32 64296%Z] (EVal (VI32 0%Z));
        Call "load8_u" [VI32 64495%Z] (EVal (VI32 0%Z));
        Call "load8_u" [VI32 64694%Z] (EVal (VI32 0%Z));
        Call "load8_u" [VI32 64893%Z] (EVal (VI32 0%Z));
        Call "load8_u" [VI32 65092%Z] (EVal (VI32 0%Z));
        Call "load8_u" [VI32 65291%Z] (EVal (VI32 0%Z));
        Call "load8_u" [VI32 65490%Z] (EVal (VI32 0%Z)) ] ].
Definition t_memoryfill : list test :=
  [ T "test_memory_fill1" w_memoryfill_1
      [ Call "test" [] (EAny) ];
    T "test_memory_fill2" w_memoryfill_2
      [ Call "test" [] (EAny) ];
    T "test_memory_fill3" w_memoryfill_3
      [ Call "test" [] (EAny);
        Call "checkRange" [VI32 0%Z; VI32 1%Z; VI32 0%Z] (EVal (VI32 (-1)%Z)) ];
    T "test_memory_fill4" w_memoryfill_4
      [ Call "test" [] (EAny);
        Call "checkRange" [VI32 0%Z; VI32 18%Z; VI32 0%Z] (EVal (VI32 (-1)%Z));
        Call "checkRange" [VI32 18%Z; VI32 21%Z; VI32 85%Z] (EVal (VI32 (-1)%Z));
        Call "checkRange" [VI32 21%Z; VI32 25%Z; VI32 170%Z] (EVal (VI32 (-1)%Z));
        Call "checkRange" [VI32 25%Z; VI32 28%Z; VI32 85%Z] (EVal (VI32 (-1)%Z)) ];
    T "test_memory_fill5" w_memoryfill_5
      [ Call "test" [] (EAny);
        Call "checkRange" [VI32 0%Z; VI32 1%Z; VI32 0%Z] (EVal (VI32 (-1)%Z)) ];
    T "test_memory_fill6" w_memoryfill_6
      [ Call "test" [] (EAny);
        Call "checkRange" [VI32 0%Z; VI32 1%Z; VI32 0%Z] (EVal (VI32 (-1)%Z)) ];
    T "test_memory_fill7" w_memoryfill_7
      [ Call "test" [] (EAny);
        Call "checkRange" [VI32 0%Z; VI32 1%Z; VI32 0%Z] (EVal (VI32 (-1)%Z)) ] ].
Definition t_memoryinit : list test :=
  [ T "test_memory_init1" w_memoryinit_1
      [ Call "test" [] (EAny);
        Call "load8_u" [VI32 0%Z] (EVal (VI32 0%Z));
        Call "load8_u" [VI32 1%Z] (EVal (VI32 0%Z));
        Call "load8_u" [VI32 2%Z] (EVal (VI32 3%Z));
        Call "load8_u" [VI32 3%Z] (EVal (VI32 1%Z));
        Call "load8_u" [VI32 4%Z] (EVal (VI32 4%Z));
        Call "load8_u" [VI32 5%Z] (EVal (VI32 1%Z));
        Call "load8_u" [VI32 6%Z] (EVal (VI32 0%Z));
        Call "load8_u" [VI32 7%Z] (EVal (VI32 0%Z));
        Call "load8_u" [VI32 8%Z] (EVal (VI32 0%Z));
        Call "load8_u" [VI32 9%Z] (EVal (VI32 0%Z));
        Call "load8_u" [VI32 10%Z] (EVal (VI32 0%Z));
        Call "load8_u" [VI32 11%Z] (EVal (VI32 0%Z));
        Call "load8_u" [VI32 12%Z] (EVal (VI32 7%Z));
        Call "load8_u" [VI32 13%Z] (EVal (VI32 5%Z));
        Call "load8_u" [VI32 14%Z] (EVal (VI32 2%Z));
        Call "load8_u" [VI32 15%Z] (EVal (VI32 3%Z));
        Call "load8_u" [VI32 16%Z] (EVal (VI32 6%Z));
        Call "load8_u" [VI32 17%Z] (EVal (VI32 0%Z));
        Call "load8_u" [VI32 18%Z] (EVal (VI32 0%Z));
        Call "load8_u" [VI32 19%Z] (EVal (VI32 0%Z));
        Call "load8_u" [VI32 20%Z] (EVal (VI32 0%Z));
        Call "load8_u" [VI32 21%Z] (EVal (VI32 0%Z));
        Call "load8_u" [VI32 22%Z] (EVal (VI32 0%Z));
        Call "load8_u" [VI32 23%Z] (EVal (VI32 0%Z));
        Call "load8_u" [VI32 24%Z] (EVal (VI32 0%Z));
        Call "load8_u" [VI32 25%Z] (EVal (VI32 0%Z));
        Call "load8_u" [VI32 26%Z] (EVal (VI32 0%Z));
        Call "load8_u" [VI32 27%Z] (EVal (VI32 0%Z));
        Call "load8_u" [VI32 28%Z] (EVal (VI32 0%Z));
        Call "load8_u" [VI32 29%Z] (EVal (VI32 0%Z)) ];
    T "test_memory_init2" w_memoryinit_2
      [ Call "test" [] (EAny);
        Call "load8_u" [VI32 0%Z] (EVal (VI32 0%Z));
        Call "load8_u" [VI32 1%Z] (EVal (VI32 0%Z));
        Call "load8_u" [VI32 2%Z] (EVal (VI32 3%Z));
        Call "load8_u" [VI32 3%Z] (EVal (VI32 1%Z));
        Call "load8_u" [VI32 4%Z] (EVal (VI32 4%Z));
        Call "load8_u" [VI32 5%Z] (EVal (VI32 1%Z));
        Call "load8_u" [VI32 6%Z] (EVal (VI32 0%Z));
        Call "load8_u" [VI32 7%Z] (EVal (VI32 2%Z));
        Call "load8_u" [VI32 8%Z] (EVal (VI32 7%Z));
        Call "load8_u" [VI32 9%Z] (EVal (VI32 1%Z));
        Call "load8_u" [VI32 10%Z] (EVal (VI32 8%Z));
        Call "load8_u" [VI32 11%Z] (EVal (VI32 0%Z));
        Call "load8_u" [VI32 12%Z] (EVal (VI32 7%Z));
        Call "load8_u" [VI32 13%Z] (EVal (VI32 5%Z));
        Call "load8_u" [VI32 14%Z] (EVal (VI32 2%Z));
        Call "load8_u" [VI32 15%Z] (EVal (VI32 3%Z));
        Call "load8_u" [VI32 16%Z] (EVal (VI32 6%Z));
        Call "load8_u" [VI32 17%Z] (EVal (VI32 0%Z));
        Call "load8_u" [VI32 18%Z] (EVal (VI32 0%Z));
        Call "load8_u" [VI32 19%Z] (EVal (VI32 0%Z));
        Call "load8_u" [VI32 20%Z] (EVal (VI32 0%Z));
        Call "load8_u" [VI32 21%Z] (EVal (VI32 0%Z));
        Call "load8_u" [VI32 22%Z] (EVal (VI32 0%Z));
        Call "load8_u" [VI32 23%Z] (EVal (VI32 0%Z));
        Call "load8_u" [VI32 24%Z] (EVal (VI32 0%Z));
        Call "load8_u" [VI32 25%Z] (EVal (VI32 0%Z));
        Call "load8_u" [VI32 26%Z] (EVal (VI32 0%Z));
        Call "load8_u" [VI32 27%Z] (EVal (VI32 0%Z));
        Call "load8_u" [VI32 28%Z] (EVal (VI32 0%Z));
        Call "load8_u" [VI32 29%Z] (EVal (VI32 0%Z)) ];
    T "test_memory_init3" w_memoryinit_3
      [ Call "test" [] (EAny);
        Call "load8_u" [VI32 0%Z] (EVal (VI32 0%Z));
        Call "load8_u" [VI32 1%Z] (EVal (VI32 0%Z));
        Call "load8_u" [VI32 2%Z] (EVal (VI32 3%Z));
        Call "load8_u" [VI32 3%Z] (EVal (VI32 1%Z));
        Call "load8_u" [VI32 4%Z] (EVal (VI32 4%Z));
        Call "load8_u" [VI32 5%Z] (EVal (VI32 1%Z));
        Call "load8_u" [VI32 6%Z] (EVal (VI32 0%Z));
        Call "load8_u" [VI32 7%Z] (EVal (VI32 0%Z));
        Call "load8_u" [VI32 8%Z] (EVal (VI32 0%Z));
        Call "load8_u" [VI32 9%Z] (EVal (VI32 0%Z));
        Call "load8_u" [VI32 10%Z] (EVal (VI32 0%Z));
        Call "load8_u" [VI32 11%Z] (EVal (VI32 0%Z));
        Call "load8_u" [VI32 12%Z] (EVal (VI32 7%Z));
        Call "load8_u" [VI32 13%Z] (EVal (VI32 5%Z));
        Call "load8_u" [VI32 14%Z] (EVal (VI32 2%Z));
        Call "load8_u" [VI32 15%Z] (EVal (VI32 9%Z));
        Call "load8_u" [VI32 16%Z] (EVal (VI32 2%Z));
        Call "load8_u" [VI32 17%Z] (EVal (VI32 7%Z));
        Call "load8_u" [VI32 18%Z] (EVal (VI32 0%Z));
        Call "load8_u" [VI32 19%Z] (EVal (VI32 0%Z));
        Call "load8_u" [VI32 20%Z] (EVal (VI32 0%Z));
        Call "load8_u" [VI32 21%Z] (EVal (VI32 0%Z));
        Call "load8_u" [VI32 22%Z] (EVal (VI32 0%Z));
        Call "load8_u" [VI32 23%Z] (EVal (VI32 0%Z));
        Call "load8_u" [VI32 24%Z] (EVal (VI32 0%Z));
        Call "load8_u" [VI32 25%Z] (EVal (VI32 0%Z));
        Call "load8_u" [VI32 26%Z] (EVal (VI32 0%Z));
        Call "load8_u" [VI32 27%Z] (EVal (VI32 0%Z));
        Call "load8_u" [VI32 28%Z] (EVal (VI32 0%Z));
        Call "load8_u" [VI32 29%Z] (EVal (VI32 0%Z)) ];
    T "test_memory_init4" w_memoryinit_4
      [ Call "test" [] (EAny);
        Call "load8_u" [VI32 0%Z] (EVal (VI32 0%Z));
        Call "load8_u" [VI32 1%Z] (EVal (VI32 0%Z));
        Call "load8_u" [VI32 2%Z] (EVal (VI32 3%Z));
        Call "load8_u" [VI32 3%Z] (EVal (VI32 1%Z));
        Call "load8_u" [VI32 4%Z] (EVal (VI32 4%Z));
        Call "load8_u" [VI32 5%Z] (EVal (VI32 1%Z));
        Call "load8_u" [VI32 6%Z] (EVal (VI32 0%Z));
        Call "load8_u" [VI32 7%Z] (EVal (VI32 2%Z));
        Call "load8_u" [VI32 8%Z] (EVal (VI32 7%Z));
        Call "load8_u" [VI32 9%Z] (EVal (VI32 1%Z));
        Call "load8_u" [VI32 10%Z] (EVal (VI32 8%Z));
        Call "load8_u" [VI32 11%Z] (EVal (VI32 0%Z));
        Call "load8_u" [VI32 12%Z] (EVal (VI32 7%Z));
        Call "load8_u" [VI32 13%Z] (EVal (VI32 0%Z));
        Call "load8_u" [VI32 14%Z] (EVal (VI32 7%Z));
        Call "load8_u" [VI32 15%Z] (EVal (VI32 5%Z));
        Call "load8_u" [VI32 16%Z] (EVal (VI32 2%Z));
        Call "load8_u" [VI32 17%Z] (EVal (VI32 7%Z));
        Call "load8_u" [VI32 18%Z] (EVal (VI32 0%Z));
        Call "load8_u" [VI32 19%Z] (EVal (VI32 9%Z));
        Call "load8_u" [VI32 20%Z] (EVal (VI32 0%Z));
        Call "load8_u" [VI32 21%Z] (EVal (VI32 7%Z));
        Call "load8_u" [VI32 22%Z] (EVal (VI32 0%Z));
        Call "load8_u" [VI32 23%Z] (EVal (VI32 8%Z));
        Call "load8_u" [VI32 24%Z] (EVal (VI32 8%Z));
        Call "load8_u" [VI32 25%Z] (EVal (VI32 0%Z));
        Call "load8_u" [VI32 26%Z] (EVal (VI32 0%Z));
        Call "load8_u" [VI32 27%Z] (EVal (VI32 0%Z));
        Call "load8_u" [VI32 28%Z] (EVal (VI32 0%Z));
        Call "load8_u" [VI32 29%Z] (EVal (VI32 0%Z)) ];
    T "test_memory_init5" w_memoryinit_5
      [ Call "checkRange" [VI32 0%Z; VI32 1%Z; VI32 0%Z] (EVal (VI32 (-1)%Z)) ];
    T "test_memory_init6" w_memoryinit_6
      [ Call "checkRange" [VI32 0%Z; VI32 1%Z; VI32 0%Z] (EVal (VI32 (-1)%Z)) ];
    T "test_memory_init7" w_memoryinit_7
      [ Call "checkRange" [VI32 0%Z; VI32 1%Z; VI32 0%Z] (EVal (VI32 (-1)%Z)) ];
    T "test_memory_init8" w_memoryinit_8
      [ Call "checkRange" [VI32 0%Z; VI32 1%Z; VI32 0%Z] (EVal (VI32 (-1)%Z)) ];
    T "test_memory_init9" w_memoryinit_9
      [ Call "checkRange" [VI32 0%Z; VI32 1%Z; VI32 0%Z] (EVal (VI32 (-1)%Z)) ];
    T "test_memory_init10" w_memoryinit_10
      [ Call "checkRange" [VI32 0%Z; VI32 1%Z; VI32 0%Z] (EVal (VI32 (-1)%Z)) ] ].
Definition t_memorysize : list test :=
  [ T "test_memorysize_1" w_memorysize_1
      [ Call "size" [] (EVal (VI32 0%Z));
        Call "grow" [VI32 1%Z] (EOk);
        Call "size" [] (EVal (VI32 1%Z));
        Call "grow" [VI32 4%Z] (EOk);
        Call "size" [] (EVal (VI32 5%Z));
        Call "grow" [VI32 0%Z] (EOk);
        Call "size" [] (EVal (VI32 5%Z)) ];
    T "test_memorysize_2" w_memorysize_2
      [ Call "size" [] (EVal (VI32 1%Z));
        Call "grow" [VI32 1%Z] (EOk);
        Call "size" [] (EVal (VI32 2%Z));
        Call "grow" [VI32 4%Z] (EOk);
        Call "size" [] (EVal (VI32 6%Z));
        Call "grow" [VI32 0%Z] (EOk);
        Call "size" [] (EVal (VI32 6%Z)) ];
    T "test_memorysize_3" w_memorysize_3
      [ Call "size" [] (EVal (VI32 0%Z));
        Call "grow" [VI32 3%Z] (EOk);
        Call "size" [] (EVal (VI32 0%Z));
        Call "grow" [VI32 1%Z] (EOk);
        Call "size" [] (EVal (VI32 1%Z));
        Call "grow" [VI32 0%Z] (EOk);
        Call "size" [] (EVal (VI32 1%Z));
        Call "grow" [VI32 4%Z] (EOk);
        Call "size" [] (EVal (VI32 1%Z));
        Call "grow" [VI32 1%Z] (EOk);
        Call "size" [] (EVal (VI32 2%Z)) ];
    T "test_memorysize_4" w_memorysize_4
      [ Call "size" [] (EVal (VI32 3%Z));
        Call "grow" [VI32 1%Z] (EOk);
        Call "size" [] (EVal (VI32 4%Z));
        Call "grow" [VI32 3%Z] (EOk);
        Call "size" [] (EVal (VI32 7%Z));
        Call "grow" [VI32 0%Z] (EOk);
        Call "size" [] (EVal (VI32 7%Z));
        Call "grow" [VI32 2%Z] (EOk);
        Call "size" [] (EVal (VI32 7%Z));
        Call "grow" [VI32 1%Z] (EOk);
        Call "size" [] (EVal (VI32 8%Z)) ] ].
Definition t_ref_is_null : list test :=
  [ T "test_funcref_null" w_ref_is_null
      [ Call "funcref" [VRef RNull] (EVal (VI32 1%Z)) ];
    T "test_externref_null" w_ref_is_null
      [ Call "externref" [VRef RNull] (EVal (VI32 1%Z)) ];
    T "test_funcref_elem_null" w_ref_is_null
      [ Call "funcref-elem" [VI32 0%Z] (EVal (VI32 1%Z)) ];
    T "test_externref_elem_null" w_ref_is_null
      [ Call "externref-elem" [VI32 0%Z] (EVal (VI32 1%Z)) ];
    T "test_funcref_elem_non_null" w_ref_is_null
      [ Call "funcref-elem" [VI32 1%Z] (EVal (VI32 0%Z)) ] ].
Definition t_ref_null : list test :=
  [ T "test_externref" w_ref_null
      [ Call "externref" [] (EVal (VRef RNull)) ];
    T "test_funcref" w_ref_null
      [ Call "funcref" [] (EVal (VRef RNull)) ] ].
Definition t_select : list test :=
  [ T "test_select_i32_spec" w_select
      [ Call "select-i32" [VI32 1%Z; VI32 2%Z; VI32 1%Z] (EVal (VI32 1%Z));
        Call "select-i32" [VI32 1%Z; VI32 2%Z; VI32 0%Z] (EVal (VI32 2%Z));
        Call "select-i32" [VI32 2%Z; VI32 1%Z; VI32 0%Z] (EVal (VI32 1%Z)) ];
    T "test_select_i64_spec" w_select
      [ Call "select-i64" [VI64 2%Z; VI64 1%Z; VI32 1%Z] (EVal (VI64 2%Z));
        Call "select-i64" [VI64 2%Z; VI64 1%Z; VI32 (-1)%Z] (EVal (VI64 2%Z));
        Call "select-i64" [VI64 2%Z; VI64 1%Z; VI32 (-252645136)%Z] (EVal (VI64 2%Z)) ];
    T "test_select_f32_spec" w_select
      [ Call "select-f32" [VF32 1065353216%Z; VF32 1073741824%Z; VI32 1%Z] (EFeq (VF32 1065353216%Z));
        Call "select-f32" [VF32 2143289344%Z; VF32 1065353216%Z; VI32 1%Z] (ENan);
        Call "select-f32" [VF32 2143421188%Z; VF32 1065353216%Z; VI32 1%Z] (ENan);
        Call "select-f32" [VF32 2143289344%Z; VF32 1065353216%Z; VI32 0%Z] (EFeq (VF32 1065353216%Z));
        Call "select-f32" [VF32 2143421188%Z; VF32 1065353216%Z; VI32 0%Z] (EFeq (VF32 1065353216%Z));
        Call "select-f32" [VF32 1073741824%Z; VF32 2143289344%Z; VI32 1%Z] (EFeq (VF32 1073741824%Z));
        Call "select-f32" [VF32 1073741824%Z; VF32 2143421188%Z; VI32 1%Z] (EFeq (VF32 1073741824%Z));
        Call "select-f32" [VF32 1073741824%Z; VF32 2143289344%Z; VI32 0%Z] (ENan);
        Call "select-f32" [VF32 1073741824%Z; VF32 2143421188%Z; VI32 0%Z] (ENan) ];
    T "test_select_f64_spec" w_select
      [ Call "select-f64" [VF64 4607182418800017408%Z; VF64 4611686018427387904%Z; VI32 1%Z] (EFeq (VF64 4607182418800017408%Z));
        Call "select-f64" [VF64 9221120237041090560%Z; VF64 4607182418800017408%Z; VI32 1%Z] (ENan);
        Call "select-f64" [VF64 9221190614425796608%Z; VF64 4607182418800017408%Z; VI32 1%Z] (ENan);
        Call "select-f64" [VF64 9221120237041090560%Z; VF64 4607182418800017408%Z; VI32 0%Z] (EFeq (VF64 4607182418800017408%Z));
        Call "select-f64" [VF64 9221190614425796608%Z; VF64 4607182418800017408%Z; VI32 0%Z] (EFeq (VF64 4607182418800017408%Z));
        Call "select-f64" [VF64 4611686018427387904%Z; VF64 9221120237041090560%Z; VI32 1%Z] (EFeq (VF64 4611686018427387904%Z));
        Call "select-f64" [VF64 4611686018427387904%Z; VF64 9221190614425796608%Z; VI32 1%Z] (EFeq (VF64 4611686018427387904%Z));
        Call "select-f64" [VF64 4611686018427387904%Z; VF64 9221120237041090560%Z; VI32 0%Z] (ENan);
        Call "select-f64" [VF64 4611686018427387904%Z; VF64 9221190614425796608%Z; VI32 0%Z] (ENan) ];
    T "test_select_typed_spec" w_select
      [ Call "select-i32-t" [VI32 1%Z; VI32 2%Z; VI32 1%Z] (EVal (VI32 1%Z));
        Call "select-i32-t" [VI32 1%Z; VI32 2%Z; VI32 0%Z] (EVal (VI32 2%Z));
        Call "select-i32-t" [VI32 2%Z; VI32 1%Z; VI32 0%Z] (EVal (VI32 1%Z));
        Call "select-i64-t" [VI64 2%Z; VI64 1%Z; VI32 1%Z] (EVal (VI64 2%Z));
        Call "select-i64-t" [VI64 2%Z; VI64 1%Z; VI32 (-1)%Z] (EVal (VI64 2%Z));
        Call "select-i64-t" [VI64 2%Z; VI64 1%Z; VI32 (-252645136)%Z] (EVal (VI64 2%Z));
        Call "select-f32-t" [VF32 2143289344%Z; VF32 1065353216%Z; VI32 1%Z] (ENan);
        Call "select-f32-t" [VF32 2143421188%Z; VF32 1065353216%Z; VI32 1%Z] (ENan);
        Call "select-f32-t" [VF32 2143289344%Z; VF32 1065353216%Z; VI32 0%Z] (EFeq (VF32 1065353216%Z));
        Call "select-f32-t" [VF32 2143421188%Z; VF32 1065353216%Z; VI32 0%Z] (EFeq (VF32 1065353216%Z));
        Call "select-f32-t" [VF32 1073741824%Z; VF32 2143289344%Z; VI32 1%Z] (EFeq (VF32 1073741824%Z));
        Call "select-f32-t" [VF32 1073741824%Z; VF32 2143421188%Z; VI32 1%Z] (EFeq (VF32 1073741824%Z));
        Call "select-f32-t" [VF32 1073741824%Z; VF32 2143289344%Z; VI32 0%Z] (ENan);
        Call "select-f32-t" [VF32 1073741824%Z; VF32 2143421188%Z; VI32 0%Z] (ENan);
        Call "select-f64-t" [VF64 9221120237041090560%Z; VF64 4607182418800017408%Z; VI32 1%Z] (ENan);
        Call "select-f64-t" [VF64 9221190614425796608%Z; VF64 4607182418800017408%Z; VI32 1%Z] (ENan);
        Call "select-f64-t" [VF64 9221120237041090560%Z; VF64 4607182418800017408%Z; VI32 0%Z] (EFeq (VF64 4607182418800017408%Z));
        Call "select-f64-t" [VF64 9221190614425796608%Z; VF64 4607182418800017408%Z; VI32 0%Z] (EFeq (VF64 4607182418800017408%Z));
        Call "select-f64-t" [VF64 4611686018427387904%Z; VF64 9221120237041090560%Z; VI32 1%Z] (EFeq (VF64 4611686018427387904%Z));
        Call "select-f64-t" [VF64 4611686018427387904%Z; VF64 9221190614425796608%Z; VI32 1%Z] (EFeq (VF64 4611686018427387904%Z));
        Call "select-f64-t" [VF64 4611686018427387904%Z; VF64 9221120237041090560%Z; VI32 0%Z] (ENan);
        Call "select-f64-t" [VF64 4611686018427387904%Z; VF64 9221190614425796608%Z; VI32 0%Z] (ENan) ];
    T "test_as_select_first_spec" w_select
      [ Call "as-select-first" [VI32 0%Z] (EVal (VI32 1%Z));
        Call "as-select-first" [VI32 1%Z] (EVal (VI32 0%Z)) ];
    T "test_as_select_mid_spec" w_select
      [ Call "as-select-mid" [VI32 0%Z] (EVal (VI32 2%Z));
        Call "as-select-mid" [VI32 1%Z] (EVal (VI32 2%Z)) ];
    T "test_as_select_last_spec" w_select
      [ Call "as-select-last" [VI32 0%Z] (EVal (VI32 2%Z));
        Call "as-select-last" [VI32 1%Z] (EVal (VI32 3%Z)) ];
    T "test_as_loop_first_spec" w_select
      [ Call "as-loop-first" [VI32 0%Z] (EVal (VI32 3%Z));
        Call "as-loop-first" [VI32 1%Z] (EVal (VI32 2%Z)) ];
    T "test_as_loop_mid_spec" w_select
      [ Call "as-loop-mid" [VI32 0%Z] (EVal (VI32 3%Z));
        Call "as-loop-mid" [VI32 1%Z] (EVal (VI32 2%Z)) ];
    T "test_as_loop_last_spec" w_select
      [ Call "as-loop-last" [VI32 0%Z] (EVal (VI32 3%Z));
        Call "as-loop-last" [VI32 1%Z] (EVal (VI32 2%Z)) ];
    T "test_as_if_condition_spec" w_select
      [ Call "as-if-condition" [VI32 0%Z] (ENone);
        Call "as-if-condition" [VI32 1%Z] (ENone) ];
    T "test_as_if_then_spec" w_select
      [ Call "as-if-then" [VI32 0%Z] (EVal (VI32 3%Z));
        Call "as-if-then" [VI32 1%Z] (EVal (VI32 2%Z)) ];
    T "test_as_if_else_spec" w_select
      [ Call "as-if-else" [VI32 0%Z] (EVal (VI32 3%Z));
        Call "as-if-else" [VI32 1%Z] (EVal (VI32 2%Z)) ];
    T "test_as_br_if_first_spec" w_select
      [ Call "as-br_if-first" [VI32 0%Z] (EVal (VI32 3%Z));
        Call "as-br_if-first" [VI32 1%Z] (EVal (VI32 2%Z)) ];
    T "test_as_br_if_last_spec" w_select
      [ Call "as-br_if-last" [VI32 0%Z] (EVal (VI32 2%Z));
        Call "as-br_if-last" [VI32 1%Z] (EVal (VI32 2%Z)) ];
    T "test_as_br_table_first_spec" w_select
      [ Call "as-br_table-first" [VI32 0%Z] (EVal (VI32 3%Z));
        Call "as-br_table-first" [VI32 1%Z] (EVal (VI32 2%Z)) ];
    T "test_as_br_table_last_spec" w_select
      [ Call "as-br_table-last" [VI32 0%Z] (EVal (VI32 2%Z));
        Call "as-br_table-last" [VI32 1%Z] (EVal (VI32 2%Z)) ];
    T "test_as_call_indirect_first_spec" w_select
      [ Call "as-call_indirect-first" [VI32 0%Z] (EVal (VI32 3%Z));
        Call "as-call_indirect-first" [VI32 1%Z] (EVal (VI32 2%Z)) ];
    T "test_as_call_indirect_mid_spec" w_select
      [ Call "as-call_indirect-mid" [VI32 0%Z] (EVal (VI32 1%Z));
        Call "as-call_indirect-mid" [VI32 1%Z] (EVal (VI32 1%Z)) ];
    T "test_as_store_and_load_spec" w_select
      [ Call "as-store-first" [VI32 0%Z] (EOk);
        Call "as-store-first" [VI32 1%Z] (EOk);
        Call "as-store-last" [VI32 0%Z] (EOk);
        Call "as-store-last" [VI32 1%Z] (EOk);
        Call "as-load-operand" [VI32 0%Z] (EVal (VI32 1%Z));
        Call "as-load-operand" [VI32 1%Z] (EVal (VI32 1%Z)) ];
    T "test_as_memory_grow_value_spec" w_select
      [ Call "as-memory.grow-value" [VI32 0%Z] (EVal (VI32 1%Z));
        Call "as-memory.grow-value" [VI32 1%Z] (EVal (VI32 3%Z)) ];
    T "test_as_call_value_spec" w_select
      [ Call "as-call-value" [VI32 0%Z] (EVal (VI32 2%Z));
        Call "as-call-value" [VI32 1%Z] (EVal (VI32 1%Z)) ];
    T "test_as_return_value_spec" w_select
      [ Call "as-return-value" [VI32 0%Z] (EVal (VI32 2%Z));
        Call "as-return-value" [VI32 1%Z] (EVal (VI32 1%Z)) ];
    T "test_as_drop_operand_spec" w_select
      [ Call "as-drop-operand" [VI32 0%Z] (EOk);
        Call "as-drop-operand" [VI32 1%Z] (EOk) ];
    T "test_as_br_value_spec" w_select
      [ Call "as-br-value" [VI32 0%Z] (EVal (VI32 2%Z));
        Call "as-br-value" [VI32 1%Z] (EVal (VI32 1%Z)) ];
    T "test_as_local_set_value_spec" w_select
      [ Call "as-local.set-value" [VI32 0%Z] (EVal (VI32 2%Z));
        Call "as-local.set-value" [VI32 1%Z] (EVal (VI32 1%Z)) ];
    T "test_as_local_tee_value_spec" w_select
      [ Call "as-local.tee-value" [VI32 0%Z] (EVal (VI32 2%Z));
        Call "as-local.tee-value" [VI32 1%Z] (EVal (VI32 1%Z)) ];
    T "test_as_global_set_value_spec" w_select
      [ Call "as-global.set-value" [VI32 0%Z] (EVal (VI32 2%Z));
        Call "as-global.set-value" [VI32 1%Z] (EVal (VI32 1%Z)) ];
    T "test_as_unary_operand_spec" w_select
      [ Call "as-unary-operand" [VI32 0%Z] (EVal (VI32 0%Z));
        Call "as-unary-operand" [VI32 1%Z] (EVal (VI32 1%Z)) ];
    T "test_as_binary_operand_spec" w_select
      [ Call "as-binary-operand" [VI32 0%Z] (EVal (VI32 4%Z));
        Call "as-binary-operand" [VI32 1%Z] (EVal (VI32 1%Z)) ];
    T "test_as_test_operand_spec" w_select
      [ Call "as-test-operand" [VI32 0%Z] (EVal (VI32 0%Z));
        Call "as-test-operand" [VI32 1%Z] (EVal (VI32 1%Z)) ];
    T "test_as_compare_operand_spec" w_select
      [ Call "as-compare-left" [VI32 0%Z] (EVal (VI32 0%Z));
        Call "as-compare-left" [VI32 1%Z] (EVal (VI32 1%Z));
        Call "as-compare-right" [VI32 0%Z] (EVal (VI32 0%Z));
        Call "as-compare-right" [VI32 1%Z] (EVal (VI32 1%Z)) ];
    T "test_as_convert_operand_spec" w_select
      [ Call "as-convert-operand" [VI32 0%Z] (EVal (VI32 0%Z));
        Call "as-convert-operand" [VI32 1%Z] (EVal (VI32 1%Z)) ] ].
Definition t_stack : list test :=
  [ T "test_fac_expr_25" w_stack
      [ Call "fac-expr" [VI64 25%Z] (EVal (VI64 7034535277573963776%Z)) ];
    T "test_fac_stack_25" w_stack
      [ Call "fac-stack" [VI64 25%Z] (EVal (VI64 7034535277573963776%Z)) ];
    T "test_fac_mixed_25" w_stack
      [ Call "fac-mixed" [VI64 25%Z] (EVal (VI64 7034535277573963776%Z)) ];
    T "test_not_quite_a_tree_first" w_stack
      [ Call "not-quite-a-tree" [] (EVal (VI32 3%Z)) ];
    T "test_not_quite_a_tree_second" w_stack
      [ Call "not-quite-a-tree" [] (EVal (VI32 3%Z));
        Call "not-quite-a-tree" [] (EVal (VI32 9%Z)) ] ].
Definition t_store : list test :=
  [ T "test_store_operations" w_store
      [ Call "as-block-value" [] (ENone);
        Call "as-loop-value" [] (ENone);
        Call "as-br-value" [] (ENone);
        Call "as-br_if-value" [] (ENone);
        Call "as-br_if-value-cond" [] (ENone);
        Call "as-br_table-value" [] (ENone);
        Call "as-return-value" [] (ENone);
        Call "as-if-then" [] (ENone);
        Call "as-if-else" [] (ENone) ] ].
Definition t_switch : list test :=
  [ T "test_switch_stmt" w_switch
      [ Call "stmt" [VI32 0%Z] (EVal (VI32 0%Z));
        Call "stmt" [VI32 1%Z] (EVal (VI32 (-1)%Z));
        Call "stmt" [VI32 2%Z] (EVal (VI32 (-2)%Z));
        Call "stmt" [VI32 3%Z] (EVal (VI32 (-3)%Z));
        Call "stmt" [VI32 4%Z] (EVal (VI32 100%Z));
        Call "stmt" [VI32 5%Z] (EVal (VI32 101%Z));
        Call "stmt" [VI32 6%Z] (EVal (VI32 102%Z));
        Call "stmt" [VI32 7%Z] (EVal (VI32 100%Z));
        Call "stmt" [VI32 (-10)%Z] (EVal (VI32 102%Z)) ];
    T "test_switch_expr" w_switch
      [ Call "expr" [VI64 0%Z] (EVal (VI64 0%Z));
        Call "expr" [VI64 1%Z] (EVal (VI64 (-1)%Z));
        Call "expr" [VI64 2%Z] (EVal (VI64 (-2)%Z));
        Call "expr" [VI64 3%Z] (EVal (VI64 (-3)%Z));
        Call "expr" [VI64 6%Z] (EVal (VI64 101%Z));
        Call "expr" [VI64 7%Z] (EVal (VI64 (-5)%Z));
        Call "expr" [VI64 (-10)%Z] (EVal (VI64 100%Z)) ];
    T "test_switch_arg" w_switch
      [ Call "arg" [VI32 0%Z] (EVal (VI32 110%Z));
        Call "arg" [VI32 1%Z] (EVal (VI32 12%Z));
        Call "arg" [VI32 2%Z] (EVal (VI32 4%Z));
        Call "arg" [VI32 3%Z] (EVal (VI32 1116%Z));
        Call "arg" [VI32 4%Z] (EVal (VI32 118%Z));
        Call "arg" [VI32 5%Z] (EVal (VI32 20%Z));
        Call "arg" [VI32 6%Z] (EVal (VI32 12%Z));
        Call "arg" [VI32 7%Z] (EVal (VI32 1124%Z));
        Call "arg" [VI32 8%Z] (EVal (VI32 126%Z)) ];
    T "test_switch_corner" w_switch
      [ Call "corner" [] (EVal (VI32 1%Z)) ] ].
Definition t_table_fill : list test :=
  [ T "test_table_fill" w_table_fill
      [ Call "get" [VI32 1%Z] (EVal (VRef RNull));
        Call "get" [VI32 2%Z] (EVal (VRef RNull));
        Call "get" [VI32 3%Z] (EVal (VRef RNull));
        Call "get" [VI32 4%Z] (EVal (VRef RNull));
        Call "get" [VI32 5%Z] (EVal (VRef RNull));
        Call "fill" [VI32 2%Z; VRef (RExtern 1); VI32 3%Z] (EOk);
        Call "get" [VI32 1%Z] (EVal (VRef RNull));
        Call "get" [VI32 2%Z] (EVal (VRef (RExtern 1)));
        Call "get" [VI32 3%Z] (EVal (VRef (RExtern 1)));
        Call "get" [VI32 4%Z] (EVal (VRef (RExtern 1)));
        Call "get" [VI32 5%Z] (EVal (VRef RNull));
        Call "fill" [VI32 4%Z; VRef (RExtern 2); VI32 2%Z] (EOk);
        Call "get" [VI32 3%Z] (EVal (VRef (RExtern 1)));
        Call "get" [VI32 4%Z] (EVal (VRef (RExtern 2)));
        Call "get" [VI32 5%Z] (EVal (VRef (RExtern 2)));
        Call "get" [VI32 6%Z] (EVal (VRef RNull));
        Call "fill" [VI32 4%Z; VRef (RExtern 3); VI32 0%Z] (EOk);
        Call "get" [VI32 3%Z] (EVal (VRef (RExtern 1)));
        Call "get" [VI32 4%Z] (EVal (VRef (RExtern 2)));
        Call "get" [VI32 5%Z] (EVal (VRef (RExtern 2)));
        Call "fill" [VI32 8%Z; VRef (RExtern 4); VI32 2%Z] (EOk);
        Call "get" [VI32 7%Z] (EVal (VRef RNull));
        Call "get" [VI32 8%Z] (EVal (VRef (RExtern 4)));
        Call "get" [VI32 9%Z] (EVal (VRef (RExtern 4)));
        Call "fill-abbrev" [VI32 9%Z; VRef RNull; VI32 1%Z] (EOk);
        Call "get" [VI32 8%Z] (EVal (VRef (RExtern 4)));
        Call "get" [VI32 9%Z] (EVal (VRef RNull));
        Call "fill" [VI32 10%Z; VRef (RExtern 5); VI32 0%Z] (EOk);
        Call "get" [VI32 9%Z] (EVal (VRef RNull));
        Call "get" [VI32 7%Z] (EVal (VRef RNull));
        Call "get" [VI32 8%Z] (EVal (VRef (RExtern 4)));
        Call "get" [VI32 9%Z] (EVal (VRef RNull)) ] ].
Definition t_table_get : list test :=
  [ T "test_table_get" w_table_get
      [ Call "get-externref" [VI32 0%Z] (EVal (VRef RNull));
        Call "get-funcref" [VI32 0%Z] (EVal (VRef RNull));
        Call "is_null-funcref" [VI32 1%Z] (EVal (VI32 0%Z));
        Call "init" [VRef RNull] (EOk);
        Call "get-externref" [VI32 1%Z] (EVal (VRef RNull));
        Call "is_null-funcref" [VI32 2%Z] (EVal (VI32 0%Z));
        Call "get-funcref" [VI32 1%Z] (EAny);
        Call "get-funcref" [VI32 2%Z] (EFunc) ] ].
Definition t_table_set : list test :=
  [ T "test_get_externref_initial" w_table_set
      [ Call "get-externref" [VI32 0%Z] (EVal (VRef RNull)) ];
    T "test_set_externref" w_table_set
      [ Call "set-externref" [VI32 0%Z; VRef RNull] (EOk) ];
    T "test_set_and_get_externref_null" w_table_set
      [ Call "set-externref" [VI32 0%Z; VRef RNull] (EOk);
        Call "get-externref" [VI32 0%Z] (EVal (VRef RNull)) ];
    T "test_get_funcref_initial" w_table_set
      [ Call "get-funcref" [VI32 0%Z] (EVal (VRef RNull)) ];
    T "test_set_funcref_from" w_table_set
      [ Call "set-funcref-from" [VI32 0%Z; VI32 1%Z] (EOk) ];
    T "test_is_null_funcref_after_set" w_table_set
      [ Call "set-funcref-from" [VI32 0%Z; VI32 1%Z] (EOk);
        Call "is_null-funcref" [VI32 0%Z] (EVal (VI32 0%Z)) ];
    T "test_set_funcref_to_null" w_table_set
      [ Call "set-funcref" [VI32 0%Z; VRef RNull] (EOk);
        Call "get-funcref" [VI32 0%Z] (EVal (VRef RNull)) ] ].
Definition all_tests : list (string * list test) :=
  [ ("block", t_block);
    ("br", t_br);
    ("br_if", t_br_if);
    ("call", t_call);
    ("call_indirect", t_call_indirect);
    ("conversions", t_conversions);
    ("f32", t_f32);
    ("i32", t_i32);
    ("i64", t_i64);
    ("if", t_if);
    ("labels", t_labels);
    ("loop", t_loop);
    ("memory", t_memory);
    ("memorycopy", t_memorycopy);
    ("memoryfill", t_memoryfill);
    ("memoryinit", t_memoryinit);
    ("memorysize", t_memorysize);
    ("ref_is_null", t_ref_is_null);
    ("ref_null", t_ref_null);
    ("select", t_select);
    ("stack", t_stack);
    ("store", t_store);
    ("switch", t_switch);
    ("table_fill", t_table_fill);
    ("table_get", t_table_get);
    ("table_set", t_table_set) ].
