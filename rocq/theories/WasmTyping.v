(** Validation: WebAssembly Core 2.0 section 3.3 (instructions), written from the standard.
    A stack is a list of value types with the top first.  [typed F ls ts c ts'] : in function [F],
    under labels [ls], the sequence [c] takes the stack [ts] to [ts'].  [ls] lists the operand types
    of the enclosing labels, innermost first (as stacks, top first).  Module-level objects that the
    syntax of Wasm.v carries inline (types of globals, element types of tables) are taken from
    there. *)
From Coq Require Import List Bool.
From Verif Require Import Word Value Numeric Float Mem Store Regs IR Machine Wasm.
Import ListNotations.

(** what a body is checked against *)
Record fctx := { f_mod : smodule; f_locals : list valtype; f_results : list valtype }.
(** a type sequence as it lies on the stack *)
Definition on_stack (ts : list valtype) : list valtype := rev ts.
Definition is_ref (t : valtype) : bool := match t with TFuncRef | TExternRef => true | _ => false end.
Definition is_vec_or_num (t : valtype) : bool := negb (is_ref t).
(** the type of a constant *)
Definition const_type (v : val) : option valtype :=
  match v with
  | VI32 _ => Some TI32 | VI64 _ => Some TI64 | VF32 _ => Some TF32 | VF64 _ => Some TF64
  | VV128 _ => Some TV128 | VRef _ => None
  end.
(** operators that exist: there is no i32.extend32_s; references where references belong *)
Definition exists_op (o : sop) : bool :=
  match o with
  | SNum1 (U_int W32 Iext32) => false
  | SRefNull t => is_ref t
  | STableGet _ e | STableSet _ e | STableFill _ e => is_ref e
  | _ => true
  end.

Inductive basic_typed (F : fctx) : list valtype -> basic -> list valtype -> Prop :=
| TConst ts v t : const_type v = Some t -> basic_typed F ts (BConst v) (t :: ts)
| TGetL ts n t : nth_error (f_locals F) n = Some t -> basic_typed F ts (BGet n) (t :: ts)
| TSetL ts n t : nth_error (f_locals F) n = Some t -> basic_typed F (t :: ts) (BSet n) ts
| TTeeL ts n t : nth_error (f_locals F) n = Some t -> basic_typed F (t :: ts) (BTee n) (t :: ts)
| TDrop ts t : basic_typed F (t :: ts) BDrop ts
| TNop ts : basic_typed F ts BNop ts
| TSelect ts t : is_vec_or_num t = true -> basic_typed F (TI32 :: t :: t :: ts) (BSelect None) (t :: ts)
| TSelectT ts t : basic_typed F (TI32 :: t :: t :: ts) (BSelect (Some t)) (t :: ts)
| TIsNull ts t : is_ref t = true -> basic_typed F (t :: ts) (BOp SRefIsNull) (TI32 :: ts)
| TOp ts o : exists_op o = true -> o <> SRefIsNull ->
    basic_typed F (on_stack (sop_args o) ++ ts) (BOp o) (match sop_res o with Some t => t :: ts | None => ts end).

Inductive typed (F : fctx) : list (list valtype) -> list valtype -> code -> list valtype -> Prop :=
| TNil ls ts : typed F ls ts CNil ts
| TBasic ls ts ts1 ts' b k : basic_typed F ts b ts1 -> typed F ls ts1 k ts' -> typed F ls ts (CBasic b k) ts'
| TBlock ls ts ts' ps rs body k :
    typed F (on_stack rs :: ls) (on_stack ps) body (on_stack rs) -> typed F ls (on_stack rs ++ ts) k ts' ->
    typed F ls (on_stack ps ++ ts) (CBlock false ps rs body k) ts'
| TLoop ls ts ts' ps rs body k :
    typed F (on_stack ps :: ls) (on_stack ps) body (on_stack rs) -> typed F ls (on_stack rs ++ ts) k ts' ->
    typed F ls (on_stack ps ++ ts) (CBlock true ps rs body k) ts'
| TIf1 ls ts ts' ps rs th k :                 (* no else branch: it would be empty, so ps = rs *)
    ps = rs -> typed F (on_stack rs :: ls) (on_stack ps) th (on_stack rs) -> typed F ls (on_stack rs ++ ts) k ts' ->
    typed F ls (TI32 :: on_stack ps ++ ts) (CIf ps rs th k) ts'
| TIf2 ls ts ts' ps rs th el k :
    typed F (on_stack rs :: ls) (on_stack ps) th (on_stack rs) ->
    typed F (on_stack rs :: ls) (on_stack ps) el (on_stack rs) -> typed F ls (on_stack rs ++ ts) k ts' ->
    typed F ls (TI32 :: on_stack ps ++ ts) (CIfElse ps rs th el k) ts'
(* stack-polymorphic instructions: what follows may assume any stack *)
| TBr ls ts any ts' d l k : nth_error ls d = Some l -> typed F ls any k ts' -> typed F ls (l ++ ts) (CBr d k) ts'
| TBrIf ls ts ts' d l k : nth_error ls d = Some l -> typed F ls (l ++ ts) k ts' ->
    typed F ls (TI32 :: l ++ ts) (CBrIf d k) ts'
| TBrTable ls ts any ts' ds d l k : nth_error ls d = Some l ->
    (forall e, In e ds -> nth_error ls e = Some l) -> typed F ls any k ts' ->
    typed F ls (TI32 :: l ++ ts) (CBrTable ds d k) ts'
| TReturn ls ts any ts' k : typed F ls any k ts' -> typed F ls (on_stack (f_results F) ++ ts) (CReturn k) ts'
| TUnreachable ls ts any ts' k : typed F ls any k ts' -> typed F ls ts (CUnreachable k) ts'
| TCall ls ts ts' f fn k : nth_error (sm_funcs (f_mod F)) f = Some fn ->
    typed F ls (on_stack (snd (sfunc_type fn)) ++ ts) k ts' ->
    typed F ls (on_stack (fst (sfunc_type fn)) ++ ts) (CCall f k) ts'
| TCallInd ls ts ts' ty tb ps rs k : nth_error (sm_types (f_mod F)) ty = Some (ps, rs) ->
    typed F ls (on_stack rs ++ ts) k ts' ->
    typed F ls (TI32 :: on_stack ps ++ ts) (CCallInd ty tb k) ts'.

(** 3.4.1: a function's body is checked under one label, with its results *)
Definition valid_func (M : smodule) (f : sfunc) : Prop :=
  match f with
  | SWasi _ _ => True
  | SWasm d =>
      typed {| f_mod := M; f_locals := fst (sf_type d) ++ sf_locals d; f_results := snd (sf_type d) |}
            [on_stack (snd (sf_type d))] [] (sf_body d) (on_stack (snd (sf_type d)))
  end.
(** imports come first in the function index space (2.5.1, 2.5.11) *)
Definition valid (M : smodule) : Prop :=
  Forall (valid_func M) (sm_funcs M) /\
  exists imps defs, sm_funcs M = imps ++ defs /\
    Forall (fun f => match f with SWasi _ _ => True | SWasm _ => False end) imps /\
    Forall (fun f => match f with SWasm _ => True | SWasi _ _ => False end) defs.
