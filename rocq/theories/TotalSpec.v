(** The part of WebAssembly the translator has operators for (parser.rs 7179 and the casts before:
    everything else panics): no vectors, no globals of reference type.  Live code only. *)
From Coq Require Import ZArith List Bool.
From Verif Require Import Word Value Mem Store Regs IR Machine Wasm.
Import ListNotations.
Open Scope nat_scope.

Definition vectors (t : valtype) : bool := match t with TV128 => true | _ => false end.
Definition no_vectors (ts : list valtype) : bool := forallb (fun t => negb (vectors t)) ts.
Section S.
  Variable SM : smodule.
  Variable locals : list valtype.
  Definition known_basic (b : basic) : bool :=
    match b with
    | BConst (VV128 _) | BConst (VRef _) => false          (* the latter is not WebAssembly syntax *)
    | BGet n | BSet n | BTee n => match nth_error locals n with Some t => negb (vectors t) | None => true end
    | BSelect (Some t) => negb (vectors t)
    | BOp (SGlobalGet t _) | BOp (SGlobalSet t _) => match t with TI32 | TI64 | TF32 | TF64 => true | _ => false end
    | _ => true
    end.
  Fixpoint known (c : code) : bool :=
    match c with
    | CNil => true
    | CBasic b k => known_basic b && known k
    | CBr _ _ | CBrTable _ _ _ | CReturn _ | CUnreachable _ => true
    | CBrIf _ k => known k
    | CBlock _ _ rs b k | CIf _ rs b k => no_vectors rs && known b && known k
    | CIfElse _ rs th el k => no_vectors rs && known th && known el && known k
    | CCall f k => match nth_error (sm_funcs SM) f with Some g => no_vectors (snd (sfunc_type g)) | None => true end && known k
    | CCallInd ty _ k => match nth_error (sm_types SM) ty with Some t => no_vectors (snd t) | None => true end && known k
    end.
End S.
(** every operator of the module is one the translator knows *)
Definition known_module (SM : smodule) : bool :=
  forallb (fun f => match f with SWasm d => known SM (fst (sf_type d) ++ sf_locals d) (sf_body d) | SWasi _ _ => true end) (sm_funcs SM).

(** ** the height of the operand stack *)
(** values an operator without control takes and gives *)
Definition takes (b : basic) : nat :=
  match b with
  | BConst _ | BGet _ | BNop => 0
  | BSet _ | BTee _ | BDrop => 1
  | BSelect _ => 3
  | BOp o => length (sop_args o)
  end.
Definition gives (b : basic) : nat :=
  match b with
  | BConst _ | BGet _ | BTee _ | BSelect _ => 1
  | BNop | BSet _ | BDrop => 0
  | BOp o => match sop_res o with Some _ => 1 | None => 0 end
  end.
(** the greatest height reached from height [h], over all points of the code that can be reached *)
Fixpoint peak (SM : smodule) (h : nat) (c : code) : nat :=
  match c with
  | CNil | CBr _ _ | CBrTable _ _ _ | CReturn _ | CUnreachable _ => h
  | CBasic b k => Nat.max h (peak SM (h - takes b + gives b) k)
  | CBrIf _ k => Nat.max h (peak SM (h - 1) k)
  | CBlock _ ps rs b k => Nat.max (peak SM h b) (peak SM (h - length ps + length rs) k)
  | CIf ps rs b k => Nat.max h (Nat.max (peak SM (h - 1) b) (peak SM (h - 1 - length ps + length rs) k))
  | CIfElse ps rs th el k =>
      Nat.max h (Nat.max (Nat.max (peak SM (h - 1) th) (peak SM (h - 1) el)) (peak SM (h - 1 - length ps + length rs) k))
  | CCall f k =>
      match nth_error (sm_funcs SM) f with
      | Some g => Nat.max h (peak SM (h - length (fst (sfunc_type g)) + length (snd (sfunc_type g))) k)
      | None => h
      end
  | CCallInd ty _ k =>
      match nth_error (sm_types SM) ty with
      | Some t => Nat.max h (peak SM (h - 1 - length (fst t) + length (snd t)) k)
      | None => h
      end
  end.
(** a function whose parameters and locals, and whose locals and operands, number at most 65536 *)
Definition modest (SM : smodule) (f : sfunc) : bool :=
  match f with
  | SWasi _ _ => true
  | SWasm d => Z.leb (Z.of_nat (length (fst (sf_type d)) + length (sf_locals d))) 65536
               && Z.leb (Z.of_nat (length (sf_locals d) + peak SM 0 (sf_body d))) 65536
  end.
