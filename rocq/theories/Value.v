(** Runtime values and types: src/execution/value.rs (Val, Num, Ref), src/structure/types.rs
    (ValueType), src/execution/regs.rs 10-43 (Reg classes).
    Floats are bit patterns ([Z]); a function reference is the index of the function in the
    instance (simplification: [FuncAddr] is an Rc pointer; pointer identity = index identity). *)
From Coq Require Import ZArith List Bool Lia.
From Verif Require Import Word.
Import ListNotations.
Open Scope Z_scope.

Inductive ref := RNull | RFunc (a : nat) | RExtern (a : nat).
Inductive val :=
| VI32 (z : Z) | VI64 (z : Z) | VF32 (b : Z) | VF64 (b : Z) | VRef (r : ref) | VV128 (z : Z).

Inductive valtype := TI32 | TI64 | TF32 | TF64 | TFuncRef | TExternRef | TV128.

(** Register class = the six vectors of [RegFile] (regs.rs 57-70). *)
Inductive cls := CI32 | CI64 | CF32 | CF64 | CRef | CV128.

Definition cls_eqb (a b : cls) : bool :=
  match a, b with
  | CI32, CI32 | CI64, CI64 | CF32, CF32 | CF64, CF64 | CRef, CRef | CV128, CV128 => true
  | _, _ => false
  end.
Definition valtype_eqb (a b : valtype) : bool :=
  match a, b with
  | TI32, TI32 | TI64, TI64 | TF32, TF32 | TF64, TF64
  | TFuncRef, TFuncRef | TExternRef, TExternRef | TV128, TV128 => true
  | _, _ => false
  end.

(** regs.rs 490-527: which allocator counter a value type uses. *)
Definition class_of (t : valtype) : cls :=
  match t with
  | TI32 => CI32 | TI64 => CI64 | TF32 => CF32 | TF64 => CF64
  | TFuncRef | TExternRef => CRef | TV128 => CV128
  end.

Definition val_cls (v : val) : cls :=
  match v with
  | VI32 _ => CI32 | VI64 _ => CI64 | VF32 _ => CF32 | VF64 _ => CF64
  | VRef _ => CRef | VV128 _ => CV128
  end.

(** contents of freshly resized register vectors (regs.rs 124-162) and Rust [Default]. *)
Definition default_of (c : cls) : val :=
  match c with
  | CI32 => VI32 0 | CI64 => VI64 0 | CF32 => VF32 0 | CF64 => VF64 0
  | CRef => VRef RNull | CV128 => VV128 0
  end.

(** A value whose payload fits its type. *)
Definition val_ok (v : val) : Prop :=
  match v with
  | VI32 z => in_s 32 z | VI64 z => in_s 64 z
  | VF32 b => in_u 32 b | VF64 b => in_u 64 b
  | VV128 z => in_u 128 z
  | VRef _ => True
  end.
