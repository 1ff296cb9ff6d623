(** Histories of store operations and their abstract meaning ("last write wins"). *)
From Coq Require Import ZArith List Bool Lia.
From Verif Require Import Word Value WasmNum Mem Store.
Import ListNotations.
Open Scope Z_scope.

(** ** globals *)
Inductive gop := GGet (c : cls) (i : nat) | GSet (i : nat) (v : val).
Definition g_step (gs : list val) (o : gop) : res (list val) :=
  match o with GGet c i => let* _ := global_get c gs i in Ok gs | GSet i v => global_set gs i v end.
Fixpoint g_run (gs : list val) (h : list gop) : res (list val) :=
  match h with [] => Ok gs | o :: h => let* gs' := g_step gs o in g_run gs' h end.
(** last value written to [i], most recent first *)
Fixpoint last_set (i : nat) (h : list gop) : option val :=
  match h with
  | [] => None
  | o :: h => match last_set i h with
              | Some v => Some v
              | None => match o with GSet j v => if Nat.eqb i j then Some v else None | _ => None end
              end
  end.

(** ** tables: indices and counts are i32 register contents, read as unsigned *)
Inductive top := TGet (t : nat) (i : Z) | TSet (t : nat) (i : Z) (r : ref) | TFill (t : nat) (i : Z) (r : ref) (n : Z).
Definition t_step (ts : list table) (o : top) : res (list table) :=
  match o with
  | TGet t i => let* _ := table_get ts t i in Ok ts
  | TSet t i r => table_set ts t i r
  | TFill t i r n => table_fill ts t i r n
  end.
Fixpoint t_run (ts : list table) (h : list top) : res (list table) :=
  match h with [] => Ok ts | o :: h => let* ts' := t_step ts o in t_run ts' h end.
(** the value a write gives to entry [j] of table [t], if it covers it *)
Definition covers (t : nat) (j : Z) (o : top) : option ref :=
  match o with
  | TGet _ _ => None
  | TSet t' i r => if Nat.eqb t t' && (j =? unsigned 32 i) then Some r else None
  | TFill t' i r n =>
      if Nat.eqb t t' && (unsigned 32 i <=? j) && (j <? unsigned 32 i + unsigned 32 n) then Some r else None
  end.
Fixpoint last_write (t : nat) (j : Z) (h : list top) : option ref :=
  match h with
  | [] => None
  | o :: h => match last_write t j h with Some r => Some r | None => covers t j o end
  end.
Definition operands_ok (o : top) : Prop :=
  match o with TGet _ i | TSet _ i _ => in_s 32 i | TFill _ i _ n => in_s 32 i /\ in_s 32 n end.
(** WebAssembly traps: some accessed index is not below the length; a fill checks i + n *)
Definition wasm_table_traps (ts : list table) (o : top) : Prop :=
  match o with
  | TGet t i | TSet t i _ =>
      match nth_error ts t with Some tb => Z.of_nat (length tb) <= unsigned 32 i | None => True end
  | TFill t i _ n =>
      match nth_error ts t with Some tb => Z.of_nat (length tb) < unsigned 32 i + unsigned 32 n | None => True end
  end.

(** ** data segments *)
Inductive dop := DInit (k : nat) (d s n : Z) | DDrop (k : nat).
Definition d_step (st : list Z * list (list Z)) (o : dop) : res (list Z * list (list Z)) :=
  let '(m, ds) := st in
  match o with
  | DInit k d s n => let* m' := mem_init m ds k d s n in Ok (m', ds)
  | DDrop k => Ok (m, data_drop ds k)
  end.
Fixpoint d_run (st : list Z * list (list Z)) (h : list dop) : res (list Z * list (list Z)) :=
  match h with [] => Ok st | o :: h => let* st' := d_step st o in d_run st' h end.
