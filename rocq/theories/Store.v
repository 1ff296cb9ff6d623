(** Globals, tables and data segments: src/execution/global.rs, table.rs, data.rs and their
    handlers, src/execution/handlers.rs 1745-1965. *)
From Coq Require Import ZArith List Bool Lia.
From Verif Require Import Word Value Mem.
Import ListNotations.
Open Scope Z_scope.

(** ** globals *)
(** [GlobalAddr::get] + [to_i32().unwrap_or(default)] (handlers.rs 1748-1770): reading with a class
    that is not the value's gives the default; indexing outside the vector panics. *)
Definition global_get (c : cls) (gs : list val) (i : nat) : res val :=
  match nth_error gs i with
  | None => Trap THost
  | Some v => Ok (if cls_eqb (val_cls v) c then v else default_of c)
  end.
(** [GlobalAddr::set] (global.rs 40-48) as used by handlers.rs 1778-1813: the new value has the
    instruction's class; a class different from the current value's is an error.
    Simplification: [val_type()] equality is class equality (global.set on references does not
    exist in the IR). *)
Definition global_set (gs : list val) (i : nat) (v : val) : res (list val) :=
  match nth_error gs i with
  | None => Trap THost
  | Some old => if cls_eqb (val_cls old) (val_cls v) then Ok (upd gs i v) else Trap TTypeMismatch
  end.

(** ** tables: [Vec<Val>] whose entries are always references (table.rs 26-50) *)
Definition table := list ref.
(** table.rs 51-54 with handlers.rs 1903-1930: [index as usize], panics when out of range *)
Definition table_get (tbls : list table) (t : nat) (i : Z) : res ref :=
  match nth_error tbls t with
  | None => Trap TTableNotFound
  | Some tb => match nth_error tb (Z.to_nat (cast_u 32 i)) with Some r => Ok r | None => Trap THost end
  end.
(** table.rs 56-59 with handlers.rs 1932-1951 *)
Definition table_set (tbls : list table) (t : nat) (i : Z) (r : ref) : res (list table) :=
  match nth_error tbls t with
  | None => Trap TTableNotFound
  | Some tb => if cast_u 32 i <? Z.of_nat (length tb)
               then Ok (upd tbls t (upd tb (Z.to_nat (cast_u 32 i)) r)) else Trap THost
  end.
(** table.rs 61-68: [for idx in i..i + n] with [i + n] in usize; an index outside panics. *)
Fixpoint fill_loop (tb : table) (i : Z) (cnt : nat) (r : ref) : res table :=
  match cnt with
  | O => Ok tb
  | S cnt => if i <? Z.of_nat (length tb) then fill_loop (upd tb (Z.to_nat i) r) (i + 1) cnt r
             else Trap THost
  end.
(** handlers.rs 1953-1975.  The number of iterations is capped one past the table length: the loop
    panics at the first index outside the table. *)
Definition table_fill (tbls : list table) (t : nat) (i : Z) (r : ref) (n : Z) : res (list table) :=
  match nth_error tbls t with
  | None => Trap TTableNotFound
  | Some tb =>
      let lo := cast_u 32 i in let hi := usize (lo + cast_u 32 n) in
      let cnt := Z.to_nat (Z.min (hi - lo) (Z.of_nat (length tb) + 1)) in
      let* tb' := fill_loop tb lo cnt r in Ok (upd tbls t tb')
  end.
(** table.rs 70-79 (get_func_addr) and its use in handlers.rs 1664-1707: index out of range panics,
    a non-function entry is [None], unwrapped by the caller. *)
Definition table_func (tbls : list table) (t : nat) (i : Z) : res nat :=
  match nth_error tbls t with
  | None => Trap TTableNotFound
  | Some tb => match nth_error tb (Z.to_nat (cast_u 32 i)) with
               | Some (RFunc f) => Ok f
               | _ => Trap THost
               end
  end.

(** handlers.rs 1885-1901 (ref.is_null) *)
Definition ref_is_null (r : ref) : Z := match r with RNull => 1 | _ => 0 end.
