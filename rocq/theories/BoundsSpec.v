(** When a run of the standard's semantics is free of the accesses chiwawa does not check, said without reference to
    chiwawa: the run does not trap on a bound, and its memory stays below 2 GiB. *)
From Coq Require Import ZArith List Bool.
From Verif Require Import Word Value Numeric Float Mem Store Regs IR Machine Wasm WasmTyping WasmMem PrimFacts.
Import ListNotations.
Open Scope Z_scope.

(** a request or a memory beyond what 32-bit chiwawa can represent: memory.grow by 2^31 pages or more or to 2^15 pages
    (2 GiB) or more, or memory.grow/memory.init on a memory that is already above 2^31-1 bytes *)
Definition huge (o : sop) (s : inst) (args : list val) : bool :=
  match o, args, i_mem s with
  | SMemGrow, [n], Some m =>
      (2 ^ 31 <=? pattern n) || (isize_max <? mlen (m_data m)) || (2 ^ 31 <=? pages (m_data m) + pattern n)
      || ((2 ^ 15 <=? pages (m_data m) + pattern n) &&
          match wasm_grow (m_data m) (m_max m) (pattern n) with Some _ => true | None => false end)
  | SMemInit _, _, Some m => isize_max <? mlen (m_data m)
  | _, _, _ => false
  end.
(** the primitives [P], left undefined there *)
Definition below_2GiB (P : prims) : prims :=
  {| p_op := fun o s args => if huge o s args then UB else p_op P o s args;
     p_func := p_func P; p_default := p_default P; p_ind_host := p_ind_host P |}.

(** ** conditions on the source *)
(** a property of all operators of a body *)
Fixpoint all_ops (p : sop -> bool) (c : code) : bool :=
  match c with
  | CNil => true
  | CBasic (BOp o) k => p o && all_ops p k
  | CBasic _ k => all_ops p k
  | CBlock _ _ _ body k | CIf _ _ body k => all_ops p body && all_ops p k
  | CIfElse _ _ th el k => all_ops p th && all_ops p el && all_ops p k
  | CBr _ k | CBrIf _ k | CBrTable _ _ k | CReturn k | CUnreachable k | CCall _ k | CCallInd _ _ k => all_ops p k
  end.
Definition uses (p : sop -> bool) (SM : smodule) : bool :=
  forallb (fun fn => match fn with SWasm d => all_ops p (sf_body d) | SWasi _ _ => true end) (sm_funcs SM).
Definition writes_no_table (o : sop) : bool := match o with STableSet _ _ | STableFill _ _ => false | _ => true end.
Definition sizes_no_memory (o : sop) : bool := match o with SMemGrow | SMemInit _ => false | _ => true end.
(** no function declares a local of reference type *)
Definition plain_locals (SM : smodule) : bool :=
  forallb (fun fn => match fn with SWasm d => forallb (fun t => negb (is_ref t)) (sf_locals d) | SWasi _ _ => true end) (sm_funcs SM).
(** no table element is an imported function *)
Definition own_element (SM : smodule) (r : ref) : bool :=
  match r with
  | RFunc f => match nth_error (sm_funcs SM) f with Some (SWasi _ _) => false | _ => true end
  | _ => true
  end.
Definition own_tables (SM : smodule) (ts : list table) : bool := forallb (forallb (own_element SM)) ts.
(** call_indirect never reaches an import: there are none, or the tables contain none and are never written *)
Definition calls_own (SM : smodule) (ts : list table) : bool :=
  forallb (fun fn => match fn with SWasm _ => true | SWasi _ _ => false end) (sm_funcs SM)
  || (uses writes_no_table SM && own_tables SM ts).

(** the run ended at a bound *)
Definition at_bound (o : outcome) : Prop := exists l, o = Trapped TOutOfBounds l.
