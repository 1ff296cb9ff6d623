(** Instantiation: src/execution/module.rs 50-230 (ModuleInst::new, get_export_func, expr_to_const),
    src/execution/table.rs 26-45, mem.rs 24-49, elem.rs 22-31, data.rs 17-22. *)
From Coq Require Import ZArith List Bool Lia.
From Coq Require String.
From Verif Require Import Word Value Mem Store Regs IR Machine Decoder.
Import ListNotations.
Open Scope Z_scope.

(** structure/module.rs: a decoded module.  Constant expressions are what parser.rs 1040-1080 makes of
    them (anything else is refused there); [CVal] is one of the four numeric constants.
    Simplifications: function bodies are already translated; table and memory types carry what
    instantiation uses; at most one memory, as in WebAssembly 2.0. *)
Inductive cinstr := CVal (v : val) | CNull | CRefFunc (f : nat) | CGlobal (i : nat).
Definition cexpr := list cinstr.
Inductive mode := MPassive | MDeclarative | MActive (idx : nat) (off : cexpr).
(** [e_idxes]: function indices; [e_init]: expressions.  Exactly one is given (parser.rs 1090-1111). *)
Record elem := { e_extern : bool; e_idxes : option (list nat); e_init : option (list cexpr); e_mode : mode }.
Record dseg := { ds_bytes : list Z; ds_mode : mode }.
Inductive extern := ExFunc (i : nat) | ExTable (i : nat) | ExMem (i : nat) | ExGlobal (i : nat).
Record src := {
  s_types : list ftype; s_imports : list import; s_funcs : list fdef; s_tables : list Z;
  s_mem : option (Z * option Z); s_globals : list cexpr; s_elems : list elem; s_datas : list dseg;
  s_exports : list (String.string * extern); s_start : option nat }.

Inductive ires (A : Type) := IDone (a : A) | ILink | IFailed | IInvalid | IType | IPanics.
Arguments IDone {A} _. Arguments ILink {A}. Arguments IFailed {A}. Arguments IInvalid {A}. Arguments IType {A}. Arguments IPanics {A}.
Definition ibind {A B} (r : ires A) (f : A -> ires B) : ires B :=
  match r with IDone a => f a | ILink => ILink | IFailed => IFailed | IInvalid => IInvalid | IType => IType | IPanics => IPanics end.
Notation "'let!' x ':=' r 'in' k" := (ibind r (fun x => k)) (at level 200, x name, right associativity).

(** The result: the immutable part, the state, and the exports (as indices). *)
Record minst := { mi_modul : modul; mi_inst : inst; mi_exports : list (String.string * extern) }.

(** module.rs 83-115: main.rs passes no import objects, so a function that is not a WASI function
    cannot be found; tables, memories and globals are [todo!()] *)
Fixpoint link (is : list import) : ires (list func) :=
  match is with
  | [] => IDone []
  | ImFunc _ :: _ => ILink
  | ImWasi w t :: is => let! fs := link is in IDone (FWasi w t :: fs)
  | ImOther :: _ => IPanics
  end.
(** module.rs 246-259 (expr_to_const); [get_by_idx] panics outside the vector *)
Definition const (gs : list val) (e : cexpr) : ires (option val) :=
  match e with
  | [CVal v] => IDone (Some v)
  | [CNull] => IDone (Some (VRef RNull))
  | [CGlobal i] => match nth_error gs i with Some v => IDone (Some v) | None => IPanics end
  | _ => IDone None
  end.
(** 129-136 *)
Fixpoint globals (gs : list val) (es : list cexpr) : ires (list val) :=
  match es with
  | [] => IDone gs
  | e :: es => let! o := const gs e in match o with Some v => globals (gs ++ [v]) es | None => IFailed end
  end.
(** 153-160, 182-189: [.to_i32()], then [as usize] *)
Definition offset (gs : list val) (e : cexpr) : ires Z :=
  let! o := const gs e in
  match o with None => IInvalid | Some (VI32 z) => IDone (cast_u 32 z) | Some _ => IType end.
(** table.rs 38-45: [elem[index + offset]] panics when out of range, get_by_idx when there is no
    such function *)
Fixpoint table_init (nf : nat) (tb : table) (i off : Z) (fs : list nat) : ires table :=
  match fs with
  | [] => IDone tb
  | f :: fs =>
      let k := usize (i + off) in
      if (Nat.ltb f nf) && (k <? Z.of_nat (length tb)) then table_init nf (upd tb (Z.to_nat k) (RFunc f)) (i + 1) off fs else IPanics
  end.
(** 138-172 *)
Fixpoint elems (nf : nat) (gs : list val) (ts : list table) (es : list elem) : ires (list table) :=
  match es with
  | [] => IDone ts
  | e :: es =>
      if e_extern e then IPanics else
      let fs := match e_idxes e with Some l => l | None => [] end in
      if negb (forallb (fun f => Nat.ltb f nf) fs) then IPanics else
      match e_mode e with
      | MActive t x =>
          let! off := offset gs x in
          match nth_error ts t with
          | None => IPanics
          | Some tb => let! tb := table_init nf tb 0 off fs in elems nf gs (upd ts t tb) es
          end
      | _ => elems nf gs ts es
      end
  end.
(** 174-199, mem.rs 45-49 *)
Fixpoint datas (gs : list val) (m : option meminst) (ds : list dseg) : ires (option meminst) :=
  match ds with
  | [] => IDone m
  | d :: ds =>
      match ds_mode d with
      | MActive k x =>
          let! off := offset gs x in
          match k, m with
          | O, Some mi =>
              match mem_init_at (m_data mi) off (ds_bytes d) with
              | Ok b => datas gs (Some (with_data mi b)) ds
              | _ => IPanics
              end
          | _, _ => IPanics
          end
      | _ => datas gs m ds
      end
  end.
(** mem.rs 24-41 with [Vec::with_capacity]: more than isize::MAX bytes panics *)
Definition alloc_mem (m : option (Z * option Z)) : ires (option meminst) :=
  match m with
  | None => IDone None
  | Some (min, max) => if isize_max <? usize (min * page) then IPanics else IDone (Some (mem_new min max))
  end.
(** 201-218: indexing panics *)
Definition export_ok (nf nt nm ng : nat) (x : extern) : bool :=
  match x with ExFunc i => Nat.ltb i nf | ExTable i => Nat.ltb i nt | ExMem i => Nat.ltb i nm | ExGlobal i => Nat.ltb i ng end.
(** 50-238 *)
Definition instantiate (S : src) : ires minst :=
  let! imps := link (s_imports S) in
  let fs := imps ++ map FWasm (s_funcs S) in
  let nf := length fs in
  let ts := map (fun n => repeat RNull (Z.to_nat n)) (s_tables S) in
  let! m := alloc_mem (s_mem S) in
  let! gs := globals [] (s_globals S) in
  let! ts := elems nf gs ts (s_elems S) in
  let! m := datas gs m (s_datas S) in
  if negb (forallb (fun x => export_ok nf (length ts) (match m with Some _ => 1 | None => 0 end) (length gs) (snd x)) (s_exports S)) then IPanics else
  let! _u := match s_start S with
  (* 234-236: the start function is looked up, and that is all *)
  | Some f => if Nat.ltb f nf then IDone tt else IPanics
  | None => IDone tt
  end in
  IDone {| mi_modul := {| md_funcs := fs; md_types := s_types S |};
           mi_inst := {| i_mem := m; i_globals := gs; i_tables := ts; i_datas := map ds_bytes (s_datas S) |};
           mi_exports := s_exports S |}.
(** 232-243 *)
Fixpoint find_export (name : String.string) (l : list (String.string * extern)) : option extern :=
  match l with [] => None | (n, x) :: l => if String.eqb n name then Some x else find_export name l end.
Definition get_export_func (I : minst) (name : String.string) : option nat :=
  match find_export name (mi_exports I) with Some (ExFunc i) => Some i | _ => None end.
