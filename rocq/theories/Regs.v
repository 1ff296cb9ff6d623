(** Typed register file and register allocator: src/execution/regs.rs. *)
From Coq Require Import ZArith List Bool Lia.
From Verif Require Import Word Value Mem.
Import ListNotations.
Open Scope nat_scope.

(** One component per register class (regs.rs 57-70: six vectors; 44-54: six offsets;
    408-417, 420-440: six counts). *)
Record six (A : Type) := Six { s_i32 : A; s_i64 : A; s_f32 : A; s_f64 : A; s_ref : A; s_v128 : A }.
Arguments Six {A} _ _ _ _ _ _. Arguments s_i32 {A} _. Arguments s_i64 {A} _. Arguments s_f32 {A} _.
Arguments s_f64 {A} _. Arguments s_ref {A} _. Arguments s_v128 {A} _.
Definition sget {A} (s : six A) (c : cls) : A :=
  match c with
  | CI32 => s_i32 s | CI64 => s_i64 s | CF32 => s_f32 s | CF64 => s_f64 s | CRef => s_ref s | CV128 => s_v128 s
  end.
Definition sset {A} (s : six A) (c : cls) (x : A) : six A :=
  match s with
  | Six a b d e f g =>
      match c with
      | CI32 => Six x b d e f g | CI64 => Six a x d e f g | CF32 => Six a b x e f g
      | CF64 => Six a b d x f g | CRef => Six a b d e x g | CV128 => Six a b d e f x
      end
  end.
Definition sbuild {A} (f : cls -> A) : six A :=
  Six (f CI32) (f CI64) (f CF32) (f CF64) (f CRef) (f CV128).

(** regs.rs 10-19 (Reg) *)
Record reg := R { r_cls : cls; r_idx : nat }.

(** regs.rs 56-70 (RegFile).  The stack of frame offsets is a list with the top first. *)
Record regfile := RF { rf_vecs : six (list val); rf_stack : list (six nat); rf_cur : six nat }.

(** regs.rs 74-85 (new_global) *)
Definition rf_new : regfile :=
  RF (sbuild (fun _ => [])) [] (sbuild (fun _ => O)).

(** regs.rs 120-165 (save_offsets): offsets = current lengths, then each vector grows by the count.
    Lengths are [usize] = u32 on wasm32, so the [as u32] casts are the identity. *)
Definition rf_save (rf : regfile) (alloc : six nat) : regfile :=
  let offs := sbuild (fun c => length (sget (rf_vecs rf) c)) in
  RF (sbuild (fun c => sget (rf_vecs rf) c ++ repeat (default_of c) (sget alloc c)))
     (offs :: rf_stack rf) offs.

(** regs.rs 166-183 (restore_offsets) *)
Definition rf_restore (rf : regfile) : regfile :=
  let vecs := match rf_stack rf with
              | [] => rf_vecs rf
              | o :: _ => sbuild (fun c => firstn (sget o c) (sget (rf_vecs rf) c))
              end in
  let st := tl (rf_stack rf) in
  RF vecs st (match st with [] => sbuild (fun _ => O) | o :: _ => o end).

(** regs.rs 196-273 (get_i32 .. set_v128): [get_unchecked], so outside the vector is UB. *)
Definition rf_get (rf : regfile) (c : cls) (i : nat) : res val :=
  of_opt (nth_error (sget (rf_vecs rf) c) (sget (rf_cur rf) c + i)).
Definition rf_set (rf : regfile) (c : cls) (i : nat) (v : val) : res regfile :=
  let k := sget (rf_cur rf) c + i in
  if Nat.ltb k (length (sget (rf_vecs rf) c))
  then Ok (RF (sset (rf_vecs rf) c (upd (sget (rf_vecs rf) c) k v)) (rf_stack rf) (rf_cur rf))
  else UB.

(** regs.rs 276-303 (copy_reg): registers of different classes are ignored *)
Definition rf_copy (rf : regfile) (src dst : reg) : res regfile :=
  if cls_eqb (r_cls src) (r_cls dst)
  then let* v := rf_get rf (r_cls src) (r_idx src) in rf_set rf (r_cls dst) (r_idx dst) v
  else Ok rf.
(** regs.rs 305-311 (copy_regs): one after the other, zipped *)
Fixpoint rf_copies (rf : regfile) (src dst : list reg) : res regfile :=
  match src, dst with
  | s :: src, d :: dst => let* rf := rf_copy rf s d in rf_copies rf src dst
  | _, _ => Ok rf
  end.

(** regs.rs 361-371 (get_val) *)
Definition rf_get_val (rf : regfile) (r : reg) : res val := rf_get rf (r_cls r) (r_idx r).
(** regs.rs 374-389 (set_val): a numeric register receives 0 from a value of another type, a
    reference register ignores it, a v128 register is never written. *)
Definition rf_set_val (rf : regfile) (r : reg) (v : val) : res regfile :=
  match r_cls r with
  | CV128 => Ok rf
  | CRef => if cls_eqb (val_cls v) CRef then rf_set rf CRef (r_idx r) v else Ok rf
  | c => rf_set rf c (r_idx r) (if cls_eqb (val_cls v) c then v else default_of c)
  end.
Fixpoint rf_get_vals (rf : regfile) (rs : list reg) : res (list val) :=
  match rs with
  | [] => Ok []
  | r :: rs => let* v := rf_get_val rf r in let* vs := rf_get_vals rf rs in Ok (v :: vs)
  end.
(** runtime.rs 361-365, 412-417: results zipped with the receiving registers *)
Fixpoint rf_set_vals (rf : regfile) (rs : list reg) (vs : list val) : res regfile :=
  match rs, vs with
  | r :: rs, v :: vs => let* rf := rf_set_val rf r v in rf_set_vals rf rs vs
  | _, _ => Ok rf
  end.

(** * Register allocator, regs.rs 419-845 *)
(** [x as u16] *)
Definition u16 (n : nat) : nat := Z.to_nat (Z.of_nat n mod 65536).

(** regs.rs 420-440.  The type stack is a list with the top first. *)
Record alloc := AL { al_d : six nat; al_max : six nat; al_ts : list valtype }.

Definition incr (s : six nat) (c : cls) : six nat := sset s c (S (sget s c)).
Fixpoint reserve_all (s : six nat) (ts : list valtype) : six nat :=
  match ts with [] => s | t :: ts => reserve_all (incr s (class_of t)) ts end.
(** regs.rs 445-487 (new); declared locals expanded to one type each *)
Definition al_new (locals : list valtype) : alloc :=
  let d := reserve_all (sbuild (fun _ => O)) locals in AL d d [].
(** regs.rs 490-531 (push) *)
Definition al_push (a : alloc) (t : valtype) : alloc * reg :=
  let c := class_of t in
  let d := incr (al_d a) c in
  (AL d (sset (al_max a) c (Nat.max (sget (al_max a) c) (sget d c))) (t :: al_ts a),
   R c (u16 (sget (al_d a) c))).
(** regs.rs 596-625 (pop): saturating *)
Definition al_pop (a : alloc) (t : valtype) : alloc * reg :=
  let c := class_of t in
  let n := sget (al_d a) c - 1 in
  (AL (sset (al_d a) c n) (al_max a) (tl (al_ts a)), R c (u16 n)).
(** regs.rs 628-631 (pop_any) *)
Definition al_pop_any (a : alloc) : alloc :=
  match al_ts a with [] => a | t :: _ => fst (al_pop a t) end.
(** regs.rs 634-636 (peek_type) *)
Definition al_peek_type (a : alloc) : option valtype := hd_error (al_ts a).
(** regs.rs 639-661 (peek) *)
Definition al_peek (a : alloc) (t : valtype) : option reg :=
  let c := class_of t in
  match sget (al_d a) c with O => None | S n => Some (R c (u16 n)) end.
Fixpoint al_pushes (a : alloc) (ts : list valtype) : alloc * list reg :=
  match ts with
  | [] => (a, [])
  | t :: ts => let (a, r) := al_push a t in let (a, rs) := al_pushes a ts in (a, r :: rs)
  end.
(** pops in the given order *)
Fixpoint al_pops (a : alloc) (ts : list valtype) : alloc :=
  match ts with [] => a | t :: ts => al_pops (fst (al_pop a t)) ts end.

Definition count_cls (c : cls) (ts : list valtype) : nat :=
  length (filter (fun t => cls_eqb (class_of t) c) ts).
(** regs.rs 705-743, 806-845 (next_reg_for_type): assign increasing indices per class *)
Fixpoint number_regs (s : six nat) (ts : list valtype) : list reg :=
  match ts with
  | [] => []
  | t :: ts => R (class_of t) (u16 (sget s (class_of t))) :: number_regs (incr s (class_of t)) ts
  end.
(** regs.rs 664-744 (peek_regs_for_types) *)
Definition al_peek_regs (a : alloc) (ts : list valtype) : list reg :=
  number_regs (sbuild (fun c => sget (al_d a) c - count_cls c ts)) ts.

(** regs.rs 757-780 (save_state, restore_state) *)
Record alstate := AS { as_d : six nat; as_len : nat }.
Definition al_save (a : alloc) : alstate := AS (al_d a) (length (al_ts a)).
Definition al_restore (a : alloc) (s : alstate) : alloc :=
  AL (as_d s) (al_max a) (skipn (length (al_ts a) - as_len s) (al_ts a)).
