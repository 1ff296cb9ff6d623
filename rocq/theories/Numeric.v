(** Model of the integer numeric handlers, src/execution/handlers.rs 372-690, and
    of the integer conversions 892-940.  One constructor per [HANDLER_IDX_*] constant that
    [select_handler] (2096-2345) maps to one macro-generated function.
    Simplification: handler lookup by numeric index is replaced by the constructor. *)
From Coq Require Import ZArith Bool.
From Verif Require Import Word.
Open Scope Z_scope.

Inductive ibinop :=
| Iadd | Isub | Imul | Idiv_s | Idiv_u | Irem_s | Irem_u
| Iand | Ior | Ixor | Ishl | Ishr_s | Ishr_u | Irotl | Irotr.

Inductive irelop :=
| Ieq | Ine | Ilt_s | Ilt_u | Igt_s | Igt_u | Ile_s | Ile_u | Ige_s | Ige_u.

Inductive iunop := Iclz | Ictz | Ipopcnt | Iext8 | Iext16 | Iext32.

(** handlers.rs 412-423 (i32_add .. i32_rotr) and 452-508 (i32_div_s .. i32_rem_u). *)
Definition i32_binop (op : ibinop) (a b : Z) : res Z :=
  match op with
  | Iadd => Ok (wrapping_add 32 a b)
  | Isub => Ok (wrapping_sub 32 a b)
  | Imul => Ok (wrapping_mul 32 a b)
  | Iand => Ok (Z.land a b)
  | Ior => Ok (Z.lor a b)
  | Ixor => Ok (Z.lxor a b)
  | Ishl => Ok (wrapping_shl 32 a (cast_u 32 b))
  | Ishr_s => Ok (wrapping_shr 32 a (cast_u 32 b))
  | Ishr_u => Ok (cast_s 32 (wrapping_shr 32 (cast_u 32 a) (cast_u 32 b)))
  | Irotl => Ok (rotate_left 32 a (cast_u 32 b))
  | Irotr => Ok (rotate_right 32 a (cast_u 32 b))
  | Idiv_s => div_signed 32 a b
  | Idiv_u => let* q := div_unsigned (cast_u 32 a) (cast_u 32 b) in Ok (cast_s 32 q)
  | Irem_s => wrapping_rem 32 a b
  | Irem_u => let* r := rem_unsigned (cast_u 32 a) (cast_u 32 b) in Ok (cast_s 32 r)
  end.

(** handlers.rs 430-440 (i32_eq .. i32_ge_u); the boolean is cast [as i32]. *)
Definition i32_relop (op : irelop) (a b : Z) : Z :=
  b2z match op with
  | Ieq => a =? b
  | Ine => negb (a =? b)
  | Ilt_s => a <? b
  | Ilt_u => cast_u 32 a <? cast_u 32 b
  | Ile_s => a <=? b
  | Ile_u => cast_u 32 a <=? cast_u 32 b
  | Igt_s => b <? a
  | Igt_u => cast_u 32 b <? cast_u 32 a
  | Ige_s => b <=? a
  | Ige_u => cast_u 32 b <=? cast_u 32 a
  end.

(** handlers.rs 443-448 (i32_clz .. i32_extend16_s).  [Iext32] has no i32 handler: the
    operator does not exist at this width; the arm is the identity and unused. *)
Definition i32_unop (op : iunop) (a : Z) : Z :=
  match op with
  | Iclz => cast_s 32 (leading_zeros 32 a)
  | Ictz => cast_s 32 (trailing_zeros 32 a)
  | Ipopcnt => cast_s 32 (count_ones 32 a)
  | Iext8 => cast_s 8 a
  | Iext16 => cast_s 16 a
  | Iext32 => a
  end.

(** handlers.rs 446 (i32_eqz). *)
Definition i32_eqz (a : Z) : Z := b2z (a =? 0).

(** handlers.rs 573-586 (i64_add .. i64_rotr) and 632-690 (i64_div_s .. i64_rem_u);
    shift counts are [b as u32]. *)
Definition i64_binop (op : ibinop) (a b : Z) : res Z :=
  match op with
  | Iadd => Ok (wrapping_add 64 a b)
  | Isub => Ok (wrapping_sub 64 a b)
  | Imul => Ok (wrapping_mul 64 a b)
  | Iand => Ok (Z.land a b)
  | Ior => Ok (Z.lor a b)
  | Ixor => Ok (Z.lxor a b)
  | Ishl => Ok (wrapping_shl 64 a (cast_u 32 b))
  | Ishr_s => Ok (wrapping_shr 64 a (cast_u 32 b))
  | Ishr_u => Ok (cast_s 64 (wrapping_shr 64 (cast_u 64 a) (cast_u 32 b)))
  | Irotl => Ok (rotate_left 64 a (cast_u 32 b))
  | Irotr => Ok (rotate_right 64 a (cast_u 32 b))
  | Idiv_s => div_signed 64 a b
  | Idiv_u => let* q := div_unsigned (cast_u 64 a) (cast_u 64 b) in Ok (cast_s 64 q)
  | Irem_s => wrapping_rem 64 a b
  | Irem_u => let* r := rem_unsigned (cast_u 64 a) (cast_u 64 b) in Ok (cast_s 64 r)
  end.

(** handlers.rs 589-599 (i64_eq .. i64_ge_u): the result is an i32. *)
Definition i64_relop (op : irelop) (a b : Z) : Z :=
  b2z match op with
  | Ieq => a =? b
  | Ine => negb (a =? b)
  | Ilt_s => a <? b
  | Ilt_u => cast_u 64 a <? cast_u 64 b
  | Ile_s => a <=? b
  | Ile_u => cast_u 64 a <=? cast_u 64 b
  | Igt_s => b <? a
  | Igt_u => cast_u 64 b <? cast_u 64 a
  | Ige_s => b <=? a
  | Ige_u => cast_u 64 b <=? cast_u 64 a
  end.

(** handlers.rs 602-607 (i64_clz .. i64_extend32_s). *)
Definition i64_unop (op : iunop) (a : Z) : Z :=
  match op with
  | Iclz => cast_s 64 (leading_zeros 64 a)
  | Ictz => cast_s 64 (trailing_zeros 64 a)
  | Ipopcnt => cast_s 64 (count_ones 64 a)
  | Iext8 => cast_s 8 a
  | Iext16 => cast_s 16 a
  | Iext32 => cast_s 32 a
  end.

(** handlers.rs 610-619 (i64_eqz): i32 result. *)
Definition i64_eqz (a : Z) : Z := b2z (a =? 0).

(** handlers.rs 892-940: i32_wrap_i64 [v as i32], i64_extend_i32_s [v as i64],
    i64_extend_i32_u [(v as u32) as i64]. *)
Definition i32_wrap_i64 (a : Z) : Z := cast_s 32 a.
Definition i64_extend_i32_s (a : Z) : Z := cast_s 64 a.
Definition i64_extend_i32_u (a : Z) : Z := cast_s 64 (cast_u 32 a).

(** handler of the given width (handlers.rs has one set per width) *)
Definition binop (w : Z) := if w =? 32 then i32_binop else i64_binop.
Definition relop (w : Z) := if w =? 32 then i32_relop else i64_relop.
Definition unop (w : Z) := if w =? 32 then i32_unop else i64_unop.
Definition eqz (w : Z) := if w =? 32 then i32_eqz else i64_eqz.
