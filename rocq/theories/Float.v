(** Floating-point values as bit patterns, and the handlers of
    src/execution/handlers.rs 700-890 (f32 and f64 min, max, copysign, abs, neg, comparisons)
    and 927-1045, 1112-1275 (float-to-int conversions).

    Rust's float primitives ([<], [==], [is_nan], [trunc], [as i32]) are given their IEEE-754
    meaning: every finite float is an integer multiple of 2^-K (K = 149 or 1074); [fx] is that
    integer, so comparison and truncation are exact integer computations.
    Rounding arithmetic is host arithmetic and lives in [hostfp] below. *)
From Coq Require Import ZArith Bool.
From Verif Require Import Word.
Open Scope Z_scope.

Record fmt := { fw : Z; fe : Z; fm : Z }.
Definition F32 : fmt := {| fw := 32; fe := 8; fm := 23 |}.
Definition F64 : fmt := {| fw := 64; fe := 11; fm := 52 |}.
(** scale: every finite value times [2^scale] is an integer *)
Definition fscale (F : fmt) : Z := 2 ^ (fe F - 1) - 2 + fm F.

Definition fsign (F : fmt) (b : Z) : bool := 2 ^ (fw F - 1) <=? b.
Definition fexpo (F : fmt) (b : Z) : Z := (b / 2 ^ fm F) mod 2 ^ fe F.
Definition fmant (F : fmt) (b : Z) : Z := b mod 2 ^ fm F.

(** [f32::is_nan] *)
Definition is_nan (F : fmt) (b : Z) : bool :=
  (fexpo F b =? 2 ^ fe F - 1) && negb (fmant F b =? 0).
Definition is_inf (F : fmt) (b : Z) : bool :=
  (fexpo F b =? 2 ^ fe F - 1) && (fmant F b =? 0).
(** magnitude of a finite pattern times 2^scale *)
Definition fmag (F : fmt) (b : Z) : Z :=
  if fexpo F b =? 0 then fmant F b else (2 ^ fm F + fmant F b) * 2 ^ (fexpo F b - 1).

(** numeric class of a pattern; finite values are scaled by 2^scale *)
Inductive fcls := CNan | CNinf | CFin (z : Z) | CPinf.
Definition classify (F : fmt) (b : Z) : fcls :=
  if is_nan F b then CNan
  else if is_inf F b then (if fsign F b then CNinf else CPinf)
  else CFin (if fsign F b then - fmag F b else fmag F b).

(** Rust [<], [<=], [==] on floats *)
Definition cls_lt (a b : fcls) : bool :=
  match a, b with
  | CNan, _ | _, CNan => false
  | CNinf, CNinf => false | CNinf, _ => true | _, CNinf => false
  | CPinf, _ => false | _, CPinf => true
  | CFin x, CFin y => x <? y
  end.
Definition cls_eq (a b : fcls) : bool :=
  match a, b with
  | CNinf, CNinf => true | CPinf, CPinf => true | CFin x, CFin y => x =? y | _, _ => false
  end.
Definition cls_le (a b : fcls) : bool := cls_lt a b || cls_eq a b.
Definition f_lt F a b := cls_lt (classify F a) (classify F b).
Definition f_le F a b := cls_le (classify F a) (classify F b).
Definition f_eq F a b := cls_eq (classify F a) (classify F b).

(** [f32::NAN] / [f64::NAN], [-0.0], [0.0] *)
Definition fnan (F : fmt) : Z := (2 ^ fe F - 1) * 2 ^ fm F + 2 ^ (fm F - 1).
Definition fnegzero (F : fmt) : Z := 2 ^ (fw F - 1).
(** Rust [f32::min]/[f32::max] on two non-NaN arguments (std docs: the lesser/greater). *)
Definition rust_min F a b := if f_lt F b a then b else a.
Definition rust_max F a b := if f_lt F a b then b else a.

(** handlers.rs 736-748 (f32_min), 845-857 (f64_min): same closure at both widths *)
Definition f_min (F : fmt) (a b : Z) : Z :=
  if is_nan F a || is_nan F b then fnan F
  else if f_eq F a 0 && f_eq F b 0 then
    (if fsign F a || fsign F b then fnegzero F else 0)
  else rust_min F a b.
(** handlers.rs 749-761 (f32_max), 858-870 (f64_max) *)
Definition f_max (F : fmt) (a b : Z) : Z :=
  if is_nan F a || is_nan F b then fnan F
  else if f_eq F a 0 && f_eq F b 0 then
    (if negb (fsign F a) || negb (fsign F b) then 0 else fnegzero F)
  else rust_max F a b.
(** handlers.rs 762 (f32_copysign), 871: [a.copysign(b)] *)
Definition f_copysign (F : fmt) (a b : Z) : Z :=
  a mod 2 ^ (fw F - 1) + (if fsign F b then 2 ^ (fw F - 1) else 0).
(** handlers.rs 765-766, 874-875: [a.abs()], [-a] *)
Definition f_abs (F : fmt) (a : Z) : Z := a mod 2 ^ (fw F - 1).
Definition f_neg (F : fmt) (a : Z) : Z := (a + 2 ^ (fw F - 1)) mod 2 ^ fw F.

Inductive frelop := Feq | Fne | Flt | Fgt | Fle | Fge.
(** handlers.rs 774-779 (f32_eq..f32_ge), 883-888 (the f64 versions): boolean [as i32] *)
Definition f_relop (F : fmt) (op : frelop) (a b : Z) : Z :=
  b2z match op with
  | Feq => f_eq F a b
  | Fne => negb (f_eq F a b)
  | Flt => f_lt F a b
  | Fgt => f_lt F b a
  | Fle => f_le F a b
  | Fge => f_le F b a
  end.

(** ** float to integer *)
(** precision in bits *)
Definition fprec (F : fmt) : Z := fm F + 1.
(** [z as f32] for an integer constant [z]: round to nearest, ties to even; result is the
    integer value of the float (all constants used are below 2^64, hence finite). *)
Definition int_as_float (F : fmt) (z : Z) : Z :=
  let a := Z.abs z in
  if a <? 2 ^ fprec F then z
  else let s := Z.log2 a - (fprec F - 1) in
       let q := a / 2 ^ s in let r := a mod 2 ^ s in
       let q' := if (2 ^ (s - 1) <? r) || ((r =? 2 ^ (s - 1)) && Z.odd q) then q + 1 else q in
       Z.sgn z * (q' * 2 ^ s).
Definition const_f (F : fmt) (z : Z) : fcls := CFin (int_as_float F z * 2 ^ fscale F).

(** [v.trunc()] *)
Definition cls_trunc (F : fmt) (c : fcls) : fcls :=
  match c with CFin z => CFin (Z.quot z (2 ^ fscale F) * 2 ^ fscale F) | _ => c end.
(** [t as iN] / [t as uN]: Rust float casts saturate, NaN gives 0. *)
Definition sat (lo hi z : Z) : Z := if z <? lo then lo else if hi <? z then hi else z.
Definition cls_cast (F : fmt) (lo hi : Z) (c : fcls) : Z :=
  match c with
  | CNan => 0 | CNinf => lo | CPinf => hi
  | CFin z => sat lo hi (Z.quot z (2 ^ fscale F))
  end.

Definition i_min (w : Z) := - 2 ^ (w - 1).
Definition i_max (w : Z) := 2 ^ (w - 1) - 1.
Definition u_max (w : Z) := 2 ^ w - 1.

Inductive sx := Sx | Ux.   (* signed / unsigned variant *)

(** conv_trap!, handlers.rs 1112-1175: conv_i32_trunc_{f32,f64}_{s,u}:
    NaN traps; [t = v.trunc()]; [t < min || t > max] traps; [t as i32] or [(t as u32) as i32]. *)
Definition conv_i32_trunc (F : fmt) (s : sx) (b : Z) : res Z :=
  let v := classify F b in
  if is_nan F b then Trap TInvalidConv
  else let t := cls_trunc F v in
  match s with
  | Sx => if cls_lt t (const_f F (i_min 32)) || cls_lt (const_f F (i_max 32)) t then Trap TIntOverflow
          else Ok (cls_cast F (i_min 32) (i_max 32) t)
  | Ux => if cls_lt t (CFin 0) || cls_lt (const_f F (u_max 32)) t then Trap TIntOverflow
          else Ok (cast_s 32 (cls_cast F 0 (u_max 32) t))
  end.
(** handlers.rs 1178-1258: conv_i64_trunc_{f32,f64}_{s,u}; the upper test is [t >= MAX as f]. *)
Definition conv_i64_trunc (F : fmt) (s : sx) (b : Z) : res Z :=
  let v := classify F b in
  if is_nan F b then Trap TInvalidConv
  else let t := cls_trunc F v in
  match s with
  | Sx => if cls_lt t (const_f F (i_min 64)) || cls_le (const_f F (i_max 64)) t then Trap TIntOverflow
          else Ok (cls_cast F (i_min 64) (i_max 64) t)
  | Ux => if cls_lt t (CFin 0) || cls_le (const_f F (u_max 64)) t then Trap TIntOverflow
          else Ok (cast_s 64 (cls_cast F 0 (u_max 64) t))
  end.
(** handlers.rs 927-1045: conv_iN_trunc_sat_fM_{s,u} *)
Definition conv_trunc_sat (w : Z) (F : fmt) (s : sx) (b : Z) : Z :=
  let v := classify F b in
  match s with
  | Sx => if is_nan F b then 0
          else if cls_le v (const_f F (i_min w)) then i_min w
          else if cls_le (const_f F (i_max w)) v then i_max w
          else cls_cast F (i_min w) (i_max w) (cls_trunc F v)
  | Ux => if is_nan F b || cls_le v (CFin 0) then 0
          else if cls_le (const_f F (u_max w)) v then cast_s w (u_max w)
          else cast_s w (cls_cast F 0 (u_max w) (cls_trunc F v))
  end.

(** Reinterpretations, handlers.rs 1083-1108: [to_bits() as iN], [from_bits(v as uN)]. *)
Definition reinterpret_f2i (w b : Z) : Z := cast_s w b.
Definition reinterpret_i2f (w z : Z) : Z := cast_u w z.

(** Host float arithmetic: the primitives chiwawa delegates to the host CPU
    (handlers.rs 731-734, 767-771, 840-843, 876-880, 1047-1080).  Theorems quantify over it. *)
Inductive fbin := Fadd | Fsub | Fmul | Fdiv.
Inductive fround := Fceil | Ffloor | Ftrunc | Fnearest | Fsqrt.
Record hostfp := {
  h_bin : fmt -> fbin -> Z -> Z -> Z;
  h_round : fmt -> fround -> Z -> Z;
  h_of_int : fmt -> Z -> Z;         (* integer value to float *)
  h_demote : Z -> Z;
  h_promote : Z -> Z
}.
