(** Specification: the integer part of WebAssembly Core 2.0, section 4.3.2
    "Integer Operations", written from the standard and independent of chiwawa.
    [iN] values are unsigned integers in [0, 2^N); bitwise operators are defined on the
    bit sequence of the value (least significant bit first here). *)
From Coq Require Import ZArith List Bool.
From Verif Require Import Numeric.   (* operator names only *)
Import ListNotations.
Open Scope Z_scope.

(** The standard's [signed_N] and its inverse. *)
Definition signed (N i : Z) : Z := if i <? 2 ^ (N - 1) then i else i - 2 ^ N.
Definition unsigned (N z : Z) : Z := if z <? 0 then z + 2 ^ N else z.

(** Bit sequence of [i], [n] bits, least significant first; and back. *)
Fixpoint ibits (n : nat) (i : Z) : list bool :=
  match n with O => [] | S n => Z.odd i :: ibits n (i / 2) end.
Fixpoint of_bits (l : list bool) : Z :=
  match l with [] => 0 | b :: l => (if b then 1 else 0) + 2 * of_bits l end.
Fixpoint map2 {A B C} (f : A -> B -> C) (l : list A) (m : list B) : list C :=
  match l, m with a :: l, b :: m => f a b :: map2 f l m | _, _ => [] end.

Definition width (N : Z) : nat := Z.to_nat N.
Definition bitwise (N : Z) (f : bool -> bool -> bool) (a b : Z) : Z :=
  of_bits (map2 f (ibits (width N) a) (ibits (width N) b)).

(** Rotating left by [k] moves the low-order bit to position [k]. *)
Definition rotl_list (k : nat) (l : list bool) : list bool :=
  let n := length l in skipn (n - k) l ++ firstn (n - k) l.
Definition rotr_list (k : nat) (l : list bool) : list bool :=
  skipn k l ++ firstn k l.

Fixpoint count_prefix (b : bool) (l : list bool) : Z :=
  match l with [] => 0 | x :: l => if Bool.eqb x b then 1 + count_prefix b l else 0 end.
Fixpoint count_true (l : list bool) : Z :=
  match l with [] => 0 | x :: l => (if x then 1 else 0) + count_true l end.

(** Quotient truncated toward zero and remainder with the dividend's sign, on mathematical
    integers ([Z.quot], [Z.rem] are exactly these). *)
Definition wasm_ibinop (N : Z) (op : ibinop) (a b : Z) : option Z :=
  match op with
  | Iadd => Some ((a + b) mod 2 ^ N)
  | Isub => Some ((a - b + 2 ^ N) mod 2 ^ N)
  | Imul => Some ((a * b) mod 2 ^ N)
  | Idiv_u => if b =? 0 then None else Some (a / b)
  | Idiv_s =>
      if b =? 0 then None
      else let q := Z.quot (signed N a) (signed N b) in
           if q =? 2 ^ (N - 1) then None else Some (unsigned N q)
  | Irem_u => if b =? 0 then None else Some (a - b * (a / b))
  | Irem_s => if b =? 0 then None else Some (unsigned N (Z.rem (signed N a) (signed N b)))
  | Iand => Some (bitwise N andb a b)
  | Ior => Some (bitwise N orb a b)
  | Ixor => Some (bitwise N xorb a b)
  | Ishl => let k := b mod N in Some ((a * 2 ^ k) mod 2 ^ N)
  | Ishr_u => let k := b mod N in Some (a / 2 ^ k)
  | Ishr_s => let k := b mod N in Some (unsigned N (signed N a / 2 ^ k))
  | Irotl => Some (of_bits (rotl_list (Z.to_nat (b mod N)) (ibits (width N) a)))
  | Irotr => Some (of_bits (rotr_list (Z.to_nat (b mod N)) (ibits (width N) a)))
  end.

Definition bool_i32 (b : bool) : Z := if b then 1 else 0.

Definition wasm_irelop (N : Z) (op : irelop) (a b : Z) : Z :=
  bool_i32 match op with
  | Ieq => a =? b
  | Ine => negb (a =? b)
  | Ilt_u => a <? b
  | Ilt_s => signed N a <? signed N b
  | Igt_u => a >? b
  | Igt_s => signed N a >? signed N b
  | Ile_u => a <=? b
  | Ile_s => signed N a <=? signed N b
  | Ige_u => a >=? b
  | Ige_s => signed N a >=? signed N b
  end.

(** [extend_s M N]: read the low M bits as signed, write as N bits. *)
Definition wasm_extend_s (M N a : Z) : Z := unsigned N (signed M (a mod 2 ^ M)).

Definition wasm_iunop (N : Z) (op : iunop) (a : Z) : Z :=
  match op with
  | Iclz => count_prefix false (rev (ibits (width N) a))
  | Ictz => count_prefix false (ibits (width N) a)
  | Ipopcnt => count_true (ibits (width N) a)
  | Iext8 => wasm_extend_s 8 N a
  | Iext16 => wasm_extend_s 16 N a
  | Iext32 => wasm_extend_s 32 N a
  end.

Definition wasm_eqz (a : Z) : Z := bool_i32 (a =? 0).
Definition wasm_wrap (a : Z) : Z := a mod 2 ^ 32.
Definition wasm_extend_u (a : Z) : Z := a.

(** operator groups used in the property statements *)
Definition total_ops : list ibinop := [Iadd; Isub; Imul; Iand; Ior; Ixor].
Definition div_ops : list ibinop := [Idiv_s; Idiv_u; Irem_s; Irem_u].
Definition shift_ops : list ibinop := [Ishl; Ishr_s; Ishr_u; Irotl; Irotr].
