(** Specification of linear memory, from WebAssembly Core 2.0 sections 4.4.7 (memory instructions)
    and 4.5.3.9 (growing memories).  A memory is a list of bytes; [None] is a trap.
    Operands [i], [d], [s], [n], [off] are unsigned 32-bit integers. *)
From Coq Require Import ZArith List Bool.
From Verif Require Import Word Value WasmNum Mem.  (* from Mem: operator names, [mlen], [page] *)
Import ListNotations.
Open Scope Z_scope.

Definition byte_at (m : list Z) (i : Z) : Z := nth (Z.to_nat i) m 0.
Definition is_byte (b : Z) : Prop := 0 <= b < 256.
Definition bytes_ok (m : list Z) : Prop := Forall is_byte m.

(** sum of byte k times 256^k for k below n *)
Fixpoint le_sum (n : nat) (m : list Z) (a : Z) : Z :=
  match n with O => 0 | S n => byte_at m a + 256 * le_sum n m (a + 1) end.

(** result type, storage bytes and signedness of each load *)
Inductive ext := XNone | XSigned | XUnsigned.
Definition load_spec (op : loadop) : valtype * Z * ext :=
  match op with
  | LI32 => (TI32, 4, XNone) | LI64 => (TI64, 8, XNone) | LF32 => (TF32, 4, XNone) | LF64 => (TF64, 8, XNone)
  | LI32_8s => (TI32, 1, XSigned) | LI32_8u => (TI32, 1, XUnsigned)
  | LI32_16s => (TI32, 2, XSigned) | LI32_16u => (TI32, 2, XUnsigned)
  | LI64_8s => (TI64, 1, XSigned) | LI64_8u => (TI64, 1, XUnsigned)
  | LI64_16s => (TI64, 2, XSigned) | LI64_16u => (TI64, 2, XUnsigned)
  | LI64_32s => (TI64, 4, XSigned) | LI64_32u => (TI64, 4, XUnsigned)
  end.
Definition store_spec (op : storeop) : valtype * Z :=
  match op with
  | SI32 => (TI32, 4) | SI64 => (TI64, 8) | SF32 => (TF32, 4) | SF64 => (TF64, 8)
  | SI32_8 => (TI32, 1) | SI32_16 => (TI32, 2) | SI64_8 => (TI64, 1) | SI64_16 => (TI64, 2) | SI64_32 => (TI64, 4)
  end.
Definition bitsize (t : valtype) : Z :=
  match t with TI32 | TF32 => 32 | TI64 | TF64 => 64 | _ => 128 end.
(** the runtime value of type [t] with bit pattern [u] (integers are kept signed at run time) *)
Definition of_pattern (t : valtype) (u : Z) : val :=
  match t with
  | TI32 => VI32 (signed 32 u) | TI64 => VI64 (signed 64 u)
  | TF32 => VF32 u | TF64 => VF64 u | _ => VV128 u
  end.
Definition pattern (v : val) : Z :=
  match v with
  | VI32 z => unsigned 32 z | VI64 z => unsigned 64 z | VF32 b | VF64 b | VV128 b => b | VRef _ => 0
  end.

Definition wasm_load (op : loadop) (m : list Z) (i off : Z) : option val :=
  let '(t, n, x) := load_spec op in
  let ea := i + off in
  if mlen m <? ea + n then None
  else let c := le_sum (Z.to_nat n) m ea in
       Some (of_pattern t (match x with XSigned => wasm_extend_s (8 * n) (bitsize t) c | _ => c end)).

(** [stored m m' a n c]: m' is m with the n bytes at a replaced by the little-endian bytes of c *)
Definition stored (m m' : list Z) (a n c : Z) : Prop :=
  length m' = length m /\
  forall k, 0 <= k < mlen m ->
    byte_at m' k = if (a <=? k) && (k <? a + n) then (c / 256 ^ (k - a)) mod 256 else byte_at m k.

Definition wasm_store (op : storeop) (m : list Z) (i off : Z) (v : val) (r : option (list Z)) : Prop :=
  let '(t, n) := store_spec op in
  let ea := i + off in
  if mlen m <? ea + n then r = None
  else exists m', r = Some m' /\ stored m m' ea n (pattern v).

(** memory.size / memory.grow on page counts; [None] result of the option means failure (-1) *)
Definition pages (m : list Z) : Z := mlen m / page.
Definition wasm_grow (m : list Z) (mx : option Z) (n : Z) : option (list Z) :=
  let len := pages m + n in
  if (65536 <? len) || (match mx with Some x => x <? len | None => false end) then None
  else Some (m ++ repeat 0 (Z.to_nat (n * page))).

(** bulk operations: the whole range is checked first; then the destination range is replaced *)
Definition replaced (m m' : list Z) (d n : Z) (f : Z -> Z) : Prop :=
  length m' = length m /\
  forall k, 0 <= k < mlen m -> byte_at m' k = if (d <=? k) && (k <? d + n) then f (k - d) else byte_at m k.
Definition wasm_copy (m : list Z) (d s n : Z) (r : option (list Z)) : Prop :=
  if (mlen m <? s + n) || (mlen m <? d + n) then r = None
  else exists m', r = Some m' /\ replaced m m' d n (fun k => byte_at m (s + k)).
Definition wasm_fill (m : list Z) (d v n : Z) (r : option (list Z)) : Prop :=
  if mlen m <? d + n then r = None
  else exists m', r = Some m' /\ replaced m m' d n (fun _ => v mod 256).
Definition wasm_init (m data : list Z) (d s n : Z) (r : option (list Z)) : Prop :=
  if (mlen data <? s + n) || (mlen m <? d + n) then r = None
  else exists m', r = Some m' /\ replaced m m' d n (fun k => byte_at data (s + k)).
