(** Linear memory: src/execution/mem.rs, and the memory handlers of
    src/execution/handlers.rs 1282-1348 (loads, stores) and 1966-2090 (size .. fill). *)
From Coq Require Import ZArith List Bool Lia.
From Verif Require Import Word Value.
Import ListNotations.
Open Scope Z_scope.

(** mem.rs 15-21 (MemInst).  [m_gen] stands for the identity of the allocation: every call of
    [Vec::resize] may move the bytes, so a pointer cached before it is stale (mem.rs 75-82). *)
Record meminst := { m_data : list Z; m_max : option Z; m_gen : nat }.

Definition page : Z := 65536.
Definition mlen (m : list Z) : Z := Z.of_nat (length m).
(** [usize] arithmetic on wasm32 *)
Definition usize (z : Z) : Z := z mod 2 ^ 32.
(** Largest [Vec] allocation on a 32-bit host: [isize::MAX] bytes; beyond it [resize] panics. *)
Definition isize_max : Z := 2 ^ 31 - 1.

Inductive loadop :=
| LI32 | LI64 | LF32 | LF64
| LI32_8s | LI32_8u | LI32_16s | LI32_16u
| LI64_8s | LI64_8u | LI64_16s | LI64_16u | LI64_32s | LI64_32u.
Inductive storeop := SI32 | SI64 | SF32 | SF64 | SI32_8 | SI32_16 | SI64_8 | SI64_16 | SI64_32.

Definition load_bytes (op : loadop) : Z :=
  match op with
  | LI32 | LF32 | LI64_32s | LI64_32u => 4 | LI64 | LF64 => 8
  | LI32_8s | LI32_8u | LI64_8s | LI64_8u => 1
  | LI32_16s | LI32_16u | LI64_16s | LI64_16u => 2
  end.
Definition store_bytes_n (op : storeop) : Z :=
  match op with
  | SI32 | SF32 | SI64_32 => 4 | SI64 | SF64 => 8 | SI32_8 | SI64_8 => 1 | SI32_16 | SI64_16 => 2
  end.

(** little-endian reads and writes of [n] bytes (mem.rs 224-326, wasm32 is little-endian) *)
Fixpoint le_decode (l : list Z) : Z :=
  match l with [] => 0 | b :: l => b + 256 * le_decode l end.
Fixpoint le_encode (n : nat) (z : Z) : list Z :=
  match n with O => [] | S n => z mod 256 :: le_encode n (z / 256) end.

(** [read_unaligned] / [write_unaligned] at a raw pointer: not checked by the code. *)
Definition raw_read (m : list Z) (pos n : Z) : res (list Z) :=
  if (0 <=? pos) && (pos + n <=? mlen m) then Ok (firstn (Z.to_nat n) (skipn (Z.to_nat pos) m)) else UB.
Definition splice (m : list Z) (pos : nat) (bs : list Z) : list Z :=
  firstn pos m ++ bs ++ skipn (pos + length bs) m.
Definition raw_write (m : list Z) (pos : Z) (bs : list Z) : res (list Z) :=
  if (0 <=? pos) && (pos + mlen bs <=? mlen m) then Ok (splice m (Z.to_nat pos) bs) else UB.

(** [(p as usize) + (offset as usize)]: p is i32, offset is u64 (handlers.rs 1294, 1337) *)
Definition eff_addr (p off : Z) : Z := usize (cast_u 32 p + cast_u 32 off).

(** handlers.rs 1304-1317: the closure of each mem_load! instance *)
Definition load_conv (op : loadop) (raw : Z) : val :=
  match op with
  | LI32 => VI32 (cast_s 32 raw)
  | LI64 => VI64 (cast_s 64 raw)
  | LF32 => VF32 raw
  | LF64 => VF64 raw
  | LI32_8s => VI32 (cast_s 32 (cast_s 8 raw))
  | LI32_8u => VI32 (cast_s 32 raw)
  | LI32_16s => VI32 (cast_s 32 (cast_s 16 raw))
  | LI32_16u => VI32 (cast_s 32 raw)
  | LI64_8s => VI64 (cast_s 64 (cast_s 8 raw))
  | LI64_8u => VI64 (cast_s 64 raw)
  | LI64_16s => VI64 (cast_s 64 (cast_s 16 raw))
  | LI64_16u => VI64 (cast_s 64 raw)
  | LI64_32s => VI64 (cast_s 64 (cast_s 32 raw))
  | LI64_32u => VI64 (cast_s 64 raw)
  end.
(** mem_load!, handlers.rs 1284-1302 *)
Definition mem_load (op : loadop) (m : list Z) (p off : Z) : res val :=
  let* bs := raw_read m (eff_addr p off) (load_bytes op) in
  Ok (load_conv op (le_decode bs)).

(** class of the loaded / stored value *)
Definition load_cls (op : loadop) : cls :=
  match op with
  | LI32 | LI32_8s | LI32_8u | LI32_16s | LI32_16u => CI32
  | LF32 => CF32 | LF64 => CF64 | _ => CI64
  end.
Definition store_cls (op : storeop) : cls :=
  match op with
  | SI32 | SI32_8 | SI32_16 => CI32 | SF32 => CF32 | SF64 => CF64 | _ => CI64
  end.
Definition payload (v : val) : Z :=
  match v with VI32 z | VI64 z | VF32 z | VF64 z | VV128 z => z | VRef _ => 0 end.

(** mem_store!, handlers.rs 1325-1352: the cast [as u8/u16/u32] keeps the low bytes, which is what
    [le_encode] of the given length does. *)
Definition mem_store (op : storeop) (m : list Z) (p off : Z) (v : val) : res (list Z) :=
  raw_write m (eff_addr p off) (le_encode (Z.to_nat (store_bytes_n op)) (payload v)).

(** mem.rs 85-90 *)
Definition mem_size (m : meminst) : Z := cast_s 32 (mlen (m_data m) / page).

(** [Vec::resize(n, 0)] *)
Definition resize (l : list Z) (n : nat) : list Z := firstn n l ++ repeat 0 (n - length l).

(** mem.rs 92-116 (mem_grow) *)
Definition mem_grow_raw (m : meminst) (size : Z) : res (meminst * Z) :=
  let prev := mem_size m in
  let new := cast_s 32 (prev + size) in
  if match m_max m with Some mx => cast_s 32 mx <? new | None => false end then Ok (m, -1)
  else if 65536 <? new then Ok (m, -1)
  else let n := usize (cast_u 32 new * page) in
       if isize_max <? n then Trap THost
       else Ok ({| m_data := resize (m_data m) (Z.to_nat n); m_max := m_max m; m_gen := S (m_gen m) |}, prev).
(** handlers.rs 1986-2013 (mem_grow): a negative i32 does not convert to u32 *)
Definition mem_grow (m : meminst) (delta : Z) : res (meminst * Z) :=
  if delta <? 0 then Trap TParamCount else mem_grow_raw m delta.

(** mem.rs 150-163 with handlers.rs 2015-2035: [ptr::copy] = memmove; with a zero length nothing
    is accessed. *)
Definition mem_copy (m : list Z) (d s n : Z) : res (list Z) :=
  let d := cast_u 32 d in let s := cast_u 32 s in let n := cast_u 32 n in
  if n =? 0 then Ok m
  else let* bs := raw_read m s n in raw_write m d bs.
(** mem.rs 168-178 with handlers.rs 2067-2090 *)
Definition mem_fill (m : list Z) (d v n : Z) : res (list Z) :=
  let d := cast_u 32 d in let n := cast_u 32 n in
  if n =? 0 then Ok m
  else if mlen m <? d + n then UB else raw_write m d (repeat (cast_u 8 v) (Z.to_nat n)).

(** Rust checked slicing [l[a..b]]: panics if [a > b] or [b > len] *)
Definition slice (l : list Z) (a b : Z) : res (list Z) :=
  if (a <=? b) && (b <=? mlen l) then Ok (firstn (Z.to_nat (b - a)) (skipn (Z.to_nat a) l)) else Trap THost.
(** mem.rs 45-49 (init) *)
Definition mem_init_at (m : list Z) (off : Z) (bs : list Z) : res (list Z) :=
  let* _ := slice m off (usize (off + mlen bs)) in Ok (splice m (Z.to_nat off) bs).
(** handlers.rs 2037-2065 (mem_init) *)
Definition mem_init (m : list Z) (datas : list (list Z)) (k : nat) (d s n : Z) : res (list Z) :=
  match nth_error datas k with
  | None => Trap TBadOperand
  | Some bytes =>
      let d := cast_u 32 d in let s := cast_u 32 s in let n := cast_u 32 n in
      if 0 <? n then
        let* bs := slice bytes s (usize (s + n)) in mem_init_at m d bs
      else Ok m
  end.

Fixpoint upd {A} (l : list A) (i : nat) (x : A) : list A :=
  match l, i with
  | [], _ => []
  | _ :: l, O => x :: l
  | y :: l, S i => y :: upd l i x
  end.
(** data.rs 30-33 with handlers.rs 1824-1836: index out of range is ignored *)
Definition data_drop (datas : list (list Z)) (k : nat) : list (list Z) := upd datas k [].

(** mem.rs 24-41 (new): [min * 65536] in u32 *)
Definition mem_new (min : Z) (mx : option Z) : meminst :=
  {| m_data := repeat 0 (Z.to_nat (usize (min * page))); m_max := mx; m_gen := 0 |}.
