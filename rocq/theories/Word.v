(** Machine words and the Rust integer primitives chiwawa uses.

    A Rust [i32]/[i64] is modelled as the signed integer it denotes, a Rust
    [u32]/[u64] as its unsigned value, so every cast the source writes
    ([as u32], [as i32], [as i8] ...) appears in the model. *)
From Coq Require Import ZArith List Bool Lia.
Import ListNotations.
Open Scope Z_scope.

(** Outcome of evaluating one piece of chiwawa code.
    [Trap]: the Rust code returns a [RuntimeError], panics, or executes a host
    instruction that traps (wasm32 [i32.div_s] by zero ...).
    [UB]: the Rust code performs an access it does not check ([get_unchecked],
    [ptr::read_unaligned] outside the vector): nothing can be said about it. *)
Inductive trap :=
| THost            (* panic, [unreachable], host integer trap *)
| TInvalidConv     (* RuntimeError::InvalidConversionToInt, error.rs *)
| TIntOverflow     (* RuntimeError::IntegerOverflow *)
| TTableNotFound   (* RuntimeError::TableNotFound *)
| TTypeMismatch    (* RuntimeError::IndirectCallTypeMismatch / TypeMismatch *)
| TParamCount      (* RuntimeError::InvalidParameterCount *)
| TOutOfBounds     (* RuntimeError::TableOutOfBounds / memory out of bounds *)
| TUnreachable     (* RuntimeError::Unreachable *)
| TBadOperand      (* RuntimeError::InvalidOperand and similar internal errors *)
| TCheckpoint.     (* RuntimeError::CheckpointRequested *)

Inductive res (A : Type) :=
| Ok (a : A)
| Trap (t : trap)
| UB.
Arguments Ok {A} _. Arguments Trap {A} _. Arguments UB {A}.

Definition bind {A B} (r : res A) (f : A -> res B) : res B :=
  match r with Ok a => f a | Trap t => Trap t | UB => UB end.
Notation "'let*' x ':=' r 'in' k" := (bind r (fun x => k))
  (at level 200, x name, r at level 100, k at level 200, right associativity).

Definition of_opt {A} (o : option A) : res A :=
  match o with Some a => Ok a | None => UB end.

(** [x as uN] *)
Definition cast_u (w z : Z) : Z := z mod 2 ^ w.
(** [x as iN] *)
Definition cast_s (w z : Z) : Z :=
  let u := z mod 2 ^ w in if u <? 2 ^ (w - 1) then u else u - 2 ^ w.

(** The values an [iN] can hold / a [uN] can hold. *)
Definition in_s (w z : Z) : Prop := - 2 ^ (w - 1) <= z < 2 ^ (w - 1).
Definition in_u (w z : Z) : Prop := 0 <= z < 2 ^ w.

Definition b2z (b : bool) : Z := if b then 1 else 0.

(** Rust integer methods (core::num), at width [w], on signed values. *)
Definition wrapping_add (w a b : Z) : Z := cast_s w (a + b).
Definition wrapping_sub (w a b : Z) : Z := cast_s w (a - b).
Definition wrapping_mul (w a b : Z) : Z := cast_s w (a * b).
(** [a.wrapping_shl(n)]: the count is masked to [n mod w]. *)
Definition wrapping_shl (w a n : Z) : Z := cast_s w (Z.shiftl a (n mod w)).
(** signed [a.wrapping_shr(n)]: arithmetic shift. *)
Definition wrapping_shr (w a n : Z) : Z := Z.shiftr a (n mod w).
(** [a.rotate_left(n)] on the bit pattern. *)
Definition rotate_left (w a n : Z) : Z :=
  let u := cast_u w a in let k := n mod w in
  cast_s w (Z.lor (Z.shiftl u k) (Z.shiftr u (w - k))).
Definition rotate_right (w a n : Z) : Z :=
  let u := cast_u w a in let k := n mod w in
  cast_s w (Z.lor (Z.shiftr u k) (Z.shiftl u (w - k))).
(** plain [/] on signed integers: the host traps on 0 and on MIN / -1. *)
Definition div_signed (w a b : Z) : res Z :=
  if b =? 0 then Trap THost
  else if (a =? - 2 ^ (w - 1)) && (b =? -1) then Trap THost
  else Ok (Z.quot a b).
(** plain [/], [%] on unsigned integers. *)
Definition div_unsigned (a b : Z) : res Z := if b =? 0 then Trap THost else Ok (a / b).
Definition rem_unsigned (a b : Z) : res Z := if b =? 0 then Trap THost else Ok (a mod b).
(** [a.wrapping_rem(b)]: traps only on 0. *)
Definition wrapping_rem (w a b : Z) : res Z :=
  if b =? 0 then Trap THost
  else if (a =? - 2 ^ (w - 1)) && (b =? -1) then Ok 0
  else Ok (Z.rem a b).

Fixpoint pos_ctz (p : positive) : Z :=
  match p with xO q => 1 + pos_ctz q | _ => 0 end.
Fixpoint pos_popcount (p : positive) : Z :=
  match p with xO q => pos_popcount q | xI q => 1 + pos_popcount q | xH => 1 end.
Definition leading_zeros (w a : Z) : Z :=
  match cast_u w a with Zpos p => w - 1 - Z.log2 (Zpos p) | _ => w end.
Definition trailing_zeros (w a : Z) : Z :=
  match cast_u w a with Zpos p => pos_ctz p | _ => w end.
Definition count_ones (w a : Z) : Z :=
  match cast_u w a with Zpos p => pos_popcount p | _ => 0 end.
