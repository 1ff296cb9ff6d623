(** Specification of the float side: IEEE-754 decoding over the rationals, and the
    WebAssembly definitions (4.3.3, 4.3.4) that do not need rounding. *)
From Coq Require Import ZArith QArith Qround Bool.
From Verif Require Import Word WasmNum Float.   (* format parameters and operator names only *)
Open Scope Z_scope.

Inductive fnum := NNan | NInf (neg : bool) | NFin (q : Q).

Definition fbias (F : fmt) : Z := 2 ^ (fe F - 1) - 1.
Definition sgnq (neg : bool) : Q := if neg then (-1)%Q else 1%Q.

(** IEEE-754 section 3.4: sign bit, biased exponent, trailing significand. *)
Definition ieee_decode (F : fmt) (b : Z) : fnum :=
  let s := Z.testbit b (fw F - 1) in
  let e := Z.land (Z.shiftr b (fm F)) (Z.ones (fe F)) in
  let t := Z.land b (Z.ones (fm F)) in
  if e =? Z.ones (fe F) then (if t =? 0 then NInf s else NNan)
  else if e =? 0 then NFin (sgnq s * ((inject_Z t / inject_Z (2 ^ fm F)) * Qpower 2 (1 - fbias F)))%Q
  else NFin (sgnq s * ((1 + inject_Z t / inject_Z (2 ^ fm F)) * Qpower 2 (e - fbias F)))%Q.

(** comparison of numbers; NaN is unordered *)
Definition num_lt (x y : fnum) : Prop :=
  match x, y with
  | NFin p, NFin q => (p < q)%Q
  | NInf true, NInf false | NInf true, NFin _ | NFin _, NInf false => True
  | _, _ => False
  end.
Definition num_eq (x y : fnum) : Prop :=
  match x, y with
  | NFin p, NFin q => (p == q)%Q
  | NInf a, NInf b => a = b
  | _, _ => False
  end.

Definition wasm_frel (op : frelop) (x y : fnum) : Prop :=
  match op with
  | Feq => num_eq x y
  | Fne => ~ num_eq x y
  | Flt => num_lt x y
  | Fgt => num_lt y x
  | Fle => num_lt x y \/ num_eq x y
  | Fge => num_lt y x \/ num_eq x y
  end.

(** Canonical NaN: all exponent bits one, only the top significand bit set (either sign). *)
Definition canonical_nan (F : fmt) (b : Z) : Prop :=
  b mod 2 ^ (fw F - 1) = (2 ^ fe F - 1) * 2 ^ fm F + 2 ^ (fm F - 1).
Definition is_zero_num (x : fnum) : Prop := match x with NFin q => (q == 0)%Q | _ => False end.
Definition sign_bit (F : fmt) (b : Z) : bool := Z.testbit b (fw F - 1).

(** 4.3.3 fmin/fmax *)
Definition wasm_fmin (F : fmt) (a b r : Z) : Prop :=
  let x := ieee_decode F a in let y := ieee_decode F b in
  ((x = NNan \/ y = NNan) -> canonical_nan F r) /\
  (x <> NNan -> y <> NNan ->
     (num_lt x y -> r = a) /\ (num_lt y x -> r = b) /\
     (* equal numbers: both patterns denote r; zeros of opposite sign give -0 *)
     (num_eq x y -> (r = a \/ r = b) /\ sign_bit F r = (sign_bit F a || sign_bit F b))).
Definition wasm_fmax (F : fmt) (a b r : Z) : Prop :=
  let x := ieee_decode F a in let y := ieee_decode F b in
  ((x = NNan \/ y = NNan) -> canonical_nan F r) /\
  (x <> NNan -> y <> NNan ->
     (num_lt x y -> r = b) /\ (num_lt y x -> r = a) /\
     (num_eq x y -> (r = a \/ r = b) /\ sign_bit F r = (sign_bit F a && sign_bit F b))).

(** trunc toward zero on rationals *)
Definition q_trunc (q : Q) : Z := if Qle_bool 0 q then Qfloor q else Qceiling q.

Definition in_range (s : sx) (w z : Z) : Prop :=
  match s with Sx => - 2 ^ (w - 1) <= z < 2 ^ (w - 1) | Ux => 0 <= z < 2 ^ w end.
(** 4.3.4 trunc_u/trunc_s: [Some z] the mathematical result, [None] undefined (trap). *)
Definition wasm_trunc (s : sx) (w : Z) (x : fnum) (r : option Z) : Prop :=
  match x with
  | NNan | NInf _ => r = None
  | NFin q => (in_range s w (q_trunc q) /\ r = Some (q_trunc q)) \/
              (~ in_range s w (q_trunc q) /\ r = None)
  end.
Definition range_lo (s : sx) (w : Z) := match s with Sx => - 2 ^ (w - 1) | Ux => 0 end.
Definition range_hi (s : sx) (w : Z) := match s with Sx => 2 ^ (w - 1) - 1 | Ux => 2 ^ w - 1 end.
(** 4.3.4 trunc_sat: result as a mathematical integer *)
Definition wasm_trunc_sat (s : sx) (w : Z) (x : fnum) : Z :=
  match x with
  | NNan => 0
  | NInf true => range_lo s w
  | NInf false => range_hi s w
  | NFin q => Z.max (range_lo s w) (Z.min (range_hi s w) (q_trunc q))
  end.

(** A trapping truncation at width [w] behaves as 4.3.4 says: the result is the mathematical
    truncation in the chosen signedness, or a trap exactly when that is undefined. *)
Definition trunc_agrees (F : fmt) (s : sx) (w b : Z) (r : res Z) : Prop :=
  (exists v, r = Ok v /\ in_s w v /\
     wasm_trunc s w (ieee_decode F b) (Some (match s with Sx => v | Ux => unsigned w v end))) \/
  (exists t, r = Trap t /\ wasm_trunc s w (ieee_decode F b) None).
