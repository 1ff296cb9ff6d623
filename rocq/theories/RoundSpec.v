(** Specification of floating-point arithmetic: the WebAssembly definitions (Core 4.3.3, 4.3.4) of the operators
    that round, over the rationals and the IEEE 754 decoding of WasmFloat.v. *)
From Coq Require Import ZArith QArith Qabs Qround Bool List.
From Verif Require Import Word Float WasmFloat.   (* of Float: format parameters and operator names only *)
Import ListNotations.
Open Scope Z_scope.

(** A number, given by how it compares with every rational. *)
Definition number := Q -> comparison.
Definition rational (q : Q) : number := fun p => (q ?= p)%Q.
(** the square root of [q >= 0] *)
Definition root (q : Q) : number := fun p => match (p ?= 0)%Q with Lt => Gt | _ => (q ?= p * p)%Q end.

(** 4.3.3, candidates for the result of rounding: the finite values, and [2^limit] in place of infinity *)
Definition reading (F : fmt) (b : Z) : option Q :=
  match ieee_decode F b with
  | NNan => None
  | NInf s => Some (sgnq s * Qpower 2 (2 ^ (fe F - 1)))%Q
  | NFin q => Some q
  end.
(** [x] is nearer to [v] than to [v'], or as near, when [even] says so: on the right side of the middle *)
Definition nearer (x : number) (v v' : Q) (even : bool) : Prop :=
  let side := x ((v + v') / 2)%Q in
  match (v ?= v')%Q with
  | Eq => True
  | Lt => side = Lt \/ (side = Eq /\ even = true)
  | Gt => side = Gt \/ (side = Eq /\ even = true)
  end.
(** [float_N(x)]: round to nearest, ties to even; 0 has the sign of [x] *)
Definition rounded (F : fmt) (x : number) (r : Z) : Prop :=
  in_u (fw F) r /\
  exists v, reading F r = Some v /\
    (forall r' v', in_u (fw F) r' -> reading F r' = Some v' -> nearer x v v' (Z.even r)) /\
    (is_zero_num (ieee_decode F r) -> sign_bit F r = match x 0%Q with Lt => true | _ => false end).

(** NaNs, 4.3.3 NaN propagation: canonical if every NaN among the operands is, otherwise any quiet one *)
Definition arithmetic_nan (F : fmt) (b : Z) : Prop :=
  ieee_decode F b = NNan /\ Z.testbit b (fm F - 1) = true.
Definition propagated (F G : fmt) (args : list Z) (r : Z) : Prop :=
  in_u (fw G) r /\ arithmetic_nan G r /\
  ((forall a, In a args -> ieee_decode F a = NNan -> canonical_nan F a) -> canonical_nan G r).
Definition infinity (F : fmt) (s : bool) (r : Z) : Prop := in_u (fw F) r /\ ieee_decode F r = NInf s.
Definition zero (F : fmt) (s : bool) (r : Z) : Prop :=
  in_u (fw F) r /\ is_zero_num (ieee_decode F r) /\ sign_bit F r = s.

Definition fadd (F : fmt) (a b r : Z) : Prop :=
  match ieee_decode F a, ieee_decode F b with
  | NNan, _ | _, NNan => propagated F F [a; b] r
  | NInf s, NInf t => if eqb s t then r = a else propagated F F [] r
  | NInf _, NFin _ => r = a
  | NFin _, NInf _ => r = b
  | NFin p, NFin q =>
      if Qeq_bool (p + q) 0 then zero F (sign_bit F a && sign_bit F b) r    (* -0 only from -0 and -0 *)
      else rounded F (rational (p + q)) r
  end.
Definition fsub (F : fmt) (a b r : Z) : Prop :=
  match ieee_decode F a, ieee_decode F b with
  | NNan, _ | _, NNan => propagated F F [a; b] r
  | NInf s, NInf t => if eqb s t then propagated F F [] r else r = a
  | NInf _, NFin _ => r = a
  | NFin _, NInf t => infinity F (negb t) r
  | NFin p, NFin q =>
      if Qeq_bool p q then zero F (sign_bit F a && negb (sign_bit F b)) r   (* -0 only from -0 and +0 *)
      else rounded F (rational (p - q)) r
  end.
Definition fmul (F : fmt) (a b r : Z) : Prop :=
  let s := xorb (sign_bit F a) (sign_bit F b) in
  match ieee_decode F a, ieee_decode F b with
  | NNan, _ | _, NNan => propagated F F [a; b] r
  | NInf _, NInf _ => infinity F s r
  | NInf _, NFin q | NFin q, NInf _ => if Qeq_bool q 0 then propagated F F [] r else infinity F s r
  | NFin p, NFin q => if Qeq_bool (p * q) 0 then zero F s r else rounded F (rational (p * q)) r
  end.
Definition fdiv (F : fmt) (a b r : Z) : Prop :=
  let s := xorb (sign_bit F a) (sign_bit F b) in
  match ieee_decode F a, ieee_decode F b with
  | NNan, _ | _, NNan => propagated F F [a; b] r
  | NInf _, NInf _ => propagated F F [] r
  | NInf _, NFin _ => infinity F s r
  | NFin _, NInf _ => zero F s r
  | NFin p, NFin q =>
      if Qeq_bool q 0 then (if Qeq_bool p 0 then propagated F F [] r else infinity F s r)
      else if Qeq_bool p 0 then zero F s r
      else rounded F (rational (p / q)) r
  end.
Definition arith (F : fmt) (o : fbin) : Z -> Z -> Z -> Prop :=
  match o with Fadd => fadd F | Fsub => fsub F | Fmul => fmul F | Fdiv => fdiv F end.

Definition fsqrt (F : fmt) (a r : Z) : Prop :=
  match ieee_decode F a with
  | NNan => propagated F F [a] r
  | NInf s => if s then propagated F F [] r else r = a
  | NFin q => if Qeq_bool q 0 then r = a
              else if sign_bit F a then propagated F F [] r
              else rounded F (root q) r
  end.
(** [n] is the integer nearest to [q], the even one of two *)
Definition nearest_int (q : Q) (n : Z) : Prop :=
  let d := Qabs (q - inject_Z n) in (d < 1 # 2)%Q \/ ((d == 1 # 2)%Q /\ Z.even n = true).
Definition integral (o : fround) (q : Q) (n : Z) : Prop :=
  match o with
  | Fceil => n = Qceiling q
  | Ffloor => n = Qfloor q
  | Ftrunc => n = q_trunc q
  | Fnearest => nearest_int q n
  | Fsqrt => False
  end.
(** fceil, ffloor, ftrunc, fnearest: the integer, with the operand's sign if it is 0 *)
Definition fint (F : fmt) (o : fround) (a r : Z) : Prop :=
  match ieee_decode F a with
  | NNan => propagated F F [a] r
  | NInf _ => r = a
  | NFin q => in_u (fw F) r /\ sign_bit F r = sign_bit F a /\
              exists v n, ieee_decode F r = NFin v /\ integral o q n /\ (v == inject_Z n)%Q
  end.
Definition unary (F : fmt) (o : fround) : Z -> Z -> Prop :=
  match o with Fsqrt => fsqrt F | _ => fint F o end.

(** convert_u, convert_s: of an integer *)
Definition convert (F : fmt) (z r : Z) : Prop := rounded F (rational (inject_Z z)) r.
(** demote, promote: from [F] to [G] *)
Definition refloat (F G : fmt) (a r : Z) : Prop :=
  match ieee_decode F a with
  | NNan => propagated F G [a] r
  | NInf s => infinity G s r
  | NFin q => if Qeq_bool q 0 then zero G (sign_bit F a) r else rounded G (rational q) r
  end.

(** The host's floating point is the standard's, on the bit patterns of its formats. *)
Definition formats : list fmt := [F32; F64].
Record standard_fp (hf : hostfp) : Prop := {
  sf_arith : forall F o a b, In F formats -> in_u (fw F) a -> in_u (fw F) b -> arith F o a b (h_bin hf F o a b);
  sf_unary : forall F o a, In F formats -> in_u (fw F) a -> unary F o a (h_round hf F o a);
  sf_convert : forall F z, In F formats -> convert F z (h_of_int hf F z);
  sf_demote : forall a, in_u 64 a -> refloat F64 F32 a (h_demote hf a);
  sf_promote : forall a, in_u 32 a -> refloat F32 F64 a (h_promote hf a)
}.
