(** Rust's floating-point primitives that the handlers call ([+ - * /], [ceil], [floor], [trunc],
    [round_ties_even], [sqrt], [as f32], [as f64]: src/execution/handlers.rs 731-734, 767-771, 840-843,
    876-880, 1047-1110), which are IEEE 754's, rounding to nearest and ties to even, computed exactly on bit
    patterns.  Simplification: where Rust leaves the pattern of a NaN open, an operand's is kept (made quiet)
    or the positive canonical one produced.  C71 proves it to be the arithmetic of RoundSpec.v; all other
    theorems hold for every [hostfp]. *)
From Coq Require Import ZArith List Bool Lia.
From Verif Require Import Word Float WasmNum WasmFloat PrimFacts.
Open Scope Z_scope.

Definition finf (F : fmt) : Z := (2 ^ fe F - 1) * 2 ^ fm F.
Definition signed (F : fmt) (s : bool) (b : Z) : Z := b + (if s then 2 ^ (fw F - 1) else 0).
(** nearest to [m * 2^e] (a little more if [more]), [m >= 0] *)
Definition nearest (F : fmt) (s : bool) (m e : Z) (more : bool) : Z :=
  if m =? 0 then signed F s 0 else
  let q := Z.max (e + Z.log2 m - fm F) (- fscale F) in
  let k := if q <=? e then m * 2 ^ (e - q)
           else let d := 2 ^ (q - e) in
                let n := m / d in let r := 2 * (m mod d) in
                if (d <? r) || ((r =? d) && (more || Z.odd n)) then n + 1 else n in
  signed F s (Z.min (finf F) (if k <? 2 ^ fm F then k else (q + fscale F + 1) * 2 ^ fm F + (k - 2 ^ fm F))).
Definition quiet (F : fmt) (a : Z) : Z := if Z.testbit a (fm F - 1) then a else a + 2 ^ (fm F - 1).
(** a finite pattern is [mant * 2^expo] *)
Definition mant (F : fmt) (a : Z) : Z := if fexpo F a =? 0 then fmant F a else 2 ^ fm F + fmant F a.
Definition expo (F : fmt) (a : Z) : Z := (if fexpo F a =? 0 then 0 else fexpo F a - 1) - fscale F.
Definition add (F : fmt) (a b : Z) : Z :=
  if is_inf F a then (if is_inf F b && xorb (fsign F a) (fsign F b) then fnan F else a)
  else if is_inf F b then b else
  let v a := if fsign F a then - fmag F a else fmag F a in
  let z := v a + v b in
  if z =? 0 then signed F (fsign F a && fsign F b) 0 else nearest F (z <? 0) (Z.abs z) (- fscale F) false.
Definition mul (F : fmt) (a b : Z) : Z :=
  let s := xorb (fsign F a) (fsign F b) in
  if is_inf F a || is_inf F b then (if (negb (is_inf F a) && (fmag F a =? 0)) || (negb (is_inf F b) && (fmag F b =? 0)) then fnan F else signed F s (finf F))
  else nearest F s (mant F a * mant F b) (expo F a + expo F b) false.
Definition div (F : fmt) (a b : Z) : Z :=
  let s := xorb (fsign F a) (fsign F b) in
  if is_inf F a then (if is_inf F b then fnan F else signed F s (finf F))
  else if is_inf F b then signed F s 0
  else if fmag F b =? 0 then (if fmag F a =? 0 then fnan F else signed F s (finf F))
  else let k := 2 * fm F + 4 in let n := mant F a * 2 ^ k in
       nearest F s (n / mant F b) (expo F a - expo F b - k) (negb (n mod mant F b =? 0)).
Definition sqrt (F : fmt) (a : Z) : Z :=
  if fexpo F a =? 0 then (if fmant F a =? 0 then a else if fsign F a then fnan F else
    let e := expo F a in let k := fm F + 4 in let n := mant F a * 2 ^ (2 * k + e mod 2) in let r := Z.sqrt n in
    nearest F false r ((e - e mod 2) / 2 - k) (negb (r * r =? n)))
  else if fsign F a then fnan F
  else if is_inf F a then a
  else let e := expo F a in let k := fm F + 4 in let n := mant F a * 2 ^ (2 * k + e mod 2) in let r := Z.sqrt n in
       nearest F false r ((e - e mod 2) / 2 - k) (negb (r * r =? n)).
Definition bin (F : fmt) (o : fbin) (a b : Z) : Z :=
  if is_nan F a then quiet F a else if is_nan F b then quiet F b else
  match o with Fadd => add F a b | Fsub => add F a (f_neg F b) | Fmul => mul F a b | Fdiv => div F a b end.
(** to an integer, away or not from its quotient [n] with remainder [r] of [2^scale = d] *)
Definition round (F : fmt) (o : fround) (a : Z) : Z :=
  if is_nan F a then quiet F a else
  match o with
  | Fsqrt => sqrt F a
  | _ =>
      if is_inf F a then a else
      let d := 2 ^ fscale F in let n := fmag F a / d in let r := fmag F a mod d in let s := fsign F a in
      let up := match o with
                | Fceil => negb s && negb (r =? 0)
                | Ffloor => s && negb (r =? 0)
                | Fnearest => (d <? 2 * r) || ((2 * r =? d) && Z.odd n)
                | _ => false
                end in
      nearest F s (if up then n + 1 else n) 0 false
  end.
Definition demote (a : Z) : Z :=
  if is_nan F64 a then quiet F32 (signed F32 (fsign F64 a) (finf F32 + fmant F64 a / 2 ^ 29))
  else if is_inf F64 a then signed F32 (fsign F64 a) (finf F32)
  else nearest F32 (fsign F64 a) (mant F64 a) (expo F64 a) false.
Definition promote (a : Z) : Z :=
  if is_nan F32 a then quiet F64 (signed F64 (fsign F32 a) (finf F64 + fmant F32 a * 2 ^ 29))
  else if is_inf F32 a then signed F64 (fsign F32 a) (finf F64)
  else nearest F64 (fsign F32 a) (mant F32 a) (expo F32 a) false.
(** reduced to the width of the format, which only matters for arguments that are no bit patterns *)
Definition ieee : hostfp :=
  {| h_bin := fun F o a b => bin F o a b mod 2 ^ fw F; h_round := fun F o a => round F o a mod 2 ^ fw F;
     h_of_int := fun F z => nearest F (z <? 0) (Z.abs z) 0 false mod 2 ^ fw F; h_demote := fun a => demote a mod 2 ^ 32; h_promote := fun a => promote a mod 2 ^ 64 |}.
(** the hypothesis the theorems make about the host's floating point holds of IEEE 754 *)
Lemma ieee_ok : hostfp_ok ieee.
Proof. constructor; intros; cbn [ieee h_bin h_round h_of_int h_demote h_promote]; unfold in_u; apply Z.mod_pos_bound; try destruct f; reflexivity. Qed.
