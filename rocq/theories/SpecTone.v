(** * What the tone theorems assume about pow besides accuracy. *)
From Coq Require Import Bool Reals.
From Flocq Require Import Core IEEE754.BinarySingleNaN.
From Verif Require Import F64 Spec.
Open Scope R_scope.

(** pow of NaN or of plus infinity to a positive exponent is not a finite number. *)
Definition pow_special (lm : Libm) : Prop := forall x y : f64,
  is_finite x = false -> x <> B754_infinity true -> is_finite y = true -> 0 < B2R y ->
  is_finite (powf x y) = false.

(** A float that is finite and at most [d] away from [r]. *)
Definition within (d : R) (x : f64) (r : R) : Prop := is_finite x = true /\ Rabs (B2R x - r) <= d.

(** A requested tone, brought into the range of tones. *)
Definition clamp_tone (t : f64) : R := Rmin 100 (Rmax 0 (B2R t)).
