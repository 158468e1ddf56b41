(** * One is a fixed point of pow. *)
From Coq Require Import Bool Reals String.
From Flocq Require Import Core IEEE754.BinarySingleNaN.
From Verif Require Import F64.
Open Scope string_scope.

(** pow(1, y) is 1, as the C standard demands. *)
Definition pow_one (lm : Libm) : Prop := forall y : f64, is_finite y = true ->
  is_finite (powf (dec "1.0") y) = true /\ B2R (powf (dec "1.0") y) = 1%R.
