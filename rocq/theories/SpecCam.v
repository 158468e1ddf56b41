(** * What the CAM16 theorems assume about the platform's elementary functions. *)
From Coq Require Import ZArith Bool Reals.
From Flocq Require Import Core IEEE754.BinarySingleNaN.
From Verif Require Import F64 Spec.
Open Scope R_scope.

(** pow of 0 to a positive exponent is 0, and pow of a non-negative number is not negative and stays tiny when
    the exact power is tiny. *)
Definition pow_tiny (lm : Libm) : Prop := forall x y : f64,
  is_finite x = true -> is_finite y = true -> 0 <= B2R x -> 0 < B2R y ->
  (B2R x = 0 -> is_finite (powf x y) = true /\ B2R (powf x y) = 0) /\
  (0 < B2R x -> Rpower (B2R x) (B2R y) <= bpow radix2 (-900) ->
     is_finite (powf x y) = true /\ 0 <= B2R (powf x y) <= bpow radix2 (-800)).

(** sin and cos have absolute error at most [eps] on [-10, 10]. *)
Definition trig_accurate (eps : R) (lm : Libm) : Prop := forall x : f64,
  is_finite x = true -> -10 <= B2R x <= 10 ->
  is_finite (sinf x) = true /\ Rabs (B2R (sinf x) - sin (B2R x)) <= eps /\
  is_finite (cosf x) = true /\ Rabs (B2R (cosf x) - cos (B2R x)) <= eps.

(** atan2(y, x) is within [eps] of an angle, between -pi and pi, of the direction from the origin to (x, y). *)
Definition atan2_accurate (eps : R) (lm : Libm) : Prop := forall y x : f64,
  is_finite y = true -> is_finite x = true ->
  is_finite (atan2f y x) = true /\
  exists theta, - PI <= theta <= PI /\ Rabs (B2R (atan2f y x) - theta) <= eps /\
    B2R x = sqrt (B2R x * B2R x + B2R y * B2R y) * cos theta /\
    B2R y = sqrt (B2R x * B2R x + B2R y * B2R y) * sin theta.

(** The angle of a point that is not below the x axis (the sign of y is plus, possibly plus zero) is not negative. *)
Definition atan2_upper (lm : Libm) : Prop := forall y x : f64,
  is_finite y = true -> is_finite x = true -> Bsign y = false -> 0 <= B2R (atan2f y x).

(** exp has relative error at most [eps] on [-600, 600] and is at least 1 on non-negative numbers;
    ln has relative error at most [eps] on [1, 10^6]. *)
Definition exp_accurate (eps : R) (lm : Libm) : Prop := forall x : f64,
  is_finite x = true -> -600 <= B2R x <= 600 ->
  is_finite (expf x) = true /\ Rabs (B2R (expf x) - exp (B2R x)) <= eps * exp (B2R x) /\
  (0 <= B2R x -> 1 <= B2R (expf x)).
Definition ln_accurate (eps : R) (lm : Libm) : Prop := forall x : f64,
  is_finite x = true -> 1 <= B2R x <= 10 ^ 6 ->
  is_finite (lnf x) = true /\ Rabs (B2R (lnf x) - ln (B2R x)) <= eps * ln (B2R x).

(** All of these together, with pow (Spec.v). *)
Record libm_accurate (eps : R) (lm : Libm) : Prop := {
  la_pow : pow_accurate eps lm;
  la_tiny : pow_tiny lm;
  la_trig : trig_accurate eps lm;
  la_atan2 : atan2_accurate eps lm;
  la_upper : atan2_upper lm;
  la_exp : exp_accurate eps lm;
  la_ln : ln_accurate eps lm
}.
