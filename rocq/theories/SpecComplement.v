(** * Vocabulary for the complement property: distance from the target temperature, colours met on an arc. *)
From Coq Require Import ZArith List Reals String.
From Flocq Require Import IEEE754.BinarySingleNaN.
From Verif Require Import F64 MathUtils ViewingConditions Hct Temperature SpecTemperature.
Open Scope string_scope.
Open Scope Z_scope.

Section WithLibm.
Context {lm : Libm}.
(** How far the relative temperature of [x] is from the target, in the arithmetic of the library: relative
    temperature 0 is that of the coldest and 1 that of the warmest colour. *)
Definition temperature_gap (coldest warmest : hct) (target : f64) (x : hct) : f64 :=
  fabs (fsub target (fdiv (fsub (raw_temperature x) (raw_temperature coldest))
                          (fsub (raw_temperature warmest) (raw_temperature coldest)))).
(** [x] is met [k] degrees after [start] on the way to [stop]: it is the wheel colour of the rounded hue. *)
Definition met (h : hct) (start stop : f64) (k : Z) (x : hct) : Prop :=
  0 <= k < 360 /\
  let hue := sanitize_degrees_double (fadd start (of_Z k)) in
  is_between hue start stop = true /\ on_wheel h (to_i64 (fround hue)) x.
(** Where the walk starts and stops: it covers the part of the wheel, between the coldest and the warmest
    colour, on which [h] is not. *)
Definition walk_start (h coldest warmest : hct) : f64 :=
  h_hue (if is_between (h_hue h) (h_hue coldest) (h_hue warmest) then warmest else coldest).
Definition walk_stop (h coldest warmest : hct) : f64 :=
  h_hue (if is_between (h_hue h) (h_hue coldest) (h_hue warmest) then coldest else warmest).
(** Every colour of the wheel of [h], and [h] itself, has a temperature of ordinary size. *)
Definition ordinary_temperatures (h : hct) : Prop :=
  forall y, y = h \/ (exists k, 0 <= k < 360 /\ on_wheel h k y) ->
    is_finite (raw_temperature y) = true /\ (Rabs (B2R (raw_temperature y)) <= 1000000)%R.
End WithLibm.
