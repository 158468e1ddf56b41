(** * C100: the temperature of a colour follows the published formula.  Theorems only. *)
From Coq Require Import ZArith Bool Reals String.
From Flocq Require Import Core IEEE754.BinarySingleNaN.
From Verif Require Import F64 MathUtils ColorUtils Hct Temperature Spec SpecCam SpecAppear SpecCie SpecWarm RefLibm PfCamProps PfWarmth.
Open Scope R_scope.

(** For every colour, in whichever way its a* and b* are written as a chroma and a hue, the temperature is the published one to 1/10000. *)
Theorem C100_temperature : forall lm : Libm, libm_accurate (1 / 10 ^ 13) lm -> forall (color : hct) (chroma hue : R),
  has_polar (red_from_argb (h_argb color)) (green_from_argb (h_argb color)) (blue_from_argb (h_argb color)) chroma hue ->
  right_to (1 / 10 ^ 4) (raw_temperature color) (temperature_of chroma hue).
Proof. exact (fun lm LA => raw_formula LA). Qed.
Print Assumptions C100_temperature.

(** Every colour has a chroma and a hue, so the theorem speaks of every colour. *)
Theorem C100_every_colour : forall r g b : Z, exists chroma hue : R, has_polar r g b chroma hue.
Proof. exact some_polar. Qed.
Print Assumptions C100_every_colour.

Example C100_library : libm_accurate (1 / 10 ^ 13) ref_libm.
Proof. exact ref_13. Qed.
(** The published formula: without chroma the temperature is -0.5; at chroma 1 it is largest, -0.48, at hue 50, and -0.52 at hue 230. *)
Example C100_neutral : forall hue, temperature_of 0 hue = -0.5.
Proof. exact temp_neutral. Qed.
Example C100_warmest : temperature_of 1 50 = -0.48 /\ temperature_of 1 230 = -0.52.
Proof. exact temp_ends. Qed.
