(** * C99: conversions between ARGB, XYZ, L*a*b* and L* follow the published formulas.  Theorems only. *)
From Coq Require Import ZArith Bool Reals String.
From Flocq Require Import Core IEEE754.BinarySingleNaN.
From Verif Require Import F64 MathUtils ColorUtils Contrast Spec SpecCam SpecViewing SpecAppear SpecCie RefLibm PfCamProps PfCie.
Open Scope string_scope.
Open Scope R_scope.

(** A channel is decoded by the curve of IEC 61966-2-1. *)
Theorem C99_channel_curve : forall lm : Libm, libm_accurate (1 / 10 ^ 13) lm -> forall c : Z, (0 <= c <= 255)%Z -> right_to (1 / 10 ^ 7) (linearized c) (100 * srgb_curve c).
Proof. exact (fun lm LA => channel_curve LA). Qed.
Print Assumptions C99_channel_curve.

(** The XYZ of a colour. *)
Theorem C99_xyz : forall lm : Libm, libm_accurate (1 / 10 ^ 13) lm -> forall argb : Z,
  let r := red_from_argb argb in let g := green_from_argb argb in let b := blue_from_argb argb in let '(x, y, z) := xyz_from_argb argb in
  right_to (1 / 10 ^ 7) x (srgb_x r g b) /\ right_to (1 / 10 ^ 7) y (srgb_y r g b) /\ right_to (1 / 10 ^ 7) z (srgb_z r g b).
Proof. exact (fun lm LA => xyz_right LA). Qed.
Print Assumptions C99_xyz.

(** The L*a*b* of a colour. *)
Theorem C99_lab : forall lm : Libm, libm_accurate (1 / 10 ^ 13) lm -> forall argb : Z,
  let r := red_from_argb argb in let g := green_from_argb argb in let b := blue_from_argb argb in let '(l, a, bb) := lab_from_argb argb in
  right_to (1 / 10 ^ 5) l (srgb_lightness r g b) /\ right_to (1 / 10 ^ 5) a (srgb_a r g b) /\ right_to (1 / 10 ^ 5) bb (srgb_b r g b).
Proof. exact (fun lm LA => lab_right LA). Qed.
Print Assumptions C99_lab.

(** The lightness (tone) of a colour, and of a luminance. *)
Theorem C99_lightness_of_colour : forall lm : Libm, libm_accurate (1 / 10 ^ 13) lm -> forall argb : Z,
  right_to (1 / 10 ^ 6) (lstar_from_argb argb) (srgb_lightness (red_from_argb argb) (green_from_argb argb) (blue_from_argb argb)).
Proof. exact (fun lm LA => lightness_right LA). Qed.
Print Assumptions C99_lightness_of_colour.
Theorem C99_lightness_of_luminance : forall lm : Libm, libm_accurate (1 / 10 ^ 13) lm -> forall y : f64, is_finite y = true -> 0 <= B2R y <= 100 ->
  right_to (1 / 10 ^ 8) (lstar_from_y y) (cie_lightness (B2R y)).
Proof. exact (fun lm LA => luminance_lightness LA). Qed.
Print Assumptions C99_lightness_of_luminance.

(** The luminance of a lightness, whatever the mathematical library. *)
Theorem C99_luminance_of_lightness : forall l : f64, is_finite l = true -> 0 <= B2R l <= 100 -> right_to (1 / 10 ^ 8) (y_from_lstar l) (luminance (B2R l)).
Proof. exact lightness_luminance. Qed.
Print Assumptions C99_luminance_of_lightness.

(** The contrast of two tones is the WCAG contrast of their luminances. *)
Theorem C99_contrast : forall a b : f64, is_finite a = true -> is_finite b = true -> 0 <= B2R a <= 100 -> 0 <= B2R b <= 100 ->
  right_to (1 / 10 ^ 7) (ratio_of_tones a b) (wcag_contrast (B2R a) (B2R b)).
Proof. exact contrast_right. Qed.
Print Assumptions C99_contrast.

(** A linear channel is encoded by the nearest of the 256 values of the curve. *)
Theorem C99_encoded_channel : forall lm : Libm, libm_accurate (1 / 10 ^ 13) lm -> forall x : f64, is_finite x = true -> 0 <= B2R x <= 100 -> channel_of (delinearized x) (B2R x).
Proof. exact (fun lm LA => encoded LA). Qed.
Print Assumptions C99_encoded_channel.

(** The grey of a lightness. *)
Theorem C99_grey_of_lightness : forall lm : Libm, libm_accurate (1 / 10 ^ 13) lm -> forall l : f64, is_finite l = true -> 0 <= B2R l <= 100 ->
  let argb := argb_from_lstar l in
  channel_of (red_from_argb argb) (luminance (B2R l)) /\ green_from_argb argb = red_from_argb argb /\ blue_from_argb argb = red_from_argb argb.
Proof. exact (fun lm LA => grey_encode LA). Qed.
Print Assumptions C99_grey_of_lightness.

(** The colour of a stimulus that a screen can show. *)
Theorem C99_colour_of_stimulus : forall lm : Libm, libm_accurate (1 / 10 ^ 13) lm -> forall x y z : f64,
  is_finite x = true -> is_finite y = true -> is_finite z = true -> 0 <= B2R x <= 200 -> 0 <= B2R y <= 200 -> 0 <= B2R z <= 200 ->
  0 <= linear_red (B2R x) (B2R y) (B2R z) <= 100 -> 0 <= linear_green (B2R x) (B2R y) (B2R z) <= 100 -> 0 <= linear_blue (B2R x) (B2R y) (B2R z) <= 100 ->
  let argb := argb_from_xyz x y z in
  channel_of (red_from_argb argb) (linear_red (B2R x) (B2R y) (B2R z)) /\ channel_of (green_from_argb argb) (linear_green (B2R x) (B2R y) (B2R z)) /\
  channel_of (blue_from_argb argb) (linear_blue (B2R x) (B2R y) (B2R z)).
Proof. exact (fun lm LA => stimulus_encode LA). Qed.
Print Assumptions C99_colour_of_stimulus.

(** The hypotheses hold for the reference library, the tone 40 and a mid grey stimulus. *)
Example C99_library : libm_accurate (1 / 10 ^ 13) ref_libm.
Proof. exact ref_13. Qed.
Example C99_tone : is_finite (dec "40.0") = true /\ 0 <= B2R (dec "40.0") <= 100.
Proof. exact tone_40. Qed.
Example C99_stimulus : let x := dec "20.0" in let y := dec "20.0" in let z := dec "20.0" in
  (is_finite x = true /\ is_finite y = true /\ is_finite z = true) /\
  0 <= B2R x <= 200 /\ 0 <= B2R y <= 200 /\ 0 <= B2R z <= 200 /\
  0 <= linear_red (B2R x) (B2R y) (B2R z) <= 100 /\ 0 <= linear_green (B2R x) (B2R y) (B2R z) <= 100 /\ 0 <= linear_blue (B2R x) (B2R y) (B2R z) <= 100.
Proof. exact stimulus_case. Qed.
(** The published formulas have the expected values at the ends. *)
Example C99_ends : cie_lightness 100 = 100 /\ cie_lightness 0 = 0 /\ wcag_contrast 0 100 = 21 /\ srgb_lightness 255 255 255 = 100 /\ 255 * srgb_encode (luminance 100 / 100) = 255.
Proof. exact case_values. Qed.
