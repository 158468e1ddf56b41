(** * The appearance of a stimulus in CAM16, as published, in real numbers.
    C. Li et al., "Comprehensive color solutions: CAM16, CAT16, and CAM16-UCS", 2017, steps 2 to 10, with the responses
    counted without their offset of 0.1 (as all implementations of CAM16 in colour pickers do: the offset cancels in the opponent
    coordinates, and the constants -0.305 and 0.305 of the achromatic response and of t become 0 and 0.305).
    SpecViewing.v has the viewing conditions.  Nothing here mentions the code, except for the fields that hold the results. *)
From Coq Require Import ZArith Bool Reals List.
From Flocq Require Import Core IEEE754.BinarySingleNaN.
From Verif Require Import F64 Cam16 SpecViewing.
Open Scope R_scope.

(** The quantities of the viewing conditions. *)
Record conditions := {
  k_fl : R; k_n : R; k_nbb : R; k_z : R; k_c : R; k_nc : R; k_aw : R;
  k_red : R; k_green : R; k_blue : R
}.
(** A white [x], [y], [z], an adapting luminance [la], a background of lightness [l] and a surround [s]. *)
Definition conditions_of (x y z la l s : R) (discounting : bool) : conditions :=
  let d := adaptation discounting s la in
  let n := luminance l / y in
  {| k_fl := level la; k_n := n; k_nbb := induction_nbb n; k_z := exponent_z n; k_c := surround_c s; k_nc := surround_F s;
     k_aw := achromatic (level la) d (induction_nbb n) (cone_red x y z) (cone_green x y z) (cone_blue x y z);
     k_red := gain d (cone_red x y z); k_green := gain d (cone_green x y z); k_blue := gain d (cone_blue x y z) |}.

(** The responses of the three kinds of cones to a stimulus. *)
Definition red_response (k : conditions) (x y z : R) : R := response (k_fl k) (k_red k) (cone_red x y z).
Definition green_response (k : conditions) (x y z : R) : R := response (k_fl k) (k_green k) (cone_green x y z).
Definition blue_response (k : conditions) (x y z : R) : R := response (k_fl k) (k_blue k) (cone_blue x y z).

(** The attributes, from responses [r], [g], [b] and the hue angle [h] (in degrees). *)
Definition redness (r g b : R) : R := r - 12 * g / 11 + b / 11.
Definition yellowness (r g b : R) : R := (r + g - 2 * b) / 9.
Definition radians (h : R) : R := h * PI / 180.
Definition lightness (k : conditions) (r g b : R) : R := 100 * Rpower ((2 * r + g + b / 20) * k_nbb k / k_aw k) (k_c k * k_z k).
Definition brightness (k : conditions) (r g b : R) : R :=
  4 / k_c k * sqrt (lightness k r g b / 100) * (k_aw k + 4) * Rpower (k_fl k) 0.25.
Definition opponent_length (r g b : R) : R := sqrt (redness r g b * redness r g b + yellowness r g b * yellowness r g b).
Definition eccentricity (h : R) : R := (cos (radians h + 2) + 3.8) / 4.
Definition temporary_t (k : conditions) (r g b h : R) : R :=
  50000 / 13 * k_nc k * k_nbb k * eccentricity h * opponent_length r g b / (r + g + 21 / 20 * b + 0.305).
Definition power (x y : R) : R := if Rle_dec x 0 then 0 else Rpower x y.
Definition alpha (k : conditions) (r g b h : R) : R :=
  power (temporary_t k r g b h) 0.9 * Rpower (1.64 - Rpower 0.29 (k_n k)) 0.73.
Definition chroma (k : conditions) (r g b h : R) : R := alpha k r g b h * sqrt (lightness k r g b / 100).
Definition colourfulness (k : conditions) (r g b h : R) : R := chroma k r g b h * Rpower (k_fl k) 0.25.
Definition saturation (k : conditions) (r g b h : R) : R := 50 * sqrt (alpha k r g b h * k_c k / (k_aw k + 4)).
Definition ucs_lightness (k : conditions) (r g b : R) : R := 1.7 * lightness k r g b / (1 + 0.007 * lightness k r g b).
Definition ucs_colourfulness (k : conditions) (r g b h : R) : R := ln (1 + 0.0228 * colourfulness k r g b h) / 0.0228.

(** A double that is right to six digits, or to six decimals if it is small. *)
Definition six (x : f64) (r : R) : Prop := is_finite x = true /\ Rabs (B2R x - r) <= (1 + Rabs r) / 10 ^ 6.

Record attributes_of (cam : cam16) (k : conditions) (r g b h : R) : Prop := {
  at_hue : is_finite (c_hue cam) = true /\ Rabs (B2R (c_hue cam) - h) <= 1 / 10 ^ 9;
  at_red : redness r g b = opponent_length r g b * cos (radians h);
  at_yellow : yellowness r g b = opponent_length r g b * sin (radians h);
  at_j : six (c_j cam) (lightness k r g b);
  at_q : six (c_q cam) (brightness k r g b);
  at_c : six (c_chroma cam) (chroma k r g b h);
  at_m : six (c_m cam) (colourfulness k r g b h);
  at_s : six (c_s cam) (saturation k r g b h);
  at_jstar : six (c_jstar cam) (ucs_lightness k r g b);
  at_astar : B2R (c_m cam) <= 10 ^ 6 ->
    Rabs (B2R (c_astar cam) - ucs_colourfulness k r g b h * cos (radians h)) <= (1 + ucs_colourfulness k r g b h) / 10 ^ 6;
  at_bstar : B2R (c_m cam) <= 10 ^ 6 ->
    Rabs (B2R (c_bstar cam) - ucs_colourfulness k r g b h * sin (radians h)) <= (1 + ucs_colourfulness k r g b h) / 10 ^ 6
}.

(** [cam] is the appearance of the stimulus [x], [y], [z] under the conditions [k]: its attributes are those of responses that agree with
    the published ones to a part in a million. *)
Definition appears (cam : cam16) (k : conditions) (x y z : R) : Prop := exists r g b h : R,
  Rabs (r - red_response k x y z) <= red_response k x y z / 10 ^ 6 /\
  Rabs (g - green_response k x y z) <= green_response k x y z / 10 ^ 6 /\
  Rabs (b - blue_response k x y z) <= blue_response k x y z / 10 ^ 6 /\
  attributes_of cam k r g b h.

(** Stimuli with X, Y and Z from 0 to 200 and cone responses of at least 1/2000 (the darkest colours of a screen, short of black, have more). *)
Definition visible (x y z : f64) : Prop :=
  (is_finite x = true /\ is_finite y = true /\ is_finite z = true) /\ 0 <= B2R x <= 200 /\ 0 <= B2R y <= 200 /\ 0 <= B2R z <= 200 /\
  1 / 2000 <= cone_red (B2R x) (B2R y) (B2R z) /\ 1 / 2000 <= cone_green (B2R x) (B2R y) (B2R z) /\ 1 / 2000 <= cone_blue (B2R x) (B2R y) (B2R z).

(** The stimulus of a screen colour (IEC 61966-2-1, with the primaries and white of sRGB, Y = 100 for white). *)
Definition srgb_curve (c : Z) : R :=
  if Rle_dec (IZR c / 255) 0.04045 then IZR c / 255 / 12.92 else Rpower ((IZR c / 255 + 0.055) / 1.055) 2.4.
Definition screen (r g b : Z) (x y z : f64) : Prop :=
  let lr := 100 * srgb_curve r in let lg := 100 * srgb_curve g in let lb := 100 * srgb_curve b in
  (is_finite x = true /\ is_finite y = true /\ is_finite z = true) /\
  Rabs (B2R x - (0.41233895 * lr + 0.35762064 * lg + 0.18051042 * lb)) <= 1 / 10 ^ 7 /\
  Rabs (B2R y - (0.2126 * lr + 0.7152 * lg + 0.0722 * lb)) <= 1 / 10 ^ 7 /\
  Rabs (B2R z - (0.01932141 * lr + 0.11916382 * lg + 0.95034478 * lb)) <= 1 / 10 ^ 7.
