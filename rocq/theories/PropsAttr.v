(** * Property theorems: the attributes of a colour in CAM16, and distances between colours. *)
From Coq Require Import ZArith Bool Reals List String.
From Flocq Require Import Core IEEE754.BinarySingleNaN.
From Verif Require Import F64 MathUtils ColorUtils ViewingConditions Cam16 Spec SpecCam SpecAttr RefLibm PfCamProps PfUcs PfAttr PfDist.
Open Scope string_scope.
Open Scope R_scope.
Notation B2R := (@BinarySingleNaN.B2R 53 1024).

(** C90: with the same two constants for every colour, the brightness is proportional to the square root of the
    lightness and the colourfulness to the chroma; the saturation is 100 times the square root of
    colourfulness over brightness. *)
Theorem C90_attributes_fit_together : forall lm : Libm, libm_accurate (1 / 10 ^ 13) lm ->
  exists kq km : R, 151 <= kq <= 161 /\ 0.784 <= km <= 0.797 /\
  forall (argb : Z) (cam : cam16), cam16_from_int argb = Ok cam ->
  agree (B2R (c_q cam)) (kq * sqrt (B2R (c_j cam) / 100)) /\
  agree (B2R (c_m cam)) (km * B2R (c_chroma cam)) /\
  agree (B2R (c_s cam) * B2R (c_s cam) * B2R (c_q cam) / 10 ^ 4) (B2R (c_m cam)).
Proof. exact (fun lm LA => attributes LA). Qed.
Print Assumptions C90_attributes_fit_together.
(** Rebuilding a colour from its lightness, chroma and hue gives the same brightness, colourfulness and J*, and, unless
    the lightness is zero, the same saturation; when it is zero (black) the saturation is lost. *)
Theorem C90_jch_attributes : forall lm : Libm, libm_accurate (1 / 10 ^ 13) lm ->
  forall (argb : Z) (cam : cam16), cam16_from_int argb = Ok cam ->
  exists back : cam16, cam16_from_jch (c_j cam) (c_chroma cam) (c_hue cam) = Ok back /\
  c_q back = c_q cam /\ c_m back = c_m cam /\ c_jstar back = c_jstar cam /\
  (B2R (c_j cam) <> 0 -> agree (B2R (c_s back)) (B2R (c_s cam))) /\ (B2R (c_j cam) = 0 -> is_nan (c_s back) = true).
Proof. exact (fun lm LA => jch_attributes LA). Qed.
Print Assumptions C90_jch_attributes.
Example C90_libm_case : libm_accurate (1 / 10 ^ 13) ref_libm.
Proof. exact ref_13. Qed.
Example C90_case : exists cam : cam16, @cam16_from_int ref_libm 0xFF4285F4 = Ok cam.
Proof. exact (int_ok ref_14 0xFF4285F4). Qed.

(** C91: distances between colours are symmetric, vanish exactly for equal colours (the alpha does not count), and are
    1.41 times the straight-line distance in CAM16-UCS to the power 0.63. *)
Theorem C91_distance_is_symmetric : forall lm : Libm, libm_accurate (1 / 10 ^ 14) lm ->
  forall (x y : Z) (a b : cam16), cam16_from_int x = Ok a -> cam16_from_int y = Ok b -> cam16_distance a b = cam16_distance b a.
Proof. exact (fun lm LA => distance_swap LA). Qed.
Print Assumptions C91_distance_is_symmetric.
Theorem C91_distance_tells_colours_apart : forall lm : Libm, libm_accurate (1 / 10 ^ 14) lm ->
  forall (x y : Z) (a b : cam16), cam16_from_int x = Ok a -> cam16_from_int y = Ok b ->
  (B2R (cam16_distance a b) = 0 <-> (x mod 0x1000000 = y mod 0x1000000)%Z).
Proof. exact (fun lm LA => distance_apart LA). Qed.
Print Assumptions C91_distance_tells_colours_apart.
Theorem C91_distance_formula : forall lm : Libm, libm_accurate (1 / 10 ^ 14) lm ->
  forall (x y : Z) (a b : cam16), cam16_from_int x = Ok a -> cam16_from_int y = Ok b -> (x mod 0x1000000)%Z <> (y mod 0x1000000)%Z ->
  1 / 10 ^ 14 <= ucs_length a b /\
  Rabs (B2R (cam16_distance a b) - 1.41 * Rpower (ucs_length a b) 0.63) <= 1.41 * Rpower (ucs_length a b) 0.63 / 10 ^ 12.
Proof. exact (fun lm LA => distance_formula LA). Qed.
Print Assumptions C91_distance_formula.
Example C91_case : (exists a b : cam16, @cam16_from_int ref_libm 0xFF4285F4 = Ok a /\ @cam16_from_int ref_libm 0xFFDB4437 = Ok b) /\
  (0xFF4285F4 mod 0x1000000)%Z <> (0xFFDB4437 mod 0x1000000)%Z.
Proof. split; [exact (two_colours ref_14 0xFF4285F4 0xFFDB4437)|vm_compute; discriminate]. Qed.
