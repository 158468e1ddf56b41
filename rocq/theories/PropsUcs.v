(** * Property theorems: CAM16-UCS coordinates and blending in them. *)
From Coq Require Import ZArith Bool Reals List String.
From Flocq Require Import Core IEEE754.BinarySingleNaN.
From Verif Require Import F64 MathUtils ColorUtils ViewingConditions Cam16 Hct Spec SpecCam RefLibm PfUcs.
Open Scope string_scope.
Open Scope R_scope.
Notation B2R := (@BinarySingleNaN.B2R 53 1024).

(** The hypothesis of the theorems below is met by a correctly rounded libm. *)
Example C86_libm_case : libm_accurate (1 / 10 ^ 14) ref_libm.
Proof. exact ref_14. Qed.

(** C71: blending starts at one colour and ends at the other. *)
Theorem C71_amount_zero_is_the_first_colour : forall lm : Libm, libm_accurate (1 / 10 ^ 14) lm ->
  forall from to : Z, blend_cam16_ucs from to (dec "0.0") = Ok (0xFF000000 + from mod 0x1000000)%Z.
Proof. exact (fun lm LA => blend_0 LA). Qed.
Print Assumptions C71_amount_zero_is_the_first_colour.
Theorem C71_amount_one_is_the_second_colour : forall lm : Libm, libm_accurate (1 / 10 ^ 14) lm ->
  forall from to : Z, blend_cam16_ucs from to (dec "1.0") = Ok (0xFF000000 + to mod 0x1000000)%Z.
Proof. exact (fun lm LA => blend_1 LA). Qed.
Print Assumptions C71_amount_one_is_the_second_colour.
Theorem C71_blending_with_itself : forall lm : Libm, libm_accurate (1 / 10 ^ 14) lm ->
  forall (argb : Z) (amount : f64), is_finite amount = true ->
  blend_cam16_ucs argb argb amount = Ok (0xFF000000 + argb mod 0x1000000)%Z.
Proof. exact (fun lm LA => blend_self LA). Qed.
Print Assumptions C71_blending_with_itself.
Example C71_ends_case : @blend_cam16_ucs ref_libm 0xFFFF0000 0xFF0000FF (dec "0.0") = Ok 0xFFFF0000%Z /\
  @blend_cam16_ucs ref_libm 0xFFFF0000 0xFF0000FF (dec "1.0") = Ok 0xFF0000FF%Z.
Proof. exact (conj (C71_amount_zero_is_the_first_colour ref_libm C86_libm_case _ _) (C71_amount_one_is_the_second_colour ref_libm C86_libm_case _ _)). Qed.

(** C86: the coordinates a colour has in CAM16-UCS, and its J, C and h, convert back to the colour. *)
Theorem C86_ucs_round_trip : forall lm : Libm, libm_accurate (1 / 10 ^ 14) lm ->
  forall argb : Z, exists cam : cam16, cam16_from_int argb = Ok cam /\
    bind (cam16_from_ucs (c_jstar cam) (c_astar cam) (c_bstar cam)) cam16_to_int = Ok (0xFF000000 + argb mod 0x1000000)%Z.
Proof. exact (fun lm LA => ucs_total LA). Qed.
Print Assumptions C86_ucs_round_trip.
(** So do coordinates a little off (for black, J* has to be zero). *)
Theorem C86_ucs_tolerance : forall lm : Libm, libm_accurate (1 / 10 ^ 14) lm ->
  forall (argb : Z) (cam : cam16) (jstar astar bstar : f64), cam16_from_int argb = Ok cam ->
  is_finite jstar = true -> is_finite astar = true -> is_finite bstar = true ->
  (B2R (c_jstar cam) = 0 -> B2R jstar = 0) -> Rabs (B2R jstar - B2R (c_jstar cam)) <= 1 / 10 ^ 14 ->
  Rabs (B2R astar - B2R (c_astar cam)) <= 1 / 10 ^ 13 -> Rabs (B2R bstar - B2R (c_bstar cam)) <= 1 / 10 ^ 13 ->
  bind (cam16_from_ucs jstar astar bstar) cam16_to_int = Ok (0xFF000000 + argb mod 0x1000000)%Z.
Proof. exact (fun lm LA => ucs_stable LA). Qed.
Print Assumptions C86_ucs_tolerance.
Theorem C86_jch_round_trip : forall lm : Libm, libm_accurate (1 / 10 ^ 14) lm ->
  forall argb : Z, exists cam : cam16, cam16_from_int argb = Ok cam /\
    bind (cam16_from_jch (c_j cam) (c_chroma cam) (c_hue cam)) cam16_to_int = Ok (0xFF000000 + argb mod 0x1000000)%Z.
Proof. exact (fun lm LA => jch_total LA). Qed.
Print Assumptions C86_jch_round_trip.
Example C86_case : exists cam : cam16, @cam16_from_int ref_libm 0xFF4285F4 = Ok cam /\
  bind (@cam16_from_ucs ref_libm (c_jstar cam) (c_astar cam) (c_bstar cam)) (@cam16_to_int ref_libm) = Ok 0xFF4285F4%Z.
Proof. exact (C86_ucs_round_trip ref_libm C86_libm_case 0xFF4285F4). Qed.
