(** * Property theorems: CAM16 descriptions of colours. *)
From Coq Require Import ZArith Bool Reals List String.
From Flocq Require Import Core IEEE754.BinarySingleNaN.
From Verif Require Import F64 MathUtils ColorUtils ViewingConditions Cam16 Hct Spec SpecCam RefLibm PfCamProps PfHueProps.
Open Scope string_scope.
Open Scope R_scope.
Notation B2R := (@BinarySingleNaN.B2R 53 1024).

(** The hypothesis of the theorems below is met by a correctly rounded libm. *)
Example C32_libm_case : libm_accurate (1 / 10 ^ 13) ref_libm.
Proof. exact ref_13. Qed.

(** C32: every integer has an Hct, and its hue is in [0,360). *)
Theorem C32_every_colour_has_a_hue_in_range : forall lm : Libm, libm_accurate (1 / 10 ^ 13) lm ->
  forall argb : Z, exists h : hct, hct_from_int argb = Ok h /\
    fle (dec "0.0") (h_hue h) = true /\ flt (h_hue h) (dec "360.0") = true.
Proof. exact (fun lm LA => every_hue LA). Qed.
Print Assumptions C32_every_colour_has_a_hue_in_range.

(** C76: every integer has a CAM16 description, and converting that back returns the colour (made opaque). *)
Theorem C76_cam16_round_trip : forall lm : Libm, libm_accurate (1 / 10 ^ 13) lm ->
  forall argb : Z, exists cam : cam16, cam16_from_int argb = Ok cam /\
    cam16_to_int cam = Ok (0xFF000000 + argb mod 0x1000000)%Z /\
    (opaque argb -> cam16_to_int cam = Ok argb).
Proof. exact (fun lm LA => trip_total LA). Qed.
Print Assumptions C76_cam16_round_trip.
Example C76_case : exists cam : cam16, @cam16_from_int ref_libm 0xFF0000FF = Ok cam /\
  @cam16_to_int ref_libm cam = Ok 0xFF0000FF%Z.
Proof. destruct (C76_cam16_round_trip ref_libm C32_libm_case 0xFF0000FF) as (cam & E & T & _). exists cam. split; [exact E|exact T]. Qed.
