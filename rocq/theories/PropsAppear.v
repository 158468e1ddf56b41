(** * C98: the attributes of a colour are those of CAM16.  Theorems only. *)
From Coq Require Import ZArith Bool Reals String List.
From Flocq Require Import Core IEEE754.BinarySingleNaN.
From Verif Require Import F64 MathUtils ColorUtils ViewingConditions Cam16 Spec SpecCam SpecViewing SpecAppear RefLibm PfCamProps PfViewingStd PfAppearAll.
Import ListNotations.
Open Scope string_scope.
Open Scope R_scope.

(** Under every ordinary viewing conditions, the hue, J, Q, C, M, s and the uniform coordinates J*, a*, b* that [Cam16] holds
    for a stimulus are those of the published model (SpecAppear.v) to six digits, if the conversion returns. *)
Theorem C98_cam16_attributes : forall (lm : Libm) (x y z : f64) (rest : list f64) (la l s : f64) (disc : bool) (vc : viewing_conditions) (a b c : f64) (cam : cam16),
  libm_accurate (1 / 10 ^ 13) lm -> ordinary x y z la l s ->
  make (Some (x :: y :: z :: rest)) (Some la) (Some l) (Some s) (Some disc) = Ok vc ->
  visible a b c -> cam16_from_xyz a b c vc = Ok cam ->
  appears cam (conditions_of (B2R x) (B2R y) (B2R z) (B2R la) (Rmax 0.1 (B2R l)) (B2R s) disc) (B2R a) (B2R b) (B2R c).
Proof. exact (fun lm x y z rest la l s disc vc a b c cam LA => appears_made LA x y z rest la l s disc vc a b c cam). Qed.
Print Assumptions C98_cam16_attributes.

(** The hypotheses hold for a red light seen under a lamp in a dim room, and in the dark under D50. *)
Example C98_case : visible (dec "41.24") (dec "21.26") (dec "1.93") /\
  ordinary (dec "109.85") (dec "100.0") (dec "35.585") (dec "4.0") (dec "20.0") (dec "1.0") /\
  ordinary (dec "96.42") (dec "100.0") (dec "82.51") (dec "318.31") (dec "0.0") (dec "0.0").
Proof. exact (conj red_visible lamp_ordinary). Qed.

(** For the colours of a screen other than black, under the standard conditions, the conversion returns, and the stimulus is the one of
    IEC 61966-2-1. *)
Theorem C98_screen_colours : forall lm : Libm, libm_accurate (1 / 10 ^ 13) lm -> forall argb : Z, (argb mod 0x1000000 <> 0)%Z ->
  exists vc x y z cam, s_rgb = Ok vc /\ xyz_from_argb argb = (x, y, z) /\
    screen (red_from_argb argb) (green_from_argb argb) (blue_from_argb argb) x y z /\
    cam16_from_int argb = Ok cam /\
    appears cam (conditions_of (B2R (dec "95.047")) 100 (B2R (dec "108.883")) (B2R (vc_adapting_luminance vc)) 50 2 false) (B2R x) (B2R y) (B2R z).
Proof. exact (fun lm LA argb => appears_screen LA argb). Qed.
Print Assumptions C98_screen_colours.

(** Blue is such a colour, and black is not. *)
Example C98_blue : (0xFF0000FF mod 0x1000000 <> 0)%Z /\ ~ (0xFF000000 mod 0x1000000 <> 0)%Z.
Proof. exact blue_lit. Qed.
Example C98_blue_case : exists cam k x y z, @cam16_from_int ref_libm 0xFF0000FF = Ok cam /\ appears cam k x y z.
Proof.
  destruct (C98_screen_colours ref_libm ref_13 0xFF0000FF (proj1 blue_lit)) as (vc & x & y & z & cam & _ & _ & _ & E & A).
  exists cam. eexists. eexists. eexists. eexists. exact (conj E A).
Qed.
