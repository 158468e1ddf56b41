(** * Assembling the CAM16 statements.  Proof file. *)
From Coq Require Import ZArith Bool Reals Lra Lia Psatz String List.
From Flocq Require Import Core Relative IEEE754.BinarySingleNaN.
From Verif Require Import F64 MathUtils ColorUtils ViewingConditions Cam16 Hct Spec SpecCam FloatFacts FloatMono PfArgb PfMath PfTones PfLab PfGamma PfNear PfVc PfRel
  PfCamA PfCamB PfCamC PfCamD PfCamE PfCamF PfCamG PfCamH PfCamTrip PfCamPanic PfHct RefLibm PfRefTrig.
Open Scope string_scope.
Open Scope R_scope.

Lemma ref_13 : libm_accurate (1 / 10 ^ 13) ref_libm.
Proof. apply libm_weaken with (2 := ref_libm_accurate). lra. Qed.

Section Acc.
Context {lm : Libm} (LA : libm_accurate (1 / 10 ^ 13) lm).

Lemma from_int_eq argb vc : s_rgb = Ok vc -> cam16_from_int argb = cam16_from_int_in argb vc.
Proof using. intros E. unfold cam16_from_int. rewrite E. reflexivity. Qed.

Lemma from_int_vc argb cam : cam16_from_int argb = Ok cam -> exists vc, s_rgb = Ok vc /\ vc_std vc /\ cam16_from_int_in argb vc = Ok cam.
Proof using LA.
  intros H. destruct (vc_std_ok LA) as (vc & E & VS). exists vc. split; [exact E|]. split; [exact VS|]. rewrite <- (from_int_eq argb vc E). exact H.
Qed.

Lemma cam_trip argb cam : cam16_from_int argb = Ok cam ->
  cam16_to_int cam = Ok (argb_from_rgb (red_from_argb argb) (green_from_argb argb) (blue_from_argb argb)).
Proof using LA.
  intros H. destruct (from_int_vc argb cam H) as (vc & E & VS & H'). unfold cam16_to_int. rewrite E. cbn [bind].
  now rewrite (int_trip LA vc argb cam VS H').
Qed.

Lemma cam_trip_full argb cam : cam16_from_int argb = Ok cam ->
  cam16_to_int cam = Ok (0xFF000000 + argb mod 0x1000000)%Z /\ (opaque argb -> cam16_to_int cam = Ok argb).
Proof using LA.
  intros H. pose proof (cam_trip argb cam H) as T. split.
  - rewrite T. f_equal. rewrite repack. reflexivity.
  - intros h. rewrite T. f_equal. now apply repack_iff.
Qed.

Lemma blue_described : exists cam, cam16_from_int 0xFF0000FF = Ok cam.
Proof using LA.
  destruct (vc_std_ok LA) as (vc & E & VS). unfold cam16_from_int. rewrite E. cbn [bind]. exact (blue_ok LA vc VS).
Qed.
End Acc.
