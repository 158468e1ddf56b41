(** * The chroma of black is zero and that of any other colour is not.  Proof file. *)
From Coq Require Import ZArith Bool Reals Lra Lia Psatz String List.
From Flocq Require Import Core Relative IEEE754.BinarySingleNaN.
From Verif Require Import F64 MathUtils ColorUtils ViewingConditions Cam16 Hct Spec SpecCam FloatFacts FloatMono PfArgb PfMath PfTones PfLab PfGamma PfNear PfVc PfRel PfCamA PfCamB PfCamC PfCamD PfCamE PfCamF PfCamG PfCamH PfCamTrip PfCamPanic PfHct PfCamProps PfHueTable PfHueSep PfHueAll.
Open Scope string_scope.
Open Scope R_scope.

Section Acc.
Context {lm : Libm} (LA : libm_accurate (1 / 10 ^ 13) lm).

Lemma black_chroma vc (argb : Z) cam : vc_std vc -> cam16_from_int_in argb vc = Ok cam -> red_from_argb argb = 0%Z -> green_from_argb argb = 0%Z -> blue_from_argb argb = 0%Z ->
  fin (c_chroma cam) /\ B2R (c_chroma cam) = 0.
Proof using LA.
  intros VS H e1 e2 e3. unfold cam16_from_int_in, xyz_from_argb in H. cbv zeta in H. rewrite e1, e2, e3 in H. pose proof black_cones as BC.
  destruct (matrix_multiply _ _) as [[x y] z]. change (v0 (x, y, z)) with x in H. change (v1 (x, y, z)) with y in H. change (v2 (x, y, z)) with z in H.
  pose proof (from_xyz_staged _ _ _ _ _ H) as S. cbv zeta in S. destruct BC as (z1 & z2 & z3).
  pose proof (resp_zero LA _ _ _ (vs_fl _ VS) (vs_d0 _ VS) z1) as Y1. pose proof (resp_zero LA _ _ _ (vs_fl _ VS) (vs_d1 _ VS) z2) as Y2. pose proof (resp_zero LA _ _ _ (vs_fl _ VS) (vs_d2 _ VS) z3) as Y3.
  set (r := resp _ _ (cone_r x y z)) in *. set (g := resp _ _ (cone_g x y z)) in *. set (bb := resp _ _ (cone_b x y z)) in *. clearbody r g bb.
  destruct (fw_zero LA vc r g bb VS Y1 Y2 Y3) as (ZA & ZB & ZJ & ZC). destruct S as (HB & Eh & Ej & Ec & _).
  destruct (hue_near LA _ _ (proj1 ZA) (proj1 ZB) HB) as (th & _ & _ & Hh & _ & Hu & _).
  rewrite Ec. exact (ZC _ (proj1 Hu) (proj2 Hu)).
Qed.

Lemma lit_chroma vc (argb : Z) cam : s_rgb = Ok vc -> vc_std vc -> cam16_from_int_in argb vc = Ok cam ->
  (1 <= red_from_argb argb \/ 1 <= green_from_argb argb \/ 1 <= blue_from_argb argb)%Z -> 0 < B2R (c_chroma cam).
Proof using LA.
  intros SV VS H some. destruct (chan argb) as (h1 & h2 & h3). unfold cam16_from_int_in, xyz_from_argb in H. cbv zeta in H.
  set (cr := red_from_argb argb) in *. set (cg := green_from_argb argb) in *. set (cb := blue_from_argb argb) in *. clearbody cr cg cb. clear argb.
  pose proof (cones LA cr cg cb h1 h2 h3) as C. pose proof (opp_away LA cr cg cb h1 h2 h3 some) as AW.
  assert (VF : vc_fl vc = fl0 /\ v0 (vc_rgb_d vc) = adapt rw0 /\ v1 (vc_rgb_d vc) = adapt gw0 /\ v2 (vc_rgb_d vc) = adapt bw0).
  { rewrite s_rgb_eq in SV. apply ok_inj in SV. subst vc. repeat split. }
  destruct VF as (V1 & V2 & V3 & V4).
  destruct (matrix_multiply _ _) as [[x y] z] eqn:E; change (v0 (x, y, z)) with x in H; change (v1 (x, y, z)) with y in H; change (v2 (x, y, z)) with z in H.
  rewrite <- V1, <- V2, <- V3, <- V4 in AW. clear V1 V2 V3 V4.
  pose proof (from_xyz_staged _ _ _ _ _ H) as S; cbv zeta in S; destruct C as (_ & (K1 & K2 & K3) & L & _); destruct (L some) as (L1 & L2 & L3);
    destruct (resp_fwd LA _ _ (cone_r x y z) (vs_fl _ VS) (vs_d0 _ VS) ltac:(destruct K1; split; [assumption|lra])) as (_ & A1 & R1);
    destruct (resp_fwd LA _ _ (cone_g x y z) (vs_fl _ VS) (vs_d1 _ VS) ltac:(destruct K2; split; [assumption|lra])) as (_ & A2 & R2);
    destruct (resp_fwd LA _ _ (cone_b x y z) (vs_fl _ VS) (vs_d2 _ VS) ltac:(destruct K3; split; [assumption|lra])) as (_ & A3 & R3);
    apply hyp_range in A1; apply hyp_range in A2; apply hyp_range in A3.
  cbv zeta in AW.
  set (r := resp _ _ (cone_r x y z)) in *; set (g := resp _ _ (cone_g x y z)) in *; set (bb := resp _ _ (cone_b x y z)) in *; clearbody r g bb;
    destruct S as (HB & Eh & Ej & Ec & Ejs & Eas & Ebs);
    pose proof (describe LA vc r g bb _ _ _ VS ltac:(destruct R1; split; [assumption|lra]) ltac:(destruct R2; split; [assumption|lra]) ltac:(destruct R3; split; [assumption|lra])
      (near_weak _ _ _ (1 / 10 ^ 9) R1 ltac:(lra)) (near_weak _ _ _ (1 / 10 ^ 9) R2 ltac:(lra)) (near_weak _ _ _ (1 / 10 ^ 9) R3 ltac:(lra)) HB) as D;
    destruct D as (p0 & rho & th & u & t0 & w & J & JR & Bw & EJ & NJ & fc & pc & hc & Hh & _ & Er & Br & CB & _).
  rewrite Ec. set (c := fw_c _ _ _) in *. clearbody c. destruct AW as (_ & _ & _ & _ & SEP).
  clear - SEP Er Br CB. set (a := B2R (fw_a r g bb)) in *. set (b := B2R (fw_b r g bb)) in *. clearbody a b.
  assert (BB : 1 / 10 ^ 8 * (1 / 10 ^ 8) <= b * b).
  { destruct SEP as [s|s]; [replace (b * b) with (- b * - b) by ring|]; apply Rmult_le_compat; lra. }
  assert (0 <= a * a) by (apply Rle_0_sqr).
  assert (BR : 1 / 10 ^ 8 <= rho). { apply Rnot_lt_le. intros n. assert (rho * rho < 1 / 10 ^ 8 * (1 / 10 ^ 8)) by (apply Rmult_le_0_lt_compat; lra). lra. }
  specialize (CB ltac:(lra)). lra.
Qed.
End Acc.
