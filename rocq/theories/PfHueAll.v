(** * Every colour has a description.  Proof file. *)
From Coq Require Import ZArith Bool Reals Lra Lia Psatz String List Floats.SpecFloat.
From Flocq Require Import Core Relative IEEE754.BinarySingleNaN.
From Verif Require Import F64 MathUtils ColorUtils ViewingConditions Cam16 Hct HctSolver Spec SpecCam FloatFacts FloatMono PfMath PfTones PfLab PfGamma PfLabTrip PfNear PfVc PfRel
  PfCamA PfCamB PfCamC PfCamD PfCamE PfCamF PfCamG PfCamH PfHct PfCamPanic PfCamProps PfHueTable PfHueSep.
Open Scope string_scope.
Open Scope R_scope.

Lemma mul_zero (d : f64) : fin d -> 0 < B2R d -> fmul d (B754_zero false) = B754_zero false /\ fmul (B754_zero false) d = B754_zero false.
Proof.
  intros f p. destruct d as [s|s| |s m e b]; cbn [BinarySingleNaN.B2R] in p; try (exfalso; lra).
  assert (s = false) as ->. { destruct s; [|reflexivity]. exfalso. cbn in p. assert (F2R (Float radix2 (Z.neg m) e) < 0) by (apply F2R_lt_0; cbn; lia). lra. }
  split; reflexivity.
Qed.

Section Acc.
Context {lm : Libm} (LA : libm_accurate (1 / 10 ^ 13) lm).

Lemma zero_is (x : f64) : B2SF x = S754_zero false -> x = B754_zero false.
Proof using. destruct x as [s|s| |s m e b]; cbn [B2SF]; intros H; try discriminate H. now inversion H. Qed.
Lemma black_cone : let '(x, y, z) := matrix_multiply (linearized 0, linearized 0, linearized 0) srgb_to_xyz in
  cone_r x y z = B754_zero false /\ cone_g x y z = B754_zero false /\ cone_b x y z = B754_zero false.
Proof using.
  set (M := matrix_multiply _ _). rewrite (surjective_pairing M). rewrite (surjective_pairing (fst M)). subst M.
  repeat split; apply zero_is; vm_compute; reflexivity.
Qed.

Lemma zero_resp (fl d : f64) : between fl 0.38 0.4 -> between d 0.9 1.1 -> exists s, resp fl d (B754_zero false) = B754_zero s /\ B754_zero s = powf (B754_zero false) (dec "0.42").
Proof using LA.
  intros [ff bf] [fd bd]. destruct (mul_zero d fd ltac:(lra)) as [E1 _]. destruct (mul_zero fl ff ltac:(lra)) as [E2 _].
  assert (EA : resp_arg fl d (B754_zero false) = B754_zero false).
  { unfold resp_arg. rewrite E1. change (fabs (B754_zero false)) with (B754_zero false : f64). rewrite E2. apply zero_is. vm_compute. reflexivity. }
  unfold resp. rewrite EA, E1. cbv zeta. fconst (dec "0.42").
  destruct (la_tiny _ _ LA (B754_zero false) (dec "0.42") eq_refl F ltac:(cbn; lra) ltac:(lra)) as [Z _]. specialize (Z eq_refl). destruct Z as [Fp Vp].
  set (p := powf (B754_zero false) (dec "0.42")) in *. clearbody p.
  assert (exists s, p = B754_zero s) as [s ->].
  { destruct p as [s|s| |s m e b]; try discriminate Fp; [now exists s|]. exfalso. cbn [BinarySingleNaN.B2R] in Vp. apply eq_0_F2R in Vp. destruct s; discriminate Vp. }
  exists s. split; [|reflexivity]. apply B2SF_inj. destruct s; vm_compute; reflexivity.
Qed.

Lemma zero_opp s : fw_a (B754_zero s) (B754_zero s) (B754_zero s) = B754_zero false /\ fw_b (B754_zero s) (B754_zero s) (B754_zero s) = B754_zero false.
Proof using. split; apply zero_is; destruct s; vm_compute; reflexivity. Qed.

(** The hue assertion for opponent coordinates away from the axis, and at the origin. *)
Definition in_range (p : f64 * f64) : Prop := let h := hue_of_ab (fst p) (snd p) in (fge h (dec "0.0") && flt h (dec "360.0"))%bool = true.
Lemma away_in_range (a b : f64) : fin a -> fin b -> -50 <= B2R a <= 50 -> -50 <= B2R b <= 50 -> (B2R b <= - (1 / 10 ^ 8) \/ 1 / 10 ^ 8 <= B2R b) -> in_range (a, b).
Proof using LA.
  intros Fa Fb Ba Bb SEP. unfold in_range. cbn [fst snd]. cbv zeta. apply not_false_is_true. intros H.
  destruct (hue_panic LA _ _ Fa Fb H) as (_ & PB & _). clear H. set (ra := B2R a) in *. set (rb := B2R b) in *. clearbody ra rb. clear Fa Fb a b.
  assert (S0 := sqrt_pos (ra * ra + rb * rb)). assert (S1 : sqrt (ra * ra + rb * rb) * sqrt (ra * ra + rb * rb) = ra * ra + rb * rb) by (apply sqrt_def; nra).
  set (q := sqrt _) in *. clearbody q. assert (QB : q <= 100).
  { assert (ra * ra <= 2500) by (clear - Ba; nra). assert (rb * rb <= 2500) by (clear - Bb; nra). apply Rnot_lt_le. intros n. assert (100 * 100 <= q * q) by (apply Rmult_le_compat; lra). lra. }
  destruct SEP as [SEP|SEP]; [rewrite Rabs_left in PB by lra|rewrite Rabs_right in PB by lra]; lra.
Qed.
Lemma origin_in_range : in_range (B754_zero false, B754_zero false).
Proof using LA.
  unfold in_range. cbn [fst snd]. cbv zeta. apply not_false_is_true. intros H.
  destruct (hue_panic LA (B754_zero false) (B754_zero false) eq_refl eq_refl H) as (_ & _ & N).
  pose proof (la_upper _ _ LA (B754_zero false) (B754_zero false) eq_refl eq_refl eq_refl). lra.
Qed.

Definition stage (d1 d2 d3 : f64) (xyz : vec3) : f64 * f64 :=
  let '(x, y, z) := xyz in
  let r := resp fl0 d1 (cone_r x y z) in let g := resp fl0 d2 (cone_g x y z) in let b := resp fl0 d3 (cone_b x y z) in (fw_a r g b, fw_b r g b).
Lemma lit_in_range cr cg cb : byte cr -> byte cg -> byte cb -> lit cr cg cb ->
  in_range (stage (adapt rw0) (adapt gw0) (adapt bw0) (matrix_multiply (linearized cr, linearized cg, linearized cb) srgb_to_xyz)).
Proof using LA.
  intros hr hg hb LT. pose proof (opp_away LA cr cg cb hr hg hb LT) as AW. set (mm := matrix_multiply _ _) in *. clearbody mm. destruct mm as [[x y] z]. unfold stage. cbv zeta in AW |- *.
  destruct AW as (Fa & Fb & Ba & Bb & SEP). now apply away_in_range.
Qed.
Lemma black_in_range d1 d2 d3 : between fl0 0.38 0.4 -> between d1 0.9 1.1 -> between d2 0.9 1.1 -> between d3 0.9 1.1 ->
  in_range (stage d1 d2 d3 (matrix_multiply (linearized 0, linearized 0, linearized 0) srgb_to_xyz)).
Proof using LA.
  intros BF D1 D2 D3. pose proof black_cone as BC. set (mm := matrix_multiply _ _) in *. clearbody mm. destruct mm as [[x y] z]. destruct BC as (C1 & C2 & C3). unfold stage. cbv zeta. rewrite C1, C2, C3.
  destruct (zero_resp _ _ BF D1) as (s & Z1 & W1). destruct (zero_resp _ _ BF D2) as (s2 & Z2 & W2). destruct (zero_resp _ _ BF D3) as (s3 & Z3 & W3).
  rewrite <- W1 in W2, W3. injection W2 as ->. injection W3 as ->. rewrite Z1, Z2, Z3. destruct (zero_opp s) as [O1 O2]. rewrite O1, O2. exact origin_in_range.
Qed.

Lemma opponents_vc vc argb : s_rgb = Ok vc -> opponents vc argb =
  stage (adapt rw0) (adapt gw0) (adapt bw0) (matrix_multiply (linearized (red_from_argb argb), linearized (green_from_argb argb), linearized (blue_from_argb argb)) srgb_to_xyz).
Proof using.
  rewrite s_rgb_eq. intros E. apply ok_inj in E. subst vc. rewrite opponents_staged. reflexivity.
Qed.

Lemma opponents_ok vc argb : s_rgb = Ok vc -> in_range (opponents vc argb).
Proof using LA.
  intros E. rewrite (opponents_vc vc argb E).
  assert (V : between fl0 0.38 0.4 /\ between (adapt rw0) 0.9 1.1 /\ between (adapt gw0) 0.9 1.1 /\ between (adapt bw0) 0.9 1.1).
  { destruct (vc_std_ok LA) as (vc' & E' & VS). rewrite s_rgb_eq in E'. apply ok_inj in E'. subst vc'. split; [exact (vs_fl _ VS)|]. split; [exact (vs_d0 _ VS)|]. split; [exact (vs_d1 _ VS)|exact (vs_d2 _ VS)]. }
  destruct V as (BF & D1 & D2 & D3).
  destruct (channels_bytes argb) as (hr & hg & hb). set (cr := red_from_argb argb) in *. set (cg := green_from_argb argb) in *. set (cb := blue_from_argb argb) in *. clearbody cr cg cb.
  assert (lit cr cg cb \/ (cr = 0 /\ cg = 0 /\ cb = 0)%Z) as [LT|(-> & -> & ->)] by (unfold lit; lia).
  - now apply lit_in_range.
  - now apply black_in_range.
Qed.

Lemma from_int_total argb : exists cam, cam16_from_int argb = Ok cam.
Proof using LA.
  destruct (vc_std_ok LA) as (vc & E & _). assert (H := opponents_ok vc argb E). destruct (from_int_cases vc argb) as [[cam C]|C].
  - exists cam. rewrite (from_int_eq argb vc E). exact C.
  - exfalso. unfold in_range in H. cbv zeta in C, H. rewrite C in H. discriminate H.
Qed.
End Acc.
