(** * The conversions between ARGB, XYZ, L*a*b* and L* against the published formulas.  Proof file. *)
From Coq Require Import ZArith Bool Reals Lra Lia Psatz String List.
From Flocq Require Import Core IEEE754.BinarySingleNaN.
From Verif Require Import F64 MathUtils ColorUtils Contrast Spec SpecTones SpecCam SpecViewing SpecAppear SpecCie FloatFacts FloatMono FloatCast PfArgb PfMath PfColor PfContrast PfTones PfLab PfGamma PfLabTrip PfNear PfDelin PfCamTrip PfAppearAll.
Open Scope string_scope.
Open Scope R_scope.
Notation lin := PfLab.lin.

(** The inverse of f. *)
Definition back (x : R) : R := if Rle_dec x (6 / 29) then lin x else x ^ 3.

Lemma knee3 : (6 / 29) ^ 3 = eR.
Proof. unfold eR. field. Qed.
Lemma back_slope x y : x <= y -> 0.128 * (y - x) <= back y - back x.
Proof.
  intros h. unfold back. assert (L : lin (6 / 29) = eR) by (unfold lin, eR; field).
  assert (C : forall a b, 6 / 29 <= a -> a <= b -> 0.128 * (b - a) <= b ^ 3 - a ^ 3).
  { intros a b ha hb. replace (b ^ 3 - a ^ 3) with ((b * b + a * b + a * a) * (b - a)) by ring. apply Rmult_le_compat_r; [lra|].
    assert (0.0427 <= a * a) by nra. assert (0.0427 <= a * b) by nra. assert (0.0427 <= b * b) by nra. lra. }
  destruct (Rle_dec y (6 / 29)) as [hy|hy], (Rle_dec x (6 / 29)) as [hx|hx]; [unfold lin; lra|lra| |apply C; lra].
  pose proof (C (6 / 29) y ltac:(lra) ltac:(lra)) as D. rewrite knee3 in D. unfold lin, eR in *. lra.
Qed.
Lemma back_near x y d : - d <= back x - back y <= d -> - (7.82 * d) <= x - y <= 7.82 * d.
Proof.
  intros h. destruct (Rle_or_lt x y) as [g|g].
  - pose proof (back_slope x y g). lra.
  - pose proof (back_slope y x ltac:(lra)). lra.
Qed.
Lemma back_cie v : back (cie_f v) = v.
Proof.
  unfold cie_f, back. destruct (Rlt_dec (216 / 24389) v) as [h|h].
  - assert (P : 0 < Rpower v (1 / 3)) by apply exp_pos.
    assert (E : Rpower v (1 / 3) ^ 3 = v).
    { rewrite <- Rpower_pow by exact P. rewrite Rpower_mult. replace (1 / 3 * INR 3) with 1 by (simpl; field). apply Rpower_1. lra. }
    destruct (Rle_dec (Rpower v (1 / 3)) (6 / 29)) as [g|g]; [|exact E].
    exfalso. pose proof (cube_lt (Rpower v (1 / 3)) (6 / 29) ltac:(lra) g) as C. rewrite E, knee3 in C. unfold eR in C. lra.
  - destruct (Rle_dec ((24389 / 27 * v + 16) / 116) (6 / 29)) as [g|g]; [unfold lin; field|lra].
Qed.
Lemma back_root rho x v : 0 <= rho <= 1 / 10 ^ 11 -> -0.01 <= v <= 2 -> rootE rho x v -> - (2 * rho + 2 / 10 ^ 12) <= back x - v <= 2 * rho + 2 / 10 ^ 12.
Proof.
  intros hr hv [(a & b & c)|(a & b)]; unfold back.
  - assert (VR : - (2 * rho) <= v * rho <= 2 * rho) by (split; [unfold eR in a; assert (0 <= v * rho) by (apply Rmult_le_pos; lra); lra|apply Rmult_le_compat_r; lra]).
    destruct (Rle_dec x (6 / 29)) as [g|g]; [|lra].
    pose proof (above_knee x (1 / 10 ^ 8) b ltac:(lra) ltac:(lra)) as K. destruct (knee_gap x (1 / 10 ^ 8) ltac:(lra) ltac:(lra)) as [G1 G2]. lra.
  - destruct (Rle_dec x (6 / 29)) as [g|g]; [lra|].
    assert (K : x <= 6 / 29 + 1 / 10 ^ 10) by (unfold lin, eR in *; lra). destruct (knee_gap x (1 / 10 ^ 10) ltac:(lra) ltac:(lra)) as [G1 G2]. lra.
Qed.
Lemma back_cube w w' Y : -0.1 <= w <= 1.01 -> w - 1 / 10 ^ 13 <= w' <= w + 1 / 10 ^ 13 -> cubeE w' Y -> back w - 2 / 10 ^ 11 <= Y <= back w + 2 / 10 ^ 11.
Proof.
  intros hw h C. pose proof (cube_shift w w' (1 / 10 ^ 13) ltac:(lra) ltac:(lra) h) as CS. unfold back.
  assert (LS : lin w - 1 / 10 ^ 13 <= lin w' <= lin w + 1 / 10 ^ 13) by (unfold lin; lra).
  destruct C as [(a & b)|(a & b)].
  - destruct (Rle_dec w (6 / 29)) as [g|g]; [|lra].
    assert (P : 0 < w). { destruct (Rle_or_lt w 0) as [n|n]; [|exact n]. exfalso. assert (w ^ 3 <= 0) by (replace (w ^ 3) with (w * (w * w)) by ring; assert (0 <= w * w) by nra; nra). unfold eR in a. lra. }
    pose proof (above_knee w (2 / 10 ^ 9) P ltac:(lra) ltac:(lra)) as K. destruct (knee_gap w (2 / 10 ^ 9) ltac:(lra) ltac:(lra)) as [G1 G2]. lra.
  - destruct (Rle_dec w (6 / 29)) as [g|g]; [lra|].
    pose proof (below_knee w (2 / 10 ^ 9) ltac:(lra) ltac:(lra)) as K. destruct (knee_gap w (2 / 10 ^ 9) ltac:(lra) ltac:(lra)) as [G1 G2]. lra.
Qed.
Lemma back_luminance l : luminance l = 100 * back ((l + 16) / 116).
Proof.
  unfold luminance, back. destruct (Rlt_dec 8 l), (Rle_dec ((l + 16) / 116) (6 / 29)); try lra. unfold lin. field.
Qed.

(** ** The luminance of a lightness *)
Lemma luminance_abs (l : f64) : fin l -> 0 <= B2R l <= 100 -> near (y_from_lstar l) (luminance (B2R l)) (3 / 10 ^ 9).
Proof.
  intros fl bl. rewrite back_luminance. unfold y_from_lstar. fconst (dec "16.0"). fconst (dec "116.0"). fconst (dec "100.0").
  destruct (fadd_S l (dec "16.0") fl F ltac:(rewrite V; fsmall)) as [S1 G1]. rewrite V in S1.
  pose proof (rnd_uu (B2R l + 16) 116 ltac:(lra) ltac:(lra)) as E1. rewrite <- S1 in E1. set (a := fadd l (dec "16.0")) in *. clearbody a. clear S1.
  destruct (fdiv_S a (dec "116.0") G1 ltac:(lra) ltac:(rewrite V0; unfold uu in *; fsmall)) as [S2 G2]. rewrite V0 in S2.
  pose proof (rnd_uu (B2R a / 116) 2 ltac:(unfold uu in *; lra) ltac:(lra)) as E2. rewrite <- S2 in E2. set (w := fdiv a (dec "116.0")) in *. clearbody w. clear S2.
  assert (W : (B2R l + 16) / 116 - 1 / 10 ^ 13 <= B2R w <= (B2R l + 16) / 116 + 1 / 10 ^ 13) by (unfold uu in *; lra).
  destruct (invf_R w G2 ltac:(lra)) as [FI CI]. pose proof (back_cube ((B2R l + 16) / 116) _ _ ltac:(lra) W CI) as B.
  assert (BR : -0.02 <= back ((B2R l + 16) / 116) <= 1.1).
  { pose proof (back_slope 0 ((B2R l + 16) / 116) ltac:(lra)) as B0. pose proof (back_slope ((B2R l + 16) / 116) 1 ltac:(lra)) as B1.
    replace (back 0) with (lin 0) in B0 by (unfold back; destruct (Rle_dec 0 (6 / 29)); [reflexivity|lra]).
    replace (back 1) with (1 ^ 3) in B1 by (unfold back; destruct (Rle_dec 1 (6 / 29)); [lra|reflexivity]). unfold lin in B0. lra. }
  set (q := back _) in *. clearbody q. set (i := lab_invf w) in *. clearbody i.
  destruct (fmul_S (dec "100.0") i F1 FI ltac:(rewrite V1; fsmall)) as [S3 G3]. rewrite V1 in S3.
  pose proof (rnd_near (100 * B2R i) ltac:(lra)) as E3. rewrite <- S3 in E3. split; [exact G3|lra].
Qed.

Lemma contrast_near (a b : f64) : fin a -> fin b -> 0 <= B2R a <= 100 -> 0 <= B2R b <= 100 -> near (ratio_of_tones a b) (wcag_contrast (B2R a) (B2R b)) (1 / 10 ^ 7).
Proof.
  intros fa fb ha hb. pose proof (fin_not_nan _ fa) as na. pose proof (fin_not_nan _ fb) as nb. rewrite ratio_eq.
  rewrite !ct_id by (assumption || (rewrite val_fin by assumption; lra)).
  destruct (y_from_lstar_range a na ltac:(rewrite val_fin by assumption; lra)) as [F1 B1]. destruct (y_from_lstar_range b nb ltac:(rewrite val_fin by assumption; lra)) as [F2 B2].
  destruct (luminance_abs a fa ha) as [_ L1]. destruct (luminance_abs b fb hb) as [_ L2]. unfold wcag_contrast.
  set (u := luminance (B2R a)) in *. set (v := luminance (B2R b)) in *. clearbody u v. set (y := y_from_lstar a) in *. set (z := y_from_lstar b) in *. clearbody y z.
  destruct (ratio_ys_R y z F1 F2 B1 B2) as (F & E & _). split; [exact F|]. rewrite E. clear E F.
  assert (M1 : Rmax u v - 3 / 10 ^ 9 <= Rmax (B2R y) (B2R z) <= Rmax u v + 3 / 10 ^ 9) by (unfold Rmax; destruct (Rle_dec u v), (Rle_dec (B2R y) (B2R z)); lra).
  assert (M2 : Rmin u v - 3 / 10 ^ 9 <= Rmin (B2R y) (B2R z) <= Rmin u v + 3 / 10 ^ 9) by (unfold Rmin; destruct (Rle_dec u v), (Rle_dec (B2R y) (B2R z)); lra).
  assert (R1 : 0 <= Rmax (B2R y) (B2R z) <= 100) by (unfold Rmax; destruct (Rle_dec (B2R y) (B2R z)); lra).
  assert (R2 : 0 <= Rmin (B2R y) (B2R z) <= 100) by (unfold Rmin; destruct (Rle_dec (B2R y) (B2R z)); lra).
  set (P := Rmax u v) in *. set (Q := Rmin u v) in *. set (p := Rmax (B2R y) (B2R z)) in *. set (q := Rmin (B2R y) (B2R z)) in *. clearbody P Q p q.
  pose proof (rnd_near (p + 5) ltac:(lra)) as N1. pose proof (rnd_near (q + 5) ltac:(lra)) as N2. set (s := rnd (p + 5)) in *. set (t := rnd (q + 5)) in *. clearbody s t.
  assert (D : - (5 / 10 ^ 8) <= s / t - (P + 5) / (Q + 5) <= 5 / 10 ^ 8).
  { replace (s / t - (P + 5) / (Q + 5)) with ((s - (P + 5)) * / t + (P + 5) * ((Q + 5) - t) * / (Q + 5) * / t) by (field; lra).
    assert (I1 : - (0.21) <= / t <= 0.21) by (split; [assert (0 < / t) by (apply Rinv_0_lt_compat; lra); lra|replace 0.21 with (/ (/ 0.21)) by lra; apply Rinv_le; lra]).
    assert (I2 : - (0.21) <= / (Q + 5) <= 0.21) by (split; [assert (0 < / (Q + 5)) by (apply Rinv_0_lt_compat; lra); lra|replace 0.21 with (/ (/ 0.21)) by lra; apply Rinv_le; lra]).
    pose proof (mul_bnd (s - (P + 5)) (/ t) (4 / 10 ^ 9) 0.21 ltac:(lra) I1) as T1.
    pose proof (mul_bnd (P + 5) ((Q + 5) - t) 106 (4 / 10 ^ 9) ltac:(lra) ltac:(lra)) as T2.
    pose proof (mul_bnd _ (/ (Q + 5)) _ 0.21 T2 I2) as T3. pose proof (mul_bnd _ (/ t) _ 0.21 T3 I1) as T4. lra. }
  assert (B : 0 <= s / t <= 30). { split; [apply Rmult_le_pos; [lra|left; apply Rinv_0_lt_compat; lra]|]. apply Rmult_le_reg_r with t; [lra|]. unfold Rdiv. rewrite Rmult_assoc, Rinv_l by lra. lra. }
  pose proof (rnd_near (s / t) ltac:(lra)) as N3. lra.
Qed.

Section Accurate.
Context {lm : Libm} (LA : libm_accurate (1 / 10 ^ 13) lm).

Lemma cie_near (t : f64) v d : fin t -> -0.0005 <= B2R t <= 1.15 -> - d <= B2R t - v <= d -> 0 <= d <= 1 / 10 ^ 6 -> near (lab_f t) (cie_f v) (7.82 * (d + 5 / 10 ^ 12)).
Proof using LA.
  intros ft bt h hd. destruct (labf_R (1 / 10 ^ 13) ltac:(lra) (la_pow _ _ LA) t ft ltac:(lra)) as (FL & BL & RL). split; [exact FL|].
  pose proof (back_root (rho (1 / 10 ^ 13)) (B2R (lab_f t)) (B2R t) ltac:(unfold rho; lra) ltac:(lra) RL) as B. unfold rho in B. pose proof (back_cie v) as C.
  pose proof (back_near (B2R (lab_f t)) (cie_f v) (d + 5 / 10 ^ 12) ltac:(rewrite C; lra)) as N. lra.
Qed.

Lemma cie_range v : 0 <= v <= 1.1 -> 0.1379 <= cie_f v <= 1.1.
Proof using.
  intros hv. pose proof (back_cie v) as B. split; (destruct (Rle_or_lt 0 1); [|lra]).
  - destruct (Rle_or_lt 0.1379 (cie_f v)) as [|g]; [assumption|exfalso]. pose proof (back_slope (cie_f v) 0.1379 ltac:(lra)) as S. rewrite B in S.
    replace (back 0.1379) with (lin 0.1379) in S by (unfold back; destruct (Rle_dec 0.1379 (6 / 29)); [reflexivity|lra]). unfold lin in S. lra.
  - destruct (Rle_or_lt (cie_f v) 1.1) as [|g]; [assumption|exfalso]. pose proof (back_slope 1.1 (cie_f v) ltac:(lra)) as S. rewrite B in S.
    replace (back 1.1) with (1.1 ^ 3) in S by (unfold back; destruct (Rle_dec 1.1 (6 / 29)); [lra|reflexivity]). lra.
Qed.

Lemma lightness_near (y : f64) v d : fin y -> 0 <= v <= 100 -> - d <= B2R y - v <= d -> 0 <= d <= 1 / 10 ^ 7 -> near (lstar_from_y y) (cie_lightness v) (10 * d + 6 / 10 ^ 9).
Proof using LA.
  intros fy hv h hd. destruct (lstar_from_y_R (1 / 10 ^ 13) ltac:(lra) (la_pow _ _ LA) y fy ltac:(lra)) as [FL BL]. split; [exact FL|]. unfold cie_lightness. fconst (dec "100.0").
  destruct (fdiv_S y (dec "100.0") fy ltac:(lra) ltac:(rewrite V; fsmall)) as [S1 G1]. rewrite V in S1.
  pose proof (rnd_near (B2R y / 100) ltac:(lra)) as E1. rewrite <- S1 in E1. set (t := fdiv y (dec "100.0")) in *. clearbody t. clear S1.
  destruct (cie_near t (v / 100) (d / 100 + 1 / 10 ^ 13) G1 ltac:(lra) ltac:(lra) ltac:(lra)) as [_ N]. lra.
Qed.

(** ** Screen colours *)
Lemma channel_near c : (0 <= c <= 255)%Z -> near (linearized c) (100 * srgb_curve c) (1.1 / 10 ^ 8) /\ 0 <= srgb_curve c <= 1.
Proof using LA.
  intros hc. destruct (linearized_R (1 / 10 ^ 13) ltac:(lra) (la_pow _ _ LA) c hc) as [F E]. pose proof (linR_range c hc) as L. rewrite curve_lin by exact hc.
  set (q := linR c) in *. clearbody q. split; [split; [exact F|lra]|lra].
Qed.

Lemma xyz_near argb : let r := red_from_argb argb in let g := green_from_argb argb in let b := blue_from_argb argb in
  near (v0 (xyz_from_argb argb)) (srgb_x r g b) (1.3 / 10 ^ 8) /\ near (v1 (xyz_from_argb argb)) (srgb_y r g b) (1.3 / 10 ^ 8) /\ near (v2 (xyz_from_argb argb)) (srgb_z r g b) (1.3 / 10 ^ 8) /\
  0 <= srgb_x r g b <= 95.1 /\ 0 <= srgb_y r g b <= 100 /\ 0 <= srgb_z r g b <= 108.9.
Proof using LA.
  cbv zeta. destruct (PfCamTrip.chan argb) as (hr & hg & hb). unfold xyz_from_argb. cbv zeta.
  set (cr := red_from_argb argb) in *. set (cg := green_from_argb argb) in *. set (cb := blue_from_argb argb) in *. clearbody cr cg cb. clear argb.
  destruct (channel_near cr hr) as [[Fr Er] Br]. destruct (channel_near cg hg) as [[Fg Eg] Bg]. destruct (channel_near cb hb) as [[Fb Eb] Bb].
  pose proof (xyz_R _ _ _ Fr Fg Fb ltac:(lra) ltac:(lra) ltac:(lra)) as X. destruct (matrix_multiply _ srgb_to_xyz) as [[x y] z]. unfold v0, v1, v2; cbn [fst snd]. destruct X as ((fx & fy & fz) & ex & ey & ez).
  unfold srgb_x, srgb_y, srgb_z. set (lr := B2R (linearized cr)) in *. set (lg := B2R (linearized cg)) in *. set (lb := B2R (linearized cb)) in *.
  set (qr := srgb_curve cr) in *. set (qg := srgb_curve cg) in *. set (qb := srgb_curve cb) in *. clearbody lr lg lb qr qg qb.
  unfold near. repeat split; try assumption; lra.
Qed.

Lemma colour_lightness argb : near (lstar_from_argb argb) (srgb_lightness (red_from_argb argb) (green_from_argb argb) (blue_from_argb argb)) (1 / 10 ^ 6).
Proof using LA.
  destruct (xyz_near argb) as (_ & [fy ey] & _ & _ & by_ & _). cbv zeta in *. rewrite lstar_eq. unfold srgb_lightness.
  pose proof (lightness_near _ _ (1.3 / 10 ^ 8) fy by_ ltac:(lra) ltac:(lra)) as N. apply near_weak with (1 := N). lra.
Qed.

Lemma comp_near (x k : f64) K v : fin x -> fin k -> B2R k - 1 / 10 ^ 13 <= K <= B2R k + 1 / 10 ^ 13 -> 95 <= K <= 109 -> 0 <= v <= 1.005 * K -> - (1.3 / 10 ^ 8) <= B2R x - v <= 1.3 / 10 ^ 8 ->
  near (lab_f (fdiv x k)) (cie_f (v / K)) (1.2 / 10 ^ 9) /\ 0.1379 <= cie_f (v / K) <= 1.1.
Proof using LA.
  intros fx fk hk bK hv h.
  assert (I : 0 <= / B2R k <= 0.0106) by (split; [left; apply Rinv_0_lt_compat; lra|replace 0.0106 with (/ (/ 0.0106)) by lra; apply Rinv_le; lra]).
  assert (I' : 0 <= / K <= 0.0106) by (split; [left; apply Rinv_0_lt_compat; lra|replace 0.0106 with (/ (/ 0.0106)) by lra; apply Rinv_le; lra]).
  assert (RV : 0 <= v / K <= 1.005). { split; [apply Rmult_le_pos; lra|]. apply Rmult_le_reg_r with K; [lra|]. unfold Rdiv. rewrite Rmult_assoc, Rinv_l by lra. lra. }
  assert (D : - (1.4 / 10 ^ 10) <= B2R x / B2R k - v / K <= 1.4 / 10 ^ 10).
  { replace (B2R x / B2R k - v / K) with ((B2R x - v) * / B2R k + v / K * (K - B2R k) * / B2R k) by (field; lra).
    pose proof (mul_bnd (B2R x - v) (/ B2R k) (1.3 / 10 ^ 8) 0.0106 ltac:(lra) ltac:(lra)) as T1.
    pose proof (mul_bnd (v / K) (K - B2R k) 1.1 (1 / 10 ^ 13) ltac:(lra) ltac:(lra)) as T2. pose proof (mul_bnd _ (/ B2R k) _ 0.0106 T2 ltac:(lra)) as T3. lra. }
  destruct (fdiv_S x k fx ltac:(lra) ltac:(unfold HUGE; lra)) as [S1 G1].
  pose proof (rnd_near (B2R x / B2R k) ltac:(lra)) as E1. rewrite <- S1 in E1. set (t := fdiv x k) in *. clearbody t. clear S1.
  split; [|apply cie_range; lra].
  pose proof (cie_near t (v / K) (1.41 / 10 ^ 10) G1 ltac:(lra) ltac:(lra) ltac:(lra)) as N. apply near_weak with (1 := N). lra.
Qed.

Lemma lab_of argb : let r := red_from_argb argb in let g := green_from_argb argb in let b := blue_from_argb argb in let '(l, a, bb) := lab_from_argb argb in
  near l (srgb_lightness r g b) (1 / 10 ^ 5) /\ near a (srgb_a r g b) (1 / 10 ^ 5) /\ near bb (srgb_b r g b) (1 / 10 ^ 5).
Proof using LA.
  cbv zeta. pose proof (xyz_near argb) as X. cbv zeta in X. destruct (xyz_from_argb argb) as [[x y] z] eqn:EX. unfold v0, v1, v2 in X; cbn [fst snd] in X.
  rewrite (lab_xyz argb x y z EX). cbv zeta. unfold srgb_lightness, srgb_a, srgb_b, cie_lightness. destruct X as ([fx ex] & [fy ey] & [fz ez] & bx & by_ & bz).
  set (qx := srgb_x _ _ _) in *. set (qy := srgb_y _ _ _) in *. set (qz := srgb_z _ _ _) in *. clearbody qx qy qz.
  fconst (dec "95.047"). fconst (dec "100.0"). fconst (dec "108.883"). fconst (dec "116.0"). fconst (dec "16.0"). fconst (dec "500.0"). fconst (dec "200.0").
  destruct (comp_near x (dec "95.047") 95.047 qx fx F ltac:(rewrite V; lra) ltac:(lra) ltac:(lra) ltac:(lra)) as [[FX NX] BX].
  destruct (comp_near y (dec "100.0") 100 qy fy F0 ltac:(rewrite V0; lra) ltac:(lra) ltac:(lra) ltac:(lra)) as [[FY NY] BY].
  destruct (comp_near z (dec "108.883") 108.883 qz fz F1 ltac:(rewrite V1; lra) ltac:(lra) ltac:(lra) ltac:(lra)) as [[FZ NZ] BZ].
  set (px := lab_f (fdiv x (dec "95.047"))) in *. set (py := lab_f (fdiv y (dec "100.0"))) in *. set (pz := lab_f (fdiv z (dec "108.883"))) in *. clearbody px py pz.
  set (cx := cie_f (qx / 95.047)) in *. set (cy := cie_f (qy / 100)) in *. set (cz := cie_f (qz / 108.883)) in *. clearbody cx cy cz.
  destruct (fmul_S (dec "116.0") py F2 FY ltac:(rewrite V2; fsmall)) as [M1 H1]. rewrite V2 in M1.
  pose proof (rnd_near (116 * B2R py) ltac:(lra)) as N1. rewrite <- M1 in N1. set (l1 := fmul (dec "116.0") py) in *. clearbody l1. clear M1.
  destruct (fsub_S l1 (dec "16.0") H1 F3 ltac:(rewrite V3; fsmall)) as [M2 H2]. rewrite V3 in M2.
  pose proof (rnd_near (B2R l1 - 16) ltac:(lra)) as N2. rewrite <- M2 in N2. set (l := fsub l1 (dec "16.0")) in *. clearbody l. clear M2.
  destruct (fsub_S px py FX FY ltac:(unfold HUGE; lra)) as [M3 H3].
  pose proof (rnd_near (B2R px - B2R py) ltac:(lra)) as N3. rewrite <- M3 in N3. set (a1 := fsub px py) in *. clearbody a1. clear M3.
  destruct (fmul_S (dec "500.0") a1 F4 H3 ltac:(rewrite V4; fsmall)) as [M4 H4]. rewrite V4 in M4.
  pose proof (rnd_far (500 * B2R a1) ltac:(lra)) as N4. rewrite <- M4 in N4. set (a := fmul (dec "500.0") a1) in *. clearbody a. clear M4.
  destruct (fsub_S py pz FY FZ ltac:(unfold HUGE; lra)) as [M5 H5].
  pose proof (rnd_near (B2R py - B2R pz) ltac:(lra)) as N5. rewrite <- M5 in N5. set (b1 := fsub py pz) in *. clearbody b1. clear M5.
  destruct (fmul_S (dec "200.0") b1 F5 H5 ltac:(rewrite V5; fsmall)) as [M6 H6]. rewrite V5 in M6.
  pose proof (rnd_far (200 * B2R b1) ltac:(lra)) as N6. rewrite <- M6 in N6. set (b := fmul (dec "200.0") b1) in *. clearbody b. clear M6.
  unfold near. repeat split; try assumption; lra.
Qed.

(** ** Encoding *)
Lemma enc_knee v : 0.003130799 <= v <= 0.003130801 -> 0.09047383 <= Rpower v (1 / 2.4) <= 0.09047386.
Proof using.
  intros hv. replace (1 / 2.4) with (INR 5 / INR 12) by (simpl; lra). split.
  - apply rpow_ratio_lo; [lra|lra|lia|]. apply Rle_trans with (0.003130799 ^ 5); [lra|apply pow_incr; lra].
  - apply rpow_ratio_hi; [lra|lra|lia|]. apply Rle_trans with (0.003130801 ^ 5); [apply pow_incr; lra|lra].
Qed.

Lemma encode_near (z : f64) v : fin z -> 0 <= v <= 1 -> v - 1 / 10 ^ 10 <= B2R z <= v + 1 / 10 ^ 10 ->
  let p := fmul (if fle z (dec "0.0031308") then fmul z (dec "12.92") else fsub (fmul (dec "1.055") (powf z inv24)) (dec "0.055")) (dec "255.0") in
  fin p /\ 255 * srgb_encode v - 4 / 10 ^ 5 <= B2R p <= 255 * srgb_encode v + 4 / 10 ^ 5 /\ 0 <= srgb_encode v <= 1.
Proof using LA.
  intros fz hv h. cbv zeta. fconst (dec "0.0031308"). fconst (dec "12.92"). fconst (dec "1.055"). fconst (dec "0.055"). fconst (dec "255.0").
  assert (RG : 0 <= srgb_encode v <= 1).
  { unfold srgb_encode. destruct (Rle_dec v 0.0031308) as [g|g]; [lra|].
    assert (U : Rpower v (1 / 2.4) <= Rpower 1 (1 / 2.4)) by (apply rpower_mono; lra).
    assert (L : Rpower 0.0031308 (1 / 2.4) <= Rpower v (1 / 2.4)) by (apply rpower_mono; lra). pose proof (enc_knee 0.0031308 ltac:(lra)).
    replace (Rpower 1 (1 / 2.4)) with 1 in U by (unfold Rpower; rewrite ln_1, Rmult_0_r; symmetry; apply exp_0). lra. }
  assert (Q : forall d : f64, fin d -> srgb_encode v - 1.5 / 10 ^ 7 <= B2R d <= srgb_encode v + 1.5 / 10 ^ 7 -> fin (fmul d (dec "255.0")) /\ 255 * srgb_encode v - 4 / 10 ^ 5 <= B2R (fmul d (dec "255.0")) <= 255 * srgb_encode v + 4 / 10 ^ 5 /\ 0 <= srgb_encode v <= 1).
  { intros d fd hd. destruct (fmul_S d (dec "255.0") fd F3 ltac:(rewrite V3; fsmall)) as [M G]. rewrite V3 in M.
    pose proof (rnd_far (B2R d * 255) ltac:(lra)) as N. rewrite <- M in N. split; [exact G|lra]. }
  destruct (fle z (dec "0.0031308")) eqn:C.
  - apply (proj1 (fle_fin _ _ fz F)) in C. rewrite V in C.
    destruct (fmul_S z (dec "12.92") fz F0 ltac:(rewrite V0; fsmall)) as [M G]. pose proof (rnd_near (B2R z * B2R (dec "12.92")) ltac:(rewrite V0; lra)) as N. rewrite <- M, V0 in N.
    apply Q; [exact G|]. clear Q RG M. unfold srgb_encode. destruct (Rle_dec v 0.0031308) as [g|g]; [lra|].
    pose proof (enc_knee v ltac:(lra)). lra.
  - apply (proj1 (fle_fin_f _ _ fz F)) in C. rewrite V in C. destruct inv24_R as [FI BI].
    assert (PZ : 0.0031307 <= B2R z <= 1.1) by lra.
    assert (P1 : fin (powf z inv24) /\ Rpower v (1 / 2.4) - 9 / 10 ^ 8 <= B2R (powf z inv24) <= Rpower v (1 / 2.4) + 9 / 10 ^ 8).
    { assert (L1 := ln_le_sub v ltac:(lra)). assert (L2 := ln_ge_inv v ltac:(lra)).
      assert (I : / v <= 1000) by (rewrite <- (Rinv_inv 1000); apply Rinv_le; lra).
      destruct (ln_near (B2R z) v (3.3 / 10 ^ 8) ltac:(lra) ltac:(lra) ltac:(lra)) as [PP LN].
      destruct (rpow_near (B2R z) v (B2R inv24) (1 / 2.4) (3 / 10 ^ 8)) as [R1 R2]; [lra|lra| |lra|].
      { replace (B2R inv24 * ln (B2R z) - 1 / 2.4 * ln v) with (B2R inv24 * (ln (B2R z) - ln v) + (B2R inv24 - / 2.4) * ln v) by lra.
        pose proof (mul_bnd (B2R inv24 - / 2.4) (ln v) (1 / 10 ^ 15) 1000 ltac:(lra) ltac:(lra)).
        pose proof (mul_bnd (B2R inv24) (ln (B2R z) - ln v) 0.42 (6.6 / 10 ^ 8) ltac:(lra) ltac:(lra)). lra. }
      assert (U : Rpower v (1 / 2.4) <= Rpower 1 (1 / 2.4)) by (apply rpower_mono; lra).
      replace (Rpower 1 (1 / 2.4)) with 1 in U by (unfold Rpower; rewrite ln_1, Rmult_0_r; symmetry; apply exp_0).
      assert (L : Rpower 0.003130799 (1 / 2.4) <= Rpower v (1 / 2.4)) by (apply rpower_mono; lra). pose proof (enc_knee 0.003130799 ltac:(lra)).
      destruct (pow_ok (1 / 10 ^ 13) (la_pow _ _ LA) z inv24 fz FI PP ltac:(lra)) as [FP EP]. split; [exact FP|].
      set (W := Rpower v (1 / 2.4)) in *. set (w := Rpower (B2R z) (B2R inv24)) in *. clearbody W w. lra. }
    destruct P1 as [FP EP]. set (p := powf z inv24) in *. clearbody p.
    assert (W : 0 <= Rpower v (1 / 2.4) <= 1).
    { split; [left; apply exp_pos|]. assert (U : Rpower v (1 / 2.4) <= Rpower 1 (1 / 2.4)) by (apply rpower_mono; lra).
      replace (Rpower 1 (1 / 2.4)) with 1 in U by (unfold Rpower; rewrite ln_1, Rmult_0_r; symmetry; apply exp_0). exact U. }
    destruct (fmul_S (dec "1.055") p F1 FP ltac:(rewrite V1; fsmall)) as [M1 G1]. pose proof (rnd_near (B2R (dec "1.055") * B2R p) ltac:(rewrite V1; lra)) as N1. rewrite <- M1, V1 in N1.
    set (d := fmul (dec "1.055") p) in *. clearbody d. clear M1.
    destruct (fsub_S d (dec "0.055") G1 F2 ltac:(rewrite V2; fsmall)) as [M2 G2]. pose proof (rnd_near (B2R d - B2R (dec "0.055")) ltac:(rewrite V2; lra)) as N2. rewrite <- M2, V2 in N2.
    apply Q; [exact G2|]. clear Q RG M2. unfold srgb_encode. destruct (Rle_dec v 0.0031308) as [g|g]; [|lra].
    pose proof (enc_knee v ltac:(lra)). lra.
Qed.

Lemma round_255 (p : f64) q : fin p -> 255 * q - 4 / 10 ^ 5 <= B2R p <= 255 * q + 4 / 10 ^ 5 -> 0 <= q <= 1 ->
  Rabs (IZR (clamp_int 0 255 (rcast p)) - 255 * q) <= 1 / 2 + 1 / 10 ^ 4.
Proof using.
  intros fp hp hq. rewrite rcast_fin by exact fp. pose proof (Znearest_half (fun x => (0 <=? x)%Z) (B2R p)) as H. fold ZnearestA in H.
  apply Rabs_le_inv in H. set (n := ZnearestA (B2R p)) in *.
  assert (A : (-1 < n)%Z) by (apply lt_IZR; lra). assert (B : (n < 256)%Z) by (apply lt_IZR; lra).
  replace (zclamp i64_min i64_max n) with n by zcl.
  replace (clamp_int 0 255 n) with n by (unfold clamp_int; repeat match goal with |- context [Z.ltb ?x ?y] => destruct (Z.ltb_spec x y) end; lia).
  apply Rabs_le. lra.
Qed.

Lemma delin_encode (x : f64) v : fin x -> 0 <= v <= 100 -> v - 9 / 10 ^ 9 <= B2R x <= v + 9 / 10 ^ 9 ->
  Rabs (IZR (delinearized x) - 255 * srgb_encode (v / 100)) <= 1 / 2 + 1 / 10 ^ 4.
Proof using LA.
  intros fx hv h. rewrite delin_pre. fconst (dec "100.0").
  destruct (fdiv_S x (dec "100.0") fx ltac:(lra) ltac:(rewrite V; fsmall)) as [S1 G1]. rewrite V in S1.
  pose proof (rnd_near (B2R x / 100) ltac:(lra)) as E1. rewrite <- S1 in E1. unfold pre. cbv zeta. set (z := fdiv x (dec "100.0")) in *. clearbody z. clear S1.
  destruct (encode_near z (v / 100) G1 ltac:(lra) ltac:(lra)) as (fp & hp & hq). exact (round_255 _ _ fp hp hq).
Qed.

Lemma rgb_back r g b : (0 <= r <= 255)%Z -> (0 <= g <= 255)%Z -> (0 <= b <= 255)%Z ->
  red_from_argb (argb_from_rgb r g b) = r /\ green_from_argb (argb_from_rgb r g b) = g /\ blue_from_argb (argb_from_rgb r g b) = b.
Proof using.
  intros hr hg hb. destruct (pack_channels r g b) as (_ & R1 & R2 & R3 & _). rewrite R1, R2, R3, !Z.mod_small by lia. auto.
Qed.

Lemma grey_encode (l : f64) : fin l -> 0 <= B2R l <= 100 -> let argb := argb_from_lstar l in
  channel_of (red_from_argb argb) (luminance (B2R l)) /\ green_from_argb argb = red_from_argb argb /\ blue_from_argb argb = red_from_argb argb.
Proof using LA.
  intros fl hl. cbv zeta. change (argb_from_lstar l) with (argb_from_rgb (delinearized (y_from_lstar l)) (delinearized (y_from_lstar l)) (delinearized (y_from_lstar l))).
  pose proof (delinearized_byte (y_from_lstar l)) as B. destruct (rgb_back _ _ _ B B B) as (-> & -> & ->). split; [|auto]. split; [exact B|].
  destruct (luminance_abs l fl hl) as [fy ey].
  assert (R : 0 <= luminance (B2R l) <= 100).
  { unfold luminance. destruct (Rlt_dec 8 (B2R l)); [|lra]. assert (W : 0 <= (B2R l + 16) / 116 <= 1) by lra. set (w := (B2R l + 16) / 116) in *. clearbody w.
    pose proof (pow_le w 3 ltac:(lra)) as L. pose proof (pow_incr w 1 3 ltac:(lra)) as U. lra. }
  apply delin_encode; [exact fy|exact R|lra].
Qed.

Lemma row_near (p q r x y z : f64) P Q S : fin p -> fin q -> fin r -> - (1 / 10 ^ 15) <= B2R p - P <= 1 / 10 ^ 15 -> - (1 / 10 ^ 15) <= B2R q - Q <= 1 / 10 ^ 15 -> - (1 / 10 ^ 15) <= B2R r - S <= 1 / 10 ^ 15 ->
  -3.3 <= P <= 3.3 -> -3.3 <= Q <= 3.3 -> -3.3 <= S <= 3.3 -> fin x -> fin y -> fin z -> 0 <= B2R x <= 200 -> 0 <= B2R y <= 200 -> 0 <= B2R z <= 200 ->
  near (fadd (fadd (fmul p x) (fmul q y)) (fmul r z)) (P * B2R x + Q * B2R y + S * B2R z) (4 / 10 ^ 12).
Proof using.
  intros fp fq fr hp hq hr bP bQ bS fx fy fz bx by_ bz.
  pose proof (near_mul p x P (B2R x) (1 / 10 ^ 15) 0 3.4 200 ltac:(split; [exact fp|lra]) (near_self x fx) ltac:(lra) ltac:(lra) ltac:(lra) ltac:(lra) ltac:(lra) ltac:(lra) ltac:(lra)) as N1.
  pose proof (near_mul q y Q (B2R y) (1 / 10 ^ 15) 0 3.4 200 ltac:(split; [exact fq|lra]) (near_self y fy) ltac:(lra) ltac:(lra) ltac:(lra) ltac:(lra) ltac:(lra) ltac:(lra) ltac:(lra)) as N2.
  pose proof (near_mul r z S (B2R z) (1 / 10 ^ 15) 0 3.4 200 ltac:(split; [exact fr|lra]) (near_self z fz) ltac:(lra) ltac:(lra) ltac:(lra) ltac:(lra) ltac:(lra) ltac:(lra) ltac:(lra)) as N3.
  apply near_weak with (e' := 5 / 10 ^ 13) in N1; [|unfold uu; lra]. apply near_weak with (e' := 5 / 10 ^ 13) in N2; [|unfold uu; lra]. apply near_weak with (e' := 5 / 10 ^ 13) in N3; [|unfold uu; lra].
  pose proof (mul_bnd P (B2R x) 3.3 200 ltac:(lra) ltac:(lra)) as M1. pose proof (mul_bnd Q (B2R y) 3.3 200 ltac:(lra) ltac:(lra)) as M2. pose proof (mul_bnd S (B2R z) 3.3 200 ltac:(lra) ltac:(lra)) as M3.
  set (px := P * B2R x) in *. set (qy := Q * B2R y) in *. set (sz := S * B2R z) in *. clearbody px qy sz.
  pose proof (near_add _ _ _ _ _ _ 1400 N1 N2 ltac:(lra) ltac:(lra) ltac:(lra) ltac:(lra) ltac:(lra)) as N4.
  pose proof (near_add _ _ _ _ _ _ 2000 N4 N3 ltac:(lra) ltac:(unfold uu; lra) ltac:(lra) ltac:(unfold uu; lra) ltac:(lra)) as N5.
  apply near_weak with (1 := N5). unfold uu. lra.
Qed.

Lemma stimulus_encode (x y z : f64) : fin x -> fin y -> fin z -> 0 <= B2R x <= 200 -> 0 <= B2R y <= 200 -> 0 <= B2R z <= 200 ->
  0 <= linear_red (B2R x) (B2R y) (B2R z) <= 100 -> 0 <= linear_green (B2R x) (B2R y) (B2R z) <= 100 -> 0 <= linear_blue (B2R x) (B2R y) (B2R z) <= 100 ->
  let argb := argb_from_xyz x y z in
  channel_of (red_from_argb argb) (linear_red (B2R x) (B2R y) (B2R z)) /\ channel_of (green_from_argb argb) (linear_green (B2R x) (B2R y) (B2R z)) /\
  channel_of (blue_from_argb argb) (linear_blue (B2R x) (B2R y) (B2R z)).
Proof using LA.
  intros fx fy fz bx by_ bz hr hg hb. cbv zeta. unfold argb_from_xyz, xyz_to_srgb, v0, v1, v2; cbn [fst snd].
  match goal with |- context [argb_from_rgb ?r ?g ?b] => destruct (rgb_back r g b (delinearized_byte _) (delinearized_byte _) (delinearized_byte _)) as (-> & -> & ->) end.
  unfold channel_of. fconst (dec "3.2413774792388685"). fconst (dec "-1.5376652402851851"). fconst (dec "-0.49885366846268053").
  fconst (dec "-0.9691452513005321"). fconst (dec "1.8758853451067872"). fconst (dec "0.04156585616912061").
  fconst (dec "0.05562093689691305"). fconst (dec "-0.20395524564742123"). fconst (dec "1.0571799111220335").
  split; [|split]; (split; [apply delinearized_byte|]).
  - destruct (row_near _ _ _ x y z 3.2413774792388685 (-1.5376652402851851) (-0.49885366846268053) F F0 F1 ltac:(rewrite V; lra) ltac:(rewrite V0; lra) ltac:(rewrite V1; lra) ltac:(lra) ltac:(lra) ltac:(lra) fx fy fz bx by_ bz) as [G N].
    apply delin_encode; [exact G|exact hr|]. unfold linear_red. lra.
  - destruct (row_near _ _ _ x y z (-0.9691452513005321) 1.8758853451067872 0.04156585616912061 F2 F3 F4 ltac:(rewrite V2; lra) ltac:(rewrite V3; lra) ltac:(rewrite V4; lra) ltac:(lra) ltac:(lra) ltac:(lra) fx fy fz bx by_ bz) as [G N].
    apply delin_encode; [exact G|exact hg|]. unfold linear_green. lra.
  - destruct (row_near _ _ _ x y z 0.05562093689691305 (-0.20395524564742123) 1.0571799111220335 F5 F6 F7 ltac:(rewrite V5; lra) ltac:(rewrite V6; lra) ltac:(rewrite V7; lra) ltac:(lra) ltac:(lra) ltac:(lra) fx fy fz bx by_ bz) as [G N].
    apply delin_encode; [exact G|exact hb|]. unfold linear_blue. lra.
Qed.

(** ** The statements *)
Lemma right x r e e' : near x r e -> e <= e' -> right_to e' x r.
Proof using. intros [f h] g. split; [exact f|]. apply Rabs_le. lra. Qed.

Lemma channel_curve c : (0 <= c <= 255)%Z -> right_to (1 / 10 ^ 7) (linearized c) (100 * srgb_curve c).
Proof using LA. intros hc. apply right with (1 := proj1 (channel_near c hc)). lra. Qed.
Lemma xyz_right argb : let r := red_from_argb argb in let g := green_from_argb argb in let b := blue_from_argb argb in let '(x, y, z) := xyz_from_argb argb in
  right_to (1 / 10 ^ 7) x (srgb_x r g b) /\ right_to (1 / 10 ^ 7) y (srgb_y r g b) /\ right_to (1 / 10 ^ 7) z (srgb_z r g b).
Proof using LA.
  cbv zeta. pose proof (xyz_near argb) as X. cbv zeta in X. destruct (xyz_from_argb argb) as [[x y] z]. unfold v0, v1, v2 in X; cbn [fst snd] in X. destruct X as (A & B & C & _).
  split; [|split]; (eapply right; [eassumption|lra]).
Qed.
Lemma lab_right argb : let r := red_from_argb argb in let g := green_from_argb argb in let b := blue_from_argb argb in let '(l, a, bb) := lab_from_argb argb in
  right_to (1 / 10 ^ 5) l (srgb_lightness r g b) /\ right_to (1 / 10 ^ 5) a (srgb_a r g b) /\ right_to (1 / 10 ^ 5) bb (srgb_b r g b).
Proof using LA.
  cbv zeta. pose proof (lab_of argb) as X. cbv zeta in X. destruct (lab_from_argb argb) as [[x y] z]. destruct X as (A & B & C).
  split; [|split]; (eapply right; [eassumption|lra]).
Qed.
Lemma lightness_right argb : right_to (1 / 10 ^ 6) (lstar_from_argb argb) (srgb_lightness (red_from_argb argb) (green_from_argb argb) (blue_from_argb argb)).
Proof using LA. apply right with (1 := colour_lightness argb). lra. Qed.
Lemma luminance_lightness (y : f64) : fin y -> 0 <= B2R y <= 100 -> right_to (1 / 10 ^ 8) (lstar_from_y y) (cie_lightness (B2R y)).
Proof using LA. intros fy hy. apply right with (1 := lightness_near y (B2R y) 0 fy hy ltac:(lra) ltac:(lra)). lra. Qed.
Lemma encoded (x : f64) : fin x -> 0 <= B2R x <= 100 -> channel_of (delinearized x) (B2R x).
Proof using LA. intros fx hx. split; [apply delinearized_byte|]. apply delin_encode; [exact fx|exact hx|lra]. Qed.
End Accurate.

Lemma lightness_luminance (l : f64) : fin l -> 0 <= B2R l <= 100 -> right_to (1 / 10 ^ 8) (y_from_lstar l) (luminance (B2R l)).
Proof. intros fl hl. apply right with (1 := luminance_abs l fl hl). lra. Qed.
Lemma contrast_right (a b : f64) : fin a -> fin b -> 0 <= B2R a <= 100 -> 0 <= B2R b <= 100 -> right_to (1 / 10 ^ 7) (ratio_of_tones a b) (wcag_contrast (B2R a) (B2R b)).
Proof. intros fa fb ha hb. apply right with (1 := contrast_near a b fa fb ha hb). lra. Qed.

(** ** Cases *)
Lemma tone_40 : is_finite (dec "40.0") = true /\ 0 <= B2R (dec "40.0") <= 100.
Proof. fconst (dec "40.0"). split; [exact F|rewrite V; lra]. Qed.
Lemma stimulus_case : let x := dec "20.0" in let y := dec "20.0" in let z := dec "20.0" in
  (is_finite x = true /\ is_finite y = true /\ is_finite z = true) /\
  0 <= B2R x <= 200 /\ 0 <= B2R y <= 200 /\ 0 <= B2R z <= 200 /\
  0 <= linear_red (B2R x) (B2R y) (B2R z) <= 100 /\ 0 <= linear_green (B2R x) (B2R y) (B2R z) <= 100 /\ 0 <= linear_blue (B2R x) (B2R y) (B2R z) <= 100.
Proof.
  cbv zeta. fconst (dec "20.0"). rewrite V. unfold linear_red, linear_green, linear_blue. repeat split; try exact F; lra.
Qed.
Lemma case_values : cie_lightness 100 = 100 /\ cie_lightness 0 = 0 /\ wcag_contrast 0 100 = 21 /\ srgb_lightness 255 255 255 = 100 /\ 255 * srgb_encode (luminance 100 / 100) = 255.
Proof.
  assert (one : forall p, Rpower 1 p = 1) by (intros p; unfold Rpower; rewrite ln_1, Rmult_0_r; apply exp_0).
  assert (L1 : cie_lightness 100 = 100). { unfold cie_lightness, cie_f. replace (100 / 100) with 1 by lra. destruct (Rlt_dec (216 / 24389) 1); [|lra]. rewrite one. lra. }
  assert (M0 : luminance 0 = 0) by (unfold luminance; destruct (Rlt_dec 8 0); lra).
  assert (M1 : luminance 100 = 100) by (unfold luminance; destruct (Rlt_dec 8 100); [field|lra]).
  split; [exact L1|]. split; [unfold cie_lightness, cie_f; destruct (Rlt_dec (216 / 24389) (0 / 100)); [lra|field]|].
  split; [unfold wcag_contrast; rewrite M0, M1, Rmax_right, Rmin_left by lra; field|]. split.
  - unfold srgb_lightness. transitivity (cie_lightness 100); [f_equal|exact L1]. unfold srgb_y, srgb_curve. destruct (Rle_dec (255 / 255) 0.04045); [lra|].
    replace ((255 / 255 + 0.055) / 1.055) with 1 by lra. rewrite one. lra.
  - rewrite M1. unfold srgb_encode. destruct (Rle_dec (100 / 100) 0.0031308); [lra|]. replace (100 / 100) with 1 by lra. rewrite one. lra.
Qed.
