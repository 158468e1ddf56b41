(** * Accuracy of the L* <-> Y conversions for an accurate pow, and the guarantee of lighter / darker.  Proof file. *)
From Coq Require Import ZArith Bool Reals Lra Lia Psatz String List.
From Flocq Require Import Core Relative IEEE754.BinarySingleNaN.
From Verif Require Import F64 MathUtils ColorUtils Contrast Spec SpecTones FloatFacts FloatMono FloatCast PfArgb PfMath PfColor PfContrast PfTones.
Open Scope string_scope.
Open Scope R_scope.

Definition third : f64 := fdiv (dec "1.0") (dec "3.0").
Definition eF : f64 := fdiv (dec "216.0") (dec "24389.0").
Definition kF : f64 := fdiv (dec "24389.0") (dec "27.0").

Lemma ln_le_sub z : 0 < z -> ln z <= z - 1.
Proof.
  intros h. pose proof (exp_ineq1_le (ln z)) as E. rewrite exp_ln in E by assumption. lra.
Qed.
Lemma ln_ge_inv z : 0 < z -> 1 - / z <= ln z.
Proof.
  intros h. pose proof (ln_le_sub (/ z) (Rinv_0_lt_compat _ h)) as E. rewrite ln_Rinv in E by assumption. lra.
Qed.
Lemma exp_small u : -1/2 <= u <= 1/2 -> 1 + u <= exp u <= 1 + 2 * Rabs u.
Proof.
  intros h. split; [apply exp_ineq1_le|].
  pose proof (exp_ineq1_le (- u)) as E. rewrite exp_Ropp in E.
  assert (P : 0 < exp u) by apply exp_pos.
  assert (Q : exp u * (1 - u) <= 1).
  { apply Rmult_le_compat_l with (r := exp u) in E; [|lra]. rewrite Rinv_r in E by lra. lra. }
  unfold Rabs. destruct (Rcase_abs u); nra.
Qed.

(** The cube of the exact power with the rounded exponent. *)
Lemma third_power z : / 125 <= z <= 40 ->
  0 < Rpower z (B2R third) /\ z * (1 - 1 / 10 ^ 13) <= Rpower z (B2R third) ^ 3 <= z * (1 + 1 / 10 ^ 13).
Proof.
  intros h. unfold third. fconst (fdiv (dec "1.0") (dec "3.0")). set (c := B2R _) in *.
  assert (P : 0 < Rpower z c) by apply exp_pos. split; [assumption|].
  assert (E : Rpower z c ^ 3 = z * exp ((3 * c - 1) * ln z)).
  { rewrite <- Rpower_pow, Rpower_mult by assumption.
    replace (c * INR 3) with (1 + (3 * c - 1)) by (simpl; lra). rewrite Rpower_plus, Rpower_1 by lra. reflexivity. }
  rewrite E. pose proof (ln_le_sub z ltac:(lra)) as L1. pose proof (ln_ge_inv z ltac:(lra)) as L2.
  assert (I : / z <= 125). { rewrite <- (Rinv_inv 125). apply Rinv_le; lra. }
  assert (U : - (1 / 10 ^ 14) <= (3 * c - 1) * ln z <= 1 / 10 ^ 14) by (rewrite V; lra).
  set (u := (3 * c - 1) * ln z) in *. clearbody u.
  assert (X : 1 + u <= exp u <= 1 + 2 * Rabs u) by (apply exp_small; lra).
  assert (A : Rabs u <= 1 / 10 ^ 14) by (apply Rabs_le; exact U).
  split; nra.
Qed.

Section Accurate.
Context {lm : Libm} (eps : R) (heps : 0 <= eps <= 1 / 10) (PA : pow_accurate eps lm).

Lemma cbrt z : fin z -> / 125 <= B2R z <= 40 ->
  fin (powf z third) /\ 0 < B2R (powf z third) /\
  B2R z * (1 - eps) ^ 3 * (1 - 1 / 10 ^ 13) <= B2R (powf z third) ^ 3 <= B2R z * (1 + eps) ^ 3 * (1 + 1 / 10 ^ 13).
Proof.
  intros fz bz. destruct (third_power _ bz) as [P C]. set (p := Rpower (B2R z) (B2R third)) in *.
  assert (BP : / 10 <= p <= 10).
  { split.
    - destruct (Rle_or_lt (/ 10) p) as [|g]; [assumption|]. assert (p ^ 3 <= (/ 10) ^ 3) by (apply pow_incr; lra). lra.
    - destruct (Rle_or_lt p 10) as [|g]; [assumption|]. assert (10 ^ 3 <= p ^ 3) by (apply pow_incr; lra). lra. }
  assert (FT : fin third) by (unfold third; fconst (fdiv (dec "1.0") (dec "3.0")); assumption).
  destruct (PA z third fz FT ltac:(lra)) as [F E].
  { fold p. split.
    - apply Rle_trans with (bpow radix2 (-10)); [apply bpow_le; lia|]. simpl bpow. lra.
    - apply Rle_trans with (bpow radix2 10); [simpl bpow; lra|apply bpow_le; lia]. }
  fold p in E. apply Rabs_le_inv in E. set (x := B2R (powf z third)) in *.
  assert (X : p * (1 - eps) <= x <= p * (1 + eps)) by lra.
  assert (X0 : 0 < p * (1 - eps)) by (apply Rmult_lt_0_compat; lra).
  split; [assumption|]. split; [lra|].
  assert (A : (p * (1 - eps)) ^ 3 <= x ^ 3) by (apply pow_incr; lra).
  assert (B : x ^ 3 <= (p * (1 + eps)) ^ 3) by (apply pow_incr; lra).
  rewrite Rpow_mult_distr in A, B.
  assert (Q : 0 <= (1 - eps) ^ 3) by (apply pow_le; lra). assert (Q' : 0 <= (1 + eps) ^ 3) by (apply pow_le; lra).
  split; nra.
Qed.
End Accurate.


Lemma mul_bnd a b A B : - A <= a <= A -> - B <= b <= B -> - (A * B) <= a * b <= A * B.
Proof.
  intros h1 h2. apply Rabs_le_inv. rewrite Rabs_mult. apply Rmult_le_compat; try apply Rabs_pos; apply Rabs_le; lra.
Qed.

(** ** Exact counterparts *)
Definition eR : R := 216 / 24389.
Definition lin (w : R) : R := (116 * w - 16) * 27 / 24389.

Lemma tangent w : - 12 / 29 <= w -> lin w <= w ^ 3.
Proof.
  intros h. unfold lin. assert (0 <= (w - 6 / 29) * (w - 6 / 29) * (w + 12 / 29)); [|nra].
  apply Rmult_le_pos; [apply Rle_0_sqr|lra].
Qed.
Lemma cube_lt a b : 0 <= a -> a <= b -> a ^ 3 <= b ^ 3.
Proof. intros. apply pow_incr. lra. Qed.
Lemma above_knee w d : 0 < w -> 0 <= d <= / 100 -> eR - d / 100 <= w ^ 3 -> 6 / 29 - d <= w.
Proof.
  intros h hd k. destruct (Rle_or_lt (6 / 29 - d) w) as [|g]; [assumption|exfalso]. unfold eR in k.
  assert (w ^ 3 <= (6 / 29 - d) ^ 3) by (apply cube_lt; lra). nra.
Qed.
Lemma below_knee w d : 0 <= d <= / 100 -> w ^ 3 <= eR + d / 100 -> w <= 6 / 29 + d.
Proof.
  intros hd k. destruct (Rle_or_lt w (6 / 29 + d)) as [|g]; [assumption|exfalso]. unfold eR in k.
  assert ((6 / 29 + d) ^ 3 <= w ^ 3) by (apply cube_lt; lra). nra.
Qed.

(** Y of a tone. *)
Lemma Y_R t : fin t -> -16 <= B2R t <= 150 ->
  fin (y_from_lstar t) /\
  ((eR - 1 / 10 ^ 11 <= ((B2R t + 16) / 116) ^ 3 /\
    100 * ((B2R t + 16) / 116) ^ 3 - 1 / 10 ^ 9 <= B2R (y_from_lstar t) <= 100 * ((B2R t + 16) / 116) ^ 3 + 1 / 10 ^ 9) \/
   (((B2R t + 16) / 116) ^ 3 <= eR + 1 / 10 ^ 11 /\
    100 * lin ((B2R t + 16) / 116) - 1 / 10 ^ 9 <= B2R (y_from_lstar t) <= 100 * lin ((B2R t + 16) / 116) + 1 / 10 ^ 9)).
Proof.
  intros ft bt. unfold y_from_lstar, lab_invf. cbv zeta. fold eF. fold kF.
  fconst (dec "16.0"). fconst (dec "116.0"). fconst (dec "100.0").
  destruct (fadd_S t _ ft F ltac:(rewrite V; fsmall)) as [S1 F1']. rewrite V in S1.
  pose proof (rnd_near (B2R t + 16) ltac:(lra)) as E1. rewrite <- S1 in E1.
  set (a := fadd t (dec "16.0")) in *.
  destruct (fdiv_S a (dec "116.0") F1' ltac:(lra) ltac:(rewrite V0; fsmall)) as [S2 F2']. rewrite V0 in S2.
  pose proof (rnd_near (B2R a / 116) ltac:(lra)) as E2. rewrite <- S2 in E2.
  set (b := fdiv a (dec "116.0")) in *. set (w := (B2R t + 16) / 116).
  assert (Bw : 0 <= w <= 1.5) by (unfold w; lra).
  assert (Eb : w - 2 / 10 ^ 13 <= B2R b <= w + 2 / 10 ^ 13) by (unfold w; lra).
  clearbody b w. clear E1 E2 S1 S2 a F1' bt ft.
  assert (Bb : -0.1 <= B2R b <= 1.6) by lra.
  destruct (fmul_S b b F2' F2' ltac:(split; unfold HUGE; nra)) as [M1 G1].
  pose proof (rnd_near (B2R b * B2R b) ltac:(nra)) as N1. rewrite <- M1 in N1.
  set (b2 := fmul b b) in *. assert (Bb2 : -0.1 <= B2R b2 <= 3) by nra.
  destruct (fmul_S b2 b G1 F2' ltac:(split; unfold HUGE; nra)) as [M2 G2].
  pose proof (rnd_near (B2R b2 * B2R b) ltac:(nra)) as N2. rewrite <- M2 in N2.
  set (b3 := fmul b2 b) in *.
  assert (C3 : w ^ 3 - 1 / 10 ^ 12 * 4 <= B2R b3 <= w ^ 3 + 1 / 10 ^ 12 * 4).
  { set (d := B2R b - w). assert (Hd : - 2 / 10 ^ 13 <= d <= 2 / 10 ^ 13) by (unfold d; lra).
    replace (B2R b) with (w + d) in * by (unfold d; lra).
    assert (A : (w + d) * (w + d) * (w + d) = w ^ 3 + d * (3 * w * w + 3 * w * d + d * d)) by ring.
    assert (B : 0 <= 3 * w * w + 3 * w * d + d * d <= 8).
    { pose proof (Rle_0_sqr (w + d / 2)). pose proof (Rle_0_sqr d). unfold Rsqr in *.
      pose proof (mul_bnd w w 1.5 1.5 ltac:(lra) ltac:(lra)). pose proof (mul_bnd w d 1.5 1 ltac:(lra) ltac:(lra)).
      pose proof (mul_bnd d d 0.1 0.1 ltac:(lra) ltac:(lra)). lra. }
    set (k := 3 * w * w + 3 * w * d + d * d) in *.
    pose proof (mul_bnd d k (2 / 10 ^ 13) 8 ltac:(lra) ltac:(lra)) as D.
    assert (Q : (w + d) * (w + d) * (w + d) - 2 / 10 ^ 13 <= B2R b2 * (w + d) <= (w + d) * (w + d) * (w + d) + 2 / 10 ^ 13).
    { set (g := B2R b2 - (w + d) * (w + d)). assert (- 1 / 10 ^ 13 <= g <= 1 / 10 ^ 13) by (unfold g; lra).
      replace (B2R b2) with ((w + d) * (w + d) + g) by (unfold g; lra).
      pose proof (mul_bnd g (w + d) (1 / 10 ^ 13) 2 ltac:(lra) ltac:(lra)). lra. }
    lra. }
  assert (B3 : -1 <= B2R b3 <= 4). { assert (0 <= w ^ 3 <= 1.5 ^ 3) by (split; [apply pow_le; lra|apply pow_incr; lra]). lra. }
  assert (VE : B2R eF = rnd (216 / 24389) /\ fin eF).
  { unfold eF. fconst (dec "216.0"). fconst (dec "24389.0"). destruct (fdiv_S (dec "216.0") (dec "24389.0") F2 ltac:(lra) ltac:(rewrite V2, V3; fsmall)) as [D G].
    rewrite D, V2, V3. split; [reflexivity|exact G]. }
  destruct VE as [VE FE]. pose proof (rnd_near (216 / 24389) ltac:(lra)) as NE. rewrite <- VE in NE. fold eR in NE.
  assert (VK : B2R kF - 1 / 10 ^ 12 <= 24389 / 27 <= B2R kF + 1 / 10 ^ 12 /\ fin kF).
  { unfold kF. fconst (fdiv (dec "24389.0") (dec "27.0")). rewrite V2. split; [lra|assumption]. }
  destruct VK as [VK FK].
  unfold fgt. change Bltb with flt.
  destruct (flt eF b3) eqn:C.
  - apply (proj1 (flt_fin eF b3 FE G2)) in C.
    destruct (fmul_S (dec "100.0") b3 F1 G2 ltac:(rewrite V1; fsmall)) as [M3 G3]. rewrite V1 in M3.
    split; [exact G3|]. left. rewrite M3.
    assert (H : -1000 <= 100 * B2R b3 <= 1000) by lra.
    pose proof (rnd_bounds_abs (100 * B2R b3) 1000 ltac:(apply Rabs_le; lra)) as N3. pose proof eta_small. unfold u53 in N3.
    split; lra.
  - apply (proj1 (flt_fin_f eF b3 FE G2)) in C.
    destruct (fmul_S (dec "116.0") b F0 F2' ltac:(rewrite V0; fsmall)) as [M4 G4]. rewrite V0 in M4.
    pose proof (rnd_near (116 * B2R b) ltac:(lra)) as N4. rewrite <- M4 in N4. set (c := fmul (dec "116.0") b) in *.
    destruct (fsub_S c (dec "16.0") G4 F ltac:(rewrite V; fsmall)) as [M5 G5]. rewrite V in M5.
    pose proof (rnd_near (B2R c - 16) ltac:(lra)) as N5. rewrite <- M5 in N5. set (d := fsub c (dec "16.0")) in *.
    assert (Bd : -200 <= B2R d <= 200) by lra.
    assert (QD : 27 / 24389 * B2R d - 1 / 10 ^ 13 * 10 <= B2R d / B2R kF <= 27 / 24389 * B2R d + 1 / 10 ^ 13 * 10).
    { assert (IK : / B2R kF - 2 / 10 ^ 15 <= 27 / 24389 <= / B2R kF + 2 / 10 ^ 15).
      { assert (K0 : 903 <= B2R kF <= 904) by lra. set (k := B2R kF) in *.
        assert (X : / k * k = 1) by (apply Rinv_l; lra).
        assert (P : 0 < / k) by (apply Rinv_0_lt_compat; lra).
        assert (P2 : / k <= / 903) by (apply Rinv_le; lra).
        split; nra. }
      pose proof (mul_bnd (B2R d) (/ B2R kF - 27 / 24389) 200 (2 / 10 ^ 15) ltac:(lra) ltac:(lra)).
      unfold Rdiv in *. lra. }
    destruct (fdiv_S d kF G5 ltac:(lra)) as [M6 G6].
    { unfold HUGE. lra. }
    pose proof (rnd_near (B2R d / B2R kF) ltac:(lra)) as N6. rewrite <- M6 in N6. set (q := fdiv d kF) in *.
    destruct (fmul_S (dec "100.0") q F1 G6 ltac:(rewrite V1; fsmall)) as [M3 G3]. rewrite V1 in M3.
    split; [exact G3|]. right. rewrite M3.
    pose proof (rnd_near (100 * B2R q) ltac:(lra)) as N3. unfold lin.
    split; lra.
Qed.

(** The two facts below are about real numbers only: [x] and [v] are related as cube root and argument, up to
    an error, [w] is [x] moved by 0.4/116 and [Y] is 100 times the inverse function at [w], up to an error. *)
Definition rootish (x v : R) : Prop :=
  (eR - 1 / 10 ^ 11 <= v /\ 0 < x /\ v * (1 - 4 / 10 ^ 5) - 1 / 10 ^ 11 <= x ^ 3 <= v * (1 + 4 / 10 ^ 5) + 1 / 10 ^ 11) \/
  (v <= eR + 1 / 10 ^ 11 /\ lin x = v).
Definition cubish (w Y : R) : Prop :=
  (eR - 1 / 10 ^ 11 <= w ^ 3 /\ 100 * w ^ 3 - 1 / 10 ^ 9 <= Y <= 100 * w ^ 3 + 1 / 10 ^ 9) \/
  (w ^ 3 <= eR + 1 / 10 ^ 11 /\ 100 * lin w - 1 / 10 ^ 9 <= Y <= 100 * lin w + 1 / 10 ^ 9).

Lemma L_bound x v L : -0.06 <= v <= 30 -> (116 * x - 16) - 1 / 10 ^ 9 <= L <= (116 * x - 16) + 1 / 10 ^ 9 ->
  rootish x v -> -1000 <= L <= 3000.
Proof.
  intros hv hL [(c1 & c2 & c3)|(c1 & c2)]; [|unfold eR, lin in *; lra].
  assert (x <= 10); [|lra]. destruct (Rle_or_lt x 10) as [|g]; [assumption|]. assert (10 ^ 3 <= x ^ 3) by (apply cube_lt; lra). lra.
Qed.

Lemma raise_R x w v Y : x + 0.4 / 116 - 1 / 10 ^ 9 <= w <= x + 0.4 / 116 + 1 / 10 ^ 9 -> 16 / 116 <= w <= 1 ->
  rootish x v -> cubish w Y -> 100 * v + 0.03 <= Y.
Proof.
  intros W BW C Q. destruct C as [(c1 & c2 & c3 & c4)|(c1 & c2)].
  - assert (X : 6 / 29 - 1 / 10 ^ 4 <= x) by (apply (above_knee x (1 / 10 ^ 4)); unfold eR in *; lra).
    assert (X3 : x ^ 3 <= 1) by (replace 1 with (1 ^ 3) by ring; apply cube_lt; lra).
    assert (v <= x ^ 3 + 1 / 10 ^ 4) by lra.
    set (h := 0.00344). assert (H3 : (x + h) ^ 3 <= w ^ 3) by (apply cube_lt; unfold h; lra).
    assert (H4 : x ^ 3 + 0.0004 <= (x + h) ^ 3).
    { replace ((x + h) ^ 3) with (x ^ 3 + 3 * (x * x) * h + 3 * x * (h * h) + h ^ 3) by ring.
      assert (0.0427 <= x * x) by nra. assert (0 <= x * (h * h)) by (unfold h; nra). assert (0 <= h ^ 3) by (unfold h; lra).
      unfold h in *. lra. }
    destruct Q as [(q1 & q2)|(q1 & q2)]; [lra|].
    pose proof (below_knee w (1 / 10 ^ 9) ltac:(lra) ltac:(lra)). lra.
  - assert (T : lin w <= w ^ 3) by (apply tangent; lra).
    assert (LW : lin x + 0.00044 <= lin w) by (unfold lin; lra).
    destruct Q as [(q1 & q2)|(q1 & q2)]; lra.
Qed.

Lemma lower_R x w v Y : x - 0.4 / 116 - 1 / 10 ^ 9 <= w <= x - 0.4 / 116 + 1 / 10 ^ 9 -> 16 / 116 <= w <= 1 ->
  rootish x v -> cubish w Y -> Y <= 100 * v - 0.03.
Proof.
  intros W BW C Q. destruct C as [(c1 & c2 & c3 & c4)|(c1 & c2)].
  - assert (X : 6 / 29 - 1 / 10 ^ 4 <= x) by (apply (above_knee x (1 / 10 ^ 4)); unfold eR in *; lra).
    assert (X3 : x ^ 3 <= 1.1 ^ 3) by (apply cube_lt; lra).
    assert (x ^ 3 <= v + 1 / 10 ^ 4) by lra.
    set (h := 0.00344). assert (H3 : w ^ 3 <= (x - h) ^ 3) by (apply cube_lt; unfold h; lra).
    assert (H4 : (x - h) ^ 3 <= x ^ 3 - 0.0004).
    { replace ((x - h) ^ 3) with (x ^ 3 - 3 * (x * (x - h)) * h - h ^ 3) by ring.
      assert (0.0419 <= x * (x - h)) by (unfold h; nra). assert (0 <= h ^ 3) by (unfold h; lra).
      unfold h in *. lra. }
    assert (T : lin w <= w ^ 3) by (apply tangent; lra).
    destruct Q as [(q1 & q2)|(q1 & q2)]; lra.
  - assert (LW : lin w <= lin x - 0.00044) by (unfold lin; lra).
    destruct Q as [(q1 & q2)|(q1 & q2)]; [|lra].
    pose proof (above_knee w (1 / 10 ^ 9) ltac:(lra) ltac:(lra) ltac:(lra)). unfold lin, eR in *. lra.
Qed.

Section Accurate2.
Context {lm : Libm} (eps : R) (heps : 0 <= eps <= 1 / 10 ^ 5) (PA : pow_accurate eps lm).

(** L* of a Y: [x] is the value of the cube root (or its linear continuation). *)
Lemma L_R y : fin y -> -6 <= B2R y <= 3000 ->
  fin (lstar_from_y y) /\ exists x,
  (116 * x - 16) - 1 / 10 ^ 9 <= B2R (lstar_from_y y) <= (116 * x - 16) + 1 / 10 ^ 9 /\
  ((eR - 1 / 10 ^ 11 <= B2R y / 100 /\ 0 < x /\
    B2R y / 100 * (1 - 4 / 10 ^ 5) - 1 / 10 ^ 11 <= x ^ 3 <= B2R y / 100 * (1 + 4 / 10 ^ 5) + 1 / 10 ^ 11) \/
   (B2R y / 100 <= eR + 1 / 10 ^ 11 /\ lin x = B2R y / 100)).
Proof.
  intros fy by_. unfold lstar_from_y, lab_f. cbv zeta. fold eF. fold kF. fold third.
  fconst (dec "16.0"). fconst (dec "116.0"). fconst (dec "100.0").
  destruct (fdiv_S y (dec "100.0") fy ltac:(lra) ltac:(rewrite V1; fsmall)) as [S1 G1]. rewrite V1 in S1.
  pose proof (rnd_near (B2R y / 100) ltac:(lra)) as E1. rewrite <- S1 in E1.
  set (z := fdiv y (dec "100.0")) in *.
  assert (VE : B2R eF = rnd (216 / 24389) /\ fin eF).
  { unfold eF. fconst (dec "216.0"). fconst (dec "24389.0"). destruct (fdiv_S (dec "216.0") (dec "24389.0") F2 ltac:(lra) ltac:(rewrite V2, V3; fsmall)) as [D G].
    rewrite D, V2, V3. split; [reflexivity|exact G]. }
  destruct VE as [VE FE]. pose proof (rnd_near (216 / 24389) ltac:(lra)) as NE. rewrite <- VE in NE. fold eR in NE.
  assert (VK : B2R kF - 1 / 10 ^ 12 <= 24389 / 27 <= B2R kF + 1 / 10 ^ 12 /\ fin kF).
  { unfold kF. fconst (fdiv (dec "24389.0") (dec "27.0")). rewrite V2. split; [lra|assumption]. }
  destruct VK as [VK FK].
  assert (Fin : forall p : f64, fin p -> -10 <= B2R p <= 10 ->
    fin (fsub (fmul p (dec "116.0")) (dec "16.0")) /\
    (116 * B2R p - 16) - 1 / 10 ^ 11 <= B2R (fsub (fmul p (dec "116.0")) (dec "16.0")) <= (116 * B2R p - 16) + 1 / 10 ^ 11).
  { intros p fp bp. destruct (fmul_S p (dec "116.0") fp F0 ltac:(rewrite V0; fsmall)) as [M1 H1]. rewrite V0 in M1.
    pose proof (rnd_bounds_abs (B2R p * 116) 2000 ltac:(apply Rabs_le; lra)) as N1. rewrite <- M1 in N1.
    pose proof eta_small. unfold u53 in N1.
    destruct (fsub_S (fmul p (dec "116.0")) (dec "16.0") H1 F ltac:(rewrite V; fsmall)) as [M2 H2]. rewrite V in M2.
    pose proof (rnd_bounds_abs (B2R (fmul p (dec "116.0")) - 16) 2000 ltac:(apply Rabs_le; lra)) as N2. rewrite <- M2 in N2.
    unfold u53 in N2. split; [exact H2|]. lra. }
  unfold fgt. change Bltb with flt. destruct (flt eF z) eqn:C.
  - apply (proj1 (flt_fin eF z FE G1)) in C.
    assert (Bz : / 125 <= B2R z <= 40) by (unfold eR in NE; lra).
    destruct (cbrt eps ltac:(lra) PA z G1 Bz) as (FP & PP & CP). set (p := powf z third) in *. clearbody p.
    assert (Q1 : 1 - 3 / 10 ^ 5 <= (1 - eps) ^ 3) by nra.
    assert (Q2 : (1 + eps) ^ 3 <= 1 + 3.1 / 10 ^ 5) by nra.
    assert (Q3 : 0 <= (1 + eps) ^ 3) by (apply pow_le; lra).
    set (e1 := (1 - eps) ^ 3) in *. set (e2 := (1 + eps) ^ 3) in *. clearbody e1 e2.
    assert (CP' : B2R z * (1 - 3.5 / 10 ^ 5) <= B2R p ^ 3 <= B2R z * (1 + 3.5 / 10 ^ 5)).
    { split.
      - apply Rle_trans with (2 := proj1 CP). rewrite Rmult_assoc. apply Rmult_le_compat_l; [lra|]. lra.
      - apply Rle_trans with (1 := proj2 CP). rewrite Rmult_assoc. apply Rmult_le_compat_l; [lra|]. lra. }
    assert (Bp : B2R p <= 10).
    { destruct (Rle_or_lt (B2R p) 10) as [|g]; [assumption|]. assert (10 ^ 3 <= B2R p ^ 3) by (apply cube_lt; lra). lra. }
    destruct (Fin p FP ltac:(lra)) as [FF EF]. split; [exact FF|]. exists (B2R p). split; [lra|]. left.
    split; [lra|]. split; [exact PP|]. lra.
  - apply (proj1 (flt_fin_f eF z FE G1)) in C. unfold eR in NE.
    assert (BK : 903 <= B2R kF <= 904) by lra.
    assert (PK : 24389 / 27 * B2R z - 1 / 10 ^ 12 <= B2R kF * B2R z <= 24389 / 27 * B2R z + 1 / 10 ^ 12).
    { pose proof (mul_bnd (B2R kF - 24389 / 27) (B2R z) (1 / 10 ^ 12) 1 ltac:(lra) ltac:(lra)). lra. }
    destruct (fmul_S kF z FK G1 ltac:(unfold HUGE; lra)) as [M1 H1].
    pose proof (rnd_near (B2R kF * B2R z) ltac:(lra)) as N1. rewrite <- M1 in N1. set (a := fmul kF z) in *.
    destruct (fadd_S a (dec "16.0") H1 F ltac:(rewrite V; fsmall)) as [M2 H2]. rewrite V in M2.
    pose proof (rnd_near (B2R a + 16) ltac:(lra)) as N2. rewrite <- M2 in N2. set (b := fadd a (dec "16.0")) in *.
    destruct (fdiv_S b (dec "116.0") H2 ltac:(lra) ltac:(rewrite V0; fsmall)) as [M3 H3]. rewrite V0 in M3.
    pose proof (rnd_near (B2R b / 116) ltac:(lra)) as N3. rewrite <- M3 in N3. set (c := fdiv b (dec "116.0")) in *.
    destruct (Fin c H3 ltac:(lra)) as [FF EF]. split; [exact FF|].
    exists ((24389 / 27 * (B2R y / 100) + 16) / 116). split; [lra|]. right. split; [unfold eR; lra|unfold lin; field].
Qed.

(** 0.4 more in L* is at least 0.03 more in Y, and 0.4 less at least 0.03 less. *)
Lemma raise y t : fin y -> -6 <= B2R y <= 3000 -> t = fadd (lstar_from_y y) (dec "0.4") -> 0 <= B2R t <= 100 ->
  B2R y + 0.03 <= B2R (y_from_lstar t).
Proof.
  intros fy by_ -> bt. destruct (L_R y fy by_) as (FL & x & EX & C).
  assert (BL : -1000 <= B2R (lstar_from_y y) <= 3000) by (apply (L_bound x (B2R y / 100)); [lra|assumption|assumption]).
  fconst (dec "0.4"). destruct (fadd_S _ (dec "0.4") FL F ltac:(rewrite V; fsmall)) as [S FS].
  set (t := fadd (lstar_from_y y) (dec "0.4")) in *.
  pose proof (rnd_bounds_abs (B2R (lstar_from_y y) + B2R (dec "0.4")) 4000 ltac:(apply Rabs_le; lra)) as N. rewrite <- S in N.
  pose proof eta_small as ES. unfold u53 in N.
  assert (W : x + 0.4 / 116 - 1 / 10 ^ 9 <= (B2R t + 16) / 116 <= x + 0.4 / 116 + 1 / 10 ^ 9) by lra.
  destruct (Y_R t FS ltac:(lra)) as [_ Q].
  assert (BW : 16 / 116 <= (B2R t + 16) / 116 <= 1) by lra. set (w := (B2R t + 16) / 116) in *. clearbody w.
  set (Y := B2R (y_from_lstar t)) in *. clearbody Y. set (v := B2R y / 100) in *.
  replace (B2R y) with (100 * v) by (unfold v; lra). clearbody v.
  apply (raise_R x w v Y); try assumption; lra.
Qed.

Lemma lower y t : fin y -> -6 <= B2R y <= 3000 -> t = fsub (lstar_from_y y) (dec "0.4") -> 0 <= B2R t <= 100 ->
  B2R (y_from_lstar t) <= B2R y - 0.03.
Proof.
  intros fy by_ -> bt. destruct (L_R y fy by_) as (FL & x & EX & C).
  assert (BL : -1000 <= B2R (lstar_from_y y) <= 3000) by (apply (L_bound x (B2R y / 100)); [lra|assumption|assumption]).
  fconst (dec "0.4"). destruct (fsub_S _ (dec "0.4") FL F ltac:(rewrite V; fsmall)) as [S FS].
  set (t := fsub (lstar_from_y y) (dec "0.4")) in *.
  pose proof (rnd_bounds_abs (B2R (lstar_from_y y) - B2R (dec "0.4")) 4000 ltac:(apply Rabs_le; lra)) as N. rewrite <- S in N.
  pose proof eta_small as ES. unfold u53 in N.
  assert (W : x - 0.4 / 116 - 1 / 10 ^ 9 <= (B2R t + 16) / 116 <= x - 0.4 / 116 + 1 / 10 ^ 9) by lra.
  destruct (Y_R t FS ltac:(lra)) as [_ Q].
  assert (BW : 16 / 116 <= (B2R t + 16) / 116 <= 1) by lra. set (w := (B2R t + 16) / 116) in *. clearbody w.
  set (Y := B2R (y_from_lstar t)) in *. clearbody Y. set (v := B2R y / 100) in *.
  replace (B2R y) with (100 * v) by (unfold v; lra). clearbody v.
  apply (lower_R x w v Y); try assumption; lra.
Qed.
End Accurate2.
