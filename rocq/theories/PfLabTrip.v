(** * Lab and L* round trips for an accurate pow.  Proof file. *)
From Coq Require Import ZArith Bool Reals Lra Lia Psatz String List.
From Flocq Require Import Core Relative IEEE754.BinarySingleNaN.
From Verif Require Import F64 MathUtils ColorUtils Contrast Spec SpecTones FloatFacts FloatMono FloatCast PfArgb PfMath PfColor PfContrast PfTones PfLab PfGamma.
Open Scope string_scope.
Open Scope R_scope.

Lemma fmul_comm (x y : f64) : fmul x y = fmul y x.
Proof.
  unfold fmul. destruct x as [sx|sx| |sx mx ex Hx], y as [sy|sy| |sy my ey Hy]; cbn [Bmult]; try reflexivity;
    try (rewrite Bool.xorb_comm; reflexivity).
  apply B2SF_inj. rewrite !B2SF_SF2B. rewrite Bool.xorb_comm, Pos.mul_comm, Z.add_comm. reflexivity.
Qed.

Lemma lstar_eq {lm : Libm} argb : lstar_from_argb argb = lstar_from_y (v1 (xyz_from_argb argb)).
Proof. unfold lstar_from_argb, lstar_from_y. rewrite fmul_comm. reflexivity. Qed.

Definition rootE (rho x v : R) : Prop :=
  (eR - 1 / 10 ^ 12 <= v /\ 0 < x /\ v * (1 - rho) <= x ^ 3 <= v * (1 + rho)) \/
  (v <= eR + 1 / 10 ^ 12 /\ - (1 / 10 ^ 12) <= lin x - v <= 1 / 10 ^ 12).
Definition cubeE (w Y : R) : Prop :=
  (eR - 1 / 10 ^ 11 <= w ^ 3 /\ w ^ 3 - 1 / 10 ^ 11 <= Y <= w ^ 3 + 1 / 10 ^ 11) \/
  (w ^ 3 <= eR + 1 / 10 ^ 11 /\ lin w - 1 / 10 ^ 11 <= Y <= lin w + 1 / 10 ^ 11).

Lemma lin_gap w : w ^ 3 - lin w = (w - 6 / 29) ^ 2 * (w + 12 / 29).
Proof. unfold lin. field. Qed.

Lemma knee_gap w d : 0 <= d <= 1 / 10 ^ 4 -> 6 / 29 - d <= w <= 6 / 29 + d -> 0 <= w ^ 3 - lin w <= d * d.
Proof.
  intros hd h. rewrite lin_gap. set (e := w - 6 / 29). assert (E : - d <= e <= d) by (unfold e; lra).
  assert (S : 0 <= e ^ 2 <= d * d) by nra.
  split; [apply Rmult_le_pos; lra|]. apply Rle_trans with (d * d * 1); [|lra]. apply Rmult_le_compat; lra.
Qed.

Lemma cube_shift x w d : -1 / 2 <= x <= 1.2 -> 0 <= d <= 1 / 10 ^ 5 -> x - d <= w <= x + d -> x ^ 3 - 5 * d <= w ^ 3 <= x ^ 3 + 5 * d.
Proof.
  intros hx hd h. set (e := w - x). assert (E : - d <= e <= d) by (unfold e; lra).
  replace w with (x + e) by (unfold e; ring).
  replace ((x + e) ^ 3) with (x ^ 3 + e * (3 * (x * x) + 3 * (x * e) + e * e)) by ring.
  pose proof (mul_bnd e (3 * (x * x) + 3 * (x * e) + e * e) d 5 E) as M. assert (-5 <= 3 * (x * x) + 3 * (x * e) + e * e <= 5) by nra. lra.
Qed.

Lemma inv_near rho x w v Y : 0 <= rho <= 4.1 / 10 ^ 5 -> - / 1000 <= v <= 2 -> - / 4 <= x <= 1.2 -> rootE rho x v -> cubeE w Y ->
  x - 1 / 10 ^ 10 <= w <= x + 1 / 10 ^ 10 -> v - (v + / 1000) * rho - 3 / 10 ^ 9 <= Y <= v + (v + / 1000) * rho + 3 / 10 ^ 9.
Proof.
  intros hr hv hx hroot hcube hw.
  assert (CS := cube_shift x w (1 / 10 ^ 10) ltac:(lra) ltac:(lra) hw).
  assert (LS : lin x - 1 / 10 ^ 10 <= lin w <= lin x + 1 / 10 ^ 10) by (unfold lin; lra).
  assert (T : lin w <= w ^ 3) by (apply tangent; lra).
  assert (VR : 0 <= (v + / 1000) * rho) by (apply Rmult_le_pos; lra).
  destruct hroot as [(a & b & c)|(a & b)]; destruct hcube as [(p & q)|(p & q)].
  - assert (0 <= / 1000 * rho) by lra. lra.
  - assert (K2 : w <= 6 / 29 + 2 / 10 ^ 9) by (apply below_knee; lra).
    assert (K1 : 6 / 29 - 4.2 / 10 ^ 5 <= x) by (apply above_knee; [exact b|lra|]; unfold eR in *; nra).
    destruct (knee_gap w (4.3 / 10 ^ 5) ltac:(lra) ltac:(lra)) as [G1 G2]. lra.
  - assert (K2 : x <= 6 / 29 + 1 / 10 ^ 10) by (unfold lin, eR in *; lra).
    assert (K1 : 6 / 29 - 2 / 10 ^ 9 <= w).
    { destruct (Rle_or_lt w 0) as [n|n]; [exfalso; assert (w ^ 3 <= 0) by (replace (w ^ 3) with (w * (w * w)) by ring; assert (0 <= w * w) by nra; nra); unfold eR in *; lra|].
      apply above_knee; [exact n|lra|lra]. }
    destruct (knee_gap w (4.3 / 10 ^ 5) ltac:(lra) ltac:(lra)) as [G1 G2]. lra.
  - lra.
Qed.

(** [lab_invf]. *)
Lemma invf_R t : fin t -> -0.2 <= B2R t <= 2 -> fin (lab_invf t) /\ cubeE (B2R t) (B2R (lab_invf t)).
Proof.
  intros ft bt. unfold lab_invf. cbv zeta. fold eF. fold kF. fconst (dec "16.0"). fconst (dec "116.0").
  destruct (fmul_S t t ft ft ltac:(split; unfold HUGE; nra)) as [M1 G1].
  pose proof (rnd_near (B2R t * B2R t) ltac:(nra)) as N1. rewrite <- M1 in N1. set (t2 := fmul t t) in *. clearbody t2. clear M1.
  assert (B2 : -0.1 <= B2R t2 <= 4.1) by nra.
  destruct (fmul_S t2 t G1 ft ltac:(split; unfold HUGE; nra)) as [M2 G2].
  pose proof (rnd_near (B2R t2 * B2R t) ltac:(nra)) as N2. rewrite <- M2 in N2. set (t3 := fmul t2 t) in *. clearbody t3. clear M2.
  assert (C3 : B2R t ^ 3 - 1 / 10 ^ 12 <= B2R t3 <= B2R t ^ 3 + 1 / 10 ^ 12).
  { assert (X : B2R t2 * B2R t = B2R t ^ 3 + (B2R t2 - B2R t * B2R t) * B2R t) by ring.
    pose proof (mul_bnd (B2R t2 - B2R t * B2R t) (B2R t) (1 / 10 ^ 13) 2 ltac:(lra) ltac:(lra)). lra. }
  assert (VE : B2R eF = rnd (216 / 24389) /\ fin eF).
  { unfold eF. fconst (dec "216.0"). fconst (dec "24389.0"). destruct (fdiv_S (dec "216.0") (dec "24389.0") F1 ltac:(lra) ltac:(rewrite V1, V2; fsmall)) as [D G].
    rewrite D, V1, V2. split; [reflexivity|exact G]. }
  destruct VE as [VE FE]. pose proof (rnd_near (216 / 24389) ltac:(lra)) as NE. rewrite <- VE in NE. fold eR in NE.
  assert (VK : B2R kF - 1 / 10 ^ 12 <= 24389 / 27 <= B2R kF + 1 / 10 ^ 12 /\ fin kF).
  { unfold kF. fconst (fdiv (dec "24389.0") (dec "27.0")). rewrite V1. split; [lra|exact F1]. }
  destruct VK as [VK FK].
  unfold fgt. change Bltb with flt. destruct (flt eF t3) eqn:C.
  - apply (proj1 (flt_fin eF t3 FE G2)) in C. split; [exact G2|]. left. lra.
  - apply (proj1 (flt_fin_f eF t3 FE G2)) in C.
    destruct (fmul_S (dec "116.0") t F0 ft ltac:(rewrite V0; fsmall)) as [M3 G3]. rewrite V0 in M3.
    pose proof (rnd_far (116 * B2R t) ltac:(lra)) as N3. rewrite <- M3 in N3. set (a := fmul (dec "116.0") t) in *. clearbody a. clear M3.
    destruct (fsub_S a (dec "16.0") G3 F ltac:(rewrite V; fsmall)) as [M4 G4]. rewrite V in M4.
    pose proof (rnd_far (B2R a - 16) ltac:(lra)) as N4. rewrite <- M4 in N4. set (b := fsub a (dec "16.0")) in *. clearbody b. clear M4.
    assert (Q : B2R b / B2R kF - 1 / 10 ^ 12 <= B2R b * 27 / 24389 <= B2R b / B2R kF + 1 / 10 ^ 12).
    { set (k := B2R kF) in *. clearbody k. assert (K : 903 <= k <= 904) by lra.
      assert (I : 0 <= / k <= / 903) by (split; [left; apply Rinv_0_lt_compat; lra|apply Rinv_le; lra]).
      assert (J : B2R b / k - B2R b * 27 / 24389 = B2R b * (24389 / 27 - k) * / k * (27 / 24389)) by (field; lra).
      pose proof (mul_bnd (B2R b) (24389 / 27 - k) 300 (1 / 10 ^ 12) ltac:(lra) ltac:(lra)) as J1.
      pose proof (mul_bnd _ (/ k) _ (/ 903) J1 ltac:(lra)) as J2. lra. }
    destruct (fdiv_S b kF G4 ltac:(lra) ltac:(unfold HUGE; lra)) as [M5 G5].
    pose proof (rnd_near (B2R b / B2R kF) ltac:(lra)) as N5. rewrite <- M5 in N5.
    split; [exact G5|]. right. unfold lin. lra.
Qed.

Section Accurate.
Context {lm : Libm} (eps : R) (heps : 0 <= eps <= 1 / 10 ^ 5) (PA : pow_accurate eps lm).

Definition rho : R := 4 * eps + 1 / 10 ^ 12.

Lemma labf_R t : fin t -> - / 1000 <= B2R t <= 1.2 ->
  fin (lab_f t) /\ 0 <= B2R (lab_f t) <= 1.2 /\ rootE rho (B2R (lab_f t)) (B2R t).
Proof.
  intros ft bt. unfold lab_f. cbv zeta. fold eF. fold kF. fold third.
  fconst (dec "16.0"). fconst (dec "116.0").
  assert (VE : B2R eF = rnd (216 / 24389) /\ fin eF).
  { unfold eF. fconst (dec "216.0"). fconst (dec "24389.0"). destruct (fdiv_S (dec "216.0") (dec "24389.0") F1 ltac:(lra) ltac:(rewrite V1, V2; fsmall)) as [D G].
    rewrite D, V1, V2. split; [reflexivity|exact G]. }
  destruct VE as [VE FE]. pose proof (rnd_near (216 / 24389) ltac:(lra)) as NE. rewrite <- VE in NE. fold eR in NE.
  assert (VK : B2R kF - 1 / 10 ^ 12 <= 24389 / 27 <= B2R kF + 1 / 10 ^ 12 /\ fin kF).
  { unfold kF. fconst (fdiv (dec "24389.0") (dec "27.0")). rewrite V1. split; [lra|exact F1]. }
  destruct VK as [VK FK].
  unfold fgt. change Bltb with flt. destruct (flt eF t) eqn:C.
  - apply (proj1 (flt_fin eF t FE ft)) in C. unfold eR in NE.
    assert (Bz : / 125 <= B2R t <= 40) by lra.
    destruct (cbrt eps ltac:(lra) PA t ft Bz) as (FP & PP & CP). set (p := powf t third) in *. clearbody p.
    assert (Q1 : 1 - 3 * eps <= (1 - eps) ^ 3) by nra.
    assert (Q2 : (1 + eps) ^ 3 <= 1 + 3.1 * eps) by nra.
    assert (Q3 : 0 <= (1 + eps) ^ 3) by (apply pow_le; lra).
    set (e1 := (1 - eps) ^ 3) in *. set (e2 := (1 + eps) ^ 3) in *. clearbody e1 e2.
    assert (CP' : B2R t * (1 - rho) <= B2R p ^ 3 <= B2R t * (1 + rho)).
    { unfold rho. split.
      - apply Rle_trans with (2 := proj1 CP). rewrite Rmult_assoc. apply Rmult_le_compat_l; lra.
      - apply Rle_trans with (1 := proj2 CP). rewrite Rmult_assoc. apply Rmult_le_compat_l; lra. }
    split; [exact FP|]. split.
    { split; [lra|]. destruct (Rle_or_lt (B2R p) 1.2) as [|g]; [assumption|]. assert (1.2 ^ 3 <= B2R p ^ 3) by (apply cube_lt; lra).
      assert (B2R t * (1 + rho) <= 1.2 * (1 + rho)) by (apply Rmult_le_compat_r; unfold rho; lra). unfold rho in *. lra. }
    left. unfold eR. split; [lra|]. split; [exact PP|exact CP'].
  - apply (proj1 (flt_fin_f eF t FE ft)) in C. unfold eR in NE.
    assert (PK : 24389 / 27 * B2R t - 1 / 10 ^ 12 <= B2R kF * B2R t <= 24389 / 27 * B2R t + 1 / 10 ^ 12).
    { pose proof (mul_bnd (B2R kF - 24389 / 27) (B2R t) (1 / 10 ^ 12) 1 ltac:(lra) ltac:(lra)). lra. }
    destruct (fmul_S kF t FK ft ltac:(unfold HUGE; lra)) as [M1 H1].
    pose proof (rnd_near (B2R kF * B2R t) ltac:(lra)) as N1. rewrite <- M1 in N1. set (a := fmul kF t) in *. clearbody a. clear M1.
    destruct (fadd_S a (dec "16.0") H1 F ltac:(rewrite V; fsmall)) as [M2 H2]. rewrite V in M2.
    pose proof (rnd_near (B2R a + 16) ltac:(lra)) as N2. rewrite <- M2 in N2. set (b := fadd a (dec "16.0")) in *. clearbody b. clear M2.
    destruct (fdiv_S b (dec "116.0") H2 ltac:(lra) ltac:(rewrite V0; fsmall)) as [M3 H3]. rewrite V0 in M3.
    pose proof (rnd_near (B2R b / 116) ltac:(lra)) as N3. rewrite <- M3 in N3. set (c := fdiv b (dec "116.0")) in *. clearbody c. clear M3.
    split; [exact H3|]. split; [lra|]. right. unfold eR, lin. lra.
Qed.

(** Greys. *)
Lemma grey_Y c : (0 <= c <= 255)%Z -> let y := v1 (xyz_from_argb (argb_from_rgb c c c)) in
  fin y /\ B2R (linearized c) - 4 / 10 ^ 11 <= B2R y <= B2R (linearized c) + 4 / 10 ^ 11.
Proof.
  intros hc. cbv zeta. unfold xyz_from_argb. destruct (pack_channels c c c) as (_ & R1 & R2 & R3 & _). rewrite R1, R2, R3, Z.mod_small by lia.
  destruct (linearized_range eps heps PA c hc) as [Fr Br].
  pose proof (xyz_R _ _ _ Fr Fr Fr ltac:(lra) ltac:(lra) ltac:(lra)) as X.
  destruct (matrix_multiply _ srgb_to_xyz) as [[x y] z]. unfold v1. cbn [fst snd].
  destruct X as ((fx & fy & fz) & ex & ey & ez). split; [exact fy|]. lra.
Qed.

(** One component of the Lab trip: normalise by the white point [k], take [lab_f], come back. *)
Lemma comp_trip (y k w : f64) : fin y -> fin k -> 95 <= B2R k <= 109 -> -0.05 <= B2R y / B2R k <= 1.1 ->
  fin w -> B2R (lab_f (fdiv y k)) - 5 / 10 ^ 11 <= B2R w <= B2R (lab_f (fdiv y k)) + 5 / 10 ^ 11 ->
  - / 2000 <= B2R y / B2R k ->
  fin (lab_invf w) /\ B2R y / B2R k - (B2R y / B2R k + / 1000) * rho - 4 / 10 ^ 9 <= B2R (lab_invf w) <= B2R y / B2R k + (B2R y / B2R k + / 1000) * rho + 4 / 10 ^ 9.
Proof using heps PA.
  intros fy fk bk by_ fw hw hv. assert (HR : 0 <= rho <= 4.1 / 10 ^ 5) by (unfold rho; lra).
  destruct (fdiv_S y k fy ltac:(lra) ltac:(unfold HUGE; lra)) as [D G].
  pose proof (rnd_near (B2R y / B2R k) ltac:(lra)) as N. rewrite <- D in N.
  set (t := fdiv y k) in *. clearbody t. clear D.
  destruct (labf_R t G ltac:(lra)) as (FL & BL & RL).
  destruct (invf_R w fw ltac:(lra)) as [FI CI].
  pose proof (inv_near rho (B2R (lab_f t)) (B2R w) (B2R t) (B2R (lab_invf w)) HR ltac:(lra) ltac:(lra) RL CI ltac:(lra)) as I. split; [exact FI|].
  set (v := B2R y / B2R k) in *. clearbody v. set (r := rho) in *. clearbody r.
  assert (T : - (1 / 10 ^ 12) <= (B2R t - v) * r <= 1 / 10 ^ 12) by (pose proof (mul_bnd (B2R t - v) r (1 / 10 ^ 13) 1 ltac:(lra) ltac:(lra)); lra).
  lra.
Qed.

Lemma lstar_from_y_R (y : f64) : fin y -> -0.05 <= B2R y <= 110 ->
  fin (lstar_from_y y) /\ 116 * B2R (lab_f (fdiv y (dec "100.0"))) - 16 - 2 / 10 ^ 12 <= B2R (lstar_from_y y) <= 116 * B2R (lab_f (fdiv y (dec "100.0"))) - 16 + 2 / 10 ^ 12.
Proof using heps PA.
  intros fy by_. unfold lstar_from_y. fconst (dec "100.0"). fconst (dec "116.0"). fconst (dec "16.0").
  destruct (fdiv_S y (dec "100.0") fy ltac:(lra) ltac:(rewrite V; fsmall)) as [D G]. rewrite V in D.
  pose proof (rnd_near (B2R y / 100) ltac:(lra)) as N. rewrite <- D in N. set (t := fdiv y (dec "100.0")) in *. clearbody t. clear D.
  destruct (labf_R t G ltac:(lra)) as (FL & BL & _). set (x := lab_f t) in *. clearbody x.
  destruct (fmul_S x (dec "116.0") FL F0 ltac:(rewrite V0; fsmall)) as [M1 H1]. rewrite V0 in M1.
  pose proof (rnd_near (B2R x * 116) ltac:(lra)) as N1. rewrite <- M1 in N1. set (a := fmul x (dec "116.0")) in *. clearbody a. clear M1.
  destruct (fsub_S a (dec "16.0") H1 F1 ltac:(rewrite V1; fsmall)) as [M2 H2]. rewrite V1 in M2.
  pose proof (rnd_near (B2R a - 16) ltac:(lra)) as N2. rewrite <- M2 in N2. split; [exact H2|lra].
Qed.

Lemma back_R (l : f64) : fin l -> -20 <= B2R l <= 130 ->
  let w := fdiv (fadd l (dec "16.0")) (dec "116.0") in
  fin w /\ (B2R l + 16) / 116 - 2 / 10 ^ 13 <= B2R w <= (B2R l + 16) / 116 + 2 / 10 ^ 13.
Proof.
  intros fl bl. cbv zeta. fconst (dec "16.0"). fconst (dec "116.0").
  destruct (fadd_S l (dec "16.0") fl F ltac:(rewrite V; fsmall)) as [M2 H2]. rewrite V in M2.
  pose proof (rnd_near (B2R l + 16) ltac:(lra)) as N2. rewrite <- M2 in N2. set (b := fadd l (dec "16.0")) in *. clearbody b. clear M2.
  destruct (fdiv_S b (dec "116.0") H2 ltac:(lra) ltac:(rewrite V0; fsmall)) as [M3 H3]. rewrite V0 in M3.
  pose proof (rnd_near (B2R b / 116) ltac:(lra)) as N3. rewrite <- M3 in N3. split; [exact H3|lra].
Qed.

Lemma grey_trip c : (0 <= c <= 255)%Z -> argb_from_lstar (lstar_from_argb (argb_from_rgb c c c)) = argb_from_rgb c c c.
Proof using heps PA.
  intros hc. unfold argb_from_lstar. rewrite lstar_eq.
  destruct (grey_Y c hc) as [fy ey]. set (y := v1 (xyz_from_argb (argb_from_rgb c c c))) in *. clearbody y.
  destruct (linearized_range eps heps PA c hc) as [_ Br].
  destruct (linearized_R eps heps PA c hc) as [_ El].
  destruct (lstar_from_y_R y fy ltac:(lra)) as [FL EL].
  assert (E : delinearized (y_from_lstar (lstar_from_y y)) = c); [|rewrite E; reflexivity].
  assert (BX : 0 <= B2R (lab_f (fdiv y (dec "100.0"))) <= 1.2).
  { fconst (dec "100.0"). destruct (fdiv_S y (dec "100.0") fy ltac:(lra) ltac:(rewrite V; fsmall)) as [D G]. rewrite V in D.
    pose proof (rnd_near (B2R y / 100) ltac:(lra)) as N. rewrite <- D in N. apply labf_R; [exact G|lra]. }
  set (l := lstar_from_y y) in *. clearbody l.
  unfold y_from_lstar. destruct (back_R l FL ltac:(lra)) as [FW EW]. set (w := fdiv (fadd l (dec "16.0")) (dec "116.0")) in *. clearbody w.
  fconst (dec "100.0").
  destruct (comp_trip y (dec "100.0") w fy F ltac:(rewrite V; lra) ltac:(rewrite V; lra) FW ltac:(lra) ltac:(rewrite V; lra)) as [FI EI].
  rewrite V in EI. set (i := lab_invf w) in *. clearbody i.
  assert (L := linR_range c hc).
  assert (RB : 0 <= (B2R y / 100 + / 1000) * rho <= (B2R y / 100 + / 1000) * (4.1 / 10 ^ 5)).
  { assert (0 <= rho <= 4.1 / 10 ^ 5) by (unfold rho; lra). split; [apply Rmult_le_pos; lra|apply Rmult_le_compat_l; lra]. }
  set (rr := (B2R y / 100 + / 1000) * rho) in *. clearbody rr.
  destruct (fmul_S (dec "100.0") i F FI ltac:(rewrite V; fsmall)) as [M1 H1]. rewrite V in M1.
  pose proof (rnd_near (100 * B2R i) ltac:(lra)) as N1. rewrite <- M1 in N1. set (a := fmul (dec "100.0") i) in *. clearbody a. clear M1.
  apply (delin_robust eps heps PA a c hc H1).
  set (ll := linR c) in *. clearbody ll.
  assert (0 <= ll * eps <= ll * (1 / 10 ^ 5)) by (split; [apply Rmult_le_pos; lra|apply Rmult_le_compat_l; lra]).
  lra.
Qed.
End Accurate.

Section Tight.
Context {lm : Libm} (eps : R) (heps : 0 <= eps <= 1 / 10 ^ 10) (PA : pow_accurate eps lm).

Lemma heps5 : 0 <= eps <= 1 / 10 ^ 5.
Proof using heps. lra. Qed.

Lemma lab_xyz argb : forall x y z, xyz_from_argb argb = (x, y, z) ->
  lab_from_argb argb =
  (let fx := lab_f (fdiv x (dec "95.047")) in let fy := lab_f (fdiv y (dec "100.0")) in let fz := lab_f (fdiv z (dec "108.883")) in
   (fsub (fmul (dec "116.0") fy) (dec "16.0"), fmul (dec "500.0") (fsub fx fy), fmul (dec "200.0") (fsub fy fz))).
Proof.
  intros x y z h. unfold xyz_from_argb, matrix_multiply, srgb_to_xyz, v0, v1, v2 in h. cbn [fst snd] in h.
  apply pair_equal_spec in h. destruct h as [h hz]. apply pair_equal_spec in h. destruct h as [hx hy]. rewrite <- hx, <- hy, <- hz. clear hx hy hz.
  unfold lab_from_argb, srgb_to_xyz, white_point_d65, v0, v1, v2. cbn [fst snd]. cbv zeta.
  rewrite (fmul_comm (linearized (red_from_argb argb)) (dec "0.41233895")), (fmul_comm (linearized (green_from_argb argb)) (dec "0.35762064")), (fmul_comm (linearized (blue_from_argb argb)) (dec "0.18051042")),
   (fmul_comm (linearized (red_from_argb argb)) (dec "0.2126")), (fmul_comm (linearized (green_from_argb argb)) (dec "0.7152")), (fmul_comm (linearized (blue_from_argb argb)) (dec "0.0722")),
   (fmul_comm (linearized (red_from_argb argb)) (dec "0.01932141")), (fmul_comm (linearized (green_from_argb argb)) (dec "0.11916382")), (fmul_comm (linearized (blue_from_argb argb)) (dec "0.95034478")).
  reflexivity.
Qed.

Lemma labf_of (x k : f64) K : fin x -> fin k -> B2R k = K -> 95 <= K <= 109 -> -0.01 <= B2R x <= K * 1.1 ->
  fin (lab_f (fdiv x k)) /\ 0 <= B2R (lab_f (fdiv x k)) <= 1.2.
Proof using heps PA.
  intros fx fk VK bK bx.
  assert (Q : - 0.0002 <= B2R x / K <= 1.1).
  { assert (E : B2R x = B2R x / K * K) by (field; lra). set (q := B2R x / K) in *. clearbody q. nra. }
  destruct (fdiv_S x k fx ltac:(lra) ltac:(rewrite VK; unfold HUGE; lra)) as [D G]. rewrite VK in D.
  pose proof (rnd_near (B2R x / K) ltac:(lra)) as N. rewrite <- D in N.
  destruct (labf_R eps heps5 PA (fdiv x k) G ltac:(lra)) as (A & B & _). split; [exact A|exact B].
Qed.

(** from a component back to XYZ *)
Lemma comp_back (x k w : f64) K : fin x -> fin k -> B2R k = K -> 95 <= K <= 109 -> -0.01 <= B2R x <= K * 1.05 ->
  fin w -> B2R (lab_f (fdiv x k)) - 5 / 10 ^ 11 <= B2R w <= B2R (lab_f (fdiv x k)) + 5 / 10 ^ 11 ->
  fin (fmul (lab_invf w) k) /\ B2R x - 4.95 / 10 ^ 7 <= B2R (fmul (lab_invf w) k) <= B2R x + 4.95 / 10 ^ 7.
Proof using heps PA.
  intros fx fk VK bK bx fw hw.
  assert (E : B2R x = B2R x / K * K) by (field; lra).
  assert (Q : - 0.0002 <= B2R x / K <= 1.06) by (set (q := B2R x / K) in *; clearbody q; nra).
  destruct (comp_trip eps heps5 PA x k w fx fk ltac:(rewrite VK; lra) ltac:(rewrite VK; lra) fw hw ltac:(rewrite VK; lra)) as [FI EI].
  rewrite VK in EI. set (i := lab_invf w) in *. clearbody i. set (q := B2R x / K) in *. clearbody q.
  assert (RB : 0 <= (q + / 1000) * rho eps <= 1.07 * (4.01 / 10 ^ 10)).
  { assert (0 <= rho eps <= 4.01 / 10 ^ 10) by (unfold rho; lra). split; [apply Rmult_le_pos; lra|apply Rmult_le_compat; lra]. }
  set (rr := (q + / 1000) * rho eps) in *. clearbody rr.
  assert (DI : - (4.45 / 10 ^ 9) <= B2R i - q <= 4.45 / 10 ^ 9) by lra.
  pose proof (mul_bnd (B2R i - q) K _ 109 DI ltac:(lra)) as M.
  assert (MM : B2R i * K = B2R x + (B2R i - q) * K) by (rewrite E; ring).
  assert (X2 : -0.01 <= B2R x <= 116) by nra.
  destruct (fmul_S i k FI fk ltac:(rewrite VK; unfold HUGE; lra)) as [M1 H1]. rewrite VK in M1.
  pose proof (rnd_near (B2R i * K) ltac:(lra)) as N1. rewrite <- M1 in N1. split; [exact H1|]. lra.
Qed.

Lemma lab_round_trip argb : let v := lab_from_argb argb in
  argb_from_lab (v0 v) (v1 v) (v2 v) = argb_from_rgb (red_from_argb argb) (green_from_argb argb) (blue_from_argb argb).
Proof using heps PA.
  cbv zeta. destruct (channels_bytes argb) as (hr & hg & hb).
  pose proof (fun x y z => lab_xyz argb x y z) as LX. unfold xyz_from_argb in LX.
  set (cr := red_from_argb argb) in *. set (cg := green_from_argb argb) in *. set (cb := blue_from_argb argb) in *. clearbody cr cg cb.
  destruct (linearized_range eps heps5 PA cr hr) as [Fr Br]. destruct (linearized_range eps heps5 PA cg hg) as [Fg Bg].
  destruct (linearized_range eps heps5 PA cb hb) as [Fb Bb].
  pose proof (xyz_R _ _ _ Fr Fg Fb ltac:(lra) ltac:(lra) ltac:(lra)) as X.
  destruct (matrix_multiply _ srgb_to_xyz) as [[x y] z]. destruct X as ((fx & fy & fz) & ex & ey & ez).
  rewrite (LX x y z eq_refl). clear LX. cbv zeta. unfold v0, v1, v2. cbn [fst snd].
  unfold argb_from_lab, white_point_d65, v0, v1, v2. cbn [fst snd]. cbv zeta.
  fconst (dec "95.047"). fconst (dec "100.0"). fconst (dec "108.883").
  destruct (labf_of x (dec "95.047") (B2R (dec "95.047")) fx F eq_refl ltac:(rewrite V; lra) ltac:(rewrite V; lra)) as [FX BX].
  destruct (labf_of y (dec "100.0") (B2R (dec "100.0")) fy F0 eq_refl ltac:(rewrite V0; lra) ltac:(rewrite V0; lra)) as [FY BY].
  destruct (labf_of z (dec "108.883") (B2R (dec "108.883")) fz F1 eq_refl ltac:(rewrite V1; lra) ltac:(rewrite V1; lra)) as [FZ BZ].
  pose proof (fun w => comp_back x (dec "95.047") w (B2R (dec "95.047")) fx F eq_refl ltac:(rewrite V; lra) ltac:(rewrite V; lra)) as KX.
  pose proof (fun w => comp_back y (dec "100.0") w (B2R (dec "100.0")) fy F0 eq_refl ltac:(rewrite V0; lra) ltac:(rewrite V0; lra)) as KY.
  pose proof (fun w => comp_back z (dec "108.883") w (B2R (dec "108.883")) fz F1 eq_refl ltac:(rewrite V1; lra) ltac:(rewrite V1; lra)) as KZ.
  set (px := lab_f (fdiv x (dec "95.047"))) in *. set (py := lab_f (fdiv y (dec "100.0"))) in *. set (pz := lab_f (fdiv z (dec "108.883"))) in *.
  clearbody px py pz.
  (* the three Lab values *)
  fconst (dec "116.0"). fconst (dec "16.0"). fconst (dec "500.0"). fconst (dec "200.0").
  destruct (fmul_S (dec "116.0") py F2 FY ltac:(rewrite V2; fsmall)) as [M1 H1]. rewrite V2 in M1.
  pose proof (rnd_near (116 * B2R py) ltac:(lra)) as N1. rewrite <- M1 in N1. set (l1 := fmul (dec "116.0") py) in *. clearbody l1. clear M1.
  destruct (fsub_S l1 (dec "16.0") H1 F3 ltac:(rewrite V3; fsmall)) as [M2 H2]. rewrite V3 in M2.
  pose proof (rnd_near (B2R l1 - 16) ltac:(lra)) as N2. rewrite <- M2 in N2. set (l := fsub l1 (dec "16.0")) in *. clearbody l. clear M2.
  destruct (fsub_S px py FX FY ltac:(unfold HUGE; lra)) as [M3 H3].
  pose proof (rnd_near (B2R px - B2R py) ltac:(lra)) as N3. rewrite <- M3 in N3. set (a1 := fsub px py) in *. clearbody a1. clear M3.
  destruct (fmul_S (dec "500.0") a1 F4 H3 ltac:(rewrite V4; fsmall)) as [M4 H4]. rewrite V4 in M4.
  pose proof (rnd_far (500 * B2R a1) ltac:(lra)) as N4. rewrite <- M4 in N4. set (a := fmul (dec "500.0") a1) in *. clearbody a. clear M4.
  destruct (fsub_S py pz FY FZ ltac:(unfold HUGE; lra)) as [M5 H5].
  pose proof (rnd_near (B2R py - B2R pz) ltac:(lra)) as N5. rewrite <- M5 in N5. set (b1 := fsub py pz) in *. clearbody b1. clear M5.
  destruct (fmul_S (dec "200.0") b1 F5 H5 ltac:(rewrite V5; fsmall)) as [M6 H6]. rewrite V5 in M6.
  pose proof (rnd_far (200 * B2R b1) ltac:(lra)) as N6. rewrite <- M6 in N6. set (b := fmul (dec "200.0") b1) in *. clearbody b. clear M6.
  (* and back *)
  destruct (back_R l H2 ltac:(lra)) as [FW EW]. set (wy := fdiv (fadd l (dec "16.0")) (dec "116.0")) in *. clearbody wy.
  destruct (fdiv_S a (dec "500.0") H4 ltac:(lra) ltac:(rewrite V4; fsmall)) as [M7 H7]. rewrite V4 in M7.
  pose proof (rnd_near (B2R a / 500) ltac:(lra)) as N7. rewrite <- M7 in N7. set (a2 := fdiv a (dec "500.0")) in *. clearbody a2. clear M7.
  destruct (fadd_S a2 wy H7 FW ltac:(unfold HUGE; lra)) as [M8 H8].
  pose proof (rnd_near (B2R a2 + B2R wy) ltac:(lra)) as N8. rewrite <- M8 in N8. set (wx := fadd a2 wy) in *. clearbody wx. clear M8.
  destruct (fdiv_S b (dec "200.0") H6 ltac:(lra) ltac:(rewrite V5; fsmall)) as [M9 H9]. rewrite V5 in M9.
  pose proof (rnd_near (B2R b / 200) ltac:(lra)) as N9. rewrite <- M9 in N9. set (b2 := fdiv b (dec "200.0")) in *. clearbody b2. clear M9.
  destruct (fsub_S wy b2 FW H9 ltac:(unfold HUGE; lra)) as [M10 H10].
  pose proof (rnd_near (B2R wy - B2R b2) ltac:(lra)) as N10. rewrite <- M10 in N10. set (wz := fsub wy b2) in *. clearbody wz. clear M10.
  destruct (KX wx H8 ltac:(clear - N1 N2 N3 N4 N7 N8 EW; lra)) as [GX IX].
  destruct (KY wy FW ltac:(clear - N1 N2 EW; lra)) as [GY IY].
  destruct (KZ wz H10 ltac:(clear - N1 N2 N5 N6 N9 N10 EW; lra)) as [GZ IZ].
  set (r := B2R (linearized cr)) in *. set (g := B2R (linearized cg)) in *. set (bb := B2R (linearized cb)) in *.
  apply (xyz_robust eps heps5 PA _ _ _ cr cg cb (4.96 / 10 ^ 7) hr hg hb GX GY GZ); [lra| | |]; fold r; fold g; fold bb; clearbody r g bb.
  - clear - IX ex. lra.
  - clear - IY ey. lra.
  - clear - IZ ez. lra.
Qed.

(** L* of a colour *)
Lemma linR_mono c c' : (0 <= c <= c')%Z -> (c' <= 255)%Z -> linR c <= linR c'.
Proof.
  intros h h'. unfold linR. destruct (Z.leb_spec c 10), (Z.leb_spec c' 10); try lia.
  - assert (IZR c <= IZR c') by (apply IZR_le; lia). lra.
  - assert (I := c10_R c ltac:(lia)). destruct (W_bounds c' ltac:(lia)). lra.
  - assert (I : IZR c <= IZR c') by (apply IZR_le; lia). destruct (W_bounds c ltac:(lia)). 
    apply Rle_Rpower_l; [lra|]. split; [lra|]. unfold wR. lra.
Qed.

Definition YR (argb : Z) : R := 0.2126 * linR (red_from_argb argb) + 0.7152 * linR (green_from_argb argb) + 0.0722 * linR (blue_from_argb argb).

Lemma YR_range argb : 0 <= YR argb <= 1.
Proof.
  destruct (channels_bytes argb) as (hr & hg & hb). unfold YR.
  pose proof (linR_range _ hr). pose proof (linR_range _ hg). pose proof (linR_range _ hb). lra.
Qed.

(** [lstar_from_argb] is [116 x - 16] up to rounding, where [x] is the approximate root of a number close to the exact luminance *)
Lemma lstar_R argb : fin (lstar_from_argb argb) /\ exists x v, rootE (rho eps) x v /\ 0 <= x <= 1.2 /\
  YR argb * (1 - 2.01 / 10 ^ 10) - 2 / 10 ^ 12 <= v <= YR argb * (1 + 2.01 / 10 ^ 10) + 2 / 10 ^ 12 /\
  116 * x - 16 - 2 / 10 ^ 12 <= B2R (lstar_from_argb argb) <= 116 * x - 16 + 2 / 10 ^ 12.
Proof using heps PA.
  rewrite lstar_eq. unfold xyz_from_argb. destruct (channels_bytes argb) as (hr & hg & hb). unfold YR.
  set (cr := red_from_argb argb) in *. set (cg := green_from_argb argb) in *. set (cb := blue_from_argb argb) in *. clearbody cr cg cb.
  destruct (linearized_range eps heps5 PA cr hr) as [Fr Br]. destruct (linearized_range eps heps5 PA cg hg) as [Fg Bg].
  destruct (linearized_range eps heps5 PA cb hb) as [Fb Bb].
  destruct (linearized_R eps heps5 PA cr hr) as [_ Er]. destruct (linearized_R eps heps5 PA cg hg) as [_ Eg]. destruct (linearized_R eps heps5 PA cb hb) as [_ Eb].
  pose proof (xyz_R _ _ _ Fr Fg Fb ltac:(lra) ltac:(lra) ltac:(lra)) as X.
  destruct (matrix_multiply _ srgb_to_xyz) as [[x y] z]. destruct X as ((fx & fy & fz) & _ & ey & _). unfold v1. cbn [fst snd].
  assert (LR := linR_range cr hr). assert (LG := linR_range cg hg). assert (LB := linR_range cb hb).
  set (r := B2R (linearized cr)) in *. set (g := B2R (linearized cg)) in *. set (b := B2R (linearized cb)) in *. clearbody r g b.
  set (lr := linR cr) in *. set (lg := linR cg) in *. set (lb := linR cb) in *. clearbody lr lg lb.
  assert (P : forall u, 0 <= u -> 0 <= u * eps <= u * (1 / 10 ^ 10)) by (intros u hu; split; [apply Rmult_le_pos; lra|apply Rmult_le_compat_l; lra]).
  pose proof (P lr ltac:(lra)). pose proof (P lg ltac:(lra)). pose proof (P lb ltac:(lra)).
  destruct (lstar_from_y_R eps heps5 PA y fy ltac:(clear - ey Br Bg Bb; lra)) as [FL EL]. split; [exact FL|].
  fconst (dec "100.0").
  destruct (fdiv_S y (dec "100.0") fy ltac:(lra) ltac:(rewrite V; split; unfold HUGE; clear - ey Br Bg Bb; lra)) as [D G]. rewrite V in D.
  pose proof (rnd_near (B2R y / 100) ltac:(clear - ey Br Bg Bb; lra)) as N. rewrite <- D in N.
  set (t := fdiv y (dec "100.0")) in *. clearbody t. clear D.
  destruct (labf_R eps heps5 PA t G ltac:(clear - N ey Br Bg Bb; lra)) as (_ & BL & RL).
  exists (B2R (lab_f t)), (B2R t). split; [exact RL|]. split; [exact BL|]. split; [|exact EL].
  clear - N ey Er Eg Eb LR LG LB H H0 H1. lra.
Qed.

Lemma cube_le_1 x d : 0 <= x -> 0 <= d -> x ^ 3 <= 1 + d -> x <= 1 + d.
Proof. intros a b c. destruct (Rle_or_lt x (1 + d)) as [|g]; [assumption|exfalso]. assert ((1 + d) ^ 3 <= x ^ 3) by (apply cube_lt; lra). nra. Qed.

Lemma lstar_range argb : fin (lstar_from_argb argb) /\ - (1 / 10 ^ 6) <= B2R (lstar_from_argb argb) <= 100 + 1 / 10 ^ 6.
Proof using heps PA.
  destruct (lstar_R argb) as (F & x & v & RT & BX & EV & EL). split; [exact F|]. pose proof (YR_range argb) as YB.
  set (Y := YR argb) in *. clearbody Y. set (L := B2R (lstar_from_argb argb)) in *. clearbody L.
  assert (RH : 0 <= rho eps <= 4.02 / 10 ^ 10) by (unfold rho; lra). set (r := rho eps) in *. clearbody r.
  destruct RT as [(a & b & c)|(a & b)].
  - assert (K : x ^ 3 <= 1 + 1 / 10 ^ 9).
    { apply Rle_trans with (1 := proj2 c). apply Rle_trans with ((1 + 3 / 10 ^ 10) * (1 + 4.02 / 10 ^ 10)); [apply Rmult_le_compat; unfold eR in *; lra|lra]. }
    apply cube_le_1 in K; [|lra|lra].
    assert (K2 : 6 / 29 - 1 / 10 ^ 6 <= x).
    { apply above_knee; [exact b|lra|]. apply Rle_trans with (2 := proj1 c). apply Rle_trans with ((eR - 1 / 10 ^ 12) * (1 - 4.02 / 10 ^ 10)); [unfold eR; lra|]. apply Rmult_le_compat; unfold eR in *; lra. }
    lra.
  - unfold lin, eR in *. lra.
Qed.

Lemma knee_hi x d : 0 <= d -> x ^ 3 <= eR + d / 10 -> x <= 6 / 29 + d.
Proof.
  intros hd k. destruct (Rle_or_lt x (6 / 29 + d)) as [|g]; [assumption|exfalso]. unfold eR in k.
  assert (H : (6 / 29 + d) ^ 3 <= x ^ 3) by (apply cube_lt; lra).
  assert (0 <= d * d) by nra. assert (0 <= d * d * d) by (apply Rmult_le_pos; lra). assert (X : 0 < x) by lra.
  assert (E : (6 / 29 + d) ^ 3 = 216 / 24389 + 108 / 841 * d + 18 / 29 * (d * d) + d * d * d) by field.
  assert (d = 0) by lra. subst d. replace (6 / 29 + 0) with (6 / 29) in g by ring.
  assert (0 < (x - 6 / 29) * (x * x + 6 / 29 * x + 36 / 841)) by (apply Rmult_lt_0_compat; nra). nra.
Qed.

Lemma lstar_mono a b : (red_from_argb a <= red_from_argb b)%Z -> (green_from_argb a <= green_from_argb b)%Z -> (blue_from_argb a <= blue_from_argb b)%Z ->
  B2R (lstar_from_argb a) <= B2R (lstar_from_argb b) + 1 / 10 ^ 5.
Proof using heps PA.
  intros h1 h2 h3. destruct (lstar_R a) as (_ & x & v & RT & BX & EV & EL). destruct (lstar_R b) as (_ & x' & v' & RT' & BX' & EV' & EL').
  assert (YM : YR a <= YR b).
  { unfold YR. destruct (channels_bytes a) as (p1 & p2 & p3). destruct (channels_bytes b) as (q1 & q2 & q3).
    pose proof (linR_mono (red_from_argb a) (red_from_argb b) ltac:(lia) ltac:(lia)).
    pose proof (linR_mono (green_from_argb a) (green_from_argb b) ltac:(lia) ltac:(lia)).
    pose proof (linR_mono (blue_from_argb a) (blue_from_argb b) ltac:(lia) ltac:(lia)). lra. }
  pose proof (YR_range a) as YA. pose proof (YR_range b) as YB.
  set (Y := YR a) in *. set (Y' := YR b) in *. clearbody Y Y'. set (L := B2R (lstar_from_argb a)) in *. set (L' := B2R (lstar_from_argb b)) in *. clearbody L L'.
  assert (VV : v <= v' + 5 / 10 ^ 10) by lra. assert (VB : v <= 1.01 /\ v' <= 1.01) by lra.
  assert (RH : 0 <= rho eps <= 4.02 / 10 ^ 10) by (unfold rho; lra). set (r := rho eps) in *. clearbody r.
  clear EV EV' YM YA YB Y Y' h1 h2 h3. 
  enough (x <= x' + 5 / 10 ^ 8) by lra. clear EL EL'.
  destruct RT as [(p & q & s)|(p & q)]; destruct RT' as [(p' & q' & s')|(p' & q')].
  - assert (C : x ^ 3 <= x' ^ 3 + 2 / 10 ^ 9).
    { assert (v * r <= 1.01 * (4.02 / 10 ^ 10)) by (apply Rmult_le_compat; unfold eR in *; lra).
      assert (v' * r <= 1.01 * (4.02 / 10 ^ 10)) by (apply Rmult_le_compat; unfold eR in *; lra). lra. }
    assert (K : 6 / 29 - 1 / 10 ^ 6 <= x').
    { apply above_knee; [exact q'|lra|]. apply Rle_trans with (2 := proj1 s'). apply Rle_trans with ((eR - 1 / 10 ^ 12) * (1 - 4.02 / 10 ^ 10)); [unfold eR; lra|]. apply Rmult_le_compat; unfold eR in *; lra. }
    destruct (Rle_or_lt x (x' + 5 / 10 ^ 8)) as [|g]; [assumption|exfalso].
    assert ((x' + 5 / 10 ^ 8) ^ 3 <= x ^ 3) by (apply cube_lt; lra).
    assert (0.12 * (5 / 10 ^ 8) <= 3 * (x' * x') * (5 / 10 ^ 8)) by nra. nra.
  - assert (K : x <= 6 / 29 + 2 / 10 ^ 8).
    { apply knee_hi; [lra|]. assert (v * r <= 1.01 * (4.02 / 10 ^ 10)) by (apply Rmult_le_compat; unfold eR in *; lra). lra. }
    unfold lin, eR in *. lra.
  - assert (K : 6 / 29 - 1 / 10 ^ 9 <= x').
    { apply above_knee; [exact q'|lra|]. apply Rle_trans with (2 := proj1 s'). apply Rle_trans with ((eR - 1 / 10 ^ 12) * (1 - 4.02 / 10 ^ 10)); [unfold eR; lra|]. apply Rmult_le_compat; unfold eR in *; lra. }
    unfold lin, eR in *. lra.
  - unfold lin, eR in *. lra.
Qed.
End Tight.
