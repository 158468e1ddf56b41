(** * Images of few colours: robustness of the Lab conversion and of the weighted mean.  Proof file. *)
From Coq Require Import ZArith Bool Reals Lra Lia Psatz String List.
From Flocq Require Import Core Relative IEEE754.BinarySingleNaN.
From Verif Require Import F64 MathUtils ColorUtils Contrast Assoc ViewingConditions QuantizerMap QuantizerWu QuantizerWsmeans Spec SpecTones FloatFacts FloatMono FloatCast PfArgb PfMath PfColor PfContrast PfTones PfLab PfGamma PfLabTrip.
Open Scope string_scope.
Open Scope R_scope.

(** [u] and [v] are finite and differ by at most [d] in each coordinate. *)
Definition tiny (d : R) (u v : vec3) : Prop :=
  (fin (v0 u) /\ fin (v1 u) /\ fin (v2 u)) /\ - d <= B2R (v0 u) - B2R (v0 v) <= d /\ - d <= B2R (v1 u) - B2R (v1 v) <= d /\ - d <= B2R (v2 u) - B2R (v2 v) <= d.
Definition sane (v : vec3) : Prop :=
  (fin (v0 v) /\ fin (v1 v) /\ fin (v2 v)) /\ -1000 <= B2R (v0 v) <= 1000 /\ -1000 <= B2R (v1 v) <= 1000 /\ -1000 <= B2R (v2 v) <= 1000.

Section Tight.
Context {lm : Libm} (eps : R) (heps : 0 <= eps <= 1 / 10 ^ 10) (PA : pow_accurate eps lm).

Lemma lab_near argb : let v := lab_from_argb argb in sane v /\
  forall u, tiny (2 / 10 ^ 9) u v ->
  argb_from_lab (v0 u) (v1 u) (v2 u) = argb_from_rgb (red_from_argb argb) (green_from_argb argb) (blue_from_argb argb).
Proof using heps PA.
  cbv zeta. destruct (channels_bytes argb) as (hr & hg & hb).
  pose proof (fun x y z => lab_xyz argb x y z) as LX. unfold xyz_from_argb in LX.
  set (cr := red_from_argb argb) in *. set (cg := green_from_argb argb) in *. set (cb := blue_from_argb argb) in *. clearbody cr cg cb.
  pose proof (heps5 eps heps) as h5.
  destruct (linearized_range eps h5 PA cr hr) as [Fr Br]. destruct (linearized_range eps h5 PA cg hg) as [Fg Bg].
  destruct (linearized_range eps h5 PA cb hb) as [Fb Bb].
  pose proof (xyz_R _ _ _ Fr Fg Fb ltac:(lra) ltac:(lra) ltac:(lra)) as X.
  destruct (matrix_multiply _ srgb_to_xyz) as [[x y] z]. destruct X as ((fx & fy & fz) & ex & ey & ez).
  rewrite (LX x y z eq_refl). clear LX. cbv zeta. unfold sane, tiny, v0, v1, v2. cbn [fst snd].
  fconst (dec "95.047"). fconst (dec "100.0"). fconst (dec "108.883").
  destruct (labf_of eps heps PA x (dec "95.047") (B2R (dec "95.047")) fx F eq_refl ltac:(rewrite V; lra) ltac:(rewrite V; lra)) as [FX BX].
  destruct (labf_of eps heps PA y (dec "100.0") (B2R (dec "100.0")) fy F0 eq_refl ltac:(rewrite V0; lra) ltac:(rewrite V0; lra)) as [FY BY].
  destruct (labf_of eps heps PA z (dec "108.883") (B2R (dec "108.883")) fz F1 eq_refl ltac:(rewrite V1; lra) ltac:(rewrite V1; lra)) as [FZ BZ].
  pose proof (fun w => comp_back eps heps PA x (dec "95.047") w (B2R (dec "95.047")) fx F eq_refl ltac:(rewrite V; lra) ltac:(rewrite V; lra)) as KX.
  pose proof (fun w => comp_back eps heps PA y (dec "100.0") w (B2R (dec "100.0")) fy F0 eq_refl ltac:(rewrite V0; lra) ltac:(rewrite V0; lra)) as KY.
  pose proof (fun w => comp_back eps heps PA z (dec "108.883") w (B2R (dec "108.883")) fz F1 eq_refl ltac:(rewrite V1; lra) ltac:(rewrite V1; lra)) as KZ.
  set (px := lab_f (fdiv x (dec "95.047"))) in *. set (py := lab_f (fdiv y (dec "100.0"))) in *. set (pz := lab_f (fdiv z (dec "108.883"))) in *.
  clearbody px py pz.
  (* the three Lab values *)
  fconst (dec "116.0"). fconst (dec "16.0"). fconst (dec "500.0"). fconst (dec "200.0").
  destruct (fmul_S (dec "116.0") py F2 FY ltac:(rewrite V2; fsmall)) as [M1 H1]. rewrite V2 in M1.
  pose proof (rnd_near (116 * B2R py) ltac:(lra)) as N1. rewrite <- M1 in N1. set (l1 := fmul (dec "116.0") py) in *. clearbody l1. clear M1.
  destruct (fsub_S l1 (dec "16.0") H1 F3 ltac:(rewrite V3; fsmall)) as [M2 H2]. rewrite V3 in M2.
  pose proof (rnd_near (B2R l1 - 16) ltac:(lra)) as N2. rewrite <- M2 in N2. set (l := fsub l1 (dec "16.0")) in *. clearbody l. clear M2.
  destruct (fsub_S px py FX FY ltac:(unfold HUGE; lra)) as [M3 H3].
  pose proof (rnd_near (B2R px - B2R py) ltac:(lra)) as N3. rewrite <- M3 in N3. set (a1 := fsub px py) in *. clearbody a1. clear M3.
  destruct (fmul_S (dec "500.0") a1 F4 H3 ltac:(rewrite V4; fsmall)) as [M4 H4]. rewrite V4 in M4.
  pose proof (rnd_far (500 * B2R a1) ltac:(lra)) as N4. rewrite <- M4 in N4. set (a := fmul (dec "500.0") a1) in *. clearbody a. clear M4.
  destruct (fsub_S py pz FY FZ ltac:(unfold HUGE; lra)) as [M5 H5].
  pose proof (rnd_near (B2R py - B2R pz) ltac:(lra)) as N5. rewrite <- M5 in N5. set (b1 := fsub py pz) in *. clearbody b1. clear M5.
  destruct (fmul_S (dec "200.0") b1 F5 H5 ltac:(rewrite V5; fsmall)) as [M6 H6]. rewrite V5 in M6.
  pose proof (rnd_far (200 * B2R b1) ltac:(lra)) as N6. rewrite <- M6 in N6. set (b := fmul (dec "200.0") b1) in *. clearbody b. clear M6.
  split; [split; [tauto|]; lra|].
  intros [[l' a'] b']. cbn [fst snd]. intros ((H2' & H4' & H6') & D0 & D1 & D2).
  unfold argb_from_lab, white_point_d65, v0, v1, v2. cbn [fst snd]. cbv zeta.
  (* and back *)
  destruct (back_R l' H2' ltac:(lra)) as [FW EW]. set (wy := fdiv (fadd l' (dec "16.0")) (dec "116.0")) in *. clearbody wy.
  destruct (fdiv_S a' (dec "500.0") H4' ltac:(lra) ltac:(rewrite V4; fsmall)) as [M7 H7]. rewrite V4 in M7.
  pose proof (rnd_near (B2R a' / 500) ltac:(lra)) as N7. rewrite <- M7 in N7. set (a2 := fdiv a' (dec "500.0")) in *. clearbody a2. clear M7.
  destruct (fadd_S a2 wy H7 FW ltac:(unfold HUGE; lra)) as [M8 H8].
  pose proof (rnd_near (B2R a2 + B2R wy) ltac:(lra)) as N8. rewrite <- M8 in N8. set (wx := fadd a2 wy) in *. clearbody wx. clear M8.
  destruct (fdiv_S b' (dec "200.0") H6' ltac:(lra) ltac:(rewrite V5; fsmall)) as [M9 H9]. rewrite V5 in M9.
  pose proof (rnd_near (B2R b' / 200) ltac:(lra)) as N9. rewrite <- M9 in N9. set (b2 := fdiv b' (dec "200.0")) in *. clearbody b2. clear M9.
  destruct (fsub_S wy b2 FW H9 ltac:(unfold HUGE; lra)) as [M10 H10].
  pose proof (rnd_near (B2R wy - B2R b2) ltac:(lra)) as N10. rewrite <- M10 in N10. set (wz := fsub wy b2) in *. clearbody wz. clear M10.
  destruct (KX wx H8 ltac:(clear - N1 N2 N3 N4 N7 N8 EW D0 D1; lra)) as [GX IX].
  destruct (KY wy FW ltac:(clear - N1 N2 EW D0; lra)) as [GY IY].
  destruct (KZ wz H10 ltac:(clear - N1 N2 N5 N6 N9 N10 EW D0 D2; lra)) as [GZ IZ].
  set (r := B2R (linearized cr)) in *. set (g := B2R (linearized cg)) in *. set (bb := B2R (linearized cb)) in *.
  apply (xyz_robust eps h5 PA _ _ _ cr cg cb (4.96 / 10 ^ 7) hr hg hb GX GY GZ); [lra| | |]; fold r; fold g; fold bb; clearbody r g bb.
  - clear - IX ex. lra.
  - clear - IY ey. lra.
  - clear - IZ ez. lra.
Qed.
End Tight.

(** ** The mean of [n] equal numbers *)
Lemma of_Z_big n : (1 <= n <= i64_max)%Z -> fin (of_Z n) /\ 1 <= B2R (of_Z n) <= 10 ^ 19.
Proof.
  intros h. unfold of_Z. pose proof (binary_normalize_correct 53 1024 _ _ mode_NE n 0 false) as C. cbv zeta in C.
  assert (E : F2R (Float radix2 n 0) = IZR n) by (unfold F2R; simpl; ring). rewrite E in C.
  assert (L : 1 <= IZR n <= bpow radix2 63).
  { change (bpow radix2 63) with (IZR (2 ^ 63)). split; apply IZR_le; unfold i64_max in h; lia. }
  change (round radix2 (SpecFloat.fexp 53 1024) (round_mode mode_NE) (IZR n)) with (rnd (IZR n)) in C.
  rewrite ovf_lt in C by (rewrite Rabs_pos_eq by lra; apply Rle_trans with (1 := proj2 L); apply bpow_le; lia).
  destruct C as (R1 & R2 & _). split; [exact R2|]. rewrite R1. split; [apply (rnd_ge_IZR _ 1); [lia|lra]|].
  apply Rle_trans with (bpow radix2 63).
  - apply rnd_le_fmt; [|exact (proj2 L)]. apply generic_format_bpow'; [apply vexp64|]. unfold fexp64, FLT_exp. lia.
  - change (bpow radix2 63) with (IZR (2 ^ 63)). rewrite pow_IZR. apply IZR_le. lia.
Qed.

Lemma mean_near (x : f64) n : fin x -> -1000 <= B2R x <= 1000 -> (1 <= n <= i64_max)%Z ->
  let y := fdiv (fadd (dec "0.0") (fmul x (of_Z n))) (of_Z n) in fin y /\ - (1 / 10 ^ 12) <= B2R y - B2R x <= 1 / 10 ^ 12.
Proof.
  intros fx bx hn. cbv zeta. destruct (of_Z_big n hn) as [fN bN]. set (N := of_Z n) in *. clearbody N. fconst (dec "0.0").
  set (X := B2R x) in *. set (K := B2R N) in *.
  assert (XK : - (1000 * K) <= X * K <= 1000 * K) by (split; nra).
  destruct (fmul_S x N fx fN ltac:(unfold HUGE; fold X; fold K; lra)) as [M1 G1]. fold X in M1. fold K in M1.
  pose proof (rnd_err (X * K)) as R1. rewrite <- M1 in R1. set (m := fmul x N) in *. clearbody m.
  pose proof eta_small as ET.
  assert (AX : Rabs (X * K) <= 1000 * K) by (apply Rabs_le; lra).
  assert (E1 : - (1.2 / 10 ^ 13 * K) <= B2R m - X * K <= 1.2 / 10 ^ 13 * K).
  { assert (bpow radix2 (-1075) <= 1 / 10 ^ 16 * K) by (unfold eta in *; lra). apply Rabs_le_inv. lra. }
  destruct (fadd_S (dec "0.0") m F G1 ltac:(rewrite V; unfold HUGE; lra)) as [M2 G2].
  rewrite V, Rplus_0_l in M2. rewrite (rnd_B2R m) in M2.
  set (s := fadd (dec "0.0") m) in *. clearbody s.
  assert (Q : - (1.2 / 10 ^ 13) <= B2R s / K - X <= 1.2 / 10 ^ 13).
  { rewrite M2. replace (B2R m / K - X) with ((B2R m - X * K) / K) by (field; lra). split.
    - apply Rmult_le_reg_r with K; [lra|]. unfold Rdiv at 2. rewrite Rmult_assoc, Rinv_l by lra. lra.
    - apply Rmult_le_reg_r with K; [lra|]. unfold Rdiv at 1. rewrite Rmult_assoc, Rinv_l by lra. lra. }
  destruct (fdiv_S s N G2 ltac:(fold K; lra) ltac:(fold K; unfold HUGE; lra)) as [M3 G3]. fold K in M3.
  pose proof (rnd_bounds_abs (B2R s / K) 1001 ltac:(apply Rabs_le; lra)) as R3. unfold u53 in R3. rewrite <- M3 in R3. split; [exact G3|]. lra.
Qed.

(** ** Distances *)
Lemma sq_R (x y : f64) : fin x -> fin y -> -1002 <= B2R x <= 1002 -> -1002 <= B2R y <= 1002 ->
  let d := fsub x y in let q := fmul d d in
  fin q /\ 0 <= B2R q <= 5 * 10 ^ 6 /\ (- (1 / 10 ^ 11) <= B2R x - B2R y <= 1 / 10 ^ 11 -> B2R q <= 1 / 10 ^ 21) /\
  (B2R q <= 1 / 10 ^ 19 -> - (1 / 10 ^ 9) <= B2R x - B2R y <= 1 / 10 ^ 9).
Proof.
  intros fx fy bx by_. cbv zeta. destruct (fsub_S x y fx fy ltac:(unfold HUGE; lra)) as [M1 G1].
  pose proof (rnd_err (B2R x - B2R y)) as E1. rewrite <- M1 in E1. set (d := fsub x y) in *. clearbody d.
  pose proof eta_small as ET. unfold eta in ET.
  set (D := B2R x - B2R y) in *. assert (BD : -2004 <= D <= 2004) by (unfold D; lra). clearbody D.
  assert (B1 : -2005 <= B2R d <= 2005).
  { assert (Rabs D <= 2004) by (apply Rabs_le; lra). apply Rabs_le_inv. replace (B2R d) with ((B2R d - D) + D) by ring. apply Rle_trans with (1 := Rabs_triang _ _). lra. }
  destruct (fmul_S d d G1 G1 ltac:(unfold HUGE; nra)) as [M2 G2].
  pose proof (rnd_err (B2R d * B2R d)) as E2. rewrite <- M2 in E2.
  assert (P : 0 <= B2R d * B2R d) by nra. rewrite (Rabs_pos_eq _ P) in E2.
  assert (NN : 0 <= B2R (fmul d d)) by (rewrite M2; apply (rnd_ge_IZR _ 0); [lia|exact P]).
  set (q := B2R (fmul d d)) in *. clearbody q. clear M1 M2. apply Rabs_le_inv in E2.
  split; [exact G2|]. split; [split; [exact NN|nra]|]. split.
  - intros h. assert (A : Rabs D <= 1 / 10 ^ 11) by (apply Rabs_le; lra).
    assert (B : - (1.1 / 10 ^ 11) <= B2R d <= 1.1 / 10 ^ 11).
    { apply Rabs_le_inv. replace (B2R d) with ((B2R d - D) + D) by ring. apply Rle_trans with (1 := Rabs_triang _ _). lra. }
    assert (B2R d * B2R d <= 1.3 / 10 ^ 22) by nra.
    assert (bpow radix2 (-1075) <= 1 / 10 ^ 22).
    { pose proof tiny_small. lra. }
    lra.
  - intros h.
    assert (bpow radix2 (-1075) <= 1 / 10 ^ 22).
    { pose proof tiny_small. lra. }
    assert (S : B2R d * B2R d <= 2 / 10 ^ 19) by lra.
    assert (B : - (5 / 10 ^ 10) <= B2R d <= 5 / 10 ^ 10) by nra.
    assert (A : Rabs D <= 6 / 10 ^ 10); [|apply Rabs_le_inv in A; lra].
    assert (Rabs (B2R d) <= 5 / 10 ^ 10) by (apply Rabs_le; exact B).
    assert (T : Rabs D <= Rabs (B2R d - D) + Rabs (B2R d)).
    { replace D with (- (B2R d - D) + B2R d) at 1 by ring. apply Rle_trans with (1 := Rabs_triang _ _). rewrite Rabs_Ropp. lra. }
    lra.
Qed.

Lemma dist_R (u v : vec3) : sane u -> (fin (v0 v) /\ fin (v1 v) /\ fin (v2 v)) -> 
  (-1002 <= B2R (v0 v) <= 1002 /\ -1002 <= B2R (v1 v) <= 1002 /\ -1002 <= B2R (v2 v) <= 1002) ->
  fin (lab_distance u v) /\ (tiny (1 / 10 ^ 11) u v -> B2R (lab_distance u v) <= 1 / 10 ^ 20) /\
  (B2R (lab_distance u v) <= 1 / 10 ^ 20 -> tiny (1 / 10 ^ 9) u v).
Proof.
  intros ((fu0 & fu1 & fu2) & bu0 & bu1 & bu2) (fv0 & fv1 & fv2) (bv0 & bv1 & bv2). unfold lab_distance. cbv zeta. unfold tiny.
  destruct (sq_R (v0 u) (v0 v) fu0 fv0 ltac:(lra) bv0) as (g0 & b0 & s0 & t0).
  destruct (sq_R (v1 u) (v1 v) fu1 fv1 ltac:(lra) bv1) as (g1 & b1 & s1 & t1).
  destruct (sq_R (v2 u) (v2 v) fu2 fv2 ltac:(lra) bv2) as (g2 & b2 & s2 & t2).
  set (q0 := fmul _ _) in *. set (q1 := fmul (fsub (v1 u) _) _) in *. set (q2 := fmul (fsub (v2 u) _) _) in *. clearbody q0 q1 q2.
  destruct (fadd_S q0 q1 g0 g1 ltac:(unfold HUGE; lra)) as [M1 G1].
  pose proof (rnd_err (B2R q0 + B2R q1)) as E1. rewrite <- M1 in E1.
  assert (L1 : B2R q0 <= B2R (fadd q0 q1) /\ B2R q1 <= B2R (fadd q0 q1)).
  { rewrite M1. split; [rewrite <- (rnd_B2R q0) at 1|rewrite <- (rnd_B2R q1) at 1]; apply rnd_mono; lra. }
  set (a := fadd q0 q1) in *. clearbody a.
  rewrite (Rabs_pos_eq (B2R q0 + B2R q1)) in E1 by lra. apply Rabs_le_inv in E1.
  assert (TB : bpow radix2 (-1075) <= 1 / 10 ^ 26).
  { pose proof tiny_small. lra. }
  destruct (fadd_S a q2 G1 g2 ltac:(unfold HUGE; lra)) as [M2 G2].
  pose proof (rnd_err (B2R a + B2R q2)) as E2. rewrite <- M2 in E2.
  assert (L2 : B2R a <= B2R (fadd a q2) /\ B2R q2 <= B2R (fadd a q2)).
  { rewrite M2. split; [rewrite <- (rnd_B2R a) at 1|rewrite <- (rnd_B2R q2) at 1]; apply rnd_mono; lra. }
  set (b := fadd a q2) in *. clearbody b.
  rewrite (Rabs_pos_eq (B2R a + B2R q2)) in E2 by lra. apply Rabs_le_inv in E2.
  split; [exact G2|]. split.
  - intros (_ & h0 & h1 & h2). specialize (s0 h0). specialize (s1 h1). specialize (s2 h2). lra.
  - intros h. split; [tauto|]. split; [apply t0; lra|]. split; [apply t1; lra|apply t2; lra].
Qed.

Lemma sq_rel (x y : f64) : fin x -> fin y -> -1000 <= B2R x <= 1000 -> -1000 <= B2R y <= 1000 ->
  let d := fsub x y in let q := fmul d d in let e := (B2R x - B2R y) * (B2R x - B2R y) in
  fin q /\ 0 <= B2R q <= 5 * 10 ^ 6 /\ 0 <= e /\ e - (4 / 10 ^ 16 * e + 1 / 10 ^ 50) <= B2R q <= e + (4 / 10 ^ 16 * e + 1 / 10 ^ 50).
Proof.
  intros fx fy bx by_. cbv zeta. destruct (sq_R x y fx fy ltac:(lra) ltac:(lra)) as (G & B & _). cbv zeta in G, B.
  split; [exact G|]. split; [exact B|].
  destruct (fsub_S x y fx fy ltac:(unfold HUGE; lra)) as [M1 G1].
  pose proof (rnd_err (B2R x - B2R y)) as E1. rewrite <- M1 in E1. set (d := fsub x y) in *. clearbody d.
  pose proof tiny_small as T. set (t := bpow radix2 (-1075)) in *. assert (T0 : 0 < t) by apply bpow_gt_0.
  set (D := B2R x - B2R y) in *. assert (BD : -2000 <= D <= 2000) by (unfold D; lra). clearbody D.
  assert (AD : 0 <= Rabs D <= 2000) by (split; [apply Rabs_pos|apply Rabs_le; lra]).
  assert (SD : D * D = Rabs D * Rabs D) by (unfold Rabs; destruct (Rcase_abs D); ring).
  apply Rabs_le_inv in E1. set (h := B2R d - D) in *. assert (Ed : B2R d = D + h) by (unfold h; ring). clearbody h.
  set (u := / 9007199254740992) in *. assert (U : 0 <= u <= 1.2 / 10 ^ 16) by (unfold u; lra).
  assert (H1 : Rabs h <= u * Rabs D + t) by (apply Rabs_le; lra). pose proof (Rabs_pos h) as H0.
  assert (DH : Rabs (D * h) <= u * (D * D) + 2000 * t).
  { rewrite Rabs_mult, SD. apply Rle_trans with (Rabs D * (u * Rabs D + t)); [apply Rmult_le_compat_l; lra|]. nra. }
  assert (HH : 0 <= h * h <= 1 / 10 ^ 17 * (D * D) + t).
  { assert (h * h = Rabs h * Rabs h) by (unfold Rabs; destruct (Rcase_abs h); ring). split; [nra|].
    rewrite H, SD. set (a := Rabs D) in *. set (b := Rabs h) in *. clearbody a b.
    assert (b * b <= (u * a + t) * (u * a + t)) by (apply Rmult_le_compat; lra).
    assert (u * u <= 1 / 10 ^ 17) by nra. assert (0 <= a * a) by nra.
    assert (u * u * (a * a) <= 1 / 10 ^ 17 * (a * a)) by (apply Rmult_le_compat_r; lra).
    assert (2 * (u * a) * t <= 1 / 10 ^ 10 * t) by (apply Rmult_le_compat_r; nra). assert (t * t <= / 10 * t) by (apply Rmult_le_compat_r; lra). lra. }
  assert (BDd : -2005 <= B2R d <= 2005).
  { rewrite Ed. apply Rabs_le_inv in H1. assert (u * Rabs D <= 1) by nra. lra. }
  destruct (fmul_S d d G1 G1 ltac:(unfold HUGE; nra)) as [M2 G2].
  pose proof (rnd_err (B2R d * B2R d)) as E2. rewrite <- M2 in E2.
  assert (P : 0 <= B2R d * B2R d) by nra. rewrite (Rabs_pos_eq _ P) in E2. fold u in E2. fold t in E2. clearbody t.
  set (q := B2R (fmul d d)) in *. clearbody q. apply Rabs_le_inv in E2. apply Rabs_le_inv in DH.
  assert (Q : B2R d * B2R d = D * D + 2 * (D * h) + h * h) by (rewrite Ed; ring).
  assert (E0 : 0 <= D * D) by nra. split; [exact E0|]. rewrite Q in E2. set (S := D * D) in *. clearbody S.
  set (w := D * h) in *. set (z := h * h) in *. clearbody w z.
  assert (UB : 0 <= u * (S + 2 * w + z) <= 1.12 / 10 ^ 16 * S + 1000 * t).
  { rewrite <- Q. split; [nra|]. rewrite Q. assert (S + 2 * w + z <= S * (1 + 1 / 10 ^ 14) + 5000 * t) by nra.
    apply Rle_trans with (u * (S * (1 + 1 / 10 ^ 14) + 5000 * t)); [apply Rmult_le_compat_l; lra|].
    unfold u. nra. }
  assert (US : u * S <= 1.12 / 10 ^ 16 * S) by (apply Rmult_le_compat_r; [exact E0|unfold u; lra]). lra.
Qed.

Lemma distance_rel (u v : vec3) : sane u -> sane v ->
  let d x y := (B2R x - B2R y) * (B2R x - B2R y) in
  let e := d (v0 u) (v0 v) + d (v1 u) (v1 v) + d (v2 u) (v2 v) in
  fin (lab_distance u v) /\ Rabs (B2R (lab_distance u v) - e) <= 1 / 10 ^ 15 * e + 1 / 10 ^ 40.
Proof.
  intros ((fu0 & fu1 & fu2) & bu0 & bu1 & bu2) ((fv0 & fv1 & fv2) & bv0 & bv1 & bv2). cbv zeta. unfold lab_distance. cbv zeta.
  destruct (sq_rel (v0 u) (v0 v) fu0 fv0 bu0 bv0) as (g0 & b0 & p0 & r0).
  destruct (sq_rel (v1 u) (v1 v) fu1 fv1 bu1 bv1) as (g1 & b1 & p1 & r1).
  destruct (sq_rel (v2 u) (v2 v) fu2 fv2 bu2 bv2) as (g2 & b2 & p2 & r2).
  set (q0 := fmul _ _) in *. set (q1 := fmul (fsub (v1 u) _) _) in *. set (q2 := fmul (fsub (v2 u) _) _) in *. clearbody q0 q1 q2.
  set (e0 := (B2R (v0 u) - B2R (v0 v)) * _) in *. set (e1 := (B2R (v1 u) - B2R (v1 v)) * _) in *. set (e2 := (B2R (v2 u) - B2R (v2 v)) * _) in *. clearbody e0 e1 e2.
  pose proof tiny_small as T. set (t := bpow radix2 (-1075)) in *. assert (T0 : 0 < t) by apply bpow_gt_0.
  destruct (fadd_S q0 q1 g0 g1 ltac:(unfold HUGE; lra)) as [M1 G1].
  pose proof (rnd_err (B2R q0 + B2R q1)) as E1. rewrite <- M1 in E1. set (a := fadd q0 q1) in *. clearbody a.
  rewrite (Rabs_pos_eq (B2R q0 + B2R q1)) in E1 by lra. apply Rabs_le_inv in E1. fold t in E1.
  assert (A0 : 0 <= B2R a) by (rewrite M1; apply (rnd_ge_IZR _ 0); [lia|lra]).
  destruct (fadd_S a q2 G1 g2 ltac:(unfold HUGE; lra)) as [M2 G2].
  pose proof (rnd_err (B2R a + B2R q2)) as E2. rewrite <- M2 in E2. set (b := fadd a q2) in *. clearbody b.
  rewrite (Rabs_pos_eq (B2R a + B2R q2)) in E2 by lra. apply Rabs_le_inv in E2. fold t in E2. clearbody t.
  split; [exact G2|]. apply Rabs_le. lra.
Qed.
Lemma distance_good : forall u v : vec3,
  let real := @BinarySingleNaN.B2R 53 1024 in
  let good (x : f64) := is_finite x = true /\ (-1000 <= real x <= 1000)%R in
  good (v0 u) -> good (v1 u) -> good (v2 u) -> good (v0 v) -> good (v1 v) -> good (v2 v) ->
  let square (x y : f64) := ((real x - real y) * (real x - real y))%R in
  let exact := (square (v0 u) (v0 v) + square (v1 u) (v1 v) + square (v2 u) (v2 v))%R in
  is_finite (lab_distance u v) = true /\ (Rabs (real (lab_distance u v) - exact) <= 1 / 10 ^ 15 * exact + 1 / 10 ^ 40)%R.
Proof. intros u v real good (a & a') (b & b') (c & c') (d & d') (e & e') (f & f'). apply distance_rel; (split; [tauto|tauto]). Qed.
