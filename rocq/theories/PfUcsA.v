(** * CAM16-UCS coordinates convert back: lightness, colourfulness, hue.  Proof file. *)
From Coq Require Import ZArith Bool Reals Lra Lia Psatz String List.
From Flocq Require Import Core Relative IEEE754.BinarySingleNaN.
From Verif Require Import F64 MathUtils ColorUtils ViewingConditions Cam16 Spec SpecCam FloatFacts FloatMono PfMath PfTones PfLab PfGamma PfNear PfVc PfRel PfCamA PfCamB PfCamC PfCamD PfCamE PfCamF PfCamG PfCamH PfCamTrip PfHct PfRefTrig.
Open Scope string_scope.
Open Scope R_scope.

(** The parts of [cam16_from_ucs_in]. *)
Definition back_j (js : f64) : f64 := fdiv js (fsub (dec "1.0") (fmul (fsub js (dec "100.0")) (dec "0.007"))).

Lemma ucs_j_fwd (j : f64) : fin j -> 0.019 <= B2R j <= 201 ->
  frel (fw_ucs_j j) (1.7 * B2R j / (1 + 0.007 * B2R j)) (3 / 10 ^ 15) /\ 0.031 <= 1.7 * B2R j / (1 + 0.007 * B2R j) <= 142.
Proof.
  intros fj bj. unfold fw_ucs_j. fconst (fadd (dec "1.0") (fmul (dec "100.0") (dec "0.007"))). fconst (dec "1.0"). fconst (dec "0.007").
  set (K := B2R j) in *.
  assert (N1 : frel (fadd (dec "1.0") (fmul (dec "100.0") (dec "0.007"))) 1.7 (2 / 10 ^ 16)) by (apply frel_const with (1 := F) (2 := V); split; lra).
  pose proof (frel_mul _ _ _ _ _ _ N1 (frel_self j fj ltac:(fold K; lra)) ltac:(lra) ltac:(lra) ltac:(fold K; lra)) as N2. fold K in N2.
  assert (N3 : frel (dec "0.007") 0.007 (1 / 10 ^ 16)) by (apply frel_const with (1 := F1) (2 := V1); split; lra).
  pose proof (frel_mul _ _ _ _ _ _ N3 (frel_self j fj ltac:(fold K; lra)) ltac:(lra) ltac:(lra) ltac:(fold K; lra)) as N4. fold K in N4.
  assert (N5 : frel (dec "1.0") 1 (1.1 * (1 / 10 ^ 16 + 0) + 3 / 10 ^ 16)) by (apply frel_const with (1 := F0) (2 := V0); split; lra).
  pose proof (frel_add _ _ _ _ _ N5 N4 ltac:(lra) ltac:(lra)) as N6.
  assert (Q : 0.031 <= 1.7 * K / (1 + 0.007 * K) <= 142) by (split; [apply le_div|apply div_le]; lra).
  pose proof (frel_div _ _ _ _ _ _ N2 N6 ltac:(lra) ltac:(lra) ltac:(lra)) as N7.
  split; [|exact Q]. apply frel_w with (1 := N7). lra.
Qed.

Lemma ucs_j_back (j js : f64) : fin j -> 0.0199999 <= B2R j <= 201 -> fin js ->
  - (1.6 / 10 ^ 14 + 2 / 10 ^ 16 * B2R (fw_ucs_j j)) <= B2R js - B2R (fw_ucs_j j) <= 1.6 / 10 ^ 14 + 2 / 10 ^ 16 * B2R (fw_ucs_j j) ->
  frel (back_j js) (B2R j) (4.95 / 10 ^ 13).
Proof.
  intros fj bj fs hs. destruct (ucs_j_fwd j fj ltac:(lra)) as [[_ [_ N]] BS]. set (K := B2R j) in *.
  set (S := 1.7 * K / (1 + 0.007 * K)) in *.
  assert (ES : S * (1 + 0.007 * K) = 1.7 * K) by (unfold S; field; lra).
  set (s0 := B2R (fw_ucs_j j)) in *. clearbody S s0.
  set (x := B2R js) in *.
  assert (X1 : - (1.6 / 10 ^ 14 + 3.3 / 10 ^ 15 * S) <= x - S <= 1.6 / 10 ^ 14 + 3.3 / 10 ^ 15 * S) by lra.
  assert (BX : 0.03 <= x <= 142.1) by lra.
  unfold back_j. fconst (dec "1.0"). fconst (dec "0.007"). fconst (dec "100.0").
  (* the denominator *)
  destruct (fsub_S js (dec "100.0") fs F1 ltac:(rewrite V1; fold x; unfold HUGE; lra)) as [E1 G1]. rewrite V1 in E1. fold x in E1.
  pose proof (rnd_uu (x - 100) 100 ltac:(lra) ltac:(lra)) as R1. rewrite <- E1 in R1. unfold uu in R1.
  set (d1 := fsub js (dec "100.0")) in *. clearbody d1. clear E1.
  pose proof (near_mul d1 (dec "0.007") (x - 100) 0.007 (2 / 10 ^ 14) (1 / 10 ^ 18) 100 0.0071 ltac:(split; [exact G1|lra]) ltac:(split; [exact F0|rewrite V0; lra])
    ltac:(lra) ltac:(rewrite V0; lra) ltac:(lra) ltac:(lra) ltac:(lra) ltac:(lra) ltac:(lra)) as N2.
  set (d2 := fmul d1 (dec "0.007")) in *. clearbody d2. destruct N2 as [f2 b2]. unfold uu in b2.
  destruct (fsub_S (dec "1.0") d2 F f2 ltac:(rewrite V; unfold HUGE; lra)) as [E3 G3]. rewrite V in E3.
  pose proof (rnd_uu (1 - B2R d2) 1.8 ltac:(lra) ltac:(lra)) as R3. rewrite <- E3 in R3. unfold uu in R3.
  set (den := fsub (dec "1.0") d2) in *. clearbody den. clear E3.
  set (dd := B2R den) in *.
  assert (BD : - (1.2 / 10 ^ 15) <= dd - (1.7 - 0.007 * x) <= 1.2 / 10 ^ 15) by lra.
  assert (Bd : 0.7 <= dd <= 1.7) by lra.
  (* the quotient *)
  set (H := 1 + 0.007 * K) in *. assert (BH : 1 <= H <= 2.41) by (unfold H; lra).
  assert (HH : H * H <= 50.06 * K).
  { unfold H. replace ((1 + 0.007 * K) * (1 + 0.007 * K)) with (1 + 0.014 * K + 0.000049 * (K * K)) by lra. 
    assert (K * K <= 201 * K) by (apply Rmult_le_compat_r; lra). lra. }
  assert (DX : H * dd - 1.7 >= - (1 / 10 ^ 13)).
  { assert (Q : H * (1.7 - 0.007 * x) = 1.7 - 0.007 * (H * (x - S))) by (unfold H in *; lra).
    assert (H * (x - S) <= 2.41 * (1 / 10 ^ 12)) by (apply Rle_trans with (H * (1 / 10 ^ 12)); [apply Rmult_le_compat_l; lra|apply Rmult_le_compat_r; lra]).
    assert (- (2.41 * (1.2 / 10 ^ 15)) <= H * (dd - (1.7 - 0.007 * x))) by (pose proof (mul_bnd H (dd - (1.7 - 0.007 * x)) 2.41 (1.2 / 10 ^ 15) ltac:(lra) BD); lra). lra. }
  assert (XK : - (H * (1.6 / 10 ^ 14) + 6.9 / 10 ^ 15 * K) <= x - K * dd <= H * (1.6 / 10 ^ 14) + 6.9 / 10 ^ 15 * K).
  { assert (Q : x - K * (1.7 - 0.007 * x) = H * (x - S)) by (unfold H in *; lra).
    assert (KD : - (K * (1.2 / 10 ^ 15)) <= K * (dd - (1.7 - 0.007 * x)) <= K * (1.2 / 10 ^ 15)).
    { split; [rewrite Ropp_mult_distr_r|]; apply Rmult_le_compat_l; lra. }
    assert (HS : H * - (1.6 / 10 ^ 14 + 3.3 / 10 ^ 15 * S) <= H * (x - S) <= H * (1.6 / 10 ^ 14 + 3.3 / 10 ^ 15 * S)) by (split; apply Rmult_le_compat_l; lra). lra. }
  assert (A : (H * (1.6 / 10 ^ 14) + 6.9 / 10 ^ 15 * K) <= K * (4.93 / 10 ^ 13) * dd).
  { apply Rmult_le_reg_l with H; [lra|]. 
    assert (H * K <= 2.41 * K) by (apply Rmult_le_compat_r; lra).
    apply Rle_trans with (K * (4.93 / 10 ^ 13) * 1.69999); [lra|]. replace (H * (K * (4.93 / 10 ^ 13) * dd)) with (K * (4.93 / 10 ^ 13) * (H * dd)) by ring.
    apply Rmult_le_compat_l; lra. }
  assert (Q : K * (1 - 4.93 / 10 ^ 13) <= x / dd <= K * (1 + 4.93 / 10 ^ 13)) by (split; [apply le_div|apply div_le]; lra).
  destruct (fdiv_S js den fs ltac:(fold dd; lra) ltac:(fold x dd; unfold HUGE; lra)) as [E4 G4]. fold x dd in E4.
  split; [exact G4|]. split; [lra|]. rewrite E4. pose proof (rnd_bounds (x / dd) ltac:(lra)) as R4. pose proof eta_small. unfold u53 in R4. lra.
Qed.

Lemma ln_81 y : 1 <= y <= 81.3 -> 0 <= ln y <= 8.1.
Proof.
  intros h. assert (P := ln_ge_inv y ltac:(lra)). assert (I : / y <= 1) by (rewrite <- Rinv_1; apply Rinv_le; lra). split; [lra|].
  assert (S : 0 < sqrt (sqrt y) <= 3.01).
  { split; [apply sqrt_lt_R0, sqrt_lt_R0; lra|]. apply Rsqr_incr_0_var; [|lra]. rewrite Rsqr_sqrt by apply sqrt_pos. apply Rsqr_incr_0_var; [|unfold Rsqr; lra]. rewrite Rsqr_sqrt by lra. unfold Rsqr. lra. }
  assert (E : y = sqrt (sqrt y) * sqrt (sqrt y) * (sqrt (sqrt y) * sqrt (sqrt y))) by (rewrite sqrt_def by apply sqrt_pos; rewrite sqrt_def; lra).
  rewrite E. set (q := sqrt (sqrt y)) in *. clearbody q.
  assert (0 < q * q) by (apply Rmult_lt_0_compat; lra). rewrite ln_mult by assumption. rewrite ln_mult by lra.
  assert (L := ln_le_sub q ltac:(lra)). lra.
Qed.

Lemma ln_abs a b d : 1 <= a -> 1 <= b -> - d <= a - b <= d -> 0 <= d -> - d <= ln a - ln b <= d.
Proof.
  assert (W : forall a b, 1 <= a -> 1 <= b -> a <= b -> 0 <= ln b - ln a <= b - a).
  { intros u v hu hv huv. replace (ln v - ln u) with (ln (v / u)) by (unfold Rdiv; rewrite ln_mult, ln_Rinv; [ring|lra|lra|apply Rinv_0_lt_compat; lra]).
    assert (Q : 1 <= v / u) by (apply le_div; lra).
    assert (P := ln_ge_inv (v / u) ltac:(lra)). assert (I : / (v / u) <= 1) by (rewrite <- Rinv_1; apply Rinv_le; lra).
    assert (L := ln_le_sub (v / u) ltac:(lra)). split; [lra|]. apply Rle_trans with (1 := L).
    assert (v / u <= v - u + 1); [|lra]. apply div_le; [lra|]. assert (0 <= (v - u) * (u - 1)) by (apply Rmult_le_pos; lra). lra. }
  intros h1 h2 h3 h4. destruct (Rle_or_lt a b) as [l|l]; [pose proof (W a b h1 h2 l)|pose proof (W b a h2 h1 ltac:(lra))]; lra.
Qed.

Section Acc.
Context {lm : Libm} (LA : libm_accurate (1 / 10 ^ 14) lm).

(** Forward: from the colourfulness to the length of the colour's vector. *)
Lemma ucs_m_fwd (m : f64) : fin m -> 0 <= B2R m <= 3520 -> let ms := fw_ucs_m m in
  fin ms /\ 0 <= B2R ms <= 360 /\ - (1.6 / 10 ^ 13) <= 0.0228 * B2R ms - ln (1 + 0.0228 * B2R m) <= 1.6 / 10 ^ 13 /\
  (3.9 / 10 ^ 12 <= B2R m -> B2R m <= 6 -> 0.85 * B2R m <= B2R ms) /\ (6 <= B2R m -> 5 <= B2R ms).
Proof using LA.
  intros fm bm. unfold fw_ucs_m. cbv zeta. fconst (dec "1.0"). fconst (dec "0.0228").
  set (M := B2R m) in *.
  assert (P0 : 0 <= B2R (dec "0.0228") * M <= 80.3) by (rewrite V0; split; lra).
  destruct (fmul_S (dec "0.0228") m F0 fm ltac:(fold M; unfold HUGE; lra)) as [E1 F1]. fold M in E1.
  pose proof (rnd_bounds (B2R (dec "0.0228") * M) (proj1 P0)) as R1. rewrite <- E1 in R1. pose proof eta_small as ETA. unfold u53 in R1.
  assert (Q1 : 0 <= B2R (fmul (dec "0.0228") m)) by (rewrite E1; apply rnd_ge_0; lra).
  set (x := fmul (dec "0.0228") m) in *. clearbody x. clear E1.
  assert (X1 : 0.0228 * M * (1 - 2 / 10 ^ 16) - 1 / 10 ^ 50 <= B2R x <= 0.0228 * M * (1 + 2 / 10 ^ 16) + 1 / 10 ^ 50) by (rewrite V0 in R1; lra).
  destruct (fadd_S (dec "1.0") x F F1 ltac:(rewrite V; unfold HUGE; lra)) as [E2 F2]. rewrite V in E2.
  assert (Y1 : 1 <= B2R (fadd (dec "1.0") x)) by (rewrite E2; apply (rnd_ge_IZR _ 1); [lia|lra]).
  pose proof (rnd_bounds (1 + B2R x) ltac:(lra)) as R2. rewrite <- E2 in R2. unfold u53 in R2. clear E2.
  set (y := fadd (dec "1.0") x) in *. clearbody y.
  assert (YY : - (3 / 10 ^ 14) <= B2R y - (1 + 0.0228 * M) <= 3 / 10 ^ 14) by lra.
  destruct (la_ln _ _ LA y F2 ltac:(lra)) as [FL EL]. apply Rabs_le_inv in EL.
  pose proof (ln_81 (B2R y) ltac:(lra)) as LB. pose proof (ln_abs (B2R y) (1 + 0.0228 * M) (3 / 10 ^ 14) Y1 ltac:(lra) YY ltac:(lra)) as LL.
  pose proof (ln_81 (1 + 0.0228 * M) ltac:(lra)) as LC.
  set (L := lnf y) in *. clearbody L. set (l := ln (B2R y)) in *. assert (El : l = ln (B2R y)) by reflexivity. clearbody l.
  assert (L0 : 0 <= B2R L <= 8.2) by lra.
  assert (Q3 : 0 <= B2R L / B2R (dec "0.0228") <= 360) by (rewrite V0; split; lra).
  destruct (fdiv_S L (dec "0.0228") FL ltac:(rewrite V0; lra) ltac:(unfold HUGE; lra)) as [E3 F3].
  pose proof (rnd_bounds (B2R L / B2R (dec "0.0228")) (proj1 Q3)) as R3. rewrite <- E3 in R3. unfold u53 in R3.
  assert (Q4 : 0 <= B2R (fdiv L (dec "0.0228"))) by (rewrite E3; apply rnd_ge_0; exact (proj1 Q3)).
  assert (E4 : B2R L / B2R (dec "0.0228") * 0.0228 = B2R L * (0.0228 / B2R (dec "0.0228"))) by (field; rewrite V0; lra).
  assert (E5 : 1 - 1 / 10 ^ 15 <= 0.0228 / B2R (dec "0.0228") <= 1 + 1 / 10 ^ 15) by (rewrite V0; split; lra).
  set (v := B2R L / B2R (dec "0.0228")) in *. clearbody v. set (e := 0.0228 / B2R (dec "0.0228")) in *. clearbody e.
  assert (E6 : B2R L * (1 - 1 / 10 ^ 15) <= B2R L * e <= B2R L * (1 + 1 / 10 ^ 15)) by (split; apply Rmult_le_compat_l; lra).
  set (ms := fdiv L (dec "0.0228")) in *. clearbody ms.
  split; [exact F3|]. split; [lra|]. split; [lra|]. split.
  - intros h1 h2. assert (YF : - (1 / 10 ^ 15) <= B2R y - (1 + 0.0228 * M) <= 1 / 10 ^ 15) by lra.
    pose proof (ln_ge_inv (B2R y) ltac:(lra)) as LI. rewrite <- El in LI.
    assert (I : 1 - / B2R y = (B2R y - 1) / B2R y) by (field; lra).
    assert ((B2R y - 1) * 0.87 <= (B2R y - 1) / B2R y).
    { apply le_div; [lra|]. assert (0 <= (B2R y - 1) * (1 - 0.87 * B2R y)) by (apply Rmult_le_pos; lra). lra. }
    lra.
  - intros h. pose proof (ln_ge_inv (1 + 0.0228 * M) ltac:(lra)) as LI.
    assert (/ (1 + 0.0228 * M) <= 0.88) by (rewrite <- (Rinv_inv 0.88); apply Rinv_le; lra). lra.
Qed.
End Acc.
