(** * The solver's exact answer has the requested hue and chroma.  Proof file. *)
From Coq Require Import ZArith Bool Reals Lra Lia Psatz String List.
From Flocq Require Import Core Relative IEEE754.BinarySingleNaN.
From Verif Require Import F64 Spec SpecCam SpecTone SpecViewing SpecAppear SpecCie SpecSolve FloatFacts FloatMono MathUtils ColorUtils ViewingConditions Cam16 HctSolver PfMath PfLab PfTones PfNear PfRel PfLimit PfGamma PfColor PfHct PfVc PfHueVc PfCamA PfCamG PfWarmth PfAppear PfAppearParts PfAppearAll PfCie PfToneReal PfToneElast PfToneStep PfToneFin PfToneLin PfToneRound PfToneIter PfToneNext PfToneLoop PfToneInit PfToneVc PfToneProps.
Open Scope string_scope.
Open Scope R_scope.

(** ** From the scaled responses to the stimulus and back *)
Lemma tables y1 y2 y3 l0 l1 l2 : 0 < y2 -> 0.79 * y2 <= y1 <= 2.06 * y2 -> 0.17 * y2 <= y3 <= 10.2 * y2 ->
  - (y2 / 10 ^ 10) <= l0 - (1373.2198709594231 * y1 - 1100.4251190754821 * y2 - 7.278681089101213 * y3) <= y2 / 10 ^ 10 ->
  - (y2 / 10 ^ 10) <= l1 - (- 271.815969077903 * y1 + 559.6580465940733 * y2 - 32.46047482791194 * y3) <= y2 / 10 ^ 10 ->
  - (y2 / 10 ^ 10) <= l2 - (1.9622899599665666 * y1 - 57.173814538844006 * y2 + 308.7233197812385 * y3) <= y2 / 10 ^ 10 ->
  let x := linear_x l0 l1 l2 in let y := linear_y l0 l1 l2 in let z := linear_z l0 l1 l2 in
  wc (y1 * (100 / 0.3967085983)) (cone_red x y z) (1 / 10 ^ 9) /\ wc (y2 * (100 / 0.3831622604)) (cone_green x y z) (1 / 10 ^ 9) /\ wc (y3 * (100 / 0.3628263358)) (cone_blue x y z) (1 / 10 ^ 9).
Proof.
  intros p h1 h3 e0 e1 e2. cbv zeta. unfold wc, cone_red, cone_green, cone_blue, linear_x, linear_y, linear_z. repeat split; lra.
Qed.

Lemma scaled y U u f fk g gk c : 0 < y -> 0.36 <= U <= 0.4 -> wc (y * (100 / U)) c (1 / 10 ^ 9) -> U <= f * g <= U + 5 / 10 ^ 10 -> rel f fk (1 / 10 ^ 9) -> rel g gk (1 / 10 ^ 9) ->
  u = fk * gk * c / 100 -> wc y u (1 / 10 ^ 8).
Proof.
  intros hy hU [c1 c2] hp [pf bf] [pg bg] ->.
  assert (M := rel_ms f g fk gk _ _ (conj pf bf) (conj pg bg) ltac:(lra) ltac:(lra)). destruct M as [pm bm]. set (m := fk * gk) in *. clearbody m. clear - hy hU c1 c2 hp pm bm.
  assert (m1 : U * (1 - 3 / 10 ^ 9) <= m <= U * (1 + 4 / 10 ^ 9)) by lra. set (z := y * (100 / U)) in *. assert (EZ : U * z = 100 * y) by (unfold z; field; lra). assert (z0 : 0 < z) by (unfold z; apply Rmult_lt_0_compat; [exact hy|apply Rdiv_lt_0_compat; lra]). clearbody z.
  assert (Lo : U * (1 - 3 / 10 ^ 9) * (z * (1 - 1 / 10 ^ 9)) <= m * c) by (apply Rmult_le_compat; lra).
  assert (Hi : m * c <= U * (1 + 4 / 10 ^ 9) * (z * (1 + 1 / 10 ^ 9))) by (apply Rmult_le_compat; lra).
  unfold wc. lra.
Qed.

Lemma exp_small d e : 0 <= e <= 1 / 100 -> - e <= d <= e -> 1 - e <= exp d <= 1 + 1.02 * e.
Proof.
  intros he hd. assert (G1 := exp_ineq1_le d). assert (G3 := exp_ineq1_le (- d)). rewrite exp_Ropp in G3. pose proof (exp_pos d) as p.
  assert (X : exp d * (1 + - d) <= exp d * / exp d) by (apply Rmult_le_compat_l; lra). rewrite Rinv_r in X by lra.
  assert (Y : exp d * (1 - e) <= exp d * (1 + - d)) by (apply Rmult_le_compat_l; lra). split; [lra|].
  apply Rmult_le_reg_r with (1 - e); [lra|]. assert (e * e <= 1 / 100 * e) by (apply Rmult_le_compat_r; lra). lra.
Qed.
Lemma of_ln w m e : 0 < w -> 0 < m -> 0 <= e <= 1 / 100 -> - e <= ln w - ln m <= e -> wc m w (1.02 * e).
Proof.
  intros pw pm he h. assert (E : w = m * exp (ln w - ln m)) by (unfold Rminus; rewrite exp_plus, exp_Ropp, !exp_ln by lra; field; lra). rewrite E.
  pose proof (exp_small _ _ he h). unfold wc. split; apply Rmult_le_compat_l; lra.
Qed.

(** The response to the stimulus. *)
Lemma ln_big x : 1 / 10 ^ 30 <= x <= 10 ^ 30 -> -270 <= ln x <= 270.
Proof.
  intros h. assert (E : ln (10 ^ 30) <= 270).
  { rewrite ln_pow by lra. assert (T : ln 10 <= 9) by (pose proof (ln_le_sub1 10 ltac:(lra)); lra). replace (INR 30) with 30 by (simpl; lra). lra. }
  split.
  - apply Rle_trans with (ln (1 / 10 ^ 30)); [|apply ln_le'; lra]. unfold Rdiv. rewrite Rmult_1_l, ln_Rinv by lra. lra.
  - apply Rle_trans with (ln (10 ^ 30)); [apply ln_le'; lra|exact E].
Qed.

Lemma answer x y u : 1 / 10 ^ 25 <= x <= 100 -> rel y (vv Kc qc x) (1 / 10 ^ 11) -> wc y u (1 / 10 ^ 8) -> 0 < u /\ wc x (400 * Rpower u 0.42 / (Rpower u 0.42 + 27.13)) (1 / 10 ^ 7).
Proof.
  intros hx [pv bv] [u1 u2]. assert (KV : 27.12999999999999 <= Kc <= 27.13000000000001) by (unfold Kc; fconst (dec "27.13"); lra).
  assert (QV : - (1 / 10 ^ 15) <= 0.42 * qc - 1 <= 1 / 10 ^ 15) by (unfold qc, inv_e; fconst (fdiv (dec "1.0") (dec "0.42")); lra).
  set (m := Kc * x / (400 - x)) in *. assert (EM : m * (400 - x) = Kc * x) by (unfold m; field; lra).
  assert (KX : 27.12999999999999 * x <= Kc * x <= 27.13000000000001 * x) by (split; apply Rmult_le_compat_r; lra).
  assert (bm : 1 / 10 ^ 28 <= m <= 10) by (unfold m; split; [apply le_div|apply div_le]; lra).
  assert (LM := ln_big m ltac:(lra)). set (v := vv Kc qc x) in *.
  assert (bu : v * (1 - 1.1 / 10 ^ 8) <= u <= v * (1 + 1.1 / 10 ^ 8)) by lra.
  destruct (ln_near u v (1.1 / 10 ^ 8) pv ltac:(lra) bu) as [pu lu]. split; [exact pu|].
  assert (LV : ln v = qc * ln m) by (unfold v, vv; fold m; unfold Rpower; apply ln_exp).
  assert (LW : - (1 / 10 ^ 8) <= ln (Rpower u 0.42) - ln m <= 1 / 10 ^ 8).
  { unfold Rpower. rewrite ln_exp. replace (0.42 * ln u - ln m) with (0.42 * (ln u - ln v) + (0.42 * qc - 1) * ln m) by (rewrite LV; ring).
    pose proof (mul_bnd (0.42 * qc - 1) (ln m) (1 / 10 ^ 15) 270 ltac:(lra) ltac:(lra)). lra. }
  set (w := Rpower u 0.42) in *. assert (w0 : 0 < w) by apply exp_pos.
  assert (bw : wc m w (2 / 10 ^ 8)).
  { pose proof (of_ln w m (1 / 10 ^ 8) w0 ltac:(lra) ltac:(lra) LW) as B. unfold wc in *. lra. }
  clearbody w m. clear - EM bw bm KV hx w0 KX. destruct bw as [b1 b2].
  assert (S1 : m * (1 - 2 / 10 ^ 8) * (400 - x) <= w * (400 - x)) by (apply Rmult_le_compat_r; lra). assert (S2 : w * (400 - x) <= m * (1 + 2 / 10 ^ 8) * (400 - x)) by (apply Rmult_le_compat_r; lra).
  assert (WX : 0 <= w * x) by (apply Rmult_le_pos; lra).
  unfold wc. split; [apply le_div|apply div_le]; lra.
Qed.

(** ** The hue, the lightness and the chroma of the responses *)
Lemma exact_attributes k P Q T C S h : 0 < P -> 0 < Q -> 0 < T -> den Q T C S <> 0 -> 0.5 <= kap Q T C S -> 0.9 <= C * C + S * S <= 1.1 ->
  let r := R1 P Q T C S in let g := R2 P Q T C S in let b := R3 P Q T C S in let G := gam P Q T C S in
  0 < G /\ redness r g b = G * C /\ yellowness r g b = G * S /\ 2 * r + g + b / 20 = P /\ opponent_length r g b = G * sqrt (C * C + S * S) /\
  temporary_t k r g b h = 50000 / 13 * k_nc k * k_nbb k * eccentricity h * sqrt (C * C + S * S) * T / Q.
Proof.
  intros hP hQ hT nD hk hcs. cbv zeta. unfold kap in hk. assert (D : 0 < den Q T C S).
  { destruct (Rlt_or_le 0 (den Q T C S)) as [d|d]; [exact d|exfalso]. assert (d' : den Q T C S < 0) by lra.
    assert (23 * Q / den Q T C S <= 0); [|lra]. apply Ropp_le_cancel. rewrite Ropp_0. replace (- (23 * Q / den Q T C S)) with (23 * Q / - den Q T C S) by (field; exact nD). apply Rlt_le, Rdiv_lt_0_compat; lra. }
  assert (pG : 0 < gam P Q T C S). { unfold gam. apply Rdiv_lt_0_compat; [|exact D]. repeat apply Rmult_lt_0_compat; lra. }
  split; [exact pG|].
  assert (E1 : redness (R1 P Q T C S) (R2 P Q T C S) (R3 P Q T C S) = gam P Q T C S * C) by (unfold redness, R1, R2, R3, X1, X2, X3; lra).
  assert (E2 : yellowness (R1 P Q T C S) (R2 P Q T C S) (R3 P Q T C S) = gam P Q T C S * S) by (unfold yellowness, R1, R2, R3, X1, X2, X3; lra).
  assert (E3 : opponent_length (R1 P Q T C S) (R2 P Q T C S) (R3 P Q T C S) = gam P Q T C S * sqrt (C * C + S * S)).
  { unfold opponent_length. rewrite E1, E2. replace (gam P Q T C S * C * (gam P Q T C S * C) + gam P Q T C S * S * (gam P Q T C S * S)) with ((gam P Q T C S * gam P Q T C S) * (C * C + S * S)) by ring.
    rewrite sqrt_mult_alt by (apply Rle_0_sqr). rewrite sqrt_square by lra. reflexivity. }
  split; [exact E1|]. split; [exact E2|]. split; [unfold R1, R2, R3, X1, X2, X3; lra|]. split; [exact E3|].
  unfold temporary_t. rewrite E3.
  assert (U : R1 P Q T C S + R2 P Q T C S + 21 / 20 * R3 P Q T C S + 0.305 = (P + 0.305) * (23 * Q) / den Q T C S).
  { replace (R1 P Q T C S + R2 P Q T C S + 21 / 20 * R3 P Q T C S + 0.305) with (P + 0.305 - gam P Q T C S * (11 * C + 108 * S) / 23) by (unfold R1, R2, R3, X1, X2, X3; lra).
    unfold gam. unfold den in *. field. exact nD. }
  rewrite U. unfold gam. set (rho := sqrt (C * C + S * S)). set (kk := 50000 / 13 * k_nc k * k_nbb k * eccentricity h). field. repeat split; lra.
Qed.

Lemma chroma_ln k r g b h X ch lt lJ e9 E lP : temporary_t k r g b h = X -> 0 < X -> 0 < (2 * r + g + b / 20) * k_nbb k / k_aw k ->
  lP = ln ((2 * r + g + b / 20) * k_nbb k / k_aw k) ->
  - (1 / 10 ^ 8) <= ln X - e9 * (ln ch + lt - lJ / 2) <= 1 / 10 ^ 8 -> - (1 / 10 ^ 15) <= 0.9 * e9 - 1 <= 1 / 10 ^ 15 -> -600 <= ln ch + lt - lJ / 2 <= 600 ->
  0 < 1.64 - Rpower 0.29 (k_n k) -> - (3 / 10 ^ 7) <= lt + ln (Rpower (1.64 - Rpower 0.29 (k_n k)) 0.73) <= 3 / 10 ^ 7 ->
  - (1 / 10 ^ 8) <= lP - E * lJ <= 1 / 10 ^ 8 -> 0.7 <= k_c k * k_z k <= 2.6 -> - (5 / 10 ^ 9) <= k_c k * k_z k * E - 1 <= 5 / 10 ^ 9 -> -46 <= lJ <= 46 -> 0 < ch ->
  wc ch (chroma k r g b h) (6 / 10 ^ 7).
Proof.
  intros ET pX pL EP hX h9 hl pk hk hP cz hE hJ pc.
  assert (PC : 0 < chroma k r g b h /\ ln (chroma k r g b h) = 0.9 * ln X + ln (Rpower (1.64 - Rpower 0.29 (k_n k)) 0.73) + k_c k * k_z k * lP / 2).
  { unfold chroma, alpha, power, lightness. rewrite ET. destruct (Rle_dec X 0) as [n|_]; [lra|]. rewrite EP. set (q := (2 * r + g + b / 20) * k_nbb k / k_aw k) in *.
    replace (100 * Rpower q (k_c k * k_z k) / 100) with (Rpower q (k_c k * k_z k)) by field. rewrite <- Rpower_sqrt by apply exp_pos.
    assert (A : forall x y, 0 < Rpower x y) by (intros; apply exp_pos).
    split; [repeat apply Rmult_lt_0_compat; apply A|]. rewrite !ln_mult by (repeat apply Rmult_lt_0_compat; apply A).
    assert (B : forall x y, ln (Rpower x y) = y * ln x) by (intros; unfold Rpower; apply ln_exp). rewrite (B X), (B (Rpower q (k_c k * k_z k))), (B q). field. }
  destruct PC as [p0 EC]. set (CH := chroma k r g b h) in *. set (KK := ln (Rpower (1.64 - Rpower 0.29 (k_n k)) 0.73)) in *. set (Z := k_c k * k_z k) in *. clearbody CH KK Z.
  assert (D : - (5 / 10 ^ 7) <= ln CH - ln ch <= 5 / 10 ^ 7).
  { rewrite EC. set (W := ln ch + lt - lJ / 2) in *.
    replace (0.9 * ln X + KK + Z * lP / 2 - ln ch) with (0.9 * (ln X - e9 * W) + (0.9 * e9 - 1) * W + (lt + KK) + Z * (lP - E * lJ) / 2 + (Z * E - 1) * lJ / 2) by (unfold W; field).
    pose proof (mul_bnd (0.9 * e9 - 1) W _ 600 h9 ltac:(lra)). pose proof (mul_bnd Z (lP - E * lJ) 2.6 (1 / 10 ^ 8) ltac:(lra) ltac:(lra)). pose proof (mul_bnd (Z * E - 1) lJ _ 46 hE ltac:(lra)). lra. }
  pose proof (of_ln CH ch (5 / 10 ^ 7) p0 pc ltac:(lra) D) as B. unfold wc in *. lra.
Qed.
