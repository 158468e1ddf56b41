(** * The errors allowed by the rounds and by rounding stay within one tone.  Proof file. *)
From Coq Require Import ZArith Bool Reals Lra Lia Psatz String List.
From Flocq Require Import Core Relative IEEE754.BinarySingleNaN.
From Verif Require Import F64 Spec SpecCam SpecTone FloatFacts FloatMono MathUtils ColorUtils ViewingConditions HctSolver PfMath PfLab PfTones PfNear PfGamma PfRel PfToneReal PfToneLin PfToneLoop PfToneInit PfToneCode PfToneEnd.
Open Scope string_scope.
Open Scope R_scope.

Definition budget (w y dl ex : R) : Prop := exists s, 0 < s /\ let D := dl + 0.002375 * ((y + dl + ex + 0.00114) / s + s) + ex + 1 / 10 ^ 8 in
  (w <= 0.2070 -> D <= 0.001) /\ (0.2068 <= w -> D <= 0.0258 * (w * w) - 0.00022188 * w).

Lemma budget_low w y dl ex : w <= 0.2070 -> y <= 0.00888 -> 0 <= dl -> 0 <= ex -> dl + 1.0117 * ex <= 0.00047 -> budget w y dl ex.
Proof.
  intros hw hy hd he h. exists 0.102. split; [lra|]. cbv zeta.
  assert (D : dl + 0.002375 * ((y + dl + ex + 0.00114) / 0.102 + 0.102) + ex + 1 / 10 ^ 8 <= 0.001) by lra. split; [intros _; exact D|]. intros h2.
  assert (0.2068 * 0.2068 <= w * w) by (apply Rmult_le_compat; lra). lra.
Qed.

Lemma budget_cubic w y dl ex eps : 0.2070 < w <= 1 -> w ^ 3 - 1 / 10 ^ 10 <= y <= w ^ 3 + 1 / 10 ^ 10 -> 0 <= dl <= eps * w ^ 3 + 1 / 10 ^ 9 -> 0 <= ex <= 0.000101 ->
  0 <= eps <= 0.0406 -> (0.3108 <= w -> eps <= 0.02502) -> (0.5849 <= w -> eps <= 0.01627) -> budget w y dl ex.
Proof.
  intros hw hy hd he e1 e2 e3.
  assert (PC : forall s e, 0 < s -> eps <= e ->
    e * (w * w * w) + 1 / 10 ^ 9 + 0.002375 * ((w * w * w + 1 / 10 ^ 10 + (e * (w * w * w) + 1 / 10 ^ 9) + 0.000101 + 0.00114) * / s + s) + 0.000101 + 1 / 10 ^ 8 <= 0.0258 * (w * w) - 0.00022188 * w -> budget w y dl ex).
  { intros s e hs hes H. replace (w * w * w) with (w ^ 3) in H by ring. exists s. split; [exact hs|]. cbv zeta. split; [intros h; lra|intros _]. assert (W3 : 0 <= w ^ 3) by (apply pow_le; lra).
    assert (eps * w ^ 3 <= e * w ^ 3) by (apply Rmult_le_compat_r; lra).
    assert (IS : 0 < / s) by (apply Rinv_0_lt_compat; exact hs).
    assert ((y + dl + ex + 0.00114) / s <= (w ^ 3 + 1 / 10 ^ 10 + (e * w ^ 3 + 1 / 10 ^ 9) + 0.000101 + 0.00114) * / s) by (apply Rmult_le_compat_r; lra). lra. }
  assert (PB : forall a b, a <= w -> w <= b -> 0 <= (w - a) * (b - w) /\ 0 <= w * ((w - a) * (b - w)) /\ 0 <= (w - a) * (w - a)).
  { intros a b h1 h2. assert (0 <= (w - a) * (b - w)) by (apply Rmult_le_pos; lra). split; [assumption|]. split; [apply Rmult_le_pos; lra|apply Rle_0_sqr]. }
  clear hy hd.
  destruct (Rle_dec w 0.23) as [h23|h23]; [apply (PC 0.11 0.0406); [lra|lra|]; pose proof (PB 0.207 0.23 ltac:(lra) ltac:(lra)) as (q1 & q2 & q3); clear PB PC e1 e2 e3; lra|apply Rnot_le_lt in h23].
  destruct (Rle_dec w 0.27) as [h27|h27]; [apply (PC 0.132 0.0406); [lra|lra|]; pose proof (PB 0.23 0.27 ltac:(lra) ltac:(lra)) as (q1 & q2 & q3); clear PB PC e1 e2 e3; lra|apply Rnot_le_lt in h27].
  destruct (Rle_dec w 0.3108) as [h3108|h3108]; [apply (PC 0.163 0.0406); [lra|lra|]; pose proof (PB 0.27 0.3108 ltac:(lra) ltac:(lra)) as (q1 & q2 & q3); clear PB PC e1 e2 e3; lra|apply Rnot_le_lt in h3108].
  destruct (Rle_dec w 0.4) as [h4|h4]; [apply (PC 0.217 0.02502); [lra|apply e2; lra|]; pose proof (PB 0.3108 0.4 ltac:(lra) ltac:(lra)) as (q1 & q2 & q3); clear PB PC e1 e2 e3; lra|apply Rnot_le_lt in h4].
  destruct (Rle_dec w 0.5) as [h5|h5]; [apply (PC 0.308 0.02502); [lra|apply e2; lra|]; pose proof (PB 0.4 0.5 ltac:(lra) ltac:(lra)) as (q1 & q2 & q3); clear PB PC e1 e2 e3; lra|apply Rnot_le_lt in h5].
  destruct (Rle_dec w 0.5849) as [h5849|h5849]; [apply (PC 0.406 0.02502); [lra|apply e2; lra|]; pose proof (PB 0.5 0.5849 ltac:(lra) ltac:(lra)) as (q1 & q2 & q3); clear PB PC e1 e2 e3; lra|apply Rnot_le_lt in h5849].
  destruct (Rle_dec w 0.7) as [h7|h7]; [apply (PC 0.52 0.01627); [lra|apply e3; lra|]; pose proof (PB 0.5849 0.7 ltac:(lra) ltac:(lra)) as (q1 & q2 & q3); clear PB PC e1 e2 e3; lra|apply Rnot_le_lt in h7].
  destruct (Rle_dec w 0.85) as [h85|h85]; [apply (PC 0.689 0.01627); [lra|apply e3; lra|]; pose proof (PB 0.7 0.85 ltac:(lra) ltac:(lra)) as (q1 & q2 & q3); clear PB PC e1 e2 e3; lra|apply Rnot_le_lt in h85].
  apply (PC 0.898 0.01627); [lra|apply e3; lra|]; pose proof (PB 0.85 1 ltac:(lra) ltac:(lra)) as (q1 & q2 & q3); clear PB PC e1 e2 e3; lra.
Qed.

Lemma log_dev y f m k : 0 < y -> 0 < f -> - m <= ln (y / f) <= m -> 0 <= m < 1 -> 1 <= k * (1 - m) -> y - (k - 1) * y <= f <= y + (k - 1) * y.
Proof.
  intros hy hf h hm hk. assert (E : ln (y / f) = ln y - ln f) by (unfold Rdiv; rewrite ln_mult, ln_Rinv by (try apply Rinv_0_lt_compat; lra); ring).
  assert (F : f = y * exp (ln f - ln y)) by (unfold Rminus; rewrite exp_plus, exp_Ropp, !exp_ln by lra; field; lra).
  set (d := ln f - ln y) in *. assert (bd : - m <= d <= m) by (unfold d; lra). pose proof (exp_ineq1_le d) as L. pose proof (exp_ineq1_le (- d)) as U. rewrite exp_Ropp in U.
  assert (P : 0 < exp d) by apply exp_pos. assert (Q : exp d * (1 - m) <= 1).
  { apply Rle_trans with (exp d * / exp d); [apply Rmult_le_compat_l; lra|]. rewrite Rinv_r by lra. lra. }
  assert (X : exp d <= k) by (apply Rmult_le_reg_r with (1 - m); lra).
  assert (K : 1 - m >= 2 - k). { assert (0 <= m * m) by (apply Rle_0_sqr). assert ((1 + m) * (1 - m) <= k * (1 - m)) by lra. assert (1 + m <= k) by (apply Rmult_le_reg_r with (1 - m); lra). lra. }
  rewrite F. split; [|assert (y * exp d <= y * k) by (apply Rmult_le_compat_l; lra); lra].
  assert (y * (2 - k) <= y * exp d) by (apply Rmult_le_compat_l; lra). lra.
Qed.

Section Acc.
Context {lm : Libm} (PA : pow_accurate (1 / 10 ^ 13) lm).

Lemma Y_lum (l : vec3) : fin (v0 l) -> fin (v1 l) -> fin (v2 l) -> -1 <= B2R (v0 l) <= 101 -> -1 <= B2R (v1 l) <= 101 -> -1 <= B2R (v2 l) <= 101 ->
  let Y := 0.2126 * B2R (v0 l) + 0.7152 * B2R (v1 l) + 0.0722 * B2R (v2 l) in Y - 1 / 10 ^ 10 <= B2R (fnj_of l) <= Y + 1 / 10 ^ 10.
Proof using.
  intros f0 f1 f2 h0 h1 h2. cbv zeta. unfold fnj_of, Y_FROM_LINRGB. cbn [v0 v1 v2 fst snd]. change (fst (fst l)) with (v0 l). change (snd (fst l)) with (v1 l). change (snd l) with (v2 l).
  fconst (dec "0.2126"). fconst (dec "0.7152"). fconst (dec "0.0722").
  destruct (dot_R (dec "0.2126") (dec "0.7152") (dec "0.0722") (v0 l) (v1 l) (v2 l) F F0 F1 f0 f1 f2) as [_ E]; [rewrite V; lra|rewrite V0; lra|rewrite V1; lra|]. rewrite V, V0, V1 in E. lra.
Qed.

Lemma exact_tone (t : f64) vc tic p1_ hs hc chroma c : fin t -> 0.0001 <= B2R t <= 100 -> out vc tic p1_ hs hc chroma (y_from_lstar t) c (mu (B2R (y_from_lstar t))) (mu (B2R (y_from_lstar t))) ->
  fin (lstar_from_argb c) /\ B2R t - 1 <= B2R (lstar_from_argb c) <= B2R t + 1.
Proof using PA.
  intros ft bt (l & _ & ro & ec & g0 & g1 & g2 & dev). destruct (round_lin l ro) as ((f0 & f1 & f2) & (p0 & p1 & p2) & pf). fconst (dec "100.01").
  apply (flt_fin_f _ _ F f0) in g0. apply (flt_fin_f _ _ F f1) in g1. apply (flt_fin_f _ _ F f2) in g2. rewrite V in g0, g1, g2.
  pose proof (Y_lum l f0 f1 f2 ltac:(lra) ltac:(lra) ltac:(lra)) as YL. cbv zeta in YL.
  destruct (Y_R t ft ltac:(lra)) as [fy cu]. set (y := B2R (y_from_lstar t)) in *. set (w := (B2R t + 16) / 116) in *. assert (hw : 16.0001 / 116 <= w <= 1) by (unfold w; lra).
  set (f := B2R (fnj_of l)) in *. set (Y := 0.2126 * B2R (v0 l) + 0.7152 * B2R (v1 l) + 0.0722 * B2R (v2 l)) in *.
  assert (ypos : 0 < y). { assert (TG : lin w <= w ^ 3) by (apply tangent; lra). destruct cu as [(u1 & u2)|(u1 & u2)]; unfold lin in *; lra. }
  assert (FIN : forall dl, 0 <= dl -> y / 100 - dl <= Y / 100 <= y / 100 + dl -> budget w (y / 100) dl 0.000101 -> fin (lstar_from_argb c) /\ B2R t - 1 <= B2R (lstar_from_argb c) <= B2R t + 1).
  { intros dl h1 h2 (s & h3 & h4 & h5). rewrite ec. cbv zeta in h4, h5. apply (tone_close PA l t 0.000101 dl s); try assumption; lra. }
  assert (DV : exists eps, 0 <= eps /\ (20 <= y -> eps <= 0.01627) /\ (3 <= y -> eps <= 0.02502) /\ (0.1 <= y -> eps <= 0.0406) /\ eps <= 0.1263 /\ (y - 0.0021 <= f <= y + 0.0021 \/ y - eps * y <= f <= y + eps * y)).
  { assert (MU : exists m eps, mu y = m /\ 0 <= eps /\ (20 <= y -> eps <= 0.01627) /\ (3 <= y -> eps <= 0.02502) /\ (0.1 <= y -> eps <= 0.0406) /\ eps <= 0.1263 /\ 0 <= m < 1 /\ 1 <= (1 + eps) * (1 - m)).
    { unfold mu. destruct (Rle_dec 20 y); [exists 0.016, 0.01627; repeat split; lra|]. destruct (Rle_dec 3 y); [exists 0.0244, 0.02502; repeat split; lra|].
      destruct (Rle_dec 0.1 y); [exists 0.039, 0.0406; repeat split; lra|exists 0.112, 0.1263; repeat split; lra]. }
    destruct MU as (m & eps & em & e0 & e1 & e2 & e3 & e4 & hm & hk). exists eps. repeat (split; [assumption|]). rewrite em in dev. destruct dev as [d|d].
    - left. apply Rabs_le_inv in d. fold f y in d. clear - d. lra.
    - right. pose proof (log_dev y f m (1 + eps) ypos pf d hm hk). lra. }
  destruct DV as (eps & e0 & e1 & e2 & e3 & e4 & dv). destruct (Rle_dec w 0.2070) as [lo|hi].
  - assert (YU : y <= 0.888). { destruct cu as [(u1 & u2)|(u1 & u2)]; [assert (w ^ 3 <= 0.2070 ^ 3) by (apply cube_lt; lra); lra|unfold lin in *; lra]. }
    assert (DL : - 0.0363 <= f - y <= 0.0363).
    { destruct dv as [d|d]; [lra|]. destruct (Rle_dec 0.1 y) as [k|k].
      - specialize (e3 k). assert (eps * y <= 0.0406 * 0.888) by (apply Rmult_le_compat; lra). lra.
      - assert (eps * y <= 0.1263 * 0.1) by (apply Rmult_le_compat; lra). lra. }
    apply (FIN 0.000364); [lra|lra|]. apply budget_low; lra.
  - assert (W3 : w ^ 3 >= 0.2070 ^ 3) by (apply Rle_ge, cube_lt; lra). destruct cu as [(u1 & u2)|(u1 & u2)]; [|exfalso; unfold eR in *; lra].
    assert (Y1 : 0.3108 <= w -> 3 <= y) by (intros k; assert (0.3108 ^ 3 <= w ^ 3) by (apply cube_lt; lra); lra).
    assert (Y2 : 0.5849 <= w -> 20 <= y) by (intros k; assert (0.5849 ^ 3 <= w ^ 3) by (apply cube_lt; lra); lra).
    set (e' := Rmax eps 0.01). assert (M1 : eps <= e') by apply Rmax_l. assert (M2 : 0.01 <= e') by apply Rmax_r.
    assert (M3 : forall x, eps <= x -> 0.01 <= x -> e' <= x) by (intros x k1 k2; apply Rmax_lub; assumption). clearbody e'.
    assert (y1 : 0.88 <= y) by lra. specialize (e3 ltac:(lra)).
    assert (EY : 0.01 * y <= e' * y) by (apply Rmult_le_compat_r; lra). assert (EY2 : eps * y <= e' * y) by (apply Rmult_le_compat_r; lra).
    assert (E3 : e' * y <= e' * (100 * w ^ 3 + 1 / 10 ^ 9)) by (apply Rmult_le_compat_l; lra). assert (e'u : e' <= 0.0406) by (apply M3; lra).
    apply (FIN (e' * y / 100 + 1 / 10 ^ 10)); [lra|lra|].
    apply budget_cubic with e'; [lra|lra| |lra|lra| |].
    + split; [lra|]. lra.
    + intros k. apply M3; [apply e2; apply Y1; exact k|lra].
    + intros k. apply M3; [apply e1; apply Y2; exact k|lra].
Qed.
End Acc.
