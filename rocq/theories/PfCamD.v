(** * From lightness, chroma and hue back to the compressed cone responses.  Proof file. *)
From Coq Require Import ZArith Bool Reals Lra Lia Psatz String List.
From Flocq Require Import Core Relative IEEE754.BinarySingleNaN.
From Verif Require Import F64 MathUtils ColorUtils ViewingConditions Cam16 Spec SpecCam FloatFacts FloatMono PfMath PfTones PfLab PfGamma PfNear PfVc PfRel PfCamA.
Open Scope string_scope.
Open Scope R_scope.

(** The identity behind the computation of gamma. *)
Lemma gamma_identity p0 r e p1 u t0 p' p1' t' e' k : 23 * (p0 - u) = r * e -> t0 * (u + k) = p1 * r ->
  23 * (p' + k) * t' - r * (23 * p1' + t' * e') =
  (t' - t0) * (23 * (u + k)) + 23 * (p' - p0) * t' - 23 * (r * (p1' - p1)) - t' * (r * (e' - e)).
Proof.
  intros h1 h2.
  replace (23 * (p' + k) * t' - r * (23 * p1' + t' * e')) with
    ((t' - t0) * (23 * (u + k)) + 23 * (p' - p0) * t' - 23 * (r * (p1' - p1)) - t' * (r * (e' - e))
     + 23 * (t0 * (u + k) - p1 * r) + t' * (23 * (p0 - u) - r * e)) by ring.
  rewrite h1, h2. ring.
Qed.

Lemma gamma_denominator p0 r e p1 u t0 k : 23 * (p0 - u) = r * e -> t0 * (u + k) = p1 * r ->
  (23 * p1 + t0 * e) * (u + k) = 23 * p1 * (p0 + k).
Proof.
  intros h1 h2. replace ((23 * p1 + t0 * e) * (u + k)) with (23 * p1 * (u + k) + (t0 * (u + k)) * e) by ring.
  rewrite h2. replace (p1 * r * e) with (p1 * (r * e)) by ring. rewrite <- h1. ring.
Qed.

Section Acc.
Context {lm : Libm} (LA : libm_accurate (1 / 10 ^ 13) lm).

(** ** pow on all non-negative arguments *)
Lemma bpow_800 : bpow radix2 (-800) <= 1 / 10 ^ 30.
Proof using. apply Rle_trans with (bpow radix2 (-100)); [apply bpow_le; lia|simpl bpow; lra]. Qed.

Lemma pow_any (x y : f64) : fin x -> fin y -> 0 <= B2R x -> 0 < B2R y -> pw (B2R x) (B2R y) <= 10 ^ 15 ->
  fin (powf x y) /\ 0 <= B2R (powf x y) /\
  pw (B2R x) (B2R y) * (1 - 1 / 10 ^ 13) - 1 / 10 ^ 30 <= B2R (powf x y) <= pw (B2R x) (B2R y) * (1 + 1 / 10 ^ 13) + 1 / 10 ^ 30.
Proof using LA.
  intros fx fy hx hy hm. destruct (la_tiny _ _ LA x y fx fy hx hy) as [Z T]. destruct (Req_dec (B2R x) 0) as [e|n].
  - destruct (Z e) as [F E]. rewrite e, pw_0, E. repeat split; try exact F; lra.
  - assert (P : 0 < B2R x) by lra. rewrite pw_pos in * by exact P. set (w := Rpower (B2R x) (B2R y)) in *.
    assert (W : 0 < w) by apply exp_pos.
    destruct (Rle_or_lt w (bpow radix2 (-900))) as [l|l].
    + destruct (T P l) as [F [E1 E2]]. pose proof bpow_800. assert (bpow radix2 (-900) <= bpow radix2 (-800)) by (apply bpow_le; lia).
      assert (0 <= w * (1 / 10 ^ 13) <= w) by lra. repeat split; try exact F; lra.
    + destruct (la_pow _ _ LA x y fx fy P) as [F E].
      { split; [left; exact l|]. apply Rle_trans with (10 ^ 15); [exact hm|]. apply Rle_trans with (bpow radix2 60); [simpl bpow; lra|apply bpow_le; lia]. }
      fold w in E. apply Rabs_le_inv in E. repeat split; try exact F; lra.
Qed.

(** ** Staged form of the inverse model *)
Definition inv_alpha (c j : f64) : f64 := if (feq c (dec "0.0") || feq j (dec "0.0"))%bool then dec "0.0" else fdiv c (fsqrt (fdiv j (dec "100.0"))).
Definition inv_t (c j kk : f64) : f64 := powf (fdiv (inv_alpha c j) kk) (fdiv (dec "1.0") (dec "0.9")).
Definition rad (h : f64) : f64 := fdiv (fmul h PI64) (dec "180.0").
Definition inv_p1 (nc ncb hr : f64) : f64 :=
  fmul (fmul (fmul (fmul (dec "0.25") (fadd (cosf (fadd hr (dec "2.0"))) (dec "3.8"))) (fdiv (dec "50000.0") (dec "13.0"))) nc) ncb.
Definition inv_p2 (aw nbb c z j : f64) : f64 := fdiv (fmul aw (powf (fdiv j (dec "100.0")) (fdiv (fdiv (dec "1.0") c) z))) nbb.
Definition inv_gamma (p1 p2 t hc hs : f64) : f64 :=
  fdiv (fmul (fmul (dec "23.0") (fadd p2 (dec "0.305"))) t)
       (fadd (fadd (fmul (dec "23.0") p1) (fmul (fmul (dec "11.0") t) hc)) (fmul (fmul (dec "108.0") t) hs)).
Definition inv_ra (p2 a b : f64) : f64 := fdiv (fadd (fadd (fmul (dec "460.0") p2) (fmul (dec "451.0") a)) (fmul (dec "288.0") b)) (dec "1403.0").
Definition inv_ga (p2 a b : f64) : f64 := fdiv (fsub (fsub (fmul (dec "460.0") p2) (fmul (dec "891.0") a)) (fmul (dec "261.0") b)) (dec "1403.0").
Definition inv_ba (p2 a b : f64) : f64 := fdiv (fsub (fsub (fmul (dec "460.0") p2) (fmul (dec "220.0") a)) (fmul (dec "6300.0") b)) (dec "1403.0").

(** A square root halves a relative error. *)
Lemma rel_sqrt_half x r e : rel x r e -> 0 <= e <= 1 / 10 -> rel (sqrt x) (sqrt r) (0.6 * e).
Proof using.
  intros [hr b] he. assert (S : 0 < sqrt r) by (now apply sqrt_lt_R0). split; [exact S|].
  assert (r * e <= r * (1 / 2)) by (apply Rmult_le_compat_l; lra).
  assert (Er : sqrt r * sqrt r = r) by (apply sqrt_def; lra). assert (E2 : 0 <= e * e <= 0.1 * e) by (split; [apply Rmult_le_pos; lra|apply Rmult_le_compat_r; lra]). split.
  - rewrite <- (sqrt_square (sqrt r * (1 - 0.6 * e))) by (apply Rmult_le_pos; lra). apply sqrt_le_1_alt.
    replace (sqrt r * (1 - 0.6 * e) * (sqrt r * (1 - 0.6 * e))) with ((sqrt r * sqrt r) * ((1 - 0.6 * e) * (1 - 0.6 * e))) by lra. rewrite Er.
    apply Rle_trans with (2 := proj1 b). apply Rmult_le_compat_l; [lra|]. lra.
  - rewrite <- (sqrt_square (sqrt r * (1 + 0.6 * e))) by (apply Rmult_le_pos; lra). apply sqrt_le_1_alt.
    replace (sqrt r * (1 + 0.6 * e) * (sqrt r * (1 + 0.6 * e))) with ((sqrt r * sqrt r) * ((1 + 0.6 * e) * (1 + 0.6 * e))) by lra. rewrite Er.
    apply Rle_trans with (1 := proj2 b). apply Rmult_le_compat_l; [lra|]. lra.
Qed.
Lemma frel_sqrt_half x r e : frel x r e -> 0 <= e <= 1 / 10 -> 1 / 10 ^ 20 <= r <= 10 ^ 20 -> frel (fsqrt x) (sqrt r) (0.6 * e + 3 / 10 ^ 16).
Proof using.
  intros [f h] he hr. pose proof (rel_pos _ _ _ h ltac:(lra)) as P. destruct (fsqrt_R x f ltac:(lra)) as [F E].
  split; [exact F|]. rewrite E. apply rel_rnd; [now apply rel_sqrt_half|lra|].
  apply Rle_trans with (sqrt (1 / 10 ^ 20)); [|apply sqrt_le_1_alt; lra].
  replace (1 / 10 ^ 20) with ((1 / 10 ^ 10) * (1 / 10 ^ 10)) by lra. rewrite sqrt_square; lra.
Qed.

Lemma ln_lower X : 0.00176 <= X -> -16 <= ln X.
Proof using.
  intros h. assert (S : 0.2 <= sqrt (sqrt X)).
  { apply Rsqr_incr_0_var; [|apply sqrt_pos]. rewrite Rsqr_sqrt by apply sqrt_pos. apply Rsqr_incr_0_var; [|apply sqrt_pos]. rewrite Rsqr_sqrt by lra. unfold Rsqr. lra. }
  assert (E : X = sqrt (sqrt X) * sqrt (sqrt X) * (sqrt (sqrt X) * sqrt (sqrt X))) by (rewrite sqrt_def by apply sqrt_pos; rewrite sqrt_def; lra).
  rewrite E. set (q := sqrt (sqrt X)) in *. clearbody q.
  assert (0 < q * q) by (apply Rmult_lt_0_compat; lra). rewrite ln_mult by assumption. rewrite ln_mult by lra.
  assert (L := ln_ge_inv q ltac:(lra)). assert (I : / q <= 5) by (rewrite <- (Rinv_inv 5); apply Rinv_le; lra). lra.
Qed.

(** ** The chroma term *)
Lemma inv_alpha_near (c j : f64) J q : frel j (100 * J) (8 / 10 ^ 13) -> 0.0002 <= J <= 2 -> fin c -> 0 <= B2R c -> 0 <= q <= 2700 ->
  sqrt J * (q - 5 / 10 ^ 9) <= B2R c <= sqrt J * (q + 5 / 10 ^ 9) ->
  near (inv_alpha c j) q (7.8 / 10 ^ 9) /\ 0 <= B2R (inv_alpha c j).
Proof using.
  intros Hj BJ fc pc bq hc. fconst (dec "100.0"). fconst (dec "0.0").
  assert (N0 : frel (dec "100.0") 100 0) by (apply frel_const with (1 := F) (2 := V); split; lra).
  pose proof (frel_div _ _ _ _ _ _ Hj N0 ltac:(lra) ltac:(lra) ltac:(lra)) as N1. replace (100 * J / 100) with J in N1 by lra.
  pose proof (frel_sqrt_half _ _ _ N1 ltac:(lra) ltac:(lra)) as N2.
  assert (Pj : fin j /\ 0 < B2R j) by (destruct Hj as [g h]; split; [exact g|apply (rel_pos _ _ _ h); lra]). destruct Pj as [fj pj].
  assert (S : 0 < sqrt J) by (apply sqrt_lt_R0; lra).
  unfold inv_alpha. replace (feq j (dec "0.0")) with false.
  2:{ symmetry. destruct (feq j (dec "0.0")) eqn:E; [|reflexivity]. apply (feq_fin j (dec "0.0") fj F0) in E. lra. }
  rewrite Bool.orb_false_r. destruct (feq c (dec "0.0")) eqn:E.
  - apply (feq_fin c (dec "0.0") fc F0) in E. rewrite E, V0 in hc.
    assert (q <= 5 / 10 ^ 9). { destruct (Rle_or_lt q (5 / 10 ^ 9)) as [|g]; [assumption|]. assert (0 < sqrt J * (q - 5 / 10 ^ 9)) by (apply Rmult_lt_0_compat; lra). lra. }
    split; [split; [exact F0|lra]|lra].
  - set (s := fsqrt (fdiv j (dec "100.0"))) in *. clearbody s. set (s0 := sqrt J) in *. clearbody s0.
    destruct N2 as [fs [_ bs]].
    assert (Ps : 0 < B2R s) by lra.
    assert (Q : q - 7.7 / 10 ^ 9 <= B2R c / B2R s <= q + 7.7 / 10 ^ 9).
    { set (d := B2R s / s0 - 1). assert (Ed : B2R s = s0 * (1 + d)) by (unfold d; field; lra).
      assert (Bd : - (8 / 10 ^ 13) <= d <= 8 / 10 ^ 13).
      { assert (s0 * - (8 / 10 ^ 13) <= s0 * d <= s0 * (8 / 10 ^ 13)) by lra. split; apply Rmult_le_reg_l with s0; lra. }
      clearbody d. pose proof (mul_bnd q d 2700 (8 / 10 ^ 13) ltac:(lra) Bd) as qd.
      split; [apply le_div|apply div_le]; try exact Ps; rewrite Ed.
      - apply Rle_trans with (2 := proj1 hc). replace ((q - 7.7 / 10 ^ 9) * (s0 * (1 + d))) with (s0 * ((q - 7.7 / 10 ^ 9) * (1 + d))) by ring.
        apply Rmult_le_compat_l; lra.
      - apply Rle_trans with (1 := proj2 hc). replace ((q + 7.7 / 10 ^ 9) * (s0 * (1 + d))) with (s0 * ((q + 7.7 / 10 ^ 9) * (1 + d))) by ring.
        apply Rmult_le_compat_l; lra. }
    assert (P0 : 0 <= B2R c / B2R s) by (apply Rmult_le_pos; [exact pc|left; now apply Rinv_0_lt_compat]).
    destruct (fdiv_S c s fc ltac:(lra) ltac:(unfold HUGE; lra)) as [E1 F1].
    pose proof (rnd_uu (B2R c / B2R s) 3000 ltac:(lra) ltac:(lra)) as R1. rewrite <- E1 in R1. unfold uu in R1.
    split; [split; [exact F1|lra]|]. rewrite E1. apply rnd_ge_0. exact P0.
Qed.

Lemma inv_t_near (c j kk : f64) J w t0 : frel j (100 * J) (8 / 10 ^ 13) -> 0.0002 <= J <= 2 -> fin c -> 0 <= B2R c ->
  between kk 0.8 1 -> 0 <= w <= 2600 ->
  sqrt J * (B2R kk * w - 5 / 10 ^ 9) <= B2R c <= sqrt J * (B2R kk * w + 5 / 10 ^ 9) ->
  t0 - 4 / 10 ^ 8 <= pw w (B2R (fdiv (dec "1.0") (dec "0.9"))) <= t0 + 4 / 10 ^ 8 -> t0 <= 6000 ->
  near (inv_t c j kk) t0 (9.4 / 10 ^ 8) /\ 0 <= B2R (inv_t c j kk).
Proof using LA.
  intros Hj BJ fc pc [fk bk] bw hc ht bt.
  assert (kw : 0 <= B2R kk * w <= 2600) by (split; [apply Rmult_le_pos; lra|apply Rle_trans with (1 * 2600); [apply Rmult_le_compat; lra|lra]]).
  destruct (inv_alpha_near c j J (B2R kk * w) Hj BJ fc pc ltac:(lra) hc) as [[fa ba] pa].
  unfold inv_t. set (al := inv_alpha c j) in *. clearbody al. clear Hj BJ fc pc hc c j J.
  assert (Q : w - 9.8 / 10 ^ 9 <= B2R al / B2R kk <= w + 9.8 / 10 ^ 9).
  { split; [apply le_div|apply div_le]; lra. }
  assert (P0 : 0 <= B2R al / B2R kk) by (apply Rmult_le_pos; [exact pa|left; apply Rinv_0_lt_compat; lra]).
  destruct (fdiv_S al kk fa ltac:(lra) ltac:(unfold HUGE; lra)) as [E1 F1].
  pose proof (rnd_uu (B2R al / B2R kk) 3000 ltac:(lra) ltac:(lra)) as R1. rewrite <- E1 in R1. unfold uu in R1.
  assert (Pq : 0 <= B2R (fdiv al kk)) by (rewrite E1; apply rnd_ge_0; exact P0).
  set (q := fdiv al kk) in *. clearbody q. assert (Bq : w - 1 / 10 ^ 8 <= B2R q <= w + 1 / 10 ^ 8) by lra. clear E1 R1 Q P0.
  set (y := fdiv (dec "1.0") (dec "0.9")) in *.
  assert (BY : fin y /\ 1.11 <= B2R y <= 1.112) by (unfold y; fconst (fdiv (dec "1.0") (dec "0.9")); split; [assumption|rewrite V; lra]).
  clearbody y. destruct BY as [fy BY].
  assert (L : forall z, 0 < z <= 2601 -> Rpower z (B2R y - 1) <= 2.6).
  { intros z hz. destruct (Rle_or_lt z 1) as [l|l].
    - apply Rle_trans with (Rpower z 0); [apply rpow_exp_small; lra|rewrite Rpower_O by lra; lra].
    - apply (pow_hi_big _ _ _ 3 25); [lra|lra|lia|simpl; lra|]. apply Rle_trans with (2601 ^ 3); [apply pow_incr; lra|lra]. }
  assert (D : - (5.2 / 10 ^ 8) <= pw (B2R q) (B2R y) - pw w (B2R y) <= 5.2 / 10 ^ 8).
  { destruct (Rle_or_lt w (B2R q)) as [h|h].
    - pose proof (pw_lip w (B2R q) (B2R y) 2.6 ltac:(lra) h ltac:(lra) ltac:(intros; apply L; lra) ltac:(lra)). lra.
    - pose proof (pw_lip (B2R q) w (B2R y) 2.6 ltac:(lra) ltac:(lra) ltac:(lra) ltac:(intros; apply L; lra) ltac:(lra)). lra. }
  destruct (pow_any q y F1 fy Pq ltac:(lra) ltac:(lra)) as (FP & PP & EP). assert (W0 := pw_nonneg w (B2R y)).
  split; [split; [exact FP|lra]|exact PP].
Qed.

(** ** The eccentricity *)
Definition P0 (nc ncb : f64) : R := 50000 / 52 * B2R nc * B2R ncb.

Lemma inv_p1_rel (nc ncb hr : f64) : between nc 1 1 -> between ncb 1 1.04 -> fin hr -> 0 <= B2R hr <= 7 ->
  frel (inv_p1 nc ncb hr) (P0 nc ncb * (cos (B2R hr + 2) + 3.8)) (1 / 10 ^ 12).
Proof using LA.
  intros [fn bn] [fb bb] fh bh. unfold inv_p1. fconst (dec "2.0").
  destruct (fadd_S hr (dec "2.0") fh F ltac:(rewrite V; fsmall)) as [E1 F1]. rewrite V in E1.
  pose proof (rnd_near (B2R hr + 2) ltac:(lra)) as R1. pose proof (rnd_uu (B2R hr + 2) 10 ltac:(lra) ltac:(lra)) as R1'. rewrite <- E1 in R1'. unfold uu in R1'.
  set (x := fadd hr (dec "2.0")) in *. clearbody x. clear E1 R1.
  destruct (la_trig _ _ LA x F1 ltac:(lra)) as (_ & _ & fc & ec).
  pose proof (cos_lip (B2R x) (B2R hr + 2)) as LC. assert (Rabs (B2R x - (B2R hr + 2)) <= 2 / 10 ^ 15) by (apply Rabs_le; lra).
  set (c0 := cos (B2R hr + 2)) in *. assert (B0 : -1 <= c0 <= 1) by apply COS_bound.
  assert (NC : near (cosf x) c0 (1.1 / 10 ^ 13)).
  { split; [exact fc|]. apply Rabs_le_inv in ec. assert (LC' := Rabs_le_inv _ _ (Rle_trans _ _ _ LC H)). lra. }
  set (cx := cosf x) in *. clearbody cx c0. clear ec fc LC H.
  fconst (dec "3.8"). fconst (dec "0.25"). fconst (fdiv (dec "50000.0") (dec "13.0")).
  assert (N1 : near (dec "3.8") 3.8 (1 / 10 ^ 15)) by (split; [exact F0|rewrite V0; lra]).
  pose proof (near_add _ _ _ _ _ _ 5 NC N1 ltac:(lra) ltac:(lra) ltac:(lra) ltac:(lra) ltac:(lra)) as N2.
  pose proof (near_frel _ _ _ 2.8 N2 ltac:(lra) ltac:(unfold uu; lra)) as N3.
  assert (N4 : frel (fadd cx (dec "3.8")) (c0 + 3.8) (0.5 / 10 ^ 13)) by (apply frel_w with (1 := N3); unfold uu; lra). clear N2 N3.
  assert (N5 : frel (dec "0.25") 0.25 0) by (apply frel_const with (1 := F2) (2 := V1); split; lra).
  pose proof (frel_mul _ _ _ _ _ _ N5 N4 ltac:(lra) ltac:(lra) ltac:(lra)) as N6.
  assert (N7 : frel (fdiv (dec "50000.0") (dec "13.0")) (50000 / 13) (1 / 10 ^ 15)) by (apply frel_const with (1 := F3) (2 := V2); split; lra).
  pose proof (frel_mul _ _ _ _ _ _ N6 N7 ltac:(lra) ltac:(lra) ltac:(lra)) as N8.
  assert (EN : B2R nc = 1) by lra.
  pose proof (frel_mul _ _ _ _ _ _ N8 (frel_self nc fn ltac:(lra)) ltac:(lra) ltac:(lra) ltac:(rewrite EN; lra)) as N9.
  set (K := 0.25 * (c0 + 3.8) * (50000 / 13) * B2R nc) in *.
  assert (BK : 2692 <= K <= 4616) by (unfold K; rewrite EN; lra).
  assert (KB : 2692 <= K * B2R ncb <= 4801) by (split; [apply Rle_trans with (2692 * 1); [lra|]|apply Rle_trans with (4616 * 1.04); [|lra]]; apply Rmult_le_compat; lra).
  pose proof (frel_mul _ _ _ _ _ _ N9 (frel_self ncb fb ltac:(lra)) ltac:(lra) ltac:(lra) ltac:(lra)) as N10.
  replace (K * B2R ncb) with (P0 nc ncb * (c0 + 3.8)) in N10 by (unfold K, P0; lra).
  apply frel_w with (1 := N10). lra.
Qed.

Lemma p1_range nc ncb h : between nc 1 1 -> between ncb 1 1.04 -> 961 <= P0 nc ncb <= 1001 /\ 2690 <= P0 nc ncb * (cos h + 3.8) <= 4801.
Proof using.
  intros [fn bn] [fb bb]. assert (EN : B2R nc = 1) by lra. unfold P0. rewrite EN. assert (C := COS_bound h). split; [lra|].
  assert (Q : 961.5 <= 50000 / 52 * 1 * B2R ncb <= 1000.1) by lra. set (q := 50000 / 52 * 1 * B2R ncb) in *. clearbody q.
  split; [apply Rle_trans with (961.5 * 2.8); [lra|]|apply Rle_trans with (1000.1 * 4.8); [|lra]]; apply Rmult_le_compat; lra.
Qed.

(** ** The achromatic response *)
Lemma J_range X y : 0.00176 <= X <= 1.42 -> 1.3 <= y <= 1.33 -> 0.0002 <= Rpower X y <= 2.
Proof using.
  intros hX hy. split.
  - apply Rle_trans with (Rpower 0.00176 y); [|apply rpower_mono; lra].
    apply (pow_lo_small _ _ _ 4 3); [lra|lra|lia|simpl; lra|lra].
  - apply Rle_trans with (Rpower 1.42 y); [apply rpower_mono; lra|].
    apply (pow_hi_big _ _ _ 4 3); [lra|lra|lia|simpl; lra|lra].
Qed.

Lemma cz_inverse (c z : f64) : between c 0.689 0.691 -> between z 1.9 1.92 ->
  let y := fmul c z in let y' := fdiv (fdiv (dec "1.0") c) z in
  fin y /\ 1.3 <= B2R y <= 1.33 /\ fin y' /\ 0.75 <= B2R y' <= 0.77 /\ - (3 / 10 ^ 15) <= B2R y * B2R y' - 1 <= 3 / 10 ^ 15.
Proof using.
  intros [fc bc] [fz bz] y y'.
  assert (P : 1.309 <= B2R c * B2R z <= 1.327) by (split; [apply Rle_trans with (0.689 * 1.9); [lra|]|apply Rle_trans with (0.691 * 1.92); [|lra]]; apply Rmult_le_compat; lra).
  pose proof (frel_mul _ _ _ _ _ _ (frel_self c fc ltac:(lra)) (frel_self z fz ltac:(lra)) ltac:(lra) ltac:(lra) ltac:(lra)) as N1.
  fconst (dec "1.0"). assert (N0 : frel (dec "1.0") 1 0) by (apply frel_const with (1 := F) (2 := V); split; lra).
  assert (I1 : 1.44 <= 1 / B2R c <= 1.46) by (split; [apply le_div|apply div_le]; lra).
  pose proof (frel_div _ _ _ _ _ _ N0 (frel_self c fc ltac:(lra)) ltac:(lra) ltac:(lra) ltac:(lra)) as N2.
  assert (I2 : 0.75 <= 1 / B2R c / B2R z <= 0.7685) by (split; [apply le_div|apply div_le]; lra).
  pose proof (frel_div _ _ _ _ _ _ N2 (frel_self z fz ltac:(lra)) ltac:(lra) ltac:(lra) ltac:(lra)) as N3.
  assert (I3 : 0.7535 <= 1 / B2R c / B2R z).
  { replace (1 / B2R c / B2R z) with (1 / (B2R c * B2R z)) by (field; lra). apply le_div; lra. }
  assert (E : (B2R c * B2R z) * (1 / B2R c / B2R z) = 1) by (field; lra).
  fold y in N1. fold y' in N3. destruct N1 as [f1 h1]. destruct N3 as [f3 h3].
  pose proof (rel_mul _ _ _ _ _ _ h1 h3 ltac:(lra) ltac:(lra)) as [_ M]. rewrite E in M.
  destruct h1 as [_ h1]. destruct h3 as [_ h3]. repeat split; try assumption; lra.
Qed.

Lemma inv_p2_near (aw nbb c z j : f64) p0 : between aw 25 34 -> between nbb 1 1.04 -> between c 0.689 0.691 -> between z 1.9 1.92 ->
  0.06 <= p0 <= 34 ->
  frel j (100 * Rpower (p0 * B2R nbb / B2R aw) (B2R (fmul c z))) (8 / 10 ^ 13) ->
  near (inv_p2 aw nbb c z j) p0 (2.5 / 10 ^ 10).
Proof using LA.
  intros [fa ba] [fn bn] hc hz bp hj. destruct (cz_inverse c z hc hz) as (fy & By & fy' & By' & K). unfold inv_p2.
  set (y := fmul c z) in *. set (y' := fdiv (fdiv (dec "1.0") c) z) in *. clearbody y y'. clear hc hz c z.
  assert (BX : 0.00176 <= p0 * B2R nbb / B2R aw <= 1.4144).
  { assert (0.06 <= p0 * B2R nbb <= 35.36) by (split; [apply Rle_trans with (0.06 * 1); [lra|]|apply Rle_trans with (34 * 1.04); [|lra]]; apply Rmult_le_compat; lra).
    split; [apply le_div|apply div_le]; lra. }
  assert (EX : B2R aw * (p0 * B2R nbb / B2R aw) / B2R nbb = p0) by (field; lra).
  set (X := p0 * B2R nbb / B2R aw) in *. clearbody X.
  assert (BJ := J_range X (B2R y) ltac:(lra) By). set (J := Rpower X (B2R y)) in *.
  fconst (dec "100.0"). assert (N0 : frel (dec "100.0") 100 0) by (apply frel_const with (1 := F) (2 := V); split; lra).
  pose proof (frel_div _ _ _ _ _ _ hj N0 ltac:(lra) ltac:(lra) ltac:(lra)) as N1. replace (100 * J / 100) with J in N1 by lra.
  assert (EJ : Rpower J (B2R y') = Rpower X (B2R y * B2R y')) by (unfold J; apply Rpower_mult).
  assert (RX : X * (1 - 1 / 10 ^ 13) <= Rpower J (B2R y') <= X * (1 + 2 * (1 / 10 ^ 13))).
  { rewrite EJ. assert (L1 := ln_le_sub X ltac:(lra)). assert (L2 := ln_lower X ltac:(lra)).
    pose proof (mul_bnd (B2R y * B2R y' - 1) (ln X) (3 / 10 ^ 15) 20 ltac:(lra) ltac:(lra)).
    assert (Q := rpow_near X X (B2R y * B2R y') 1 (1 / 10 ^ 13) ltac:(lra) ltac:(lra)). rewrite Rpower_1 in Q by lra. apply Q; lra. }
  assert (Rp : 0.001 <= Rpower J (B2R y') <= 2) by lra.
  pose proof (frel_pow LA _ y' _ _ N1 fy' ltac:(lra) ltac:(lra) ltac:(lra)) as N2. set (q := powf (fdiv j (dec "100.0")) y') in *. clearbody q.
  assert (N3 : frel q X (6.2 / 10 ^ 12)).
  { destruct N2 as [f [_ h]]. split; [exact f|]. split; [lra|].
    assert (YE : 4.4 * B2R y' * (1.4 * (8 / 10 ^ 13 + 0) + 3 / 10 ^ 16) + 1.2 / 10 ^ 13 <= 4 / 10 ^ 12) by lra.
    set (e := 4.4 * B2R y' * (1.4 * (8 / 10 ^ 13 + 0) + 3 / 10 ^ 16) + 1.2 / 10 ^ 13) in *.
    set (Z := Rpower J (B2R y')) in *. clearbody e Z.
    assert (Z * e <= Z * (4 / 10 ^ 12)) by (apply Rmult_le_compat_l; lra). lra. }
  assert (AX : 0.044 <= B2R aw * X <= 50) by (split; [apply Rle_trans with (25 * 0.00176); [lra|]|apply Rle_trans with (34 * 1.4144); [|lra]]; apply Rmult_le_compat; lra).
  pose proof (frel_mul _ _ _ _ _ _ (frel_self aw fa ltac:(lra)) N3 ltac:(lra) ltac:(lra) ltac:(lra)) as N4.
  assert (AX' : B2R aw * X <= 35.4). { assert (B2R aw * X = p0 * B2R nbb) as -> by (rewrite <- EX; field; lra). apply Rle_trans with (34 * 1.04); [apply Rmult_le_compat; lra|lra]. }
  pose proof (frel_near _ _ _ 35.4 N4 AX' ltac:(lra)) as N5.
  pose proof (near_div _ nbb _ _ _ _ 34 1 N5 (near_self nbb fn) ltac:(lra) ltac:(lra) ltac:(lra) ltac:(rewrite EX; lra) ltac:(lra) ltac:(lra) ltac:(lra) ltac:(lra)) as N6.
  rewrite EX in N6. apply near_weak with (1 := N6). unfold uu. lra.
Qed.
End Acc.
