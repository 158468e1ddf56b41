(** * The five rounds of the iteration on the lightness.  Proof file. *)
From Coq Require Import ZArith Bool Reals Lra Lia Psatz String List.
From Flocq Require Import Core Relative IEEE754.BinarySingleNaN.
From Verif Require Import F64 Spec SpecCam SpecTone FloatFacts FloatMono MathUtils ColorUtils ViewingConditions Cam16 HctSolver PfMath PfLab PfTones PfNear PfRel PfLimit PfCamC PfCamTrip PfLabTrip PfToneReal PfToneElast PfToneStep PfToneFin PfToneLin PfToneRound PfToneIter PfToneNext.
Open Scope string_scope.
Open Scope R_scope.

Lemma wc_ln x y d : 0 < x -> 0 <= d <= 0.1 -> wc x y d -> 0 < y /\ - (2 * d) <= ln y - ln x <= 2 * d.
Proof.
  intros hx hd [a b]. assert (0 < x * (1 - d)) by (apply Rmult_lt_0_compat; lra). assert (hy : 0 < y) by lra. split; [exact hy|].
  assert (E : ln y - ln x = ln (y / x)) by (unfold Rdiv; rewrite ln_mult, ln_Rinv by (try apply Rinv_0_lt_compat; lra); ring). rewrite E.
  set (r := y / x). assert (hr : 1 - d <= r <= 1 + d) by (unfold r; split; [apply le_div; lra|apply div_le; lra]).
  pose proof (ln_le_sub1 r ltac:(lra)) as U. pose proof (ln_le_sub1 (/ r) ltac:(apply Rinv_0_lt_compat; lra)) as W. rewrite ln_Rinv in W by lra.
  assert (/ r <= 1 + 2 * d).
  { apply Rmult_le_reg_l with r; [lra|]. rewrite Rinv_r by lra. assert ((1 - d) * (1 + 2 * d) <= r * (1 + 2 * d)) by (apply Rmult_le_compat_r; lra).
    assert (0 <= d * (0.1 - d)) by (apply Rmult_le_pos; lra). lra. }
  lra.
Qed.


Lemma half_up e M : e <= M -> 0 <= M <= 0.77 -> (1 + exp e) / 2 <= 2 / (2 - M).
Proof.
  intros h hM. apply Rle_trans with ((1 + exp M) / 2); [pose proof (exp_le e M h); lra|].
  pose proof (logistic_hi M ltac:(lra)) as L. apply le_div; [lra|]. lra.
Qed.

(** ** The update in floats *)
Definition upd (f y j : f64) : f64 := fsub j (fdiv (fmul (fsub f y) j) (fmul (dec "2.0") f)).

Lemma upd_near (f y j : f64) : fin f -> fin y -> fin j -> 1 / 10 ^ 6 <= B2R f <= 1000 -> 1 / 10 ^ 6 <= B2R y <= 110 -> 0.002 <= B2R j <= 152 ->
  fin (upd f y j) /\ wc (B2R j * ((1 + B2R y / B2R f) / 2)) (B2R (upd f y j)) (1 / 10 ^ 12).
Proof.
  intros ff fy fj bf by_ bj. unfold upd. fconst (dec "2.0"). set (X := B2R j * ((1 + B2R y / B2R f) / 2)).
  destruct (fsub_S f y ff fy ltac:(fsmall)) as [E1 G1]. pose proof (rnd_uu (B2R f - B2R y) (B2R f + B2R y) ltac:(lra) ltac:(lra)) as B1. rewrite <- E1 in B1. unfold uu in B1.
  set (d := fsub f y) in *. clearbody d. set (s := B2R f + B2R y) in *. assert (hs : 2 / 10 ^ 6 <= s <= 1110) by (unfold s; lra).
  assert (T := mul_err (B2R d) (B2R j) (B2R f - B2R y) (B2R j) (s * (2 / 10 ^ 16)) 0 s (B2R j) ltac:(lra) ltac:(lra) ltac:(unfold s; lra) ltac:(lra) ltac:(lra) ltac:(lra)).
  assert (U := mul_bnd (B2R f - B2R y) (B2R j) s (B2R j) ltac:(unfold s; lra) ltac:(lra)).
  assert (SJ : 2 / 10 ^ 6 * 0.002 <= s * B2R j) by (apply Rmult_le_compat; lra). assert (SJ2 : s * B2R j <= 1110 * 152) by (apply Rmult_le_compat; lra).
  destruct (fmul_S d j G1 fj ltac:(fsmall)) as [E2 G2]. pose proof (rnd_uu (B2R d * B2R j) (1.1 * (s * B2R j)) ltac:(lra) ltac:(lra)) as B2. rewrite <- E2 in B2. unfold uu in B2.
  set (n := fmul d j) in *. clearbody n.
  destruct (fmul_S (dec "2.0") f F ff ltac:(rewrite V; fsmall)) as [E3 G3]. pose proof (rnd_uu (B2R (dec "2.0") * B2R f) (2 * B2R f) ltac:(rewrite V; lra) ltac:(lra)) as B3. rewrite <- E3, V in B3. unfold uu in B3.
  set (q := fmul (dec "2.0") f) in *. clearbody q.
  assert (XE : X = s * B2R j / (2 * B2R f)) by (unfold X, s; field; lra). assert (X0 : 0 < X) by (rewrite XE; apply Rdiv_lt_0_compat; lra).
  assert (XF : X * (2 * B2R f) = s * B2R j) by (rewrite XE; field; lra).
  assert (XL : 0.001 <= X). { unfold X. assert (0 <= B2R y / B2R f) by (apply le_div; lra). apply Rle_trans with (0.002 * (1 / 2)); [lra|apply Rmult_le_compat; lra]. }
  assert (XH : X <= 10 ^ 11). { rewrite XE. apply div_le; lra. }
  set (t := (B2R f - B2R y) * B2R j / (2 * B2R f)).
  assert (TE : t * (2 * B2R f) = (B2R f - B2R y) * B2R j) by (unfold t; field; lra).
  assert (tX : - X <= t <= X).
  { split; apply Rmult_le_reg_r with (2 * B2R f); try lra. }
  set (w := B2R n / B2R q). assert (WE : w * B2R q = B2R n) by (unfold w; field; lra).
  assert (W : t - X * (2 / 10 ^ 15) <= w <= t + X * (2 / 10 ^ 15)).
  { assert (K : forall z, - (1.5 * X) <= z <= 1.5 * X -> z * (2 * B2R f) - s * B2R j * (5 / 10 ^ 16) <= z * B2R q <= z * (2 * B2R f) + s * B2R j * (5 / 10 ^ 16)).
    { intros z hz. assert (Y := mul_bnd z (B2R q - 2 * B2R f) (1.5 * X) (2 * B2R f * (2 / 10 ^ 16)) hz ltac:(lra)).
      replace (1.5 * X * (2 * B2R f * (2 / 10 ^ 16))) with (1.5 * (X * (2 * B2R f)) * (2 / 10 ^ 16)) in Y by ring. rewrite XF in Y. lra. }
    pose proof (K (t - X * (2 / 10 ^ 15)) ltac:(lra)) as K1. pose proof (K (t + X * (2 / 10 ^ 15)) ltac:(lra)) as K2.
    replace ((t - X * (2 / 10 ^ 15)) * (2 * B2R f)) with (t * (2 * B2R f) - X * (2 * B2R f) * (2 / 10 ^ 15)) in K1 by ring.
    replace ((t + X * (2 / 10 ^ 15)) * (2 * B2R f)) with (t * (2 * B2R f) + X * (2 * B2R f) * (2 / 10 ^ 15)) in K2 by ring. rewrite XF, TE in K1, K2.
    split; apply Rmult_le_reg_r with (B2R q); try lra; rewrite WE; lra. }
  destruct (fdiv_S n q G2 ltac:(lra) ltac:(fold w; fsmall)) as [E4 G4]. fold w in E4. pose proof (rnd_uu w (1.1 * X) ltac:(lra) ltac:(lra)) as B4. rewrite <- E4 in B4. unfold uu in B4.
  set (v := fdiv n q) in *. clearbody v.
  assert (JT : B2R j - t = X) by (unfold t, X; field; lra).
  destruct (fsub_S j v fj G4 ltac:(fsmall)) as [E5 G5]. split; [exact G5|].
  pose proof (rnd_uu (B2R j - B2R v) (1.1 * X) ltac:(lra) ltac:(lra)) as B5. rewrite <- E5 in B5. unfold uu in B5. unfold wc. lra.
Qed.

(** A luminance that is not finite makes the next lightness not a number. *)
Lemma upd_nan (f y j : f64) : is_finite f = false -> fle f (dec "0.0") = false -> fin y -> fin j -> 0 < B2R j -> is_nan (upd f y j) = true.
Proof.
  intros nf hf fy fj pj. destruct j as [s|s| |s m e p]; try discriminate fj; [cbn in pj; lra|].
  destruct s; [exfalso; cbn in pj; pose proof (F2R_lt_0 radix2 (Float radix2 (Zneg m) e) ltac:(reflexivity)); unfold cond_Zopp in pj; cbn in *; lra|].
  destruct f as [s|s| |s m' e' p']; try discriminate nf.
  - destruct s; [vm_compute in hf; discriminate hf|]. unfold upd.
    assert (A : fsub (B754_infinity false) y = B754_infinity false) by (destruct y as [s|s| |s m1 e1 p1]; try discriminate fy; reflexivity). rewrite A.
    assert (B : fmul (B754_infinity false) (B754_finite false m e p) = B754_infinity false) by reflexivity. rewrite B.
    assert (C : fdiv (B754_infinity false) (fmul (dec "2.0") (B754_infinity false)) = B754_nan) by (apply B2SF_inj; vm_compute; reflexivity). rewrite C. reflexivity.
  - unfold upd. assert (A : fsub B754_nan y = B754_nan) by reflexivity. rewrite A. reflexivity.
Qed.
Lemma far_nan (f y : f64) : is_finite f = false -> fin y -> flt (fabs (fsub f y)) (dec "0.002") = false.
Proof.
  intros nf fy. destruct f as [s|s| |s m' e' p']; try discriminate nf.
  - assert (A : fsub (B754_infinity s) y = B754_infinity s) by (destruct y as [s1|s1| |s1 m1 e1 p1]; try discriminate fy; destruct s; reflexivity). rewrite A. vm_compute. reflexivity.
  - vm_compute. reflexivity.
Qed.

Section Loop.
Context {lm : Libm} (LA : libm_accurate (1 / 10 ^ 13) lm) (PS : pow_special lm).
Variables (aw nbb ez tic p1 hs hc chroma : f64).
Hypothesis EN : env aw nbb ez tic p1 hs hc chroma.
Notation jlin := (jlin aw nbb ez tic p1 hs hc chroma).
Notation goodJ := (goodJ aw nbb ez tic p1 hs hc chroma).
Notation FJ := (FJ aw nbb ez tic p1 hs hc chroma).

Lemma row_z (a b c ma mb mc : f64) : zero a -> zero b -> zero c -> fin ma -> fin mb -> fin mc -> zero (fadd (fadd (fmul a ma) (fmul b mb)) (fmul c mc)).
Proof using.
  intros za zb zc fa fb fc. apply zero_add; [apply zero_add|]; rewrite fmul_comm; apply zero_mul_r; assumption.
Qed.

(** A lightness that is not a number makes the round give up. *)
Lemma nan_round (j : f64) : is_nan j = true -> fle (fnj_of (jlin j)) (dec "0.0") = true.
Proof using LA PS EN.
  intros hj. assert (EJ : j = B754_nan) by (destruct j; try discriminate hj; reflexivity). subst j.
  assert (A : jal chroma B754_nan = B754_nan).
  { unfold jal. fconst (dec "0.0"). destruct (feq chroma (dec "0.0")) eqn:Ec; [exfalso; apply (feq_fin _ _ (v_ch _ _ _ _ _ _ _ _ EN) F) in Ec; pose proof (v_chr _ _ _ _ _ _ _ _ EN); lra|].
    replace (feq B754_nan (dec "0.0")) with false by reflexivity. cbn [orb]. destruct chroma; reflexivity. }
  assert (T : is_finite (jt tic chroma B754_nan) = false).
  { unfold jt. rewrite A. apply (PS (fmul B754_nan tic) e9f); [reflexivity|discriminate|exact e9_fin|]. pose proof e9_range. fold e9. lra. }
  unfold PfToneIter.jlin. set (t := jt tic chroma B754_nan) in *. set (p := jp aw nbb ez B754_nan). clearbody t p. unfold flin. cbv zeta.
  assert (G : is_finite (fgam p p1 t hc hs) = false).
  { destruct (is_finite (fgam p p1 t hc hs)) eqn:g; [exfalso|reflexivity]. unfold fgam in g. apply fdiv_back in g. destruct (fmul_back _ _ g) as (_ & g' & _). congruence. }
  set (gm := fgam p p1 t hc hs) in *. clearbody gm. set (a := fmul gm hc). set (b := fmul gm hs).
  assert (NA : is_finite a = false) by (destruct (is_finite a) eqn:g; [exfalso; destruct (fmul_back _ _ g) as (g' & _); congruence|reflexivity]). clearbody a b.
  fconst (dec "451.0"). fconst (dec "288.0"). fconst (dec "891.0"). fconst (dec "261.0"). fconst (dec "220.0"). fconst (dec "6300.0").
  assert (N1 : is_finite (fx1 p a b) = false) by (destruct (is_finite (fx1 p a b)) eqn:g; [exfalso; destruct (comb_add p a b _ _ _ _ 1 V V0 ltac:(lra) ltac:(lra) g) as [[g' _] _]; congruence|reflexivity]).
  assert (N2 : is_finite (fx2 p a b) = false) by (destruct (is_finite (fx2 p a b)) eqn:g; [exfalso; destruct (comb_sub p a b _ _ _ _ 1 V1 V2 ltac:(lra) ltac:(lra) g) as [[g' _] _]; congruence|reflexivity]).
  assert (N3 : is_finite (fx3 p a b) = false) by (destruct (is_finite (fx3 p a b)) eqn:g; [exfalso; destruct (comb_sub p a b _ _ _ _ 1 V3 V4 ltac:(lra) ltac:(lra) g) as [[g' _] _]; congruence|reflexivity]).
  pose proof (inv_nonfin LA _ N1) as Z1. pose proof (inv_nonfin LA _ N2) as Z2. pose proof (inv_nonfin LA _ N3) as Z3.
  set (c1 := inverse_chromatic_adaptation (fx1 p a b)) in *. set (c2 := inverse_chromatic_adaptation (fx2 p a b)) in *. set (c3 := inverse_chromatic_adaptation (fx3 p a b)) in *. clearbody c1 c2 c3.
  rewrite LS_rows. clear F F0 F1 F2 F3 F4 V V0 V1 V2 V3 V4. fconst (dec "1373.2198709594231"). fconst (dec "-1100.4251190754821"). fconst (dec "-7.278681089101213").
  fconst (dec "-271.815969077903"). fconst (dec "559.6580465940733"). fconst (dec "-32.46047482791194").
  fconst (dec "1.9622899599665666"). fconst (dec "-57.173814538844006"). fconst (dec "308.7233197812385").
  pose proof (row_z c1 c2 c3 _ _ _ Z1 Z2 Z3 F F0 F1) as Q1. pose proof (row_z c1 c2 c3 _ _ _ Z1 Z2 Z3 F2 F3 F4) as Q2. pose proof (row_z c1 c2 c3 _ _ _ Z1 Z2 Z3 F5 F6 F7) as Q3.
  match goal with |- context [fnj_of (?x, ?y, ?z)] => set (r1 := x) in *; set (r2 := y) in *; set (r3 := z) in * end. clearbody r1 r2 r3. clear F F0 F1 F2 F3 F4 F5 F6 F7 V V0 V1 V2 V3 V4 V5 V6 V7.
  fconst (dec "0.2126"). fconst (dec "0.7152"). fconst (dec "0.0722"). fconst (dec "0.0").
  pose proof (row_z r1 r2 r3 _ _ _ Q1 Q2 Q3 F F0 F1) as [f z].
  unfold fnj_of, v0, v1, v2, Y_FROM_LINRGB. cbn [fst snd]. rewrite (fmul_comm (dec "0.2126")), (fmul_comm (dec "0.7152")), (fmul_comm (dec "0.0722")).
  apply fle_fin; [exact f|exact F2|]. rewrite z, V2. lra.
Qed.

(** ** One step in logarithms *)
Lemma step_e J J' f f' y m M m' M' : goodJ J -> goodJ J' -> 0.002 <= J <= 152 -> 0.002 <= J' <= 152 -> 0 < y -> wc (FJ J) f (3 / 10 ^ 8) -> wc (FJ J') f' (3 / 10 ^ 8) ->
  wc (J * ((1 + y / f) / 2)) J' (1 / 10 ^ 12) -> - m <= ln (y / f) <= M -> 0 <= m <= 4 -> 0 <= M <= 0.77 ->
  0.26 * m + 0.185 * m * m + 1 / 10 ^ 6 <= m' -> 0.4 * M + 0.35 * M * M + 1 / 10 ^ 6 <= m' -> 0.4 * m + 1 / 10 ^ 6 <= M' -> 0.26 * M + 1 / 10 ^ 6 <= M' ->
  - m' <= ln (y / f') <= M'.
Proof using EN.
  intros gJ gJ' hJ hJ' hy wf wf' wJ he hm hM k1 k2 k3 k4.
  destruct (elastJ _ _ _ _ _ _ _ _ EN J J gJ ltac:(lra) ltac:(lra) ltac:(lra) ltac:(replace (J / J) with 1 by (field; lra); rewrite ln_1; lra)) as (FP & _).
  destruct (elastJ _ _ _ _ _ _ _ _ EN J' J' gJ' ltac:(lra) ltac:(lra) ltac:(lra) ltac:(replace (J' / J') with 1 by (field; lra); rewrite ln_1; lra)) as (FP' & _).
  destruct (wc_ln _ _ (3 / 10 ^ 8) FP ltac:(lra) wf) as [f0 lf]. destruct (wc_ln _ _ (3 / 10 ^ 8) FP' ltac:(lra) wf') as [f0' lf'].
  set (e := ln (y / f)) in *. assert (EE : exp e = y / f) by (unfold e; apply exp_ln; apply Rdiv_lt_0_compat; assumption).
  assert (L1 : e = ln y - ln f) by (unfold e, Rdiv; rewrite ln_mult, ln_Rinv by (try apply Rinv_0_lt_compat; assumption); ring).
  assert (L2 : ln (y / f') = ln y - ln f') by (unfold Rdiv; rewrite ln_mult, ln_Rinv by (try apply Rinv_0_lt_compat; assumption); ring).
  rewrite <- EE in wJ. set (H := (1 + exp e) / 2) in *. pose proof (exp_pos e) as pe. assert (H0 : 0.5 < H) by (unfold H; lra).
  assert (HU : H <= 1.63). { pose proof (half_up e M ltac:(lra) hM) as U. fold H in U. apply Rle_trans with (1 := U). apply div_le; lra. }
  assert (JH : 0 < J * H) by (apply Rmult_lt_0_compat; lra). destruct (wc_ln _ _ (1 / 10 ^ 12) JH ltac:(lra) wJ) as [_ lj].
  rewrite ln_mult in lj by lra. set (L := ln (J' / J)). assert (LE : L = ln J' - ln J) by (unfold L, Rdiv; rewrite ln_mult, ln_Rinv by (try apply Rinv_0_lt_compat; lra); ring).
  assert (RJ : 0.4999 * J <= J' <= 1.631 * J).
  { unfold wc in wJ. assert (0.5 * J <= J * H <= 1.63 * J) by (split; [rewrite Rmult_comm; apply Rmult_le_compat_l|rewrite (Rmult_comm 1.63); apply Rmult_le_compat_l]; lra). lra. }
  assert (BE := v_E _ _ _ _ _ _ _ _ EN).
  assert (X : exists Ef, 1.48 <= Ef <= 2.8 /\ ln (FJ J') - ln (FJ J) = Ef * L).
  { destruct (Rle_or_lt J J') as [c|c].
    - assert (LU : L <= 0.631). { unfold L. pose proof (ln_le_sub1 (J' / J) ltac:(apply Rdiv_lt_0_compat; lra)). assert (J' / J <= 1.631) by (apply div_le; lra). lra. }
      assert (L0 : 0 <= L) by (unfold L; rewrite <- ln_1; apply ln_le'; [lra|apply le_div; lra]).
      destruct (elastJ _ _ _ _ _ _ _ _ EN J J' gJ ltac:(lra) c ltac:(lra) ltac:(fold L; apply Rle_trans with (0.7592 * 0.631); [apply Rmult_le_compat; lra|lra])) as (_ & _ & B). fold L in B.
      destruct (Req_dec L 0) as [z|z]; [exists 2; rewrite z in B |- *; split; lra|].
      exists ((ln (FJ J') - ln (FJ J)) / L). split; [split; [apply le_div; lra|apply div_le; lra]|field; exact z].
    - assert (LE' : ln (J / J') = - L) by (unfold Rdiv; rewrite ln_mult, ln_Rinv by (try apply Rinv_0_lt_compat; lra); lra).
      assert (LU : - L <= 0.76).
      { rewrite <- LE'. apply Rle_trans with (ln (1.19 * 1.19 * (1.19 * 1.19))).
        - apply ln_le'; [apply Rdiv_lt_0_compat; lra|apply div_le; lra].
        - rewrite !ln_mult by lra. pose proof (ln_le_sub1 1.19 ltac:(lra)). lra. }
      assert (L0 : 0 <= - L) by (rewrite <- LE', <- ln_1; apply ln_le'; [lra|apply le_div; lra]).
      destruct (elastJ _ _ _ _ _ _ _ _ EN J' J gJ' ltac:(lra) ltac:(lra) ltac:(lra) ltac:(rewrite LE'; apply Rle_trans with (0.7592 * 0.76); [apply Rmult_le_compat; lra|lra])) as (_ & _ & B). rewrite LE' in B.
      destruct (Req_dec L 0) as [z|z]; [exists 2; rewrite z in B |- *; split; lra|].
      exists ((ln (FJ J) - ln (FJ J')) / - L). split; [split; [apply le_div; lra|apply div_le; lra]|field; exact z]. }
  destruct X as (Ef & bE & EF).
  set (eta := - (Ef * (L - ln H)) - ((ln f' - ln (FJ J')) - (ln f - ln (FJ J)))).
  assert (Be : - (1 / 10 ^ 6) <= eta <= 1 / 10 ^ 6).
  { unfold eta. pose proof (mul_bnd Ef (L - ln H) 2.8 (3 / 10 ^ 12) ltac:(lra) ltac:(lra)). lra. }
  pose proof (newton_step e m M Ef eta he hm ltac:(lra) bE Be) as N. cbv zeta in N. fold H in N.
  assert (EQ : ln (y / f') = e - Ef * ln H + eta) by (unfold eta; rewrite L2, L1; lra). rewrite EQ.
  pose proof (Rmax_lub _ _ (m' - 1 / 10 ^ 6) (ltac:(lra) : 0.26 * m + 0.185 * m * m <= m' - 1 / 10 ^ 6) (ltac:(lra) : 0.4 * M + 0.35 * M * M <= m' - 1 / 10 ^ 6)).
  pose proof (Rmax_lub _ _ (M' - 1 / 10 ^ 6) (ltac:(lra) : 0.4 * m <= M' - 1 / 10 ^ 6) (ltac:(lra) : 0.26 * M <= M' - 1 / 10 ^ 6)). lra.
Qed.

Lemma f_range y f m M : - m <= ln (y / f) <= M -> m <= 2 -> M <= 0.77 -> 1 / 10 ^ 5 <= y <= 101 -> 0 < f -> 1 / 10 ^ 6 <= f <= 1000.
Proof using.
  intros h hm hM hy hf. assert (yf : 0 < y / f) by (apply Rdiv_lt_0_compat; lra). assert (E : y = exp (ln (y / f)) * f) by (rewrite exp_ln by exact yf; field; lra).
  assert (L : 0.11 <= exp (ln (y / f))).
  { apply Rle_trans with (exp (- 2)); [|apply exp_le; lra]. replace (- 2) with (- (1 + 1)) by lra. rewrite exp_Ropp, exp_plus. pose proof exp_le_3. pose proof (exp_pos 1).
    apply Rle_trans with (/ 9); [lra|]. apply Rinv_le_contravar; [apply Rmult_lt_0_compat; lra|]. apply Rle_trans with (3 * 3); [apply Rmult_le_compat; lra|lra]. }
  assert (U : exp (ln (y / f)) <= 3) by (apply Rle_trans with (exp 1); [apply exp_le; lra|apply exp_le_3]).
  set (x := exp (ln (y / f))) in *. split.
  - apply Rmult_le_reg_l with 3; [lra|]. apply Rle_trans with y; [lra|]. rewrite E. apply Rmult_le_compat_r; lra.
  - apply Rmult_le_reg_l with 0.11; [lra|]. apply Rle_trans with y; [rewrite E; apply Rmult_le_compat_r; lra|lra].
Qed.
End Loop.

Lemma ifs (b0 b1 b2 bf bx g0 g1 g2 : bool) (r n c : Z) :
  (if (b0 || b1 || b2)%bool then 0%Z else if bf then 0%Z else if bx then if (g0 || g1 || g2)%bool then 0%Z else r else n) = c -> c <> 0%Z ->
  b0 = false /\ b1 = false /\ b2 = false /\ bf = false /\ ((bx = true /\ g0 = false /\ g1 = false /\ g2 = false /\ c = r) \/ (bx = false /\ n = c)).
Proof.
  intros H nc. destruct b0, b1, b2, bf; cbn [orb] in H; try (exfalso; apply nc; exact (eq_sym H)).
  repeat (split; [reflexivity|]). destruct bx; [left|right; split; [reflexivity|exact H]].
  destruct g0, g1, g2; cbn [orb] in H; try (exfalso; apply nc; exact (eq_sym H)). repeat (split; [reflexivity|]). exact (eq_sym H).
Qed.

Section Rounds.
Context {lm : Libm} (LA : libm_accurate (1 / 10 ^ 13) lm) (PS : pow_special lm).
Variables (vc : viewing_conditions) (tic p1 hs hc chroma y : f64).
Definition ezf : f64 := fdiv (fdiv (dec "1.0") (vc_c vc)) (vc_z vc).
Hypothesis EN : env (vc_aw vc) (vc_nbb vc) ezf tic p1 hs hc chroma.
Hypothesis (fy : fin y) (hy : 1 / 10 ^ 5 <= B2R y <= 101).
Definition lj (j : f64) : vec3 := jlin (vc_aw vc) (vc_nbb vc) ezf tic p1 hs hc chroma j.
Notation goodJ := (goodJ (vc_aw vc) (vc_nbb vc) ezf tic p1 hs hc chroma).

Lemma lin_eq j : j_linrgb vc tic p1 hs hc chroma j = lj j.
Proof using. unfold j_linrgb, lj, jlin, flin, jp, jal, jt, fgam, fden, fx1, fx2, fx3, e9f, ezf, LS. cbv zeta. reflexivity. Qed.
Lemma loop_unfold k j : j_loop (S k) vc tic p1 hs hc chroma y j =
  (let lin := lj j in
   if (flt (v0 lin) (dec "0.0") || flt (v1 lin) (dec "0.0") || flt (v2 lin) (dec "0.0"))%bool then 0%Z else
   if fle (fnj_of lin) (dec "0.0") then 0%Z else
   if ((match k with O => true | _ => false end) || flt (fabs (fsub (fnj_of lin) y)) (dec "0.002"))%bool then
     if (fgt (v0 lin) (dec "100.01") || fgt (v1 lin) (dec "100.01") || fgt (v2 lin) (dec "100.01"))%bool then 0%Z else argb_from_linrgb lin
   else j_loop k vc tic p1 hs hc chroma y (upd (fnj_of lin) y j)).
Proof using. cbn [j_loop]. rewrite lin_eq. unfold fnj_of, upd, fgt. cbv zeta. reflexivity. Qed.

Definition out (c : Z) (m M : R) : Prop := exists lin, (exists j, lin = lj j /\ fin j /\ 0.002 <= B2R j <= 152) /\ round_ok lin /\ c = argb_from_linrgb lin /\
  fgt (v0 lin) (dec "100.01") = false /\ fgt (v1 lin) (dec "100.01") = false /\ fgt (v2 lin) (dec "100.01") = false /\
  (Rabs (B2R (fnj_of lin) - B2R y) <= 0.0021 \/ - m <= ln (B2R y / B2R (fnj_of lin)) <= M).

Definition eb (m M : R) (j : f64) : Prop := round_ok (lj j) -> - m <= ln (B2R y / B2R (fnj_of (lj j))) <= M.

Lemma nan_loop k j : is_nan j = true -> j_loop k vc tic p1 hs hc chroma y j = 0%Z.
Proof using LA PS EN.
  intros h. destruct k as [|k]; [reflexivity|]. rewrite loop_unfold. cbv zeta. pose proof (nan_round LA PS _ _ _ _ _ _ _ _ EN j h) as N. fold (lj j) in N. rewrite N.
  destruct (flt (v0 (lj j)) (dec "0.0") || flt (v1 (lj j)) (dec "0.0") || flt (v2 (lj j)) (dec "0.0"))%bool; reflexivity.
Qed.

Lemma loop_step k c m M j : j_loop (S k) vc tic p1 hs hc chroma y j = c -> c <> 0%Z -> fin j -> 0.002 <= B2R j <= 152 -> eb m M j -> fin (fnj_of (lj j)) \/ k <> O ->
  0 <= m <= 2 -> 0 <= M <= 0.77 ->
  (out c m M /\ k = O) \/ (forall m' M', out c m' M') \/
  (k <> O /\ exists j', j_loop k vc tic p1 hs hc chroma y j' = c /\ fin j' /\ 0.49999 * B2R j <= B2R j' <= B2R j * (2 / (2 - M)) * (1 + 1 / 10 ^ 12) /\
     (0.002 <= B2R j' <= 152 -> fin (fnj_of (lj j')) /\
       forall m' M', 0.26 * m + 0.185 * m * m + 1 / 10 ^ 6 <= m' -> 0.4 * M + 0.35 * M * M + 1 / 10 ^ 6 <= m' -> 0.4 * m + 1 / 10 ^ 6 <= M' -> 0.26 * M + 1 / 10 ^ 6 <= M' -> eb m' M' j')).
Proof using LA PS EN fy hy.
  intros HL nc fj hj HB HF hm hM. rewrite loop_unfold in HL. cbv zeta in HL. unfold eb in HB.
  destruct (ifs _ _ _ _ _ _ _ _ _ _ _ HL nc) as (s0 & s1 & s2 & sf & HC). clear HL.
  destruct (is_finite (fnj_of (lj j))) eqn:ff.
  2:{ exfalso. destruct HF as [HF|HF]; [discriminate HF|]. rewrite (far_nan _ y ff fy) in HC.
      destruct k as [|k]; [apply HF; reflexivity|]. destruct HC as [(X & _)|(_ & HL)]; [discriminate X|]. rewrite nan_loop in HL; [apply nc; exact (eq_sym HL)|].
      apply upd_nan; try assumption. lra. }
  assert (RO : round_ok (lj j)) by (constructor; assumption). specialize (HB RO).
  destruct HC as [(X & g0 & g1 & g2 & HL)|(X & HL)].
  -
    destruct (flt (fabs (fsub (fnj_of (lj j)) y)) (dec "0.002")) eqn:Y.
    + right. left. intros m' M'. exists (lj j). split; [exists j; split; [reflexivity|split; [exact fj|exact hj]]|]. split; [exact RO|]. split; [exact HL|]. split; [exact g0|]. split; [exact g1|]. split; [exact g2|]. left.
      destruct (round_lin _ RO) as (_ & _ & pf). pose proof (f_range _ _ _ _ HB ltac:(lra) ltac:(lra) hy pf) as fr.
      destruct (fsub_S _ _ ff fy ltac:(fsmall)) as [E1 G1]. pose proof (rnd_uu (B2R (fnj_of (lj j)) - B2R y) 2000 ltac:(lra) ltac:(lra)) as B1. rewrite <- E1 in B1. unfold uu in B1.
      pose proof (fabs_fin (fsub (fnj_of (lj j)) y)) as FA. rewrite G1 in FA. fconst (dec "0.002"). apply (flt_fin _ _ FA F) in Y. rewrite fabs_R, V in Y. apply Rabs_lt_inv in Y. apply Rabs_le. lra.
    + left. destruct k as [|k]; [|discriminate X]. split; [|reflexivity]. exists (lj j). split; [exists j; split; [reflexivity|split; [exact fj|exact hj]]|]. split; [exact RO|]. split; [exact HL|]. split; [exact g0|]. split; [exact g1|]. split; [exact g2|]. right. exact HB.
  - right. right. destruct k as [|k]; [discriminate X|]. split; [discriminate|].
    exists (upd (fnj_of (lj j)) y j). split; [exact HL|].
    destruct (round_exact LA PS _ _ _ _ _ _ _ _ EN j fj hj RO) as (gJ & FP & wf). fold (lj j) in wf.
    destruct (round_lin _ RO) as (_ & _ & pf).
    pose proof (f_range _ _ _ _ HB ltac:(lra) ltac:(lra) hy pf) as fr.
    destruct (upd_near _ _ _ ff fy fj fr ltac:(lra) hj) as [fj' wj]. set (j' := upd (fnj_of (lj j)) y j) in *. clearbody j'.
    split; [exact fj'|].
    assert (yf : 0 < B2R y / B2R (fnj_of (lj j))) by (apply Rdiv_lt_0_compat; lra).
    pose proof (half_up _ M (proj2 HB) ltac:(lra)) as HU. rewrite exp_ln in HU by exact yf.
    set (H := (1 + B2R y / B2R (fnj_of (lj j))) / 2) in *. assert (H0 : 0.5 <= H) by (unfold H; lra).
    assert (J1 : 0.5 * B2R j <= B2R j * H) by (rewrite Rmult_comm; apply Rmult_le_compat_l; lra).
    assert (J2 : B2R j * H <= B2R j * (2 / (2 - M))) by (apply Rmult_le_compat_l; lra).
    assert (MU : 2 / (2 - M) <= 1.63) by (apply div_le; lra).
    assert (J3 : B2R j * (2 / (2 - M)) <= B2R j * 1.63) by (apply Rmult_le_compat_l; lra).
    split; [unfold wc in wj; lra|]. intros hj'.
    split; [apply (next_fin LA _ _ _ _ _ _ _ _ EN (B2R j) j' gJ hj fj' hj'); unfold wc in wj; lra|].
    intros m' M' k1 k2 k3 k4 RO'. destruct (round_exact LA PS _ _ _ _ _ _ _ _ EN j' fj' hj' RO') as (gJ' & FP' & wf'). fold (lj j') in wf'.
    apply (step_e _ _ _ _ _ _ _ _ EN (B2R j) (B2R j') (B2R (fnj_of (lj j))) (B2R (fnj_of (lj j'))) (B2R y) m M m' M' gJ gJ' hj hj' ltac:(lra) wf wf' wj HB ltac:(lra) ltac:(lra) k1 k2 k3 k4).
Qed.
End Rounds.
