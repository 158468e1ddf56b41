(** * The first guess of the solver's iteration, and what five rounds make of it.  Proof file. *)
From Coq Require Import ZArith Bool Reals Lra Lia Psatz String List.
From Flocq Require Import Core Relative IEEE754.BinarySingleNaN.
From Verif Require Import F64 Spec SpecCam SpecTone FloatFacts FloatMono MathUtils ColorUtils ViewingConditions Cam16 HctSolver PfMath PfLab PfTones PfNear PfRel PfLimit PfCamC PfLabTrip PfToneReal PfToneElast PfToneStep PfToneFin PfToneLin PfToneRound PfToneIter PfToneNext PfToneLoop.
Open Scope string_scope.
Open Scope R_scope.

Lemma ln_up r w n d : 0 < r -> 0 < w -> r <= w ^ n -> INR n * (w - 1) <= d -> ln r <= d.
Proof.
  intros hr hw h hd. apply Rle_trans with (ln (w ^ n)); [apply ln_le'; assumption|]. rewrite <- Rpower_pow by exact hw. unfold Rpower. rewrite ln_exp.
  pose proof (ln_le_sub1 w hw). apply Rle_trans with (2 := hd). apply Rmult_le_compat_l; [apply pos_INR|assumption].
Qed.

Section Init.
Context {lm : Libm} (LA : libm_accurate (1 / 10 ^ 13) lm) (PS : pow_special lm).
Variables (aw nbb ez tic p1 hs hc chroma : f64).
Hypothesis EN : env aw nbb ez tic p1 hs hc chroma.
Notation goodJ := (goodJ aw nbb ez tic p1 hs hc chroma).
Notation FJ := (FJ aw nbb ez tic p1 hs hc chroma).
Notation Pj := (Pj aw nbb ez).
Notation A := (B2R aw / B2R nbb).
Notation E := (B2R ez).

Definition dl : R := 2 - E * qc.
Definition BB (J : R) : R := (400 - Pj J / 3.05) / (Kc * (A / 3.05)).

Lemma init_ratio J : 0.002 <= J <= 152 -> 0 < BB J /\ (J / 100) * (J / 100) = vv Kc qc (Pj J / 3.05) * Rpower (J / 100) dl * Rpower (BB J) qc.
Proof using EN.
  intros hJ. pose proof (Pj_range _ _ _ _ _ _ _ _ EN J hJ) as PR. pose proof (v_A _ _ _ _ _ _ _ _ EN) as hA. pose proof Kc_pos as HK.
  assert (KA : 0 < Kc * (A / 3.05)) by (apply Rmult_lt_0_compat; lra).
  assert (B0 : 0 < BB J) by (unfold BB; apply Rdiv_lt_0_compat; lra). split; [exact B0|].
  assert (X : Kc * (Pj J / 3.05) / (400 - Pj J / 3.05) = Rpower (J / 100) E * / BB J).
  { unfold BB. unfold PfToneIter.Pj. set (r := Rpower (J / 100) E). unfold PfToneIter.Pj in PR. fold r in PR. set (a := A) in *. clearbody a r. field. repeat split; lra. }
  unfold vv. rewrite X. set (b := BB J) in *. clearbody b. clear X.
  assert (lb : ln (Rpower (J / 100) E * / b) = E * ln (J / 100) - ln b).
  { rewrite ln_mult, ln_Rinv by (try apply exp_pos; try apply Rinv_0_lt_compat; assumption). unfold Rpower. rewrite ln_exp. ring. }
  unfold Rpower at 1. rewrite lb. unfold Rpower. rewrite <- !exp_plus.
  replace (qc * (E * ln (J / 100) - ln b) + dl * ln (J / 100) + qc * ln b) with (ln (J / 100) + ln (J / 100)) by (unfold dl; ring).
  rewrite exp_plus, !exp_ln by lra. reflexivity.
Qed.

Lemma dl_range : 0.19 <= dl <= 0.1944.
Proof using EN.
  pose proof qc_range as HQ. pose proof (v_E _ _ _ _ _ _ _ _ EN) as BE. unfold dl.
  assert (0.7591 * 2.38 <= E * qc) by (apply Rmult_le_compat; lra). assert (E * qc <= 0.7592 * 2.381) by (apply Rmult_le_compat; lra). lra.
Qed.

Lemma BB_range J : 0.002 <= J <= 110.1 -> 1.4814 <= BB J <= 1.5297.
Proof using EN.
  intros hJ. pose proof (Pj_range _ _ _ _ _ _ _ _ EN J ltac:(lra)) as PR. pose proof (v_A _ _ _ _ _ _ _ _ EN) as hA. pose proof (v_E _ _ _ _ _ _ _ _ EN) as BE.
  assert (K1 : 27.1299 <= Kc <= 27.1301) by (unfold Kc; fconst (dec "27.13"); lra).
  assert (PU : Pj J <= 31.82).
  { unfold PfToneIter.Pj. apply Rle_trans with (29.56 * 1.0762); [|lra]. apply Rmult_le_compat; [lra|left; apply exp_pos|lra|].
    apply Rle_trans with (Rpower 1.101 E); [apply Rle_Rpower_l; lra|]. apply (pow_hi_big _ _ _ 16 21); simpl; lra || lia. }
  assert (L : 27.1299 * (29.4 / 3.05) <= Kc * (A / 3.05)) by (apply Rmult_le_compat; lra).
  assert (U : Kc * (A / 3.05) <= 27.1301 * (29.56 / 3.05)) by (apply Rmult_le_compat; lra).
  unfold BB. split; [apply le_div; lra|apply div_le; lra].
Qed.

Lemma FJ_mid J : goodJ J -> 0.002 <= J <= 152 -> 0.86 * FJ J <= 257.4011905 * vv Kc qc (Pj J / 3.05) <= 1.468 * FJ J.
Proof using EN.
  intros [gd gc gv] hJ. pose proof Kc_pos as HK. pose proof qc_range as HQ. pose proof (Pj_range _ _ _ _ _ _ _ _ EN J hJ) as PR.
  pose proof (PP_R (Pj J) (B2R p1) (PfToneIter.Tj tic chroma J) (B2R hc) (B2R hs)) as PE. fold (G1 aw nbb ez tic p1 hs hc chroma J) (G2 aw nbb ez tic p1 hs hc chroma J) (G3 aw nbb ez tic p1 hs hc chroma J) in PE.
  set (x1 := G1 aw nbb ez tic p1 hs hc chroma J) in *. set (x2 := G2 aw nbb ez tic p1 hs hc chroma J) in *. set (x3 := G3 aw nbb ez tic p1 hs hc chroma J) in *.
  assert (P1 : PP x1 x2 x3 <= 13.4) by (rewrite PE; lra).
  pose proof (mix_lo Kc qc HK HQ x1 x2 x3 1 gc gv P1 ltac:(lra)) as ML. pose proof (mix_hi Kc qc HK HQ x1 x2 x3 1 gc gv P1 ltac:(lra)) as MH. cbv zeta in ML, MH.
  rewrite PE in ML, MH. set (P := Pj J / 3.05) in *.
  replace ((1 - 1) * x1 + 1 * P) with P in ML, MH by ring. replace ((1 - 1) * x2 + 1 * P) with P in ML, MH by ring. replace ((1 - 1) * x3 + 1 * P) with P in ML, MH by ring.
  assert (FE : FF Kc qc P P P = 257.4011905 * vv Kc qc P) by (unfold FF, w1, w2, w3; lra). rewrite FE in ML, MH. fold (FJ J) in ML, MH. unfold PfToneIter.FJ in *. fold x1 x2 x3 in ML, MH |- *. lra.
Qed.

(** The first guess. *)
Definition j0 (y : f64) : f64 := fmul (fsqrt y) (dec "11.0").
Lemma j0_near (y : f64) : fin y -> 1.1 / 10 ^ 5 <= B2R y <= 100.01 -> fin (j0 y) /\ wc (sqrt (B2R y) * 11) (B2R (j0 y)) (1 / 10 ^ 15) /\ 0.0033 <= sqrt (B2R y) <= 10.001.
Proof using.
  intros fy hy. fconst (dec "11.0").
  assert (S : 0.0033 <= sqrt (B2R y) <= 10.001).
  { split; [rewrite <- (sqrt_square 0.0033) by lra|rewrite <- (sqrt_square 10.001) by lra]; apply sqrt_le_1_alt; lra. }
  pose proof (frel_sqrt _ _ _ (frel_self y fy ltac:(lra)) ltac:(lra) ltac:(lra)) as J1.
  assert (J2 : frel (dec "11.0") 11 0) by (split; [exact F|split; [lra|rewrite V; lra]]).
  pose proof (frel_mul _ _ _ _ _ _ J1 J2 ltac:(lra) ltac:(lra) ltac:(lra)) as [f J3].
  split; [exact f|]. split; [|exact S]. destruct (rel_w _ _ _ (1 / 10 ^ 15) J3 ltac:(lra)) as [_ J4]. exact J4.
Qed.

Lemma init_e (y : f64) f T : fin y -> 1.1 / 10 ^ 5 <= B2R y <= 100.01 -> goodJ (B2R (j0 y)) -> 0 < FJ (B2R (j0 y)) -> wc (FJ (B2R (j0 y))) f (3 / 10 ^ 8) ->
  0 < T -> Rpower (100 / B2R (j0 y)) 0.1944 <= T -> 1 <= 100 / B2R (j0 y) \/ 1.02 <= T ->
  ln (B2R y / f) <= 0.285 /\ B2R y > 0 /\ f <= 1.4245 * T * B2R y.
Proof using EN.
  intros fy hy gJ FP wf hT HT HT2. destruct (j0_near y fy hy) as (fj & wj & hs_). set (J := B2R (j0 y)) in *. set (sy := sqrt (B2R y)) in *.
  assert (SS : sy * sy = B2R y) by (apply sqrt_sqrt; lra).
  assert (hJ : 0.036 <= J <= 110.02) by (unfold wc in wj; lra).
  pose proof (FJ_mid J gJ ltac:(lra)) as FM. destruct (init_ratio J ltac:(lra)) as [B0 IR]. pose proof dl_range as DR. pose proof (BB_range J ltac:(lra)) as BR. pose proof qc_range as HQ.
  set (V := vv Kc qc (Pj J / 3.05)) in *. assert (V0 : 0 < V) by (unfold V, vv; apply exp_pos).
  (* the luminance in terms of J *)
  assert (Y1 : (J / 100) * (J / 100) * 82.6446 <= B2R y <= (J / 100) * (J / 100) * 82.6447).
  { rewrite <- SS. assert (0 < sy) by lra. assert (S2 : 0 < sy * sy) by (apply Rmult_lt_0_compat; lra).
    assert (JL : (sy * 11 * (1 - 1 / 10 ^ 15)) * (sy * 11 * (1 - 1 / 10 ^ 15)) <= J * J) by (unfold wc in wj; apply Rmult_le_compat; lra).
    assert (JU : J * J <= (sy * 11 * (1 + 1 / 10 ^ 15)) * (sy * 11 * (1 + 1 / 10 ^ 15))) by (unfold wc in wj; apply Rmult_le_compat; lra). lra. }
  rewrite IR in Y1.
  set (d := Rpower (J / 100) dl) in *. set (b := Rpower (BB J) qc) in *.
  assert (bU : b <= 2.7562) by (apply Rle_trans with (Rpower 1.5297 qc); [apply Rle_Rpower_l; lra|apply (pow_hi_big _ _ _ 31 13); simpl; lra || lia]).
  assert (bL : 2.543 <= b) by (apply Rle_trans with (Rpower 1.4814 qc); [apply (pow_lo_big _ _ _ 19 8); simpl; lra || lia|apply Rle_Rpower_l; lra]).
  assert (dU : d <= 1.0195).
  { destruct (Rle_or_lt (J / 100) 1) as [c|c].
    - apply Rle_trans with 1; [|lra]. unfold d, Rpower. rewrite <- exp_0. apply exp_le. assert (ln (J / 100) <= 0) by (rewrite <- ln_1; apply ln_le'; lra). assert (0 <= dl * - ln (J / 100)) by (apply Rmult_le_pos; lra). lra.
    - apply Rle_trans with (Rpower 1.1002 dl); [apply Rle_Rpower_l; lra|apply (pow_hi_big _ _ _ 1 5); simpl; lra || lia]. }
  assert (d0 : 0 < d) by apply exp_pos.
  assert (dL : 1 <= d * T).
  { destruct HT2 as [HT2|HT2].
    - assert (E1 : d = / Rpower (100 / J) dl).
      { unfold d, Rpower. rewrite <- exp_Ropp. f_equal. replace (100 / J) with (/ (J / 100)) by (field; lra). rewrite ln_Rinv by (apply Rdiv_lt_0_compat; lra). ring. }
      assert (R0 : 0 < Rpower (100 / J) dl) by apply exp_pos.
      assert (Rpower (100 / J) dl <= Rpower (100 / J) 0.1944) by (apply Rle_Rpower; lra).
      rewrite E1. apply Rmult_le_reg_l with (Rpower (100 / J) dl); [exact R0|]. rewrite <- Rmult_assoc, Rinv_r by lra. lra.
    - destruct (Rle_or_lt (J / 100) 1) as [c|c].
      + assert (E1 : d = / Rpower (100 / J) dl).
        { unfold d, Rpower. rewrite <- exp_Ropp. f_equal. replace (100 / J) with (/ (J / 100)) by (field; lra). rewrite ln_Rinv by (apply Rdiv_lt_0_compat; lra). ring. }
        assert (R0 : 0 < Rpower (100 / J) dl) by apply exp_pos.
        assert (1 <= 100 / J) by (apply le_div; lra).
        assert (Rpower (100 / J) dl <= Rpower (100 / J) 0.1944) by (apply Rle_Rpower; lra).
        rewrite E1. apply Rmult_le_reg_l with (Rpower (100 / J) dl); [exact R0|]. rewrite <- Rmult_assoc, Rinv_r by lra. lra.
      + assert (1 <= d). { unfold d, Rpower. rewrite <- exp_0. apply exp_le. assert (0 <= ln (J / 100)) by (rewrite <- ln_1; apply ln_le'; lra). apply Rmult_le_pos; lra. }
        apply Rle_trans with (1 * 1); [lra|apply Rmult_le_compat; lra]. }
  assert (db : d * b <= 1.0195 * 2.7562) by (apply Rmult_le_compat; lra).
  assert (U : V * d * b <= V * (1.0195 * 2.7562)) by (rewrite Rmult_assoc; apply Rmult_le_compat_l; lra).
  assert (L : V * 2.543 <= V * d * b * T).
  { replace (V * d * b * T) with (V * (d * T * b)) by ring. apply Rmult_le_compat_l; [lra|]. apply Rle_trans with (1 * 2.543); [lra|apply Rmult_le_compat; lra]. }
  assert (f0 : 0 < f) by (unfold wc in wf; lra). unfold wc in wf.
  split; [|split; [lra|]].
  - apply (ln_up _ 1.0178 16 0.285); [apply Rdiv_lt_0_compat; lra|lra| |simpl; lra]. apply Rle_trans with 1.325; [|simpl; lra]. apply div_le; lra.
  - assert (V * d * b * 82.6446 * T <= B2R y * T) by (apply Rmult_le_compat_r; lra). lra.
Qed.
Lemma init_log (y : f64) f T m : fin y -> 1.1 / 10 ^ 5 <= B2R y <= 100.01 -> goodJ (B2R (j0 y)) -> 0 < FJ (B2R (j0 y)) -> wc (FJ (B2R (j0 y))) f (3 / 10 ^ 8) ->
  0 < T -> Rpower (100 / B2R (j0 y)) 0.1944 <= T -> 1 <= 100 / B2R (j0 y) \/ 1.02 <= T -> ln (1.4245 * T) <= m -> - m <= ln (B2R y / f) <= 0.285.
Proof using EN.
  intros fy hy gJ FP wf hT HT HT2 hm. destruct (init_e y f T fy hy gJ FP wf hT HT HT2) as (U & y0 & L). split; [|exact U].
  assert (f0 : 0 < f) by (unfold wc in wf; lra).
  assert (E1 : ln (B2R y / f) = - ln (f / B2R y)).
  { replace (f / B2R y) with (/ (B2R y / f)) by (field; lra). rewrite ln_Rinv by (apply Rdiv_lt_0_compat; lra). ring. }
  rewrite E1. apply Ropp_le_contravar. apply Rle_trans with (2 := hm). apply ln_le'; [apply Rdiv_lt_0_compat; lra|]. apply div_le; lra.
Qed.
End Init.

Section Five.
Context {lm : Libm} (LA : libm_accurate (1 / 10 ^ 13) lm) (PS : pow_special lm).
Variables (vc : viewing_conditions) (tic p1 hs hc chroma y : f64).
Hypothesis EN : env (vc_aw vc) (vc_nbb vc) (ezf vc) tic p1 hs hc chroma.
Hypothesis (fy : fin y) (hy : 1.1 / 10 ^ 5 <= B2R y <= 100.01).

Lemma five (a b m1 M1 m2 M2 m3 M3 m4 M4 hi : R) c : eb vc tic p1 hs hc chroma y a b (j0 y) -> fin (j0 y) -> 0.0362 <= B2R (j0 y) <= hi ->
  hi * (2 / (2 - b)) * (2 / (2 - M1)) * (2 / (2 - M2)) * (2 / (2 - M3)) <= 151 -> 0 < hi ->
  0 <= a <= 2 -> 0 <= b <= 0.77 -> 0 <= m1 <= 2 -> 0 <= M1 <= 0.77 -> 0 <= m2 <= 2 -> 0 <= M2 <= 0.77 -> 0 <= m3 <= 2 -> 0 <= M3 <= 0.77 -> 0 <= m4 <= 2 -> 0 <= M4 <= 0.77 ->
  0.26 * a + 0.185 * a * a + 1 / 10 ^ 6 <= m1 -> 0.4 * b + 0.35 * b * b + 1 / 10 ^ 6 <= m1 -> 0.4 * a + 1 / 10 ^ 6 <= M1 -> 0.26 * b + 1 / 10 ^ 6 <= M1 ->
  0.26 * m1 + 0.185 * m1 * m1 + 1 / 10 ^ 6 <= m2 -> 0.4 * M1 + 0.35 * M1 * M1 + 1 / 10 ^ 6 <= m2 -> 0.4 * m1 + 1 / 10 ^ 6 <= M2 -> 0.26 * M1 + 1 / 10 ^ 6 <= M2 ->
  0.26 * m2 + 0.185 * m2 * m2 + 1 / 10 ^ 6 <= m3 -> 0.4 * M2 + 0.35 * M2 * M2 + 1 / 10 ^ 6 <= m3 -> 0.4 * m2 + 1 / 10 ^ 6 <= M3 -> 0.26 * M2 + 1 / 10 ^ 6 <= M3 ->
  0.26 * m3 + 0.185 * m3 * m3 + 1 / 10 ^ 6 <= m4 -> 0.4 * M3 + 0.35 * M3 * M3 + 1 / 10 ^ 6 <= m4 -> 0.4 * m3 + 1 / 10 ^ 6 <= M4 -> 0.26 * M3 + 1 / 10 ^ 6 <= M4 ->
  j_loop 5 vc tic p1 hs hc chroma y (j0 y) = c -> c <> 0%Z -> out vc tic p1 hs hc chroma y c m4 M4.
Proof using LA PS EN fy hy.
  intros eb0 f0 J0 HI hi0 ba bb b1 B1 b2 B2 b3 B3 b4 B4 q1 q2 q3 q4 r1 r2 r3 r4 s1 s2 s3 s4 t1 t2 t3 t4 HL nc.
  assert (hy' : 1 / 10 ^ 5 <= B2R y <= 101) by lra.
  assert (G : forall M, 0 <= M <= 0.77 -> 1 <= 2 / (2 - M)) by (intros M h; apply le_div; lra).
  pose proof (G b bb) as g0. pose proof (G M1 B1) as g1. pose proof (G M2 B2) as g2. pose proof (G M3 B3) as g3.
  set (z0 := 2 / (2 - b)) in *. set (z1 := 2 / (2 - M1)) in *. set (z2 := 2 / (2 - M2)) in *. set (z3 := 2 / (2 - M3)) in *.
  assert (P0 : 0 < hi * z0) by (apply Rmult_lt_0_compat; lra). assert (P1 : 0 < hi * z0 * z1) by (apply Rmult_lt_0_compat; lra). assert (P2 : 0 < hi * z0 * z1 * z2) by (apply Rmult_lt_0_compat; lra).
  assert (K3 : hi * z0 * z1 * z2 <= 151) by (apply Rle_trans with (2 := HI); rewrite <- (Rmult_1_r (hi * z0 * z1 * z2)) at 1; apply Rmult_le_compat_l; lra).
  assert (K2 : hi * z0 * z1 <= 151) by (apply Rle_trans with (2 := K3); rewrite <- (Rmult_1_r (hi * z0 * z1)) at 1; apply Rmult_le_compat_l; lra).
  assert (K1 : hi * z0 <= 151) by (apply Rle_trans with (2 := K2); rewrite <- (Rmult_1_r (hi * z0)) at 1; apply Rmult_le_compat_l; lra).
  assert (K0 : hi <= 151) by (apply Rle_trans with (2 := K1); rewrite <- (Rmult_1_r hi) at 1; apply Rmult_le_compat_l; lra).
  assert (NXT : forall J J' z h h', 0 < J <= h -> 1 <= z -> J' <= J * z * (1 + 1 / 10 ^ 12) -> 0 <= h -> h' = h * z -> J' <= h' * (1 + 1 / 10 ^ 12)).
  { intros J J' z h h' hJ hz HJ hh ->. apply Rle_trans with (1 := HJ). apply Rmult_le_compat_r; [lra|]. apply Rmult_le_compat_r; lra. }
  destruct (loop_step LA PS vc tic p1 hs hc chroma y EN fy hy' 4 c a b (j0 y) HL nc f0 ltac:(lra) eb0 (or_intror (Nat.neq_succ_0 3)) ba bb) as [[_ k]|[k|(_ & j1 & L1 & F1 & R1 & N1)]]; [discriminate k|apply k|].
  pose proof (NXT (B2R (j0 y)) (B2R j1) z0 hi _ ltac:(lra) g0 (proj2 R1) ltac:(lra) eq_refl) as U1.
  destruct (N1 ltac:(lra)) as [fn1 eb1]. specialize (eb1 m1 M1 q1 q2 q3 q4).
  destruct (loop_step LA PS vc tic p1 hs hc chroma y EN fy hy' 3 c m1 M1 j1 L1 nc F1 ltac:(lra) eb1 (or_introl fn1) b1 B1) as [[_ k]|[k|(_ & j2 & L2 & F2 & R2 & N2)]]; [discriminate k|apply k|].
  pose proof (NXT (B2R j1) (B2R j2) z1 (hi * z0 * (1 + 1 / 10 ^ 12)) _ ltac:(lra) g1 (proj2 R2) ltac:(lra) eq_refl) as U2.
  destruct (N2 ltac:(lra)) as [fn2 eb2]. specialize (eb2 m2 M2 r1 r2 r3 r4).
  destruct (loop_step LA PS vc tic p1 hs hc chroma y EN fy hy' 2 c m2 M2 j2 L2 nc F2 ltac:(lra) eb2 (or_introl fn2) b2 B2) as [[_ k]|[k|(_ & j3 & L3 & F3 & R3 & N3)]]; [discriminate k|apply k|].
  pose proof (NXT (B2R j2) (B2R j3) z2 (hi * z0 * z1 * (1 + 3 / 10 ^ 12)) _ ltac:(lra) g2 (proj2 R3) ltac:(lra) eq_refl) as U3.
  destruct (N3 ltac:(lra)) as [fn3 eb3]. specialize (eb3 m3 M3 s1 s2 s3 s4).
  destruct (loop_step LA PS vc tic p1 hs hc chroma y EN fy hy' 1 c m3 M3 j3 L3 nc F3 ltac:(lra) eb3 (or_introl fn3) b3 B3) as [[_ k]|[k|(_ & j4 & L4 & F4 & R4 & N4)]]; [discriminate k|apply k|].
  pose proof (NXT (B2R j3) (B2R j4) z3 (hi * z0 * z1 * z2 * (1 + 5 / 10 ^ 12)) _ ltac:(lra) g3 (proj2 R4) ltac:(lra) eq_refl) as U4.
  destruct (N4 ltac:(lra)) as [fn4 eb4]. specialize (eb4 m4 M4 t1 t2 t3 t4).
  destruct (loop_step LA PS vc tic p1 hs hc chroma y EN fy hy' 0 c m4 M4 j4 L4 nc F4 ltac:(lra) eb4 (or_introl fn4) b4 B4) as [[k _]|[k|(k & _)]]; [exact k|apply k|]. exfalso. apply k. reflexivity.
Qed.

Lemma first_eb T m : 0 < T -> Rpower (100 / B2R (j0 y)) 0.1944 <= T -> 1 <= 100 / B2R (j0 y) \/ 1.02 <= T -> ln (1.4245 * T) <= m -> eb vc tic p1 hs hc chroma y m 0.285 (j0 y).
Proof using LA PS EN fy hy.
  intros hT HT HT2 hm. unfold eb. intros RO. destruct (j0_near y fy hy) as (fj & wj & hs_). assert (hJ : 0.002 <= B2R (j0 y) <= 152) by (unfold wc in wj; lra).
  destruct (round_exact LA PS _ _ _ _ _ _ _ _ EN (j0 y) fj hJ RO) as (gJ & FP & wf). unfold lj.
  exact (init_log _ _ _ _ _ _ _ _ EN y _ T m fy hy gJ FP wf hT HT HT2 hm).
Qed.

(** ** The four ranges of luminance *)
Definition mu (Y : R) : R := if Rle_dec 20 Y then 0.016 else if Rle_dec 3 Y then 0.0244 else if Rle_dec 0.1 Y then 0.039 else 0.112.

Lemma j0_lo s : 0 <= s -> s * s <= B2R y -> 11 * s * (1 - 1 / 10 ^ 15) <= B2R (j0 y).
Proof using fy hy.
  intros h hs'. destruct (j0_near y fy hy) as (fj & wj & _). unfold wc in wj. assert (s <= sqrt (B2R y)) by (rewrite <- (sqrt_square s) by exact h; apply sqrt_le_1_alt; exact hs').
  apply Rle_trans with (2 := proj1 wj). apply Rmult_le_compat_r; lra.
Qed.
Lemma j0_hi s : 0 <= s -> B2R y <= s * s -> B2R (j0 y) <= 11 * s * (1 + 1 / 10 ^ 15).
Proof using fy hy.
  intros h hs'. destruct (j0_near y fy hy) as (fj & wj & _). unfold wc in wj. assert (sqrt (B2R y) <= s) by (rewrite <- (sqrt_square s) by exact h; apply sqrt_le_1_alt; exact hs').
  apply Rle_trans with (1 := proj2 wj). apply Rmult_le_compat_r; lra.
Qed.

Lemma five_rounds c : j_loop 5 vc tic p1 hs hc chroma y (j0 y) = c -> c <> 0%Z -> out vc tic p1 hs hc chroma y c (mu (B2R y)) (mu (B2R y)).
Proof using LA PS EN fy hy.
  intros HL nc. destruct (j0_near y fy hy) as (fj & wj & hs_). pose proof (j0_hi 10.0005 ltac:(lra) ltac:(lra)) as JU.
  assert (W : forall m M, out vc tic p1 hs hc chroma y c m M -> m <= mu (B2R y) -> M <= mu (B2R y) -> out vc tic p1 hs hc chroma y c (mu (B2R y)) (mu (B2R y))).
  { intros m M (lin & o0 & o1 & o2 & o3 & o4 & o5 & o6) h1 h2. exists lin. repeat (split; [assumption|]). destruct o6 as [o6|o6]; [left; exact o6|right; lra]. }
  assert (PW : forall J T, 1 <= J -> 0 < T -> J ^ 7 <= T ^ 36 -> Rpower J 0.1944 <= T) by (intros J T h1 h2 h3; apply (pow_hi_big _ _ _ 7 36); try assumption; try lia; simpl; lra).
  assert (JP : forall J0 T, 0 < J0 -> J0 <= B2R (j0 y) -> J0 <= 100 -> 0 < T -> (100 / J0) ^ 7 <= T ^ 36 -> 1 <= 100 / B2R (j0 y) -> Rpower (100 / B2R (j0 y)) 0.1944 <= T).
  { intros J0 T h1 h2 h3 h4 h5 h6. apply Rle_trans with (Rpower (100 / J0) 0.1944); [|apply PW; try assumption; apply le_div; lra].
    apply Rle_Rpower_l; [lra|]. split; [lra|]. unfold Rdiv. apply Rmult_le_compat_l; [lra|]. apply Rinv_le_contravar; lra. }
  destruct (Rle_dec 20 (B2R y)) as [h|h].
  - assert (MU : mu (B2R y) = 0.016) by (unfold mu; destruct (Rle_dec 20 (B2R y)); [reflexivity|contradiction]).
    pose proof (j0_lo 4.4721 ltac:(lra) ltac:(lra)) as JL.
    apply (W 0.0157 0.0121); [|lra|lra].
    apply (five 0.5 0.285 0.1764 0.2001 0.0942 0.0707 0.0301 0.0378 0.0157 0.0121 110.01 c); try lra; try assumption.
    apply (first_eb 1.1485); try lra.
    + destruct (Rle_or_lt 1 (100 / B2R (j0 y))) as [k|k]; [apply (JP 49.19); try lra; simpl; lra|].
      apply Rle_trans with 1; [|lra]. unfold Rpower. rewrite <- exp_0. apply exp_le. assert (0 < 100 / B2R (j0 y)) by (apply Rdiv_lt_0_compat; lra).
      assert (ln (100 / B2R (j0 y)) <= 0) by (rewrite <- ln_1; apply ln_le'; lra). lra.
    + apply (ln_up _ 1.015625 32); simpl; lra.
  - destruct (Rle_dec 3 (B2R y)) as [h3|h3].
    + assert (MU : mu (B2R y) = 0.0244) by (unfold mu; destruct (Rle_dec 20 (B2R y)); [contradiction|]; destruct (Rle_dec 3 (B2R y)); [reflexivity|contradiction]).
      pose proof (j0_lo 1.732 ltac:(lra) ltac:(lra)) as JL. pose proof (j0_hi 4.5 ltac:(lra) ltac:(lra)) as JH.
      assert (Q : 1 <= 100 / B2R (j0 y)) by (apply le_div; lra).
      apply (W 0.0232 0.0189); [|lra|lra].
      apply (five 0.69 0.285 0.2676 0.2761 0.1372 0.1072 0.047 0.055 0.0232 0.0189 50 c); try lra; try assumption.
      apply (first_eb 1.381); try lra; [apply (JP 19.05); try lra; simpl; lra|apply (ln_up _ 1.0215625 32); simpl; lra].
    + destruct (Rle_dec 0.1 (B2R y)) as [h1|h1].
      * assert (MU : mu (B2R y) = 0.039) by (unfold mu; destruct (Rle_dec 20 (B2R y)); [contradiction|]; destruct (Rle_dec 3 (B2R y)); [contradiction|]; destruct (Rle_dec 0.1 (B2R y)); [reflexivity|contradiction]).
        pose proof (j0_lo 0.3162 ltac:(lra) ltac:(lra)) as JL. pose proof (j0_hi 1.74 ltac:(lra) ltac:(lra)) as JH.
        assert (Q : 1 <= 100 / B2R (j0 y)) by (apply le_div; lra).
        apply (W 0.0384 0.0342); [|lra|lra].
        apply (five 1.02 0.285 0.4578 0.4081 0.2217 0.1832 0.0851 0.0888 0.0384 0.0342 20 c); try lra; try assumption.
        apply (first_eb 1.9216); try lra; [apply (JP 3.478); try lra; simpl; lra|apply (ln_up _ 1.0159375 64); simpl; lra].
      * assert (MU : mu (B2R y) = 0.112) by (unfold mu; destruct (Rle_dec 20 (B2R y)); [contradiction|]; destruct (Rle_dec 3 (B2R y)); [contradiction|]; destruct (Rle_dec 0.1 (B2R y)); [contradiction|reflexivity]).
        pose proof (j0_lo 0.003316 ltac:(lra) ltac:(lra)) as JL. pose proof (j0_hi 0.3164 ltac:(lra) ltac:(lra)) as JH.
        assert (Q : 1 <= 100 / B2R (j0 y)) by (apply le_div; lra).
        apply (W 0.1085 0.107); [|lra|lra].
        apply (five 1.92 0.285 1.1813 0.7681 0.5654 0.4726 0.2673 0.2262 0.1085 0.107 5 c); try lra; try assumption.
        apply (first_eb 4.662); try lra; [apply (JP 0.03647); try lra; simpl; lra|apply (ln_up _ 1.015 128); simpl; lra].
Qed.
End Five.
