(** * The iteration runs in the default viewing conditions.  Proof file. *)
From Coq Require Import ZArith Bool Reals Lra Lia Psatz String List.
From Flocq Require Import Core Relative IEEE754.BinarySingleNaN.
From Verif Require Import F64 Spec SpecCam SpecTone FloatFacts FloatMono MathUtils ColorUtils ViewingConditions Cam16 HctSolver PfMath PfLab PfTones PfNear PfRel PfLimit PfGamma PfHct PfVc PfHueVc PfToneReal PfToneElast PfToneStep PfToneFin PfToneLin PfToneRound PfToneIter PfToneNext PfToneLoop PfToneInit.
Open Scope string_scope.
Open Scope R_scope.

Section Acc.
Context {lm : Libm} (LA : libm_accurate (1 / 10 ^ 13) lm).

(** The response to one channel of the white point, to four digits. *)
Lemma wa_near (w : f64) U lo hi a b : fin w -> fin (adapt w) -> U <= B2R fl0 * B2R (adapt w) <= U + 5 / 10 ^ 10 -> 0.3 <= U <= 0.5 -> 90 <= B2R w <= 110 ->
  U * B2R w / 100 <= 0.999 -> 0.5 <= lo -> hi <= 0.8 ->
  (forall x, U * B2R w / 100 - 1 / 10 ^ 12 <= x <= U * B2R w / 100 + 1 / 10 ^ 9 -> lo ^ 69 <= x ^ 29 /\ x ^ 13 <= hi ^ 31) -> lo <= hi ->
  a * (lo + 27.13) <= 400 * lo - 0.001 -> 400 * hi + 0.001 <= b * (hi + 27.13) -> 9 <= a <= 10 -> 9 <= b <= 10 ->
  between (wa w) a b.
Proof using LA.
  intros fw fa hu bU bw b1 hlo hhi pw hlh ha hb ra rb. destruct (fl0_near LA) as [ff bf]. unfold wa, wf.
  set (fl := fl0) in *. set (d := adapt w) in *. clearbody fl d. fconst (dec "100.0"). fconst (dec "0.42"). fconst (dec "400.0"). fconst (dec "27.13").
  destruct (fmul_S fl d ff fa ltac:(fsmall)) as [E1 F3]. pose proof (rnd_near (B2R fl * B2R d) ltac:(lra)) as R1. rewrite <- E1 in R1.
  set (m := fmul fl d) in *. clearbody m. clear E1.
  assert (P2 : U * B2R w - 2 / 10 ^ 11 <= B2R m * B2R w <= U * B2R w + 6 / 10 ^ 8).
  { assert (U * B2R w <= B2R fl * B2R d * B2R w) by (apply Rmult_le_compat_r; lra). assert (B2R fl * B2R d * B2R w <= (U + 5 / 10 ^ 10) * B2R w) by (apply Rmult_le_compat_r; lra).
    pose proof (mul_bnd (B2R m - B2R fl * B2R d) (B2R w) (1 / 10 ^ 13) 110 ltac:(lra) ltac:(lra)). lra. }
  assert (UW : 0.3 * 90 <= U * B2R w) by (apply Rmult_le_compat; lra). assert (UW2 : U * B2R w <= 0.5 * 110) by (apply Rmult_le_compat; lra).
  destruct (fmul_S m w F3 fw ltac:(fsmall)) as [E2 F4]. pose proof (rnd_near (B2R m * B2R w) ltac:(lra)) as R2. rewrite <- E2 in R2.
  set (n := fmul m w) in *. clearbody n. clear E2.
  destruct (fdiv_S n (dec "100.0") F4 ltac:(lra) ltac:(rewrite V; fsmall)) as [E3 F5]. rewrite V in E3.
  pose proof (rnd_near (B2R n / 100) ltac:(lra)) as R3. rewrite <- E3 in R3. set (bb := fdiv n (dec "100.0")) in *. clearbody bb. clear E3.
  assert (Q : between (powf bb (dec "0.42")) (lo * (1 - 1 / 10 ^ 13)) (hi * (1 + 1 / 10 ^ 13))).
  { apply (pow_between LA); [exact F5|exact F0|lra|lra|lra|]. split.
    - apply (pow_lo_small _ _ _ 29 69); [lra|lra|lia|rewrite V0; simpl; lra|]. apply pw. lra.
    - apply (pow_hi_small _ _ _ 13 31); [lra|lra|lia|rewrite V0; simpl; lra|]. apply pw. lra. }
  destruct Q as [FQ BQ]. set (f := powf bb (dec "0.42")) in *. clearbody f.
  assert (BF : lo - 1 / 10 ^ 13 <= B2R f <= hi + 1 / 10 ^ 13) by lra.
  destruct (fmul_S (dec "400.0") f F1 FQ ltac:(rewrite V1; fsmall)) as [E4 F6]. rewrite V1 in E4.
  pose proof (rnd_far (400 * B2R f) ltac:(lra)) as R4. rewrite <- E4 in R4. set (g := fmul (dec "400.0") f) in *. clearbody g. clear E4.
  destruct (fadd_S f (dec "27.13") FQ F2 ltac:(rewrite V2; fsmall)) as [E5 F7]. rewrite V2 in E5.
  match type of E5 with _ = rnd (_ + ?k) => pose proof (rnd_near (B2R f + k) ltac:(lra)) as R5 end. rewrite <- E5 in R5.
  set (h := fadd f (dec "27.13")) in *. clearbody h. clear E5.
  assert (D1 : a + 1 / 10 ^ 6 <= B2R g / B2R h).
  { apply le_div; [lra|]. assert (M := Rmult_le_compat_l (400 - a) lo (B2R f + 1 / 10 ^ 13) ltac:(lra) ltac:(lra)).
    assert (a * B2R h <= a * (B2R f + 27.13 + 1 / 10 ^ 12)) by (apply Rmult_le_compat_l; lra). lra. }
  assert (D2 : B2R g / B2R h <= b - 1 / 10 ^ 6).
  { apply div_le; [lra|]. assert (M := Rmult_le_compat_l (400 - b) (B2R f - 1 / 10 ^ 13) hi ltac:(lra) ltac:(lra)).
    assert (b * (B2R f + 27.13 - 1 / 10 ^ 12) <= b * B2R h) by (apply Rmult_le_compat_l; lra). lra. }
  destruct (fdiv_S g h F6 ltac:(lra) ltac:(fsmall)) as [E6 F8]. pose proof (rnd_near (B2R g / B2R h) ltac:(lra)) as R6. rewrite <- E6 in R6.
  split; [exact F8|lra].
Qed.

Lemma wr_near : between (wa rw0) 9.65 9.67.
Proof using LA.
  assert (W1 : between rw0 95 109) by (fconst rw0; split; [assumption|lra]). destruct (adapt_range d0 rw0 (d0_range LA) W1) as [[fa _] _].
  change (fsub (fadd (fmul d0 (fdiv (dec "100.0") rw0)) (dec "1.0")) d0) with (adapt rw0) in fa. destruct W1 as [fw _].
  assert (U := u1_near LA). unfold u1 in U. fconst rw0. apply (wa_near rw0 (3967085983 / 10 ^ 10) 0.671 0.6716); try assumption; try lra; try (rewrite V; lra).
  rewrite V. clear. intros x hx. split; [apply Rle_trans with (0.387010232 ^ 29)|apply Rle_trans with (0.38701024 ^ 13)]; try (apply pow_incr; lra); lra.
Qed.
Lemma wg_near : between (wa gw0) 9.675 9.695.
Proof using LA.
  assert (W1 : between gw0 95 109) by (fconst gw0; split; [assumption|lra]). destruct (adapt_range d0 gw0 (d0_range LA) W1) as [[fa _] _].
  change (fsub (fadd (fmul d0 (fdiv (dec "100.0") gw0)) (dec "1.0")) d0) with (adapt gw0) in fa. destruct W1 as [fw _].
  assert (U := u2_near LA). unfold u2 in U. fconst gw0. apply (wa_near gw0 (3831622604 / 10 ^ 10) 0.6727 0.6735); try assumption; try lra; try (rewrite V; lra).
  rewrite V. clear. intros x hx. split; [apply Rle_trans with (0.389472553 ^ 29)|apply Rle_trans with (0.38947256 ^ 13)]; try (apply pow_incr; lra); lra.
Qed.
Lemma wb_near : between (wa bw0) 9.715 9.735.
Proof using LA.
  assert (W1 : between bw0 95 109) by (fconst bw0; split; [assumption|lra]). destruct (adapt_range d0 bw0 (d0_range LA) W1) as [[fa _] _].
  change (fsub (fadd (fmul d0 (fdiv (dec "100.0") bw0)) (dec "1.0")) d0) with (adapt bw0) in fa. destruct W1 as [fw _].
  assert (U := u3_near LA). unfold u3 in U. fconst bw0. apply (wa_near bw0 (3628263358 / 10 ^ 10) 0.6757 0.6765); try assumption; try lra; try (rewrite V; lra).
  rewrite V. clear. intros x hx. split; [apply Rle_trans with (0.393582849 ^ 29)|apply Rle_trans with (0.39358286 ^ 13)]; try (apply pow_incr; lra); lra.
Qed.

Lemma aw_near : fin aw0 /\ fin nbb0 /\ 1 <= B2R nbb0 <= 1.04 /\ 29.4 <= B2R aw0 / B2R nbb0 <= 29.56.
Proof using LA.
  destruct (nbb0_range LA) as [fn bn]. destruct wr_near as [f0 b0]. destruct wg_near as [f1 b1]. destruct wb_near as [f2 b2]. unfold aw0.
  set (a0 := wa rw0) in *. set (a1 := wa gw0) in *. set (a2 := wa bw0) in *. set (nbb := nbb0) in *. clearbody a0 a1 a2 nbb. fconst (dec "40.0"). fconst (dec "20.0").
  destruct (fmul_S (dec "40.0") a0 F f0 ltac:(rewrite V; fsmall)) as [E1 G1]. rewrite V in E1. pose proof (rnd_far (40 * B2R a0) ltac:(lra)) as R1. rewrite <- E1 in R1.
  destruct (fmul_S (dec "20.0") a1 F0 f1 ltac:(rewrite V0; fsmall)) as [E2 G2]. rewrite V0 in E2. pose proof (rnd_far (20 * B2R a1) ltac:(lra)) as R2. rewrite <- E2 in R2.
  set (x := fmul (dec "40.0") a0) in *. set (y := fmul (dec "20.0") a1) in *. clearbody x y. clear E1 E2.
  destruct (fadd_S x y G1 G2 ltac:(fsmall)) as [E3 G3]. pose proof (rnd_far (B2R x + B2R y) ltac:(lra)) as R3. rewrite <- E3 in R3.
  set (s := fadd x y) in *. clearbody s. clear E3.
  destruct (fadd_S s a2 G3 f2 ltac:(fsmall)) as [E4 G4]. pose proof (rnd_far (B2R s + B2R a2) ltac:(lra)) as R4. rewrite <- E4 in R4.
  set (q := fadd s a2) in *. clearbody q. clear E4.
  destruct (fdiv_S q (dec "20.0") G4 ltac:(lra) ltac:(rewrite V0; fsmall)) as [E5 G5]. rewrite V0 in E5. pose proof (rnd_far (B2R q / 20) ltac:(lra)) as R5. rewrite <- E5 in R5.
  set (z := fdiv q (dec "20.0")) in *. clearbody z. clear E5.
  assert (B : 29.45 <= B2R z <= 29.53) by lra.
  assert (P : 29 <= B2R z * B2R nbb <= 31) by (split; [apply Rle_trans with (29.45 * 1); [lra|]|apply Rle_trans with (29.53 * 1.04); [|lra]]; apply Rmult_le_compat; lra).
  destruct (fmul_S z nbb G5 fn ltac:(fsmall)) as [E6 G6]. pose proof (rnd_far (B2R z * B2R nbb) ltac:(lra)) as R6. rewrite <- E6 in R6.
  repeat split; try assumption; try lra; [apply le_div; [lra|]|apply div_le; [lra|]]; [assert (29.45 * B2R nbb <= B2R z * B2R nbb) by (apply Rmult_le_compat_r; lra)|assert (B2R z * B2R nbb <= 29.53 * B2R nbb) by (apply Rmult_le_compat_r; lra)]; lra.
Qed.

(** The quantities of [find_result_by_j]. *)
Definition tic_of (vc : viewing_conditions) : f64 := fdiv (dec "1.0") (kk_of (vc_n vc)).
Definition p1_of (vc : viewing_conditions) (h : f64) : f64 :=
  fmul (fmul (fmul (fmul (dec "0.25") (fadd (cosf (fadd h (dec "2.0"))) (dec "3.8"))) (fdiv (dec "50000.0") (dec "13.0"))) (vc_n_c vc)) (vc_ncb vc).

Lemma find_eq (h chroma y : f64) : exists vc, s_rgb = Ok vc /\ vc_std vc /\
  vc_aw vc = aw0 /\ vc_nbb vc = nbb0 /\ vc_c vc = c0 /\ vc_z vc = fadd (dec "1.48") (fsqrt n0) /\
  find_result_by_j h chroma y = Ok (j_loop 5 vc (tic_of vc) (p1_of vc h) (sinf h) (cosf h) chroma y (j0 y)).
Proof using LA.
  destruct (vc_std_ok LA) as (vc & E & S). exists vc. split; [exact E|]. split; [exact S|].
  assert (E' := E). rewrite s_rgb_eq in E'. apply ok_inj in E'.
  split; [rewrite <- E'; reflexivity|]. split; [rewrite <- E'; reflexivity|]. split; [rewrite <- E'; reflexivity|]. split; [rewrite <- E'; reflexivity|].
  unfold find_result_by_j. rewrite E. cbv beta iota delta [bind]. unfold tic_of, p1_of, kk_of, j0. reflexivity.
Qed.

Lemma p1_near (vc : viewing_conditions) (h : f64) : vc_std vc -> fin h -> 0 <= B2R h <= 7 -> fin (p1_of vc h) /\ 2000 <= B2R (p1_of vc h) <= 6000.
Proof using LA.
  intros S fh bh. unfold p1_of. destruct (vs_n_c _ S) as [f1 b1]. destruct (vs_ncb _ S) as [f2 b2]. set (x1 := vc_n_c vc) in *. set (x2 := vc_ncb vc) in *. clearbody x1 x2. clear S vc.
  fconst (dec "2.0"). fconst (dec "3.8"). fconst (dec "0.25"). fconst (fdiv (dec "50000.0") (dec "13.0")). set (k := fdiv (dec "50000.0") (dec "13.0")) in *. clearbody k.
  destruct (fadd_S h (dec "2.0") fh F ltac:(rewrite V; fsmall)) as [E1 G1]. rewrite V in E1. pose proof (rnd_far (B2R h + 2) ltac:(lra)) as R1. rewrite <- E1 in R1.
  destruct (la_trig _ _ LA (fadd h (dec "2.0")) G1 ltac:(lra)) as (_ & _ & fc & ec). apply Rabs_le_inv in ec.
  set (x := fadd h (dec "2.0")) in *. clearbody x. pose proof (COS_bound (B2R x)) as CB. set (c := cosf x) in *. clearbody c.
  destruct (fadd_S c (dec "3.8") fc F0 ltac:(rewrite V0; fsmall)) as [E2 G2]. rewrite V0 in E2. match type of E2 with _ = rnd ?r => pose proof (rnd_far r ltac:(lra)) as R2 end. rewrite <- E2 in R2.
  set (s := fadd c (dec "3.8")) in *. clearbody s.
  destruct (fmul_S (dec "0.25") s F1 G2 ltac:(rewrite V1; fsmall)) as [E3 G3]. rewrite V1 in E3. match type of E3 with _ = rnd ?r => pose proof (rnd_far r ltac:(lra)) as R3 end. rewrite <- E3 in R3.
  set (e := fmul (dec "0.25") s) in *. clearbody e. assert (be : 0.69 <= B2R e <= 1.21) by lra. clear - be f1 b1 f2 b2 V2 F2 G3.
  destruct (fmul_S e k G3 F2 ltac:(rewrite V2; fsmall)) as [E1 G1]. rewrite V2 in E1. match type of E1 with _ = rnd ?r => pose proof (rnd_uu r 6000 ltac:(lra) ltac:(lra)) as R1 end. rewrite <- E1 in R1. unfold uu in R1.
  set (m := fmul e k) in *. clearbody m. assert (bm : 2600 <= B2R m <= 4700) by lra. assert (X1 : B2R x1 = 1) by lra.
  destruct (fmul_S m x1 G1 f1 ltac:(rewrite X1; fsmall)) as [E2 G2]. rewrite X1 in E2. match type of E2 with _ = rnd ?r => pose proof (rnd_uu r 6000 ltac:(lra) ltac:(lra)) as R2 end. rewrite <- E2 in R2. unfold uu in R2.
  set (n := fmul m x1) in *. clearbody n. assert (bn : 2599 <= B2R n <= 4701) by lra.
  assert (P : 2599 * 1 <= B2R n * B2R x2) by (apply Rmult_le_compat; lra). assert (P2 : B2R n * B2R x2 <= 4701 * 1.04) by (apply Rmult_le_compat; lra).
  destruct (fmul_S n x2 G2 f2 ltac:(fsmall)) as [E4 G4]. pose proof (rnd_uu (B2R n * B2R x2) 6000 ltac:(lra) ltac:(lra)) as R4. rewrite <- E4 in R4. unfold uu in R4. split; [exact G4|lra].
Qed.

Lemma tic_near (vc : viewing_conditions) : vc_std vc -> fin (tic_of vc) /\ 0.99 <= B2R (tic_of vc) <= 1.26.
Proof using.
  intros S. unfold tic_of. destruct (vs_kk _ S) as [f1 b1]. set (k := kk_of (vc_n vc)) in *. clearbody k. fconst (dec "1.0").
  assert (B : 1 <= 1 / B2R k) by (apply le_div; lra). assert (B' : 1 / B2R k <= 1.25) by (apply div_le; lra).
  destruct (fdiv_S (dec "1.0") k F ltac:(lra) ltac:(rewrite V; fsmall)) as [E1 G1]. rewrite V in E1. pose proof (rnd_near (1 / B2R k) ltac:(lra)) as R1. rewrite <- E1 in R1. split; [exact G1|lra].
Qed.

Lemma ez_near : between (fdiv (fdiv (dec "1.0") c0) (fadd (dec "1.48") (fsqrt n0))) 0.7591 0.7592.
Proof using. fconst (fdiv (fdiv (dec "1.0") c0) (fadd (dec "1.48") (fsqrt n0))). split; [assumption|lra]. Qed.

(** What the exact answer of the iteration is like. *)
Lemma find_out (PS : pow_special lm) (h chroma y : f64) c : fin h -> 0 <= B2R h <= 7 -> fin chroma -> 1 / 10 ^ 5 <= B2R chroma <= 10 ^ 9 -> fin y -> 1.1 / 10 ^ 5 <= B2R y <= 100.01 ->
  find_result_by_j h chroma y = Ok c -> c <> 0%Z ->
  exists vc, s_rgb = Ok vc /\ env (vc_aw vc) (vc_nbb vc) (ezf vc) (tic_of vc) (p1_of vc h) (sinf h) (cosf h) chroma /\
    out vc (tic_of vc) (p1_of vc h) (sinf h) (cosf h) chroma y c (mu (B2R y)) (mu (B2R y)).
Proof using LA.
  intros fh bh fc bc fy by_ HF nc. destruct (find_eq h chroma y) as (vc & SR & S & A1 & A2 & A3 & A4 & E). rewrite E in HF. apply ok_inj in HF.
  exists vc. split; [exact SR|].
  assert (EN : env (vc_aw vc) (vc_nbb vc) (ezf vc) (tic_of vc) (p1_of vc h) (sinf h) (cosf h) chroma).
  { destruct aw_near as (g1 & g2 & g3 & g4). destruct (tic_near vc S) as [g5 g6]. destruct (p1_near vc h S fh bh) as [g7 g8].
    destruct (la_trig _ _ LA h fh ltac:(lra)) as (fs & es & fo & eo). apply Rabs_le_inv in es. apply Rabs_le_inv in eo.
    pose proof (COS_bound (B2R h)) as CB. pose proof (SIN_bound (B2R h)) as SB. pose proof (sin2_cos2 (B2R h)) as SC. unfold Rsqr in SC.
    destruct ez_near as [g9 g10]. assert (EZ : ezf vc = fdiv (fdiv (dec "1.0") c0) (fadd (dec "1.48") (fsqrt n0))) by (unfold ezf; rewrite A3, A4; reflexivity).
    set (s := sinf h) in *. set (o := cosf h) in *. clearbody s o. set (sr := sin (B2R h)) in *. set (cr := cos (B2R h)) in *. clearbody sr cr.
    rewrite A1, A2, EZ. constructor; try assumption; try lra.
    assert (M1 : B2R o * B2R o = cr * cr + (B2R o - cr) * (B2R o + cr)) by ring. assert (M2 : B2R s * B2R s = sr * sr + (B2R s - sr) * (B2R s + sr)) by ring.
    pose proof (mul_bnd (B2R o - cr) (B2R o + cr) (1 / 10 ^ 6) 3 ltac:(lra) ltac:(lra)). pose proof (mul_bnd (B2R s - sr) (B2R s + sr) (1 / 10 ^ 6) 3 ltac:(lra) ltac:(lra)). lra. }
  split; [exact EN|]. exact (five_rounds LA PS vc (tic_of vc) (p1_of vc h) (sinf h) (cosf h) chroma y EN fy ltac:(lra) c HF nc).
Qed.
End Acc.
