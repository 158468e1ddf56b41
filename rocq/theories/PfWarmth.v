(** * The temperature of a colour against the published formula.  Proof file. *)
From Coq Require Import ZArith Bool Reals Lra Lia Psatz String List.
From Flocq Require Import Core IEEE754.BinarySingleNaN.
From Verif Require Import F64 MathUtils ColorUtils Hct Temperature Spec SpecCam SpecAppear SpecCie SpecWarm FloatFacts FloatMono FloatCast PfArgb PfMath PfColor PfTones PfLab PfGamma PfLabTrip PfNear PfRel PfCamA PfCamD PfCamG PfTempRange PfCie.
Open Scope string_scope.
Open Scope R_scope.

Lemma cosZ x k : cos (x + 2 * IZR k * PI) = cos x.
Proof.
  destruct (Z.le_gt_cases 0 k) as [h|h].
  - rewrite <- (Z2Nat.id k h), <- INR_IZR_INZ. apply cos_period.
  - rewrite <- (cos_period (x + 2 * IZR k * PI) (Z.to_nat (- k))). f_equal. rewrite INR_IZR_INZ, Z2Nat.id by lia. rewrite opp_IZR. ring.
Qed.

(** The exponent as the code has it, less one. *)
Definition ex : R := B2R (dec "1.07") - 1.
Lemma ex_R : fin (dec "1.07") /\ 0.0699 <= ex <= 0.0701 /\ - (1 / 10 ^ 15) <= 1 + ex - 1.07 <= 1 / 10 ^ 15.
Proof. unfold ex. fconst (dec "1.07"). split; [exact F|]. split; lra. Qed.
Lemma small_pw C : 0 <= C <= 310 -> 0 <= pw C ex <= 1.6.
Proof.
  intros h. destruct ex_R as (_ & E & _). split; [apply pw_nonneg|]. apply Rle_trans with (pw 310 ex); [apply pw_mono; lra|]. rewrite pw_pos by lra.
  apply (pow_hi_big 310 ex 1.6 1 14); [lra|lra|lia|cbn [INR]; lra|lra].
Qed.
Lemma pw_split C : 0 <= C -> pw C (1 + ex) = pw C ex * C.
Proof.
  intros h. destruct (Req_dec C 0) as [->|n]; [rewrite !pw_0; ring|]. rewrite !pw_pos by lra. rewrite Rpower_plus, Rpower_1 by lra. ring.
Qed.

(** The part of the formula that depends on a* and b* does not react to small changes of these. *)
Definition pull (C a b k l : R) : R := pw C ex * (a * k + b * l).
Lemma radius_shift a b a' b' C C' d : 0 <= C -> 0 <= C' -> C * C = a * a + b * b -> C' * C' = a' * a' + b' * b' -> 0 <= d -> - d <= a' - a <= d -> - d <= b' - b <= d -> C' <= C + 2 * d.
Proof.
  intros hC hC' E E' hd ha hb. destruct (Rle_or_lt C' (C + 2 * d)) as [|g]; [assumption|exfalso].
  assert (A : - C <= a <= C) by (split; nra). assert (B : - C <= b <= C) by (split; nra).
  assert (G : (C + 2 * d) * (C + 2 * d) < C' * C') by (apply Rmult_le_0_lt_compat; lra). rewrite E' in G.
  assert (A2 : a' * a' <= a * a + 2 * d * C + d * d).
  { replace (a' * a') with (a * a + 2 * (a * (a' - a)) + (a' - a) * (a' - a)) by ring. pose proof (mul_bnd a (a' - a) C d A ha). pose proof (mul_bnd (a' - a) (a' - a) d d ha ha). lra. }
  assert (B2 : b' * b' <= b * b + 2 * d * C + d * d).
  { replace (b' * b') with (b * b + 2 * (b * (b' - b)) + (b' - b) * (b' - b)) by ring. pose proof (mul_bnd b (b' - b) C d B hb). pose proof (mul_bnd (b' - b) (b' - b) d d hb hb). lra. }
  assert (Q : (C + 2 * d) * (C + 2 * d) = C * C + 4 * (d * C) + 4 * (d * d)) by ring. assert (0 <= d * d) by nra. rewrite Q, E in G. lra.
Qed.
Lemma pull_shift a b a' b' C C' k l d : 0 <= C <= 305 -> 0 <= C' <= 305 -> C * C = a * a + b * b -> C' * C' = a' * a' + b' * b' -> 0 < d <= 1 -> - d <= a' - a <= d -> - d <= b' - b <= d -> -1 <= k <= 1 -> -1 <= l <= 1 ->
  - (60 * d) <= pull C' a' b' k l - pull C a b k l <= 60 * d.
Proof.
  intros hC hC' E E' hd ha hb hk hl. unfold pull.
  pose proof (radius_shift a b a' b' C C' d ltac:(lra) ltac:(lra) E E' ltac:(lra) ha hb) as R1.
  pose proof (radius_shift a' b' a b C' C d ltac:(lra) ltac:(lra) E' E ltac:(lra) ltac:(lra) ltac:(lra)) as R2.
  assert (A : - C <= a <= C) by (split; nra). assert (B : - C <= b <= C) by (split; nra).
  assert (A' : - C' <= a' <= C') by (split; nra). assert (B' : - C' <= b' <= C') by (split; nra).
  pose proof (mul_bnd a k C 1 A hk) as M1. pose proof (mul_bnd b l C 1 B hl) as M2. pose proof (mul_bnd a' k C' 1 A' hk) as M3. pose proof (mul_bnd b' l C' 1 B' hl) as M4.
  pose proof (small_pw C ltac:(lra)) as P. pose proof (small_pw C' ltac:(lra)) as P'.
  pose proof (mul_bnd (a' - a) k d 1 ha hk) as M5. pose proof (mul_bnd (b' - b) l d 1 hb hl) as M6.
  set (u := a * k + b * l) in *. set (u' := a' * k + b' * l) in *. assert (U : - (2 * C) <= u <= 2 * C) by (unfold u; lra). assert (U' : - (2 * C') <= u' <= 2 * C') by (unfold u'; lra).
  assert (D : - (2 * d) <= u' - u <= 2 * d) by (unfold u, u'; lra). clearbody u u'.
  destruct (Rle_or_lt C (8 * d)) as [s|s].
  - pose proof (mul_bnd (pw C ex) u 1.6 (2 * (8 * d)) ltac:(lra) ltac:(lra)). pose proof (mul_bnd (pw C' ex) u' 1.6 (2 * (10 * d)) ltac:(lra) ltac:(lra)). lra.
  - set (e := 2 * d / C). assert (He : e * C = 2 * d) by (unfold e; field; lra). assert (e0 : 0 <= e <= 1 / 4) by (unfold e; split; [apply Rmult_le_pos; [lra|left; apply Rinv_0_lt_compat; lra]|apply div_le; lra]). clearbody e.
    destruct (ln_near C' C e ltac:(lra) ltac:(lra) ltac:(lra)) as [Cp LN]. destruct ex_R as (_ & EX & _).
    destruct (rpow_near C' C ex ex (0.15 * e)) as [Q1 Q2]; [lra|lra| |lra|].
    { replace (ex * ln C' - ex * ln C) with (ex * (ln C' - ln C)) by ring. pose proof (mul_bnd ex (ln C' - ln C) 0.0701 (2 * e) ltac:(lra) ltac:(lra)). lra. }
    rewrite !pw_pos in * by lra. set (p := Rpower C ex) in *. set (p' := Rpower C' ex) in *. clearbody p p'.
    assert (PE : 0 <= p * e <= 1.6 * e) by (split; [apply Rmult_le_pos; lra|apply Rmult_le_compat_r; lra]).
    assert (DP : - (0.5 * e) <= p' - p <= 0.5 * e) by lra.
    replace (p' * u' - p * u) with ((p' - p) * u' + p * (u' - u)) by ring.
    pose proof (mul_bnd (p' - p) u' (0.5 * e) (2 * (1.25 * C)) DP ltac:(lra)) as T1. pose proof (mul_bnd p (u' - u) 1.6 (2 * d) ltac:(lra) D) as T2.
    assert (0.5 * e * (2 * (1.25 * C)) = 2.5 * d) by lra. lra.
Qed.
Lemma polar_pull C th a b : 0 <= C -> a = C * cos th -> b = C * sin th -> pw C (1 + ex) * cos (th - radians 50) = pull C a b (cos (radians 50)) (sin (radians 50)).
Proof. intros hC -> ->. rewrite pw_split by exact hC. unfold pull. rewrite cos_minus. ring. Qed.
Lemma polar_radius C th a b : a = C * cos th -> b = C * sin th -> C * C = a * a + b * b.
Proof. intros -> ->. pose proof (sin2_cos2 th) as S. unfold Rsqr in S. nra. Qed.
Lemma exponent_shift C : 0 <= C <= 305 -> - (1 / 10 ^ 6) <= pw C (1 + ex) - power C 1.07 <= 1 / 10 ^ 6.
Proof.
  intros h. destruct ex_R as (_ & EX & ED). change (power C 1.07) with (pw C 1.07).
  destruct (Req_dec C 0) as [->|n]; [rewrite !pw_0; lra|]. rewrite !pw_pos by lra. destruct (Rle_or_lt C (1 / 10 ^ 6)) as [s|s].
  - assert (B : forall y, 1 <= y -> 0 <= Rpower C y <= 1 / 10 ^ 6).
    { intros y hy. split; [left; apply exp_pos|]. apply Rle_trans with (Rpower C 1); [apply rpow_exp_small; lra|rewrite Rpower_1; lra]. }
    pose proof (B (1 + ex) ltac:(lra)). pose proof (B 1.07 ltac:(lra)). lra.
  - pose proof (PfViewingReal.ln_20 C ltac:(lra)) as L.
    destruct (rpow_near C C (1 + ex) 1.07 (3 / 10 ^ 14)) as [Q1 Q2]; [lra|lra| |lra|].
    { replace ((1 + ex) * ln C - 1.07 * ln C) with ((1 + ex - 1.07) * ln C) by ring. pose proof (mul_bnd (1 + ex - 1.07) (ln C) (1 / 10 ^ 15) 20 ltac:(lra) ltac:(lra)). lra. }
    assert (U : 0 <= Rpower C 1.07 <= 305 * 305).
    { split; [left; apply exp_pos|]. destruct (Rle_or_lt C 1) as [g|g].
      - apply Rle_trans with (Rpower C 0); [apply rpow_exp_small; lra|rewrite Rpower_O; lra].
      - apply Rle_trans with (Rpower C 2); [apply rpow_exp_big; lra|]. replace 2 with (INR 2) by (cbn [INR]; lra). rewrite Rpower_pow by lra. simpl. rewrite Rmult_1_r. apply Rmult_le_compat; lra. }
    lra.
Qed.

Section Acc.
Context {lm : Libm} (LA : libm_accurate (1 / 10 ^ 13) lm).

Lemma angle_near (a b : f64) : fin a -> fin b -> let r := sqrt (B2R a * B2R a + B2R b * B2R b) in exists th,
  B2R a = r * cos th /\ B2R b = r * sin th /\
  near (cosf (fdiv (fmul (sanitize_degrees_double (fsub (sanitize_degrees_double (fdiv (fmul (atan2f b a) (dec "180.0")) PI64)) (dec "50.0"))) PI64) (dec "180.0"))) (cos (th - radians 50)) (1 / 10 ^ 11).
Proof using LA.
  intros fa fb. cbv zeta. destruct (la_atan2 _ _ LA b a fb fa) as (fA & th & bth & eA & ea & eb). apply Rabs_le_inv in eA. exists th. split; [exact ea|]. split; [exact eb|]. clear ea eb.
  set (A := atan2f b a) in *. clearbody A. pose proof pi_lo as PL. pose proof pi_hi as PH.
  destruct (deg_near A fA ltac:(lra)) as [[FD ND] RD]. set (deg := fdiv (fmul A (dec "180.0")) PI64) in *. clearbody deg.
  assert (B45 : bpow radix2 (-45) <= 1 / 10 ^ 13) by (simpl bpow; lra).
  destruct (sanitize_double deg FD) as (k & FS & RS & _ & ES). apply Rabs_le_inv in ES. set (s := sanitize_degrees_double deg) in *. clearbody s.
  fconst (dec "50.0"). destruct (fsub_S s (dec "50.0") FS F ltac:(rewrite V; fsmall)) as [EM FM]. rewrite V in EM. pose proof (rnd_far (B2R s - 50) ltac:(lra)) as NM. rewrite <- EM in NM. set (m := fsub s (dec "50.0")) in *. clearbody m. clear EM.
  destruct (sanitize_double m FM) as (k' & FT & RT & _ & ET). apply Rabs_le_inv in ET. set (t := sanitize_degrees_double m) in *. clearbody t.
  destruct pi_float as (fp & dp & bp). set (p := PI64) in *. clearbody p. fconst (dec "180.0").
  pose proof (mul_bnd (B2R t) (B2R p) 360 3.1416 ltac:(lra) ltac:(lra)) as MB.
  destruct (fmul_S t p FT fp ltac:(unfold HUGE; lra)) as [E1 G1]. pose proof (rnd_far (B2R t * B2R p) ltac:(lra)) as N1. rewrite <- E1 in N1.
  set (w := fmul t p) in *. clearbody w. clear E1.
  destruct (fdiv_S w (dec "180.0") G1 ltac:(lra) ltac:(rewrite V0; unfold HUGE; lra)) as [E2 G2]. rewrite V0 in E2.
  pose proof (rnd_near (B2R w / 180) ltac:(lra)) as N2. rewrite <- E2 in N2.
  destruct (la_trig _ _ LA _ G2 ltac:(lra)) as (_ & _ & FC & EC). apply Rabs_le_inv in EC. split; [exact FC|].
  set (q := fdiv w (dec "180.0")) in *. clearbody q. clear E2 FC.
  set (D := B2R A * 180 / B2R p) in *. assert (ED : D * B2R p = B2R A * 180) by (unfold D; field; lra). clearbody D.
  set (K := IZR (k + k')). assert (EK : K = IZR k + IZR k') by (unfold K; apply plus_IZR).
  assert (TD : - (3 / 10 ^ 12) <= B2R t - (D - 50 - 360 * K) <= 3 / 10 ^ 12) by lra.
  assert (KB : -2 <= K <= 2) by lra.
  pose proof (mul_bnd (B2R t - (D - 50 - 360 * K)) (B2R p) _ 3.1416 TD ltac:(lra)) as TP.
  replace ((B2R t - (D - 50 - 360 * K)) * B2R p) with (B2R t * B2R p - D * B2R p + 50 * B2R p + 360 * (K * B2R p)) in TP by ring. rewrite ED in TP.
  pose proof (mul_bnd K (B2R p - PI) 2 (1.1 / 10 ^ 13) KB dp) as KP. replace (K * (B2R p - PI)) with (K * B2R p - K * PI) in KP by ring.
  assert (Q : - (2 / 10 ^ 12) <= B2R q - (th - radians 50 + 2 * IZR (- (k + k')) * PI) <= 2 / 10 ^ 12).
  { rewrite opp_IZR. fold K. unfold radians. set (kp := K * B2R p) in *. set (kpi := K * PI) in *. replace (2 * - K * PI) with (- (2 * kpi)) by (unfold kpi; ring). clearbody kp kpi. lra. }
  pose proof (cos_lip (B2R q) (th - radians 50 + 2 * IZR (- (k + k')) * PI)) as CL. rewrite cosZ in CL. apply Rabs_le in Q.
  pose proof (Rle_trans _ _ _ CL Q) as CQ. apply Rabs_le_inv in CQ. lra.
Qed.

Lemma root_near (a b : f64) : fin a -> fin b -> -248 <= B2R a <= 248 -> -173 <= B2R b <= 173 ->
  let r := sqrt (B2R a * B2R a + B2R b * B2R b) in let s := fsqrt (fadd (fmul a a) (fmul b b)) in fin s /\ 0 <= B2R s <= 305 /\ 0 <= r <= 304 /\ - (1 / 10 ^ 5) <= B2R s - r <= 1 / 10 ^ 5.
Proof using.
  intros fa fb ba bb. cbv zeta.
  assert (A2 : 0 <= B2R a * B2R a <= 61504) by (split; [apply Rle_0_sqr|pose proof (mul_bnd (B2R a) (B2R a) 248 248 ltac:(lra) ltac:(lra)); lra]).
  assert (B2 : 0 <= B2R b * B2R b <= 29929) by (split; [apply Rle_0_sqr|pose proof (mul_bnd (B2R b) (B2R b) 173 173 ltac:(lra) ltac:(lra)); lra]).
  destruct (fmul_S a a fa fa ltac:(unfold HUGE; lra)) as [E1 G1]. destruct (fmul_S b b fb fb ltac:(unfold HUGE; lra)) as [E2 G2].
  pose proof (rnd_uu (B2R a * B2R a) 100000 ltac:(lra) ltac:(lra)) as N1. pose proof (rnd_uu (B2R b * B2R b) 100000 ltac:(lra) ltac:(lra)) as N2.
  assert (P1 : 0 <= rnd (B2R a * B2R a)) by (apply rnd_ge_0; lra). assert (P2 : 0 <= rnd (B2R b * B2R b)) by (apply rnd_ge_0; lra).
  rewrite <- E1 in *. rewrite <- E2 in *. set (aa := fmul a a) in *. set (bb2 := fmul b b) in *. clearbody aa bb2. unfold uu in N1, N2.
  destruct (fadd_S aa bb2 G1 G2 ltac:(unfold HUGE; lra)) as [E3 G3].
  pose proof (rnd_uu (B2R aa + B2R bb2) 100000 ltac:(lra) ltac:(lra)) as N3. assert (P3 : 0 <= rnd (B2R aa + B2R bb2)) by (apply rnd_ge_0; lra).
  rewrite <- E3 in *. set (s := fadd aa bb2) in *. clearbody s. unfold uu in N3. clear E1 E2 E3 G1 G2.
  set (S := B2R a * B2R a + B2R b * B2R b) in *. assert (HS : 0 <= S <= 91433) by (unfold S; lra). assert (DS : - (7 / 10 ^ 11) <= B2R s - S <= 7 / 10 ^ 11) by (unfold S; lra). clearbody S. clear - P3 G3 HS DS.
  destruct (fsqrt_R s G3 P3) as [FQ EQ].
  assert (R0 : 0 <= sqrt S <= 303) by (split; [apply sqrt_pos|]; apply Rle_trans with (sqrt (303 * 303)); [apply sqrt_le_1; lra|rewrite sqrt_square; lra]).
  assert (R1 : 0 <= sqrt (B2R s)) by apply sqrt_pos. pose proof (sqrt_def S ltac:(lra)) as D1. pose proof (sqrt_def (B2R s) P3) as D2.
  set (x := sqrt S) in *. set (y := sqrt (B2R s)) in *. clearbody x y.
  assert (X : - (9.9 / 10 ^ 6) <= y - x <= 9.9 / 10 ^ 6).
  { set (d := 9.9 / 10 ^ 6). assert (dd : d * d = 9.801 / 10 ^ 11) by (unfold d; lra). assert (d0 : 0 < d) by (unfold d; lra). split.
    - destruct (Rle_or_lt (- d) (y - x)) as [|g]; [assumption|exfalso]. assert ((y + d) * (y + d) <= x * x) by (apply Rmult_le_compat; lra). assert (0 <= y * d) by (apply Rmult_le_pos; lra). lra.
    - destruct (Rle_or_lt (y - x) d) as [|g]; [assumption|exfalso]. assert ((x + d) * (x + d) <= y * y) by (apply Rmult_le_compat; lra). assert (0 <= x * d) by (apply Rmult_le_pos; lra). lra. }
  pose proof (rnd_uu y 400 ltac:(lra) ltac:(lra)) as N4. assert (P4 : 0 <= rnd y) by (apply rnd_ge_0; lra). rewrite <- EQ in *. unfold uu in N4. split; [exact FQ|]. lra.
Qed.

Lemma warmth_near (a b : f64) : fin a -> fin b -> -248 <= B2R a <= 248 -> -173 <= B2R b <= 173 -> exists C th, 0 <= C <= 304 /\ B2R a = C * cos th /\ B2R b = C * sin th /\
  near (warmth a b) (-0.5 + 0.02 * pw C (1 + ex) * cos (th - radians 50)) (2 / 10 ^ 6).
Proof using LA.
  intros fa fb ba bb. destruct (angle_near a b fa fb) as (th & ea & eb & NC). pose proof (root_near a b fa fb ba bb) as RN. cbv zeta in RN.
  set (C := sqrt _) in *. exists C, th. destruct RN as (FS & BS & BC & ES). split; [lra|]. split; [exact ea|]. split; [exact eb|]. clear ea eb. clearbody C.
  unfold warmth. cbv zeta. set (c := cosf _) in *. clearbody c. set (s := fsqrt _) in *. clearbody s. destruct ex_R as (F & EX & _). assert (EY : B2R (dec "1.07") = 1 + ex) by (unfold ex; ring).
  assert (L : forall x y, 0 <= x -> x <= y -> y <= 305 -> 0 <= pw y (1 + ex) - pw x (1 + ex) <= 2 * 1.6 * (y - x)).
  { intros x y h1 h2 h3. apply pw_lip; [lra|lra|lra| |lra]. intros hy. replace (1 + ex - 1) with ex by ring. rewrite <- pw_pos by exact hy. apply small_pw. lra. }
  assert (DW : - (3.3 / 10 ^ 5) <= pw (B2R s) (1 + ex) - pw C (1 + ex) <= 3.3 / 10 ^ 5).
  { destruct (Rle_or_lt (B2R s) C) as [g|g]; [pose proof (L (B2R s) C ltac:(lra) g ltac:(lra))|pose proof (L C (B2R s) ltac:(lra) ltac:(lra) ltac:(lra))]; lra. }
  assert (BW : forall x, 0 <= x <= 305 -> 0 <= pw x (1 + ex) <= 488).
  { intros x hx. rewrite pw_split by lra. pose proof (small_pw x ltac:(lra)). split; [apply Rmult_le_pos; lra|]. apply Rle_trans with (1.6 * 305); [apply Rmult_le_compat; lra|lra]. }
  pose proof (BW C ltac:(lra)) as W1. pose proof (BW (B2R s) ltac:(lra)) as W2.
  destruct (pow_any LA s (dec "1.07") FS F ltac:(lra) ltac:(lra) ltac:(rewrite EY; lra)) as (FP & PP & QP). rewrite EY in QP.
  set (W := pw C (1 + ex)) in *. set (w := pw (B2R s) (1 + ex)) in *. clearbody W w. set (po := powf s (dec "1.07")) in *. clearbody po. clear L BW EY.
  assert (NP : near po W (3.4 / 10 ^ 5)) by (split; [exact FP|lra]). fconst (dec "0.02"). fconst (dec "-0.5").
  pose proof (near_mul (dec "0.02") po 0.02 W (1 / 10 ^ 17) (3.4 / 10 ^ 5) 0.02 489 ltac:(split; [exact F0|rewrite V; lra]) NP ltac:(lra) ltac:(lra) ltac:(lra) ltac:(lra) ltac:(lra) ltac:(lra) ltac:(lra)) as N1.
  apply near_weak with (e' := 7 / 10 ^ 7) in N1; [|unfold uu; lra].
  pose proof (COS_bound (th - radians 50)) as CB. set (q := cos (th - radians 50)) in *. clearbody q.
  pose proof (near_mul _ c (0.02 * W) q (7 / 10 ^ 7) (1 / 10 ^ 11) 10 1.001 N1 NC ltac:(lra) ltac:(destruct NC; lra) ltac:(lra) ltac:(lra) ltac:(lra) ltac:(lra) ltac:(lra)) as N2.
  apply near_weak with (e' := 8 / 10 ^ 7) in N2; [|unfold uu; lra].
  pose proof (mul_bnd (0.02 * W) q 10 1 ltac:(lra) ltac:(lra)) as MB.
  pose proof (near_add (dec "-0.5") _ (-0.5) _ 0 _ 20 ltac:(split; [exact F1|rewrite V0; lra]) N2 ltac:(lra) ltac:(lra) ltac:(lra) ltac:(lra) ltac:(lra)) as N3.
  apply near_weak with (1 := N3). unfold uu. lra.
Qed.

Lemma raw_formula (h : hct) chroma hue : has_polar (red_from_argb (h_argb h)) (green_from_argb (h_argb h)) (blue_from_argb (h_argb h)) chroma hue ->
  right_to (1 / 10 ^ 4) (raw_temperature h) (temperature_of chroma hue).
Proof using LA.
  intros (hc & ea & eb). pose proof (lab_small LA (h_argb h)) as L. cbv zeta in L. pose proof (lab_of LA (h_argb h)) as N. cbv zeta in N.
  change (raw_temperature h) with (warmth (v1 (lab_from_argb (h_argb h))) (v2 (lab_from_argb (h_argb h)))).
  destruct (lab_from_argb (h_argb h)) as [[l a] b]. unfold v1, v2 in *. cbn [fst snd] in *. destruct L as (Fa & Fb & Ba & Bb). destruct N as (_ & [_ Na] & [_ Nb]).
  set (ra := srgb_a _ _ _) in *. set (rb := srgb_b _ _ _) in *. clearbody ra rb.
  destruct (warmth_near a b Fa Fb ltac:(lra) ltac:(lra)) as (C & th & hC & qa & qb & NW).
  pose proof (polar_radius C th _ _ qa qb) as E. pose proof (polar_radius chroma (radians hue) _ _ ea eb) as E'.
  pose proof (radius_shift _ _ ra rb C chroma (1 / 10 ^ 5) ltac:(lra) hc E E' ltac:(lra) ltac:(lra) ltac:(lra)) as RS.
  pose proof (COS_bound (radians 50)) as K. pose proof (SIN_bound (radians 50)) as S.
  pose proof (pull_shift _ _ ra rb C chroma (cos (radians 50)) (sin (radians 50)) (1 / 10 ^ 5) ltac:(lra) ltac:(lra) E E' ltac:(lra) ltac:(lra) ltac:(lra) K S) as PS.
  rewrite <- (polar_pull C th _ _ ltac:(lra) qa qb), <- (polar_pull chroma (radians hue) _ _ hc ea eb) in PS.
  pose proof (exponent_shift chroma ltac:(lra)) as XS. unfold temperature_of.
  replace (radians (hue - 50)) with (radians hue - radians 50) by (unfold radians; field).
  pose proof (COS_bound (radians hue - radians 50)) as KB. set (q := cos (radians hue - radians 50)) in *. set (q0 := cos (th - radians 50)) in *.
  set (W := pw C (1 + ex)) in *. set (W' := pw chroma (1 + ex)) in *. set (P := power chroma 1.07) in *. clearbody q q0 W W' P.
  pose proof (mul_bnd (W' - P) q (1 / 10 ^ 6) 1 XS ltac:(lra)) as M.
  apply right with (e := 2 / 10 ^ 5); [|lra]. apply near_move with (1 := NW).
  replace (-0.5 + 0.02 * W * q0 - (-0.5 + 0.02 * P * q)) with (- (0.02 * (W' * q - W * q0)) + 0.02 * ((W' - P) * q)) by ring. lra.
Qed.
End Acc.

(** Every colour has a chroma and a hue. *)
Lemma polar_exists a b : exists C th, 0 <= C /\ a = C * cos (radians th) /\ b = C * sin (radians th).
Proof.
  destruct (Req_dec (a * a + b * b) 0) as [z|n].
  - exists 0, 0. assert (a = 0) by nra. assert (b = 0) by nra. lra.
  - set (C := sqrt (a * a + b * b)). assert (P : 0 < a * a + b * b) by nra. assert (HC : 0 < C) by (apply sqrt_lt_R0; exact P). assert (E : C * C = a * a + b * b) by (apply sqrt_def; lra).
    assert (U : -1 <= a / C <= 1) by (split; [apply le_div|apply div_le]; nra).
    pose proof PI_RGT_0 as PP. assert (RD : forall x, radians (x * 180 / PI) = x) by (intros x; unfold radians; field; lra).
    assert (SQ : Rsqr (b / C) = 1 - Rsqr (a / C)). { unfold Rsqr. apply Rmult_eq_reg_r with (C * C); [|nra]. replace (b / C * (b / C) * (C * C)) with (b * b) by (field; lra). replace ((1 - a / C * (a / C)) * (C * C)) with (C * C - a * a) by (field; lra). rewrite E. ring. }
    destruct (Rle_or_lt 0 b) as [s|s].
    + exists C, (acos (a / C) * 180 / PI). rewrite RD, cos_acos by exact U. split; [lra|]. split; [field; lra|]. rewrite sin_acos by exact U. rewrite <- SQ, sqrt_Rsqr; [field; lra|]. apply le_div; lra.
    + exists C, ((- acos (a / C)) * 180 / PI). rewrite RD, cos_neg, sin_neg, cos_acos by exact U. split; [lra|]. split; [field; lra|]. rewrite sin_acos by exact U. rewrite <- SQ, sqrt_Rsqr_abs, Rabs_left; [field; lra|]. apply Rmult_lt_reg_r with C; [lra|]. unfold Rdiv. rewrite Rmult_assoc, Rinv_l by lra. lra.
Qed.
Lemma some_polar r g b : exists chroma hue, has_polar r g b chroma hue.
Proof. destruct (polar_exists (srgb_a r g b) (srgb_b r g b)) as (C & th & h). exists C, th. exact h. Qed.

Lemma temp_neutral hue : temperature_of 0 hue = -0.5.
Proof. unfold temperature_of. change (power 0 1.07) with (pw 0 1.07). rewrite pw_0. lra. Qed.
Lemma temp_ends : temperature_of 1 50 = -0.48 /\ temperature_of 1 230 = -0.52.
Proof.
  unfold temperature_of. change (power 1 1.07) with (pw 1 1.07). rewrite pw_pos by lra. replace (Rpower 1 1.07) with 1 by (unfold Rpower; rewrite ln_1, Rmult_0_r; symmetry; apply exp_0).
  replace (radians (50 - 50)) with 0 by (unfold radians; field). replace (radians (230 - 50)) with PI by (unfold radians; field). rewrite cos_0, cos_PI. lra.
Qed.
