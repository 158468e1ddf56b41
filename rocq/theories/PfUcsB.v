(** * CAM16-UCS coordinates convert back: the vector.  Proof file. *)
From Coq Require Import ZArith Bool Reals Lra Lia Psatz String List.
From Flocq Require Import Core Relative IEEE754.BinarySingleNaN.
From Verif Require Import F64 MathUtils ColorUtils ViewingConditions Cam16 Spec SpecCam FloatFacts FloatMono PfMath PfTones PfLab PfGamma PfNear PfVc PfRel PfCamA PfCamB PfCamC PfCamD PfCamE PfCamF PfCamG PfCamH PfCamTrip PfHct PfRefTrig PfUcsA.
Open Scope string_scope.
Open Scope R_scope.

Lemma sq_le a b : 0 <= a -> 0 <= b -> a * a <= b * b -> a <= b.
Proof. intros h1 h2 h. apply Rsqr_incr_0_var; [exact h|exact h2]. Qed.

Lemma tri R c s e1 e2 E : 0 <= R -> c * c + s * s = 1 -> - E <= e1 <= E -> - E <= e2 <= E -> 0 <= E ->
  (R * c + e1) * (R * c + e1) + (R * s + e2) * (R * s + e2) <= (R + 2 * E) * (R + 2 * E).
Proof.
  intros hR h1 he1 he2 hE.
  assert (C : -1 <= c <= 1) by nra. assert (S : -1 <= s <= 1) by nra.
  pose proof (mul_bnd c e1 1 E C he1). pose proof (mul_bnd s e2 1 E S he2).
  assert (Q : R * (c * e1 + s * e2) <= R * (2 * E)) by (apply Rmult_le_compat_l; lra).
  pose proof (mul_bnd e1 e1 E E he1 he1). pose proof (mul_bnd e2 e2 E E he2 he2).
  assert (EE : 0 <= E * E) by (apply Rmult_le_pos; lra).
  replace ((R * c + e1) * (R * c + e1) + (R * s + e2) * (R * s + e2)) with (R * R * (c * c + s * s) + 2 * (R * (c * e1 + s * e2)) + e1 * e1 + e2 * e2) by ring.
  rewrite h1. lra.
Qed.

(** Two vectors of which one is a unit vector times [ms], and that are close. *)
Lemma vec_close ms c s a b r th E : 0 <= ms -> c * c + s * s = 1 -> - E <= a - ms * c <= E -> - E <= b - ms * s <= E -> 0 <= E ->
  r = sqrt (a * a + b * b) -> a = r * cos th -> b = r * sin th ->
  - (2 * E) <= r - ms <= 2 * E /\ - (3 * E) <= ms * (cos th - c) <= 3 * E /\ - (3 * E) <= ms * (sin th - s) <= 3 * E.
Proof.
  intros hm h1 ha hb hE Er Ea Eb. assert (Pr : 0 <= r) by (rewrite Er; apply sqrt_pos).
  assert (N : 0 <= a * a + b * b) by nra.
  assert (rr : r * r = a * a + b * b) by (rewrite Er; now apply sqrt_def).
  assert (T1 := tri ms c s (a - ms * c) (b - ms * s) E hm h1 ha hb hE).
  assert (U : cos th * cos th + sin th * sin th = 1) by (pose proof (sin2_cos2 th) as W; unfold Rsqr in W; lra).
  assert (T2 := tri r (cos th) (sin th) (ms * c - a) (ms * s - b) E Pr U ltac:(lra) ltac:(lra) hE). rewrite <- Ea, <- Eb in T2.
  replace (ms * c + (a - ms * c)) with a in T1 by ring. replace (ms * s + (b - ms * s)) with b in T1 by ring.
  replace (a + (ms * c - a)) with (ms * c) in T2 by ring. replace (b + (ms * s - b)) with (ms * s) in T2 by ring.
  assert (M : (ms * c) * (ms * c) + (ms * s) * (ms * s) = ms * ms) by (replace ((ms * c) * (ms * c) + (ms * s) * (ms * s)) with (ms * ms * (c * c + s * s)) by ring; rewrite h1; ring).
  assert (U1 : r <= ms + 2 * E) by (apply sq_le; lra). assert (U2 : ms <= r + 2 * E) by (apply sq_le; lra).
  split; [lra|]. pose proof (COS_bound th). pose proof (SIN_bound th).
  pose proof (mul_bnd (cos th) (ms - r) 1 (2 * E) ltac:(lra) ltac:(lra)). pose proof (mul_bnd (sin th) (ms - r) 1 (2 * E) ltac:(lra) ltac:(lra)). lra.
Qed.

Lemma hypot_wide (a b : f64) : fin a -> fin b -> -400 <= B2R a <= 400 -> -400 <= B2R b <= 400 ->
  let r := sqrt (B2R a * B2R a + B2R b * B2R b) in
  near (fsqrt (fadd (fmul a a) (fmul b b))) r (r * (1 / 10 ^ 15) + 1 / 10 ^ 20) /\ 0 <= B2R (fsqrt (fadd (fmul a a) (fmul b b))) /\ 0 <= r <= 600.
Proof.
  intros fa fb ba bb r. set (A := B2R a) in *. set (B := B2R b) in *.
  assert (A2 : 0 <= A * A <= 160000) by nra. assert (B2 : 0 <= B * B <= 160000) by nra.
  assert (Pr : 0 <= r) by apply sqrt_pos. assert (Er : r * r = A * A + B * B) by (apply sqrt_def; lra). assert (Br : r <= 600) by (apply sq_le; lra). clearbody r.
  destruct (fmul_S a a fa fa ltac:(fold A; unfold HUGE; lra)) as [E1 F1]. fold A in E1.
  destruct (fmul_S b b fb fb ltac:(fold B; unfold HUGE; lra)) as [E2 F2]. fold B in E2.
  pose proof (rnd_bounds (A * A) ltac:(lra)) as R1. rewrite <- E1 in R1. pose proof (rnd_bounds (B * B) ltac:(lra)) as R2. rewrite <- E2 in R2. pose proof eta_small as ES. unfold u53 in *.
  assert (Q1 : 0 <= B2R (fmul a a)) by (rewrite E1; apply rnd_ge_0; lra). assert (Q2 : 0 <= B2R (fmul b b)) by (rewrite E2; apply rnd_ge_0; lra).
  destruct (fadd_S (fmul a a) (fmul b b) F1 F2 ltac:(unfold HUGE; lra)) as [E3 F3].
  pose proof (rnd_bounds (B2R (fmul a a) + B2R (fmul b b)) ltac:(lra)) as R3. rewrite <- E3 in R3. unfold u53 in R3.
  assert (Q3 : 0 <= B2R (fadd (fmul a a) (fmul b b))) by (rewrite E3; apply rnd_ge_0; lra).
  set (s := fadd (fmul a a) (fmul b b)) in *. clearbody s.
  assert (H : r * r * (1 - 3 / 10 ^ 16) - 1 / 10 ^ 50 <= B2R s <= r * r * (1 + 3 / 10 ^ 16) + 1 / 10 ^ 50) by (rewrite Er; lra). clear - H Pr Br Q3 F3 ES.
  destruct (fsqrt_R s F3 Q3) as [F E]. assert (PS := sqrt_pos (B2R s)). assert (Es : sqrt (B2R s) * sqrt (B2R s) = B2R s) by (apply sqrt_def; lra).
  set (q := sqrt (B2R s)) in *. clearbody q.
  assert (rr : 0 <= r * r) by nra.
  assert (Q : r * (1 - 5 / 10 ^ 16) - 1 / 10 ^ 21 <= q <= r * (1 + 5 / 10 ^ 16) + 1 / 10 ^ 21).
  { split.
    - destruct (Rle_or_lt r (1 / 10 ^ 21)) as [l|l]; [lra|].
      destruct (Rle_or_lt (r * (1 - 5 / 10 ^ 16) - 1 / 10 ^ 21) 0) as [g|g]; [lra|]. apply sq_le; [lra|lra|].
      set (k := r * (1 - 5 / 10 ^ 16) - 1 / 10 ^ 21) in *. assert (K : k = r * (1 - 5 / 10 ^ 16) - 1 / 10 ^ 21) by reflexivity. clearbody k.
      assert (KK : k * k = r * r * (1 - 5 / 10 ^ 16) * (1 - 5 / 10 ^ 16) - 2 / 10 ^ 21 * (1 - 5 / 10 ^ 16) * r + 1 / 10 ^ 42) by (rewrite K; lra). lra.
    - apply sq_le; [lra|lra|]. set (k := r * (1 + 5 / 10 ^ 16) + 1 / 10 ^ 21). assert (K : k = r * (1 + 5 / 10 ^ 16) + 1 / 10 ^ 21) by reflexivity. clearbody k.
      assert (KK : k * k = r * r * (1 + 5 / 10 ^ 16) * (1 + 5 / 10 ^ 16) + 2 / 10 ^ 21 * (1 + 5 / 10 ^ 16) * r + 1 / 10 ^ 42) by (rewrite K; lra). lra. }
  pose proof (rnd_bounds q PS) as R4. rewrite <- E in R4. unfold u53 in R4.
  split; [split; [exact F|lra]|]. split; [|lra]. rewrite E. apply rnd_ge_0. exact PS.
Qed.

Lemma exp_tight u : -1 / 10 ^ 6 <= u <= 1 / 10 ^ 6 -> 1 + u <= exp u <= 1 + u + Rabs u / 10 ^ 5.
Proof.
  intros h. split; [apply exp_ineq1_le|].
  assert (P := exp_pos u). assert (Q := exp_ineq1_le (- u)). rewrite exp_Ropp in Q.
  assert (E : exp u * (1 - u) <= 1).
  { replace (1 - u) with (1 + - u) by ring. apply Rle_trans with (exp u * / exp u); [apply Rmult_le_compat_l; lra|]. rewrite Rinv_r; lra. }
  apply Rmult_le_reg_r with (1 - u); [lra|]. apply Rle_trans with (1 := E).
  unfold Rabs. destruct (Rcase_abs u) as [n|n].
  - assert (U2 : 0 <= u * u <= - u * (1 / 10 ^ 6)) by (split; [nra|]; replace (u * u) with (- u * - u) by ring; apply Rmult_le_compat_l; lra). lra.
  - assert (U2 : 0 <= u * u <= u * (1 / 10 ^ 6)) by (split; [nra|]; apply Rmult_le_compat_l; lra). lra.
Qed.

(** ** Back *)
Section Acc.
Context {lm : Libm} (LA : libm_accurate (1 / 10 ^ 14) lm).

Definition back_m (a b : f64) : f64 := fdiv (fsub (expf (fmul (fsqrt (fadd (fmul a a) (fmul b b))) (dec "0.0228"))) (dec "1.0")) (dec "0.0228").

Lemma ucs_m_back (m a b : f64) r : fin m -> 0 <= B2R m <= 3520 -> fin a -> fin b -> -400 <= B2R a <= 400 -> -400 <= B2R b <= 400 ->
  r = sqrt (B2R a * B2R a + B2R b * B2R b) -> let ms := B2R (fw_ucs_m m) in
  - (ms * (2.3 / 10 ^ 14) + 4 / 10 ^ 13) <= r - ms <= ms * (2.3 / 10 ^ 14) + 4 / 10 ^ 13 ->
  fin (back_m a b) /\ 0 <= B2R (back_m a b) /\
  - ((1 + 0.0228 * B2R m) * (3.9 / 10 ^ 13) / 0.0228) <= B2R (back_m a b) - B2R m <= (1 + 0.0228 * B2R m) * (3.9 / 10 ^ 13) / 0.0228.
Proof using LA.
  intros fm bm fa fb ba bb Er ms hr.
  destruct (ucs_m_fwd LA m fm bm) as (_ & Bms & Lms & _). fold ms in Bms, Lms. clearbody ms.
  destruct (hypot_wide a b fa fb ba bb) as ([fh bh] & ph & Br). rewrite <- Er in bh, Br. clear Er.
  unfold back_m. set (h := fsqrt _) in *. clearbody h. clear fa fb ba bb a b.
  fconst (dec "1.0"). fconst (dec "0.0228"). set (M := B2R m) in *. set (Y := 1 + 0.0228 * M) in *.
  assert (BY : 1 <= Y <= 81.3) by (unfold Y; lra). assert (EY : exp (ln Y) = Y) by (apply exp_ln; lra).
  set (L := ln Y) in *. clearbody L.
  assert (H1 : - (6 / 10 ^ 13) <= B2R h - r <= 6 / 10 ^ 13) by lra.
  destruct (fmul_S h (dec "0.0228") fh F0 ltac:(rewrite V0; unfold HUGE; lra)) as [E1 F1].
  assert (P1 : 0 <= B2R h * B2R (dec "0.0228")) by (apply Rmult_le_pos; lra).
  pose proof (rnd_bounds (B2R h * B2R (dec "0.0228")) P1) as R1. rewrite <- E1 in R1. pose proof eta_small as ETA. unfold u53 in R1.
  assert (Q1 : 0 <= B2R (fmul h (dec "0.0228"))) by (rewrite E1; apply rnd_ge_0; lra).
  set (x := fmul h (dec "0.0228")) in *. clearbody x. clear E1. rewrite V0 in R1.
  assert (X1 : - (3.78 / 10 ^ 13) <= B2R x - L <= 3.78 / 10 ^ 13) by lra.
  destruct (la_exp _ _ LA x F1 ltac:(lra)) as (F2 & E2 & G2). apply Rabs_le_inv in E2. specialize (G2 Q1).
  assert (EX : exp (B2R x) = Y * exp (B2R x - L)) by (rewrite <- EY, <- exp_plus; f_equal; ring).
  pose proof (exp_tight (B2R x - L) ltac:(lra)) as T. 
  assert (A : 0 <= Rabs (B2R x - L) <= 3.78 / 10 ^ 13) by (split; [apply Rabs_pos|apply Rabs_le; lra]).
  set (u := exp (B2R x - L)) in *. clearbody u. set (ab := Rabs (B2R x - L)) in *. clearbody ab.
  assert (U : 1 - 3.781 / 10 ^ 13 <= u <= 1 + 3.781 / 10 ^ 13) by lra.
  assert (YU : Y * (1 - 3.781 / 10 ^ 13) <= Y * u <= Y * (1 + 3.781 / 10 ^ 13)) by (split; apply Rmult_le_compat_l; lra).
  rewrite EX in E2. set (w := Y * u) in *. clearbody w.
  set (e := expf x) in *. clearbody e.
  assert (B2 : - (Y * (3.883 / 10 ^ 13)) <= B2R e - Y <= Y * (3.883 / 10 ^ 13)) by lra.
  destruct (fsub_S e (dec "1.0") F2 F ltac:(rewrite V; unfold HUGE; lra)) as [E3 F3]. rewrite V in E3.
  pose proof (rnd_bounds (B2R e - 1) ltac:(lra)) as R3. rewrite <- E3 in R3. unfold u53 in R3.
  assert (Q3 : 0 <= B2R (fsub e (dec "1.0"))) by (rewrite E3; apply rnd_ge_0; lra).
  set (n := fsub e (dec "1.0")) in *. clearbody n. clear E3.
  assert (B3 : - (Y * (3.885 / 10 ^ 13)) <= B2R n - 0.0228 * M <= Y * (3.885 / 10 ^ 13)) by (unfold Y in *; lra).
  assert (P4 : 0 <= B2R n / B2R (dec "0.0228") <= 4000) by (rewrite V0; unfold Y in *; split; lra).
  destruct (fdiv_S n (dec "0.0228") F3 ltac:(rewrite V0; lra) ltac:(unfold HUGE; lra)) as [E4 F4].
  pose proof (rnd_bounds (B2R n / B2R (dec "0.0228")) (proj1 P4)) as R4. rewrite <- E4 in R4. unfold u53 in R4.
  split; [exact F4|]. split; [rewrite E4; apply rnd_ge_0; lra|]. rewrite V0 in R4. unfold Y in *. lra.
Qed.

Lemma ucs_c_back (c flr a b : f64) r : fin c -> 0 <= B2R c <= 3903 -> between flr 0.7 0.9 -> fin a -> fin b -> -400 <= B2R a <= 400 -> -400 <= B2R b <= 400 ->
  r = sqrt (B2R a * B2R a + B2R b * B2R b) -> let ms := B2R (fw_ucs_m (fmul c flr)) in
  - (ms * (2.3 / 10 ^ 14) + 4 / 10 ^ 13) <= r - ms <= ms * (2.3 / 10 ^ 14) + 4 / 10 ^ 13 ->
  fin (fdiv (back_m a b) flr) /\ 0 <= B2R (fdiv (back_m a b) flr) /\
  - (4 / 10 ^ 13 * (63 + B2R c)) <= B2R (fdiv (back_m a b) flr) - B2R c <= 4 / 10 ^ 13 * (63 + B2R c).
Proof using LA.
  intros fc bc [ff bf] fa fb ba bb Er ms hr. set (C := B2R c) in *. set (f := B2R flr) in *.
  assert (P : 0 <= C * f <= 3513) by (split; [apply Rmult_le_pos; lra|apply Rle_trans with (3903 * 0.9); [apply Rmult_le_compat; lra|lra]]).
  destruct (fmul_S c flr fc ff ltac:(fold C f; unfold HUGE; lra)) as [E1 F1]. fold C f in E1.
  pose proof (rnd_bounds (C * f) (proj1 P)) as R1. rewrite <- E1 in R1. pose proof eta_small as ETA. unfold u53 in R1.
  assert (Q1 : 0 <= B2R (fmul c flr)) by (rewrite E1; apply rnd_ge_0; lra).
  destruct (ucs_m_back (fmul c flr) a b r F1 ltac:(lra) fa fb ba bb Er hr) as (F2 & Q2 & B2). clear hr ms Er.
  set (m := back_m a b) in *. clearbody m. set (M := B2R (fmul c flr)) in *. clearbody M.
  assert (P3 : 0 <= B2R m / f) by (apply Rmult_le_pos; [exact Q2|left; apply Rinv_0_lt_compat; lra]).
  assert (CF : 0.7 * C <= C * f <= 0.9 * C) by (split; [rewrite (Rmult_comm 0.7)|rewrite (Rmult_comm 0.9)]; apply Rmult_le_compat_l; lra).
  assert (P4 : - (3.95 / 10 ^ 13 * (62.9 + C)) <= B2R m / f - C <= 3.95 / 10 ^ 13 * (62.9 + C)).
  { assert (G : C - 3.95 / 10 ^ 13 * (62.9 + C) <= B2R m / f <= C + 3.95 / 10 ^ 13 * (62.9 + C)); [|lra].
    split; [apply le_div|apply div_le]; lra. }
  destruct (fdiv_S m flr F2 ltac:(fold f; lra) ltac:(fold f; unfold HUGE; lra)) as [E4 F4]. fold f in E4.
  pose proof (rnd_bounds (B2R m / f) P3) as R4. rewrite <- E4 in R4. unfold u53 in R4.
  split; [exact F4|]. split; [rewrite E4; apply rnd_ge_0; lra|]. lra.
Qed.

Definition back_h (a b : f64) : f64 :=
  let h := fmul (atan2f b a) (fdiv (dec "180.0") PI64) in if flt h (dec "0.0") then fadd h (dec "360.0") else h.

Lemma ucs_h_back (a b : f64) : fin a -> fin b ->
  exists th, B2R a = sqrt (B2R a * B2R a + B2R b * B2R b) * cos th /\ B2R b = sqrt (B2R a * B2R a + B2R b * B2R b) * sin th /\
    fin (rad (back_h a b)) /\ 0 <= B2R (rad (back_h a b)) <= 7 /\
    exists k, - (5 / 10 ^ 13) <= B2R (rad (back_h a b)) - (th + 2 * INR k * PI) <= 5 / 10 ^ 13.
Proof using LA.
  intros fa fb. destruct (la_atan2 _ _ LA b a fb fa) as (fA & th & bth & eA & ea & eb). apply Rabs_le_inv in eA.
  exists th. split; [exact ea|]. split; [exact eb|]. clear ea eb.
  unfold back_h. set (A := atan2f b a) in *. clearbody A. cbv zeta.
  destruct pi_float as (fp & bp & bp'). pose proof pi_lo as PL. pose proof pi_hi as PH.
  fconst (dec "0.0"). fconst (dec "360.0"). fconst (fdiv (dec "180.0") PI64).
  set (p := B2R PI64) in *.
  assert (C1 : near (fdiv (dec "180.0") PI64) (180 / p) (3 / 10 ^ 14)).
  { fconst (dec "180.0"). assert (K : near (dec "180.0") 180 0) by (split; [assumption|lra]).
    assert (Q : -58 <= 180 / p <= 58) by (split; [apply le_div|apply div_le]; lra).
    pose proof (near_div _ _ _ _ _ _ 58 3.14 K (near_self PI64 fp) ltac:(lra) ltac:(fold p; lra) ltac:(fold p; lra) ltac:(fold p; lra) ltac:(lra) ltac:(lra) ltac:(lra) ltac:(lra)) as N.
    fold p in N. apply near_weak with (1 := N). unfold uu. lra. }
  set (cc := fdiv (dec "180.0") PI64) in *. assert (Bcc : -58 <= B2R cc <= 58) by (rewrite V1; lra). clearbody cc.
  pose proof (near_mul _ _ _ _ _ _ 4 58 (near_self A fA) C1 ltac:(lra) Bcc ltac:(lra) ltac:(lra) ltac:(lra) ltac:(lra) ltac:(lra)) as ND.
  replace (B2R A * (180 / p)) with (B2R A * 180 / p) in ND by (field; lra).
  assert (ND' : near (fmul A cc) (B2R A * 180 / p) (2.2 / 10 ^ 13)) by (apply near_weak with (1 := ND); unfold uu; lra). clear ND.
  set (deg := fmul A cc) in *. clearbody deg.
  assert (BD : -181 <= B2R A * 180 / p <= 181) by (split; [apply le_div|apply div_le]; lra).
  assert (T : near (dec "360.0") (2 * p * 180 / p) 0) by (split; [exact F0|replace (2 * p * 180 / p) with 360 by (field; lra); lra]).
  assert (E3 : 2 * p * 180 / p = 360) by (field; lra).
  set (h := if flt deg (dec "0.0") then fadd deg (dec "360.0") else deg).
  assert (Main : exists k, (k <= 1)%nat /\ near h ((B2R A + INR k * (2 * p)) * 180 / p) (5 / 10 ^ 13) /\ 0 <= B2R h <= 361).
  { unfold h. destruct (flt deg (dec "0.0")) eqn:ED.
    - apply (flt_fin deg (dec "0.0") (near_fin _ _ _ ND') F) in ED.
      pose proof (near_add _ _ _ _ _ _ 550 ND' T ltac:(rewrite E3; lra) ltac:(lra) ltac:(lra) ltac:(lra) ltac:(lra)) as N.
      exists 1%nat. split; [lia|]. rewrite one_t. replace ((B2R A + 2 * p) * 180 / p) with (B2R A * 180 / p + 2 * p * 180 / p) by (field; lra).
      assert (N' : near (fadd deg (dec "360.0")) (B2R A * 180 / p + 2 * p * 180 / p) (5 / 10 ^ 13)) by (apply near_weak with (1 := N); unfold uu; lra).
      split; [exact N'|]. destruct N' as [_ b1]. destruct ND' as [_ b2]. rewrite E3 in b1. lra.
    - exists 0%nat. split; [lia|]. rewrite zero_t, Rplus_0_r. split; [apply near_weak with (1 := ND'); lra|].
      assert (0 <= B2R deg). { apply Rnot_lt_le. intros g. assert (flt deg (dec "0.0") = true) by (apply flt_fin; [exact (near_fin _ _ _ ND')|exact F|lra]). congruence. }
      destruct ND' as [_ b2]. lra. }
  clearbody h. clear ND' BD deg. destruct Main as (k & hk & N & Bh).
  assert (Kb : 0 <= INR k <= 1) by (split; [apply pos_INR|apply (le_INR k 1 hk)]).
  assert (KP : 0 <= INR k * (2 * p) <= 6.2832) by (split; [apply Rmult_le_pos; lra|apply Rle_trans with (1 * (2 * 3.1416)); [apply Rmult_le_compat; lra|lra]]).
  assert (KD : - (2.2 / 10 ^ 13) <= INR k * (2 * p) - 2 * INR k * PI <= 2.2 / 10 ^ 13).
  { replace (INR k * (2 * p) - 2 * INR k * PI) with (INR k * (2 * (p - PI))) by ring.
    pose proof (mul_bnd (INR k) (2 * (p - PI)) 1 (2.2 / 10 ^ 13) ltac:(lra) ltac:(lra)). lra. }
  destruct (rad_near h _ _ N ltac:(lra) ltac:(lra)) as [fr br].
  assert (fh := near_fin _ _ _ N).
  split; [exact fr|].
  assert (PR : 0 <= B2R (rad h)).
  { unfold rad. fconst (dec "180.0"). destruct (fmul_S h PI64 fh fp ltac:(fold p; pose proof (mul_bnd (B2R h) p 361 4 ltac:(lra) ltac:(lra)); unfold HUGE; lra)) as [G1 G2].
    fold p in G1. assert (R1 : -1501 <= rnd (B2R h * p) <= 1501).
    { pose proof (mul_bnd (B2R h) p 361 4 ltac:(lra) ltac:(lra)). pose proof (rnd_uu (B2R h * p) 1500 ltac:(lra) ltac:(lra)). unfold uu in *. lra. }
    destruct (fdiv_S (fmul h PI64) (dec "180.0") G2 ltac:(lra) ltac:(rewrite G1, V2; unfold HUGE; lra)) as [G3 _]. rewrite G3, G1, V2.
    apply rnd_ge_0. apply Rmult_le_pos; [|lra]. apply rnd_ge_0. apply Rmult_le_pos; lra. }
  assert (UR : B2R (rad h) <= 6.9).
  { pose proof (rad_near h (B2R h * p / 180) 0 ltac:(split; [exact fh|replace (B2R h * p / 180 * 180 / B2R PI64) with (B2R h) by (fold p; field; lra); lra]) ltac:(lra)
      ltac:(pose proof (mul_bnd (B2R h) p 361 3.1416 ltac:(lra) ltac:(lra)); lra)) as [_ q].
    assert (B2R h * p <= 361 * 3.1416) by (apply Rmult_le_compat; lra). lra. }
  split; [lra|]. exists k. lra.
Qed.
End Acc.
