(** * The description of a colour: hue, opponent coordinates, chroma, lightness.  Proof file. *)
From Coq Require Import ZArith Bool Reals Lra Lia Psatz String List.
From Flocq Require Import Core Relative IEEE754.BinarySingleNaN.
From Verif Require Import F64 MathUtils ColorUtils ViewingConditions Cam16 Spec SpecCam FloatFacts FloatMono PfMath PfTones PfLab PfGamma PfNear PfVc PfRel PfCamA PfCamD PfCamE PfCamF.
Open Scope string_scope.
Open Scope R_scope.

Lemma cos_turns x th k d : - d <= x - (th + 2 * INR k * PI) <= d -> - d <= cos x - cos th <= d /\ - d <= sin x - sin th <= d /\ - d <= cos (x + 2) - cos (th + 2) <= d.
Proof.
  intros h. rewrite <- (cos_period th k), <- (sin_period th k), <- (cos_period (th + 2) k).
  assert (A : Rabs (x - (th + 2 * INR k * PI)) <= d) by (apply Rabs_le; exact h).
  repeat split; try apply (proj1 (Rabs_le_inv _ _ (Rle_trans _ _ _ (cos_lip _ _) A)));
    try apply (proj2 (Rabs_le_inv _ _ (Rle_trans _ _ _ (cos_lip _ _) A)));
    try apply (proj1 (Rabs_le_inv _ _ (Rle_trans _ _ _ (sin_lip _ _) A)));
    try apply (proj2 (Rabs_le_inv _ _ (Rle_trans _ _ _ (sin_lip _ _) A))).
  all: assert (A' : Rabs (x + 2 - (th + 2 + 2 * INR k * PI)) <= d) by (replace (x + 2 - (th + 2 + 2 * INR k * PI)) with (x - (th + 2 * INR k * PI)) by ring; exact A).
  - apply (proj1 (Rabs_le_inv _ _ (Rle_trans _ _ _ (cos_lip _ _) A'))).
  - apply (proj2 (Rabs_le_inv _ _ (Rle_trans _ _ _ (cos_lip _ _) A'))).
Qed.

Lemma one_t x : INR 1 * x = x. Proof. simpl. ring. Qed.
Lemma zero_t x : INR 0 * x = 0. Proof. simpl. ring. Qed.

Section Acc.
Context {lm : Libm} (LA : libm_accurate (1 / 10 ^ 13) lm).

(** ** Hue *)
Lemma pi_float : fin PI64 /\ - (1.1 / 10 ^ 13) <= B2R PI64 - PI <= 1.1 / 10 ^ 13 /\ 3.14159 <= B2R PI64 <= 3.1416.
Proof using. fconst PI64. split; [assumption|]. pose proof pi_lo. pose proof pi_hi. lra. Qed.

Lemma deg_near (A : f64) : fin A -> -3.15 <= B2R A <= 3.15 ->
  near (fdiv (fmul A (dec "180.0")) PI64) (B2R A * 180 / B2R PI64) (2 / 10 ^ 13) /\ -181 <= B2R A * 180 / B2R PI64 <= 181.
Proof using.
  intros fA bA. destruct pi_float as (fp & _ & bp). set (p := PI64) in *. clearbody p. fconst (dec "180.0").
  assert (Q : -181 <= B2R A * 180 / B2R p <= 181) by (split; [apply le_div|apply div_le]; lra).
  split; [|exact Q]. assert (K : near (dec "180.0") 180 0) by (split; [exact F|lra]).
  pose proof (near_mul _ _ _ _ _ _ 4 180 (near_self A fA) K ltac:(lra) ltac:(lra) ltac:(lra) ltac:(lra) ltac:(lra) ltac:(lra) ltac:(lra)) as M.
  pose proof (near_div _ _ _ _ _ _ 200 3.14 M (near_self p fp) ltac:(lra) ltac:(lra) ltac:(lra) ltac:(lra) ltac:(unfold uu; lra) ltac:(lra) ltac:(unfold uu; lra) ltac:(lra)) as N.
  apply near_weak with (1 := N). unfold uu. lra.
Qed.

Lemma rad_near (h : f64) x d : near h (x * 180 / B2R PI64) d -> 0 <= d <= 1 / 10 ^ 10 -> -13 <= x <= 13 -> near (rad h) x (d * 0.02 + 2 / 10 ^ 14).
Proof using.
  intros nh hd hx. destruct pi_float as (fp & _ & bp). unfold rad. set (p := PI64) in *. clearbody p. fconst (dec "180.0").
  assert (Q : -800 <= x * 180 / B2R p <= 800) by (split; [apply le_div|apply div_le]; lra).
  assert (K : near (dec "180.0") 180 0) by (split; [exact F|lra]).
  pose proof (near_mul _ _ _ _ _ _ 800 3.1416 nh (near_self p fp) ltac:(lra) ltac:(lra) ltac:(lra) ltac:(lra) ltac:(lra) ltac:(lra) ltac:(lra)) as M.
  replace (x * 180 / B2R p * B2R p) with (x * 180) in M by (field; lra).
  assert (Q2 : x * 180 / 180 = x) by field.
  pose proof (near_div _ _ _ _ _ _ 14 180 M K ltac:(lra) ltac:(lra) ltac:(lra) ltac:(lra) ltac:(unfold uu; lra) ltac:(lra) ltac:(unfold uu; lra) ltac:(lra)) as N.
  rewrite Q2 in N. apply near_weak with (1 := N). unfold uu. lra.
Qed.

(** The hue of the opponent coordinates, and the angle used for the eccentricity. *)
Definition up (h : f64) : f64 := if flt h (dec "20.14") then fadd h (dec "360.0") else h.

Lemma hue_near (a b : f64) : fin a -> fin b -> let h := hue_of_ab a b in
  (fge h (dec "0.0") && flt h (dec "360.0"))%bool = true ->
  exists th, B2R a = sqrt (B2R a * B2R a + B2R b * B2R b) * cos th /\ B2R b = sqrt (B2R a * B2R a + B2R b * B2R b) * sin th /\
    (fin (rad h) /\ 0 <= B2R (rad h) <= 7) /\
    (exists k, - (5 / 10 ^ 13) <= B2R (rad h) - (th + 2 * INR k * PI) <= 5 / 10 ^ 13) /\
    (fin (rad (up h)) /\ 0 <= B2R (rad (up h)) <= 7) /\
    (exists k, - (8 / 10 ^ 13) <= B2R (rad (up h)) - (th + 2 * INR k * PI) <= 8 / 10 ^ 13) /\
    fin h /\ 0 <= B2R h < 360.
Proof using LA.
  intros fa fb h hb. destruct (la_atan2 _ _ LA b a fb fa) as (fA & th & bth & eA & ea & eb). apply Rabs_le_inv in eA.
  exists th. split; [exact ea|]. split; [exact eb|]. clear ea eb.
  assert (Eh : h = hue_of_ab a b) by reflexivity. clearbody h. unfold hue_of_ab in Eh. cbv zeta in Eh. set (A := atan2f b a) in *. clearbody A.
  destruct pi_float as (fp & bp & bp'). pose proof pi_lo as PL. pose proof pi_hi as PH. 
  destruct (deg_near A fA ltac:(lra)) as [ND BD]. set (deg := fdiv (fmul A (dec "180.0")) PI64) in *. clearbody deg.
  fconst (dec "0.0"). fconst (dec "360.0"). fconst (dec "20.14").
  assert (E360 : fge deg (dec "360.0") = false). { apply fle_fin_f; [exact F0|exact (near_fin _ _ _ ND)|]. destruct ND as [_ bn]. lra. }
  rewrite E360 in Eh. clear E360.
  assert (T : near (dec "360.0") (2 * B2R PI64 * 180 / B2R PI64) 0) by (split; [exact F0|replace (2 * B2R PI64 * 180 / B2R PI64) with 360 by (field; lra); lra]).
  assert (SS : forall x y, x * 180 / B2R PI64 + y * 180 / B2R PI64 = (x + y) * 180 / B2R PI64) by (intros; field; lra).
  assert (Main : exists k, (k <= 1)%nat /\ near h ((B2R A + INR k * (2 * B2R PI64)) * 180 / B2R PI64) (5 / 10 ^ 13)).
  { rewrite Eh. clear Eh hb. destruct (flt deg (dec "0.0")).
    - exists 1%nat. split; [lia|]. pose proof (near_add _ _ _ _ _ _ 550 ND T ltac:(replace (2 * B2R PI64 * 180 / B2R PI64) with 360 by (field; lra); lra) ltac:(lra) ltac:(lra) ltac:(lra) ltac:(lra)) as N.
      rewrite SS in N. rewrite one_t.
      apply near_weak with (1 := N). unfold uu. lra.
    - exists 0%nat. split; [lia|]. rewrite zero_t. rewrite Rplus_0_r. apply near_weak with (1 := ND). lra. }
  clear Eh ND. destruct Main as (k & hk & N).
  apply andb_prop in hb. destruct hb as [h0 h1]. assert (fh := near_fin _ _ _ N).
  assert (B0 : 0 <= B2R h) by (apply (fle_fin (dec "0.0") h F fh) in h0; lra).
  assert (B1 : B2R h < 360) by (apply (flt_fin h (dec "360.0") fh F0) in h1; lra).
  set (p := B2R PI64) in *.
  assert (Kb : 0 <= INR k <= 1) by (split; [apply pos_INR|apply (le_INR k 1 hk)]).
  assert (KP : 0 <= INR k * (2 * p) <= 6.2832) by (split; [apply Rmult_le_pos; lra|apply Rle_trans with (1 * (2 * 3.1416)); [apply Rmult_le_compat; lra|lra]]).
  assert (KD : - (2.2 / 10 ^ 13) <= INR k * (2 * p) - 2 * INR k * PI <= 2.2 / 10 ^ 13).
  { replace (INR k * (2 * p) - 2 * INR k * PI) with (INR k * (2 * (p - PI))) by ring.
    pose proof (mul_bnd (INR k) (2 * (p - PI)) 1 (2.2 / 10 ^ 13) ltac:(lra) ltac:(lra)). lra. }
  destruct (rad_near h _ _ N ltac:(lra) ltac:(lra)) as [fr br].
  assert (NR : B2R (rad h) = rnd (rnd (B2R h * p) / 180)).
  { unfold rad. fconst (dec "180.0"). destruct (fmul_S h PI64 fh fp ltac:(fold p; pose proof (mul_bnd (B2R h) p 360 4 ltac:(lra) ltac:(lra)); unfold HUGE; lra)) as [E1 G1].
    fold p in E1. assert (R1 : -1501 <= rnd (B2R h * p) <= 1501).
    { pose proof (mul_bnd (B2R h) p 360 4 ltac:(lra) ltac:(lra)). pose proof (rnd_uu (B2R h * p) 1500 ltac:(lra) ltac:(lra)). unfold uu in *. lra. }
    destruct (fdiv_S (fmul h PI64) (dec "180.0") G1 ltac:(lra) ltac:(rewrite E1, V2; unfold HUGE; lra)) as [E2 _]. now rewrite E2, E1, V2. }
  assert (PR : 0 <= B2R (rad h)).
  { rewrite NR. apply rnd_ge_0. apply Rmult_le_pos; [|lra]. apply rnd_ge_0. apply Rmult_le_pos; lra. }
  assert (UR : B2R (rad h) <= 6.9).
  { pose proof (rad_near h (B2R h * p / 180) 0 ltac:(split; [exact fh|replace (B2R h * p / 180 * 180 / B2R PI64) with (B2R h) by (fold p; field; lra); lra]) ltac:(lra)
      ltac:(pose proof (mul_bnd (B2R h) p 360 3.1416 ltac:(lra) ltac:(lra)); lra)) as [_ q].
    assert (B2R h * p <= 360 * 3.1416) by (apply Rmult_le_compat; lra). lra. }
  split; [split; [exact fr|lra]|]. split; [exists k; lra|].
  unfold up. destruct (flt h (dec "20.14")) eqn:EU.
  - apply (flt_fin h (dec "20.14") fh F1) in EU.
    assert (BN : B2R h - 5 / 10 ^ 13 <= (B2R A + INR k * (2 * p)) * 180 / p <= B2R h + 5 / 10 ^ 13) by (destruct N; lra).
    fold p in T.
    assert (E2 : 2 * p * 180 / p = 360) by (field; lra).
    pose proof (near_add _ _ _ _ _ _ 400 N T ltac:(rewrite E2; lra) ltac:(lra) ltac:(lra) ltac:(lra) ltac:(lra)) as N'. fold p in SS.
    rewrite SS in N'. 
    assert (XB : (B2R A + INR k * (2 * p)) * 180 / p * p = (B2R A + INR k * (2 * p)) * 180) by (field; lra).
    set (x := B2R A + INR k * (2 * p)) in *. set (q := x * 180 / p) in *.
    assert (XQ : - (1 / 10 ^ 12 * 4) <= q * p <= 20.2 * 3.1416).
    { split; [apply Rle_trans with ((- (5 / 10 ^ 13)) * p); [lra|apply Rmult_le_compat_r; lra]|].
      apply Rle_trans with (20.2 * p); [apply Rmult_le_compat_r; lra|lra]. }
    rewrite XB in XQ.
    destruct (rad_near (fadd h (dec "360.0")) (x + 2 * p) (7 / 10 ^ 13)) as [fu bu]; [fold p; apply near_weak with (1 := N'); unfold uu; lra|lra|lra|].
    split; [split; [exact fu|lra]|]. split; [|split; [exact fh|lra]].
    exists (S k). rewrite S_INR. unfold x in *. lra.
  - split; [split; [exact fr|lra]|]. split; [exists k; lra|split; [exact fh|lra]].
Qed.

(** ** Length of the opponent pair *)
Lemma hypot_near (a b : f64) : fin a -> fin b -> -13 <= B2R a <= 13 -> -13 <= B2R b <= 13 ->
  let r := sqrt (B2R a * B2R a + B2R b * B2R b) in
  near (fsqrt (fadd (fmul a a) (fmul b b))) r (4 / 10 ^ 14) /\ 0 <= B2R (fsqrt (fadd (fmul a a) (fmul b b))).
Proof using.
  intros fa fb ba bb r. set (A := B2R a) in *. set (B := B2R b) in *.
  assert (A2 : 0 <= A * A <= 169) by (split; [apply Rle_0_sqr|pose proof (mul_bnd A A 13 13 ltac:(lra) ltac:(lra)); lra]). assert (B2 : 0 <= B * B <= 169) by (split; [apply Rle_0_sqr|pose proof (mul_bnd B B 13 13 ltac:(lra) ltac:(lra)); lra]).
  assert (Pr : 0 <= r) by apply sqrt_pos. assert (Er : r * r = A * A + B * B) by (apply sqrt_def; lra). assert (Br : r <= 20) by nra. clearbody r.
  destruct (fmul_S a a fa fa ltac:(fold A; unfold HUGE; lra)) as [E1 F1]. fold A in E1.
  destruct (fmul_S b b fb fb ltac:(fold B; unfold HUGE; lra)) as [E2 F2]. fold B in E2.
  pose proof (rnd_bounds (A * A) ltac:(lra)) as R1. rewrite <- E1 in R1. pose proof (rnd_bounds (B * B) ltac:(lra)) as R2. rewrite <- E2 in R2. pose proof eta_small as ES. unfold u53 in *.
  assert (Q1 : 0 <= B2R (fmul a a)) by (rewrite E1; apply rnd_ge_0; lra). assert (Q2 : 0 <= B2R (fmul b b)) by (rewrite E2; apply rnd_ge_0; lra).
  destruct (fadd_S (fmul a a) (fmul b b) F1 F2 ltac:(unfold HUGE; lra)) as [E3 F3].
  pose proof (rnd_bounds (B2R (fmul a a) + B2R (fmul b b)) ltac:(lra)) as R3. rewrite <- E3 in R3. unfold u53 in R3.
  assert (Q3 : 0 <= B2R (fadd (fmul a a) (fmul b b))) by (rewrite E3; apply rnd_ge_0; lra).
  set (s := fadd (fmul a a) (fmul b b)) in *. clearbody s.
  assert (H : r * r * (1 - 1 / 10 ^ 15) - 1 / 10 ^ 50 <= B2R s <= r * r * (1 + 1 / 10 ^ 15) + 1 / 10 ^ 50) by (rewrite Er; lra). clear - H Pr Br Q3 F3.
  destruct (fsqrt_R s F3 Q3) as [F E]. assert (PS := sqrt_pos (B2R s)). assert (ES : sqrt (B2R s) * sqrt (B2R s) = B2R s) by (apply sqrt_def; lra).
  set (q := sqrt (B2R s)) in *. clearbody q.
  assert (rr : 0 <= r * r <= 20 * r) by (split; [apply Rmult_le_pos; lra|apply Rmult_le_compat_r; lra]).
  assert (Q : r - 3 / 10 ^ 14 <= q <= r + 3 / 10 ^ 14).
  { split; apply Rnot_lt_le; intros g.
    - assert (q * q <= (r - 3 / 10 ^ 14) * (r - 3 / 10 ^ 14)) by (apply Rmult_le_compat; lra). rewrite ES in *. lra.
    - assert ((r + 3 / 10 ^ 14) * (r + 3 / 10 ^ 14) <= q * q) by (apply Rmult_le_compat; lra). rewrite ES in *. lra. }
  pose proof (rnd_uu q 21 ltac:(lra) ltac:(lra)) as R4. rewrite <- E in R4. unfold uu in R4.
  split; [split; [exact F|lra]|]. rewrite E. apply rnd_ge_0. exact PS.
Qed.
End Acc.
