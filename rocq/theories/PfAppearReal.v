(** * The appearance of a stimulus: the pieces.  Proof file. *)
From Coq Require Import ZArith Bool Reals Lra Lia Psatz String List.
From Flocq Require Import Core Relative IEEE754.BinarySingleNaN.
From Verif Require Import F64 MathUtils ColorUtils ViewingConditions Cam16 Spec SpecCam SpecViewing SpecAppear FloatFacts FloatMono PfMath PfTones PfLab PfGamma PfNear PfVc PfRel
  PfCamA PfCamB PfCamC PfCamD PfCamE PfCamF PfCamG PfCamH PfViewingReal.
Open Scope string_scope.
Open Scope R_scope.

Lemma ln_100 r : 1 / 10 ^ 30 <= r <= 10 ^ 30 -> -100 <= ln r <= 100.
Proof.
  intros h. assert (L2 : ln (2 ^ 100) = 100 * ln 2) by (rewrite ln_pow by lra; rewrite INR_IZR_INZ; change (Z.of_nat 100) with 100%Z; lra). pose proof (ln_le_sub 2 ltac:(lra)) as B.
  assert (U : forall x, 0 < x <= 10 ^ 30 -> ln x <= 100).
  { intros x hx. apply Rle_trans with (ln (2 ^ 100)); [|lra]. destruct (Req_dec x (2 ^ 100)) as [->|]; [lra|]. left. apply ln_increasing; lra. }
  split; [|apply U; lra]. assert (I : ln (/ r) = - ln r) by (apply ln_Rinv; lra).
  assert (0 < / r <= 10 ^ 30). { split; [apply Rinv_0_lt_compat; lra|]. apply Rmult_le_reg_r with r; [lra|]. rewrite Rinv_l by lra. lra. }
  pose proof (U (/ r) H). lra.
Qed.

Lemma frel_div' x y r s a b : frel x r a -> frel y s b -> 0 <= a <= 1 / 20 -> 0 <= b <= 1 / 20 -> 2 / 10 ^ 30 <= r / s <= 10 ^ 20 ->
  frel (fdiv x y) (r / s) (1.4 * (a + b) + 3 / 10 ^ 16).
Proof.
  intros [fx hx] [fy hy] ha hb h. pose proof (rel_div _ _ _ _ _ _ hx hy ha hb) as P.
  pose proof (rel_big _ _ _ P ltac:(lra) ltac:(lra)) as G. pose proof (rel_pos _ _ _ hy ltac:(lra)) as Y.
  destruct (fdiv_S x y fx ltac:(lra) ltac:(unfold HUGE; lra)) as [E F]. split; [exact F|]. rewrite E. apply rel_rnd; [exact P|lra|lra].
Qed.

(** ** Cone responses *)
Lemma term_near (c x : f64) k : fin c -> - (2 / 10 ^ 16) <= B2R c - k <= 2 / 10 ^ 16 -> -1.3 <= k <= 1.3 -> fin x -> 0 <= B2R x <= 200 -> near (fmul c x) (k * B2R x) (2 / 10 ^ 13).
Proof.
  intros fc hc hk fx bx. apply near_weak with (1 := near_mul c x k (B2R x) (2 / 10 ^ 16) 0 1.3 200 ltac:(split; [exact fc|lra]) (near_self x fx) ltac:(lra) ltac:(lra) ltac:(lra) ltac:(lra) ltac:(lra) ltac:(lra) ltac:(lra)).
  unfold uu. lra.
Qed.
Lemma red_near (x y z : f64) : fin x -> fin y -> fin z -> 0 <= B2R x <= 200 -> 0 <= B2R y <= 200 -> 0 <= B2R z <= 200 -> near (cone_r x y z) (cone_red (B2R x) (B2R y) (B2R z)) (2 / 10 ^ 12).
Proof.
  intros fx fy fz bx by_ bz. unfold cone_r, cone_red. fconst (dec "0.401288"). fconst (dec "0.650173"). fconst (dec "0.051461").
  pose proof (term_near _ x 0.401288 F ltac:(lra) ltac:(lra) fx bx) as N1. pose proof (term_near _ y 0.650173 F0 ltac:(lra) ltac:(lra) fy by_) as N2. pose proof (term_near _ z 0.051461 F1 ltac:(lra) ltac:(lra) fz bz) as N3.
  pose proof (near_add _ _ _ _ _ _ 600 N1 N2 ltac:(lra) ltac:(lra) ltac:(lra) ltac:(lra) ltac:(lra)) as N4.
  pose proof (near_sub _ _ _ _ _ _ 600 N4 N3 ltac:(lra) ltac:(unfold uu; lra) ltac:(lra) ltac:(unfold uu; lra) ltac:(lra)) as N5. apply near_weak with (1 := N5). unfold uu. lra.
Qed.
Lemma green_near (x y z : f64) : fin x -> fin y -> fin z -> 0 <= B2R x <= 200 -> 0 <= B2R y <= 200 -> 0 <= B2R z <= 200 -> near (cone_g x y z) (cone_green (B2R x) (B2R y) (B2R z)) (2 / 10 ^ 12).
Proof.
  intros fx fy fz bx by_ bz. unfold cone_g, cone_green. fconst (dec "-0.250268"). fconst (dec "1.204414"). fconst (dec "0.045854").
  pose proof (term_near _ x (-0.250268) F ltac:(lra) ltac:(lra) fx bx) as N1. pose proof (term_near _ y 1.204414 F0 ltac:(lra) ltac:(lra) fy by_) as N2. pose proof (term_near _ z 0.045854 F1 ltac:(lra) ltac:(lra) fz bz) as N3.
  pose proof (near_add _ _ _ _ _ _ 600 N1 N2 ltac:(lra) ltac:(lra) ltac:(lra) ltac:(lra) ltac:(lra)) as N4.
  pose proof (near_add _ _ _ _ _ _ 600 N4 N3 ltac:(lra) ltac:(unfold uu; lra) ltac:(lra) ltac:(unfold uu; lra) ltac:(lra)) as N5. apply near_move with (1 := N5). unfold uu. lra.
Qed.
Lemma blue_near (x y z : f64) : fin x -> fin y -> fin z -> 0 <= B2R x <= 200 -> 0 <= B2R y <= 200 -> 0 <= B2R z <= 200 -> near (cone_b x y z) (cone_blue (B2R x) (B2R y) (B2R z)) (2 / 10 ^ 12).
Proof.
  intros fx fy fz bx by_ bz. unfold cone_b, cone_blue. fconst (dec "-0.002079"). fconst (dec "0.048952"). fconst (dec "0.953127").
  pose proof (term_near _ x (-0.002079) F ltac:(lra) ltac:(lra) fx bx) as N1. pose proof (term_near _ y 0.048952 F0 ltac:(lra) ltac:(lra) fy by_) as N2. pose proof (term_near _ z 0.953127 F1 ltac:(lra) ltac:(lra) fz bz) as N3.
  pose proof (near_add _ _ _ _ _ _ 600 N1 N2 ltac:(lra) ltac:(lra) ltac:(lra) ltac:(lra) ltac:(lra)) as N4.
  pose proof (near_add _ _ _ _ _ _ 600 N4 N3 ltac:(lra) ltac:(unfold uu; lra) ltac:(lra) ltac:(unfold uu; lra) ltac:(lra)) as N5. apply near_move with (1 := N5). unfold uu. lra.
Qed.

(** ** Opponent coordinates: those of slightly different responses, exactly *)
Lemma opponents_near (r g b : f64) : between r 0.0029 401 -> between g 0.0029 401 -> between b 0.0029 401 ->
  fin (fw_a r g b) /\ fin (fw_b r g b) /\ exists r' b', rel (B2R r) r' (2 / 10 ^ 9) /\ rel (B2R b) b' (2 / 10 ^ 9) /\
    redness r' (B2R g) b' = B2R (fw_a r g b) /\ yellowness r' (B2R g) b' = B2R (fw_b r g b).
Proof.
  intros [fr br] [fg bg] [fb bb]. unfold fw_a, fw_b. fconst (dec "11.0"). fconst (dec "-12.0"). fconst (dec "2.0"). fconst (dec "9.0").
  pose proof (near_mul (dec "11.0") r 11 (B2R r) 0 0 11 401 (near_c _ _ 11 0 F V ltac:(lra)) (near_self r fr) ltac:(lra) ltac:(lra) ltac:(lra) ltac:(lra) ltac:(lra) ltac:(lra) ltac:(lra)) as N1.
  pose proof (near_mul (dec "-12.0") g (-12) (B2R g) 0 0 12 401 (near_c _ _ (-12) 0 F0 V0 ltac:(lra)) (near_self g fg) ltac:(lra) ltac:(lra) ltac:(lra) ltac:(lra) ltac:(lra) ltac:(lra) ltac:(lra)) as N2.
  pose proof (near_add _ _ _ _ _ _ 5000 N1 N2 ltac:(lra) ltac:(unfold uu; lra) ltac:(unfold uu; lra) ltac:(unfold uu; lra) ltac:(lra)) as N3.
  pose proof (near_add _ b _ _ _ _ 5500 N3 (near_self b fb) ltac:(lra) ltac:(unfold uu; lra) ltac:(lra) ltac:(unfold uu; lra) ltac:(lra)) as N4.
  pose proof (near_div _ (dec "11.0") _ 11 _ 0 500 11 N4 (near_c _ _ 11 0 F V ltac:(lra)) ltac:(lra) ltac:(lra) ltac:(lra) ltac:(lra) ltac:(unfold uu; lra) ltac:(lra) ltac:(unfold uu; lra) ltac:(lra)) as N5.
  apply near_weak with (e' := 1.1 / 10 ^ 12) in N5; [|unfold uu; lra].
  pose proof (near_add r g _ _ 0 0 802 (near_self r fr) (near_self g fg) ltac:(lra) ltac:(lra) ltac:(lra) ltac:(lra) ltac:(lra)) as M1.
  pose proof (near_mul (dec "2.0") b 2 (B2R b) 0 0 2 401 (near_c _ _ 2 0 F1 V1 ltac:(lra)) (near_self b fb) ltac:(lra) ltac:(lra) ltac:(lra) ltac:(lra) ltac:(lra) ltac:(lra) ltac:(lra)) as M2.
  pose proof (near_sub _ _ _ _ _ _ 810 M1 M2 ltac:(lra) ltac:(unfold uu; lra) ltac:(unfold uu; lra) ltac:(unfold uu; lra) ltac:(lra)) as M3.
  pose proof (near_div _ (dec "9.0") _ 9 _ 0 100 9 M3 (near_c _ _ 9 0 F2 V2 ltac:(lra)) ltac:(lra) ltac:(lra) ltac:(lra) ltac:(lra) ltac:(unfold uu; lra) ltac:(lra) ltac:(unfold uu; lra) ltac:(lra)) as M4.
  apply near_weak with (e' := 2 / 10 ^ 13) in M4; [|unfold uu; lra].
  set (a := fdiv (fadd (fadd _ _) b) _) in *. set (bb_ := fdiv (fsub _ _) _) in *. clearbody a bb_. clear N1 N2 N3 N4 M1 M2 M3 F F0 F1 F2 V V0 V1 V2.
  destruct N5 as [fa ea]. destruct M4 as [fbb eb]. split; [exact fa|]. split; [exact fbb|].
  exists (9 * B2R bb_ - B2R g + 2 * ((11 * B2R a + 23 * B2R g - 99 * B2R bb_) / 23)), ((11 * B2R a + 23 * B2R g - 99 * B2R bb_) / 23).
  set (b' := (11 * B2R a + 23 * B2R g - 99 * B2R bb_) / 23). set (r' := 9 * B2R bb_ - B2R g + 2 * b').
  assert (E1 : - (3 / 10 ^ 12) <= b' - B2R b <= 3 / 10 ^ 12) by (unfold b'; lra). assert (E2 : - (5.7 / 10 ^ 12) <= r' - B2R r <= 5.7 / 10 ^ 12) by (unfold r', b'; lra).
  split; [split; lra|]. split; [split; lra|]. split; [unfold redness, r', b'; lra|unfold yellowness, r'; lra].
Qed.

(** ** The length of the opponent pair *)
Lemma length_near (a b : f64) : fin a -> fin b -> -900 <= B2R a <= 900 -> -100 <= B2R b <= 100 ->
  let r := sqrt (B2R a * B2R a + B2R b * B2R b) in let s := fsqrt (fadd (fmul a a) (fmul b b)) in
  fin s /\ 0 <= B2R s /\ r <= 1000 /\ (1 / 10 ^ 26 <= r -> frel s r (1 / 10 ^ 14)) /\ (r <= 1 / 10 ^ 26 -> B2R s <= 2 / 10 ^ 26).
Proof.
  intros fa fb ba bb r. cbv zeta. set (A := B2R a) in *. set (B := B2R b) in *.
  assert (A2 : 0 <= A * A <= 810000) by nra. assert (B2 : 0 <= B * B <= 10000) by nra.
  assert (Pr : 0 <= r) by apply sqrt_pos. assert (Er : r * r = A * A + B * B) by (apply sqrt_def; lra). assert (Br : r <= 1000) by nra. clearbody r.
  destruct (fmul_S a a fa fa ltac:(fold A; unfold HUGE; lra)) as [E1 F1]. fold A in E1.
  destruct (fmul_S b b fb fb ltac:(fold B; unfold HUGE; lra)) as [E2 F2]. fold B in E2.
  pose proof (rnd_bounds (A * A) ltac:(lra)) as R1. rewrite <- E1 in R1. pose proof (rnd_bounds (B * B) ltac:(lra)) as R2. rewrite <- E2 in R2. assert (ES : eta <= 1 / 10 ^ 100) by (unfold eta; apply Rle_trans with (bpow radix2 (-400)); [apply bpow_le; lia|simpl bpow; lra]). unfold u53 in *.
  assert (Q1 : 0 <= B2R (fmul a a)) by (rewrite E1; apply rnd_ge_0; lra). assert (Q2 : 0 <= B2R (fmul b b)) by (rewrite E2; apply rnd_ge_0; lra).
  destruct (fadd_S (fmul a a) (fmul b b) F1 F2 ltac:(unfold HUGE; lra)) as [E3 F3].
  pose proof (rnd_bounds (B2R (fmul a a) + B2R (fmul b b)) ltac:(lra)) as R3. rewrite <- E3 in R3. unfold u53 in R3.
  assert (Q3 : 0 <= B2R (fadd (fmul a a) (fmul b b))) by (rewrite E3; apply rnd_ge_0; lra).
  set (s := fadd (fmul a a) (fmul b b)) in *. clearbody s.
  assert (H : r * r * (1 - 1 / 10 ^ 15) - 1 / 10 ^ 90 <= B2R s <= r * r * (1 + 1 / 10 ^ 15) + 1 / 10 ^ 90) by (rewrite Er; lra). clear - H Pr Br Q3 F3.
  destruct (fsqrt_R s F3 Q3) as [F E]. split; [exact F|]. split; [rewrite E; apply rnd_ge_0, sqrt_pos|]. split; [exact Br|]. split.
  - intros big. assert (rr : 1 / 10 ^ 26 * (1 / 10 ^ 26) <= r * r) by (apply Rmult_le_compat; lra).
    assert (RS : rel (B2R s) (r * r) (2 / 10 ^ 15)) by (split; lra).
    pose proof (rel_sqrt _ _ _ RS ltac:(lra)) as Q. rewrite sqrt_square in Q by exact Pr. split; [exact F|]. rewrite E.
    assert (P1 : 1 / 10 ^ 27 <= sqrt (B2R s)) by (destruct Q; lra). apply rel_w with (2 / 10 ^ 15 + 3 / 10 ^ 16); [|lra]. apply rel_rnd; [exact Q|lra|lra].
  - intros small. assert (rr : r * r <= 1 / 10 ^ 26 * (1 / 10 ^ 26)) by (apply Rmult_le_compat; lra).
    assert (S1 : sqrt (B2R s) <= sqrt (1.1 / 10 ^ 26 * (1.1 / 10 ^ 26))) by (apply sqrt_le_1_alt; lra). rewrite sqrt_square in S1 by lra.
    rewrite E. pose proof (rnd_bounds _ (sqrt_pos (B2R s))) as R4. assert (ES : eta <= 1 / 10 ^ 100) by (unfold eta; apply Rle_trans with (bpow radix2 (-400)); [apply bpow_le; lia|simpl bpow; lra]). unfold u53 in R4. assert (P0 := sqrt_pos (B2R s)). lra.
Qed.

Section Acc.
Context {lm : Libm} (LA : libm_accurate (1 / 10 ^ 13) lm).

(** ** Powers with an inexact base and an inexact exponent *)
Lemma frel_gpow (x y : f64) r Y e d M L s : frel x r e -> fin y -> Y - d <= B2R y <= Y + d -> 0 <= B2R y <= M -> - L <= ln r <= L -> 0 <= e <= 1 / 1000 -> 0 <= d ->
  2 * (M * e) + d * L <= s -> 0 <= s <= 1 / 1000 -> 1 / 10 ^ 30 <= Rpower r Y <= 10 ^ 15 -> frel (powf x y) (Rpower r Y) (2.1 * s + 2 / 10 ^ 13).
Proof using LA.
  intros [fx [hr b]] fy hy hM hL he hd hs bs hR. destruct (ln_near (B2R x) r e hr ltac:(lra) b) as [px l].
  assert (T1 : - (d * L) <= (B2R y - Y) * ln r <= d * L) by (apply mul_bnd; lra).
  assert (T2 : - (M * (2 * e)) <= B2R y * (ln (B2R x) - ln r) <= M * (2 * e)) by (apply mul_bnd; lra).
  destruct (rpow_near (B2R x) r (B2R y) Y s px hr ltac:(lra) ltac:(lra)) as [A1 A2].
  set (P := Rpower r Y) in *. set (Q := Rpower (B2R x) (B2R y)) in *.
  assert (PS : 0 <= P * s <= P * (1 / 1000)) by (split; [apply Rmult_le_pos; lra|apply Rmult_le_compat_l; lra]).
  assert (LOW : bpow radix2 (-900) <= 1 / 10 ^ 32) by (apply Rle_trans with (bpow radix2 (-120)); [apply bpow_le; lia|simpl bpow; lra]).
  assert (HIGH : 10 ^ 16 <= bpow radix2 900) by (apply Rle_trans with (bpow radix2 60); [simpl bpow; lra|apply bpow_le; lia]).
  destruct (la_pow _ _ LA x y fx fy px) as [F E]; [fold Q; lra|]. fold Q in E. split; [exact F|]. split; [lra|].
  apply Rabs_le_inv in E. lra.
Qed.

(** ** The compressed response *)
Lemma power_42 X : 2.5 / 10 ^ 9 <= X <= 92 -> 0.0002 <= Rpower X 0.42 <= 100.
Proof using.
  intros h. assert (R1' : Rpower X 1 = X) by (apply Rpower_1; lra). assert (R0 : Rpower X 0 = 1) by (apply Rpower_O; lra).
  assert (R1 : 0.0002 <= Rpower X (INR 3 / INR 7)).
  { apply rpow_ratio_lo; [lra|lra|lia|]. apply Rle_trans with ((2.5 / 10 ^ 9) ^ 3); [lra|]. apply pow_incr. lra. }
  assert (RH : INR 3 / INR 7 = 3 / 7) by (cbn [INR]; lra). rewrite RH in R1. clear RH.
  destruct (Rle_or_lt 1 X) as [gx|gx].
  - pose proof (rpow_exp_big X 0 0.42 gx ltac:(lra)). pose proof (rpow_exp_big X 0.42 1 gx ltac:(lra)). lra.
  - pose proof (rpow_exp_small X 0 0.42 ltac:(lra) ltac:(lra)). pose proof (rpow_exp_small X 0.42 (3 / 7) ltac:(lra) ltac:(lra)). lra.
Qed.

Lemma resp_rel (fl g w : f64) L G W : frel fl L (1 / 10 ^ 9) -> 0.001 <= L <= 7 -> frel g G (1 / 10 ^ 9) -> 0.5 <= G <= 5 -> near w W (2 / 10 ^ 12) -> 1 / 2000 <= W <= 260 ->
  frel (resp fl g w) (response L G W) (1 / 10 ^ 7) /\ 0.00294 <= response L G W <= 400.
Proof using LA.
  intros hl bL hg bG hw bW. fconst (dec "100.0"). fconst (dec "0.42"). fconst (dec "400.0"). fconst (dec "27.13").
  assert (W1 : frel w W (4 / 10 ^ 9)) by (apply near_rel with (1 := hw) (m := 1 / 2000); lra).
  assert (B1 : 0.5 * (1 / 2000) <= G * W <= 5 * 260) by (split; apply Rmult_le_compat; lra).
  assert (B2 : 0.001 * (0.5 * (1 / 2000)) <= L * (G * W) <= 7 * (5 * 260)) by (split; apply Rmult_le_compat; lra).
  pose proof (frel_mul g w G W _ _ hg W1 ltac:(lra) ltac:(lra) ltac:(lra)) as N1. apply frel_w with (e' := 5.6 / 10 ^ 9) in N1; [|lra].
  assert (PD : 0 < B2R (fmul g w)) by (destruct N1 as [_ [q1 q2]]; lra).
  assert (SG : signum (fmul g w) = 1%Z) by (apply signum_pos; [exact (proj1 N1)|exact PD]).
  unfold resp, resp_arg. cbv zeta. rewrite SG. fconst (of_Z 1).
  assert (NA : frel (fabs (fmul g w)) (G * W) (5.6 / 10 ^ 9)) by (destruct N1 as [q1 q2]; split; [rewrite fabs_fin; exact q1|rewrite fabs_R, Rabs_pos_eq by lra; exact q2]).
  pose proof (frel_mul fl _ L _ _ _ hl NA ltac:(lra) ltac:(lra) ltac:(lra)) as N2. apply frel_w with (e' := 7.3 / 10 ^ 9) in N2; [|lra].
  pose proof (frel_div _ (dec "100.0") _ 100 _ 0 N2 (frel_const _ _ 100 0 F V ltac:(split; lra)) ltac:(lra) ltac:(lra) ltac:(lra)) as N3. apply frel_w with (e' := 1.03 / 10 ^ 8) in N3; [|lra].
  replace (L * (G * W) / 100) with (L * G * W / 100) in N3 by lra. unfold response.
  set (x := fdiv _ (dec "100.0")) in *. clearbody x. set (X := L * G * W / 100) in *. assert (BX : 2.5 / 10 ^ 9 <= X <= 92) by (unfold X; lra). clearbody X. clear N1 NA N2 SG PD.
  assert (BP := power_42 X BX).
  pose proof (frel_gpow x (dec "0.42") X 0.42 _ (1 / 10 ^ 16) 0.43 100 (1 / 10 ^ 8) N3 F0 ltac:(lra) ltac:(lra) (ln_100 X ltac:(lra)) ltac:(lra) ltac:(lra) ltac:(lra) ltac:(lra) ltac:(lra)) as N4.
  apply frel_w with (e' := 2.11 / 10 ^ 8) in N4; [|lra].
  set (p := powf x (dec "0.42")) in *. set (P := Rpower X 0.42) in *. clearbody p P.
  pose proof (frel_mul (of_Z 1) (dec "400.0") 1 400 0 0 (frel_const _ _ 1 0 F3 V3 ltac:(split; lra)) (frel_const _ _ 400 0 F1 V1 ltac:(split; lra)) ltac:(lra) ltac:(lra) ltac:(lra)) as N5.
  pose proof (frel_mul _ p _ P _ _ N5 N4 ltac:(lra) ltac:(lra) ltac:(lra)) as N6. apply frel_w with (e' := 2.4 / 10 ^ 8) in N6; [|lra].
  pose proof (frel_add p (dec "27.13") P 27.13 (2.11 / 10 ^ 8) N4 (frel_const _ _ 27.13 (2.11 / 10 ^ 8) F2 V2 ltac:(split; lra)) ltac:(lra) ltac:(lra)) as N7. apply frel_w with (e' := 2.2 / 10 ^ 8) in N7; [|lra].
  assert (RG : 0.00294 <= 400 * P / (P + 27.13) <= 400) by (split; [apply le_div|apply div_le]; lra). split; [|exact RG].
  replace (1 * 400 * P) with (400 * P) in N6 by lra.
  pose proof (frel_div _ _ _ _ _ _ N6 N7 ltac:(lra) ltac:(lra) ltac:(lra)) as N8. apply frel_w with (1 := N8). lra.
Qed.
End Acc.
