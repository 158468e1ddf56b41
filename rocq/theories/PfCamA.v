(** * Angles, and the way back from cone responses to channels.  Proof file. *)
From Coq Require Import ZArith Bool Reals Lra Lia Psatz String List.
From Flocq Require Import Core Relative IEEE754.BinarySingleNaN.
From Verif Require Import F64 MathUtils ColorUtils ViewingConditions Cam16 Spec SpecCam FloatFacts FloatMono FloatCast PfMath PfTones PfLab PfGamma PfNear PfVc.
Import ListNotations.
Open Scope string_scope.
Open Scope R_scope.

(** ** pi *)
Definition sum6 (a : R) : R := a - a ^ 3 / 6 + a ^ 5 / 120 - a ^ 7 / 5040 + a ^ 9 / 362880 - a ^ 11 / 39916800 + a ^ 13 / 6227020800 - a ^ 15 / 1307674368000.
Lemma sin_enclosed a : 0 <= a -> a <= 4 -> sum6 a <= sin a <= sum6 a + a ^ 17 / 355687428096000.
Proof.
  intros h0 h4. destruct (pre_sin_bound a 3 h0 h4) as [L U].
  assert (E : forall i, sin_term a (S i) = sin_term a i * (- (a * a) / ((INR (2 * i + 3)) * (INR (2 * i + 2))))).
  { intros i. unfold sin_term. replace (2 * S i + 1)%nat with (S (S (2 * i + 1))) by lia.
    rewrite (fact_simpl (S (2 * i + 1))), (fact_simpl (2 * i + 1)), !mult_INR.
    replace (S (S (2 * i + 1))) with (2 * i + 3)%nat by lia. replace (S (2 * i + 1)) with (2 * i + 2)%nat by lia.
    assert (Ea : a ^ (2 * i + 3) = a ^ (2 * i + 1) * (a * a)).
    { assert (2 * i + 3 = 2 + (2 * i + 1))%nat as -> by lia. rewrite pow_add. simpl. ring. }
    assert (En : (-1) ^ S i = - (-1) ^ i) by (cbn [pow]; ring). rewrite Ea, En.
    field. repeat split; try apply INR_fact_neq_0; apply not_0_INR; lia. }
  assert (T0 : sin_term a 0 = a) by (unfold sin_term; simpl; field).
  assert (T1 : sin_term a 1 = - (a ^ 3 / 6)) by (rewrite E, T0; simpl; field).
  assert (T2 : sin_term a 2 = a ^ 5 / 120) by (rewrite E, T1; simpl; field).
  assert (T3 : sin_term a 3 = - (a ^ 7 / 5040)) by (rewrite E, T2; simpl; field).
  assert (T4 : sin_term a 4 = a ^ 9 / 362880) by (rewrite E, T3; simpl; field).
  assert (T5 : sin_term a 5 = - (a ^ 11 / 39916800)) by (rewrite E, T4; simpl; field).
  assert (T6 : sin_term a 6 = a ^ 13 / 6227020800) by (rewrite E, T5; simpl; field).
  assert (T7 : sin_term a 7 = - (a ^ 15 / 1307674368000)) by (rewrite E, T6; simpl; field).
  assert (T8 : sin_term a 8 = a ^ 17 / 355687428096000) by (rewrite E, T7; simpl; field).
  unfold sin_approx in L, U. change (2 * 3 + 1)%nat with 7%nat in L. change (2 * (3 + 1))%nat with 8%nat in U.
  cbn [sum_f_R0] in L, U. rewrite T0, T1, T2, T3, T4, T5, T6, T7 in L, U. rewrite T8 in U. unfold sum6. lra.
Qed.

Lemma sum6_horner a : sum6 a = a * (1 - a * a / 6 * (1 - a * a / 20 * (1 - a * a / 42 * (1 - a * a / 72 * (1 - a * a / 110 * (1 - a * a / 156 * (1 - a * a / 210))))))).
Proof. unfold sum6. field. Qed.
Lemma sum6_below : sum6 (3.1415926535897 / 6) + (3.1415926535897 / 6) ^ 17 / 355687428096000 < 1 / 2.
Proof.
  assert (T : 0 <= (3.1415926535897 / 6) ^ 17 <= 0.6 ^ 17) by (split; [apply pow_le; lra|apply pow_incr; lra]). set (w := (3.1415926535897 / 6) ^ 17) in *. clearbody w.
  rewrite sum6_horner.
  set (t210 := 1 - 3.1415926535897 / 6 * (3.1415926535897 / 6) / 210). assert (B210 : 998694496772342754 / 10 ^ 18 <= t210 <= 998694496772342755 / 10 ^ 18) by (unfold t210; lra). clearbody t210.
  set (t156 := 1 - 3.1415926535897 / 6 * (3.1415926535897 / 6) / 156 * t210). assert (B156 : 998244886110988701 / 10 ^ 18 <= t156 <= 998244886110988702 / 10 ^ 18) by (unfold t156; lra). clearbody t156. clear B210.
  set (t110 := 1 - 3.1415926535897 / 6 * (3.1415926535897 / 6) / 110 * t156). assert (B110 : 997512049969362279 / 10 ^ 18 <= t110 <= 997512049969362280 / 10 ^ 18) by (unfold t110; lra). clearbody t110. clear B156.
  set (t72 := 1 - 3.1415926535897 / 6 * (3.1415926535897 / 6) / 72 * t110). assert (B72 : 996201755664152507 / 10 ^ 18 <= t72 <= 996201755664152508 / 10 ^ 18) by (unfold t72; lra). clearbody t72. clear B110.
  set (t42 := 1 - 3.1415926535897 / 6 * (3.1415926535897 / 6) / 42 * t72). assert (B42 : 993497276962913173 / 10 ^ 18 <= t42 <= 993497276962913174 / 10 ^ 18) by (unfold t42; lra). clearbody t42. clear B72.
  set (t20 := 1 - 3.1415926535897 / 6 * (3.1415926535897 / 6) / 20 * t42). assert (B20 : 986381354031690445 / 10 ^ 18 <= t20 <= 986381354031690446 / 10 ^ 18) by (unfold t20; lra). clearbody t20. clear B42.
  set (t6 := 1 - 3.1415926535897 / 6 * (3.1415926535897 / 6) / 6 * t20). assert (B6 : 954929658551374653 / 10 ^ 18 <= t6 <= 954929658551374654 / 10 ^ 18) by (unfold t6; lra). clearbody t6. clear B20.
  lra.
Qed.
Lemma sum6_above : 1 / 2 < sum6 (3.1415926535899 / 6).
Proof.
  rewrite sum6_horner.
  set (t210 := 1 - 3.1415926535899 / 6 * (3.1415926535899 / 6) / 210). assert (B210 : 998694496772342588 / 10 ^ 18 <= t210 <= 998694496772342589 / 10 ^ 18) by (unfold t210; lra). clearbody t210.
  set (t156 := 1 - 3.1415926535899 / 6 * (3.1415926535899 / 6) / 156 * t210). assert (B156 : 998244886110988478 / 10 ^ 18 <= t156 <= 998244886110988479 / 10 ^ 18) by (unfold t156; lra). clearbody t156. clear B210.
  set (t110 := 1 - 3.1415926535899 / 6 * (3.1415926535899 / 6) / 110 * t156). assert (B110 : 997512049969361962 / 10 ^ 18 <= t110 <= 997512049969361963 / 10 ^ 18) by (unfold t110; lra). clearbody t110. clear B156.
  set (t72 := 1 - 3.1415926535899 / 6 * (3.1415926535899 / 6) / 72 * t110). assert (B72 : 996201755664152024 / 10 ^ 18 <= t72 <= 996201755664152025 / 10 ^ 18) by (unfold t72; lra). clearbody t72. clear B110.
  set (t42 := 1 - 3.1415926535899 / 6 * (3.1415926535899 / 6) / 42 * t72). assert (B42 : 993497276962912348 / 10 ^ 18 <= t42 <= 993497276962912349 / 10 ^ 18) by (unfold t42; lra). clearbody t42. clear B72.
  set (t20 := 1 - 3.1415926535899 / 6 * (3.1415926535899 / 6) / 20 * t42). assert (B20 : 986381354031688722 / 10 ^ 18 <= t20 <= 986381354031688723 / 10 ^ 18) by (unfold t20; lra). clearbody t20. clear B42.
  set (t6 := 1 - 3.1415926535899 / 6 * (3.1415926535899 / 6) / 6 * t20). assert (B6 : 954929658551368993 / 10 ^ 18 <= t6 <= 954929658551368994 / 10 ^ 18) by (unfold t6; lra). clearbody t6. clear B20.
  lra.
Qed.

Lemma pi_lo : 3.1415926535897 < PI.
Proof.
  destruct (sin_enclosed (3.1415926535897 / 6) ltac:(lra) ltac:(lra)) as [_ U].
  assert (S : sin (3.1415926535897 / 6) < sin (PI / 6)) by (rewrite sin_PI6; apply Rle_lt_trans with (1 := U); exact sum6_below). clear U.
  pose proof PI_4. pose proof PI2_3_2.
  assert (3.1415926535897 / 6 < PI / 6); [|lra]. apply sin_increasing_0; lra.
Qed.
Lemma pi_hi : PI < 3.1415926535899.
Proof.
  destruct (sin_enclosed (3.1415926535899 / 6) ltac:(lra) ltac:(lra)) as [L _].
  assert (S : sin (PI / 6) < sin (3.1415926535899 / 6)) by (rewrite sin_PI6; apply Rlt_le_trans with (2 := L); exact sum6_above). clear L.
  pose proof PI_4. pose proof PI2_3_2. pose proof pi_lo.
  assert (PI / 6 < 3.1415926535899 / 6); [|lra]. apply sin_increasing_0; lra.
Qed.

(** ** sin and cos are 1-Lipschitz *)
Lemma sin_le_abs z : Rabs (sin z) <= Rabs z.
Proof.
  assert (P : forall x, 0 <= x -> - x <= sin x <= x).
  { intros x hx. destruct (Req_dec x 0) as [->|n]; [rewrite sin_0; lra|]. pose proof (sin_lt_x x ltac:(lra)). split; [|lra].
    pose proof (SIN_bound x). destruct (Rle_or_lt x 1) as [l|l]; [|lra]. pose proof (sin_ge_0 x hx). pose proof PI2_3_2. lra. }
  destruct (Rle_or_lt 0 z) as [h|h].
  - rewrite (Rabs_pos_eq z h). apply Rabs_le. apply P. exact h.
  - rewrite (Rabs_left z h). apply Rabs_le. pose proof (P (- z) ltac:(lra)) as Q. rewrite sin_neg in Q. lra.
Qed.
Lemma half_prod x y : Rabs x <= 1 -> Rabs (2 * (y * x)) <= 2 * Rabs y.
Proof.
  intros h. rewrite Rabs_mult, (Rabs_pos_eq 2) by lra. rewrite Rabs_mult. pose proof (Rabs_pos y). nra.
Qed.
Lemma cos_lip x y : Rabs (cos x - cos y) <= Rabs (x - y).
Proof.
  rewrite form2. replace (-2 * sin ((x - y) / 2) * sin ((x + y) / 2)) with (- (2 * (sin ((x - y) / 2) * sin ((x + y) / 2)))) by ring.
  rewrite Rabs_Ropp. apply Rle_trans with (2 * Rabs (sin ((x - y) / 2))).
  - apply half_prod. apply Rabs_le. pose proof (SIN_bound ((x + y) / 2)). lra.
  - pose proof (sin_le_abs ((x - y) / 2)) as H. unfold Rdiv in H at 2. rewrite Rabs_mult, (Rabs_pos_eq (/ 2)) in H by lra. lra.
Qed.
Lemma sin_lip x y : Rabs (sin x - sin y) <= Rabs (x - y).
Proof.
  pose proof (cos_lip (PI / 2 - x) (PI / 2 - y)) as H. rewrite !cos_shift in H.
  replace (PI / 2 - x - (PI / 2 - y)) with (- (x - y)) in H by ring. now rewrite Rabs_Ropp in H.
Qed.

(** ** From the linear channels back to the bytes *)
Section Loose.
Context {lm : Libm} (eps : R) (heps : 0 <= eps <= 1 / 10 ^ 5) (PA : pow_accurate eps lm).

Lemma w_over_W c : (11 <= c <= 255)%Z -> wR c <= 30 * Rpower (wR c) 2.4.
Proof using.
  intros hc. destruct (W_bounds c hc) as [_ wB]. assert (wR c / 30 <= Rpower (wR c) 2.4); [|lra].
  apply rpow_lower; [lra|lra|]. set (w := wR c) in *. clearbody w.
  replace (w ^ 12) with (w ^ 7 * w ^ 5) by ring. replace ((w / 30) ^ 5) with (/ 30 ^ 5 * w ^ 5) by field.
  apply Rmult_le_compat_r; [apply pow_le; lra|]. apply Rle_trans with (0.093 ^ 7); [lra|apply pow_incr; lra].
Qed.

Lemma delin_loose (x : f64) c : (0 <= c <= 255)%Z -> fin x ->
  100 * linR c - 2 / 10 ^ 3 <= B2R x <= 100 * linR c + 2 / 10 ^ 3 -> delinearized x = c.
Proof using heps PA.
  intros hc fx hx. unfold delinearized. cbv zeta.
  change (to_i64 (fround ?a)) with (rcast a). assert (LR := linR_range c hc).
  fconst (dec "100.0"). fconst (dec "0.0031308"). fconst (dec "12.92"). fconst (dec "1.055"). fconst (dec "0.055"). fconst (dec "255.0").
  destruct (fdiv_S x (dec "100.0") fx ltac:(lra) ltac:(rewrite V; fsmall)) as [S1 G1]. rewrite V in S1.
  pose proof (rnd_near (B2R x / 100) ltac:(lra)) as E1. rewrite <- S1 in E1. set (z := fdiv x (dec "100.0")) in *. clearbody z.
  clear S1. unfold linR in *. destruct (Z.leb_spec c 10) as [l|l].
  - assert (IC := c10_R c ltac:(lia)).
    replace (fle z (dec "0.0031308")) with true by (symmetry; apply fle_fin; [exact G1|exact F0|rewrite V0; lra]).
    destruct (fmul_S z (dec "12.92") G1 F1 ltac:(rewrite V1; fsmall)) as [S2 G2].
    pose proof (rnd_near (B2R z * B2R (dec "12.92")) ltac:(rewrite V1; lra)) as E2. rewrite <- S2, V1 in E2.
    set (d := fmul z (dec "12.92")) in *. clearbody d. clear S2.
    destruct (fmul_S d (dec "255.0") G2 F4 ltac:(rewrite V4; fsmall)) as [S3 G3]. rewrite V4 in S3.
    pose proof (rnd_near (B2R d * 255) ltac:(lra)) as E3. rewrite <- S3 in E3.
    apply byte_near; [exact G3|exact hc|]. apply Rabs_def1; lra.
  - assert (IC := c11_R c ltac:(lia)). destruct (W_bounds c ltac:(lia)) as [WB wB]. assert (W30 := w_over_W c ltac:(lia)).
    set (W := Rpower (wR c) 2.4) in *.
    replace (fle z (dec "0.0031308")) with false by (symmetry; apply fle_fin_f; [exact G1|exact F0|rewrite V0; lra]).
    set (y := fdiv (dec "1.0") (dec "2.4")) in *. assert (FY : fin y /\ / 2.4 - 1 / 10 ^ 15 <= B2R y <= / 2.4 + 1 / 10 ^ 15).
    { unfold y. fconst (fdiv (dec "1.0") (dec "2.4")). split; [exact F5|rewrite V5; lra]. }
    destruct FY as [FY BY]. clearbody y.
    set (e := 2.01 / 10 ^ 5 * / W). assert (Ew : W * e = 2.01 / 10 ^ 5) by (unfold e; field; lra).
    assert (Ee : 0 < e <= 0.007).
    { unfold e. split; [apply Rmult_lt_0_compat; [lra|apply Rinv_0_lt_compat; lra]|].
      apply Rmult_le_reg_r with W; [lra|]. rewrite Rmult_assoc, Rinv_l by lra. lra. }
    clearbody e.
    destruct (ln_near (B2R z) W e ltac:(lra) ltac:(lra) ltac:(lra)) as [PZ LZ].
    assert (L1 := ln_le_sub W ltac:(lra)). assert (L2 := ln_ge_inv W ltac:(lra)).
    assert (I : / W <= 1000) by (rewrite <- (Rinv_inv 1000); apply Rinv_le; lra).
    assert (EW : Rpower W (/ 2.4) = wR c).
    { unfold W. rewrite Rpower_mult. replace (2.4 * / 2.4) with 1 by lra. apply Rpower_1. lra. }
    destruct (rpow_near (B2R z) W (B2R y) (/ 2.4) (0.84 * e + 1 / 10 ^ 11)) as [R1 R2]; [exact PZ|lra| |lra|].
    { replace (B2R y * ln (B2R z) - / 2.4 * ln W) with (B2R y * (ln (B2R z) - ln W) + (B2R y - / 2.4) * ln W) by ring.
      pose proof (mul_bnd (B2R y - / 2.4) (ln W) (1 / 10 ^ 15) 1000 ltac:(lra) ltac:(lra)).
      pose proof (mul_bnd (B2R y) (ln (B2R z) - ln W) (0.42) (2 * e) ltac:(lra) ltac:(lra)). lra. }
    rewrite EW in R1, R2. 
    assert (we : 0 <= wR c * e <= 6.03 / 10 ^ 4).
    { split; [apply Rmult_le_pos; lra|]. apply Rle_trans with (30 * W * e); [apply Rmult_le_compat_r; lra|lra]. }
    destruct (pow_ok eps PA z y G1 FY PZ ltac:(lra)) as [FP EP]. set (p := powf z y) in *. clearbody p.
    set (q := Rpower (B2R z) (B2R y)) in *. clearbody q.
    assert (P1 : wR c - 1.2 / 10 ^ 3 <= B2R p <= wR c + 1.2 / 10 ^ 3).
    { assert (0 <= q <= 1.1) by lra.
      assert (0 <= q * eps <= 1.1 / 10 ^ 5) by (split; [apply Rmult_le_pos; lra|]; apply Rle_trans with (1.1 * (1 / 10 ^ 5)); [apply Rmult_le_compat; lra|lra]).
      lra. }
    clear EP R1 R2. clearbody W. unfold wR in *.
    destruct (fmul_S (dec "1.055") p F2 FP ltac:(rewrite V2; fsmall)) as [S2 G2].
    pose proof (rnd_near (B2R (dec "1.055") * B2R p) ltac:(rewrite V2; lra)) as E2. rewrite <- S2, V2 in E2.
    set (d := fmul (dec "1.055") p) in *. clearbody d. clear S2.
    destruct (fsub_S d (dec "0.055") G2 F3 ltac:(rewrite V3; fsmall)) as [S3 G3].
    pose proof (rnd_near (B2R d - B2R (dec "0.055")) ltac:(rewrite V3; lra)) as E3. rewrite <- S3, V3 in E3.
    set (f := fsub d (dec "0.055")) in *. clearbody f. clear S3.
    destruct (fmul_S f (dec "255.0") G3 F4 ltac:(rewrite V4; fsmall)) as [S4 G4]. rewrite V4 in S4.
    pose proof (rnd_bounds_abs (B2R f * 255) 300 ltac:(apply Rabs_le; lra)) as E4. rewrite <- S4 in E4. unfold u53 in E4.
    pose proof eta_small.
    apply byte_near; [exact G4|exact hc|]. apply Rabs_def1; lra.
Qed.

Lemma delin_back (x : f64) c : eps <= 1 / 10 ^ 8 -> (0 <= c <= 255)%Z -> fin x ->
  B2R (linearized c) - 1.9 / 10 ^ 3 <= B2R x <= B2R (linearized c) + 1.9 / 10 ^ 3 -> delinearized x = c.
Proof using heps PA.
  intros he hc fx hx. destruct (linearized_R eps heps PA c hc) as [F E]. apply delin_loose; [exact hc|exact fx|].
  assert (L := linR_range c hc). set (l := linR c) in *. clearbody l.
  assert (0 <= l * eps <= l * (1 / 10 ^ 8)) by (split; [apply Rmult_le_pos; lra|apply Rmult_le_compat_l; lra]). lra.
Qed.
End Loose.
