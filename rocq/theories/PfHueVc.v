(** * Tight enclosures of the default viewing conditions.  Proof file. *)
From Coq Require Import ZArith Bool Reals Lra Lia Psatz String List.
From Flocq Require Import Core Relative IEEE754.BinarySingleNaN.
From Verif Require Import F64 MathUtils ColorUtils ViewingConditions Cam16 Spec SpecCam FloatFacts FloatMono PfMath PfTones PfLab PfGamma PfHct PfNear PfVc PfRel.
Open Scope string_scope.
Open Scope R_scope.

(** exp on [-1, 0] between two partial sums of its series. *)
Lemma exp_series y : 0 <= y <= 1 ->
  sum_f_R0 (tg_alt (fun i => y ^ i / INR (fact i))) 13 <= exp (- y) <= sum_f_R0 (tg_alt (fun i => y ^ i / INR (fact i))) 12.
Proof.
  intros h. apply (alternated_series_ineq (fun i => y ^ i / INR (fact i)) (exp (- y)) 6).
  - intros n. unfold Rdiv. assert (P := INR_fact_lt_0 n). assert (Q : INR (fact n) <= INR (fact (S n))) by (apply le_INR, fact_le; lia).
    apply Rmult_le_compat; [apply pow_le; lra|left; apply Rinv_0_lt_compat; apply INR_fact_lt_0| |apply Rinv_le_contravar; assumption].
    cbn [pow]. assert (0 <= y ^ n) by (apply pow_le; lra). assert (y * y ^ n <= 1 * y ^ n) by (apply Rmult_le_compat_r; lra). lra.
  - apply cv_speed_pow_fact.
  - unfold exp. destruct (exist_exp (- y)) as [l hl]. cbn [proj1_sig]. unfold exp_in, infinite_sum in hl. intros eps he. destruct (hl eps he) as [N HN]. exists N. intros n hn.
    specialize (HN n hn). erewrite sum_eq; [exact HN|]. intros i _. unfold tg_alt. replace (- y) with (-1 * y) by ring. rewrite Rpow_mult_distr. unfold Rdiv. ring.
Qed.

(** The same terms, without factorials. *)
Fixpoint U (y : R) (i : nat) : R := match i with O => 1 | S j => U y j * (y / INR (S j)) end.
Lemma U_eq y i : U y i = y ^ i / INR (fact i).
Proof.
  induction i as [|i IH]; [cbn; field|]. cbn [U]. rewrite IH, fact_simpl, mult_INR. cbn [pow]. assert (INR (S i) <> 0) by (apply not_0_INR; lia). assert (INR (fact i) <> 0) by apply INR_fact_neq_0. field. split; assumption.
Qed.
Lemma exp_bounds y lo hi x a b : 0 <= y <= 1 -> sum_f_R0 (fun i => (-1) ^ i * U y i) 13 = lo -> sum_f_R0 (fun i => (-1) ^ i * U y i) 12 = hi ->
  a <= lo -> hi <= b -> (- y <= x -> a <= exp x) /\ (x <= - y -> exp x <= b).
Proof.
  intros h hl hh la hb. destruct (exp_series y h) as [L M].
  assert (E : forall n, sum_f_R0 (tg_alt (fun i => y ^ i / INR (fact i))) n = sum_f_R0 (fun i => (-1) ^ i * U y i) n) by (intros n; apply sum_eq; intros i _; unfold tg_alt; rewrite U_eq; reflexivity).
  rewrite E, hl in L. rewrite E, hh in M. split; intros q.
  - apply Rle_trans with (exp (- y)); [lra|]. destruct q as [q|q]; [left; apply exp_increasing; exact q|right; f_equal; exact q].
  - apply Rle_trans with (exp (- y)); [|lra]. destruct q as [q|q]; [left; apply exp_increasing; exact q|right; f_equal; exact q].
Qed.

(** The partial sums in Horner form, evaluated step by step. *)
Lemma horner13 y : sum_f_R0 (fun i => (-1) ^ i * U y i) 13 = 1 - y / 1 * (1 - y / 2 * (1 - y / 3 * (1 - y / 4 * (1 - y / 5 * (1 - y / 6 * (1 - y / 7 * (1 - y / 8 * (1 - y / 9 * (1 - y / 10 * (1 - y / 11 * (1 - y / 12 * (1 - y / 13)))))))))))).
Proof. cbn [sum_f_R0 U pow INR]. field. Qed.
Lemma horner12 y : sum_f_R0 (fun i => (-1) ^ i * U y i) 12 = 1 - y / 1 * (1 - y / 2 * (1 - y / 3 * (1 - y / 4 * (1 - y / 5 * (1 - y / 6 * (1 - y / 7 * (1 - y / 8 * (1 - y / 9 * (1 - y / 10 * (1 - y / 11 * (1 - y / 12))))))))))).
Proof. cbn [sum_f_R0 U pow INR]. field. Qed.
Lemma exp_lo : 0.55767732174 <= sum_f_R0 (fun i => (-1) ^ i * U 0.5839747603137 i) 13.
Proof.
  rewrite horner13.
  set (t13 := 1 - 0.5839747603137 / 13). assert (B13 : 955078864591253 / 10 ^ 15 <= t13 <= 955078864591254 / 10 ^ 15) by (unfold t13; lra). clearbody t13.
  set (t12 := 1 - 0.5839747603137 / 12 * t13). assert (B12 : 953521504080803 / 10 ^ 15 <= t12 <= 953521504080804 / 10 ^ 15) by (unfold t12; lra). clearbody t12. clear B13.
  set (t11 := 1 - 0.5839747603137 / 11 * t12). assert (B11 : 949378864381859 / 10 ^ 15 <= t11 <= 949378864381860 / 10 ^ 15) by (unfold t11; lra). clearbody t11. clear B12.
  set (t10 := 1 - 0.5839747603137 / 10 * t11). assert (B10 : 944558670522571 / 10 ^ 15 <= t10 <= 944558670522572 / 10 ^ 15) by (unfold t10; lra). clearbody t10. clear B11.
  set (t9 := 1 - 0.5839747603137 / 9 * t10). assert (B9 : 938711286308817 / 10 ^ 15 <= t9 <= 938711286308818 / 10 ^ 15) by (unfold t9; lra). clearbody t9. clear B10.
  set (t8 := 1 - 0.5839747603137 / 8 * t9). assert (B8 : 931477037696755 / 10 ^ 15 <= t8 <= 931477037696756 / 10 ^ 15) by (unfold t8; lra). clearbody t8. clear B9.
  set (t7 := 1 - 0.5839747603137 / 7 * t8). assert (B7 : 922291560024760 / 10 ^ 15 <= t7 <= 922291560024761 / 10 ^ 15) by (unfold t7; lra). clearbody t7. clear B8.
  set (t6 := 1 - 0.5839747603137 / 6 * t7). assert (B6 : 910234167882531 / 10 ^ 15 <= t6 <= 910234167882533 / 10 ^ 15) by (unfold t6; lra). clearbody t6. clear B7.
  set (t5 := 1 - 0.5839747603137 / 5 * t6). assert (B5 : 893689243996291 / 10 ^ 15 <= t5 <= 893689243996292 / 10 ^ 15) by (unfold t5; lra). clearbody t5. clear B6.
  set (t4 := 1 - 0.5839747603137 / 4 * t5). assert (B4 : 869527009485583 / 10 ^ 15 <= t4 <= 869527009485584 / 10 ^ 15) by (unfold t4; lra). clearbody t4. clear B5.
  set (t3 := 1 - 0.5839747603137 / 3 * t4). assert (B3 : 830739391016455 / 10 ^ 15 <= t3 <= 830739391016457 / 10 ^ 15) by (unfold t3; lra). clearbody t3. clear B4.
  set (t2 := 1 - 0.5839747603137 / 2 * t3). assert (B2 : 757434581624007 / 10 ^ 15 <= t2 <= 757434581624009 / 10 ^ 15) by (unfold t2; lra). clearbody t2. clear B3.
  set (t1 := 1 - 0.5839747603137 / 1 * t2). assert (B1 : 557677321742811 / 10 ^ 15 <= t1 <= 557677321742813 / 10 ^ 15) by (unfold t1; lra). clearbody t1. clear B2.
  lra.
Qed.
Lemma exp_hi : sum_f_R0 (fun i => (-1) ^ i * U 0.5839747603136 i) 12 <= 0.55767732175.
Proof.
  rewrite horner12.
  set (t12 := 1 - 0.5839747603136 / 12). assert (B12 : 951335436640533 / 10 ^ 15 <= t12 <= 951335436640534 / 10 ^ 15) by (unfold t12; lra). clearbody t12.
  set (t11 := 1 - 0.5839747603136 / 11 * t12). assert (B11 : 949494919673637 / 10 ^ 15 <= t11 <= 949494919673638 / 10 ^ 15) by (unfold t11; lra). clearbody t11. clear B12.
  set (t10 := 1 - 0.5839747603136 / 10 * t11). assert (B10 : 944551893186460 / 10 ^ 15 <= t10 <= 944551893186461 / 10 ^ 15) by (unfold t10; lra). clearbody t10. clear B11.
  set (t9 := 1 - 0.5839747603136 / 9 * t10). assert (B9 : 938711726063631 / 10 ^ 15 <= t9 <= 938711726063632 / 10 ^ 15) by (unfold t9; lra). clearbody t9. clear B10.
  set (t8 := 1 - 0.5839747603136 / 8 * t9). assert (B8 : 931477005596053 / 10 ^ 15 <= t8 <= 931477005596054 / 10 ^ 15) by (unfold t8; lra). clearbody t8. clear B9.
  set (t7 := 1 - 0.5839747603136 / 7 * t8). assert (B7 : 922291562702773 / 10 ^ 15 <= t7 <= 922291562702774 / 10 ^ 15) by (unfold t7; lra). clearbody t7. clear B8.
  set (t6 := 1 - 0.5839747603136 / 6 * t7). assert (B6 : 910234167621898 / 10 ^ 15 <= t6 <= 910234167621899 / 10 ^ 15) by (unfold t6; lra). clearbody t6. clear B7.
  set (t5 := 1 - 0.5839747603136 / 5 * t6). assert (B5 : 893689244026750 / 10 ^ 15 <= t5 <= 893689244026751 / 10 ^ 15) by (unfold t5; lra). clearbody t5. clear B6.
  set (t4 := 1 - 0.5839747603136 / 4 * t5). assert (B4 : 869527009481158 / 10 ^ 15 <= t4 <= 869527009481160 / 10 ^ 15) by (unfold t4; lra). clearbody t4. clear B5.
  set (t3 := 1 - 0.5839747603136 / 3 * t4). assert (B3 : 830739391017346 / 10 ^ 15 <= t3 <= 830739391017347 / 10 ^ 15) by (unfold t3; lra). clearbody t3. clear B4.
  set (t2 := 1 - 0.5839747603136 / 2 * t3). assert (B2 : 757434581623789 / 10 ^ 15 <= t2 <= 757434581623790 / 10 ^ 15) by (unfold t2; lra). clearbody t2. clear B3.
  set (t1 := 1 - 0.5839747603136 / 1 * t2). assert (B1 : 557677321743015 / 10 ^ 15 <= t1 <= 557677321743016 / 10 ^ 15) by (unfold t1; lra). clearbody t1. clear B2.
  lra.
Qed.

Section Acc.
Context {lm : Libm} (LA : libm_accurate (1 / 10 ^ 13) lm).

Lemma e0_near : fin e0 /\ 0.5576773217 <= B2R e0 <= 0.5576773218.
Proof using LA.
  assert (X : fin x0 /\ -0.5839747603137 <= B2R x0 <= -0.5839747603136). { fconst x0. split; [exact F|lra]. }
  destruct X as [FX BX]. destruct (la_exp _ _ LA x0 FX ltac:(lra)) as (FE & EE & _). fold e0 in FE, EE. split; [exact FE|]. apply Rabs_le_inv in EE.
  assert (P : 0.55767732174 <= exp (B2R x0) <= 0.55767732175).
  { set (x := B2R x0) in *. clearbody x. clear - BX. split.
    - destruct (exp_bounds 0.5839747603137 _ _ x 0.55767732174 _ ltac:(lra) eq_refl eq_refl exp_lo (Rle_refl _)) as [L _]. apply L. lra.
    - destruct (exp_bounds 0.5839747603136 _ _ x _ 0.55767732175 ltac:(lra) eq_refl eq_refl (Rle_refl _) exp_hi) as [_ L]. apply L. lra. }
  lra.
Qed.

Lemma p0_near : fin p0 /\ 3.88480587713 <= B2R p0 <= 3.88480587716.
Proof using LA.
  unfold p0. fconst (fmul (dec "5.0") la0). fconst (fdiv (dec "1.0") (dec "3.0")).
  assert (BX : 58.62838974428 <= B2R (fmul (dec "5.0") la0) <= 58.62838974429) by lra. clear V.
  assert (BY : 1 / 3 - 1 / 10 ^ 16 <= B2R (fdiv (dec "1.0") (dec "3.0")) <= 1 / 3) by lra. clear V0.
  set (x := fmul (dec "5.0") la0) in *. set (y := fdiv (dec "1.0") (dec "3.0")) in *. clearbody x y.
  assert (LX : 0 <= ln (B2R x) <= 58). { split; [|pose proof (ln_le_sub (B2R x) ltac:(lra)); lra]. pose proof (ln_ge_inv (B2R x) ltac:(lra)). assert (/ B2R x <= 1) by (rewrite <- Rinv_1; apply Rinv_le_contravar; lra). lra. }
  pose proof (rpow_near (B2R x) (B2R x) (B2R y) (1 / 3) (1 / 10 ^ 14) ltac:(lra) ltac:(lra)) as N.
  assert (C : 3.88480587714 <= Rpower (B2R x) (1 / 3) <= 3.88480587715).
  { replace (1 / 3) with (INR 1 / INR 3) by (simpl; lra). split.
    - apply rpow_ratio_lo; [lra|lra|lia|]. simpl. lra.
    - apply rpow_ratio_hi; [lra|lra|lia|]. simpl. lra. }
  assert (M := mul_bnd (B2R y - 1 / 3) (ln (B2R x)) (1 / 10 ^ 16) 58 ltac:(lra) ltac:(lra)).
  specialize (N ltac:(lra) ltac:(lra)). set (c := Rpower (B2R x) (1 / 3)) in *. clearbody c.
  destruct (pow_mid LA x y 3.8 3.9 F F0 ltac:(lra) ltac:(lra) ltac:(lra) ltac:(lra)) as [FP BP]. split; [exact FP|]. lra.
Qed.

Lemma fl0_near : fin fl0 /\ 0.38848145377 <= B2R fl0 <= 0.38848145379.
Proof using LA.
  destruct p0_near as [FP BP]. fconst (fmul k40 la0). fconst (fmul (fmul (dec "0.1") k4f0) k4f0).
  unfold fl0. set (a := fmul k40 la0) in *. set (b := fmul (fmul (dec "0.1") k4f0) k4f0) in *. clearbody a b. set (p := p0) in *. clearbody p.
  destruct (fmul_S b p F0 FP ltac:(rewrite V0; fsmall)) as [E1 G1]. rewrite V0 in E1.
  match type of E1 with _ = rnd ?r => pose proof (rnd_near r ltac:(lra)) as R1 end. rewrite <- E1 in R1.
  set (m := fmul b p) in *. clearbody m. clear E1.
  destruct (fadd_S a m F G1 ltac:(rewrite V; fsmall)) as [E2 G2]. rewrite V in E2.
  match type of E2 with _ = rnd ?r => pose proof (rnd_near r ltac:(lra)) as R2 end. rewrite <- E2 in R2.
  split; [exact G2|]. lra.
Qed.

Lemma d0_near : fin d0 /\ 0.84508963281 <= B2R d0 <= 0.84508963289.
Proof using LA.
  destruct e0_near as [FE BE]. fconst (dec "1.0"). fconst (dec "0.0"). fconst f0. fconst (fdiv (dec "1.0") (dec "3.6")).
  set (q := fdiv (dec "1.0") (dec "3.6")) in *.
  destruct (fmul_S q e0 F2 FE ltac:(rewrite V2; fsmall)) as [E1 G1]. rewrite V2 in E1.
  match type of E1 with _ = rnd ?r => pose proof (rnd_near r ltac:(lra)) as R1 end. rewrite <- E1 in R1.
  destruct (fsub_S (dec "1.0") (fmul q e0) F G1 ltac:(rewrite V; fsmall)) as [E2 G2]. rewrite V in E2.
  match type of E2 with _ = rnd ?r => pose proof (rnd_near r ltac:(lra)) as R2 end. rewrite <- E2 in R2.
  destruct (fmul_S f0 (fsub (dec "1.0") (fmul q e0)) F1 G2 ltac:(rewrite V1; fsmall)) as [E3 G3]. rewrite V1 in E3.
  match type of E3 with _ = rnd ?r => pose proof (rnd_near r ltac:(lra)) as R3 end. rewrite <- E3 in R3.
  change (fmul f0 (fsub (dec "1.0") (fmul q e0))) with d00 in *. clear E1 E2 E3.
  assert (B : 0.84508963281 <= B2R d00 <= 0.84508963289) by lra.
  unfold d0. change (fgt d00 (dec "1.0")) with (flt (dec "1.0") d00).
  assert (C1 : flt (dec "1.0") d00 = false) by (apply flt_fin_f; [exact F|exact G3|lra]).
  assert (C2 : flt d00 (dec "0.0") = false) by (apply flt_fin_f; [exact G3|exact F0|lra]).
  rewrite C1, C2. split; [exact G3|exact B].
Qed.

Lemma adapt_near (w : f64) Q : fin (fdiv (dec "100.0") w) -> Q - 1 / 10 ^ 11 <= B2R (fdiv (dec "100.0") w) <= Q + 1 / 10 ^ 11 -> 0.9 <= Q <= 1.1 ->
  fin (adapt w) /\ 0.84508963285 * Q + 1 - 0.84508963285 - 2 / 10 ^ 11 <= B2R (adapt w) <= 0.84508963285 * Q + 1 - 0.84508963285 + 2 / 10 ^ 11.
Proof using LA.
  intros F1 HQ bQ. destruct d0_near as [fd bd]. fconst (dec "1.0"). unfold adapt. set (q := fdiv (dec "100.0") w) in *. clearbody q. set (d := d0) in *. clearbody d.
  assert (M : B2R d * B2R q = 0.84508963285 * Q + (B2R d - 0.84508963285) * Q + B2R d * (B2R q - Q)) by ring.
  assert (M1 := mul_bnd (B2R d - 0.84508963285) (Q - 1) (4 / 10 ^ 11) 0.1 ltac:(lra) ltac:(lra)). assert (M2 := mul_bnd (B2R d) (B2R q - Q) 0.85 (1 / 10 ^ 11) ltac:(lra) ltac:(lra)).
  assert (MM : B2R d * B2R q - B2R d = 0.84508963285 * Q - 0.84508963285 + (B2R d - 0.84508963285) * (Q - 1) + B2R d * (B2R q - Q)) by lra.
  assert (BQ : 0.5 <= B2R d * B2R q <= 1). { split; [apply Rle_trans with (0.84 * 0.89); [lra|]|apply Rle_trans with (0.8451 * 1.11); [|lra]]; apply Rmult_le_compat; lra. }
  destruct (fmul_S d q fd F1 ltac:(unfold HUGE; lra)) as [E2 F2].
  pose proof (rnd_near (B2R d * B2R q) ltac:(lra)) as R2. rewrite <- E2 in R2. set (m := fmul d q) in *. clearbody m. clear E2.
  destruct (fadd_S m (dec "1.0") F2 F ltac:(rewrite V; fsmall)) as [E3 F3]. rewrite V in E3.
  pose proof (rnd_near (B2R m + 1) ltac:(lra)) as R3. rewrite <- E3 in R3. set (a := fadd m (dec "1.0")) in *. clearbody a. clear E3.
  destruct (fsub_S a d F3 fd ltac:(fsmall)) as [E4 F4].
  pose proof (rnd_near (B2R a - B2R d) ltac:(lra)) as R4. rewrite <- E4 in R4. set (x := fsub a d) in *. clearbody x. clear E4.
  split; [exact F4|]. lra.
Qed.

(** The products of the adaptation factors with the luminance level. *)
Definition u1 := B2R fl0 * B2R (adapt rw0).
Definition u2 := B2R fl0 * B2R (adapt gw0).
Definition u3 := B2R fl0 * B2R (adapt bw0).

Lemma prod_near f x F X a b : F - 1 / 10 ^ 11 <= f <= F + 1 / 10 ^ 11 -> X - 2.5 / 10 ^ 11 <= x <= X + 2.5 / 10 ^ 11 -> 0 <= F <= 0.4 -> 0 <= X <= 1.1 -> a <= F * X - 4 / 10 ^ 11 -> F * X + 4 / 10 ^ 11 <= b -> a <= f * x <= b.
Proof using.
  intros hf hx bF bX h1 h2. assert (E : f * x = F * X + (f - F) * X + F * (x - X) + (f - F) * (x - X)) by ring.
  pose proof (mul_bnd (f - F) X (1 / 10 ^ 11) 1.1 ltac:(lra) ltac:(lra)). pose proof (mul_bnd F (x - X) 0.4 (2.5 / 10 ^ 11) ltac:(lra) ltac:(lra)). pose proof (mul_bnd (f - F) (x - X) (1 / 10 ^ 11) (2.5 / 10 ^ 11) ltac:(lra) ltac:(lra)). lra.
Qed.

Lemma u1_near : 3967085983 / 10 ^ 10 <= u1 <= 3967085983 / 10 ^ 10 + 5 / 10 ^ 10.
Proof using LA.
  destruct fl0_near as [_ BF]. fconst (fdiv (dec "100.0") rw0).
  match type of V with _ = ?k => destruct (adapt_near rw0 k F ltac:(lra) ltac:(lra)) as [_ BA] end. clear V F. unfold u1. apply prod_near with 0.38848145378 1.0211777027575; lra.
Qed.
Lemma u2_near : 3831622604 / 10 ^ 10 <= u2 <= 3831622604 / 10 ^ 10 + 5 / 10 ^ 10.
Proof using LA.
  destruct fl0_near as [_ BF]. fconst (fdiv (dec "100.0") gw0).
  match type of V with _ = ?k => destruct (adapt_near gw0 k F ltac:(lra) ltac:(lra)) as [_ BA] end. clear V F. unfold u2. apply prod_near with 0.38848145378 0.9863077294280; lra.
Qed.
Lemma u3_near : 3628263358 / 10 ^ 10 <= u3 <= 3628263358 / 10 ^ 10 + 5 / 10 ^ 10.
Proof using LA.
  destruct fl0_near as [_ BF]. fconst (fdiv (dec "100.0") bw0).
  match type of V with _ = ?k => destruct (adapt_near bw0 k F ltac:(lra) ltac:(lra)) as [_ BA] end. clear V F. unfold u3. apply prod_near with 0.38848145378 0.9339605082802; lra.
Qed.
End Acc.
