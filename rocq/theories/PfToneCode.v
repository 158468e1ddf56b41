(** * How far rounding to eight bits moves a channel.  Proof file. *)
From Coq Require Import ZArith Bool Reals Lra Lia Psatz String List.
From Flocq Require Import Core Relative IEEE754.BinarySingleNaN.
From Verif Require Import F64 Spec SpecCam FloatFacts FloatMono FloatCast MathUtils ColorUtils PfMath PfLab PfTones PfNear PfGamma PfRel PfToneReal.
Open Scope string_scope.
Open Scope R_scope.

Lemma byte_round (x : f64) : fin x -> -1000 <= B2R x <= 255.4 ->
  let c := clamp_int 0 255 (rcast x) in (0 <= c <= 255)%Z /\ (0 <= B2R x -> - (1 / 2) <= IZR c - B2R x <= 1 / 2) /\ (B2R x < 0 -> c = 0%Z).
Proof.
  intros f h. cbv zeta. rewrite rcast_fin by assumption. pose proof (Znearest_half (Z.leb 0) (B2R x)) as H. fold ZnearestA in H.
  change (Znearest (Z.leb 0) (B2R x)) with (ZnearestA (B2R x)) in H. apply Rabs_le_inv in H. set (n := ZnearestA (B2R x)) in *. clearbody n.
  assert (N1 : (-1001 <= n)%Z) by (apply le_IZR; lra). assert (N2 : (n < 256)%Z) by (apply lt_IZR; lra).
  assert (Z1 : zclamp i64_min i64_max n = n) by zcl. rewrite Z1. unfold clamp_int.
  destruct (Z.ltb_spec n 0) as [l|l]; [|destruct (Z.ltb_spec 255 n) as [m|m]].
  - split; [lia|]. split; [intros p; assert (IZR n <= -1) by (apply IZR_le; lia); lra|reflexivity].
  - lia.
  - split; [lia|]. split; [intros _; lra|]. intros p. assert (n < 1)%Z by (apply lt_IZR; lra). lia.
Qed.

(** Powers with exponent 2.4. *)
Lemma p24_diff a b : 0 < b -> b <= a -> 0 <= Rpower a 2.4 - Rpower b 2.4 <= 2.4 * (Rpower a 2.4 / b) * (a - b).
Proof.
  intros hb h. assert (E : Rpower b 2.4 = Rpower a 2.4 * exp (2.4 * (ln b - ln a))) by (unfold Rpower; rewrite <- exp_plus; f_equal; ring).
  assert (P : 0 < Rpower a 2.4) by apply exp_pos. pose proof (exp_ineq1_le (2.4 * (ln b - ln a))) as X. pose proof (ln_le' b a hb h) as L.
  assert (U : exp (2.4 * (ln b - ln a)) <= 1) by (rewrite <- exp_0; apply exp_le; lra).
  assert (D : ln a - ln b <= a / b - 1).
  { replace (ln a - ln b) with (ln (a / b)) by (unfold Rdiv; rewrite ln_mult, ln_Rinv by (try apply Rinv_0_lt_compat; lra); ring). apply ln_le_sub1. apply Rdiv_lt_0_compat; lra. }
  set (p := Rpower a 2.4) in *. rewrite E. set (e := exp (2.4 * (ln b - ln a))) in *.
  assert (p * e <= p * 1) by (apply Rmult_le_compat_l; lra). split; [lra|].
  replace (2.4 * (p / b) * (a - b)) with (p * (2.4 * (a / b - 1))) by (field; lra).
  assert (p * (1 - e) <= p * (2.4 * (a / b - 1))) by (apply Rmult_le_compat_l; lra). lra.
Qed.

Lemma p24_sqrt W : 0 < W <= 1.0003 -> Rpower W 1.4 <= 1.0001 * sqrt (Rpower W 2.4).
Proof.
  intros h. assert (E : sqrt (Rpower W 2.4) = Rpower W 1.2).
  { apply sqrt_lem_1; [left; apply exp_pos|left; apply exp_pos|]. rewrite <- Rpower_plus. f_equal. lra. }
  rewrite E. replace 1.4 with (0.2 + 1.2) by lra. rewrite Rpower_plus. apply Rmult_le_compat_r; [left; apply exp_pos|].
  destruct (Rle_dec W 1) as [l|l].
  - apply Rle_trans with (Rpower W 0); [|rewrite Rpower_O by lra; lra]. apply rpow_exp_small; lra.
  - apply (pow_hi_big _ _ _ 1 5); [lra|lra|lia|simpl; lra|]. simpl. lra.
Qed.

(** Rounding in the curved part of the transfer function. *)
Lemma curve_gap a W e : 0.09 <= W <= 1.0003 -> 0 < a -> - e <= a - W <= e -> 0 <= e <= 0.001859 ->
  - (0.00475 * sqrt (Rpower W 2.4)) <= Rpower a 2.4 - Rpower W 2.4 <= 0.00475 * sqrt (Rpower W 2.4).
Proof.
  intros hW ha h he. pose proof (p24_sqrt W ltac:(lra)) as S. set (s := sqrt (Rpower W 2.4)) in *. assert (0 <= s) by apply sqrt_pos.
  assert (Q : Rpower W 2.4 = Rpower W 1.4 * W) by (rewrite <- (Rpower_1 W) at 3 by lra; rewrite <- Rpower_plus; f_equal; lra).
  assert (P : 0 < Rpower W 1.4) by apply exp_pos. set (p := Rpower W 1.4) in *.
  destruct (Rle_dec W a) as [l|l].
  - pose proof (p24_diff a W ltac:(lra) l) as D.
    assert (R : Rpower a 2.4 <= 1.0506 * Rpower W 2.4).
    { replace (Rpower a 2.4) with (Rpower (a / W) 2.4 * Rpower W 2.4).
      2: { rewrite Rpower_mult_distr by (try apply Rdiv_lt_0_compat; lra). f_equal. field. lra. }
      apply Rmult_le_compat_r; [left; apply exp_pos|]. assert (1 <= a / W) by (apply le_div; lra). assert (a / W <= 1.0207) by (apply div_le; lra).
      apply (pow_hi_big _ _ _ 12 5); [lra|lra|lia|simpl; lra|]. apply Rle_trans with (1.0207 ^ 12); [apply pow_incr; lra|lra]. }
    assert (R2 : Rpower a 2.4 / W <= 1.0506 * p) by (apply div_le; [lra|rewrite Q in R; lra]).
    assert (0 <= Rpower a 2.4 / W) by (left; apply Rdiv_lt_0_compat; [apply exp_pos|lra]).
    assert (2.4 * (Rpower a 2.4 / W) * (a - W) <= 2.4 * (1.0506 * p) * 0.001859) by (apply Rmult_le_compat; lra). lra.
  - pose proof (p24_diff W a ha ltac:(lra)) as D.
    assert (R2 : Rpower W 2.4 / a <= 1.0212 * p) by (apply div_le; [lra|]; rewrite Q; rewrite (Rmult_comm 1.0212), Rmult_assoc; apply Rmult_le_compat_l; lra).
    assert (0 <= Rpower W 2.4 / a) by (left; apply Rdiv_lt_0_compat; [apply exp_pos|lra]).
    assert (2.4 * (Rpower W 2.4 / a) * (W - a) <= 2.4 * (1.0212 * p) * 0.001859) by (apply Rmult_le_compat; lra). lra.
Qed.

Section Acc.
Context {lm : Libm} (PA : pow_accurate (1 / 10 ^ 13) lm).

Lemma code_gap (x : f64) ex : fin x -> 0 <= ex <= 0.0005 -> - ex <= B2R x / 100 <= 1 + ex ->
  let c := delinearized x in let V := B2R x / 100 in (0 <= c <= 255)%Z /\
  - (0.00475 * sqrt (Rmax V 0 + 0.00114)) - ex <= linR c - V <= 0.00475 * sqrt (Rmax V 0 + 0.00114) + ex.
Proof using PA.
  intros fx hex hx. cbv zeta. unfold delinearized. cbv zeta. change (to_i64 (fround ?a)) with (rcast a).
  set (V := B2R x / 100) in *. fconst (dec "100.0"). fconst (dec "0.0031308"). fconst (dec "12.92"). fconst (dec "1.055"). fconst (dec "0.055"). fconst (dec "255.0").
  assert (S1 : 0.033763 <= sqrt (Rmax (V) 0 + 0.00114)).
  { pose proof (Rmax_r (V) 0). rewrite <- (sqrt_square 0.033763) by lra. apply sqrt_le_1_alt. lra. }
  assert (S2 : 0 <= V -> sqrt (V) <= sqrt (Rmax (V) 0 + 0.00114)) by (intros _; apply sqrt_le_1_alt; pose proof (Rmax_l (V) 0); lra).
  set (sq := sqrt (Rmax V 0 + 0.00114)) in *. clearbody sq.
  destruct (fdiv_S x (dec "100.0") fx ltac:(lra) ltac:(rewrite V0; fold V; fsmall)) as [E1 G1]. rewrite V0 in E1. fold V in E1.
  pose proof (rnd_near V ltac:(lra)) as B1. rewrite <- E1 in B1. set (z := fdiv x (dec "100.0")) in *. clearbody z.
  destruct (fle z (dec "0.0031308")) eqn:BR.
  - apply (fle_fin _ _ G1 F0) in BR. rewrite V1 in BR.
    destruct (fmul_S z (dec "12.92") G1 F1 ltac:(rewrite V2; fsmall)) as [E2 G2]. rewrite V2 in E2.
    match type of E2 with _ = rnd ?r => pose proof (rnd_near r ltac:(lra)) as B2 end. rewrite <- E2 in B2. set (d := fmul z (dec "12.92")) in *. clearbody d.
    destruct (fmul_S d (dec "255.0") G2 F4 ltac:(rewrite V5; fsmall)) as [E3 G3]. rewrite V5 in E3.
    pose proof (rnd_far (B2R d * 255) ltac:(lra)) as B3. rewrite <- E3 in B3. set (k := fmul d (dec "255.0")) in *. clearbody k.
    assert (BK : 3294.6 * V - 1 / 10 ^ 9 <= B2R k <= 3294.6 * V + 1 / 10 ^ 9) by lra.
    destruct (byte_round k G3 ltac:(lra)) as (c1 & c2 & c3). set (c := clamp_int 0 255 (rcast k)) in *. clearbody c. split; [exact c1|].
    destruct (Rlt_dec (B2R k) 0) as [n|n].
    + rewrite (c3 n). unfold linR. cbn [Z.leb Z.compare]. lra.
    + specialize (c2 ltac:(lra)). assert (c < 11)%Z by (apply lt_IZR; lra). unfold linR. destruct (Z.leb_spec c 10); [|lia]. lra.
  - apply (fle_fin_f _ _ G1 F0) in BR. rewrite V1 in BR. clear E1.
    set (y := fdiv (dec "1.0") (dec "2.4")) in *. assert (FY : fin y /\ / 2.4 - 1 / 10 ^ 15 <= B2R y <= / 2.4 + 1 / 10 ^ 15).
    { unfold y. fconst (fdiv (dec "1.0") (dec "2.4")). split; [exact F5|rewrite V6; lra]. }
    destruct FY as [FY BY]. clearbody y. assert (hV : 0.0031307 <= V <= 1.0005) by lra.
    set (W := Rpower V (/ 2.4)). assert (WV : Rpower W 2.4 = V) by (unfold W; rewrite Rpower_mult; replace (/ 2.4 * 2.4) with 1 by lra; apply Rpower_1; lra).
    assert (BW : 0.0903 <= W <= 1.0003).
    { unfold W. split.
      - destruct (Rle_dec V 1) as [l|l]; [apply (pow_lo_small _ _ _ 5 12); [lra|lra|lia|simpl; lra|apply Rle_trans with (0.0031307 ^ 5); [lra|apply pow_incr; lra]]|].
        apply (pow_lo_big _ _ _ 5 12); [lra|lra|lia|simpl; lra|]. apply Rle_trans with (1 ^ 5); [lra|apply pow_incr; lra].
      - destruct (Rle_dec V 1) as [l|l]; [apply (pow_hi_small _ _ _ 5 12); [lra|lra|lia|simpl; lra|apply Rle_trans with (1 ^ 5); [apply pow_incr; lra|lra]]|].
        apply (pow_hi_big _ _ _ 5 12); [lra|lra|lia|simpl; lra|]. apply Rle_trans with (1.0005 ^ 5); [apply pow_incr; lra|lra]. }
    destruct (ln_near (B2R z) V (4 / 10 ^ 11) ltac:(lra) ltac:(lra) ltac:(lra)) as [PZ LZ].
    assert (L1 := ln_le_sub V ltac:(lra)). assert (L2 := ln_ge_inv V ltac:(lra)).
    assert (I : / V <= 1000) by (rewrite <- (Rinv_inv 1000); apply Rinv_le; lra).
    destruct (rpow_near (B2R z) V (B2R y) (/ 2.4) (4 / 10 ^ 11)) as [R1 R2]; [exact PZ|lra| |lra|].
    { replace (B2R y * ln (B2R z) - / 2.4 * ln V) with (B2R y * (ln (B2R z) - ln V) + (B2R y - / 2.4) * ln V) by ring.
      pose proof (mul_bnd (B2R y - / 2.4) (ln V) (1 / 10 ^ 15) 1000 ltac:(lra) ltac:(lra)).
      pose proof (mul_bnd (B2R y) (ln (B2R z) - ln V) (0.42) (8 / 10 ^ 11) ltac:(lra) ltac:(lra)). lra. }
    fold W in R1, R2.
    destruct (pow_ok (1 / 10 ^ 13) PA z y G1 FY PZ ltac:(lra)) as [FP EP]. set (p := powf z y) in *. clearbody p.
    set (q := Rpower (B2R z) (B2R y)) in *. clearbody q.
    assert (P1 : W - 2 / 10 ^ 10 <= B2R p <= W + 2 / 10 ^ 10) by lra. clear EP R1 R2 LZ L1 L2 I.
    destruct (fmul_S (dec "1.055") p F2 FP ltac:(rewrite V3; fsmall)) as [E2 G2]. rewrite V3 in E2.
    match type of E2 with _ = rnd ?r => pose proof (rnd_near r ltac:(lra)) as B2 end. rewrite <- E2 in B2. set (d := fmul (dec "1.055") p) in *. clearbody d.
    destruct (fsub_S d (dec "0.055") G2 F3 ltac:(rewrite V4; fsmall)) as [E3 G3]. rewrite V4 in E3.
    match type of E3 with _ = rnd ?r => pose proof (rnd_near r ltac:(lra)) as B3 end. rewrite <- E3 in B3. set (f := fsub d (dec "0.055")) in *. clearbody f.
    destruct (fmul_S f (dec "255.0") G3 F4 ltac:(rewrite V5; fsmall)) as [E4 G4]. rewrite V5 in E4.
    pose proof (rnd_far (B2R f * 255) ltac:(lra)) as B4. rewrite <- E4 in B4. set (k := fmul f (dec "255.0")) in *. clearbody k.
    assert (BK : 255 * (1.055 * W - 0.055) - 1 / 10 ^ 7 <= B2R k <= 255 * (1.055 * W - 0.055) + 1 / 10 ^ 7) by lra.
    destruct (byte_round k G4 ltac:(lra)) as (c1 & c2 & _). set (c := clamp_int 0 255 (rcast k)) in *. clearbody c. split; [exact c1|].
    specialize (c2 ltac:(lra)). assert (9 < c)%Z by (apply lt_IZR; lra). specialize (S2 ltac:(lra)). unfold linR. destruct (Z.leb_spec c 10) as [l|l].
    + assert (C : c = 10%Z) by lia. rewrite C in *. assert (WU : W <= 0.09117) by lra.
      assert (VU : V <= 0.0032). { rewrite <- WV. apply (pow_hi_small _ _ _ 12 5); [lra|lra|lia|simpl; lra|]. apply Rle_trans with (0.09117 ^ 12); [apply pow_incr; lra|lra]. }
      assert (0.0559 <= sqrt V) by (rewrite <- (sqrt_square 0.0559) by lra; apply sqrt_le_1_alt; lra). lra.
    + assert (IC := c11_R c ltac:(lia)). pose proof (curve_gap (wR c) W 0.001859 ltac:(lra) ltac:(unfold wR; lra) ltac:(unfold wR; lra) ltac:(lra)) as CG. rewrite WV in CG. lra.
Qed.
End Acc.
