(** * The appearance of a stimulus: chroma, colourfulness, saturation and the whole.  Proof file. *)
From Coq Require Import ZArith Bool Reals Lra Lia Psatz String List.
From Flocq Require Import Core Relative IEEE754.BinarySingleNaN.
From Verif Require Import F64 MathUtils ColorUtils ViewingConditions Cam16 Spec SpecCam SpecViewing SpecAppear FloatFacts FloatMono PfMath PfTones PfLab PfGamma PfNear PfVc PfRel
  PfCamA PfCamB PfCamC PfCamD PfCamE PfCamF PfCamG PfCamH PfCamTrip PfAttr PfViewingReal PfAppearReal PfAppearParts.
Open Scope string_scope.
Open Scope R_scope.

Lemma small_pw t y : 0 <= t <= 1 / 10 ^ 20 -> 7 / 8 <= y <= 1 -> 0 <= pw t y <= 4 / 10 ^ 18.
Proof.
  intros ht hy. split; [apply pw_nonneg|]. apply Rle_trans with (pw (1 / 10 ^ 20) y); [apply pw_mono; lra|]. rewrite pw_pos by lra.
  apply Rle_trans with (Rpower (1 / 10 ^ 20) (7 / 8)); [apply rpow_exp_small; lra|]. replace (7 / 8) with (INR 7 / INR 8) by (cbn [INR]; lra).
  apply rpow_ratio_hi; [lra|lra|lia|]. lra.
Qed.

Section Acc.
Context {lm : Libm} (LA : libm_accurate (1 / 10 ^ 13) lm).

Definition alpha_ok (al : f64) (A : R) : Prop :=
  (frel al A (1.6 / 10 ^ 7) /\ 1 / 10 ^ 27 <= A <= 10 ^ 9) \/ (fin al /\ 0 <= B2R al <= 2.1 / 10 ^ 17 /\ 0 <= A <= 2.1 / 10 ^ 17).

Lemma alpha_rel (p1 s w kk : f64) P L W K : frel p1 P (3 / 10 ^ 9) -> 640 <= P <= 37000 -> fin s -> 0 <= B2R s -> 0 <= L <= 1000 -> (1 / 10 ^ 26 <= L -> frel s L (1 / 10 ^ 14)) -> (L <= 1 / 10 ^ 26 -> B2R s <= 2 / 10 ^ 26) ->
  frel w W (2.1 / 10 ^ 9) -> 0.3 <= W <= 1230 -> frel kk K (1.3 / 10 ^ 7) -> 0.2 <= K <= 5 ->
  alpha_ok (fmul (powf (fdiv (fmul p1 s) w) (dec "0.9")) kk) (pw (P * L / W) 0.9 * K).
Proof using LA.
  intros hp bP fs ps bL big small hw bW hk bK. fconst (dec "0.9"). destruct (Rle_or_lt (1 / 10 ^ 26) L) as [g|g].
  - left. specialize (big g). clear small. assert (B1 : 640 * (1 / 10 ^ 26) <= P * L <= 37000 * 1000) by (split; apply Rmult_le_compat; lra).
    assert (BT : 1 / 10 ^ 27 <= P * L / W <= 2 * 10 ^ 8) by (split; [apply le_div|apply div_le]; lra).
    assert (BT' : 5 / 10 ^ 27 <= P * L / W) by (apply le_div; lra).
    pose proof (frel_ms _ _ _ _ _ _ hp big ltac:(lra) ltac:(lra) ltac:(lra)) as N1. apply frel_w with (e' := 3.01 / 10 ^ 9) in N1; [|lra].
    pose proof (frel_ds _ _ _ _ _ _ N1 hw ltac:(lra) ltac:(lra) ltac:(lra)) as N2. apply frel_w with (e' := 5.2 / 10 ^ 9) in N2; [|lra].
    rewrite pw_pos by lra. set (T := P * L / W) in *. set (t := fdiv _ w) in *. clearbody T t. clear N1 hp big hw B1.
    assert (B9 : 5 / 10 ^ 27 <= Rpower T 0.9 <= 2 * 10 ^ 8).
    { assert (R1 : Rpower T 1 = T) by (apply Rpower_1; lra). assert (R0 : Rpower T 0 = 1) by (apply Rpower_O; lra). destruct (Rle_or_lt 1 T) as [gx|gx].
      - pose proof (rpow_exp_big T 0 0.9 gx ltac:(lra)). pose proof (rpow_exp_big T 0.9 1 gx ltac:(lra)). lra.
      - pose proof (rpow_exp_small T 0 0.9 ltac:(lra) ltac:(lra)). pose proof (rpow_exp_small T 0.9 1 ltac:(lra) ltac:(lra)). lra. }
    pose proof (frel_gpow LA t (dec "0.9") T 0.9 _ (1 / 10 ^ 16) 0.91 100 (1 / 10 ^ 8) N2 F ltac:(lra) ltac:(lra) (ln_100 T ltac:(lra)) ltac:(lra) ltac:(lra) ltac:(lra) ltac:(lra) ltac:(lra)) as N3.
    apply frel_w with (e' := 2.2 / 10 ^ 8) in N3; [|lra]. set (q := powf t (dec "0.9")) in *. set (Q := Rpower T 0.9) in *. clearbody q Q.
    assert (BQ : 5 / 10 ^ 27 * 0.2 <= Q * K <= 2 * 10 ^ 8 * 5) by (split; apply Rmult_le_compat; lra).
    pose proof (frel_ms _ _ _ _ _ _ N3 hk ltac:(lra) ltac:(lra) ltac:(lra)) as N4. split; [apply frel_w with (1 := N4); lra|lra].
  - right. specialize (small ltac:(lra)). clear big. destruct hp as [fp hp]. destruct hw as [fw hw]. destruct hk as [fk hk].
    assert (bp : 0 < B2R p1 <= 37001) by (destruct hp; lra). assert (bw : 0.29 <= B2R w) by (destruct hw; lra). assert (bk : 0 < B2R kk <= 5.001) by (destruct hk; lra).
    assert (C1 : 0 <= B2R p1 * B2R s <= 37001 * (2 / 10 ^ 26)) by (split; [apply Rmult_le_pos; lra|apply Rmult_le_compat; lra]).
    destruct (fmul_S p1 s fp fs ltac:(unfold HUGE; lra)) as [E1 F1]. pose proof (rnd_bounds _ (proj1 C1)) as R1. pose proof (rnd_ge_0 _ (proj1 C1)) as P1. rewrite <- E1 in R1, P1. pose proof eta_small as ETA. unfold u53 in R1.
    set (x := fmul p1 s) in *. clearbody x. clear E1. assert (bx : 0 <= B2R x <= 8 / 10 ^ 22) by lra.
    assert (C2 : 0 <= B2R x / B2R w <= 3 / 10 ^ 21) by (split; [apply le_div|apply div_le]; lra).
    destruct (fdiv_S x w F1 ltac:(lra) ltac:(unfold HUGE; lra)) as [E2 F2]. pose proof (rnd_bounds _ (proj1 C2)) as R2. pose proof (rnd_ge_0 _ (proj1 C2)) as P2. rewrite <- E2 in R2, P2. unfold u53 in R2.
    set (t := fdiv x w) in *. clearbody t. clear E2. assert (bt : 0 <= B2R t <= 1 / 10 ^ 20) by lra.
    pose proof (small_pw (B2R t) (B2R (dec "0.9")) bt ltac:(lra)) as S1.
    destruct (pow_any LA t (dec "0.9") F2 F ltac:(lra) ltac:(lra) ltac:(lra)) as (FP & PP & BP). set (q := powf t (dec "0.9")) in *. clearbody q.
    assert (C3 : 0 <= B2R q * B2R kk <= 4.01 / 10 ^ 18 * 5.001) by (split; [apply Rmult_le_pos; lra|apply Rmult_le_compat; lra]).
    destruct (fmul_S q kk FP fk ltac:(unfold HUGE; lra)) as [E3 F3]. pose proof (rnd_bounds _ (proj1 C3)) as R3. pose proof (rnd_ge_0 _ (proj1 C3)) as P3. rewrite <- E3 in R3, P3. unfold u53 in R3.
    split; [exact F3|]. split; [lra|].
    assert (C4 : 0 <= P * L / W <= 1 / 10 ^ 20). { assert (0 <= P * L <= 37000 * (1 / 10 ^ 26)) by (split; [apply Rmult_le_pos; lra|apply Rmult_le_compat; lra]). split; [apply le_div|apply div_le]; lra. }
    pose proof (small_pw _ 0.9 C4 ltac:(lra)) as S2. split; [apply Rmult_le_pos; lra|]. apply Rle_trans with (4 / 10 ^ 18 * 5); [apply Rmult_le_compat; lra|lra].
Qed.

Lemma alpha_mix al A : alpha_ok al A -> mix al A (1.6 / 10 ^ 7) (1 / 10 ^ 16) /\ 0 <= B2R al /\ A <= 10 ^ 9.
Proof using.
  intros [[[f [p b]] q]|(f & b & q)].
  - split; [|split; lra]. split; [exact f|]. split; lra.
  - split; [|split; lra]. split; [exact f|]. assert (0 <= A * (1.6 / 10 ^ 7)) by (apply Rmult_le_pos; lra). split; lra.
Qed.

(** ** Brightness and saturation *)
Lemma aw4 (aw : f64) A : frel aw A (1 / 10 ^ 9) -> 0.09 <= A <= 7360 -> frel (fadd aw (dec "4.0")) (A + 4) (1.1 / 10 ^ 9).
Proof using.
  intros ha bA. fconst (dec "4.0"). pose proof (frel_add aw (dec "4.0") A 4 _ ha (frel_const _ _ 4 (1 / 10 ^ 9) F V ltac:(split; lra)) ltac:(lra) ltac:(lra)) as N. apply frel_w with (1 := N). lra.
Qed.
Lemma q_rel (c sj aw fr : f64) C S A R : frel c C (1 / 10 ^ 9) -> 0.525 <= C <= 0.69 -> frel sj S (3.25 / 10 ^ 7) -> 2 / 10 ^ 8 <= S <= 4 * 10 ^ 5 -> frel aw A (1 / 10 ^ 9) -> 0.09 <= A <= 7360 ->
  frel fr R (1 / 10 ^ 9) -> 0.001 <= R <= 7 -> frel (fq c sj aw fr) (4 / C * S * (A + 4) * R) (4 / 10 ^ 7).
Proof using.
  intros hc bC hs bS ha bA hr bR. unfold fq. pose proof (aw4 aw A ha bA) as N4. fconst (dec "4.0").
  assert (B1 : 5 <= 4 / C <= 8) by (split; [apply le_div|apply div_le]; lra). assert (B2 : 5 * (2 / 10 ^ 8) <= 4 / C * S <= 8 * (4 * 10 ^ 5)) by (split; apply Rmult_le_compat; lra).
  assert (B3 : 5 * (2 / 10 ^ 8) * 4 <= 4 / C * S * (A + 4) <= 8 * (4 * 10 ^ 5) * 7364) by (split; apply Rmult_le_compat; lra).
  assert (B4 : 5 * (2 / 10 ^ 8) * 4 * 0.001 <= 4 / C * S * (A + 4) * R <= 8 * (4 * 10 ^ 5) * 7364 * 7) by (split; apply Rmult_le_compat; lra).
  pose proof (frel_ds (dec "4.0") c 4 C 0 _ (frel_const _ _ 4 0 F V ltac:(split; lra)) hc ltac:(lra) ltac:(lra) ltac:(lra)) as N1. apply frel_w with (e' := 1.1 / 10 ^ 9) in N1; [|lra].
  pose proof (frel_ms _ _ _ _ _ _ N1 hs ltac:(lra) ltac:(lra) ltac:(lra)) as N2. apply frel_w with (e' := 3.3 / 10 ^ 7) in N2; [|lra].
  pose proof (frel_ms _ _ _ _ _ _ N2 N4 ltac:(lra) ltac:(lra) ltac:(lra)) as N3. apply frel_w with (e' := 3.4 / 10 ^ 7) in N3; [|lra].
  pose proof (frel_ms _ _ _ _ _ _ N3 hr ltac:(lra) ltac:(lra) ltac:(lra)) as N5. apply frel_w with (1 := N5). lra.
Qed.
Lemma s_six (al c aw : f64) L C A : alpha_ok al L -> frel c C (1 / 10 ^ 9) -> 0.525 <= C <= 0.69 -> frel aw A (1 / 10 ^ 9) -> 0.09 <= A <= 7360 -> six (fs_ al c aw) (50 * sqrt (L * C / (A + 4))).
Proof using.
  intros hal hc bC ha bA. unfold fs_. pose proof (aw4 aw A ha bA) as N4. fconst (dec "50.0"). set (w := fadd aw (dec "4.0")) in *. clearbody w. set (W := A + 4) in *. assert (bW : 4 <= W <= 7364) by (unfold W; lra). clearbody W. clear ha aw.
  destruct hal as [[hl bl]|(fl & bl & bL)].
  - assert (B1 : 1 / 10 ^ 27 * 0.525 <= L * C <= 10 ^ 9 * 0.69) by (split; apply Rmult_le_compat; lra).
    assert (B2 : 7 / 10 ^ 32 <= L * C / W <= 10 ^ 9) by (split; [apply le_div|apply div_le]; lra).
    pose proof (frel_ms _ _ _ _ _ _ hl hc ltac:(lra) ltac:(lra) ltac:(lra)) as N1. apply frel_w with (e' := 1.65 / 10 ^ 7) in N1; [|lra].
    pose proof (frel_ds _ _ _ _ _ _ N1 N4 ltac:(lra) ltac:(lra) ltac:(lra)) as N2. apply frel_w with (e' := 1.7 / 10 ^ 7) in N2; [|lra].
    pose proof (frel_sq _ _ _ N2 ltac:(lra) ltac:(lra)) as N3. apply frel_w with (e' := 1.8 / 10 ^ 7) in N3; [|lra].
    assert (S1 : sqrt (1 / 10 ^ 17 * (1 / 10 ^ 17)) <= sqrt (L * C / W)) by (apply sqrt_le_1; lra). assert (S2 : sqrt (L * C / W) <= sqrt (10 ^ 5 * 10 ^ 5)) by (apply sqrt_le_1; lra).
    rewrite sqrt_square in S1, S2 by lra. set (Q := sqrt (L * C / W)) in *. clearbody Q.
    pose proof (frel_ms (dec "50.0") _ 50 Q 0 _ (frel_const _ _ 50 0 F V ltac:(split; lra)) N3 ltac:(lra) ltac:(lra) ltac:(lra)) as N5.
    apply mix_six with (1 := frel_mix _ _ _ N5); lra.
  - destruct hc as [fc hc]. destruct N4 as [fw hw]. assert (bc : 0 < B2R c <= 0.7) by (destruct hc; lra). assert (bw : 3.9 <= B2R w) by (destruct hw; lra).
    assert (C1 : 0 <= B2R al * B2R c <= 2.1 / 10 ^ 17 * 0.7) by (split; [apply Rmult_le_pos; lra|apply Rmult_le_compat; lra]).
    destruct (fmul_S al c fl fc ltac:(unfold HUGE; lra)) as [E1 F1]. pose proof (rnd_bounds _ (proj1 C1)) as R1. pose proof (rnd_ge_0 _ (proj1 C1)) as P1. rewrite <- E1 in R1, P1. pose proof eta_small as ETA. unfold u53 in R1.
    set (x := fmul al c) in *. clearbody x. clear E1. assert (bx : 0 <= B2R x <= 1.5 / 10 ^ 17) by lra.
    assert (C2 : 0 <= B2R x / B2R w <= 3.9 / 10 ^ 18) by (split; [apply le_div|apply div_le]; lra).
    destruct (fdiv_S x w F1 ltac:(lra) ltac:(unfold HUGE; lra)) as [E2 F2]. pose proof (rnd_bounds _ (proj1 C2)) as R2. pose proof (rnd_ge_0 _ (proj1 C2)) as P2. rewrite <- E2 in R2, P2. unfold u53 in R2.
    set (t := fdiv x w) in *. clearbody t. clear E2. assert (bt : 0 <= B2R t <= 2 / 10 ^ 9 * (2 / 10 ^ 9)) by lra.
    destruct (fsqrt_R t F2 P2) as [FQ EQ]. assert (Q1 : 0 <= sqrt (B2R t) <= 2 / 10 ^ 9). { split; [apply sqrt_pos|]. apply Rle_trans with (sqrt (2 / 10 ^ 9 * (2 / 10 ^ 9))); [apply sqrt_le_1; lra|rewrite sqrt_square; lra]. }
    pose proof (rnd_bounds _ (proj1 Q1)) as R3. pose proof (rnd_ge_0 _ (proj1 Q1)) as P3. rewrite <- EQ in R3, P3. unfold u53 in R3. set (q := fsqrt t) in *. clearbody q. clear EQ.
    assert (C4 : 0 <= B2R (dec "50.0") * B2R q <= 50 * (2.1 / 10 ^ 9)) by (rewrite V; lra).
    destruct (fmul_S (dec "50.0") q F FQ ltac:(unfold HUGE; lra)) as [E5 F5]. pose proof (rnd_bounds _ (proj1 C4)) as R5. pose proof (rnd_ge_0 _ (proj1 C4)) as P5. rewrite <- E5 in R5, P5. unfold u53 in R5.
    split; [exact F5|].
    assert (B3 : 0 <= L * C / W <= 2 / 10 ^ 9 * (2 / 10 ^ 9)). { assert (0 <= L * C <= 2.1 / 10 ^ 17 * 0.69) by (split; [apply Rmult_le_pos; lra|apply Rmult_le_compat; lra]). split; [apply le_div|apply div_le]; lra. }
    assert (S2 : 0 <= sqrt (L * C / W) <= 2 / 10 ^ 9). { split; [apply sqrt_pos|]. apply Rle_trans with (sqrt (2 / 10 ^ 9 * (2 / 10 ^ 9))); [apply sqrt_le_1; lra|rewrite sqrt_square; lra]. }
    rewrite (Rabs_pos_eq (50 * _)) by lra. apply Rabs_le. lra.
Qed.

(** ** The uniform colour space *)
Lemma ln_mix v V X e d : 1 <= v -> V = 1 + X -> 0 <= X -> 0 <= e <= 1 / 10 ^ 6 -> 0 <= d <= 1 / 10 ^ 6 -> - (X * e + d) <= v - V <= X * e + d ->
  - (ln V * (1.001 * e) + 1.001 * d) <= ln v - ln V <= ln V * (1.001 * e) + 1.001 * d.
Proof using.
  intros hv EV hX he hd h. assert (LV : X / V <= ln V). { pose proof (ln_le_sub (/ V) ltac:(apply Rinv_0_lt_compat; lra)) as I. rewrite ln_Rinv in I by lra. replace (X / V) with (1 - / V) by (subst V; field; lra). lra. }
  assert (XE : X * e <= X * (1 / 10 ^ 6)) by (apply Rmult_le_compat_l; lra). assert (XE0 : 0 <= X * e) by (apply Rmult_le_pos; lra).
  assert (Q : (X * e + d) / V <= ln V * e + d). { replace ((X * e + d) / V) with (X / V * e + d / V) by (field; lra). assert (X / V * e <= ln V * e) by (apply Rmult_le_compat_r; lra). assert (d / V <= d) by (apply div_le; [lra|]; assert (d * 1 <= d * V) by (apply Rmult_le_compat_l; lra); lra). lra. }
  assert (L0 : 0 <= ln V) by (apply Rle_trans with (2 := LV); apply le_div; lra). assert (LE : 0 <= ln V * e) by (apply Rmult_le_pos; lra).
  split.
  - pose proof (ln_le_sub (V / v) ltac:(apply Rdiv_lt_0_compat; lra)) as I. unfold Rdiv in I at 1. rewrite ln_mult, ln_Rinv in I by (try apply Rinv_0_lt_compat; lra).
    assert (V / v - 1 <= 1.001 * ((X * e + d) / V)); [|lra].
    replace (V / v - 1) with ((V - v) / v) by (field; lra). apply div_le; [lra|]. replace (1.001 * ((X * e + d) / V) * v) with ((X * e + d) * (1.001 * v / V)) by (field; lra).
    apply Rle_trans with ((X * e + d) * 1); [lra|]. apply Rmult_le_compat_l; [lra|]. apply le_div; lra.
  - pose proof (ln_le_sub (v / V) ltac:(apply Rdiv_lt_0_compat; lra)) as I. unfold Rdiv in I at 1. rewrite ln_mult, ln_Rinv in I by (try apply Rinv_0_lt_compat; lra).
    assert (v / V - 1 <= (X * e + d) / V); [|lra].
    replace (v / V - 1) with ((v - V) / V) by (field; lra). unfold Rdiv. apply Rmult_le_compat_r; [left; apply Rinv_0_lt_compat|]; lra.
Qed.

Lemma mstar_mix (m : f64) M : mix m M (4.9 / 10 ^ 7) (1 / 10 ^ 9) -> 0 <= B2R m <= 10 ^ 6 ->
  mix (fw_ucs_m m) (ln (1 + 0.0228 * M) / 0.0228) (5 / 10 ^ 7) (1 / 10 ^ 8) /\ 0 <= ln (1 + 0.0228 * M) / 0.0228 <= 900.
Proof using LA.
  intros (fm & pM & hm) bm. unfold fw_ucs_m. fconst (dec "1.0"). fconst (dec "0.0228"). set (X := 0.0228 * M).
  assert (P0 : 0 <= B2R (dec "0.0228") * B2R m <= 22900) by (rewrite V0; split; lra).
  destruct (fmul_S (dec "0.0228") m F0 fm ltac:(unfold HUGE; lra)) as [E1 F1].
  pose proof (rnd_bounds _ (proj1 P0)) as R1. pose proof (rnd_ge_0 _ (proj1 P0)) as Q1. rewrite <- E1 in R1, Q1. pose proof eta_small as ETA. unfold u53 in R1.
  set (x := fmul (dec "0.0228") m) in *. clearbody x. clear E1. rewrite V0 in R1.
  destruct (fadd_S (dec "1.0") x F F1 ltac:(rewrite V; unfold HUGE; lra)) as [E2 F2]. rewrite V in E2.
  assert (Y1 : 1 <= B2R (fadd (dec "1.0") x)) by (rewrite E2; apply (rnd_ge_IZR _ 1); [lia|lra]).
  pose proof (rnd_bounds (1 + B2R x) ltac:(lra)) as R2. rewrite <- E2 in R2. unfold u53 in R2. clear E2.
  set (y := fadd (dec "1.0") x) in *. clearbody y.
  assert (BM : M <= 1.1 * 10 ^ 6) by lra. assert (pX : 0 <= X <= 26000) by (unfold X; lra).
  assert (YY : - (X * (4.91 / 10 ^ 7) + 1.2 / 10 ^ 10) <= B2R y - (1 + X) <= X * (4.91 / 10 ^ 7) + 1.2 / 10 ^ 10) by (unfold X; lra).
  destruct (la_ln _ _ LA y F2 ltac:(lra)) as [FL EL]. apply Rabs_le_inv in EL.
  pose proof (ln_mix (B2R y) (1 + X) X (4.91 / 10 ^ 7) (1.2 / 10 ^ 10) Y1 eq_refl ltac:(lra) ltac:(lra) ltac:(lra) YY) as LL. pose proof (ln_20 (1 + X) ltac:(lra)) as LB.
  assert (LV : 0 <= ln (1 + X)) by (rewrite <- ln_1; destruct (Req_dec X 0) as [->|]; [rewrite Rplus_0_r; lra|left; apply ln_increasing; lra]).
  set (l := ln (B2R y)) in *. set (L := lnf y) in *. clearbody l L. set (V' := ln (1 + X)) in *. clearbody V'. clear YY R1 R2 hm Y1.
  assert (KL : - (V' * (4.93 / 10 ^ 7) + 1.3 / 10 ^ 10) <= B2R L - V' <= V' * (4.93 / 10 ^ 7) + 1.3 / 10 ^ 10) by lra.
  assert (DV : - 22 / 0.0228 <= B2R L / B2R (dec "0.0228") <= 22 / 0.0228) by (rewrite V0; split; lra).
  destruct (fdiv_S L (dec "0.0228") FL ltac:(rewrite V0; lra) ltac:(unfold HUGE; lra)) as [E3 F3].
  pose proof (rnd_uu _ 1000 ltac:(split; [apply Rle_trans with (2 := proj1 DV)|apply Rle_trans with (1 := proj2 DV)]; lra) ltac:(lra)) as R3. rewrite <- E3 in R3. unfold uu in R3. rewrite V0 in R3.
  split; [|split; [apply le_div; lra|apply div_le; lra]]. split; [exact F3|]. split; [apply le_div; lra|]. lra.
Qed.

Lemma cart_near (ms t : f64) S T : mix ms S (5 / 10 ^ 7) (1 / 10 ^ 8) -> 0 <= S <= 900 -> near t T (1 / 10 ^ 12) -> -1 <= T <= 1 -> Rabs (B2R (fmul ms t) - S * T) <= (1 + S) / 10 ^ 6.
Proof using.
  intros (fm & _ & hm) bS [ft ht] bT. assert (D : B2R ms * B2R t - S * T = (B2R ms - S) * B2R t + S * (B2R t - T)) by ring.
  assert (A1 : - ((S * (5 / 10 ^ 7) + 1 / 10 ^ 8) * 1.001) <= (B2R ms - S) * B2R t <= (S * (5 / 10 ^ 7) + 1 / 10 ^ 8) * 1.001) by (apply mul_bnd; lra).
  assert (A2 : - (900 * (1 / 10 ^ 12)) <= S * (B2R t - T) <= 900 * (1 / 10 ^ 12)) by (apply mul_bnd; lra).
  assert (A3 : - (900 * 1) <= S * T <= 900 * 1) by (apply mul_bnd; lra).
  destruct (fmul_S ms t fm ft ltac:(unfold HUGE; lra)) as [E F]. rewrite E. pose proof (rnd_uu (B2R ms * B2R t) 1000 ltac:(lra) ltac:(lra)) as R. unfold uu in R. apply Rabs_le. lra.
Qed.

(** ** The whole *)
Record settled (vc : viewing_conditions) (k : conditions) : Prop := {
  sl_fl : frel (vc_fl vc) (k_fl k) (1 / 10 ^ 9); sl_fl' : 0.001 <= k_fl k <= 7;
  sl_rt : frel (vc_f_lroot vc) (Rpower (k_fl k) 0.25) (1 / 10 ^ 9);
  sl_n : frel (vc_n vc) (k_n k) (1 / 10 ^ 9); sl_n' : 1 / 10 ^ 5 <= k_n k <= 5;
  sl_nbb : frel (vc_nbb vc) (k_nbb k) (1 / 10 ^ 9); sl_nbb' : 0.3 <= k_nbb k <= 8;
  sl_ncb : frel (vc_ncb vc) (k_nbb k) (1 / 10 ^ 9);
  sl_z : frel (vc_z vc) (k_z k) (1 / 10 ^ 9); sl_z' : 1.48 <= k_z k <= 3.73;
  sl_c : frel (vc_c vc) (k_c k) (1 / 10 ^ 9); sl_c' : 0.525 <= k_c k <= 0.69;
  sl_nc : frel (vc_n_c vc) (k_nc k) (1 / 10 ^ 9); sl_nc' : 0.8 <= k_nc k <= 1;
  sl_aw : frel (vc_aw vc) (k_aw k) (1 / 10 ^ 9); sl_aw' : 0.3 * k_nbb k <= k_aw k <= 920 * k_nbb k;
  sl_r : frel (v0 (vc_rgb_d vc)) (k_red k) (1 / 10 ^ 9); sl_r' : 0.5 <= k_red k <= 5;
  sl_g : frel (v1 (vc_rgb_d vc)) (k_green k) (1 / 10 ^ 9); sl_g' : 0.5 <= k_green k <= 5;
  sl_b : frel (v2 (vc_rgb_d vc)) (k_blue k) (1 / 10 ^ 9); sl_b' : 0.5 <= k_blue k <= 5
}.

Lemma between_resp x R : frel x R (1 / 10 ^ 7) -> 0.00294 <= R <= 400 -> between x 0.0029 401.
Proof using. intros [f [p b]] h. split; [exact f|]. lra. Qed.
Lemma near_resp x R r : rel (B2R x) r (2 / 10 ^ 9) -> frel x R (1 / 10 ^ 7) -> 0 < B2R x -> Rabs (r - R) <= R / 10 ^ 6.
Proof using.
  intros [p1 b1] [_ [p2 b2]] px. apply Rabs_le. split; lra.
Qed.

Lemma appears_in vc k x y z cam : settled vc k -> visible x y z -> cam16_from_xyz x y z vc = Ok cam -> appears cam k (B2R x) (B2R y) (B2R z).
Proof using LA.
  intros SL ((fx & fy & fz) & bx & by_ & bz & cr & cg & cb) H.
  pose proof (from_xyz_parts x y z vc cam H) as PA. pose proof (from_xyz_staged x y z vc cam H) as ST. cbv zeta in PA, ST. clear H.
  pose proof (red_near x y z fx fy fz bx by_ bz) as NR. pose proof (green_near x y z fx fy fz bx by_ bz) as NG. pose proof (blue_near x y z fx fy fz bx by_ bz) as NB.
  destruct (resp_rel LA _ _ _ _ _ _ (sl_fl _ _ SL) (sl_fl' _ _ SL) (sl_r _ _ SL) (sl_r' _ _ SL) NR ltac:(unfold cone_red in *; lra)) as [RR RR'].
  destruct (resp_rel LA _ _ _ _ _ _ (sl_fl _ _ SL) (sl_fl' _ _ SL) (sl_g _ _ SL) (sl_g' _ _ SL) NG ltac:(unfold cone_green in *; lra)) as [RG RG'].
  destruct (resp_rel LA _ _ _ _ _ _ (sl_fl _ _ SL) (sl_fl' _ _ SL) (sl_b _ _ SL) (sl_b' _ _ SL) NB ltac:(unfold cone_blue in *; lra)) as [RB RB'].
  unfold appears. fold (red_response k (B2R x) (B2R y) (B2R z)) in RR, RR'. fold (green_response k (B2R x) (B2R y) (B2R z)) in RG, RG'. fold (blue_response k (B2R x) (B2R y) (B2R z)) in RB, RB'.
  set (rf := resp _ _ (cone_r x y z)) in *. set (gf := resp _ _ (cone_g x y z)) in *. set (bf := resp _ _ (cone_b x y z)) in *. clearbody rf gf bf.
  set (R0 := red_response k _ _ _) in *. set (G0 := green_response k _ _ _) in *. set (B0 := blue_response k _ _ _) in *. clearbody R0 G0 B0. clear NR NG NB bx by_ bz cr cg cb fx fy fz x y z.
  pose proof (between_resp _ _ RR RR') as TR. pose proof (between_resp _ _ RG RG') as TG. pose proof (between_resp _ _ RB RB') as TB.
  destruct (opponents_near rf gf bf TR TG TB) as (fa & fb & r & b & Er & Eb & Ea & Ebb).
  destruct ST as (HB & Eh & Ej & _). destruct (hue_near LA _ _ fa fb HB) as (th & Ha & Hb & [fr br] & (n & Hn) & [fu bu] & (n' & Hn') & fh & bh).
  set (h := (th + 2 * INR n * PI) * 180 / PI). destruct (hue_degrees _ th n fh bh Hn) as [HD HR]. fold h in HD, HR.
  exists r, (B2R gf), b, h.
  assert (pr : 0 < B2R rf) by (destruct TR; lra). assert (pg : 0 < B2R gf) by (destruct TG; lra). assert (pb : 0 < B2R bf) by (destruct TB; lra).
  split; [exact (near_resp _ _ _ Er RR pr)|]. split; [apply near_resp with gf; [split; lra|exact RG|exact pg]|]. split; [exact (near_resp _ _ _ Eb RB pb)|].
  assert (br' : 0.0029 - 1 / 10 ^ 9 <= r <= 401.1) by (destruct Er; destruct TR; lra). assert (bb' : 0.0029 - 1 / 10 ^ 9 <= b <= 401.1) by (destruct Eb; destruct TB; lra). assert (bg' : 0.0029 <= B2R gf <= 401) by (destruct TG; lra).
  assert (br2 : 0.0029 <= r <= 401) by (destruct Er, RR as [_ [_ RR]]; lra). assert (bb2 : 0.0029 <= b <= 401) by (destruct Eb, RB as [_ [_ RB]]; lra). clear br' bb'.
  assert (FR : frel rf r (2 / 10 ^ 9)) by (split; [exact (proj1 TR)|exact Er]). assert (FG : frel gf (B2R gf) (2 / 10 ^ 9)) by (split; [exact (proj1 TG)|split; lra]). assert (FB : frel bf b (2 / 10 ^ 9)) by (split; [exact (proj1 TB)|exact Eb]).
  clear RR RG RB RR' RG' RB' TR TG TB Er Eb pr pg pb R0 G0 B0.
  pose proof (p2_rel _ _ _ _ _ _ FR FG FB br2 bg' bb2) as P2. pose proof (u_rel _ _ _ _ _ _ FR FG FB br2 bg' bb2) as UU.
  destruct (j_rel LA _ _ _ _ _ _ _ _ _ _ P2 ltac:(lra) (sl_nbb _ _ SL) (sl_nbb' _ _ SL) (sl_aw _ _ SL) (sl_aw' _ _ SL) (sl_c _ _ SL) (sl_c' _ _ SL) (sl_z _ _ SL) (sl_z' _ _ SL)) as [NJ BJ].
  assert (EQJ : 100 * Rpower ((2 * r + B2R gf + b / 20) * k_nbb k / k_aw k) (k_c k * k_z k) = lightness k r (B2R gf) b) by reflexivity. rewrite EQJ in NJ, BJ. clear EQJ.
  rewrite <- Ej in NJ. destruct (sj_rel _ _ NJ BJ) as [NS BS]. set (J := lightness k r (B2R gf) b) in *. set (SJ := sqrt (J / 100)) in *.
  assert (CT : - (8 / 10 ^ 13) <= cos (B2R (rad (up (hue_of_ab (fw_a rf gf bf) (fw_b rf gf bf)))) + 2) - cos (radians h + 2) <= 8 / 10 ^ 13).
  { destruct (cos_turns _ th n' _ Hn') as (_ & _ & q). rewrite HR. replace (th + 2 * INR n * PI + 2) with (th + 2 + 2 * INR n * PI) by ring. rewrite cos_period. exact q. }
  destruct (p1_rel LA _ _ _ _ _ _ (sl_nc _ _ SL) (sl_nc' _ _ SL) (sl_ncb _ _ SL) (sl_nbb' _ _ SL) fu bu CT) as [NP BP]. clear CT.
  fold (eccentricity h) in NP, BP.
  assert (OL : sqrt (B2R (fw_a rf gf bf) * B2R (fw_a rf gf bf) + B2R (fw_b rf gf bf) * B2R (fw_b rf gf bf)) = opponent_length r (B2R gf) b) by (unfold opponent_length; rewrite Ea, Ebb; reflexivity).
  assert (BA : -900 <= B2R (fw_a rf gf bf) <= 900) by (rewrite <- Ea; unfold redness; lra). assert (BB : -100 <= B2R (fw_b rf gf bf) <= 100) by (rewrite <- Ebb; unfold yellowness; lra).
  destruct (length_near _ _ fa fb BA BB) as (fs & ps & bL & big & small). rewrite OL in bL, big, small, Ha, Hb.
  destruct (kk_rel LA _ _ (sl_n _ _ SL) (sl_n' _ _ SL)) as [NK BK].
  pose proof (alpha_rel _ _ _ _ _ _ _ _ NP BP fs ps (conj (sqrt_pos _) bL) big small UU ltac:(lra) NK BK) as AL. clear NP UU NK big small fs ps.
  match type of AL with alpha_ok _ ?v => change v with (alpha k r (B2R gf) b h) in AL end. unfold fw_t in PA. set (al := fmul (powf _ _) (kk_of _)) in *. set (A := alpha k r (B2R gf) b h) in *.
  assert (EC : chroma k r (B2R gf) b h = A * SJ) by reflexivity. clearbody al. unfold parts in PA. cbv zeta in PA. destruct PA as (Pc & Pm & Pq & Ps & Pj & Pa & Pb).
  destruct (alpha_mix _ _ AL) as (AM & pal & bal).
  destruct (mix_mul _ _ _ _ _ _ _ (4 * 10 ^ 5) AM NS ltac:(lra) ltac:(lra) ltac:(lra) ltac:(lra) ltac:(lra) ltac:(lra) pal) as [MC pc]. rewrite <- Pc, <- ?EC in MC. rewrite <- Pc in pc.
  apply mix_w with (e' := 4.87 / 10 ^ 7) (d' := 1 / 10 ^ 10) in MC; [|lra|lra].
  assert (bC : chroma k r (B2R gf) b h <= 10 ^ 16). { rewrite EC. apply Rle_trans with (10 ^ 9 * (4 * 10 ^ 5)); [|lra]. destruct AM as (_ & pA & _). apply Rmult_le_compat; lra. }
  assert (RT : 0.001 <= Rpower (k_fl k) 0.25 <= 7).
  { pose proof (sl_fl' _ _ SL) as l. assert (R1 : Rpower (k_fl k) 1 = k_fl k) by (apply Rpower_1; lra). assert (R0 : Rpower (k_fl k) 0 = 1) by (apply Rpower_O; lra). destruct (Rle_or_lt 1 (k_fl k)) as [gx|gx].
    - pose proof (rpow_exp_big _ 0 0.25 gx ltac:(lra)). pose proof (rpow_exp_big _ 0.25 1 gx ltac:(lra)). lra.
    - pose proof (rpow_exp_small (k_fl k) 0 0.25 ltac:(lra) ltac:(lra)). pose proof (rpow_exp_small (k_fl k) 0.25 1 ltac:(lra) ltac:(lra)). lra. }
  destruct (mix_mul _ _ _ _ _ _ _ 7 MC (sl_rt _ _ SL) ltac:(lra) ltac:(lra) ltac:(lra) ltac:(lra) ltac:(lra) bC pc) as [MM pm]. rewrite <- Pm in MM, pm.
  apply mix_w with (e' := 4.9 / 10 ^ 7) (d' := 1 / 10 ^ 9) in MM; [|lra|lra]. fold (colourfulness k r (B2R gf) b h) in MM.
  assert (BAW : 0.09 <= k_aw k <= 7360) by (pose proof (sl_aw' _ _ SL); pose proof (sl_nbb' _ _ SL); lra).
  rewrite <- Eh in HD, fh, Hn, fr, br. destruct (la_trig _ _ LA _ fr ltac:(lra)) as (fS & eS & fC & eC). apply Rabs_le_inv in eS, eC.
  destruct (cos_turns _ th n _ Hn) as (tc & ts & _).
  assert (EC1 : cos (radians h) = cos th) by (rewrite HR; apply cos_period). assert (ES1 : sin (radians h) = sin th) by (rewrite HR; apply sin_period).
  constructor.
  - split; [exact fh|exact HD].
  - rewrite EC1, Ea. exact Ha.
  - rewrite ES1, Ebb. exact Hb.
  - apply mix_six with (1 := frel_mix _ _ _ NJ); lra.
  - rewrite Pq. pose proof (q_rel _ _ _ _ _ _ _ _ (sl_c _ _ SL) (sl_c' _ _ SL) NS BS (sl_aw _ _ SL) BAW (sl_rt _ _ SL) RT) as NQ. apply mix_six with (1 := frel_mix _ _ _ NQ); lra.
  - apply mix_six with (1 := MC); lra.
  - apply mix_six with (1 := MM); lra.
  - rewrite Ps. exact (s_six _ _ _ _ _ _ AL (sl_c _ _ SL) (sl_c' _ _ SL) (sl_aw _ _ SL) BAW).
  - rewrite Pj. apply mix_six with (1 := frel_mix _ _ _ (jstar_rel _ _ NJ BJ)); lra.
  - intros hm. rewrite Pa. destruct (mstar_mix _ _ MM (conj pm hm)) as [Z1 Z2]. rewrite EC1. apply cart_near; [exact Z1|exact Z2|split; [exact fC|lra]|apply COS_bound].
  - intros hm. rewrite Pb. destruct (mstar_mix _ _ MM (conj pm hm)) as [Z1 Z2]. rewrite ES1. apply cart_near; [exact Z1|exact Z2|split; [exact fS|lra]|apply SIN_bound].
Qed.
End Acc.
