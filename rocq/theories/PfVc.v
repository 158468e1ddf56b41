(** * The default viewing conditions: ranges of their fields for an accurate libm.  Proof file. *)
From Coq Require Import ZArith Bool Reals Lra Lia Psatz String List.
From Flocq Require Import Core Relative IEEE754.BinarySingleNaN.
From Verif Require Import F64 MathUtils ColorUtils ViewingConditions Cam16 Spec SpecCam FloatFacts FloatMono PfMath PfTones PfLab PfGamma PfHct PfNear.
Import ListNotations.
Open Scope string_scope.
Open Scope R_scope.

(** [x] is finite and between [a] and [b]. *)
Definition between (x : f64) (a b : R) : Prop := fin x /\ a <= B2R x <= b.

Definition kk_of {lm : Libm} (n : f64) : f64 := powf (fsub (dec "1.64") (powf (dec "0.29") n)) (dec "0.73").

Record vc_std {lm : Libm} (vc : viewing_conditions) : Prop := {
  vs_d0 : between (v0 (vc_rgb_d vc)) 0.9 1.1;
  vs_d1 : between (v1 (vc_rgb_d vc)) 0.9 1.1;
  vs_d2 : between (v2 (vc_rgb_d vc)) 0.9 1.1;
  vs_fl : between (vc_fl vc) 0.38 0.4;
  vs_nbb : between (vc_nbb vc) 1 1.04;
  vs_ncb : between (vc_ncb vc) 1 1.04;
  vs_aw : between (vc_aw vc) 25 34;
  vs_c : between (vc_c vc) 0.689 0.691;
  vs_n_c : between (vc_n_c vc) 1 1;
  vs_z : between (vc_z vc) 1.9 1.92;
  vs_flr : between (vc_f_lroot vc) 0.7 0.9;
  vs_kk : between (kk_of (vc_n vc)) 0.8 1
}.

Ltac letpose :=
  match goal with |- context C [let x := ?v in @?b x] =>
    let n := fresh x in pose (n := v); let g := context C [b n] in change g; cbv beta end.

Section Acc.
Context {lm : Libm} (LA : libm_accurate (1 / 10 ^ 13) lm).

(** pow on moderate arguments. *)
Lemma pow_mid (x y : f64) lo hi : fin x -> fin y -> 0 < B2R x -> 1 / 10 ^ 6 <= lo -> hi <= 10 ^ 6 -> lo <= Rpower (B2R x) (B2R y) <= hi ->
  fin (powf x y) /\ Rpower (B2R x) (B2R y) * (1 - 1 / 10 ^ 13) <= B2R (powf x y) <= Rpower (B2R x) (B2R y) * (1 + 1 / 10 ^ 13).
Proof using LA.
  intros fx fy px hl hh b. destruct (la_pow _ _ LA x y fx fy px) as [F E].
  { split.
    - apply Rle_trans with (bpow radix2 (-30)); [apply bpow_le; lia|]. simpl bpow. lra.
    - apply Rle_trans with (bpow radix2 30); [simpl bpow; lra|apply bpow_le; lia]. }
  split; [exact F|]. apply Rabs_le_inv in E. lra.
Qed.

Lemma pow_between (x y : f64) lo hi : fin x -> fin y -> 0 < B2R x -> 1 / 10 ^ 6 <= lo -> hi <= 10 ^ 6 -> lo <= Rpower (B2R x) (B2R y) <= hi ->
  between (powf x y) (lo * (1 - 1 / 10 ^ 13)) (hi * (1 + 1 / 10 ^ 13)).
Proof using LA.
  intros fx fy px hl hh b. destruct (pow_mid x y lo hi fx fy px hl hh b) as [F E]. split; [exact F|]. lra.
Qed.

Lemma kk_range (n : f64) : between n 0.18 0.19 -> between (kk_of n) 0.8 1.
Proof using LA.
  intros [fn bn]. unfold kk_of. fconst (dec "1.64"). fconst (dec "0.29"). fconst (dec "0.73").
  assert (P : between (powf (dec "0.29") n) (0.78 * (1 - 1 / 10 ^ 13)) (0.82 * (1 + 1 / 10 ^ 13))).
  { apply pow_between; [exact F0|exact fn|lra|lra|lra|]. split.
    - apply (pow_lo_small _ _ _ 1 5); [lra|lra|lia|simpl; lra|]. rewrite V0. lra.
    - apply (pow_hi_small _ _ _ 9 50); [lra|lra|lia|simpl; lra|]. rewrite V0. lra. }
  destruct P as [FP BP]. set (p := powf (dec "0.29") n) in *. clearbody p.
  destruct (fsub_S (dec "1.64") p F FP ltac:(rewrite V; fsmall)) as [E1 F2].
  pose proof (rnd_near (B2R (dec "1.64") - B2R p) ltac:(rewrite V; lra)) as R1. rewrite <- E1, V in R1.
  set (s := fsub (dec "1.64") p) in *. clearbody s.
  assert (Q : between (powf s (dec "0.73")) (0.81 * (1 - 1 / 10 ^ 13)) (0.95 * (1 + 1 / 10 ^ 13))).
  { apply pow_between; [exact F2|exact F1|lra|lra|lra|]. split.
    - apply (pow_lo_small _ _ _ 1 1); [lra|lra|lia|rewrite V1; simpl; lra|]. lra.
    - apply (pow_hi_small _ _ _ 1 2); [lra|lra|lia|rewrite V1; simpl; lra|]. lra. }
  destruct Q as [FQ BQ]. split; [exact FQ|lra].
Qed.

(** The adaptation of one cone: d (100 / w) + 1 - d lies between 1 and 100 / w. *)
Lemma adapt_range (d w : f64) : between d 0 1 -> between w 95 109 ->
  between (fsub (fadd (fmul d (fdiv (dec "100.0") w)) (dec "1.0")) d) 0.91 1.06 /\
  let x := fsub (fadd (fmul d (fdiv (dec "100.0") w)) (dec "1.0")) d in 94.9 <= B2R x * B2R w <= 109.1.
Proof using.
  intros [fd bd] [fw bw]. fconst (dec "100.0"). fconst (dec "1.0"). cbv zeta.
  assert (Q : 0.917 <= 100 / B2R w <= 1.0527).
  { split; [apply Rmult_le_reg_r with (B2R w)|apply Rmult_le_reg_r with (B2R w)]; try lra; unfold Rdiv; rewrite Rmult_assoc, Rinv_l by lra; lra. }
  destruct (fdiv_S (dec "100.0") w F ltac:(lra) ltac:(rewrite V; fsmall)) as [E1 F1]. rewrite V in E1.
  pose proof (rnd_near (100 / B2R w) ltac:(lra)) as R1. rewrite <- E1 in R1. set (q := fdiv (dec "100.0") w) in *. clearbody q.
  assert (QW : B2R w * (100 / B2R w) = 100) by (field; lra). set (Q0 := 100 / B2R w) in *. clearbody Q0. clear E1.
  assert (DQ := mul_bnd (B2R d - 1 / 2) (B2R q - 0.98485) (1 / 2) 0.07 ltac:(lra) ltac:(lra)).
  destruct (fmul_S d q fd F1 ltac:(unfold HUGE; nra)) as [E2 F2].
  pose proof (rnd_near (B2R d * B2R q) ltac:(nra)) as R2. rewrite <- E2 in R2. set (m := fmul d q) in *. clearbody m. clear E2.
  assert (0 <= B2R d * B2R q <= 1.06) by nra.
  destruct (fadd_S m (dec "1.0") F2 F0 ltac:(rewrite V0; fsmall)) as [E3 F3]. rewrite V0 in E3.
  pose proof (rnd_near (B2R m + 1) ltac:(lra)) as R3. rewrite <- E3 in R3. set (a := fadd m (dec "1.0")) in *. clearbody a. clear E3.
  destruct (fsub_S a d F3 fd ltac:(fsmall)) as [E4 F4].
  pose proof (rnd_near (B2R a - B2R d) ltac:(lra)) as R4. rewrite <- E4 in R4. set (x := fsub a d) in *. clearbody x. clear E4.
  assert (X : B2R d * B2R q + 1 - B2R d - 4 / 10 ^ 13 <= B2R x <= B2R d * B2R q + 1 - B2R d + 4 / 10 ^ 13) by lra.
  assert (D1 : 0 <= 1 - B2R d) by lra.
  assert (LQ : B2R d * 0.9169 <= B2R d * B2R q <= B2R d * 1.0528) by (split; apply Rmult_le_compat_l; lra).
  split; [split; [exact F4|lra]|].
  (* x w = d q w + (1 - d) w, and q w = 100 *)
  assert (QW' : 99.9999 <= B2R q * B2R w <= 100.0001).
  { assert (B2R q * B2R w = B2R w * Q0 + (B2R q - Q0) * B2R w) by ring. pose proof (mul_bnd (B2R q - Q0) (B2R w) (1 / 10 ^ 13) 109 ltac:(lra) ltac:(lra)). lra. }
  assert (XW : (B2R d * B2R q + 1 - B2R d) * B2R w - 0.0001 <= B2R x * B2R w <= (B2R d * B2R q + 1 - B2R d) * B2R w + 0.0001).
  { pose proof (mul_bnd (B2R x - (B2R d * B2R q + 1 - B2R d)) (B2R w) (4 / 10 ^ 13) 109 ltac:(lra) ltac:(lra)). lra. }
  assert (T : (B2R d * B2R q + 1 - B2R d) * B2R w = B2R d * (B2R q * B2R w) + (1 - B2R d) * B2R w) by ring.
  assert (B2R d * 99.9999 <= B2R d * (B2R q * B2R w) <= B2R d * 100.0001) by (split; apply Rmult_le_compat_l; lra).
  assert ((1 - B2R d) * 95 <= (1 - B2R d) * B2R w <= (1 - B2R d) * 109) by (split; apply Rmult_le_compat_l; lra).
  lra.
Qed.

Lemma tri f : 0.6 <= f <= 0.73 -> 8.6 <= 400 * f / (f + 27.13) <= 10.5.
Proof using.
  intros h. split; apply Rmult_le_reg_r with (f + 27.13); try lra; unfold Rdiv; rewrite Rmult_assoc, Rinv_l by lra; lra.
Qed.

Lemma white_response (fl d w : f64) : between fl 0.38 0.4 -> between d 0.91 1.06 -> between w 95 109 -> 94.9 <= B2R d * B2R w <= 109.1 ->
  let f := powf (fdiv (fmul (fmul fl d) w) (dec "100.0")) (dec "0.42") in
  between (fdiv (fmul (dec "400.0") f) (fadd f (dec "27.13"))) 8.5 10.6.
Proof using LA.
  intros [ff bf] [fd bd] [fw bw] dw. cbv zeta. fconst (dec "100.0"). fconst (dec "0.42"). fconst (dec "400.0"). fconst (dec "27.13").
  assert (P1 : 0.34 <= B2R fl * B2R d <= 0.43) by nra.
  destruct (fmul_S fl d ff fd ltac:(fsmall)) as [E1 F3]. pose proof (rnd_near (B2R fl * B2R d) ltac:(lra)) as R1. rewrite <- E1 in R1.
  set (m := fmul fl d) in *. clearbody m. clear E1.
  assert (P2 : 36.06 - 0.0001 <= B2R m * B2R w <= 43.64 + 0.0001).
  { assert (A : 36.062 <= B2R fl * (B2R d * B2R w) <= 43.64).
    { split; [apply Rle_trans with (0.38 * 94.9); [lra|]|apply Rle_trans with (0.4 * 109.1); [|lra]]; apply Rmult_le_compat; lra. }
    pose proof (mul_bnd (B2R m - B2R fl * B2R d) (B2R w) (1 / 10 ^ 13) 109 ltac:(lra) ltac:(lra)). lra. }
  destruct (fmul_S m w F3 fw ltac:(fsmall)) as [E2 F4]. pose proof (rnd_near (B2R m * B2R w) ltac:(lra)) as R2. rewrite <- E2 in R2.
  set (n := fmul m w) in *. clearbody n. clear E2.
  destruct (fdiv_S n (dec "100.0") F4 ltac:(lra) ltac:(rewrite V; fsmall)) as [E3 F5]. rewrite V in E3.
  pose proof (rnd_near (B2R n / 100) ltac:(lra)) as R3. rewrite <- E3 in R3. set (b := fdiv n (dec "100.0")) in *. clearbody b. clear E3.
  assert (Q : between (powf b (dec "0.42")) (0.6004 * (1 - 1 / 10 ^ 13)) (0.7179 * (1 + 1 / 10 ^ 13))).
  { apply pow_between; [exact F5|exact F0|lra|lra|lra|]. split.
    - apply (pow_lo_small _ _ _ 1 2); [lra|lra|lia|rewrite V0; simpl; lra|]. lra.
    - apply (pow_hi_small _ _ _ 2 5); [lra|lra|lia|rewrite V0; simpl; lra|]. apply Rle_trans with (0.43642 ^ 2); [apply pow_incr; lra|lra]. }
  destruct Q as [FQ BQ]. set (f := powf b (dec "0.42")) in *. clearbody f.
  assert (T := tri (B2R f) ltac:(lra)).
  destruct (fmul_S (dec "400.0") f F1 FQ ltac:(rewrite V1; fsmall)) as [E4 F6]. rewrite V1 in E4.
  pose proof (rnd_far (400 * B2R f) ltac:(lra)) as R4. rewrite <- E4 in R4. set (g := fmul (dec "400.0") f) in *. clearbody g. clear E4.
  destruct (fadd_S f (dec "27.13") FQ F2 ltac:(rewrite V2; fsmall)) as [E5 F7]. rewrite V2 in E5.
  match type of E5 with _ = rnd (_ + ?k) => pose proof (rnd_near (B2R f + k) ltac:(lra)) as R5 end. rewrite <- E5 in R5.
  set (h := fadd f (dec "27.13")) in *. clearbody h. clear E5.
  assert (D : 8.55 <= B2R g / B2R h <= 10.55).
  { split; apply Rmult_le_reg_r with (B2R h); try lra; unfold Rdiv; rewrite Rmult_assoc, Rinv_l by lra; lra. }
  destruct (fdiv_S g h F6 ltac:(lra) ltac:(fsmall)) as [E6 F8]. pose proof (rnd_near (B2R g / B2R h) ltac:(lra)) as R6. rewrite <- E6 in R6.
  split; [exact F8|lra].
Qed.

Lemma aw_range (a0 a1 a2 nbb : f64) : between a0 8.5 10.6 -> between a1 8.5 10.6 -> between a2 8.5 10.6 -> between nbb 1.0001 1.0399 ->
  between (fmul (fdiv (fadd (fadd (fmul (dec "40.0") a0) (fmul (dec "20.0") a1)) a2) (dec "20.0")) nbb) 25.9 33.63.
Proof using.
  intros [f0 b0] [f1 b1] [f2 b2] [fn bn]. fconst (dec "40.0"). fconst (dec "20.0").
  destruct (fmul_S (dec "40.0") a0 F f0 ltac:(rewrite V; fsmall)) as [E1 G1]. rewrite V in E1. pose proof (rnd_far (40 * B2R a0) ltac:(lra)) as R1. rewrite <- E1 in R1.
  destruct (fmul_S (dec "20.0") a1 F0 f1 ltac:(rewrite V0; fsmall)) as [E2 G2]. rewrite V0 in E2. pose proof (rnd_far (20 * B2R a1) ltac:(lra)) as R2. rewrite <- E2 in R2.
  set (x := fmul (dec "40.0") a0) in *. set (y := fmul (dec "20.0") a1) in *. clearbody x y. clear E1 E2.
  destruct (fadd_S x y G1 G2 ltac:(fsmall)) as [E3 G3]. pose proof (rnd_far (B2R x + B2R y) ltac:(lra)) as R3. rewrite <- E3 in R3.
  set (s := fadd x y) in *. clearbody s. clear E3.
  destruct (fadd_S s a2 G3 f2 ltac:(fsmall)) as [E4 G4]. pose proof (rnd_far (B2R s + B2R a2) ltac:(lra)) as R4. rewrite <- E4 in R4.
  set (q := fadd s a2) in *. clearbody q. clear E4.
  destruct (fdiv_S q (dec "20.0") G4 ltac:(lra) ltac:(rewrite V0; fsmall)) as [E5 G5]. rewrite V0 in E5. pose proof (rnd_far (B2R q / 20) ltac:(lra)) as R5. rewrite <- E5 in R5.
  set (z := fdiv q (dec "20.0")) in *. clearbody z. clear E5.
  assert (B : 25.925 - 0.0001 <= B2R z <= 32.33 + 0.0001) by lra.
  assert (P : 25.92 <= B2R z * B2R nbb <= 33.625) by (split; [apply Rle_trans with (25.9249 * 1.0001); [lra|]|apply Rle_trans with (32.3301 * 1.04); [|lra]]; apply Rmult_le_compat; lra).
  destruct (fmul_S z nbb G5 fn ltac:(fsmall)) as [E6 G6]. pose proof (rnd_far (B2R z * B2R nbb) ltac:(lra)) as R6. rewrite <- E6 in R6.
  split; [exact G6|lra].
Qed.

Lemma between_w (x : f64) a b a' b' : between x a b -> a' <= a -> b <= b' -> between x a' b'.
Proof using. intros [f h] h1 h2. split; [exact f|lra]. Qed.

Lemma index3 {A} (a b c : A) : index [a; b; c] 0 = Ok a /\ index [a; b; c] 1 = Ok b /\ index [a; b; c] 2 = Ok c.
Proof using. repeat split. Qed.

(** The fields of the default viewing conditions, named. *)
Definition la0 : f64 := fdiv (fmul (fdiv (dec "200.0") PI64) (y_from_lstar (dec "50.0"))) (dec "100.0").
Definition wp0 := v0 white_point_d65.
Definition wp1 := v1 white_point_d65.
Definition wp2 := v2 white_point_d65.
Definition rw0 : f64 := fadd (fadd (fmul wp0 (dec "0.401288")) (fmul wp1 (dec "0.650173"))) (fmul wp2 (dec "-0.051461")).
Definition gw0 : f64 := fadd (fadd (fmul wp0 (dec "-0.250268")) (fmul wp1 (dec "1.204414"))) (fmul wp2 (dec "0.045854")).
Definition bw0 : f64 := fadd (fadd (fmul wp0 (dec "-0.002079")) (fmul wp1 (dec "0.048952"))) (fmul wp2 (dec "0.953127")).
Definition f0 : f64 := fadd (dec "0.8") (fdiv (dec "2.0") (dec "10.0")).
Definition c0 : f64 := if fge f0 (dec "0.9") then lerp (dec "0.59") (dec "0.69") (fmul (fsub f0 (dec "0.9")) (dec "10.0"))
    else lerp (dec "0.525") (dec "0.59") (fmul (fsub f0 (dec "0.8")) (dec "10.0")).
Definition x0 : f64 := fdiv (fsub (fneg la0) (dec "42.0")) (dec "92.0").
Definition e0 : f64 := expf x0.
Definition d00 : f64 := fmul f0 (fsub (dec "1.0") (fmul (fdiv (dec "1.0") (dec "3.6")) e0)).
Definition d0 : f64 := if fgt d00 (dec "1.0") then dec "1.0" else if flt d00 (dec "0.0") then dec "0.0" else d00.
Definition adapt (w : f64) : f64 := fsub (fadd (fmul d0 (fdiv (dec "100.0") w)) (dec "1.0")) d0.
Definition k0 : f64 := fdiv (dec "1.0") (fadd (fmul (dec "5.0") la0) (dec "1.0")).
Definition k40 : f64 := fmul (fmul (fmul k0 k0) k0) k0.
Definition k4f0 : f64 := fsub (dec "1.0") k40.
Definition p0 : f64 := powf (fmul (dec "5.0") la0) (fdiv (dec "1.0") (dec "3.0")).
Definition fl0 : f64 := fadd (fmul k40 la0) (fmul (fmul (fmul (dec "0.1") k4f0) k4f0) p0).
Definition n0 : f64 := fdiv (y_from_lstar (fmax (dec "0.1") (dec "50.0"))) wp1.
Definition nbb0 : f64 := fdiv (dec "0.725") (powf n0 (dec "0.2")).
Definition wf (w : f64) : f64 := powf (fdiv (fmul (fmul fl0 (adapt w)) w) (dec "100.0")) (dec "0.42").
Definition wa (w : f64) : f64 := fdiv (fmul (dec "400.0") (wf w)) (fadd (wf w) (dec "27.13")).
Definition aw0 : f64 := fmul (fdiv (fadd (fadd (fmul (dec "40.0") (wa rw0)) (fmul (dec "20.0") (wa gw0))) (wa bw0)) (dec "20.0")) nbb0.

Lemma s_rgb_eq : s_rgb = Ok {| vc_white_point := [wp0; wp1; wp2]; vc_adapting_luminance := la0;
  vc_background_lstar := fmax (dec "0.1") (dec "50.0"); vc_surround := dec "2.0"; vc_discounting_illuminant := false;
  vc_n := n0; vc_aw := aw0; vc_nbb := nbb0; vc_ncb := nbb0; vc_c := c0; vc_n_c := f0;
  vc_rgb_d := (adapt rw0, adapt gw0, adapt bw0); vc_fl := fl0; vc_f_lroot := powf fl0 (dec "0.25"); vc_z := fadd (dec "1.48") (fsqrt n0) |}.
Proof using.
  destruct (index3 (v0 white_point_d65) (v1 white_point_d65) (v2 white_point_d65)) as (I0 & I1 & I2).
  assert (E1 : (fge (dec "2.0") (dec "0.0") && fle (dec "2.0") (dec "2.0"))%bool = true) by (vm_compute; reflexivity).
  assert (E2 : fgt (dec "-1.0") (dec "0.0") = false) by (vm_compute; reflexivity).
  cbv beta iota zeta delta [s_rgb make unwrap_or]. rewrite I0, I1, I2, E1, E2.
  cbv beta iota delta [bind negb aw0 wa wf nbb0 n0 fl0 p0 k4f0 k40 k0 adapt d0 d00 e0 x0 c0 f0 bw0 gw0 rw0 wp0 wp1 wp2 la0].
  reflexivity.
Qed.

Lemma d0_range : between d0 0 1.
Proof using LA.
  assert (X : fin x0 /\ -2 <= B2R x0 <= 0). { fconst x0. split; [exact F|lra]. }
  destruct X as [FX BX]. destruct (la_exp _ _ LA x0 FX ltac:(lra)) as (FE & EE & _). fold e0 in FE, EE.
  assert (P : 0 < exp (B2R x0)) by apply exp_pos.
  assert (Q : exp (B2R x0) <= 1). { rewrite <- exp_0. destruct (Req_dec (B2R x0) 0) as [->|]; [lra|]. left. apply exp_increasing. lra. }
  apply Rabs_le_inv in EE. assert (BE : -0.1 <= B2R e0 <= 1.1) by lra. clear EE P Q.
  fconst (dec "1.0"). fconst (dec "0.0"). fconst f0. fconst (fdiv (dec "1.0") (dec "3.6")).
  set (q := fdiv (dec "1.0") (dec "3.6")) in *.
  destruct (fmul_S q e0 F2 FE ltac:(rewrite V2; fsmall)) as [E1 G1]. rewrite V2 in E1.
  match type of E1 with _ = rnd ?r => pose proof (rnd_near r ltac:(lra)) as R1 end. rewrite <- E1 in R1.
  destruct (fsub_S (dec "1.0") (fmul q e0) F G1 ltac:(rewrite V; fsmall)) as [E2 G2]. rewrite V in E2.
  match type of E2 with _ = rnd ?r => pose proof (rnd_near r ltac:(lra)) as R2 end. rewrite <- E2 in R2.
  destruct (fmul_S f0 (fsub (dec "1.0") (fmul q e0)) F1 G2 ltac:(rewrite V1; fsmall)) as [E3 G3]. rewrite V1 in E3.
  change (fmul f0 (fsub (dec "1.0") (fmul q e0))) with d00 in *. clear E1 E2 E3 R1 R2.
  unfold d0. change (fgt d00 (dec "1.0")) with (flt (dec "1.0") d00).
  destruct (flt (dec "1.0") d00) eqn:C1; [split; [exact F|lra]|].
  destruct (flt d00 (dec "0.0")) eqn:C2; [split; [exact F0|lra]|].
  apply (flt_fin_f _ _ F G3) in C1. apply (flt_fin_f _ _ G3 F0) in C2. split; [exact G3|lra].
Qed.

Lemma fl0_range : between fl0 0.3802 0.3998.
Proof using LA.
  assert (P : between p0 (3.82 * (1 - 1 / 10 ^ 13)) (3.95 * (1 + 1 / 10 ^ 13))).
  { unfold p0. fconst (fmul (dec "5.0") la0). fconst (fdiv (dec "1.0") (dec "3.0")).
    apply pow_between; [exact F|exact F0|lra|lra|lra|]. set (x := B2R (fmul (dec "5.0") la0)) in *. clearbody x. split.
    - apply (pow_lo_big _ _ _ 33 100); [lra|lra|lia|rewrite V0; simpl; lra|]. apply Rle_trans with (58.5 ^ 33); [lra|apply pow_incr; lra].
    - apply (pow_hi_big _ _ _ 1 3); [lra|lra|lia|rewrite V0; simpl; lra|]. lra. }
  destruct P as [FP BP]. fconst (fmul k40 la0). fconst (fmul (fmul (dec "0.1") k4f0) k4f0).
  unfold fl0. set (a := fmul k40 la0) in *. set (b := fmul (fmul (dec "0.1") k4f0) k4f0) in *. clearbody a b. set (p := p0) in *. clearbody p.
  destruct (fmul_S b p F0 FP ltac:(rewrite V0; fsmall)) as [E1 G1]. rewrite V0 in E1.
  match type of E1 with _ = rnd ?r => pose proof (rnd_near r ltac:(lra)) as R1 end. rewrite <- E1 in R1.
  set (m := fmul b p) in *. clearbody m. clear E1.
  destruct (fadd_S a m F G1 ltac:(rewrite V; fsmall)) as [E2 G2]. rewrite V in E2.
  match type of E2 with _ = rnd ?r => pose proof (rnd_near r ltac:(lra)) as R2 end. rewrite <- E2 in R2.
  split; [exact G2|lra].
Qed.

Lemma nbb0_range : between nbb0 1.0001 1.0399.
Proof using LA.
  unfold nbb0. fconst n0. fconst (dec "0.2"). fconst (dec "0.725").
  assert (P : between (powf n0 (dec "0.2")) (0.7 * (1 - 1 / 10 ^ 13)) (0.7248 * (1 + 1 / 10 ^ 13))).
  { apply pow_between; [exact F|exact F0|lra|lra|lra|]. set (x := B2R n0) in *. clearbody x. split.
    - apply (pow_lo_small _ _ _ 21 100); [lra|lra|lia|rewrite V0; simpl; lra|]. apply Rle_trans with (0.184 ^ 21); [lra|apply pow_incr; lra].
    - apply (pow_hi_small _ _ _ 4 21); [lra|lra|lia|rewrite V0; simpl; lra|]. apply Rle_trans with (0.1842 ^ 4); [apply pow_incr; lra|lra]. }
  destruct P as [FP BP]. set (p := powf n0 (dec "0.2")) in *. clearbody p.
  match type of V1 with _ = ?k => assert (D : 1.0002 <= k / B2R p <= 1.0358) end.
  { split; apply Rmult_le_reg_r with (B2R p); try lra; unfold Rdiv; rewrite Rmult_assoc, Rinv_l by lra; lra. }
  destruct (fdiv_S (dec "0.725") p F1 ltac:(lra) ltac:(rewrite V1; fsmall)) as [E1 G1]. rewrite V1 in E1.
  match type of E1 with _ = rnd ?r => pose proof (rnd_near r ltac:(lra)) as R1 end. rewrite <- E1 in R1.
  split; [exact G1|lra].
Qed.

Lemma flr_range (fl : f64) : between fl 0.38 0.4 -> between (powf fl (dec "0.25")) 0.7 0.9.
Proof using LA.
  intros [ff bf]. fconst (dec "0.25").
  apply between_w with (0.71 * (1 - 1 / 10 ^ 13)) (0.89 * (1 + 1 / 10 ^ 13)); [|lra|lra].
  apply pow_between; [exact ff|exact F|lra|lra|lra|]. split.
  - apply (pow_lo_small _ _ _ 1 4); [lra|lra|lia|rewrite V; simpl; lra|lra].
  - apply (pow_hi_small _ _ _ 1 4); [lra|lra|lia|rewrite V; simpl; lra|lra].
Qed.

Lemma vc_std_ok : exists vc, s_rgb = Ok vc /\ vc_std vc.
Proof using LA.
  eexists. split; [exact s_rgb_eq|].
  assert (D := d0_range). assert (FL : between fl0 0.38 0.4) by (apply between_w with (1 := fl0_range); lra). assert (NB := nbb0_range).
  assert (W1 : between rw0 95 109) by (fconst rw0; split; [assumption|lra]).
  assert (W2 : between gw0 95 109) by (fconst gw0; split; [assumption|lra]).
  assert (W3 : between bw0 95 109) by (fconst bw0; split; [assumption|lra]).
  destruct (adapt_range d0 rw0 D W1) as [A1 P1]. destruct (adapt_range d0 gw0 D W2) as [A2 P2]. destruct (adapt_range d0 bw0 D W3) as [A3 P3].
  change (fsub (fadd (fmul d0 (fdiv (dec "100.0") rw0)) (dec "1.0")) d0) with (adapt rw0) in A1, P1.
  change (fsub (fadd (fmul d0 (fdiv (dec "100.0") gw0)) (dec "1.0")) d0) with (adapt gw0) in A2, P2.
  change (fsub (fadd (fmul d0 (fdiv (dec "100.0") bw0)) (dec "1.0")) d0) with (adapt bw0) in A3, P3. cbv zeta in P1, P2, P3.
  split; unfold v0, v1, v2; cbn [fst snd vc_rgb_d vc_fl vc_nbb vc_ncb vc_aw vc_c vc_n_c vc_z vc_f_lroot vc_n].
  - apply between_w with (1 := A1); lra.
  - apply between_w with (1 := A2); lra.
  - apply between_w with (1 := A3); lra.
  - exact FL.
  - apply between_w with (1 := NB); lra.
  - apply between_w with (1 := NB); lra.
  - apply between_w with 25.9 33.63; [|lra|lra]. unfold aw0. apply aw_range; [| | |exact NB]; unfold wa, wf; apply white_response; assumption.
  - fconst c0. split; [assumption|lra].
  - fconst f0. split; [assumption|lra].
  - fconst (fadd (dec "1.48") (fsqrt n0)). split; [assumption|lra].
  - apply flr_range. exact FL.
  - apply kk_range. fconst n0. split; [assumption|lra].
Qed.
End Acc.
