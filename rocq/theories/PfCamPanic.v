(** * When the hue assertion can fail.  Proof file. *)
From Coq Require Import ZArith Bool Reals Lra Lia Psatz String List.
From Flocq Require Import Core Relative IEEE754.BinarySingleNaN.
From Verif Require Import F64 MathUtils ColorUtils ViewingConditions Cam16 Hct Spec SpecCam FloatFacts FloatMono PfMath PfTones PfLab PfGamma PfNear PfVc PfRel
  PfCamA PfCamB PfCamC PfCamD PfCamE PfCamF PfCamG PfCamH PfHct.
Open Scope string_scope.
Open Scope R_scope.

Section Acc.
Context {lm : Libm} (LA : libm_accurate (1 / 10 ^ 13) lm).

(** The assertion fails only for directions within 2e-13 of hue 0. *)
Lemma hue_panic (a b : f64) : fin a -> fin b -> let h := hue_of_ab a b in
  (fge h (dec "0.0") && flt h (dec "360.0"))%bool = false ->
  0 <= B2R a /\ Rabs (B2R b) <= 2 / 10 ^ 13 * sqrt (B2R a * B2R a + B2R b * B2R b) /\ B2R (atan2f b a) < 0.
Proof using LA.
  intros fa fb h hb. destruct (la_atan2 _ _ LA b a fb fa) as (fA & th & bth & eA & ea & eb). apply Rabs_le_inv in eA.
  assert (Eh : h = hue_of_ab a b) by reflexivity. clearbody h. unfold hue_of_ab in Eh. cbv zeta in Eh. set (A := atan2f b a) in *. clearbody A.
  destruct pi_float as (fp & bp & bp'). pose proof pi_lo as PL. pose proof pi_hi as PH.
  destruct (deg_near A fA ltac:(lra)) as [ND BD].
  assert (SG : flt (fdiv (fmul A (dec "180.0")) PI64) (dec "0.0") = true -> B2R A < 0).
  { intros q. apply Rnot_le_lt. intros p. clear - q p fA fp bp' bth eA PL PH. fconst (dec "180.0"). fconst (dec "0.0").
    destruct (fmul_S A (dec "180.0") fA F ltac:(rewrite V; unfold HUGE; lra)) as [E1 F1]. rewrite V in E1.
    assert (Q1 : 0 <= rnd (B2R A * 180) <= 600). { split; [apply rnd_ge_0; lra|]. pose proof (rnd_uu (B2R A * 180) 580 ltac:(lra) ltac:(lra)). unfold uu in *. lra. }
    set (p0 := PI64) in *. clearbody p0.
    assert (QQ : 0 <= rnd (B2R A * 180) / B2R p0 <= 200) by (split; [apply le_div|apply div_le]; lra).
    destruct (fdiv_S (fmul A (dec "180.0")) p0 F1 ltac:(lra) ltac:(rewrite E1; unfold HUGE; lra)) as [E2 F2]. rewrite E1 in E2.
    apply (flt_fin _ (dec "0.0") F2 F0) in q. rewrite E2, V0 in q.
    pose proof (rnd_ge_0 (rnd (B2R A * 180) / B2R p0) ltac:(lra)). lra. }
  set (deg := fdiv (fmul A (dec "180.0")) PI64) in *. clearbody deg.
  fconst (dec "0.0"). fconst (dec "360.0"). assert (fd := near_fin _ _ _ ND).
  assert (E360 : fge deg (dec "360.0") = false). { apply fle_fin_f; [exact F0|exact fd|]. destruct ND as [_ bn]. lra. }
  rewrite E360 in Eh. clear E360. destruct (flt deg (dec "0.0")) eqn:E.
  2:{ exfalso. subst h. assert (G0 : 0 <= B2R deg).
      { apply Rnot_lt_le. intros q. assert (flt deg (dec "0.0") = true) by (apply flt_fin; [exact fd|exact F|lra]). congruence. }
      assert (T1 : fge deg (dec "0.0") = true) by (apply fle_fin; [exact F|exact fd|lra]).
      assert (T2 : flt deg (dec "360.0") = true) by (apply flt_fin; [exact fd|exact F0|destruct ND; lra]).
      rewrite T1, T2 in hb. discriminate hb. }
  assert (D0 : B2R deg < 0) by (apply (flt_fin deg (dec "0.0") fd F) in E; lra).
  destruct (fadd_S deg (dec "360.0") fd F0 ltac:(destruct ND; unfold HUGE; lra)) as [EA FA]. rewrite <- Eh in EA, FA.
  pose proof (rnd_uu (B2R deg + B2R (dec "360.0")) 360 ltac:(destruct ND; lra) ltac:(lra)) as RU. rewrite <- EA in RU. rewrite V0 in RU. unfold uu in RU.
  assert (T1 : fge h (dec "0.0") = true) by (apply fle_fin; [exact F|exact FA|destruct ND; lra]).
  rewrite T1 in hb. cbn [andb] in hb.
  assert (H3 : 360 <= B2R h).
  { apply Rnot_lt_le. intros q. assert (flt h (dec "360.0") = true) by (apply flt_fin; [exact FA|exact F0|lra]). congruence. }
  assert (QB : - (3 / 10 ^ 13) <= B2R A * 180 / B2R PI64 <= 2 / 10 ^ 13) by (destruct ND; lra).
  set (p := B2R PI64) in *. set (q := B2R A * 180 / p) in *. assert (Eq : B2R A = q * p / 180) by (unfold q; field; lra).
  assert (AB : - (1 / 10 ^ 14) <= B2R A <= 1 / 10 ^ 14).
  { pose proof (mul_bnd q p (3 / 10 ^ 13) 3.1416 ltac:(lra) ltac:(lra)). lra. }
  assert (TB : - (1.5 / 10 ^ 13) <= th <= 1.5 / 10 ^ 13) by lra.
  set (r := sqrt (B2R a * B2R a + B2R b * B2R b)) in *. assert (Pr : 0 <= r) by apply sqrt_pos. clearbody r.
  assert (C0 : 0 <= cos th) by (apply cos_ge_0; lra). assert (S0 := sin_le_abs th). assert (AT : Rabs th <= 1.5 / 10 ^ 13) by (apply Rabs_le; lra).
  split; [rewrite ea; apply Rmult_le_pos; assumption|]. split; [|apply SG; exact eq_refl].
  rewrite eb, Rabs_mult, (Rabs_pos_eq r) by exact Pr.
  rewrite Rmult_comm. apply Rmult_le_compat_r; [exact Pr|lra].
Qed.

(** The hue assertion, as the computation performs it. *)
Definition opponents (vc : viewing_conditions) (argb : Z) : f64 * f64 :=
  let xyz := xyz_from_argb argb in
  let ra := xyz_responses (v0 xyz) (v1 xyz) (v2 xyz) vc in (opp_a ra, opp_b ra).

Lemma from_int_cases vc argb :
  (exists cam, cam16_from_int_in argb vc = Ok cam) \/
  let h := hue_of_ab (fst (opponents vc argb)) (snd (opponents vc argb)) in
  (fge h (dec "0.0") && flt h (dec "360.0"))%bool = false.
Proof using.
  unfold cam16_from_int_in, cam16_from_xyz, opponents. cbv zeta. cbn [fst snd].
  match goal with |- (exists cam, (if negb ?b then _ else _) = _) \/ _ => destruct b; cbn [negb] end.
  - left. eexists. reflexivity.
  - right. reflexivity.
Qed.

Lemma opponents_staged vc argb : opponents vc argb =
  (let '(x, y, z) := matrix_multiply (linearized (red_from_argb argb), linearized (green_from_argb argb), linearized (blue_from_argb argb)) srgb_to_xyz in
   let r := resp (vc_fl vc) (v0 (vc_rgb_d vc)) (cone_r x y z) in
   let g := resp (vc_fl vc) (v1 (vc_rgb_d vc)) (cone_g x y z) in
   let b := resp (vc_fl vc) (v2 (vc_rgb_d vc)) (cone_b x y z) in (fw_a r g b, fw_b r g b)).
Proof using.
  unfold opponents, xyz_from_argb. cbv zeta. destruct (matrix_multiply _ _) as [[x y] z].
  unfold xyz_responses, opp_a, opp_b, resp, resp_arg, fw_a, fw_b, cone_r, cone_g, cone_b. reflexivity.
Qed.

(** A colour far from hue 0: blue has a description. *)
Lemma blue_ok vc : vc_std vc -> exists cam, cam16_from_int_in 0xFF0000FF vc = Ok cam.
Proof using LA.
  intros VS. destruct (from_int_cases vc 0xFF0000FF) as [H|H]; [exact H|]. exfalso. cbv zeta in H.
  rewrite opponents_staged in H. change (red_from_argb 0xFF0000FF) with 0%Z in H. change (green_from_argb 0xFF0000FF) with 0%Z in H. change (blue_from_argb 0xFF0000FF) with 255%Z in H.
  set (eps := 1 / 10 ^ 13). assert (heps : 0 <= eps <= 1 / 10 ^ 5) by (unfold eps; lra). assert (PA : pow_accurate eps lm) by exact (la_pow _ _ LA).
  destruct (linearized_R eps heps PA 0 ltac:(lia)) as [Fz Ez]. destruct (linearized_R eps heps PA 255 ltac:(lia)) as [Fm Em].
  assert (L0 : linR 0 = 0) by (unfold linR; simpl; lra).
  assert (L1 : linR 255 = 1). { unfold linR, wR. simpl Z.leb. cbv iota. replace ((255 / 255 + 0.055) / 1.055) with 1 by lra. unfold Rpower. rewrite ln_1, Rmult_0_r. apply exp_0. }
  rewrite L0 in Ez. rewrite L1 in Em. unfold eps in Ez, Em.
  pose proof (xyz_R _ _ _ Fz Fz Fm ltac:(lra) ltac:(lra) ltac:(lra)) as X.
  set (mm := matrix_multiply _ srgb_to_xyz) in *. clearbody mm. destruct mm as [[x y] z]. destruct X as ((fx & fy & fz) & ex & ey & ez).
  set (l0 := B2R (linearized 0)) in *. set (l1 := B2R (linearized 255)) in *. clearbody l0 l1.
  destruct (cone_r_near x y z fx fy fz ltac:(lra) ltac:(lra) ltac:(lra)) as [Gr Er].
  destruct (cone_g_near x y z fx fy fz ltac:(lra) ltac:(lra) ltac:(lra)) as [Gg Eg].
  destruct (cone_b_near x y z fx fy fz ltac:(lra) ltac:(lra) ltac:(lra)) as [Gb Eb].
  destruct (resp_fwd LA _ _ (cone_r x y z) (vs_fl _ VS) (vs_d0 _ VS) ltac:(split; [exact Gr|lra])) as (_ & A1 & R1).
  destruct (resp_fwd LA _ _ (cone_g x y z) (vs_fl _ VS) (vs_d1 _ VS) ltac:(split; [exact Gg|lra])) as (_ & A2 & R2).
  destruct (resp_fwd LA _ _ (cone_b x y z) (vs_fl _ VS) (vs_d2 _ VS) ltac:(split; [exact Gb|lra])) as (_ & A3 & R3).
  assert (T : forall fl d rc, between fl 0.38 0.4 -> between d 0.9 1.1 -> 0 < B2R rc -> 0.342 * B2R rc / 100 <= B2R fl * B2R d * B2R rc / 100 <= 0.44 * B2R rc / 100).
  { clear. intros fl d rc [_ f] [_ d'] p. assert (0.342 <= B2R fl * B2R d <= 0.44) by (split; [apply Rle_trans with (0.38 * 0.9); [lra|]|apply Rle_trans with (0.4 * 1.1); [|lra]]; apply Rmult_le_compat; lra).
    assert (0.342 * B2R rc <= B2R fl * B2R d * B2R rc <= 0.44 * B2R rc) by (split; apply Rmult_le_compat_r; lra). lra. }
  assert (Y := y42_near).
  assert (Hr := T _ _ (cone_r x y z) (vs_fl _ VS) (vs_d0 _ VS) ltac:(lra)).
  assert (Hg := T _ _ (cone_g x y z) (vs_fl _ VS) (vs_d1 _ VS) ltac:(lra)).
  assert (Hb := T _ _ (cone_b x y z) (vs_fl _ VS) (vs_d2 _ VS) ltac:(lra)). clear T.
  set (Xr := B2R (vc_fl vc) * _ * B2R (cone_r x y z) / 100) in *. set (Xg := B2R (vc_fl vc) * _ * B2R (cone_g x y z) / 100) in *. set (Xb := B2R (vc_fl vc) * _ * B2R (cone_b x y z) / 100) in *. clearbody Xr Xg Xb.
  assert (B1 : Rpower Xr y42 <= 0.3). { apply (pow_hi_small _ _ _ 2 5); [lra|lra|lia|simpl; lra|]. apply Rle_trans with (0.04 ^ 2); [apply pow_incr; lra|lra]. }
  assert (B2 : Rpower Xg y42 <= 0.3). { apply (pow_hi_small _ _ _ 2 5); [lra|lra|lia|simpl; lra|]. apply Rle_trans with (0.04 ^ 2); [apply pow_incr; lra|lra]. }
  assert (B3 : 0.5 <= Rpower Xb y42). { apply (pow_lo_small _ _ _ 1 2); [lra|lra|lia|simpl; lra|]. lra. }
  set (ar := Rpower Xr y42) in *. set (ag := Rpower Xg y42) in *. set (a_b := Rpower Xb y42) in *. clearbody ar ag a_b.
  assert (H1 : 0.01 <= hyp ar <= 4.4) by (unfold hyp; split; [apply le_div|apply div_le]; lra).
  assert (H2 : 0.01 <= hyp ag <= 4.4) by (unfold hyp; split; [apply le_div|apply div_le]; lra).
  assert (H3 : 7 <= hyp a_b <= 10.8) by (unfold hyp; split; [apply le_div|apply div_le]; lra).
  assert (H1' := hyp_range ar A1). assert (H2' := hyp_range ag A2).
  set (r := resp _ _ (cone_r x y z)) in *. set (g := resp _ _ (cone_g x y z)) in *. set (b := resp _ _ (cone_b x y z)) in *. clearbody r g b.
  destruct R1 as [f1 b1]. destruct R2 as [f2 b2]. destruct R3 as [f3 b3].
  destruct (opp_forms r g b ltac:(split; [exact f1|lra]) ltac:(split; [exact f2|lra]) ltac:(split; [exact f3|lra])) as (_ & [Fa Na] & [Fb Nb]).
  cbn [fst snd] in H. destruct (hue_panic _ _ Fa Fb H) as (_ & PB & _). set (a := B2R (fw_a r g b)) in *. set (b' := B2R (fw_b r g b)) in *. clearbody a b'.
  assert (Ba : -20 <= a <= 20) by lra. assert (Bb : -4 <= b' <= -0.5) by lra.
  rewrite Rabs_left in PB by lra. assert (S0 := sqrt_pos (a * a + b' * b')). assert (S1 : sqrt (a * a + b' * b') * sqrt (a * a + b' * b') = a * a + b' * b') by (apply sqrt_def; nra).
  set (q := sqrt _) in *. clearbody q. assert (q <= 30); [|lra]. assert (a * a <= 400) by (clear - Ba; nra). assert (b' * b' <= 16) by (clear - Bb; nra). apply Rnot_lt_le. intros n. assert (30 * 30 <= q * q) by (apply Rmult_le_compat; lra). lra.
Qed.
End Acc.

