(** * Yellow and black have a hue below 359.5, for every accurate libm: used for concrete cases.  Proof file. *)
From Coq Require Import ZArith Bool Reals Lra Lia Psatz String List.
From Flocq Require Import Core Relative IEEE754.BinarySingleNaN.
From Verif Require Import F64 MathUtils ColorUtils ViewingConditions Cam16 Hct Spec SpecCam FloatFacts FloatMono PfMath PfTones PfLab PfGamma PfLabTrip PfNear PfVc PfRel
  PfCamA PfCamB PfCamC PfCamD PfCamE PfCamF PfCamG PfCamH PfHct PfCamPanic PfCamProps PfHueReal PfHueMono PfHueGrid PfHueTable PfHueVc PfHueCheck PfHueSep PfHueAll PfToneHct.
Open Scope string_scope.
Open Scope R_scope.

Lemma pc_between y : 0 < y <= 1 -> y <= pc y <= 1.
Proof.
  intros h. unfold pc, Rpower. pose proof (ln_le_sub y ltac:(lra)) as L. split.
  - rewrite <- (exp_ln y) at 1 by lra. destruct (Req_dec (ln y) (21 / 50 * ln y)) as [e|n]; [rewrite <- e; lra|]. left. apply exp_increasing. lra.
  - rewrite <- exp_0. destruct (Req_dec (21 / 50 * ln y) 0) as [e|n]; [rewrite e; lra|]. left. apply exp_increasing. lra.
Qed.
Lemma F_gap x y : 0 < x -> x + 0.01 <= y -> y <= 1 -> F x + 0.05 <= F y.
Proof.
  intros hx g hy. pose proof (F_tangent x y hx ltac:(lra)) as T. destruct (pc_between y ltac:(lra)) as [p1 p2].
  assert (M : 5 <= m y).
  { unfold m. assert (D : 0 < (pc y + 27.13) * (pc y + 27.13) <= 792) by (split; [apply Rmult_lt_0_compat; lra|apply Rle_trans with (28.13 * 28.13); [apply Rmult_le_compat; lra|lra]]).
    set (d := (pc y + 27.13) * (pc y + 27.13)) in *. clearbody d. apply Rle_trans with (4557.84 * / 792); [lra|]. apply Rmult_le_compat_l; [lra|].
    replace (pc y / (y * d)) with (pc y / y * / d) by (field; lra). apply Rle_trans with (1 * / d); [rewrite Rmult_1_l; apply Rinv_le_contravar; lra|].
    apply Rmult_le_compat_r; [left; apply Rinv_0_lt_compat; lra|]. apply le_div; lra. }
  assert (5 * 0.01 <= m y * (y - x)) by (apply Rmult_le_compat; lra). lra.
Qed.

Lemma pos_sign (x : f64) : fin x -> 0 < B2R x -> Bsign x = false.
Proof.
  destruct x as [s|s| |s m e b]; intros f p; try discriminate f; cbn in p; [lra|]. cbn [Bsign]. destruct s; [|reflexivity].
  exfalso. pose proof (F2R_lt_0 radix2 (Float radix2 (Zneg m) e) ltac:(reflexivity)). cbn in *. lra.
Qed.
Lemma new_cam {lm : Libm} argb h : hct_new argb = Ok h -> exists cam, cam16_from_int argb = Ok cam /\ h_hue h = c_hue cam.
Proof.
  unfold hct_new. intros E. apply bind_ok in E. destruct E as (cam & EC & E). apply ok_inj in E. subst h. exists cam. split; [exact EC|reflexivity].
Qed.

Section Acc.
Context {lm : Libm} (LA : libm_accurate (1 / 10 ^ 13) lm).

Lemma opp_warm cr cg cb : byte cr -> byte cg -> byte cb -> lit cr cg cb ->
  0.1 <= F (exr u1 (linR cr) (linR cg) (linR cb)) + F (exg u2 (linR cr) (linR cg) (linR cb)) - 2 * F (exb u3 (linR cr) (linR cg) (linR cb)) ->
  let '(x, y, z) := matrix_multiply (linearized cr, linearized cg, linearized cb) srgb_to_xyz in
  let r := resp fl0 (adapt rw0) (cone_r x y z) in
  let g := resp fl0 (adapt gw0) (cone_g x y z) in
  let b := resp fl0 (adapt bw0) (cone_b x y z) in
  fin (fw_a r g b) /\ fin (fw_b r g b) /\ 0 < B2R (fw_b r g b).
Proof using LA.
  intros hr hg hb lt SEP.
  pose proof (u1_near LA) as U1. pose proof (u2_near LA) as U2. pose proof (u3_near LA) as U3.
  destruct (vc_std_ok LA) as (vc & Evc & VS). rewrite s_rgb_eq in Evc. apply ok_inj in Evc. subst vc.
  assert (BF := vs_fl _ VS). assert (D1 := vs_d0 _ VS). assert (D2 := vs_d1 _ VS). assert (D3 := vs_d2 _ VS). unfold v0, v1, v2 in D1, D2, D3. cbn [vc_fl vc_rgb_d fst snd] in BF, D1, D2, D3. clear VS.
  set (eps := 1 / 10 ^ 13). assert (heps : 0 <= eps <= 1 / 10 ^ 5) by (unfold eps; lra). assert (PA : pow_accurate eps lm) by exact (la_pow _ _ LA).
  destruct (linearized_R eps heps PA cr hr) as [Fr Er]. destruct (linearized_R eps heps PA cg hg) as [Fg Eg]. destruct (linearized_R eps heps PA cb hb) as [Fb Eb].
  assert (Lr := linR_range cr hr). assert (Lg := linR_range cg hg). assert (Lb := linR_range cb hb).
  pose proof (cones LA cr cg cb hr hg hb) as CN. pose proof (xyz_R _ _ _ Fr Fg Fb) as X.
  unfold eps in Er, Eg, Eb. specialize (X ltac:(lra) ltac:(lra) ltac:(lra)).
  set (mm := matrix_multiply _ srgb_to_xyz) in *. clearbody mm. destruct mm as [[x y] z]. destruct X as ((fx & fy & fz) & ex & ey & ez).
  destruct CN as (_ & (C1 & C2 & C3) & CP & _). destruct (CP lt) as (P1 & P2 & P3). clear CP.
  destruct (cone_r_near x y z fx fy fz ltac:(lra) ltac:(lra) ltac:(lra)) as [Gr Kr].
  destruct (cone_g_near x y z fx fy fz ltac:(lra) ltac:(lra) ltac:(lra)) as [Gg Kg].
  destruct (cone_b_near x y z fx fy fz ltac:(lra) ltac:(lra) ltac:(lra)) as [Gb Kb].
  assert (B1 : between (cone_r x y z) 0.0008 109.2) by (destruct C1; split; [assumption|lra]).
  assert (B2 : between (cone_g x y z) 0.0008 109.2) by (destruct C2; split; [assumption|lra]).
  assert (B3 : between (cone_b x y z) 0.0008 109.2) by (destruct C3; split; [assumption|lra]). clear C1 C2 C3 P1 P2 P3.
  set (kr := cone_r x y z) in *. set (kg := cone_g x y z) in *. set (kb := cone_b x y z) in *. clearbody kr kg kb.
  set (lr := B2R (linearized cr)) in *. set (lg := B2R (linearized cg)) in *. set (lb := B2R (linearized cb)) in *. clearbody lr lg lb.
  set (Rr := linR cr) in *. set (Rg := linR cg) in *. set (Rb := linR cb) in *. clearbody Rr Rg Rb.
  set (xx := B2R x) in *. set (yy := B2R y) in *. set (zz := B2R z) in *. clearbody xx yy zz.
  assert (N1 : near (resp fl0 (adapt rw0) kr) (F (exr u1 Rr Rg Rb)) (2.5 / 10 ^ 8)).
  { unfold exr. apply (resp_F LA); try assumption; [fold u1; lra|]. clear SEP U1 U2 U3. lra. }
  assert (N2 : near (resp fl0 (adapt gw0) kg) (F (exg u2 Rr Rg Rb)) (2.5 / 10 ^ 8)).
  { unfold exg. apply (resp_F LA); try assumption; [fold u2; lra|]. clear SEP U1 U2 U3. lra. }
  assert (N3 : near (resp fl0 (adapt bw0) kb) (F (exb u3 Rr Rg Rb)) (2.5 / 10 ^ 8)).
  { unfold exb. apply (resp_F LA); try assumption; [fold u3; lra|]. clear SEP U1 U2 U3. lra. }
  destruct (resp_fwd LA _ _ kr BF D1 B1) as (_ & A1 & R1). destruct (resp_fwd LA _ _ kg BF D2 B2) as (_ & A2 & R2). destruct (resp_fwd LA _ _ kb BF D3 B3) as (_ & A3 & R3).
  assert (H1 := hyp_range _ A1). assert (H2 := hyp_range _ A2). assert (H3 := hyp_range _ A3).
  set (r := resp _ _ kr) in *. set (g := resp _ _ kg) in *. set (b := resp _ _ kb) in *. clearbody r g b.
  set (Y1 := F (exr _ _ _ _)) in *. set (Y2 := F (exg _ _ _ _)) in *. set (Y3 := F (exb _ _ _ _)) in *. clearbody Y1 Y2 Y3.
  destruct R1 as [f1 b1]. destruct R2 as [f2 b2]. destruct R3 as [f3 b3]. destruct N1 as [_ n1]. destruct N2 as [_ n2]. destruct N3 as [_ n3].
  cbv zeta. assert (T1 : between r 0.02 11) by (split; [exact f1|lra]). assert (T2 : between g 0.02 11) by (split; [exact f2|lra]). assert (T3 : between b 0.02 11) by (split; [exact f3|lra]).
  destruct (opp_forms r g b T1 T2 T3) as (_ & [Fa Na] & [Fb' Nb]). destruct T1 as [_ T1]. destruct T2 as [_ T2]. destruct T3 as [_ T3].
  clear - Fa Na Fb' Nb n1 n2 n3 SEP T1 T2 T3.
  split; [exact Fa|]. split; [exact Fb'|]. lra.
Qed.

Lemma linR_255 : linR 255 = 1.
Proof using. unfold linR, wR. simpl Z.leb. cbv iota. replace ((255 / 255 + 0.055) / 1.055) with 1 by lra. unfold Rpower. rewrite ln_1, Rmult_0_r. apply exp_0. Qed.
Lemma linR_0 : linR 0 = 0.
Proof using. unfold linR. simpl. lra. Qed.
Lemma yellow_warm : 0.1 <= F (exr u1 (linR 255) (linR 255) (linR 0)) + F (exg u2 (linR 255) (linR 255) (linR 0)) - 2 * F (exb u3 (linR 255) (linR 255) (linR 0)).
Proof using LA.
  rewrite linR_255, linR_0. pose proof (u1_near LA). pose proof (u2_near LA). pose proof (u3_near LA).
  set (v1 := u1) in *. set (v2 := u2) in *. set (v3 := u3) in *. clearbody v1 v2 v3. clear - H H0 H1.
  assert (A : F (exb v3 1 1 0) + 0.05 <= F (exr v1 1 1 0)) by (apply F_gap; unfold exb, exr; lra).
  assert (B : F (exb v3 1 1 0) + 0.05 <= F (exg v2 1 1 0)) by (apply F_gap; unfold exb, exg; lra).
  lra.
Qed.

Lemma upper_hue (a b : f64) : fin a -> fin b -> Bsign b = false -> flt (hue_of_ab a b) (dec "359.5") = true.
Proof using LA.
  intros fa fb sb. destruct (la_atan2 _ _ LA b a fb fa) as (fA & th & bth & eA & _). apply Rabs_le_inv in eA. pose proof (la_upper _ _ LA b a fb fa sb) as P.
  unfold hue_of_ab. cbv zeta. set (A := atan2f b a) in *. clearbody A. destruct pi_float as (fp & bp & bp'). pose proof pi_hi as PH.
  fconst (dec "180.0"). fconst (dec "0.0"). fconst (dec "360.0"). fconst (dec "359.5").
  destruct (fmul_S A (dec "180.0") fA F ltac:(rewrite V; fsmall)) as [E1 f1]. rewrite V in E1.
  assert (B1 : 0 <= B2R (A * dec "180.0")%f <= 600) by (rewrite E1; split; [apply rnd_ge_0; lra|apply (rnd_le_IZR _ 600); [lia|lra]]).
  assert (B2 : 0 <= B2R (A * dec "180.0")%f / B2R PI64 <= 200).
  { split; [apply le_div; lra|apply div_le; lra]. }
  destruct (fdiv_S _ PI64 f1 ltac:(lra) ltac:(fsmall)) as [E2 f2].
  assert (B3 : 0 <= B2R (A * dec "180.0" / PI64)%f <= 200) by (rewrite E2; split; [apply rnd_ge_0; lra|apply (rnd_le_IZR _ 200); [lia|lra]]).
  set (d := (A * dec "180.0" / PI64)%f) in *. clearbody d.
  assert (C1 : flt d (dec "0.0") = false) by (apply (flt_fin_f d _ f2 F0); lra).
  assert (C2 : fge d (dec "360.0") = false) by (unfold fge; change Bleb with fle; apply (fle_fin_f _ d F1 f2); lra).
  rewrite C1, C2. apply (flt_fin d _ f2 F2). lra.
Qed.

Lemma hue_is vc argb cam : cam16_from_int_in argb vc = Ok cam -> c_hue cam = hue_of_ab (fst (opponents vc argb)) (snd (opponents vc argb)).
Proof using.
  unfold cam16_from_int_in, cam16_from_xyz, opponents. cbv zeta. cbn [fst snd].
  match goal with |- (if negb ?b then _ else _) = _ -> _ => destruct b; cbn [negb]; [|discriminate] end.
  intros E. apply ok_inj in E. subst cam. reflexivity.
Qed.
(** Black has opponent coordinates (0, 0). *)
Lemma black_opp vc : s_rgb = Ok vc -> opponents vc 0xFF000000 = (B754_zero false, B754_zero false).
Proof using LA.
  intros E. rewrite (opponents_vc vc _ E).
  assert (V : between fl0 0.38 0.4 /\ between (adapt rw0) 0.9 1.1 /\ between (adapt gw0) 0.9 1.1 /\ between (adapt bw0) 0.9 1.1).
  { destruct (vc_std_ok LA) as (vc' & E' & VS). rewrite s_rgb_eq in E'. apply ok_inj in E'. subst vc'. split; [exact (vs_fl _ VS)|]. split; [exact (vs_d0 _ VS)|]. split; [exact (vs_d1 _ VS)|exact (vs_d2 _ VS)]. }
  destruct V as (BF & D1 & D2 & D3).
  change (red_from_argb 0xFF000000) with 0%Z. change (green_from_argb 0xFF000000) with 0%Z. change (blue_from_argb 0xFF000000) with 0%Z.
  pose proof black_cone as BC. set (mm := matrix_multiply _ _) in *. clearbody mm. destruct mm as [[x y] z]. destruct BC as (C1 & C2 & C3). unfold stage. cbv zeta. rewrite C1, C2, C3.
  destruct (zero_resp LA _ _ BF D1) as (s & Z1 & W1). destruct (zero_resp LA _ _ BF D2) as (s2 & Z2 & W2). destruct (zero_resp LA _ _ BF D3) as (s3 & Z3 & W3).
  rewrite <- W1 in W2, W3. injection W2 as ->. injection W3 as ->. rewrite Z1, Z2, Z3. destruct (zero_opp s) as [O1 O2]. rewrite O1, O2. reflexivity.
Qed.
Lemma black_early h : hct_from_int 0xFF000000 = Ok h -> h_hue h = hue_of_ab (B754_zero false) (B754_zero false).
Proof using LA.
  rewrite int_new. intros E. destruct (new_cam _ _ E) as (cam & EC & EH). destruct (from_int_vc LA _ _ EC) as (vc & Evc & VS & EI).
  rewrite EH, (hue_is _ _ _ EI), (black_opp _ Evc). reflexivity.
Qed.
Lemma yellow_early h : hct_from_int 0xFFFFFF00 = Ok h -> flt (h_hue h) (dec "359.5") = true.
Proof using LA.
  rewrite int_new. intros E. destruct (new_cam _ _ E) as (cam & EC & EH). destruct (from_int_vc LA _ _ EC) as (vc & Evc & VS & EI).
  rewrite EH, (hue_is _ _ _ EI), (opponents_vc _ _ Evc).
  change (red_from_argb 0xFFFFFF00) with 255%Z. change (green_from_argb 0xFFFFFF00) with 255%Z. change (blue_from_argb 0xFFFFFF00) with 0%Z.
  pose proof (opp_warm 255 255 0 ltac:(unfold byte; lia) ltac:(unfold byte; lia) ltac:(unfold byte; lia) ltac:(unfold PfHueTable.lit; lia) yellow_warm) as W.
  set (mm := matrix_multiply _ _) in *. clearbody mm. destruct mm as [[x y] z]. cbv zeta in W. destruct W as (fa & fb & p).
  unfold stage. cbv zeta. cbn [fst snd]. apply upper_hue; [exact fa|exact fb|]. apply pos_sign; assumption.
Qed.
End Acc.
