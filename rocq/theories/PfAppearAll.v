(** * The appearance of a stimulus: from ordinary conditions and from the colours of a screen.  Proof file. *)
From Coq Require Import ZArith Bool Reals Lra Lia Psatz String List.
From Flocq Require Import Core Relative IEEE754.BinarySingleNaN.
From Verif Require Import F64 MathUtils ColorUtils ViewingConditions Cam16 Spec SpecCam SpecViewing SpecAppear FloatFacts FloatMono PfMath PfTones PfLab PfGamma PfNear PfVc PfRel
  PfCamA PfCamB PfCamC PfCamD PfCamE PfCamF PfCamG PfCamH PfCamTrip PfAttr PfArgb PfHct PfDist PfCamProps PfHueAll PfHueProps PfViewing PfViewingReal PfViewingAll PfViewingStd PfAppearReal PfAppearParts PfAppear RefLibm.
Import ListNotations.
Open Scope string_scope.
Open Scope R_scope.

Lemma frel_close x r : close x r -> 0 < r -> frel x r (1 / 10 ^ 9).
Proof. intros [f b] p. rewrite (Rabs_pos_eq r) in b by lra. apply Rabs_le_inv in b. split; [exact f|]. split; lra. Qed.

Lemma nbb_bounds N : 1 / 10 ^ 5 <= N <= 5 -> 0.3 <= induction_nbb N <= 8.
Proof.
  intros bN. unfold induction_nbb. assert (BP : 0.0999 <= Rpower N 0.2 <= 1.4).
  { replace 0.2 with (INR 1 / INR 5) by (cbn [INR]; lra). split; [apply rpow_ratio_lo|apply rpow_ratio_hi]; try lra; try lia. }
  assert (E : Rpower (1 / N) 0.2 = / Rpower N 0.2). { unfold Rpower. replace (1 / N) with (/ N) by (field; lra). rewrite ln_Rinv by lra. rewrite <- exp_Ropp. f_equal. ring. }
  rewrite E. set (P := Rpower N 0.2) in *. clearbody P. change (0.725 * / P) with (0.725 / P). split; [apply le_div|apply div_le]; lra.
Qed.
Lemma z_bounds N : 1 / 10 ^ 5 <= N <= 5 -> 1.48 <= exponent_z N <= 3.73.
Proof.
  intros bN. unfold exponent_z. pose proof (sqrt_pos N). assert (sqrt N <= sqrt (2.25 * 2.25)) by (apply sqrt_le_1; lra). rewrite sqrt_square in H0 by lra. lra.
Qed.
Lemma gain_bounds D W : 0 <= D <= 1 -> 20 <= W <= 200 -> 0.5 <= gain D W <= 5 /\ 20 <= gain D W * W <= 200.
Proof.
  intros bD bW. unfold gain. assert (BQ : 0.5 <= 100 / W <= 5) by (split; [apply le_div|apply div_le]; lra).
  assert (EW : (D * (100 / W) + 1 - D) * W = D * 100 + (1 - D) * W) by (field; lra).
  assert (P2 : 0 <= (1 - D) * (W - 20) <= (1 - D) * 180) by (split; [apply Rmult_le_pos; lra|apply Rmult_le_compat_l; lra]).
  assert (P3 : 0 <= D * (100 / W - 0.5) <= D * 4.5) by (split; [apply Rmult_le_pos; lra|apply Rmult_le_compat_l; lra]).
  split; [|rewrite EW]; lra.
Qed.
Lemma white_bounds L G W : 0.001 <= L <= 7 -> 20 <= G * W <= 200 -> 0.1 <= response L G W <= 300.
Proof.
  intros bL bGW. unfold response. assert (B2 : 0.001 * 20 <= L * (G * W) <= 7 * 200) by (split; apply Rmult_le_compat; lra). replace (L * (G * W)) with (L * G * W) in B2 by ring.
  set (X := L * G * W / 100) in *. assert (BX : 0.0002 <= X <= 14) by (unfold X; lra). clearbody X.
  assert (BP : 0.013 <= Rpower X 0.42 <= 14).
  { assert (R1 : 0.013 <= Rpower X (INR 1 / INR 2)) by (apply rpow_ratio_lo; try lra; try lia). assert (RH : Rpower X (INR 1 / INR 2) = Rpower X 0.5) by (f_equal; cbn [INR]; lra). rewrite RH in R1. clear RH.
    assert (R1' : Rpower X 1 = X) by (apply Rpower_1; lra). assert (R0 : Rpower X 0 = 1) by (apply Rpower_O; lra). destruct (Rle_or_lt 1 X) as [gx|gx].
    - pose proof (rpow_exp_big X 0 0.42 gx ltac:(lra)). pose proof (rpow_exp_big X 0.42 1 gx ltac:(lra)). lra.
    - pose proof (rpow_exp_small X 0 0.42 ltac:(lra) ltac:(lra)). pose proof (rpow_exp_small X 0.42 0.5 ltac:(lra) ltac:(lra)). lra. }
  set (P := Rpower X 0.42) in *. clearbody P. split; [apply le_div|apply div_le]; lra.
Qed.

Section Acc.
Context {lm : Libm} (LA : libm_accurate (1 / 10 ^ 13) lm).

Lemma settles x y z la l s disc vc : ordinary x y z la l s -> follows_cam16 vc (B2R x) (B2R y) (B2R z) (B2R la) (Rmax 0.1 (B2R l)) (B2R s) disc ->
  settled vc (conditions_of (B2R x) (B2R y) (B2R z) (B2R la) (Rmax 0.1 (B2R l)) (B2R s) disc).
Proof using LA.
  intros ((fx & fy & fz & fl & ft & fs) & bx & by_ & bz & br & bg & bb & bl & bt & bs) [hn hz hb hb' hc hf h0 h1 h2 hl hlr ha].
  destruct (fFL_near LA la fl bl) as [_ BL]. destruct (fF_near s fs bs) as [_ BF].
  assert (BD : 0 <= adaptation disc (B2R s) (B2R la) <= 1) by exact (proj2 (fD_near LA disc s la fs bs fl bl)).
  assert (BC : 0.525 <= surround_c (B2R s) <= 0.69) by (unfold surround_c; destruct (Rle_dec 1 (B2R s)); lra).
  assert (BM : 0.1 <= Rmax 0.1 (B2R l) <= 100) by (unfold Rmax; destruct (Rle_dec 0.1 (B2R l)); lra).
  assert (BU : 0.01 <= luminance (Rmax 0.1 (B2R l)) <= 100).
  { set (t := Rmax 0.1 (B2R l)) in *. clearbody t. unfold luminance. destruct (Rlt_dec 8 t); [|lra]. set (q := (t + 16) / 116). assert (0.2 <= q <= 1) by (unfold q; lra).
    assert (0.2 ^ 3 <= q ^ 3) by (apply pow_incr; lra). assert (q ^ 3 <= 1 ^ 3) by (apply pow_incr; lra). lra. }
  assert (BN : 1 / 10 ^ 5 <= luminance (Rmax 0.1 (B2R l)) / B2R y <= 5) by (split; [apply le_div|apply div_le]; lra).
  set (n := luminance (Rmax 0.1 (B2R l)) / B2R y) in *.
  pose proof (nbb_bounds n BN) as BB. pose proof (z_bounds n BN) as BZ. set (d := adaptation disc (B2R s) (B2R la)) in *.
  destruct (gain_bounds d _ BD br) as [G1 G1']. destruct (gain_bounds d _ BD bg) as [G2 G2']. destruct (gain_bounds d _ BD bb) as [G3 G3'].
  pose proof (white_bounds _ _ _ BL G1') as W1. pose proof (white_bounds _ _ _ BL G2') as W2. pose proof (white_bounds _ _ _ BL G3') as W3.
  assert (BA : 0.3 * induction_nbb n <= achromatic (level (B2R la)) d (induction_nbb n) (cone_red (B2R x) (B2R y) (B2R z)) (cone_green (B2R x) (B2R y) (B2R z)) (cone_blue (B2R x) (B2R y) (B2R z)) <= 920 * induction_nbb n).
  { unfold achromatic. split; apply Rmult_le_compat_r; lra. }
  constructor; cbn [conditions_of k_fl k_n k_nbb k_z k_c k_nc k_aw k_red k_green k_blue]; fold n d; try assumption; try (apply frel_close; [assumption|first [lra|apply exp_pos]]).
Qed.

Lemma appears_made x y z rest la l s disc vc a b c cam : ordinary x y z la l s -> make (Some (x :: y :: z :: rest)) (Some la) (Some l) (Some s) (Some disc) = Ok vc ->
  visible a b c -> cam16_from_xyz a b c vc = Ok cam ->
  appears cam (conditions_of (B2R x) (B2R y) (B2R z) (B2R la) (Rmax 0.1 (B2R l)) (B2R s) disc) (B2R a) (B2R b) (B2R c).
Proof using LA.
  intros O M V H. destruct (made_follows LA x y z rest la l s disc O) as [E Fo]. rewrite E in M. apply ok_inj in M. subst vc.
  exact (appears_in LA _ _ _ _ _ _ (settles _ _ _ _ _ _ _ _ O Fo) V H).
Qed.

(** ** The colours of a screen *)
Definition lit_up (argb : Z) : Prop := (argb mod 0x1000000 <> 0)%Z.
Lemma int_visible argb : lit_up argb -> visible (v0 (xyz_from_argb argb)) (v1 (xyz_from_argb argb)) (v2 (xyz_from_argb argb)).
Proof using LA.
  intros nb. destruct (PfCamTrip.chan argb) as (hr & hg & hb). assert (some : (1 <= red_from_argb argb \/ 1 <= green_from_argb argb \/ 1 <= blue_from_argb argb)%Z).
  { unfold lit_up in nb. change 0x1000000%Z with 16777216%Z in nb. rewrite (mod24 argb), <- red_div, <- green_div, <- blue_div in nb. lia. }
  unfold xyz_from_argb. cbv zeta. set (cr := red_from_argb argb) in *. set (cg := green_from_argb argb) in *. set (cb := blue_from_argb argb) in *. clearbody cr cg cb. clear argb nb.
  pose proof (cones LA cr cg cb hr hg hb) as C.
  destruct (linearized_range (1 / 10 ^ 13) ltac:(lra) (la_pow _ _ LA) cr hr) as [Fr Br]. destruct (linearized_range (1 / 10 ^ 13) ltac:(lra) (la_pow _ _ LA) cg hg) as [Fg Bg]. destruct (linearized_range (1 / 10 ^ 13) ltac:(lra) (la_pow _ _ LA) cb hb) as [Fb Bb].
  pose proof (xyz_R _ _ _ Fr Fg Fb ltac:(lra) ltac:(lra) ltac:(lra)) as X. destruct (matrix_multiply _ srgb_to_xyz) as [[x y] z]. unfold v0, v1, v2; cbn [fst snd].
  destruct C as (_ & _ & C & _). destruct (C some) as (C1 & C2 & C3). clear C. destruct X as ((fx & fy & fz) & ex & ey & ez).
  assert (PR := lin_pos LA cr). assert (PG := lin_pos LA cg). assert (PB := lin_pos LA cb).
  set (lr := B2R (linearized cr)) in *. set (lg := B2R (linearized cg)) in *. set (lb := B2R (linearized cb)) in *. clearbody lr lg lb.
  assert (P : 0.0303 <= lr \/ 0.0303 <= lg \/ 0.0303 <= lb) by (destruct some as [h|[h|h]]; [left; apply PR; lia|right; left; apply PG; lia|right; right; apply PB; lia]).
  assert (Px : 0 <= B2R x <= 200) by (destruct P as [P|[P|P]]; lra). assert (Py : 0 <= B2R y <= 200) by (destruct P as [P|[P|P]]; lra). assert (Pz : 0 <= B2R z <= 200) by (destruct P as [P|[P|P]]; lra).
  destruct (red_near x y z fx fy fz Px Py Pz) as [_ N1]. destruct (green_near x y z fx fy fz Px Py Pz) as [_ N2]. destruct (blue_near x y z fx fy fz Px Py Pz) as [_ N3].
  split; [auto|]. do 3 (split; [assumption|]). split; [lra|]. split; lra.
Qed.

Lemma curve_lin c : (0 <= c <= 255)%Z -> srgb_curve c = linR c.
Proof using.
  intros hc. unfold srgb_curve, linR, wR. destruct (Z.leb_spec c 10) as [h|h].
  - destruct (Rle_dec (IZR c / 255) 0.04045) as [g|g]; [reflexivity|]. apply IZR_le in h. lra.
  - destruct (Rle_dec (IZR c / 255) 0.04045) as [g|g]; [|reflexivity]. assert (h' : (11 <= c)%Z) by lia. apply IZR_le in h'. lra.
Qed.
Lemma int_screen argb : screen (red_from_argb argb) (green_from_argb argb) (blue_from_argb argb) (v0 (xyz_from_argb argb)) (v1 (xyz_from_argb argb)) (v2 (xyz_from_argb argb)).
Proof using LA.
  destruct (PfCamTrip.chan argb) as (hr & hg & hb). unfold xyz_from_argb. cbv zeta. set (cr := red_from_argb argb) in *. set (cg := green_from_argb argb) in *. set (cb := blue_from_argb argb) in *. clearbody cr cg cb. clear argb.
  destruct (linearized_range (1 / 10 ^ 13) ltac:(lra) (la_pow _ _ LA) cr hr) as [Fr Br]. destruct (linearized_range (1 / 10 ^ 13) ltac:(lra) (la_pow _ _ LA) cg hg) as [Fg Bg]. destruct (linearized_range (1 / 10 ^ 13) ltac:(lra) (la_pow _ _ LA) cb hb) as [Fb Bb].
  pose proof (xyz_R _ _ _ Fr Fg Fb ltac:(lra) ltac:(lra) ltac:(lra)) as X. destruct (matrix_multiply _ srgb_to_xyz) as [[x y] z]. unfold v0, v1, v2; cbn [fst snd]. destruct X as (ff & ex & ey & ez).
  destruct (linearized_R (1 / 10 ^ 13) ltac:(lra) (la_pow _ _ LA) cr hr) as [_ Er]. destruct (linearized_R (1 / 10 ^ 13) ltac:(lra) (la_pow _ _ LA) cg hg) as [_ Eg]. destruct (linearized_R (1 / 10 ^ 13) ltac:(lra) (la_pow _ _ LA) cb hb) as [_ Eb].
  pose proof (linR_range cr hr) as Lr. pose proof (linR_range cg hg) as Lg. pose proof (linR_range cb hb) as Lb. unfold screen. cbv zeta. rewrite !curve_lin by assumption.
  set (lr := B2R (linearized cr)) in *. set (lg := B2R (linearized cg)) in *. set (lb := B2R (linearized cb)) in *. set (qr := linR cr) in *. set (qg := linR cg) in *. set (qb := linR cb) in *. clearbody lr lg lb qr qg qb.
  split; [exact ff|]. split; [|split]; apply Rabs_le; lra.
Qed.

Lemma screen_in vc k argb : s_rgb = Ok vc -> settled vc k -> lit_up argb -> exists x y z cam, xyz_from_argb argb = (x, y, z) /\ screen (red_from_argb argb) (green_from_argb argb) (blue_from_argb argb) x y z /\
  cam16_from_int argb = Ok cam /\ appears cam k (B2R x) (B2R y) (B2R z).
Proof using LA.
  intros ES SL nb. pose proof (int_visible argb nb) as V. pose proof (int_screen argb) as SC. destruct (PfHueAll.from_int_total LA argb) as [cam E].
  destruct (xyz_from_argb argb) as [[x y] z] eqn:EX. change (v0 (x, y, z)) with x in *. change (v1 (x, y, z)) with y in *. change (v2 (x, y, z)) with z in *.
  exists x, y, z, cam. split; [reflexivity|]. split; [exact SC|]. split; [exact E|].
  assert (E' : cam16_from_xyz x y z vc = Ok cam). { pose proof E as E'. rewrite (from_int_eq argb vc ES) in E'. clear E ES. unfold cam16_from_int_in in E'. rewrite EX in E'. exact E'. }
  exact (appears_in LA _ _ _ _ _ _ SL V E').
Qed.
Lemma made_lum x y z rest la l s disc : vc_adapting_luminance (made x y z rest la l s disc) = la.
Proof using. reflexivity. Qed.
Lemma standard_settled : exists vc, s_rgb = Ok vc /\ settled vc (conditions_of (B2R (dec "95.047")) 100 (B2R (dec "108.883")) (B2R (vc_adapting_luminance vc)) 50 2 false).
Proof using LA.
  destruct (s_rgb_made LA) as [ES Fo]. eexists. split; [exact ES|]. clear ES. pose proof (settles _ _ _ _ _ _ _ _ std_ordinary Fo) as SL. clear Fo.
  assert (E1 : B2R (dec "100.0") = 100) by exact (proj1 (proj2 (proj2 d65))). assert (E2 : B2R (dec "2.0") = 2) by exact (proj2 dec2).
  assert (E3 : Rmax 0.1 (B2R (dec "50.0")) = 50) by (rewrite (proj2 dec50); apply Rmax_right; lra). rewrite E1, E2, E3 in SL. rewrite made_lum. exact SL.
Qed.
Lemma appears_screen argb : lit_up argb -> exists vc x y z cam, s_rgb = Ok vc /\ xyz_from_argb argb = (x, y, z) /\ screen (red_from_argb argb) (green_from_argb argb) (blue_from_argb argb) x y z /\
  cam16_from_int argb = Ok cam /\ appears cam (conditions_of (B2R (dec "95.047")) 100 (B2R (dec "108.883")) (B2R (vc_adapting_luminance vc)) 50 2 false) (B2R x) (B2R y) (B2R z).
Proof using LA.
  intros nb. destruct standard_settled as (vc & ES & SL). destruct (screen_in vc _ argb ES SL nb) as (x & y & z & cam & h1 & h2 & h3 & h4).
  exists vc, x, y, z, cam. auto.
Qed.
End Acc.

Lemma red_visible : visible (dec "41.24") (dec "21.26") (dec "1.93").
Proof.
  unfold visible, cone_red, cone_green, cone_blue. fconst (dec "41.24"). fconst (dec "21.26"). fconst (dec "1.93"). rewrite V, V0, V1.
  split; [auto|]. repeat split; lra.
Qed.
Lemma blue_lit : lit_up 0xFF0000FF /\ ~ lit_up 0xFF000000.
Proof. unfold lit_up. split; [discriminate|intros h; now apply h]. Qed.
