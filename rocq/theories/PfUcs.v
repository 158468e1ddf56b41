(** * Blending in CAM16-UCS starts and ends at the two colours.  Proof file. *)
From Coq Require Import ZArith Bool Reals Lra Lia Psatz String List.
From Flocq Require Import Core Relative IEEE754.BinarySingleNaN.
From Verif Require Import F64 MathUtils ColorUtils ViewingConditions Cam16 Hct Spec SpecCam FloatFacts FloatMono PfArgb PfMath PfTones PfLab PfGamma PfNear PfVc PfRel PfCamA PfCamB PfCamC PfCamD PfCamE PfCamF PfCamG PfCamH PfCamTrip PfHct RefLibm PfRefTrig PfCamProps PfHueProps PfUcsA PfUcsB PfUcsC.
Open Scope string_scope.
Open Scope R_scope.

Lemma ref_14 : libm_accurate (1 / 10 ^ 14) ref_libm.
Proof. apply libm_weaken with (2 := ref_libm_accurate). lra. Qed.

Definition ucs_range (cam : cam16) : Prop :=
  (fin (c_jstar cam) /\ 0 <= B2R (c_jstar cam) <= 142.1) /\ (fin (c_astar cam) /\ -370 <= B2R (c_astar cam) <= 370) /\ (fin (c_bstar cam) /\ -370 <= B2R (c_bstar cam) <= 370).

Section Acc.
Context {lm : Libm} (LA : libm_accurate (1 / 10 ^ 14) lm).

Lemma coords (c flr hr : f64) : fin c -> 0 <= B2R c <= 3903 -> between flr 0.7 0.9 -> fin hr -> 0 <= B2R hr <= 7 ->
  let ms := fw_ucs_m (fmul c flr) in
  (fin (fmul ms (cosf hr)) /\ -370 <= B2R (fmul ms (cosf hr)) <= 370) /\ (fin (fmul ms (sinf hr)) /\ -370 <= B2R (fmul ms (sinf hr)) <= 370).
Proof using LA.
  intros fc bc VF fh bh ms.
  destruct (la_trig _ _ LA hr fh ltac:(lra)) as (fs & es & fo & eo). apply Rabs_le_inv in es. apply Rabs_le_inv in eo.
  assert (P : 0 <= B2R c * B2R flr <= 3513) by (destruct VF; split; [apply Rmult_le_pos; lra|apply Rle_trans with (3903 * 0.9); [apply Rmult_le_compat; lra|lra]]).
  destruct (fmul_S c flr fc (proj1 VF) ltac:(unfold HUGE; lra)) as [E1 F1].
  pose proof (rnd_bounds _ (proj1 P)) as R1. rewrite <- E1 in R1. pose proof eta_small as ETA. unfold u53 in R1.
  assert (Q1 : 0 <= B2R (fmul c flr)) by (rewrite E1; apply rnd_ge_0; lra). clear E1.
  destruct (ucs_m_fwd LA (fmul c flr) F1 ltac:(lra)) as (fm & Bm & _). fold ms in fm, Bm.
  destruct (coordinate ms (cosf hr) (fmul ms (cosf hr)) (cos (B2R hr)) fm Bm fo ltac:(lra) (COS_bound _) ltac:(lra)) as (_ & A2 & A3).
  destruct (coordinate ms (sinf hr) (fmul ms (sinf hr)) (sin (B2R hr)) fm Bm fs ltac:(lra) (SIN_bound _) ltac:(lra)) as (_ & A5 & A6).
  repeat split; tauto.
Qed.

Lemma in_range vc (argb : Z) cam : vc_std vc -> cam16_from_int_in argb vc = Ok cam -> ucs_range cam.
Proof using LA.
  intros VS H. pose proof (LA13 LA) as LA'. destruct (chan argb) as (h1 & h2 & h3). unfold cam16_from_int_in, xyz_from_argb in H. cbv zeta in H.
  set (cr := red_from_argb argb) in *. set (cg := green_from_argb argb) in *. set (cb := blue_from_argb argb) in *. clearbody cr cg cb. clear argb.
  pose proof (cones LA' cr cg cb h1 h2 h3) as C. pose proof black_cones as BC.
  destruct (Z.eq_dec cr 0) as [e1|n1]; [destruct (Z.eq_dec cg 0) as [e2|n2]; [destruct (Z.eq_dec cb 0) as [e3|n3]|]|].
  { subst cr cg cb. destruct (matrix_multiply _ _) as [[x y] z]. change (v0 (x, y, z)) with x in H. change (v1 (x, y, z)) with y in H. change (v2 (x, y, z)) with z in H.
    pose proof (from_xyz_staged _ _ _ _ _ H) as S. cbv zeta in S. destruct BC as (z1 & z2 & z3).
    pose proof (resp_zero LA' _ _ _ (vs_fl _ VS) (vs_d0 _ VS) z1) as Y1. pose proof (resp_zero LA' _ _ _ (vs_fl _ VS) (vs_d1 _ VS) z2) as Y2. pose proof (resp_zero LA' _ _ _ (vs_fl _ VS) (vs_d2 _ VS) z3) as Y3.
    set (r := resp _ _ (cone_r x y z)) in *. set (g := resp _ _ (cone_g x y z)) in *. set (bb := resp _ _ (cone_b x y z)) in *. clearbody r g bb.
    destruct (fw_zero LA' vc r g bb VS Y1 Y2 Y3) as (ZA & ZB & ZJ & ZC). destruct S as (HB & Eh & Ej & Ec & Ejs & Eas & Ebs).
    destruct (hue_near LA' _ _ (proj1 ZA) (proj1 ZB) HB) as (th & _ & _ & Hh & _ & Hu & _).
    destruct (ZC _ (proj1 Hu) (proj2 Hu)) as [fc ec]. set (c := fw_c _ _ _) in *. clearbody c. set (hh := hue_of_ab _ _) in *. clearbody hh.
    unfold ucs_range. rewrite Ejs, Eas, Ebs. destruct (zero_ucs_j _ ZJ) as [fz ez]. split; [split; [exact fz|rewrite ez; lra]|].
    exact (coords c (vc_f_lroot vc) (rad hh) fc ltac:(lra) (vs_flr _ VS) (proj1 Hh) (proj2 Hh)). }
  all: assert (some : (1 <= cr \/ 1 <= cg \/ 1 <= cb)%Z) by lia; clear BC.
  all: destruct (matrix_multiply _ _) as [[x y] z] eqn:E; change (v0 (x, y, z)) with x in H; change (v1 (x, y, z)) with y in H; change (v2 (x, y, z)) with z in H;
    pose proof (from_xyz_staged _ _ _ _ _ H) as S; cbv zeta in S; destruct C as (_ & (K1 & K2 & K3) & L & _); destruct (L some) as (L1 & L2 & L3);
    destruct (resp_fwd LA' _ _ (cone_r x y z) (vs_fl _ VS) (vs_d0 _ VS) ltac:(destruct K1; split; [assumption|lra])) as (_ & A1 & R1);
    destruct (resp_fwd LA' _ _ (cone_g x y z) (vs_fl _ VS) (vs_d1 _ VS) ltac:(destruct K2; split; [assumption|lra])) as (_ & A2 & R2);
    destruct (resp_fwd LA' _ _ (cone_b x y z) (vs_fl _ VS) (vs_d2 _ VS) ltac:(destruct K3; split; [assumption|lra])) as (_ & A3 & R3);
    apply hyp_range in A1; apply hyp_range in A2; apply hyp_range in A3;
    set (r := resp _ _ (cone_r x y z)) in *; set (g := resp _ _ (cone_g x y z)) in *; set (bb := resp _ _ (cone_b x y z)) in *; clearbody r g bb;
    destruct S as (HB & Eh & Ej & Ec & Ejs & Eas & Ebs);
    pose proof (describe LA' vc r g bb _ _ _ VS ltac:(destruct R1; split; [assumption|lra]) ltac:(destruct R2; split; [assumption|lra]) ltac:(destruct R3; split; [assumption|lra])
      (near_weak _ _ _ (1 / 10 ^ 9) R1 ltac:(lra)) (near_weak _ _ _ (1 / 10 ^ 9) R2 ltac:(lra)) (near_weak _ _ _ (1 / 10 ^ 9) R3 ltac:(lra)) HB) as D;
    destruct D as (p0 & rho & th & u & t0 & w & J & JR & Bw & EJ & NJ & fc & pc & hc & Hh & _);
    unfold ucs_range; rewrite Ejs, Eas, Ebs.
  all: set (c := fw_c _ _ _) in *; clearbody c; set (j := fw_j _ _ _ _ _) in *; clearbody j; set (hh := hue_of_ab _ _) in *; clearbody hh;
    clear - LA VS JR Bw NJ fc pc hc Hh.
  all: assert (S0 : 0.014 <= sqrt J <= 1.5) by (split; [apply Rsqr_incr_0_var|apply Rsqr_incr_0_var]; rewrite ?Rsqr_sqrt by lra; unfold Rsqr; try lra; apply sqrt_pos).
  all: destruct (vs_kk _ VS) as [_ bk]; assert (KW : 0 <= B2R (kk_of (vc_n vc)) * w <= 2600) by (split; [apply Rmult_le_pos; lra|apply Rle_trans with (1 * 2600); [apply Rmult_le_compat; lra|lra]]).
  all: set (kw := B2R (kk_of (vc_n vc)) * w) in *; clearbody kw; set (s0 := sqrt J) in *; clearbody s0.
  all: assert (SK : 0 <= s0 * kw <= s0 * 2600) by (split; [apply Rmult_le_pos; lra|apply Rmult_le_compat_l; lra]).
  all: split; [|exact (coords c (vc_f_lroot vc) (rad hh) fc ltac:(lra) (vs_flr _ VS) (proj1 Hh) (proj2 Hh))].
  all: destruct NJ as (fj & pj & nj); destruct (ucs_j_fwd j fj ltac:(lra)) as [(fs & ps & ns) bs]; split; [exact fs|lra].
Qed.

Lemma from_int_vc14 argb cam : cam16_from_int argb = Ok cam -> exists vc, s_rgb = Ok vc /\ vc_std vc /\ cam16_from_int_in argb vc = Ok cam.
Proof using LA. exact (from_int_vc (LA13 LA) argb cam). Qed.

Lemma ucs_back argb cam js a b : cam16_from_int argb = Ok cam -> ucs_close cam js a b ->
  bind (cam16_from_ucs js a b) cam16_to_int = Ok (0xFF000000 + argb mod 0x1000000)%Z.
Proof using LA.
  intros H C. destruct (from_int_vc14 argb cam H) as (vc & E & VS & H'). unfold cam16_from_ucs, cam16_to_int. rewrite E. cbn [bind].
  rewrite (ucs_trip LA vc argb cam js a b VS H' C), repack. reflexivity.
Qed.

Lemma int_in_range argb cam : cam16_from_int argb = Ok cam -> ucs_range cam.
Proof using LA. intros H. destruct (from_int_vc14 argb cam H) as (vc & E & VS & H'). exact (in_range vc argb cam VS H'). Qed.

Lemma close_self cam : ucs_range cam -> ucs_close cam (c_jstar cam) (c_astar cam) (c_bstar cam).
Proof using. intros ((f1 & b1) & (f2 & b2) & (f3 & b3)). unfold ucs_close. repeat split; try assumption; lra. Qed.

Lemma mix_1 (x y : f64) M Y : fin x -> fin y -> 0 <= M <= 1000 -> - M <= B2R y - B2R x <= M -> - Y <= B2R y <= Y -> 0 <= Y <= 1000 ->
  let z := fadd x (fmul (fsub y x) (dec "1.0")) in
  fin z /\ - (M * (1.111 / 10 ^ 16) + (Y + 1 / 10 ^ 12) * (1.111 / 10 ^ 16) + 1 / 10 ^ 50) <= B2R z - B2R y <= M * (1.111 / 10 ^ 16) + (Y + 1 / 10 ^ 12) * (1.111 / 10 ^ 16) + 1 / 10 ^ 50 /\
  (B2R y = 0 -> B2R z = 0).
Proof using.
  intros fx fy bM hM hY bY z. fconst (dec "1.0"). pose proof eta_small as ETA.
  destruct (fsub_S y x fy fx ltac:(unfold HUGE; lra)) as [E1 F1].
  pose proof (rnd_bounds_abs (B2R y - B2R x) M ltac:(apply Rabs_le; lra)) as R1. rewrite <- E1 in R1. unfold u53 in R1.
  assert (Z1 : B2R y = 0 -> B2R (fsub y x) = - B2R x).
  { intros e. rewrite E1, e, Rminus_0_l. rewrite <- B2R_Bopp. apply rnd_B2R. }
  set (d := fsub y x) in *. clearbody d.
  destruct (fmul_S d (dec "1.0") F1 F ltac:(rewrite V, Rmult_1_r; unfold HUGE; lra)) as [E2 F2]. rewrite V, Rmult_1_r, rnd_B2R in E2.
  subst z. set (p := fmul d (dec "1.0")) in *. clearbody p.
  destruct (fadd_S x p fx F2 ltac:(rewrite E2; unfold HUGE; lra)) as [E3 F3]. rewrite E2 in E3.
  split; [exact F3|]. split.
  - pose proof (rnd_bounds_abs (B2R x + B2R d) (Y + 1 / 10 ^ 12) ltac:(apply Rabs_le; lra)) as R3. rewrite <- E3 in R3. unfold u53 in R3. lra.
  - intros e. rewrite E3, (Z1 e). replace (B2R x + - B2R x) with 0 by ring. apply rnd_0.
Qed.

Lemma close_0 ca cb : ucs_range ca -> ucs_range cb ->
  ucs_close ca (fadd (c_jstar ca) (fmul (fsub (c_jstar cb) (c_jstar ca)) (dec "0.0"))) (fadd (c_astar ca) (fmul (fsub (c_astar cb) (c_astar ca)) (dec "0.0")))
    (fadd (c_bstar ca) (fmul (fsub (c_bstar cb) (c_bstar ca)) (dec "0.0"))).
Proof using.
  intros ((f1 & b1) & (f2 & b2) & (f3 & b3)) ((g1 & d1) & (g2 & d2) & (g3 & d3)).
  destruct (mix_0 (c_jstar ca) (c_jstar cb) f1 (proj2 (fsub_S _ _ g1 f1 ltac:(unfold HUGE; lra)))) as [q1 e1].
  destruct (mix_0 (c_astar ca) (c_astar cb) f2 (proj2 (fsub_S _ _ g2 f2 ltac:(unfold HUGE; lra)))) as [q2 e2].
  destruct (mix_0 (c_bstar ca) (c_bstar cb) f3 (proj2 (fsub_S _ _ g3 f3 ltac:(unfold HUGE; lra)))) as [q3 e3].
  unfold ucs_close. rewrite e1, e2, e3. repeat split; try assumption; lra.
Qed.

Lemma close_1 ca cb : ucs_range ca -> ucs_range cb ->
  ucs_close cb (fadd (c_jstar ca) (fmul (fsub (c_jstar cb) (c_jstar ca)) (dec "1.0"))) (fadd (c_astar ca) (fmul (fsub (c_astar cb) (c_astar ca)) (dec "1.0")))
    (fadd (c_bstar ca) (fmul (fsub (c_bstar cb) (c_bstar ca)) (dec "1.0"))).
Proof using.
  intros ((f1 & b1) & (f2 & b2) & (f3 & b3)) ((g1 & d1) & (g2 & d2) & (g3 & d3)).
  destruct (mix_1 (c_jstar ca) (c_jstar cb) 142.1 (B2R (c_jstar cb)) f1 g1 ltac:(lra) ltac:(lra) ltac:(lra) ltac:(lra)) as (q1 & e1 & z1).
  destruct (mix_1 (c_astar ca) (c_astar cb) 740 370 f2 g2 ltac:(lra) ltac:(lra) ltac:(lra) ltac:(lra)) as (q2 & e2 & _).
  destruct (mix_1 (c_bstar ca) (c_bstar cb) 740 370 f3 g3 ltac:(lra) ltac:(lra) ltac:(lra) ltac:(lra)) as (q3 & e3 & _).
  unfold ucs_close. repeat split; try assumption; lra.
Qed.

Lemma int_ok argb : exists cam, cam16_from_int argb = Ok cam.
Proof using LA. destruct (trip_total (LA13 LA) argb) as (cam & E & _). exists cam. exact E. Qed.

Lemma blend_0 a b : blend_cam16_ucs a b (dec "0.0") = Ok (0xFF000000 + a mod 0x1000000)%Z.
Proof using LA.
  destruct (int_ok a) as [ca Ea]. destruct (int_ok b) as [cb Eb]. unfold blend_cam16_ucs. rewrite Ea, bind_Ok, Eb, bind_Ok. cbv beta zeta.
  exact (ucs_back a ca _ _ _ Ea (close_0 ca cb (int_in_range a ca Ea) (int_in_range b cb Eb))).
Qed.

Lemma blend_1 a b : blend_cam16_ucs a b (dec "1.0") = Ok (0xFF000000 + b mod 0x1000000)%Z.
Proof using LA.
  destruct (int_ok a) as [ca Ea]. destruct (int_ok b) as [cb Eb]. unfold blend_cam16_ucs. rewrite Ea, bind_Ok, Eb, bind_Ok. cbv beta zeta.
  exact (ucs_back b cb _ _ _ Eb (close_1 ca cb (int_in_range a ca Ea) (int_in_range b cb Eb))).
Qed.

Lemma mix_self (x t : f64) : fin x -> fin t -> fin (fadd x (fmul (fsub x x) t)) /\ B2R (fadd x (fmul (fsub x x) t)) = B2R x.
Proof using.
  intros fx ft. destruct (fsub_S x x fx fx ltac:(rewrite Rminus_diag_eq by reflexivity; unfold HUGE; lra)) as [E1 F1]. rewrite Rminus_diag_eq, rnd_0 in E1 by reflexivity.
  destruct (zero_mul_l _ t (conj F1 E1) ft) as [F2 E2].
  destruct (fadd_val x _ fx F2) as [A N]. rewrite E2, Rplus_0_r, rndx_B2R in A.
  assert (FA : fin (fadd x (fmul (fsub x x) t))) by (apply (val_fin_iff _ N); rewrite A; apply B2R_BIG).
  split; [assumption|]. now rewrite val_fin in A.
Qed.

Lemma blend_self a t : fin t -> blend_cam16_ucs a a t = Ok (0xFF000000 + a mod 0x1000000)%Z.
Proof using LA.
  intros ft. destruct (int_ok a) as [ca Ea]. unfold blend_cam16_ucs. rewrite Ea, bind_Ok, bind_Ok. cbv beta zeta.
  apply (ucs_back a ca _ _ _ Ea). destruct (int_in_range a ca Ea) as ((f1 & b1) & (f2 & b2) & (f3 & b3)).
  destruct (mix_self _ t f1 ft) as [q1 e1]. destruct (mix_self _ t f2 ft) as [q2 e2]. destruct (mix_self _ t f3 ft) as [q3 e3].
  unfold ucs_close. rewrite e1, e2, e3. repeat split; try assumption; lra.
Qed.

Lemma ucs_stable argb cam js a b : cam16_from_int argb = Ok cam -> fin js -> fin a -> fin b ->
  (B2R (c_jstar cam) = 0 -> B2R js = 0) -> Rabs (B2R js - B2R (c_jstar cam)) <= 1 / 10 ^ 14 ->
  Rabs (B2R a - B2R (c_astar cam)) <= 1 / 10 ^ 13 -> Rabs (B2R b - B2R (c_bstar cam)) <= 1 / 10 ^ 13 ->
  bind (cam16_from_ucs js a b) cam16_to_int = Ok (0xFF000000 + argb mod 0x1000000)%Z.
Proof using LA.
  intros E f1 f2 f3 z h1 h2 h3. apply Rabs_le_inv in h1. apply Rabs_le_inv in h2. apply Rabs_le_inv in h3. destruct (int_in_range argb cam E) as ((_ & b1) & _).
  apply (ucs_back argb cam js a b E). unfold ucs_close. repeat split; try assumption; lra.
Qed.

Lemma ucs_total argb : exists cam, cam16_from_int argb = Ok cam /\
  bind (cam16_from_ucs (c_jstar cam) (c_astar cam) (c_bstar cam)) cam16_to_int = Ok (0xFF000000 + argb mod 0x1000000)%Z.
Proof using LA.
  destruct (int_ok argb) as [cam E]. exists cam. split; [exact E|]. exact (ucs_back argb cam _ _ _ E (close_self cam (int_in_range argb cam E))).
Qed.

Lemma viewed_jch a b vc : c_j a = c_j b -> c_chroma a = c_chroma b -> c_hue a = c_hue b -> cam16_viewed a vc = cam16_viewed b vc.
Proof using. intros e1 e2 e3. unfold cam16_viewed, cam16_xyz_in. rewrite e1, e2, e3. reflexivity. Qed.

Lemma jch_j j c h vc : c_j (cam16_from_jch_in j c h vc) = j.
Proof using. unfold cam16_from_jch_in. cbn [c_j]. reflexivity. Qed.
Lemma jch_c j c h vc : c_chroma (cam16_from_jch_in j c h vc) = c.
Proof using. unfold cam16_from_jch_in. cbn [c_chroma]. reflexivity. Qed.
Lemma jch_h j c h vc : c_hue (cam16_from_jch_in j c h vc) = h.
Proof using. unfold cam16_from_jch_in. cbn [c_hue]. reflexivity. Qed.

Lemma jch_total argb : exists cam, cam16_from_int argb = Ok cam /\
  bind (cam16_from_jch (c_j cam) (c_chroma cam) (c_hue cam)) cam16_to_int = Ok (0xFF000000 + argb mod 0x1000000)%Z.
Proof using LA.
  destruct (int_ok argb) as [cam E]. exists cam. split; [exact E|].
  destruct (cam_trip_full (LA13 LA) argb cam E) as [T _]. destruct (from_int_vc14 argb cam E) as (vc & Ev & _).
  unfold cam16_from_jch, cam16_to_int in *. rewrite Ev in *. cbn [bind] in *. rewrite (viewed_jch _ cam vc (jch_j _ _ _ _) (jch_c _ _ _ _) (jch_h _ _ _ _)). exact T.
Qed.
End Acc.
