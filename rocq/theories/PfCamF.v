(** * A CAM16 description close enough to a colour converts back to that colour.  Proof file. *)
From Coq Require Import ZArith Bool Reals Lra Lia Psatz String List.
From Flocq Require Import Core Relative IEEE754.BinarySingleNaN.
From Verif Require Import F64 MathUtils ColorUtils ViewingConditions Cam16 Spec SpecCam FloatFacts FloatMono PfMath PfTones PfLab PfGamma PfNear PfVc PfRel PfCamA PfCamB PfCamC PfCamD PfCamE.
Open Scope string_scope.
Open Scope R_scope.

Section Acc.
Context {lm : Libm} (LA : libm_accurate (1 / 10 ^ 13) lm).

(** The staged form of [cam16_xyz_in]. *)
Lemma xyz_staged (self : cam16) (vc : viewing_conditions) :
  cam16_xyz_in self vc =
  (let hr := rad (c_hue self) in
   let t := inv_t (c_chroma self) (c_j self) (kk_of (vc_n vc)) in
   let p1 := inv_p1 (vc_n_c vc) (vc_ncb vc) hr in
   let p2 := inv_p2 (vc_aw vc) (vc_nbb vc) (vc_c vc) (vc_z vc) (c_j self) in
   let g := inv_gamma p1 p2 t (cosf hr) (sinf hr) in
   let a := fmul g (cosf hr) in
   let b := fmul g (sinf hr) in
   let r_f := unresp (vc_fl vc) (v0 (vc_rgb_d vc)) (inv_ra p2 a b) in
   let g_f := unresp (vc_fl vc) (v1 (vc_rgb_d vc)) (inv_ga p2 a b) in
   let b_f := unresp (vc_fl vc) (v2 (vc_rgb_d vc)) (inv_ba p2 a b) in
   (back_x r_f g_f b_f, back_y r_f g_f b_f, back_z r_f g_f b_f)).
Proof using. unfold cam16_xyz_in, inv_t, inv_alpha, inv_p1, inv_p2, inv_gamma, inv_ra, inv_ga, inv_ba, unresp, unbase, back_x, back_y, back_z, kk_of, rad. reflexivity. Qed.

(** [self] describes, up to small errors, a colour with compressed responses [R], [G], [B]. *)
Definition y10 : R := B2R (fdiv (dec "1.0") (dec "0.9")).
Record described (vc : viewing_conditions) (self : cam16) (R G B p0 r th u t0 w : R) : Prop := {
  ds_ref : refpoint (P0 (vc_n_c vc) (vc_ncb vc)) p0 r th u t0;
  ds_j : frel (c_j self) (100 * Rpower (p0 * B2R (vc_nbb vc) / B2R (vc_aw vc)) (B2R (fmul (vc_c vc) (vc_z vc)))) (8 / 10 ^ 13);
  ds_c : fin (c_chroma self) /\ 0 <= B2R (c_chroma self);
  ds_c' : let s := sqrt (Rpower (p0 * B2R (vc_nbb vc) / B2R (vc_aw vc)) (B2R (fmul (vc_c vc) (vc_z vc)))) in let k := B2R (kk_of (vc_n vc)) in
    s * (k * w - 5 / 10 ^ 9) <= B2R (c_chroma self) <= s * (k * w + 5 / 10 ^ 9);
  ds_w : 0 <= w <= 2600;
  ds_t : t0 - 4 / 10 ^ 8 <= pw w y10 <= t0 + 4 / 10 ^ 8;
  ds_h : fin (rad (c_hue self)) /\ 0 <= B2R (rad (c_hue self)) <= 7;
  ds_cos : - (4 / 10 ^ 11) <= r * (cos (B2R (rad (c_hue self))) - cos th) <= 4 / 10 ^ 11;
  ds_sin : - (4 / 10 ^ 11) <= r * (sin (B2R (rad (c_hue self))) - sin th) <= 4 / 10 ^ 11;
  ds_R : - (1 / 10 ^ 8) <= (460 * p0 + 451 * (r * cos th) + 288 * (r * sin th)) / 1403 - R <= 1 / 10 ^ 8;
  ds_G : - (1 / 10 ^ 8) <= (460 * p0 - 891 * (r * cos th) - 261 * (r * sin th)) / 1403 - G <= 1 / 10 ^ 8;
  ds_B : - (1 / 10 ^ 8) <= (460 * p0 - 220 * (r * cos th) - 6300 * (r * sin th)) / 1403 - B <= 1 / 10 ^ 8
}.

Lemma X_range (nbb aw : f64) p : between nbb 1 1.04 -> between aw 25 34 -> 0.06 <= p <= 34 -> 0.00176 <= p * B2R nbb / B2R aw <= 1.42.
Proof using.
  intros [fn bn] [fa ba] bp.
  assert (Q : 0.06 <= p * B2R nbb <= 35.36) by (split; [apply Rle_trans with (0.06 * 1); [lra|]|apply Rle_trans with (34 * 1.04); [|lra]]; apply Rmult_le_compat; lra).
  split; [apply le_div|apply div_le]; lra.
Qed.

Lemma described_back vc self p0 r th u t0 w cr cg cb x y z :
  vc_std vc -> (0 <= cr <= 255)%Z -> (0 <= cg <= 255)%Z -> (0 <= cb <= 255)%Z -> (1 <= cr \/ 1 <= cg \/ 1 <= cb)%Z ->
  matrix_multiply (linearized cr, linearized cg, linearized cb) srgb_to_xyz = (x, y, z) ->
  (let H d c := hyp (Rpower (B2R (vc_fl vc) * B2R d * B2R c / 100) y42) in
   described vc self (H (v0 (vc_rgb_d vc)) (cone_r x y z)) (H (v1 (vc_rgb_d vc)) (cone_g x y z)) (H (v2 (vc_rgb_d vc)) (cone_b x y z)) p0 r th u t0 w) ->
  cam16_viewed self vc = argb_from_rgb cr cg cb.
Proof using LA.
  intros VS hr hg hb some E D. cbv beta zeta in D.
  pose proof (cones LA cr cg cb hr hg hb) as C. rewrite E in C. destruct C as (_ & (K1 & K2 & K3) & L & back). destruct (L some) as (L1 & L2 & L3).
  assert (K1' : between (cone_r x y z) 0.0008 109.2) by (destruct K1; split; [assumption|lra]).
  assert (K2' : between (cone_g x y z) 0.0008 109.2) by (destruct K2; split; [assumption|lra]).
  assert (K3' : between (cone_b x y z) 0.0008 109.2) by (destruct K3; split; [assumption|lra]).
  clear K1 K2 K3 L L1 L2 L3 E.
  unfold cam16_viewed. rewrite xyz_staged. cbv zeta. match goal with |- argb_from_xyz (v0 (?a, ?b, ?c)) _ _ = _ => change (argb_from_xyz a b c = argb_from_rgb cr cg cb) end.
  destruct D. destruct ds_c0 as [fc pc]. cbv zeta in ds_c'0. destruct ds_h0 as [fh bh].
  assert (RF := ds_ref0). destruct RF as [_ _ bp0 _ _ _ _ bt0].
  assert (J := J_range _ _ (X_range _ _ p0 (vs_nbb _ VS) (vs_aw _ VS) bp0) (proj1 (proj2 (cz_inverse _ _ (vs_c _ VS) (vs_z _ VS))))).
  destruct (inv_t_near LA (c_chroma self) (c_j self) (kk_of (vc_n vc)) _ w t0 ds_j0 J fc pc (vs_kk _ VS) ds_w0 ds_c'0 ds_t0 (proj2 bt0)) as [NT PT].
  pose proof (inv_p2_near LA _ _ _ _ _ p0 (vs_aw _ VS) (vs_nbb _ VS) (vs_c _ VS) (vs_z _ VS) bp0 ds_j0) as N2.
  pose proof (inv_p1_rel LA _ _ (rad (c_hue self)) (vs_n_c _ VS) (vs_ncb _ VS) fh bh) as N1.
  destruct (la_trig _ _ LA (rad (c_hue self)) fh ltac:(lra)) as (fs & es & fo & eo). apply Rabs_le_inv in es. apply Rabs_le_inv in eo.
  assert (NC : near (cosf (rad (c_hue self))) (cos (B2R (rad (c_hue self)))) (1 / 10 ^ 13)) by (split; [exact fo|lra]).
  assert (NS : near (sinf (rad (c_hue self))) (sin (B2R (rad (c_hue self)))) (1 / 10 ^ 13)) by (split; [exact fs|lra]).
  clear fo fs eo es.
  destruct (resp_near _ p0 r th u t0 (B2R (rad (c_hue self))) ds_ref0 ds_cos0 ds_sin0 _ _ _ _ _ N1 N2 NT PT NC NS) as (A1 & A2 & A3).
  set (g := inv_gamma _ _ _ _ _) in *.
  apply back.
  - apply (unresp_back LA _ _ (cone_r x y z)); [exact (vs_fl _ VS)|exact (vs_d0 _ VS)|assumption|]. apply near_move with (1 := A1). lra.
  - apply (unresp_back LA _ _ (cone_g x y z)); [exact (vs_fl _ VS)|exact (vs_d1 _ VS)|assumption|]. apply near_move with (1 := A2). lra.
  - apply (unresp_back LA _ _ (cone_b x y z)); [exact (vs_fl _ VS)|exact (vs_d2 _ VS)|assumption|]. apply near_move with (1 := A3). lra.
Qed.
End Acc.
