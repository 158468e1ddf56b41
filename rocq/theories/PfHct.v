(** * Proofs about Hct, the solver, viewing conditions, blending and dislike analysis. Proof file. *)
From Coq Require Import ZArith Bool Reals Lra Lia Psatz String List.
From Flocq Require Import Core IEEE754.BinarySingleNaN.
From Verif Require Import F64 MathUtils ColorUtils ViewingConditions Cam16 HctSolver Hct Spec FloatFacts FloatMono PfArgb PfMath PfColor PfContrast.
Import ListNotations.
Open Scope Z_scope.

(** ** Monad *)
Lemma bind_ok {A B} (x : res A) (f : A -> res B) b : bind x f = Ok b -> exists a, x = Ok a /\ f a = Ok b.
Proof. destruct x; cbn; [|discriminate]. intros h. now exists a. Qed.
Lemma bind_Ok {A B} (a : A) (f : A -> res B) : bind (Ok a) f = f a.
Proof. reflexivity. Qed.
Lemma ok_inj {A} (a b : A) : Ok a = Ok b -> a = b.
Proof. intros h. now injection h. Qed.
Ltac inj h := apply ok_inj in h; subst.
Tactic Notation "inv_bind" ident(h) ident(a) ident(e) :=
  apply bind_ok in h; destruct h as (a & e & h).

Section AnyLibm.
Context {lm : Libm}.

(** ** Viewing conditions *)
Lemma s_rgb_ok : exists vc, s_rgb = Ok vc.
Proof.
  unfold s_rgb, make. cbn [unwrap_or].
  set (wp := [v0 white_point_d65; v1 white_point_d65; v2 white_point_d65]).
  change (index wp 0) with (Ok (v0 white_point_d65)). change (index wp 1) with (Ok (v1 white_point_d65)).
  change (index wp 2) with (Ok (v2 white_point_d65)). cbn [bind].
  assert (E : (fge (dec "2.0") (dec "0.0") && fle (dec "2.0") (dec "2.0"))%bool = true) by (vm_compute; reflexivity).
  rewrite E. cbn [negb]. eexists. reflexivity.
Qed.

(** ** The solver *)
Lemma j_loop_range n vc t p s c ch y j :
  j_loop n vc t p s c ch y j = 0 \/ opaque (j_loop n vc t p s c ch y j).
Proof.
  revert j. induction n as [|n IH]; intros j; [now left|]. cbn [j_loop]. cbv zeta.
  destruct (_ || _ || _)%bool; [now left|]. destruct (fle _ _); [now left|].
  destruct (_ || _)%bool; [|apply IH]. destruct (_ || _ || _)%bool; [now left|].
  right. apply linrgb_opaque.
Qed.

Lemma find_range h c y r : find_result_by_j h c y = Ok r -> r = 0 \/ opaque r.
Proof. unfold find_result_by_j. intros E. inv_bind E vc Q. inj E. apply j_loop_range. Qed.

Lemma finish_opaque (x : Z) (k : res Z) r : (x = 0 \/ opaque x) -> (k = Ok r -> opaque r) ->
  (if negb (x =? 0) then Ok x else k) = Ok r -> opaque r.
Proof.
  intros Q K. destruct (Z.eqb_spec x 0); cbn [negb]; [apply K|].
  intros E. inj E. destruct Q; [contradiction|assumption].
Qed.
Lemma limit_opaque (k : res vec3) r : bind k (fun v => Ok (argb_from_linrgb v)) = Ok r -> opaque r.
Proof. intros E. inv_bind E v Q. inj E. apply linrgb_opaque. Qed.
Lemma solve_opaque h c t r : solve_to_int h c t = Ok r -> opaque r.
Proof.
  unfold solve_to_int. destruct (_ || _)%bool.
  - intros E. inj E. apply lstar_opaque.
  - intros E. apply bind_ok in E. destruct E as (x & Q & E). apply find_range in Q.
    revert E. apply (finish_opaque x _ r Q). apply limit_opaque.
Qed.

Definition degenerate (chroma tone : f64) : bool :=
  (flt chroma (dec "0.0001") || flt tone (dec "0.0001") || flt (dec "99.9999") tone)%bool.
Lemma solve_degenerate h c t :
  (flt c (dec "0.0001") || flt t (dec "0.0001") || flt (dec "99.9999") t)%bool = true ->
  solve_to_int h c t = Ok (argb_from_lstar t).
Proof. intros D. unfold solve_to_int, fgt. change Bltb with flt in *. now rewrite D. Qed.

(** ** Hct *)
Definition coherent (h : hct) : Prop := hct_from_int (hct_to_int h) = Ok h.

Lemma new_argb z h : hct_new z = Ok h -> h_argb h = z.
Proof. unfold hct_new. intros E. inv_bind E c Q. inj E. reflexivity. Qed.
Lemma new_coherent z h : hct_new z = Ok h -> coherent h.
Proof. intros E. unfold coherent, hct_from_int, hct_to_int. rewrite (new_argb z h E). assumption. Qed.
Lemma from_coherent a b c h : hct_from a b c = Ok h -> coherent h /\ opaque (h_argb h).
Proof.
  unfold hct_from. intros E. inv_bind E z Q. split; [eapply new_coherent; eassumption|].
  rewrite (new_argb z h E). eapply solve_opaque; eassumption.
Qed.
Lemma set_hue_eq s x : set_hue s x = hct_from x (h_chroma s) (h_tone s). Proof. unfold set_hue, hct_from, hct_new. reflexivity. Qed.
Lemma set_chroma_eq s x : set_chroma s x = hct_from (h_hue s) x (h_tone s). Proof. unfold set_chroma, hct_from, hct_new. reflexivity. Qed.
Lemma set_tone_eq s x : set_tone s x = hct_from (h_hue s) (h_chroma s) x. Proof. unfold set_tone, hct_from, hct_new. reflexivity. Qed.

Lemma guard_hue (hue : f64) (c cam : cam16) : c_hue c = hue -> (if negb (fge hue (dec "0.0") && flt hue (dec "360.0")) then Panic else Ok c) = Ok cam ->
  fle (dec "0.0") (c_hue cam) = true /\ flt (c_hue cam) (dec "360.0") = true.
Proof.
  intros H E. destruct (fge hue (dec "0.0")) eqn:A; [|discriminate E]. destruct (flt hue (dec "360.0")) eqn:B; [|discriminate E]. inj E. split; [exact A|exact B].
Qed.
Lemma xyz_hue x y z vc cam : cam16_from_xyz x y z vc = Ok cam -> fle (dec "0.0") (c_hue cam) = true /\ flt (c_hue cam) (dec "360.0") = true.
Proof.
  unfold cam16_from_xyz. cbv zeta. set (hu := hue_of_ab _ _). clearbody hu. apply guard_hue. reflexivity.
Qed.
Lemma from_int_def z : cam16_from_int z = bind s_rgb (fun vc => cam16_from_int_in z vc).
Proof. unfold cam16_from_int. reflexivity. Qed.
Lemma new_hue_range z h : hct_new z = Ok h -> fle (dec "0.0") (h_hue h) = true /\ flt (h_hue h) (dec "360.0") = true.
Proof.
  unfold hct_new. intros E. inv_bind E cam Q. inj E. cbn [h_hue]. rewrite from_int_def in Q. destruct s_rgb as [vc|]; [|discriminate Q].
  rewrite bind_Ok in Q. unfold cam16_from_int_in in Q. exact (xyz_hue _ _ _ _ _ Q).
Qed.

Lemma from_degenerate hue c t :
  (flt c (dec "0.0001") || flt t (dec "0.0001") || flt (dec "99.9999") t)%bool = true ->
  hct_from hue c t = hct_from_int (argb_from_lstar t).
Proof. intros D. unfold hct_from, hct_from_int. now rewrite solve_degenerate. Qed.

(** ** Blending *)
Lemma harmonize_inv d s r : harmonize d s = Ok r ->
  exists dh hs h, hct_from_int d = Ok dh /\ hct_from_int s = Ok hs /\
    hct_from (harmonize_hue (h_hue dh) (h_hue hs)) (h_chroma dh) (h_tone dh) = Ok h /\ hct_to_int h = r.
Proof.
  unfold harmonize. intros E. inv_bind E dh Q1. inv_bind E hs Q2. inv_bind E h Q3. inj E.
  exists dh, hs, h. repeat split; assumption.
Qed.
Lemma cam_to_int_opaque c r : cam16_to_int c = Ok r -> opaque r.
Proof. unfold cam16_to_int. intros E. inv_bind E vc Q. inj E. unfold cam16_viewed. apply xyz_opaque. Qed.
Lemma ucs_opaque a b t r : blend_cam16_ucs a b t = Ok r -> opaque r.
Proof.
  unfold blend_cam16_ucs. intros E. inv_bind E c1 Q1. inv_bind E c2 Q2. inv_bind E c3 Q3.
  eapply cam_to_int_opaque; eassumption.
Qed.
Lemma hct_hue_inv a b t r : blend_hct_hue a b t = Ok r ->
  exists u hu ha h, blend_cam16_ucs a b t = Ok u /\ hct_from_int u = Ok hu /\ hct_from_int a = Ok ha /\
    hct_from (h_hue hu) (h_chroma ha) (h_tone ha) = Ok h /\ hct_to_int h = r.
Proof.
  unfold blend_hct_hue. intros E. inv_bind E u Q1. inv_bind E c1 Q2. inv_bind E c2 Q3. inv_bind E h Q4. inj E.
  exists u. unfold hct_from_int, hct_new. rewrite Q2, Q3, !bind_Ok.
  do 3 eexists. repeat split; try reflexivity; try eassumption.
Qed.
End AnyLibm.

Open Scope R_scope.
Lemma half_ulp_1024 r : Rabs r <= 1000 -> Rabs (rnd r - r) <= bpow radix2 (-44).
Proof.
  intros h. unfold rnd.
  eapply Rle_trans; [apply error_le_half_ulp; apply vexp64|].
  replace (bpow radix2 (-44)) with (/ 2 * bpow radix2 (-43)) by (simpl; lra).
  apply Rmult_le_compat_l; [lra|].
  apply Rle_trans with (ulp radix2 fexp64 1000).
  - apply ulp_le; [apply vexp64|apply mexp64|]. rewrite (Rabs_pos_eq 1000) by lra. lra.
  - rewrite ulp_neq_0 by lra. apply bpow_le. unfold cexp.
    rewrite (mag_unique_pos radix2 1000 10); [reflexivity|]. simpl. lra.
Qed.

(** The hue requested by [harmonize], described without the angle helpers. *)
Lemma harmonize_hue_ok from to : fin from -> fin to -> 0 <= B2R from < 360 -> 0 <= B2R to < 360 ->
  fin (harmonize_hue from to) /\ 0 <= B2R (harmonize_hue from to) <= 360 /\
  exists (D s : R) (k k' : Z), 0 <= D <= 180 /\ (s = 1 \/ s = -1) /\
    Rabs (B2R to - (B2R from + s * D - 360 * IZR k)) <= bpow radix2 (-40) /\
    Rabs (B2R (harmonize_hue from to) - (B2R from + s * Rmin (D / 2) 15 - 360 * IZR k')) <= bpow radix2 (-40).
Proof.
  intros f1 f2 h1 h2. unfold harmonize_hue.
  destruct (difference_range from to f1 f2 ltac:(lra) ltac:(lra)) as (FD & BD & _ & AD).
  set (d := difference_degrees from to) in *. clearbody d.
  fconst (dec "0.5"). fconst (dec "15.0").
  destruct (fmul_S d (dec "0.5") FD F ltac:(rewrite V; fsmall)) as [M FM]. rewrite V in M.
  assert (BM : 0 <= rnd (B2R d * (1 / 2)) <= 90).
  { split; [apply rnd_ge_0; lra|apply (rnd_le_IZR _ 90); [lia|lra]]. }
  pose proof (half_ulp_1024 (B2R d * (1 / 2)) ltac:(rewrite Rabs_pos_eq by lra; lra)) as EM.
  set (m := fmul d (dec "0.5")) in *. rewrite <- M in *.
  set (rot := fmin m (dec "15.0")).
  assert (R : fin rot /\ B2R rot = Rmin (B2R m) 15).
  { unfold rot, fmin. rewrite (fin_not_nan _ FM), (fin_not_nan _ F0).
    destruct (flt (dec "15.0") m) eqn:L.
    - apply flt_fin in L; try assumption. split; [assumption|]. rewrite Rmin_right; lra.
    - apply flt_fin_f in L; try assumption. split; [assumption|]. rewrite Rmin_left; lra. }
  destruct R as [FR R]. clearbody rot.
  assert (BR : 0 <= B2R rot <= 15) by (rewrite R; unfold Rmin; destruct (Rle_dec _ _); lra).
  set (p := fadd from (fmul rot (rotation_direction from to))).
  set (c40 := bpow radix2 (-40)) in *. assert (P40 : 0 < c40) by apply bpow_gt_0.
  assert (E43 : bpow radix2 (-43) = c40 / 8) by (unfold c40; simpl; lra).
  assert (E44 : bpow radix2 (-44) = c40 / 16) by (unfold c40; simpl; lra).
  assert (E45 : bpow radix2 (-45) = c40 / 32) by (unfold c40; simpl; lra).
  assert (S40 : c40 <= 1 / 1000) by (unfold c40; simpl; lra).
  rewrite E43 in AD. rewrite E44 in EM.
  destruct (rotation_arc from to f1 f2 h1 h2) as (A1 & A2 & A3 & A4). fold c40 in A3, A4.
  assert (X : exists s, (s = 1 \/ s = -1) /\ fin p /\ Rabs (B2R p - (B2R from + s * B2R rot)) <= c40 / 16 /\
    (s = 1 -> rotation_direction from to = dec "1.0") /\ (s = -1 -> rotation_direction from to = dec "-1.0")).
  { destruct (rotation_pm1 from to) as [Q|Q]; unfold p; rewrite Q; clear A1 A2 A3 A4 p.
    - exists 1. fconst (dec "1.0"). destruct (fmul_S rot (dec "1.0") FR F1 ltac:(rewrite V1; fsmall)) as [MM FMM].
      rewrite V1, Rmult_1_r, rnd_B2R in MM. destruct (fadd_S from _ f1 FMM ltac:(rewrite MM; fsmall)) as [AA FAA].
      split; [now left|]. split; [exact FAA|]. split; [|split; [reflexivity|intros; lra]].
      rewrite AA, MM, Rmult_1_l, <- E44. apply half_ulp_1024. rewrite Rabs_pos_eq by lra. lra.
    - exists (-1). fconst (dec "-1.0"). destruct (fmul_S rot (dec "-1.0") FR F1 ltac:(rewrite V1; fsmall)) as [MM FMM].
      rewrite V1 in MM. replace (B2R rot * - (1)) with (- B2R rot) in MM by lra. rewrite rnd_opp, rnd_B2R in MM.
      destruct (fadd_S from _ f1 FMM ltac:(rewrite MM; fsmall)) as [AA FAA].
      split; [now right|]. split; [exact FAA|]. split; [|split; [intros; lra|reflexivity]].
      rewrite AA, MM, <- E44.
      replace (-1 * B2R rot) with (- B2R rot) by lra. apply half_ulp_1024. apply Rabs_le. lra. }
  destruct X as (s & Hs & FP & EP & S1 & S2).
  destruct (sanitize_double p FP) as (k' & FS & BS & _ & ES). rewrite E45 in ES.
  split; [assumption|]. split; [assumption|].
  (* D is the arc in direction s, capped at 180 *)
  set (dl := B2R to - B2R from) in *.
  assert (Y : exists D k, 0 <= D <= 180 /\ Rabs (B2R to - (B2R from + s * D - 360 * IZR k)) <= c40 /\
     Rabs (D - B2R d) <= c40 + c40 / 8).
  { assert (DM : forall z, Rmin (Rabs (B2R from - B2R to)) (360 - Rabs (B2R from - B2R to)) = z ->
       Rabs (B2R d - z) <= c40 / 8) by (intros z <-; exact AD).
    apply Rabs_le_inv in AD. assert (N : dec "1.0" <> dec "-1.0").
    { intros q. fconst (dec "1.0"). fconst (dec "-1.0"). rewrite q in V1. lra. }
    assert (C : dl <= -180 \/ -180 < dl < -180 + c40 \/ -180 + c40 <= dl < 0 \/ 0 <= dl <= 180 \/
                180 < dl < 180 + c40 \/ 180 + c40 <= dl) by lra.
    assert (AB : Rabs (B2R from - B2R to) = Rabs dl) by (unfold dl; now rewrite Rabs_minus_sym).
    rewrite AB in DM.
    destruct C as [C|[C|[C|[C|[C|C]]]]].
    - specialize (A2 C). destruct Hs as [->| ->]; [|specialize (S2 eq_refl); congruence].
      exists (dl + 360), 1%Z. split; [unfold dl in *; lra|]. split; [apply Rabs_le; unfold dl; lra|].
      specialize (DM (dl + 360)). rewrite (Rabs_left dl), Rmin_right in DM by lra.
      specialize (DM ltac:(lra)). apply Rabs_le_inv in DM. apply Rabs_le. lra.
    - specialize (DM (- dl)). rewrite (Rabs_left dl), Rmin_left in DM by lra.
      specialize (DM ltac:(lra)). apply Rabs_le_inv in DM. exists 180.
      destruct Hs as [->| ->].
      + exists 1%Z. split; [lra|]. split; apply Rabs_le; unfold dl in *; lra.
      + exists 0%Z. split; [lra|]. split; apply Rabs_le; unfold dl in *; lra.
    - specialize (A4 C). destruct Hs as [->| ->]; [specialize (S1 eq_refl); congruence|].
      exists (- dl), 0%Z. split; [lra|]. split; [apply Rabs_le; unfold dl; lra|].
      specialize (DM (- dl)). rewrite (Rabs_left dl), Rmin_left in DM by lra.
      specialize (DM ltac:(lra)). apply Rabs_le_inv in DM. apply Rabs_le. lra.
    - specialize (A1 C). destruct Hs as [->| ->]; [|specialize (S2 eq_refl); congruence].
      exists dl, 0%Z. split; [lra|]. split; [apply Rabs_le; unfold dl; lra|].
      specialize (DM dl). rewrite (Rabs_pos_eq dl), Rmin_left in DM by lra.
      specialize (DM ltac:(lra)). apply Rabs_le_inv in DM. apply Rabs_le. lra.
    - specialize (DM (360 - dl)). rewrite (Rabs_pos_eq dl), Rmin_right in DM by lra.
      specialize (DM ltac:(lra)). apply Rabs_le_inv in DM. exists 180.
      destruct Hs as [->| ->].
      + exists 0%Z. split; [lra|]. split; apply Rabs_le; unfold dl in *; lra.
      + exists (-1)%Z. split; [lra|]. split; apply Rabs_le; unfold dl in *; lra.
    - specialize (A3 C). destruct Hs as [->| ->]; [specialize (S1 eq_refl); congruence|].
      exists (360 - dl), (-1)%Z. split; [unfold dl in *; lra|]. split; [apply Rabs_le; unfold dl; lra|].
      specialize (DM (360 - dl)). rewrite (Rabs_pos_eq dl), Rmin_right in DM by lra.
      specialize (DM ltac:(lra)). apply Rabs_le_inv in DM. apply Rabs_le. lra. }
  destruct Y as (D & k & BDD & EDD & DD).
  exists D, s, k, k'. split; [assumption|]. split; [assumption|]. split; [assumption|].
  apply Rabs_le_inv in DD, EP, ES, EM.
  assert (RM : Rabs (B2R rot - Rmin (D / 2) 15) <= c40 * (5 / 8)).
  { rewrite R. apply Rabs_le. unfold Rmin. destruct (Rle_dec (B2R m) 15), (Rle_dec (D / 2) 15); lra. }
  apply Rabs_le_inv in RM. apply Rabs_le. destruct Hs as [->| ->]; lra.
Qed.

Lemma harmonize_same h : fin h -> 0 <= B2R h < 360 -> B2R (harmonize_hue h h) = B2R h.
Proof.
  intros f b. unfold harmonize_hue.
  destruct (difference_range h h f f ltac:(lra) ltac:(lra)) as (FD & _ & Z & _). specialize (Z eq_refl).
  set (d := difference_degrees h h) in *. clearbody d. fconst (dec "0.5"). fconst (dec "15.0").
  destruct (fmul_S d (dec "0.5") FD F ltac:(rewrite V, Z; fsmall)) as [M FM]. rewrite Z, Rmult_0_l, rnd_0 in M.
  unfold fmin. rewrite (fin_not_nan _ FM), (fin_not_nan _ F0).
  assert (L : flt (dec "15.0") (fmul d (dec "0.5")) = false) by (apply flt_fin_f; try assumption; lra).
  rewrite L. set (m := fmul d (dec "0.5")) in *. clearbody m.
  assert (Q : fin (fmul m (rotation_direction h h)) /\ B2R (fmul m (rotation_direction h h)) = 0).
  { destruct (rotation_pm1 h h) as [-> | ->].
    - fconst (dec "1.0"). destruct (fmul_S m (dec "1.0") FM F1 ltac:(rewrite M; fsmall)) as [A B].
      split; [assumption|]. rewrite A, M, Rmult_0_l. apply rnd_0.
    - fconst (dec "-1.0"). destruct (fmul_S m (dec "-1.0") FM F1 ltac:(rewrite M; fsmall)) as [A B].
      split; [assumption|]. rewrite A, M, Rmult_0_l. apply rnd_0. }
  destruct Q as [FQ Q]. destruct (fadd_S h _ f FQ ltac:(rewrite Q; fsmall)) as [A FA].
  rewrite Q, Rplus_0_r, rnd_B2R in A. rewrite sanitize_small; try assumption; now rewrite A.
Qed.

(** ** Rounded comparisons *)
Lemma fround_le (x c : f64) n : is_nan x = false -> fin c -> B2R c = IZR n -> (0 <= n <= 1000)%Z ->
  (fle (fround x) c = true <-> val x < IZR n + / 2).
Proof.
  intros nx fc vc pn. pose proof (fround_nn x nx) as nr. pose proof (fin_not_nan _ fc) as ncc.
  rewrite fle_val by assumption. rewrite (val_fin c), vc by assumption.
  destruct (is_finite x) eqn:F.
  - destruct (fround_R x F) as [R FR]. rewrite !val_fin, R by assumption.
    pose proof (ZnearestA_ge (n + 1) (B2R x) ltac:(lia)) as G. rewrite plus_IZR in G. split; intros h.
    + apply le_IZR in h. destruct (Rlt_or_le (B2R x) (IZR n + / 2)) as [|c']; [assumption|].
      assert (n + 1 <= ZnearestA (B2R x))%Z by (apply G; lra). lia.
    + apply IZR_le. destruct (Z.le_gt_cases (ZnearestA (B2R x)) n) as [|c']; [assumption|].
      assert (n + 1 <= ZnearestA (B2R x))%Z as H by lia. apply G in H. lra.
  - pose proof BIG_pos as P. pose proof (B2R_BIG c) as Q. rewrite vc in Q.
    assert (0 <= IZR n) by (apply (IZR_le 0); lia). assert (IZR n <= 1000) by (apply (IZR_le _ 1000); lia).
    fconst (of_Z 2000). pose proof (B2R_BIG (of_Z 2000)) as W. rewrite V in W.
    destruct x as [|[]| |]; try discriminate.
    + change (fround (B754_infinity true)) with (B754_infinity true : f64). cbn [val]. lra.
    + change (fround (B754_infinity false)) with (B754_infinity false : f64). cbn [val]. split; lra.
Qed.
Lemma fround_gt (x c : f64) n : is_nan x = false -> fin c -> B2R c = IZR n -> (0 <= n <= 1000)%Z ->
  (flt c (fround x) = true <-> IZR n + / 2 <= val x).
Proof.
  intros nx fc vc pn. pose proof (fround_le x c n nx fc vc pn) as G.
  pose proof (fround_nn x nx) as nr. pose proof (fin_not_nan _ fc) as ncc.
  rewrite flt_val by assumption. rewrite fle_val in G by assumption. lra.
Qed.

(** ** Dislike analysis *)
Lemma disliked_iff h : is_nan (h_hue h) = false -> is_nan (h_chroma h) = false -> is_nan (h_tone h) = false ->
  (is_disliked h = true <->
   (fle (dec "89.5") (h_hue h) = true /\ flt (h_hue h) (dec "111.5") = true) /\
   fle (dec "16.5") (h_chroma h) = true /\ flt (h_tone h) (dec "64.5") = true).
Proof.
  intros n1 n2 n3. unfold is_disliked, fge, fgt. change Bltb with flt. change Bleb with fle. cbv zeta.
  fconst (dec "90.0"). fconst (dec "111.0"). fconst (dec "16.0"). fconst (dec "65.0").
  fconst (dec "89.5"). fconst (dec "111.5"). fconst (dec "16.5"). fconst (dec "64.5").
  rewrite !andb_true_iff.
  rewrite (fround_ge _ (dec "90.0") 90 n1 F V ltac:(lia)).
  rewrite (fround_le _ (dec "111.0") 111 n1 F0 V0 ltac:(lia)).
  rewrite (fround_gt _ (dec "16.0") 16 n2 F1 V1 ltac:(lia)).
  rewrite (fround_lt _ (dec "65.0") 65 n3 F2 V2 ltac:(lia)).
  pose proof (fin_not_nan _ F3). pose proof (fin_not_nan _ F4). pose proof (fin_not_nan _ F5). pose proof (fin_not_nan _ F6).
  rewrite !flt_val, !fle_val by assumption.
  rewrite (val_fin (dec "89.5")), (val_fin (dec "111.5")), (val_fin (dec "16.5")), (val_fin (dec "64.5")) by assumption.
  rewrite V3, V4, V5, V6. lra.
Qed.
Lemma fround_nan (x : f64) : is_nan x = true -> fround x = B754_nan.
Proof. destruct x; try discriminate. reflexivity. Qed.
Lemma disliked_nan h : is_nan (h_hue h) = true \/ is_nan (h_chroma h) = true \/ is_nan (h_tone h) = true ->
  is_disliked h = false.
Proof.
  intros h1. unfold is_disliked. cbv zeta. destruct h1 as [q|[q|q]]; rewrite (fround_nan _ q).
  - reflexivity.
  - rewrite andb_false_iff. left. apply andb_false_r.
  - apply andb_false_r.
Qed.

(** ** Blending at amount zero *)
Lemma mix_0 (x y : f64) : fin x -> fin (fsub y x) -> 
  fin (fadd x (fmul (fsub y x) (dec "0.0"))) /\ B2R (fadd x (fmul (fsub y x) (dec "0.0"))) = B2R x.
Proof.
  intros fx fd. fconst (dec "0.0").
  destruct (fmul_S (fsub y x) (dec "0.0") fd F ltac:(rewrite V, Rmult_0_r; fsmall)) as [M FM].
  rewrite V, Rmult_0_r, rnd_0 in M.
  destruct (fadd_val x _ fx FM) as [A N]. rewrite M, Rplus_0_r, rndx_B2R in A.
  assert (FA : fin (fadd x (fmul (fsub y x) (dec "0.0")))) by (apply (val_fin_iff _ N); rewrite A; apply B2R_BIG).
  split; [assumption|]. now rewrite val_fin in A.
Qed.

Lemma ucs_0 {lm : Libm} a b ca cb : cam16_from_int a = Ok ca -> cam16_from_int b = Ok cb ->
  fin (c_jstar ca) -> fin (c_astar ca) -> fin (c_bstar ca) ->
  fin (fsub (c_jstar cb) (c_jstar ca)) -> fin (fsub (c_astar cb) (c_astar ca)) -> fin (fsub (c_bstar cb) (c_bstar ca)) ->
  exists j' a' b', blend_cam16_ucs a b (dec "0.0") = bind (cam16_from_ucs j' a' b') cam16_to_int /\
    (fin j' /\ B2R j' = B2R (c_jstar ca)) /\ (fin a' /\ B2R a' = B2R (c_astar ca)) /\
    (fin b' /\ B2R b' = B2R (c_bstar ca)).
Proof.
  intros E1 E2 f1 f2 f3 g1 g2 g3. unfold blend_cam16_ucs. rewrite E1, bind_Ok, E2, bind_Ok. cbv beta zeta.
  do 3 eexists. split; [reflexivity|]. repeat split; now apply mix_0.
Qed.

(** ** Setter histories *)
From Verif Require Import SpecHct.
Section Histories.
Context {lm : Libm}.
Lemma call_from h s h' : call_setter h s = Ok h' -> exists a b c, hct_from a b c = Ok h'.
Proof.
  destruct s; cbn [call_setter]; rewrite ?set_hue_eq, ?set_chroma_eq, ?set_tone_eq; intros E;
    do 3 eexists; exact E.
Qed.
Lemma history_coherent l : forall h h', coherent h -> call_setters h l = Ok h' ->
  coherent h' /\ (l <> [] -> opaque (hct_to_int h')).
Proof.
  induction l as [|s l IH]; intros h h' C; cbn [call_setters].
  - intros E. inj E. split; [assumption|congruence].
  - intros E. inv_bind E h1 Q. destruct (call_from _ _ _ Q) as (a & b & c & F).
    destruct (from_coherent _ _ _ _ F) as [C1 O1].
    destruct (IH h1 h' C1 E) as [C' O']. split; [assumption|]. intros _.
    destruct l as [|s' l']; [cbn [call_setters] in E; inj E; assumption|]. apply O'. discriminate.
Qed.
Lemma from_int_new z : hct_from_int z = hct_new z.
Proof. unfold hct_from_int. reflexivity. Qed.
Lemma history_from_any l h h' :
  (exists z, hct_from_int z = Ok h) \/ (exists a b c, hct_from a b c = Ok h) ->
  call_setters h l = Ok h' ->
  hct_from_int (hct_to_int h') = Ok h' /\ (l <> [] -> opaque (hct_to_int h')).
Proof.
  intros [(z & E)|(a & b & c & E)]; apply history_coherent.
  - rewrite from_int_new in E. exact (new_coherent _ _ E).
  - now apply (from_coherent _ _ _ _ E).
Qed.
Lemma eqb_iff a b : hct_eqb a b = true <-> hct_to_int a = hct_to_int b.
Proof. unfold hct_eqb, hct_to_int. rewrite Z.eqb_eq. split; congruence. Qed.
Lemma eq_all_fields z1 z2 a b : hct_from_int z1 = Ok a -> hct_from_int z2 = Ok b ->
  hct_eqb a b = true -> a = b.
Proof.
  intros E1 E2 h. apply eqb_iff in h. unfold hct_to_int in h.
  rewrite from_int_new in E1, E2. rewrite (new_argb _ _ E1), (new_argb _ _ E2) in h. subst z2. apply ok_inj. exact (eq_trans (eq_sym E1) E2).
Qed.
Lemma eqb_equiv (a b c : hct) : hct_eqb a a = true /\ (hct_eqb a b = hct_eqb b a) /\
  (hct_eqb a b = true -> hct_eqb b c = true -> hct_eqb a c = true) /\
  (hct_eqb a b = true -> hct_hash a = hct_hash b).
Proof.
  unfold hct_eqb, hct_hash. split; [apply Z.eqb_refl|]. split; [apply Z.eqb_sym|].
  rewrite !Z.eqb_eq. split; congruence.
Qed.
Lemma fix_liked h : is_disliked h = false -> fix_if_disliked h = Ok h.
Proof. intros E. unfold fix_if_disliked. now rewrite E. Qed.
Lemma fix_disliked h : is_disliked h = true -> fix_if_disliked h = hct_from (h_hue h) (h_chroma h) (dec "70.0").
Proof. intros E. unfold fix_if_disliked. now rewrite E. Qed.
End Histories.
Lemma harmonize_full {lm : Libm} d s r : harmonize d s = Ok r ->
  exists dh sh h, hct_from_int d = Ok dh /\ hct_from_int s = Ok sh /\
    hct_from (harmonize_hue (h_hue dh) (h_hue sh)) (h_chroma dh) (h_tone dh) = Ok h /\ hct_to_int h = r /\ opaque r.
Proof.
  intros E. destruct (harmonize_inv _ _ _ E) as (dh & sh & h & A & B & C & D). exists dh, sh, h.
  split; [assumption|]. split; [assumption|]. split; [assumption|]. split; [assumption|].
  rewrite <- D. now apply (from_coherent _ _ _ _ C).
Qed.
Lemma hct_hue_opaque {lm : Libm} a b t r : blend_hct_hue a b t = Ok r -> opaque r.
Proof.
  intros E. destruct (hct_hue_inv _ _ _ _ E) as (u & hu & ha & h & _ & _ & _ & C & D).
  rewrite <- D. now apply (from_coherent _ _ _ _ C).
Qed.
