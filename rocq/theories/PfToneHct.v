(** * The tone of what Hct, the setters, the blends and the palettes build.  Proof file. *)
From Coq Require Import ZArith Bool Reals Lra Lia Psatz String List.
From Flocq Require Import Core Relative IEEE754.BinarySingleNaN.
From Verif Require Import F64 MathUtils ColorUtils ViewingConditions Cam16 HctSolver Hct Palettes Spec SpecCam SpecTone SpecHct SpecPalette SpecTotal FloatFacts FloatMono PfArgb PfMath PfTones PfLab PfGamma PfLabTrip PfNear PfVc PfRel
  PfCamA PfCamB PfCamC PfCamD PfCamE PfCamF PfCamG PfCamH PfCamTrip PfCamProps PfHct PfPalettes PfToneProps PfToneRange PfTotal.
Open Scope string_scope.
Open Scope R_scope.

Section Acc.
Context {lm : Libm} (LA : libm_accurate (1 / 10 ^ 13) lm).

Lemma sized (s q : R) : 0 <= s -> s <= 1.5 -> 0 <= q <= 1 * 2600 -> s * (q + 2 / 10 ^ 9) <= 4000.
Proof using. intros a b c. apply Rle_trans with (1.5 * 2601); [apply Rmult_le_compat; lra|lra]. Qed.

Lemma cam_fields vc (argb : Z) cam : vc_std vc -> cam16_from_int_in argb vc = Ok cam -> fin (c_chroma cam) /\ 0 <= B2R (c_chroma cam) <= 4000.
Proof using LA.
  intros VS H. destruct (chan argb) as (h1 & h2 & h3). unfold cam16_from_int_in, xyz_from_argb in H. cbv zeta in H.
  set (cr := red_from_argb argb) in *. set (cg := green_from_argb argb) in *. set (cb := blue_from_argb argb) in *. clearbody cr cg cb. clear argb.
  pose proof (cones LA cr cg cb h1 h2 h3) as C. pose proof black_cones as BC.
  destruct (Z.eq_dec cr 0) as [e1|n1]; [destruct (Z.eq_dec cg 0) as [e2|n2]; [destruct (Z.eq_dec cb 0) as [e3|n3]|]|].
  { subst cr cg cb. destruct (matrix_multiply _ _) as [[x y] z]. change (v0 (x, y, z)) with x in H. change (v1 (x, y, z)) with y in H. change (v2 (x, y, z)) with z in H.
    pose proof (from_xyz_staged _ _ _ _ _ H) as S. cbv zeta in S. destruct BC as (z1 & z2 & z3).
    pose proof (resp_zero LA _ _ _ (vs_fl _ VS) (vs_d0 _ VS) z1) as Y1. pose proof (resp_zero LA _ _ _ (vs_fl _ VS) (vs_d1 _ VS) z2) as Y2. pose proof (resp_zero LA _ _ _ (vs_fl _ VS) (vs_d2 _ VS) z3) as Y3.
    set (r := resp _ _ (cone_r x y z)) in *. set (g := resp _ _ (cone_g x y z)) in *. set (b := resp _ _ (cone_b x y z)) in *. clearbody r g b.
    destruct (fw_zero LA vc r g b VS Y1 Y2 Y3) as (ZA & ZB & ZJ & ZC). destruct S as (HB & Eh & Ej & Ec & _).
    destruct (hue_near LA _ _ (proj1 ZA) (proj1 ZB) HB) as (th & _ & _ & Hh & _ & Hu & _).
    rewrite Ec. destruct (ZC _ (proj1 Hu) (proj2 Hu)) as [Z1 Z2]. split; [exact Z1|]. rewrite Z2. lra. }
  all: assert (some : (1 <= cr \/ 1 <= cg \/ 1 <= cb)%Z) by lia; clear BC.
  all: destruct (matrix_multiply _ _) as [[x y] z] eqn:E; change (v0 (x, y, z)) with x in H; change (v1 (x, y, z)) with y in H; change (v2 (x, y, z)) with z in H;
    pose proof (from_xyz_staged _ _ _ _ _ H) as S; cbv zeta in S; destruct C as (_ & (K1 & K2 & K3) & L & _); destruct (L some) as (L1 & L2 & L3);
    destruct (resp_fwd LA _ _ (cone_r x y z) (vs_fl _ VS) (vs_d0 _ VS) ltac:(destruct K1; split; [assumption|lra])) as (_ & A1 & R1);
    destruct (resp_fwd LA _ _ (cone_g x y z) (vs_fl _ VS) (vs_d1 _ VS) ltac:(destruct K2; split; [assumption|lra])) as (_ & A2 & R2);
    destruct (resp_fwd LA _ _ (cone_b x y z) (vs_fl _ VS) (vs_d2 _ VS) ltac:(destruct K3; split; [assumption|lra])) as (_ & A3 & R3);
    apply hyp_range in A1; apply hyp_range in A2; apply hyp_range in A3;
    set (r := resp _ _ (cone_r x y z)) in *; set (g := resp _ _ (cone_g x y z)) in *; set (b := resp _ _ (cone_b x y z)) in *; clearbody r g b;
    destruct S as (HB & Eh & Ej & Ec & _);
    pose proof (describe LA vc r g b _ _ _ VS ltac:(destruct R1; split; [assumption|lra]) ltac:(destruct R2; split; [assumption|lra]) ltac:(destruct R3; split; [assumption|lra])
      (near_weak _ _ _ (1 / 10 ^ 9) R1 ltac:(lra)) (near_weak _ _ _ (1 / 10 ^ 9) R2 ltac:(lra)) (near_weak _ _ _ (1 / 10 ^ 9) R3 ltac:(lra)) HB) as D;
    destruct D as (p0 & rho & th & u & t0 & w & J & JR & Bw & EJ & NJ & fc & pc & hc & _);
    rewrite Ec; split; [exact fc|]; split; [exact pc|]; apply Rle_trans with (1 := proj2 hc);
    destruct (vs_kk _ VS) as [_ bk]; assert (S2 : sqrt J <= 1.5) by (apply Rle_trans with (sqrt (1.5 * 1.5)); [apply sqrt_le_1_alt; lra|rewrite sqrt_square; lra]);
    pose proof (sqrt_pos J) as S0; assert (K : 0 <= B2R (kk_of (vc_n vc)) * w <= 1 * 2600) by (split; [apply Rmult_le_pos; lra|apply Rmult_le_compat; lra]);
    set (q := B2R (kk_of (vc_n vc)) * w) in *; clear - K S2 S0; clearbody q; apply sized; assumption.
Qed.

Lemma int_new argb : hct_from_int argb = hct_new argb.
Proof using. unfold hct_from_int. reflexivity. Qed.
Lemma int_argb h : hct_to_int h = h_argb h.
Proof using. unfold hct_to_int. reflexivity. Qed.

Lemma fin_between (x : f64) : fle (dec "0.0") x = true -> flt x (dec "360.0") = true -> fin x.
Proof using.
  intros r1 r2. destruct x as [s|[]| |s m e]; try reflexivity; exfalso; [revert r1|revert r2|revert r1]; vm_compute; discriminate.
Qed.
Lemma new_chroma argb h : hct_new argb = Ok h -> exists cam, cam16_from_int argb = Ok cam /\ h_chroma h = c_chroma cam.
Proof using.
  unfold hct_new. destruct (cam16_from_int argb) as [cam|]; cbn [bind]; intros E; [|discriminate E]. apply ok_inj in E. exists cam. split; [reflexivity|]. rewrite <- E. cbn [h_chroma]. reflexivity.
Qed.
Lemma fields argb h : hct_new argb = Ok h ->
  (fin (h_hue h) /\ 0 <= B2R (h_hue h) < 360) /\ (fin (h_chroma h) /\ 0 <= B2R (h_chroma h) <= 4000) /\
  (fin (h_tone h) /\ - (1 / 10 ^ 6) <= B2R (h_tone h) <= 100 + 1 / 10 ^ 6).
Proof using LA.
  intros E. destruct (new_hue_range argb h E) as [r1 r2]. split; [|split].
  - fconst (dec "0.0"). fconst (dec "360.0").
    assert (fh : fin (h_hue h)) by exact (fin_between _ r1 r2).
    split; [exact fh|]. apply (fle_fin _ _ F fh) in r1. apply (flt_fin _ _ fh F0) in r2. lra.
  - destruct (new_chroma argb h E) as (cam & EC & ->).
    destruct (from_int_vc LA argb cam EC) as (vc & _ & VS & EI). exact (cam_fields vc argb cam VS EI).
  - rewrite (new_tone argb h E). apply (lstar_range (1 / 10 ^ 13)); [lra|exact (la_pow _ _ LA)].
Qed.

Context (PS : pow_special lm) (PM : pow_monotone lm).

Lemma from_within (hue chroma t : f64) : fin hue -> fin chroma -> B2R chroma <= 10 ^ 9 -> fin t ->
  exists h, hct_from hue chroma t = Ok h /\ within 1 (h_tone h) (clamp_tone t).
Proof using LA PS PM. exact (from_tone_any LA PS PM hue chroma t). Qed.

Lemma clamp_near (t : f64) : - (1 / 10 ^ 6) <= B2R t <= 100 + 1 / 10 ^ 6 -> Rabs (clamp_tone t - B2R t) <= 1 / 10 ^ 6.
Proof using. intros b. unfold clamp_tone. apply Rabs_le. unfold Rmin, Rmax. repeat destruct (Rle_dec _ _); lra. Qed.

Lemma within_keep (x t : f64) : - (1 / 10 ^ 6) <= B2R t <= 100 + 1 / 10 ^ 6 -> within 1 x (clamp_tone t) -> within (1 + 1 / 10 ^ 6) x (B2R t).
Proof using.
  intros b [f w]. split; [exact f|]. pose proof (clamp_near t b) as c. pose proof (Rabs_le_inv _ _ w). pose proof (Rabs_le_inv _ _ c). apply Rabs_le. lra.
Qed.
Lemma clamp_in (t : f64) : 0 <= B2R t <= 100 -> clamp_tone t = B2R t.
Proof using. intros b. unfold clamp_tone. rewrite Rmax_right, Rmin_right; lra. Qed.

(** ** Setters *)
Lemma built argb h l h1 : hct_from_int argb = Ok h -> call_setters h l = Ok h1 -> hct_new (h_argb h1) = Ok h1.
Proof using.
  intros E H. assert (Q : (exists z, hct_from_int z = Ok h) \/ (exists a b c, hct_from a b c = Ok h)) by (left; exists argb; exact E).
  pose proof (history_from_any l h h1 Q H) as [B _]. rewrite int_new, int_argb in B. exact B.
Qed.
Lemma tone_set argb h l h1 (t : f64) : hct_from_int argb = Ok h -> call_setters h l = Ok h1 -> fin t ->
  exists h2, set_tone h1 t = Ok h2 /\ within 1 (h_tone h2) (clamp_tone t).
Proof using LA PS PM.
  intros E H ft. pose proof (built argb h l h1 E H) as B. destruct (fields _ _ B) as ((fh & _) & (fc & bc) & _). rewrite set_tone_eq. apply from_within; [exact fh|exact fc|lra|exact ft].
Qed.
Lemma tone_hue argb h l h1 (x : f64) : hct_from_int argb = Ok h -> call_setters h l = Ok h1 -> fin x ->
  exists h2, set_hue h1 x = Ok h2 /\ within (1 + 1 / 10 ^ 6) (h_tone h2) (B2R (h_tone h1)).
Proof using LA PS PM.
  intros E H fx. pose proof (built argb h l h1 E H) as B. destruct (fields _ _ B) as (_ & (fc & bc) & ft & bt). rewrite set_hue_eq.
  destruct (from_within x (h_chroma h1) (h_tone h1) fx fc ltac:(lra) ft) as (h2 & E2 & W). exists h2. split; [exact E2|]. exact (within_keep _ _ bt W).
Qed.
Lemma tone_chroma argb h l h1 (x : f64) : hct_from_int argb = Ok h -> call_setters h l = Ok h1 -> fin x -> B2R x <= 10 ^ 9 ->
  exists h2, set_chroma h1 x = Ok h2 /\ within (1 + 1 / 10 ^ 6) (h_tone h2) (B2R (h_tone h1)).
Proof using LA PS PM.
  intros E H fx bx. pose proof (built argb h l h1 E H) as B. destruct (fields _ _ B) as ((fh & _) & _ & ft & bt). rewrite set_chroma_eq.
  destruct (from_within (h_hue h1) x (h_tone h1) fh fx bx ft) as (h2 & E2 & W). exists h2. split; [exact E2|]. exact (within_keep _ _ bt W).
Qed.

(** ** Disliked colours and blends *)
Lemma fixed_tone argb h : hct_from_int argb = Ok h -> exists h', fix_if_disliked h = Ok h' /\
  (h' = h \/ within 1 (h_tone h') 70).
Proof using LA PS PM.
  intros E. rewrite int_new in E. destruct (fields _ _ E) as ((fh & _) & (fc & bc) & _). unfold fix_if_disliked. destruct (is_disliked h); [|exists h; split; [reflexivity|left; reflexivity]].
  fconst (dec "70.0"). destruct (from_within (h_hue h) (h_chroma h) (dec "70.0") fh fc ltac:(lra) F) as (h' & E' & W).
  rewrite clamp_in, V in W by lra. exists h'. split; [exact E'|right; exact W].
Qed.
Lemma new_of_from hue chroma t h : hct_from hue chroma t = Ok h -> lstar_from_argb (h_argb h) = h_tone h.
Proof using.
  unfold hct_from. destruct (solve_to_int hue chroma t) as [c|]; cbn [bind]; intros E; [|discriminate E]. rewrite (new_argb c h E). symmetry. exact (new_tone c h E).
Qed.
Lemma harmonize_tone d s r : harmonize d s = Ok r -> within (1 + 1 / 10 ^ 6) (lstar_from_argb r) (B2R (lstar_from_argb d)).
Proof using LA PS PM.
  intros E. destruct (harmonize_inv d s r E) as (dh & sh & h & E1 & E2 & E3 & E4).
  rewrite int_new in E1, E2. rewrite int_argb in E4. destruct (fields _ _ E1) as ((fh & bh) & (fc & bc) & ft & bt). destruct (fields _ _ E2) as ((fh2 & bh2) & _).
  destruct (harmonize_hue_ok _ _ fh fh2 bh bh2) as (fo & _). destruct (from_within _ _ _ fo fc ltac:(lra) ft) as (h' & E' & W).
  rewrite E3 in E'. apply ok_inj in E'. subst h'. rewrite <- E4. rewrite (new_of_from _ _ _ _ E3). rewrite <- (new_tone _ _ E1). exact (within_keep _ _ bt W).
Qed.
Lemma blend_tone a b t r : blend_hct_hue a b t = Ok r -> within (1 + 1 / 10 ^ 6) (lstar_from_argb r) (B2R (lstar_from_argb a)).
Proof using LA PS PM.
  intros E. destruct (hct_hue_inv a b t r E) as (u & hu & ha & h & _ & E1 & E2 & E3 & E4).
  rewrite int_new in E1, E2. rewrite int_argb in E4. destruct (fields _ _ E1) as ((fh & bh) & _). destruct (fields _ _ E2) as (_ & (fc & bc) & ft & bt).
  destruct (from_within _ _ _ fh fc ltac:(lra) ft) as (h' & E' & W).
  rewrite E3 in E'. apply ok_inj in E'. subst h'. rewrite <- E4. rewrite (new_of_from _ _ _ _ E3). rewrite <- (new_tone _ _ E2). exact (within_keep _ _ bt W).
Qed.

(** ** Palettes *)
Lemma int_tone (t : Z) : (0 <= t <= 100)%Z -> fin (of_Z t) /\ clamp_tone (of_Z t) = IZR t.
Proof using.
  intros b. destruct (of_Z_R t ltac:(lia)) as [V F]. split; [exact F|]. rewrite clamp_in, V; [reflexivity|]. rewrite V. split; apply IZR_le; lia.
Qed.
Lemma got_tone hue chroma (t c : Z) : fin hue -> fin chroma -> B2R chroma <= 10 ^ 9 -> (0 <= t <= 100)%Z ->
  rmap hct_to_int (hct_from hue chroma (of_Z t)) = Ok c -> within 1 (lstar_from_argb c) (IZR t).
Proof using LA PS PM.
  intros fh fc bc bt E. destruct (int_tone t bt) as [ft ct]. destruct (from_within hue chroma (of_Z t) fh fc bc ft) as (h & Eh & W). rewrite Eh in E. cbn [rmap] in E.
  apply ok_inj in E. subst c. rewrite int_argb, (new_of_from _ _ _ _ Eh). rewrite <- ct. exact W.
Qed.
Lemma got_ret hue chroma (t : Z) : returns (rmap hct_to_int (hct_from hue chroma (of_Z t))).
Proof using LA. apply ret_rmap. apply (from_ret LA). Qed.
Lemma of_tones hue chroma p ts p' (t : Z) : tp_of hue chroma = Ok p -> after_gets p ts = Ok p' -> fin hue -> fin chroma -> B2R chroma <= 10 ^ 9 -> (0 <= t <= 100)%Z ->
  exists c, rmap fst (tp_get p' t) = Ok c /\ within 1 (lstar_from_argb c) (IZR t).
Proof using LA PS PM.
  intros E H fh fc bc bt. rewrite (of_history hue chroma ts p p' t E H). destruct (got_ret hue chroma t) as [c Ec]. exists c. split; [exact Ec|]. exact (got_tone hue chroma t c fh fc bc bt Ec).
Qed.
Lemma hct_tones argb h ts p' (t : Z) : hct_from_int argb = Ok h -> after_gets (tp_from_hct h) ts = Ok p' -> (0 <= t <= 100)%Z ->
  exists c, rmap fst (tp_get p' t) = Ok c /\ within 1 (lstar_from_argb c) (IZR t).
Proof using LA PS PM.
  intros E H bt. rewrite int_new in E. destruct (fields _ _ E) as ((fh & _) & (fc & bc) & _). rewrite (from_hct_history h ts p' t H).
  destruct (got_ret (h_hue h) (h_chroma h) t) as [c Ec]. exists c. split; [exact Ec|]. apply (got_tone (h_hue h) (h_chroma h) t c fh fc ltac:(lra) bt Ec).
Qed.
End Acc.
