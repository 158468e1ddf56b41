(** * Hct::from delivers the requested tone.  Proof file. *)
From Coq Require Import ZArith Bool Reals Lra Lia Psatz String List.
From Flocq Require Import Core Relative IEEE754.BinarySingleNaN.
From Verif Require Import F64 Spec SpecCam SpecTone FloatFacts FloatMono MathUtils ColorUtils ViewingConditions Cam16 HctSolver Hct RefLibm PfMath PfLab PfTones PfNear PfGamma PfRel PfHct PfLimit PfNoPanic PfTonePlane PfToneVertex PfToneReal PfToneLin PfToneLoop PfToneInit PfToneVc PfToneCode PfToneEnd PfToneBudget PfCamProps PfCamG PfCamPanic PfTotal.
Open Scope string_scope.
Open Scope R_scope.

Lemma budget_flat w y : 16 / 116 <= w <= 1 -> cubish w (100 * y) -> budget w y 0.0001 0.000225.
Proof.
  intros hw cu. destruct (Rle_dec w 0.2070) as [lo|hi].
  - apply budget_low; try lra.
    assert (w ^ 3 <= 0.2070 ^ 3) by (apply cube_lt; lra). assert (TG : lin w <= w ^ 3) by (apply tangent; lra). destruct cu as [(u1 & u2)|(u1 & u2)]; lra.
  - apply Rnot_le_lt in hi. assert (W3 : w ^ 3 >= 0.2070 ^ 3) by (apply Rle_ge, cube_lt; lra). destruct cu as [(u1 & u2)|(u1 & u2)]; [|exfalso; unfold eR in *; lra].
    assert (Y : y <= w * w * w + 1 / 10 ^ 9) by (replace (w * w * w) with (w ^ 3) by ring; lra). clear u1 u2 W3.
    assert (PC : forall s, 0 < s -> 0.0001 + 0.002375 * ((w * w * w + 0.00147) * / s + s) + 0.000225 + 1 / 10 ^ 8 <= 0.0258 * (w * w) - 0.00022188 * w -> budget w y 0.0001 0.000225).
    { intros s hs H. exists s. split; [exact hs|]. cbv zeta. split; [intros h; lra|intros _].
      assert (IS : 0 < / s) by (apply Rinv_0_lt_compat; exact hs).
      assert ((y + 0.0001 + 0.000225 + 0.00114) / s <= (w * w * w + 0.00147) * / s) by (apply Rmult_le_compat_r; lra). lra. }
    assert (PB : forall a b, a <= w -> w <= b -> 0 <= (w - a) * (b - w) /\ 0 <= w * ((w - a) * (b - w)) /\ 0 <= (w - a) * (w - a)).
    { intros a b h1 h2. assert (0 <= (w - a) * (b - w)) by (apply Rmult_le_pos; lra). split; [assumption|]. split; [apply Rmult_le_pos; lra|apply Rle_0_sqr]. }
    destruct (Rle_dec w 0.3) as [h3|h3]; [apply (PC 0.12); [lra|]; pose proof (PB 0.207 0.3 ltac:(lra) ltac:(lra)) as (q1 & q2 & q3); clear PB PC; lra|apply Rnot_le_lt in h3].
    destruct (Rle_dec w 0.6) as [h6|h6]; [apply (PC 0.3); [lra|]; pose proof (PB 0.3 0.6 ltac:(lra) ltac:(lra)) as (q1 & q2 & q3); clear PB PC; lra|apply Rnot_le_lt in h6].
    apply (PC 0.8); [lra|]; pose proof (PB 0.6 1 ltac:(lra) ltac:(lra)) as (q1 & q2 & q3); clear PB PC; lra.
Qed.

Section Acc.
Context {lm : Libm} (LA : libm_accurate (1 / 10 ^ 13) lm).

Definition near_tone (t : f64) (c : Z) : Prop := fin (lstar_from_argb c) /\ B2R t - 1 <= B2R (lstar_from_argb c) <= B2R t + 1.

Lemma flat_tone (l : vec3) (t : f64) : vfin l -> (forall j, -0.0225 <= vR l j <= 100.0225) -> fin t -> 0 <= B2R t <= 100 ->
  -0.01 <= lum (vR l) - B2R (y_from_lstar t) <= 0.01 -> near_tone t (argb_from_linrgb l).
Proof using LA.
  intros fl bl ft bt hY. destruct (Y_R t ft ltac:(lra)) as [_ cu]. set (y := B2R (y_from_lstar t)) in *.
  destruct (budget_flat ((B2R t + 16) / 116) (y / 100) ltac:(lra)) as (s & hs & D1 & D2).
  { replace (100 * (y / 100)) with y by field. exact cu. }
  pose proof (bl 0%Z) as b0. pose proof (bl 1%Z) as b1. pose proof (bl 2%Z) as b2. unfold lum in hY.
  change (vR l 0) with (B2R (v0 l)) in *. change (vR l 1) with (B2R (v1 l)) in *. change (vR l 2) with (B2R (v2 l)) in *.
  apply (tone_close (la_pow _ _ LA) l t 0.000225 0.0001 s); try assumption; try (cbv zeta; fold y; lra); try lra; [apply (fl 0%Z)|apply (fl 1%Z)|apply (fl 2%Z)].
Qed.

Lemma grey_eq (t : f64) : argb_from_lstar t = argb_from_linrgb (y_from_lstar t, y_from_lstar t, y_from_lstar t).
Proof using. unfold argb_from_lstar, argb_from_linrgb, v0, v1, v2. cbv zeta. cbn [fst snd]. reflexivity. Qed.
Lemma grey_tone (t : f64) : fin t -> 0 <= B2R t <= 100 -> near_tone t (argb_from_lstar t).
Proof using LA.
  intros ft bt. rewrite grey_eq.
  destruct (Y_R t ft ltac:(lra)) as [fy cu]. set (y := y_from_lstar t) in *.
  assert (by_ : -0.001 <= B2R y <= 100.001).
  { set (w := (B2R t + 16) / 116) in *. assert (hw : 16 / 116 <= w <= 1) by (unfold w; lra). assert (TG : lin w <= w ^ 3) by (apply tangent; lra). assert (W1 : w ^ 3 <= 1 ^ 3) by (apply cube_lt; lra). assert (W3 : 0 <= w ^ 3) by (apply pow_le; lra).
    destruct cu as [(u1 & u2)|(u1 & u2)]; unfold lin, eR in *; lra. }
  assert (E : forall j, vget (y, y, y) j = y) by (intro j; rewrite vget_mk; destruct (j =? 0)%Z; [reflexivity|]; destruct (j =? 1)%Z; reflexivity).
  assert (EL : forall j, vR (y, y, y) j = B2R y) by (intro j; unfold vR; rewrite E; reflexivity).
  apply flat_tone; [intro j; rewrite E; exact fy|intro j; rewrite EL; lra|exact ft|exact bt|]. unfold lum. rewrite !EL. fold y. lra.
Qed.

Lemma rad_range (hue : f64) : fin hue -> let h := fmul (fdiv (sanitize_degrees_double hue) (dec "180.0")) PI64 in fin h /\ 0 <= B2R h <= 7.
Proof using.
  intros fh. destruct (sanitize_double hue fh) as (k & fs & bs & _). set (s := sanitize_degrees_double hue) in *. clearbody s. cbv zeta.
  destruct pi_float as (fp & _ & bp). set (p := PI64) in *. clearbody p. fconst (dec "180.0").
  destruct (fdiv_S s (dec "180.0") fs ltac:(rewrite V; lra)) as [E1 F1]; [rewrite V; fsmall|]. rewrite V in E1.
  assert (B1 : 0 <= B2R (fdiv s (dec "180.0")) <= 2).
  { rewrite E1. split; [apply rnd_ge_0; lra|]. apply (rnd_le_IZR _ 2); [lia|lra]. }
  set (d := fdiv s (dec "180.0")) in *. clearbody d.
  pose proof (mul_bnd (B2R d) (B2R p) 2 3.1416 ltac:(lra) ltac:(lra)) as M. assert (P : 0 <= B2R d * B2R p) by (apply Rmult_le_pos; lra).
  destruct (fmul_S d p F1 fp ltac:(fsmall)) as [E2 F2]. split; [exact F2|]. rewrite E2. split; [apply rnd_ge_0; lra|]. apply (rnd_le_IZR _ 7); [lia|lra].
Qed.

Lemma solve_tone (PS : pow_special lm) (hue chroma t : f64) : fin hue -> fin chroma -> B2R chroma <= 10 ^ 9 -> fin t -> 0 <= B2R t <= 100 ->
  exists c, solve_to_int hue chroma t = Ok c /\ near_tone t c.
Proof using LA.
  intros fh fc bc ft bt. unfold solve_to_int. destruct (flt chroma _ || flt t _ || fgt t _)%bool eqn:G; [eexists; split; [reflexivity|]; apply grey_tone; assumption|].
  apply orb_false_iff in G. destruct G as [G G3]. apply orb_false_iff in G. destruct G as [G1 G2]. unfold fgt in G3. change Bltb with flt in G3.
  fconst (dec "0.0001"). fconst (dec "99.9999"). apply (flt_fin_f _ _ fc F) in G1. apply (flt_fin_f _ _ ft F) in G2. apply (flt_fin_f _ _ F0 ft) in G3. rewrite V in G1, G2. rewrite V0 in G3.
  destruct (rad_range hue fh) as [fr br]. cbv zeta in fr, br |- *. set (h := fmul (fdiv (sanitize_degrees_double hue) (dec "180.0")) PI64) in *. clearbody h.
  destruct (Y_R t ft ltac:(lra)) as [fy cu].
  assert (by_ : 1.1 / 10 ^ 5 <= B2R (y_from_lstar t) <= 99.9999).
  { set (y := B2R (y_from_lstar t)) in *. set (w := (B2R t + 16) / 116) in *. assert (hw : 16.00009 / 116 <= w <= 115.99991 / 116) by (unfold w; lra). assert (TG : lin w <= w ^ 3) by (apply tangent; lra). assert (W1 : w ^ 3 <= (115.99991 / 116) ^ 3) by (apply cube_lt; lra).
    assert (W2 : 100 * lin w >= 1.105 / 10 ^ 5) by (unfold lin, w; lra). clearbody w y.
    destruct cu as [(u1 & u2)|(u1 & u2)]; lra. }
  destruct (find_result_by_j h chroma (y_from_lstar t)) as [c|] eqn:EF.
  2: { exfalso. revert EF. unfold find_result_by_j. destruct (PfHct.s_rgb_ok) as [vc ->]. cbn [bind]. discriminate. }
  cbn [bind]. destruct (Z.eqb_spec c 0) as [z|z]; cbn [negb].
  - destruct (limit_plane (1 / 10 ^ 13) ltac:(lra) (la_pow _ _ LA) (y_from_lstar t) h fy ltac:(lra)) as (v & -> & fv & rv & lv). cbn [bind].
    eexists; split; [reflexivity|]. apply flat_tone; [exact fv|intro j; specialize (rv j); lra|exact ft|exact bt|lra].
  - eexists; split; [reflexivity|]. destruct (find_out LA PS h chroma _ c fr br fc ltac:(lra) fy ltac:(lra) EF z) as (vc & _ & _ & O). exact (exact_tone (la_pow _ _ LA) t _ _ _ _ _ _ c ft ltac:(lra) O).
Qed.

Lemma new_tone c h : hct_new c = Ok h -> h_tone h = lstar_from_argb c.
Proof using.
  unfold hct_new. destruct (cam16_from_int c) as [cam|]; cbn [bind]; intros E; [|discriminate E]. apply ok_inj in E. rewrite <- E. cbn [h_tone]. reflexivity.
Qed.

Lemma from_tone (PS : pow_special lm) (hue chroma t : f64) : fin hue -> fin chroma -> B2R chroma <= 10 ^ 9 -> fin t -> 0 <= B2R t <= 100 ->
  exists h, hct_from hue chroma t = Ok h /\ fin (h_tone h) /\ B2R t - 1 <= B2R (h_tone h) <= B2R t + 1.
Proof using LA.
  intros fh fc bc ft bt. destruct (solve_tone PS hue chroma t fh fc bc ft bt) as (c & E & N). unfold hct_from. rewrite E. cbn [bind].
  destruct (new_ret LA c) as [h Eh]. exists h. split; [exact Eh|]. rewrite (new_tone c h Eh). exact N.
Qed.
End Acc.
