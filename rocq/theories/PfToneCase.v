(** * Helper lemmas and concrete cases for PropsToneContrast.  Proof file. *)
From Coq Require Import ZArith Bool Reals Lra Lia String List.
From Flocq Require Import Core IEEE754.BinarySingleNaN.
From Verif Require Import F64 MathUtils ColorUtils Contrast Cam16 Hct Palettes LegacyScheme Temperature DynamicScheme DynamicColor MaterialDynamicColors Schemes
  Spec SpecCam SpecPalette SpecScheme SpecTemperature SpecTotal SpecToneRoles FloatFacts FloatMono PfMath RefLibm PfTemperature PfPalettes PfToneHct PfToneRange PfToneContrast PfToneScheme PfToneDynamic PfTotal PfCamProps PfWarm PfDelin PfContrast PfHct PfToneProps PfCamB PfCamG.
From Verif Require Import SpecTones SpecTone.
Import ListNotations.
Open Scope string_scope.
Open Scope list_scope.
Open Scope R_scope.

Section Acc.
Context {lm : Libm} (LA : libm_accurate (1 / 10 ^ 13) lm) (PS : pow_special lm) (PM : pow_monotone lm).

Lemma requested (hue1 chroma1 s hue2 chroma2 t : f64) :
  is_finite hue1 = true -> is_finite chroma1 = true -> B2R chroma1 <= 10 ^ 9 -> is_finite s = true ->
  is_finite hue2 = true -> is_finite chroma2 = true -> B2R chroma2 <= 10 ^ 9 -> is_finite t = true ->
  exists a b, hct_from hue1 chroma1 s = Ok a /\ hct_from hue2 chroma2 t = Ok b /\
    0.92 * B2R (ratio_of_tones s t) <= B2R (ratio_of_tones (h_tone a) (h_tone b)) /\
    (41 <= Rabs (clamp_tone s - clamp_tone t) -> 3 <= B2R (ratio_of_tones (h_tone a) (h_tone b))) /\
    (52 <= Rabs (clamp_tone s - clamp_tone t) -> 4.5 <= B2R (ratio_of_tones (h_tone a) (h_tone b))).
Proof using LA PS PM.
  intros f1 f2 b1 fs f3 f4 b2 ft. destruct (from_within LA PS PM hue1 chroma1 s f1 f2 b1 fs) as (a & Ea & Wa). destruct (from_within LA PS PM hue2 chroma2 t f3 f4 b2 ft) as (b & Eb & Wb).
  exists a, b. split; [exact Ea|]. split; [exact Eb|]. split; [exact (kept _ _ _ _ Wa Wb fs ft)|]. exact (apart _ _ _ _ Wa Wb fs ft).
Qed.
Lemma palettes_apart (hue1 chroma1 hue2 chroma2 : f64) (p q p' q' : tonal_palette) (reads1 reads2 : list Z) (i j : Z) :
  is_finite hue1 = true -> is_finite chroma1 = true -> B2R chroma1 <= 10 ^ 9 ->
  is_finite hue2 = true -> is_finite chroma2 = true -> B2R chroma2 <= 10 ^ 9 ->
  tp_of hue1 chroma1 = Ok p -> after_gets p reads1 = Ok p' -> tp_of hue2 chroma2 = Ok q -> after_gets q reads2 = Ok q' ->
  (0 <= i <= 100)%Z -> (0 <= j <= 100)%Z ->
  exists c d, rmap fst (tp_get p' i) = Ok c /\ rmap fst (tp_get q' j) = Ok d /\
    ((41 <= Z.abs (i - j))%Z -> 3 <= B2R (ratio_of_tones (lstar_from_argb c) (lstar_from_argb d))) /\
    ((52 <= Z.abs (i - j))%Z -> 4.5 <= B2R (ratio_of_tones (lstar_from_argb c) (lstar_from_argb d))).
Proof using LA PS PM.
  intros f1 f2 b1 f3 f4 b2 Ep Ep' Eq Eq' bi bj.
  destruct (of_tones LA PS PM hue1 chroma1 p reads1 p' i Ep Ep' f1 f2 b1 bi) as (c & Ec & Wc). destruct (of_tones LA PS PM hue2 chroma2 q reads2 q' j Eq Eq' f3 f4 b2 bj) as (d & Ed & Wd).
  exists c, d. split; [exact Ec|]. split; [exact Ed|]. destruct (int_tone i bi) as [fi ci]. destruct (int_tone j bj) as [fj cj].
  rewrite <- ci in Wc. rewrite <- cj in Wd. pose proof (apart _ _ _ _ Wc Wd fi fj) as [A B]. rewrite ci, cj, <- minus_IZR, <- abs_IZR in A, B.
  split; intros g; [apply A|apply B]; apply IZR_le; exact g.
Qed.
Lemma complement_both (argb : Z) (h a : hct) (c : temp_cache) : hct_from_int argb = Ok h -> get_complement (tc_new h) = Ok (a, c) ->
  (exists k, (0 <= k < 360)%Z /\ on_wheel h k a) /\ within (1 + 1 / 10 ^ 6) (h_tone a) (B2R (h_tone h)).
Proof using LA PS PM. intros E C. split; [exact (complement_wheel h a c C)|exact (complement_tone LA PS PM argb h a c E C)]. Qed.
End Acc.

Lemma requested_case : exists a b, @hct_from ref_libm (dec "27.0") (dec "200.0") (dec "40.0") = Ok a /\ @hct_from ref_libm (dec "140.0") (dec "90.0") (dec "95.0") = Ok b /\
  4.5 <= B2R (ratio_of_tones (h_tone a) (h_tone b)).
Proof.
  fconst (dec "27.0"). fconst (dec "200.0"). fconst (dec "40.0"). fconst (dec "140.0"). fconst (dec "90.0"). fconst (dec "95.0").
  destruct (@requested ref_libm ref_13 ref_pow_special ref_pow_monotone (dec "27.0") (dec "200.0") (dec "40.0") (dec "140.0") (dec "90.0") (dec "95.0") F F0 ltac:(lra) F1 F2 F3 ltac:(lra) F4)
    as (a & b & Ea & Eb & _ & _ & H). exists a, b. split; [exact Ea|]. split; [exact Eb|]. apply H. rewrite !clamp_in by lra. rewrite V1, V4. rewrite Rabs_left; lra.
Qed.
Lemma palettes_case : exists p p', @tp_of ref_libm (dec "270.0") (dec "36.0") = Ok p /\ @after_gets ref_libm p [10%Z; 90%Z; 10%Z] = Ok p'.
Proof. destruct (@tp_ret ref_libm ref_13 (dec "270.0") (dec "36.0")) as [p E]. destruct (@gets_ret ref_libm ref_13 [10%Z; 90%Z; 10%Z] p) as [p' E']. exists p, p'. split; assumption. Qed.
Lemma legacy_case : exists s s', @scheme_light ref_libm 0xFF6750A4 = Ok s /\ @scheme_dark_content ref_libm 0xFFFFFF00 = Ok s'.
Proof.
  destruct (proj1 (@legacy_ret ref_libm ref_13 0xFF6750A4)) as [s E]. destruct (proj2 (proj2 (proj2 (@legacy_ret ref_libm ref_13 0xFFFFFF00)))) as [s' E'].
  exists s, s'. split; assumption.
Qed.
Lemma int_ret {lm : Libm} (LA : libm_accurate (1 / 10 ^ 13) lm) argb : returns (hct_from_int argb).
Proof. rewrite int_new. apply (new_ret LA). Qed.
Lemma dynamic_case : exists source s, @hct_from_int ref_libm 0xFF4285F4 = Ok source /\
  @construct ref_libm TonalSpot source true (dec "0.5") = Ok s /\ fixed_tones s /\ @pow_defined ref_libm.
Proof.
  destruct (@int_ret ref_libm ref_13 0xFF4285F4) as [h E]. destruct (@seven_ret ref_libm ref_13 TonalSpot h true (dec "0.5") ltac:(discriminate) ltac:(discriminate)) as [s B].
  exists h, s. split; [exact E|]. split; [exact B|]. split; [exact (spot_fixed _ _ _ _ B)|exact ref_pow_defined].
Qed.
Lemma analogous_case : exists h l c, @hct_from_int ref_libm 0xFFFFFF00 = Ok h /\ count_fits (Some 7%Z) /\ @analogous ref_libm (tc_new h) (Some 7%Z) None = Ok (l, c).
Proof.
  destruct (@int_ret ref_libm ref_13 0xFFFFFF00) as [h E]. assert (CF : count_fits (Some 7%Z)) by (unfold count_fits; cbn; lia).
  destruct (@analogous_returns ref_libm 0xFFFFFF00 h (Some 7%Z) None E (@wheel_always ref_libm ref_13 h) (@yellow_early ref_libm ref_13 h E) CF) as (l & c & A).
  exists h, l, c. split; [exact E|]. split; [exact CF|exact A].
Qed.

(** Black: every colour of its wheel is black, its hue is 0, and its complement is black. *)
Lemma black_hue h : @hct_from_int ref_libm 0xFF000000 = Ok h -> fin (h_hue h) /\ B2R (h_hue h) = 0.
Proof.
  intros E. rewrite (@black_early ref_libm ref_13 h E). set (z := B754_zero false : f64).
  assert (fz : fin z) by reflexivity. destruct (la_atan2 _ _ ref_13 z z fz fz) as (fA & _).
  assert (VA : B2R (@atan2f ref_libm z z) = 0).
  { rewrite <- (val_fin _ fA). cbn [atan2f ref_libm]. cbn [is_nan orb z]. destruct (R2f_val (real_atan2 (val z) (val z))) as [_ ->]. 
    assert (e : real_atan2 (val z) (val z) = 0). { unfold real_atan2. rewrite (val_fin z fz). change (B2R z) with 0. rewrite Rlt_bool_false; [reflexivity|lra]. }
    rewrite e, rndx_small; [apply round_0; apply valid_rnd_N|]. rewrite Rabs_R0. apply bpow_ge_0. }
  unfold hue_of_ab. cbv zeta. set (A := @atan2f ref_libm z z) in *. clearbody A. clear E h fz.
  destruct pi_float as (fp & _ & bp).
  fconst (dec "180.0"). fconst (dec "0.0"). fconst (dec "360.0").
  destruct (fmul_S A (dec "180.0") fA F ltac:(rewrite VA, V; fsmall)) as [E1 f1]. rewrite VA, Rmult_0_l in E1. rewrite rnd_0 in E1.
  destruct (fdiv_S _ PI64 f1 ltac:(lra) ltac:(rewrite E1; unfold Rdiv; rewrite Rmult_0_l; fsmall)) as [E2 f2]. rewrite E1 in E2. unfold Rdiv in E2. rewrite Rmult_0_l, rnd_0 in E2.
  set (d := (A * dec "180.0" / PI64)%f) in *. clearbody d.
  assert (C1 : flt d (dec "0.0") = false) by (apply (flt_fin_f d _ f2 F0); lra).
  assert (C2 : fge d (dec "360.0") = false) by (unfold fge; change Bleb with fle; apply (fle_fin_f _ d F1 f2); lra).
  rewrite C1, C2. split; [exact f2|exact E2].
Qed.
Lemma black_turn (u : f64) k : fin u -> B2R u = 0 -> (0 <= k < 360)%Z -> fle (dec "359.5") (sanitize_degrees_double (fadd u (of_Z k))) = false.
Proof.
  intros fu e bk. destruct (of_Z_R k ltac:(lia)) as [Vk Fk]. fconst (dec "359.5").
  assert (bk' : 0 <= IZR k <= 359) by (split; apply IZR_le; lia).
  destruct (fadd_S u (of_Z k) fu Fk ltac:(rewrite e, Vk; fsmall)) as [E f]. rewrite e, Vk, Rplus_0_l in E. rewrite rnd_IZR in E by lia. pose proof (sanitize_small _ f ltac:(lra)) as SS. destruct (sanitize_double _ f) as (q & fs & _).
  apply (fle_fin_f _ _ F fs). lra.
Qed.
#[local] Existing Instance ref_libm.
Lemma black_complement : exists h a c, @hct_from_int ref_libm 0xFF000000 = Ok h /\ @get_complement ref_libm (tc_new h) = Ok (a, c).
Proof.
  destruct (@int_ret ref_libm ref_13 0xFF000000) as [h E]. destruct (black_hue h E) as [fh eh].
  assert (T : h_tone h = dec "0.0"). { pose proof E as E'. rewrite int_new in E'. rewrite (new_tone _ _ E'). exact lstar_of_black. }
  assert (O : forall k, @on_wheel ref_libm h k h).
  { apply wheel_degenerate; rewrite T.
    - assert (Q : flt (dec "0.0") (dec "0.0001") = true) by (vm_compute; reflexivity). rewrite Q, orb_true_r. reflexivity.
    - rewrite black by (vm_compute; reflexivity). exact E. }
  destruct (wheel_exists h (fun k _ => ex_intro _ h (O k))) as (W & HW).
  assert (ALL : forall x, In x (all h W) -> x = h).
  { intros x I. apply (in_all h W x HW) in I. destruct I as [->|(k & _ & Q)]; [reflexivity|]. specialize (O k). unfold on_wheel in O, Q. rewrite O in Q. now apply ok_inj in Q. }
  pose proof (ALL _ (cold_in h W HW)) as EC. pose proof (ALL _ (hot_in h W HW)) as EW.
  exists h. destruct (get_complement (tc_new h)) as [[a c]|] eqn:G; [exists a, c; split; [exact E|reflexivity]|]. exfalso.
  rewrite (complement_iff 0xFF000000 h (cold h W) (hot h W) (mk h W 3 (dec "-1.0") None) (mk h W 3 (dec "-1.0") None) E) in G.
  - cbv zeta in G. rewrite EC, EW in G. assert (S : forall b : bool, (if b then h else h) = h) by (intros []; reflexivity). rewrite !S in G. destruct G as [G|(k & bk & _ & G)].
    + fconst (dec "359.5"). apply (fle_fin _ _ F fh) in G. lra.
    + rewrite (black_turn _ k fh eh bk) in G. discriminate G.
  - rewrite (new_fresh h W). apply (coldest_mk h W HW). lia.
  - rewrite (new_fresh h W). apply (warmest_mk h W HW). lia.
Qed.
