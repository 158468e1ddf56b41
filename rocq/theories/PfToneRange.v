(** * The tone delivered for any finite request, and the libm hypotheses are met.  Proof file. *)
From Coq Require Import ZArith Bool Reals Lra Lia Psatz String List.
From Flocq Require Import Core Relative IEEE754.BinarySingleNaN.
From Verif Require Import F64 Spec SpecCam SpecTone FloatFacts FloatMono MathUtils ColorUtils ViewingConditions Cam16 HctSolver Hct RefLibm PfMath PfContrast PfDelin PfHct PfToneProps PfTotal.
Open Scope string_scope.
Open Scope R_scope.

Lemma ref_pow_special : pow_special ref_libm.
Proof.
  intros x y nx mx fy py. change (powf x y) with (ref_pow x y). fconst (dec "0.0").
  destruct x as [s|[]| |s m e]; try discriminate nx; [exfalso; apply mx; reflexivity| |].
  - unfold ref_pow. replace (flt (dec "0.0") (B754_infinity false)) with true by (symmetry; vm_compute; reflexivity).
    assert (L : flt (dec "0.0") y = true) by (apply (flt_fin _ _ F fy); rewrite V; exact py).
    destruct y as [s|s| |s m e]; try discriminate fy; [|rewrite L; reflexivity]. exfalso. cbn [B2R] in py. lra.
  - unfold ref_pow. replace (flt (dec "0.0") (@B754_nan 53 1024)) with false by (symmetry; vm_compute; reflexivity).
    replace (feq (@B754_nan 53 1024) (dec "0.0")) with false by (symmetry; vm_compute; reflexivity). reflexivity.
Qed.

Section Acc.
Context {lm : Libm} (LA : libm_accurate (1 / 10 ^ 13) lm) (PS : pow_special lm) (PM : pow_monotone lm).

Lemma solve_tone_any (hue chroma t : f64) : fin hue -> fin chroma -> B2R chroma <= 10 ^ 9 -> fin t ->
  exists c, solve_to_int hue chroma t = Ok c /\ fin (lstar_from_argb c) /\
    Rabs (B2R (lstar_from_argb c) - Rmin 100 (Rmax 0 (B2R t))) <= 1.
Proof using LA PS PM.
  intros fh fc bc ft. destruct (Rlt_or_le (B2R t) 0) as [lo|lo]; [|destruct (Rlt_or_le 100 (B2R t)) as [hi|hi]].
  - exists (argb_from_lstar t). fconst (dec "0.0001"). fconst (dec "0.0"). split.
    { unfold solve_to_int. assert (L : flt t (dec "0.0001") = true) by (apply (flt_fin _ _ ft F); lra). rewrite L. rewrite orb_true_r. cbn [orb]. reflexivity. }
    rewrite (black t) by (apply (fle_fin _ _ ft F0); lra). rewrite lstar_of_black. split; [exact F0|]. rewrite V0.
    rewrite Rmax_left, Rmin_right by lra. apply Rabs_le. lra.
  - exists (argb_from_lstar t). fconst (dec "99.9999"). fconst (dec "100.0"). split.
    { unfold solve_to_int. assert (L : fgt t (dec "99.9999") = true) by (apply (flt_fin _ _ F ft); lra). rewrite L. rewrite orb_true_r. reflexivity. }
    assert (W : argb_from_lstar t = argb_from_lstar (dec "100.0")).
    { assert (hi' : 0 <= 1 / 10 ^ 13 <= 1 / 10 ^ 5) by lra. rewrite (white _ hi' (la_pow _ _ LA) PM t), (white _ hi' (la_pow _ _ LA) PM (dec "100.0")); [reflexivity|apply (fle_fin _ _ F0 F0)|apply (fle_fin _ _ F0 ft)]; lra. }
    rewrite W. destruct (grey_tone LA (dec "100.0") F0 ltac:(lra)) as [G1 G2]. split; [exact G1|].
    rewrite Rmax_right, Rmin_left by lra. apply Rabs_le. lra.
  - destruct (solve_tone LA PS hue chroma t fh fc bc ft ltac:(lra)) as (c & E & N1 & N2). exists c. split; [exact E|]. split; [exact N1|].
    rewrite Rmax_right, Rmin_right by lra. apply Rabs_le. lra.
Qed.

Lemma from_tone_any (hue chroma t : f64) : fin hue -> fin chroma -> B2R chroma <= 10 ^ 9 -> fin t ->
  exists h, hct_from hue chroma t = Ok h /\ fin (h_tone h) /\ Rabs (B2R (h_tone h) - Rmin 100 (Rmax 0 (B2R t))) <= 1.
Proof using LA PS PM.
  intros fh fc bc ft. destruct (solve_tone_any hue chroma t fh fc bc ft) as (c & E & N). unfold hct_from. rewrite E. cbn [bind].
  destruct (new_ret LA c) as [h Eh]. exists h. split; [exact Eh|]. rewrite (new_tone c h Eh). exact N.
Qed.
End Acc.
