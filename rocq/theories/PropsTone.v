(** * Property theorems: the tone asked for is the tone delivered, for every accurate libm (SpecCam.v, SpecTone.v).

    [within d x r]: the float [x] is finite and at most [d] from the real [r]; [clamp_tone t]: the requested tone, brought
    into 0..100.  The tone of a colour is its L* ([lstar_from_argb]). *)
From Coq Require Import ZArith Bool Reals Lra List String.
From Flocq Require Import Core IEEE754.BinarySingleNaN.
From Verif Require Import F64 ColorUtils Hct Palettes Spec SpecCam SpecTone SpecHct SpecPalette FloatFacts RefLibm PfCamProps PfToneRange PfToneHct PfTotal.
Import ListNotations.
Open Scope string_scope.
Open Scope R_scope.

(** A correctly rounded libm meets the hypotheses of all theorems here. *)
Example C78_libm_case : libm_accurate (1 / 10 ^ 13) ref_libm /\ pow_special ref_libm /\ pow_monotone ref_libm.
Proof. exact (conj ref_13 (conj ref_pow_special ref_pow_monotone)). Qed.

(** C78 *)
Theorem C78_from : forall lm : Libm, libm_accurate (1 / 10 ^ 13) lm -> pow_special lm -> pow_monotone lm ->
  forall hue chroma tone : f64, is_finite hue = true -> is_finite chroma = true -> B2R chroma <= 10 ^ 9 -> is_finite tone = true ->
  exists h, hct_from hue chroma tone = Ok h /\ within 1 (h_tone h) (clamp_tone tone).
Proof. exact (fun lm LA PS PM => from_within LA PS PM). Qed.
Print Assumptions C78_from.
(** A vivid red at tone 50: no red is that vivid there, and the tone is still right. *)
Example C78_from_case : exists h, @hct_from ref_libm (dec "25.0") (dec "200.0") (dec "50.0") = Ok h /\ is_finite (h_tone h) = true /\ 49 <= B2R (h_tone h) <= 51.
Proof.
  fconst (dec "25.0"). fconst (dec "200.0"). fconst (dec "50.0").
  destruct (C78_from ref_libm ref_13 ref_pow_special ref_pow_monotone (dec "25.0") (dec "200.0") (dec "50.0") F F0 ltac:(lra) F1) as (h & E & f & w).
  exists h. split; [exact E|]. split; [exact f|]. rewrite clamp_in in w by lra. apply Rabs_le_inv in w. lra.
Qed.

(** A palette serves the tone it is asked for, whatever was asked before. *)
Theorem C78_palette_of : forall lm : Libm, libm_accurate (1 / 10 ^ 13) lm -> pow_special lm -> pow_monotone lm ->
  forall (hue chroma : f64) (p : tonal_palette) (before : list Z) (p' : tonal_palette) (tone : Z),
  tp_of hue chroma = Ok p -> after_gets p before = Ok p' ->
  is_finite hue = true -> is_finite chroma = true -> B2R chroma <= 10 ^ 9 -> (0 <= tone <= 100)%Z ->
  exists c, rmap fst (tp_get p' tone) = Ok c /\ within 1 (lstar_from_argb c) (IZR tone).
Proof. exact (fun lm LA PS PM => of_tones LA PS PM). Qed.
Print Assumptions C78_palette_of.

Theorem C78_palette_from_hct : forall lm : Libm, libm_accurate (1 / 10 ^ 13) lm -> pow_special lm -> pow_monotone lm ->
  forall (argb : Z) (h : hct) (before : list Z) (p' : tonal_palette) (tone : Z),
  hct_from_int argb = Ok h -> after_gets (tp_from_hct h) before = Ok p' -> (0 <= tone <= 100)%Z ->
  exists c, rmap fst (tp_get p' tone) = Ok c /\ within 1 (lstar_from_argb c) (IZR tone).
Proof. exact (fun lm LA PS PM => hct_tones LA PS PM). Qed.
Print Assumptions C78_palette_from_hct.
Example C78_palette_case : exists h c, @hct_from_int ref_libm 0xFF3366CC = Ok h /\
  rmap fst (@tp_get ref_libm (tp_from_hct h) 40) = Ok c /\ within 1 (@lstar_from_argb ref_libm c) 40.
Proof.
  destruct (new_ret ref_13 0xFF3366CC) as [h E]. assert (E' : @hct_from_int ref_libm 0xFF3366CC = Ok h) by (rewrite int_new; exact E).
  assert (B : (0 <= 40 <= 100)%Z) by (split; discriminate).
  destruct (C78_palette_from_hct ref_libm ref_13 ref_pow_special ref_pow_monotone 0xFF3366CC h [] (tp_from_hct h) 40 E' eq_refl B) as (c & Ec & W).
  exists h, c. split; [exact E'|]. split; [exact Ec|exact W].
Qed.

(** C79.  [h1] is any value reached from a colour by any calls of the setters, [NaN] arguments included. *)
Theorem C79_set_tone : forall lm : Libm, libm_accurate (1 / 10 ^ 13) lm -> pow_special lm -> pow_monotone lm ->
  forall (argb : Z) (h : hct) (calls : list setter) (h1 : hct) (t : f64),
  hct_from_int argb = Ok h -> call_setters h calls = Ok h1 -> is_finite t = true ->
  exists h2, set_tone h1 t = Ok h2 /\ within 1 (h_tone h2) (clamp_tone t).
Proof. exact (fun lm LA PS PM => tone_set LA PS PM). Qed.
Print Assumptions C79_set_tone.

Theorem C79_set_hue_keeps_the_tone : forall lm : Libm, libm_accurate (1 / 10 ^ 13) lm -> pow_special lm -> pow_monotone lm ->
  forall (argb : Z) (h : hct) (calls : list setter) (h1 : hct) (x : f64),
  hct_from_int argb = Ok h -> call_setters h calls = Ok h1 -> is_finite x = true ->
  exists h2, set_hue h1 x = Ok h2 /\ within (1 + 1 / 10 ^ 6) (h_tone h2) (B2R (h_tone h1)).
Proof. exact (fun lm LA PS PM => tone_hue LA PS PM). Qed.
Print Assumptions C79_set_hue_keeps_the_tone.

Theorem C79_set_chroma_keeps_the_tone : forall lm : Libm, libm_accurate (1 / 10 ^ 13) lm -> pow_special lm -> pow_monotone lm ->
  forall (argb : Z) (h : hct) (calls : list setter) (h1 : hct) (x : f64),
  hct_from_int argb = Ok h -> call_setters h calls = Ok h1 -> is_finite x = true -> B2R x <= 10 ^ 9 ->
  exists h2, set_chroma h1 x = Ok h2 /\ within (1 + 1 / 10 ^ 6) (h_tone h2) (B2R (h_tone h1)).
Proof. exact (fun lm LA PS PM => tone_chroma LA PS PM). Qed.
Print Assumptions C79_set_chroma_keeps_the_tone.
Example C79_case : exists h h1, @hct_from_int ref_libm 0xFF3366CC = Ok h /\
  @call_setters ref_libm h [SetHue (dec "120.0"); SetTone B754_nan; SetChroma (dec "300.0")] = Ok h1.
Proof.
  destruct (new_ret ref_13 0xFF3366CC) as [h E]. assert (E' : @hct_from_int ref_libm 0xFF3366CC = Ok h) by (rewrite int_new; exact E).
  destruct (setters_ret ref_13 [SetHue (dec "120.0"); SetTone B754_nan; SetChroma (dec "300.0")] h) as [h1 E1]. exists h, h1. split; [exact E'|exact E1].
Qed.

(** A disliked colour is moved to tone 70, any other is returned unchanged. *)
Theorem C79_fix_if_disliked : forall lm : Libm, libm_accurate (1 / 10 ^ 13) lm -> pow_special lm -> pow_monotone lm ->
  forall (argb : Z) (h : hct), hct_from_int argb = Ok h ->
  exists h', fix_if_disliked h = Ok h' /\ (h' = h \/ within 1 (h_tone h') 70).
Proof. exact (fun lm LA PS PM => fixed_tone LA PS PM). Qed.
Print Assumptions C79_fix_if_disliked.

(** Blending towards another hue, by any amount, keeps the lightness. *)
Theorem C79_harmonize_keeps_the_tone : forall lm : Libm, libm_accurate (1 / 10 ^ 13) lm -> pow_special lm -> pow_monotone lm ->
  forall design source r : Z, harmonize design source = Ok r ->
  within (1 + 1 / 10 ^ 6) (lstar_from_argb r) (B2R (lstar_from_argb design)).
Proof. exact (fun lm LA PS PM => harmonize_tone LA PS PM). Qed.
Print Assumptions C79_harmonize_keeps_the_tone.

Theorem C79_hct_hue_keeps_the_tone : forall lm : Libm, libm_accurate (1 / 10 ^ 13) lm -> pow_special lm -> pow_monotone lm ->
  forall (from to : Z) (amount : f64) (r : Z), blend_hct_hue from to amount = Ok r ->
  within (1 + 1 / 10 ^ 6) (lstar_from_argb r) (B2R (lstar_from_argb from)).
Proof. exact (fun lm LA PS PM => blend_tone LA PS PM). Qed.
Print Assumptions C79_hct_hue_keeps_the_tone.
Example C79_blend_case : exists r r', @harmonize ref_libm 0xFFFF0000 0xFF0000FF = Ok r /\ @blend_hct_hue ref_libm 0xFFFF0000 0xFF0000FF (dec "0.8") = Ok r'.
Proof. destruct (harmonize_ret ref_13 0xFFFF0000 0xFF0000FF) as [r E], (blend_hue_ret ref_13 0xFFFF0000 0xFF0000FF (dec "0.8")) as [r' E']. exists r, r'. split; [exact E|exact E']. Qed.
