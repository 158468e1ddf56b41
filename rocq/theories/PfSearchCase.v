(** * Cases for the tones of constructed schemes.  Proof file. *)
From Coq Require Import ZArith Bool Reals Lra Lia String List.
From Flocq Require Import Core IEEE754.BinarySingleNaN.
From Verif Require Import F64 MathUtils ColorUtils Contrast ViewingConditions Cam16 HctSolver Hct Palettes Temperature DynamicScheme DynamicColor MaterialDynamicColors Schemes Spec SpecCam SpecTone SpecTotal SpecScheme SpecToneRoles SpecTemperature SpecExact SpecSearch RefLibm FloatFacts PfMath PfTones PfHct PfPalettes PfScheme PfTotal PfCamProps PfExact PfToneRange PfToneHct PfToneDynamic PfWarm PfToneCase PfSearchA PfSearch PfSearchB SpecTones SpecTone.
Import ListNotations.
Open Scope string_scope.
Open Scope list_scope.
Open Scope R_scope.

Section Acc.
Context {lm : Libm} (LA : libm_accurate (1 / 10 ^ 13) lm) (PS : pow_special lm) (PM : pow_monotone lm) (P1 : pow_one lm).
Lemma int_tone argb h : hct_from_int argb = Ok h -> is_tone (h_tone h).
Proof using LA PM P1. rewrite int_new. exact (tone_exact LA PM P1 argb h). Qed.
Lemma light_text (PD : pow_defined lm) v z src dark lvl s : hct_from_int z = Ok src -> construct v src dark lvl = Ok s -> no_upward_search v dark ->
  forall role bg cv, In (role, bg, cv) (foregrounds (ds_is_dark s)) ->
  exists f g, color_of s role = Ok f /\ color_of s bg = Ok g /\
    0.92 * Rmin (B2R (cc_get cv lvl)) 4.47 <= B2R (ratio_of_tones (h_tone f) (h_tone g)).
Proof using LA PS PM P1.
  intros E C H role bg cv I. destruct (text_actual LA PS PM PD v z src dark lvl s E C (known_tones LA PS PM P1 v z src dark lvl s E C (or_introl H)) role bg cv I)
    as (t & b & f & g & _ & _ & A & B & _ & _ & _ & R). exists f, g. split; [exact A|]. split; [exact B|exact R].
Qed.
End Acc.

Lemma exact_case : libm_accurate (1 / 10 ^ 13) ref_libm /\ pow_monotone ref_libm /\ pow_one ref_libm /\
  exists h, @hct_from_int ref_libm 0xFFFFFFFF = Ok h.
Proof. split; [exact ref_13|]. split; [exact ref_pow_monotone|]. split; [exact ref_pow_one|]. exact (@int_ret ref_libm ref_13 0xFFFFFFFF). Qed.

Lemma light_case : exists source s, @hct_from_int ref_libm 0xFFFFFF00 = Ok source /\
  @construct ref_libm Content source false (dec "0.5") = Ok s /\ no_upward_search Content false.
Proof.
  destruct (@int_ret ref_libm ref_13 0xFFFFFF00) as [h E].
  destruct (proj2 (@content_ret ref_libm ref_13 0xFFFFFF00 h false (dec "0.5") E) (@yellow_early ref_libm ref_13 h E)) as [s C].
  exists h, s. split; [exact E|]. split; [exact C|left; reflexivity].
Qed.

Lemma black_chroma_0 h : @hct_from_int ref_libm 0xFF000000 = Ok h -> fin (h_chroma h) /\ B2R (h_chroma h) = 0.
Proof.
  rewrite int_new. intros E. destruct (new_chroma _ h E) as (cam & C & ->). destruct (@from_int_vc ref_libm ref_13 _ cam C) as (vc & EV & VS & C').
  apply (@black_chroma ref_libm ref_13 vc _ cam VS C'); reflexivity.
Qed.
Lemma dark_case : exists source s, @hct_from_int ref_libm 0xFF000000 = Ok source /\
  @construct ref_libm Content source true (dec "0.5") = Ok s /\ @search_ends ref_libm s.
Proof.
  destruct (@int_ret ref_libm ref_13 0xFF000000) as [h E]. destruct (black_hue h E) as [fh eh]. destruct (black_chroma_0 h E) as [fc ec].
  assert (L : flt (h_hue h) (dec "359.5") = true) by (fconst (dec "359.5"); apply (flt_fin _ _ fh F); lra).
  destruct (proj2 (@content_ret ref_libm ref_13 0xFF000000 h true (dec "0.5") E) L) as [s C].
  exists h, s. split; [exact E|]. split; [exact C|]. cbn [construct] in C. destruct (@content_ok ref_libm h true (dec "0.5") s C) as (_ & S & _).
  destruct (@of_fresh ref_libm _ _ _ S) as (_ & _ & EC & _). clear S C. unfold search_ends, find_desired_chroma_by_tone.
  fconst (dec "32.0"). fconst (dec "0.5").
  destruct (fsub_S (h_chroma h) (dec "32.0") fc F ltac:(rewrite ec, V; unfold HUGE; lra)) as [E1 f1]. destruct (fmul_S (h_chroma h) (dec "0.5") fc F0 ltac:(rewrite ec, V0; unfold HUGE; lra)) as [E2 f2].
  rewrite ec, Rmult_0_l, rnd_0 in E2. rewrite ec, V in E1.
  assert (E1' : B2R (fsub (h_chroma h) (dec "32.0")) <= 0) by (rewrite E1; apply (rnd_le_IZR _ 0); [lia|lra]).
  destruct (fmax_R _ _ f1 f2) as [f3 e3]. rewrite E2, Rmax_right in e3 by lra.
  rewrite EC. destruct (@from_ret ref_libm ref_13 (tp_hue (ds_secondary_palette s)) (fmax (fsub (h_chroma h) (dec "32.0")) (fmul (h_chroma h) (dec "0.5"))) (dec "30.0")) as [p Ep].
  rewrite Ep, bind_Ok. destruct (@from_chroma ref_libm ref_13 _ _ _ _ Ep) as [fp bp].
  assert (Q : flt (h_chroma p) (fmax (fsub (h_chroma h) (dec "32.0")) (fmul (h_chroma h) (dec "0.5"))) = false) by (apply (flt_fin_f _ _ fp f3); lra).
  rewrite Q. exists (dec "30.0"). reflexivity.
Qed.
