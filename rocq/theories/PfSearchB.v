(** * The tones of constructed schemes.  Proof file. *)
From Coq Require Import ZArith Bool Reals Lra Lia String List.
From Flocq Require Import Core IEEE754.BinarySingleNaN.
From Verif Require Import F64 MathUtils ColorUtils ViewingConditions Cam16 HctSolver Hct Palettes Temperature DynamicScheme DynamicColor MaterialDynamicColors Schemes Spec SpecCam SpecTone SpecTotal SpecScheme SpecTemperature SpecExact SpecSearch PfTemperature FloatFacts PfMath PfTones PfHct PfPalettes PfScheme PfTotal PfToneHct PfRoles PfText PfToneDynamic PfSearch SpecTones SpecTone.
Import ListNotations.
Open Scope string_scope.
Open Scope list_scope.
Open Scope R_scope.

Section Acc.
Context {lm : Libm} (LA : libm_accurate (1 / 10 ^ 13) lm) (PS : pow_special lm) (PM : pow_monotone lm) (P1 : pow_one lm).

Definition keyed (p : tonal_palette) : Prop := is_tone (h_tone (tp_key_color p)).
Lemma keyed_of h k p : tp_of h k = Ok p -> keyed p.
Proof using LA PM P1.
  intros E. destruct (of_fresh h k p E) as (_ & _ & _ & K & _). destruct (key_color _ _ _ K) as ((t & _ & Q) & _).
  destruct (from_is_new _ _ _ _ Q) as (z & N). exact (tone_exact LA PM P1 z _ N).
Qed.
Lemma fixed_is_tone z a f : hct_new z = Ok a -> fix_if_disliked a = Ok f -> is_tone (h_tone f).
Proof using LA PM P1.
  intros E Q. unfold fix_if_disliked in Q. destruct (is_disliked a).
  - destruct (from_is_new _ _ _ _ Q) as (z' & E'). exact (tone_exact LA PM P1 z' _ E').
  - apply ok_inj in Q. subst f. exact (tone_exact LA PM P1 z _ E).
Qed.
Lemma keyed_fixed z a f : hct_new z = Ok a -> fix_if_disliked a = Ok f -> keyed (tp_from_hct f).
Proof using LA PM P1. intros E Q. unfold keyed, tp_from_hct. cbn [tp_key_color]. exact (fixed_is_tone z a f E Q). Qed.

Lemma constructed_keyed v z src dark lvl s : hct_from_int z = Ok src -> construct v src dark lvl = Ok s -> Forall keyed (five s).
Proof using LA PM P1.
  intros E C. pose proof E as E0. rewrite int_new in E. pose proof (kinds v) as K.
  destruct K as [(n1 & n2)|[->| ->]].
  - pose proof (documented_ok v src dark lvl s C n1 n2) as D. revert D. generalize (documented v src) (five s). intros es ps D.
    induction D as [|e p es ps (hue & _ & M) _ IH]; [apply Forall_nil|]. apply Forall_cons; [exact (keyed_of _ _ _ M)|exact IH].
  - cbn [construct] in C. destruct (content_ok src dark lvl s C) as (P & S & (l & c & a & f & A & N & Q & T) & NE & NV).
    assert (s3 : keyed (ds_tertiary_palette s)).
    { rewrite T. apply nth_error_In in N. assert (CF : count_fits (Some 3%Z)) by (unfold count_fits; cbn [unwrap_or]; lia).
      destruct (analogous_wheel z src _ _ l c a E0 CF A N) as [->|(k & _ & O)]; [exact (keyed_fixed z src f E Q)|].
      unfold on_wheel in O. destruct (from_is_new _ _ _ _ O) as (z' & E'). exact (keyed_fixed z' a f E' Q). }
    unfold five. repeat (apply Forall_cons; [first [exact s3|eapply keyed_of; eassumption]|]). apply Forall_nil.
  - cbn [construct] in C. destruct (fidelity_ok src dark lvl s C) as (P & S & (a & c & f & A & Q & T) & NE & NV).
    assert (s3 : keyed (ds_tertiary_palette s)).
    { rewrite T. destruct (complement_wheel src a c A) as (k & _ & O). unfold on_wheel in O. destruct (from_is_new _ _ _ _ O) as (z' & E'). exact (keyed_fixed z' a f E' Q). }
    unfold five. repeat (apply Forall_cons; [first [exact s3|eapply keyed_of; eassumption]|]). apply Forall_nil.
Qed.

Lemma known_tones v z src dark lvl s : hct_from_int z = Ok src -> construct v src dark lvl = Ok s ->
  no_upward_search v dark \/ search_ends s -> fixed_tones s \/ source_tones s.
Proof using LA PS PM P1.
  intros E C H. destruct (construct_fields v src dark lvl s C) as (_ & SH & EV & ED & _). rewrite int_new in SH.
  destruct (kinds v) as [(n1 & n2)|FC]; [left; split; rewrite EV; assumption|right].
  pose proof (constructed LA v z src dark lvl s E C) as SO. unfold six, five in SO.
  assert (S2 : sound (ds_secondary_palette s)) by (rewrite Forall_forall in SO; apply SO; cbn [app In]; tauto).
  assert (S3 : sound (ds_tertiary_palette s)) by (rewrite Forall_forall in SO; apply SO; cbn [app In]; tauto). clear SO C.
  split; [exact (tone_exact LA PM P1 _ _ SH)|]. split.
  - destruct S2 as (_ & f1 & f2 & f3). rewrite ED. destruct dark; cbn [negb].
    + destruct H as [[X|(n1 & n2)]|(t & X)]; [discriminate X|exfalso; destruct FC; contradiction|]. exists t. split; [exact X|exact (dark_search LA PM _ _ t X)].
    + exact (light_search LA PS PM _ _ f1 f2 f3).
  - destruct S3 as (Fr & _). rewrite (get_hct_fresh _ _ Fr). destruct (from_ret LA (tp_hue (ds_tertiary_palette s)) (tp_chroma (ds_tertiary_palette s)) (h_tone (ds_source_color_hct s))) as [p Ep].
    destruct (fix_ret LA p) as [f Ef]. exists p, f. split; [exact Ep|]. split; [exact Ef|]. destruct (from_is_new _ _ _ _ Ep) as (z' & E'). exact (fixed_is_tone z' p f E' Ef).
Qed.

Lemma key_roles role : In role all_roles -> In (rc_name (dc_core role)) key_color_roles -> forall s, Forall keyed (five s) -> exists t, get_tone role s = Ok t /\ is_tone t.
Proof using.
  intros I K s F. rewrite Forall_forall in F. destruct (key_color_tones s) as (A1 & A2 & A3 & A4 & A5).
  assert (N : forall name, In name key_color_roles -> exists t, tone_of s name = Ok t /\ is_tone t).
  { intros name J. unfold key_color_roles in J. destruct J as [<-|[<-|[<-|[<-|[<-|[]]]]]]; eexists; (split; [eassumption|]); apply F; unfold five; cbn [In]; tauto. }
  destruct (N _ K) as (t & T & U). exists t. split; [|exact U]. rewrite <- T. clear - I K. revert K. unfold all_roles in I.
  repeat (destruct I as [<-|I]; [intros K; first [reflexivity | exfalso; cbn in K; repeat (destruct K as [K|K]; [discriminate K|]); exact K]|]). destruct I.
Qed.

Lemma constructed_roles (PD : pow_defined lm) v z src dark lvl s : hct_from_int z = Ok src -> construct v src dark lvl = Ok s ->
  no_upward_search v dark \/ search_ends s -> forall role, In role all_roles -> exists t, get_tone role s = Ok t /\ is_tone t.
Proof using LA PS PM P1.
  intros E C H role I. destruct (in_dec string_dec (rc_name (dc_core role)) key_color_roles) as [K|K].
  - exact (key_roles role I K s (constructed_keyed v z src dark lvl s E C)).
  - exact (all_resolve s PD (known_tones v z src dark lvl s E C H) role I K).
Qed.
Lemma constructed_colours (PD : pow_defined lm) v z src dark lvl s : hct_from_int z = Ok src -> construct v src dark lvl = Ok s ->
  no_upward_search v dark \/ search_ends s -> forall role, In role all_roles ->
  exists t h, get_tone role s = Ok t /\ is_tone t /\ ds_get_hct s role = Ok h /\ within 1 (h_tone h) (B2R t).
Proof using LA PS PM P1.
  intros E C H role I. destruct (constructed_roles PD v z src dark lvl s E C H role I) as (t & T & U). destruct U as [ft bt].
  destruct (role_delivered LA PS PM v z src dark lvl s role t E C I T ft) as (h & Eh & W). exists t, h. split; [exact T|]. split; [split; assumption|]. split; [exact Eh|].
  unfold clamp_tone in W. rewrite Rmax_right, Rmin_right in W by lra. exact W.
Qed.
End Acc.
