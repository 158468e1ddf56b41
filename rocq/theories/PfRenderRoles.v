(** * Hue and chroma of the roles of a scheme.  Proof file. *)
From Coq Require Import ZArith Bool Reals Lra Lia String List.
From Flocq Require Import Core IEEE754.BinarySingleNaN.
From Verif Require Import Assoc F64 MathUtils ColorUtils Contrast ViewingConditions Cam16 HctSolver Hct Palettes Temperature DynamicScheme DynamicColor MaterialDynamicColors Schemes LegacyScheme
  Spec SpecCam SpecTone SpecHct SpecPalette SpecTotal SpecScheme SpecTones SpecToneRoles SpecSolve SpecRender FloatFacts PfTones PfHct PfPalettes PfScheme PfRoles PfToneRange PfToneHct PfToneScheme PfToneDynamic PfTotal RefLibm PfRender.
Import ListNotations.
Open Scope string_scope.
Open Scope R_scope.

Lemma role_renders {lm : Libm} (LA : libm_accurate (1 / 10 ^ 13) lm) (PS : pow_special lm) v z src dark lvl s role t :
  hct_from_int z = Ok src -> construct v src dark lvl = Ok s -> In role all_roles -> get_tone role s = Ok t -> is_finite t = true ->
  coloured (tp_chroma (dc_palette role s)) t ->
  exists h, ds_get_hct s role = Ok h /\ renders (tp_hue (dc_palette role s)) (tp_chroma (dc_palette role s)) t (hct_to_int h).
Proof.
  intros E C I T ft B. destruct (role_sound role s I (constructed LA v z src dark lvl s E C)) as (Fr & f1 & f2 & f3).
  destruct (from_ret LA (tp_hue (dc_palette role s)) (tp_chroma (dc_palette role s)) t) as [h Eh]. exists h. split; [|exact (from_renders LA PS _ _ _ _ f1 f2 ft B Eh)].
  unfold ds_get_hct, dc_get_hct. cbn [cache_find bind]. rewrite T. cbn [bind]. rewrite (get_hct_fresh _ t Fr), Eh. cbn [bind fst]. reflexivity.
Qed.

Section Legacy.
Context {lm : Libm} (LA : libm_accurate (1 / 10 ^ 13) lm) (PS : pow_special lm).
Lemma painted_by c roles s : all_modest c -> (forall g p t, In (g, p, t) roles -> (0 <= t <= 100)%Z) ->
  (forall g p t, In (g, p, t) roles -> exists h, hct_from (tp_hue (cp_sel c p)) (tp_chroma (cp_sel c p)) (of_Z t) = Ok h /\ hct_to_int h = g s) -> painted c roles s.
Proof using LA PS.
  intros M T R g p t I C. destruct (R g p t I) as (h & E & <-). destruct (M p) as (fh & fc & _). destruct (of_Z_R t ltac:(specialize (T g p t I); lia)) as [_ ft]. exact (from_renders LA PS _ _ _ _ fh fc ft C E).
Qed.
Lemma light_small g p t : In (g, p, t) light_roles -> (0 <= t <= 100)%Z.
Proof using. assert (A : forallb (fun x => (0 <=? snd x)%Z && (snd x <=? 100)%Z)%bool light_roles = true) by reflexivity. rewrite forallb_forall in A. intros I. specialize (A _ I). cbn [snd] in A. lia. Qed.
Lemma dark_small g p t : In (g, p, t) dark_roles -> (0 <= t <= 100)%Z.
Proof using. assert (A : forallb (fun x => (0 <=? snd x)%Z && (snd x <=? 100)%Z)%bool dark_roles = true) by reflexivity. rewrite forallb_forall in A. intros I. specialize (A _ I). cbn [snd] in A. lia. Qed.
Lemma legacy_renders z s :
  (scheme_light z = Ok s -> exists c, cp_of z = Ok c /\ painted c light_roles s) /\
  (scheme_dark z = Ok s -> exists c, cp_of z = Ok c /\ painted c dark_roles s) /\
  (scheme_light_content z = Ok s -> exists c, cp_content_of z = Ok c /\ painted c light_roles s) /\
  (scheme_dark_content z = Ok s -> exists c, cp_content_of z = Ok c /\ painted c dark_roles s).
Proof using LA PS.
  split; [|split; [|split]]; intros E.
  - destruct (light_scheme z s E) as (c & C & R). exists c. split; [exact C|]. exact (painted_by c _ s (cp_modest LA z c C) light_small R).
  - destruct (dark_scheme z s E) as (c & C & R). exists c. split; [exact C|]. exact (painted_by c _ s (cp_modest LA z c C) dark_small R).
  - destruct (light_content_scheme z s E) as (c & C & R). exists c. split; [exact C|]. exact (painted_by c _ s (cp_content_modest LA z c C) light_small R).
  - destruct (dark_content_scheme z s E) as (c & C & R). exists c. split; [exact C|]. exact (painted_by c _ s (cp_content_modest LA z c C) dark_small R).
Qed.
End Legacy.
