(** * Properties: exact range of L*, and the tones of every constructed scheme. *)
From Coq Require Import ZArith Bool Reals String List.
From Flocq Require Import Core IEEE754.BinarySingleNaN.
From Verif Require Import F64 MathUtils ColorUtils Contrast Hct Palettes DynamicScheme DynamicColor MaterialDynamicColors Schemes
  Spec SpecCam SpecTotal SpecScheme SpecToneRoles SpecExact SpecSearch RefLibm PfExact PfText PfToneDynamic PfSearch PfSearchB PfSearchCase.
From Verif Require Import SpecTones SpecTone.
Import ListNotations.
Open Scope string_scope.
Open Scope list_scope.
Open Scope R_scope.

(** C15.  A [pow] that is monotone and exact at 1 keeps L* within 0..100 exactly. *)
Theorem C15_lstar_is_exactly_a_percentage : forall lm : Libm, libm_accurate (1 / 10 ^ 13) lm -> pow_monotone lm -> pow_one lm ->
  forall argb : Z, is_tone (lstar_from_argb argb).
Proof. exact (fun lm LA PM P1 => lstar_exact LA PM P1). Qed.
Print Assumptions C15_lstar_is_exactly_a_percentage.
Theorem C15_tone_is_exactly_a_percentage : forall lm : Libm, libm_accurate (1 / 10 ^ 13) lm -> pow_monotone lm -> pow_one lm ->
  forall (argb : Z) (h : hct), hct_from_int argb = Ok h -> is_tone (h_tone h).
Proof. exact (fun lm LA PM P1 => int_tone LA PM P1). Qed.
Print Assumptions C15_tone_is_exactly_a_percentage.
Example C15_exact_case : libm_accurate (1 / 10 ^ 13) ref_libm /\ pow_monotone ref_libm /\ pow_one ref_libm /\
  exists h, @hct_from_int ref_libm 0xFFFFFFFF = Ok h.
Proof. exact exact_case. Qed.

(** C61.  The search for a tone in light Fidelity and Content schemes ends, on a tone. *)
Theorem C61_downward_search_ends : forall lm : Libm, libm_accurate (1 / 10 ^ 13) lm -> pow_special lm -> pow_monotone lm ->
  forall hue chroma : f64, is_finite hue = true -> is_finite chroma = true -> B2R chroma <= 10 ^ 9 ->
  exists t, find_desired_chroma_by_tone hue chroma (dec "90.0") true = Ok t /\ is_tone t.
Proof. exact (fun lm LA PS PM => light_search LA PS PM). Qed.
Print Assumptions C61_downward_search_ends.
(** The search in dark ones ends on a tone if it ends at all. *)
Theorem C61_upward_search_finds_a_tone_partial : forall lm : Libm, libm_accurate (1 / 10 ^ 13) lm -> pow_monotone lm ->
  forall hue chroma t : f64, find_desired_chroma_by_tone hue chroma (dec "30.0") false = Ok t -> is_tone t.
Proof. exact (fun lm LA PM => dark_search LA PM). Qed.
Print Assumptions C61_upward_search_finds_a_tone_partial.

(** Every role of every constructed scheme, key colours included, resolves to a tone: unconditionally in light schemes and
    in the seven variants with tabulated tones... *)
Theorem C61_constructed_schemes : forall lm : Libm,
  libm_accurate (1 / 10 ^ 13) lm -> pow_special lm -> pow_monotone lm -> pow_one lm -> pow_defined lm ->
  forall (v : variant) (argb : Z) (source : hct) (dark : bool) (level : f64) (s : dynamic_scheme),
  hct_from_int argb = Ok source -> construct v source dark level = Ok s -> no_upward_search v dark ->
  forall role, In role all_roles -> exists t, get_tone role s = Ok t /\ is_tone t.
Proof. exact (fun lm LA PS PM P1 PD v z src dark lvl s E C H => constructed_roles LA PS PM P1 PD v z src dark lvl s E C (or_introl H)). Qed.
Print Assumptions C61_constructed_schemes.
(** ... and in dark Fidelity and Content schemes if the upward search ends. *)
Theorem C61_dark_schemes_partial : forall lm : Libm,
  libm_accurate (1 / 10 ^ 13) lm -> pow_special lm -> pow_monotone lm -> pow_one lm -> pow_defined lm ->
  forall (v : variant) (argb : Z) (source : hct) (dark : bool) (level : f64) (s : dynamic_scheme),
  hct_from_int argb = Ok source -> construct v source dark level = Ok s -> search_ends s ->
  forall role, In role all_roles -> exists t, get_tone role s = Ok t /\ is_tone t.
Proof. exact (fun lm LA PS PM P1 PD v z src dark lvl s E C H => constructed_roles LA PS PM P1 PD v z src dark lvl s E C (or_intror H)). Qed.
Print Assumptions C61_dark_schemes_partial.
Example C61_light_case : exists source s, @hct_from_int ref_libm 0xFFFFFF00 = Ok source /\
  @construct ref_libm Content source false (dec "0.5") = Ok s /\ no_upward_search Content false.
Proof. exact light_case. Qed.
Example C61_dark_case : exists source s, @hct_from_int ref_libm 0xFF000000 = Ok source /\
  @construct ref_libm Content source true (dec "0.5") = Ok s /\ @search_ends ref_libm s.
Proof. exact dark_case. Qed.

(** The conditions of C62, C63, C64 and C82 hold of constructed schemes. *)
Theorem C62_constructed_schemes : forall lm : Libm,
  libm_accurate (1 / 10 ^ 13) lm -> pow_special lm -> pow_monotone lm -> pow_one lm ->
  forall (v : variant) (argb : Z) (source : hct) (dark : bool) (level : f64) (s : dynamic_scheme),
  hct_from_int argb = Ok source -> construct v source dark level = Ok s -> no_upward_search v dark \/ search_ends s ->
  fixed_tones s \/ source_tones s.
Proof. exact (fun lm LA PS PM P1 => known_tones LA PS PM P1). Qed.
Print Assumptions C62_constructed_schemes.

(** C82.  Every role has a colour, of the tone it resolves to. *)
Theorem C82_every_role_has_a_colour : forall lm : Libm,
  libm_accurate (1 / 10 ^ 13) lm -> pow_special lm -> pow_monotone lm -> pow_one lm -> pow_defined lm ->
  forall (v : variant) (argb : Z) (source : hct) (dark : bool) (level : f64) (s : dynamic_scheme),
  hct_from_int argb = Ok source -> construct v source dark level = Ok s -> no_upward_search v dark \/ search_ends s ->
  forall role, In role all_roles ->
  exists t h, get_tone role s = Ok t /\ is_tone t /\ ds_get_hct s role = Ok h /\ within 1 (h_tone h) (B2R t).
Proof. exact (fun lm LA PS PM P1 PD => constructed_colours LA PS PM P1 PD). Qed.
Print Assumptions C82_every_role_has_a_colour.
Theorem C82_light_text_contrast : forall lm : Libm,
  libm_accurate (1 / 10 ^ 13) lm -> pow_special lm -> pow_monotone lm -> pow_one lm -> pow_defined lm ->
  forall (v : variant) (argb : Z) (source : hct) (dark : bool) (level : f64) (s : dynamic_scheme),
  hct_from_int argb = Ok source -> construct v source dark level = Ok s -> no_upward_search v dark ->
  forall role ground cv, In (role, ground, cv) (foregrounds (ds_is_dark s)) ->
  exists f g, color_of s role = Ok f /\ color_of s ground = Ok g /\
    0.92 * Rmin (B2R (cc_get cv level)) 4.47 <= B2R (ratio_of_tones (h_tone f) (h_tone g)).
Proof. exact (fun lm LA PS PM P1 PD => light_text LA PS PM P1 PD). Qed.
Print Assumptions C82_light_text_contrast.
