(** * Properties: the contrast of the colours actually delivered. *)
From Coq Require Import ZArith Bool Reals String List.
From Flocq Require Import Core IEEE754.BinarySingleNaN.
From Verif Require Import F64 MathUtils ColorUtils Contrast Cam16 Hct Palettes LegacyScheme Temperature DynamicScheme DynamicColor MaterialDynamicColors Schemes
  Spec SpecCam SpecPalette SpecScheme SpecTemperature SpecToneRoles RefLibm PfPalettes PfToneHct PfToneRange PfToneContrast PfToneScheme PfToneDynamic PfTotal PfCamProps PfToneCase.
From Verif Require Import SpecTones SpecTone.
Import ListNotations.
Open Scope string_scope.
Open Scope list_scope.
Open Scope R_scope.

(** C80.  [ratio_of_tones] is the WCAG contrast ratio of two tones. *)
Theorem C80_requested_colours : forall lm : Libm, libm_accurate (1 / 10 ^ 13) lm -> pow_special lm -> pow_monotone lm ->
  forall hue1 chroma1 s hue2 chroma2 t : f64,
  is_finite hue1 = true -> is_finite chroma1 = true -> B2R chroma1 <= 10 ^ 9 -> is_finite s = true ->
  is_finite hue2 = true -> is_finite chroma2 = true -> B2R chroma2 <= 10 ^ 9 -> is_finite t = true ->
  exists a b, hct_from hue1 chroma1 s = Ok a /\ hct_from hue2 chroma2 t = Ok b /\
    0.92 * B2R (ratio_of_tones s t) <= B2R (ratio_of_tones (h_tone a) (h_tone b)) /\
    (41 <= Rabs (clamp_tone s - clamp_tone t) -> 3 <= B2R (ratio_of_tones (h_tone a) (h_tone b))) /\
    (52 <= Rabs (clamp_tone s - clamp_tone t) -> 4.5 <= B2R (ratio_of_tones (h_tone a) (h_tone b))).
Proof. exact (fun lm LA PS PM => requested LA PS PM). Qed.
Print Assumptions C80_requested_colours.
Example C80_case : exists a b, @hct_from ref_libm (dec "27.0") (dec "200.0") (dec "40.0") = Ok a /\ @hct_from ref_libm (dec "140.0") (dec "90.0") (dec "95.0") = Ok b /\
  4.5 <= B2R (ratio_of_tones (h_tone a) (h_tone b)).
Proof. exact requested_case. Qed.

Theorem C80_palette_colours : forall lm : Libm, libm_accurate (1 / 10 ^ 13) lm -> pow_special lm -> pow_monotone lm ->
  forall (hue1 chroma1 hue2 chroma2 : f64) (p q p' q' : tonal_palette) (reads1 reads2 : list Z) (i j : Z),
  is_finite hue1 = true -> is_finite chroma1 = true -> B2R chroma1 <= 10 ^ 9 ->
  is_finite hue2 = true -> is_finite chroma2 = true -> B2R chroma2 <= 10 ^ 9 ->
  tp_of hue1 chroma1 = Ok p -> after_gets p reads1 = Ok p' -> tp_of hue2 chroma2 = Ok q -> after_gets q reads2 = Ok q' ->
  (0 <= i <= 100)%Z -> (0 <= j <= 100)%Z ->
  exists c d, rmap fst (tp_get p' i) = Ok c /\ rmap fst (tp_get q' j) = Ok d /\
    ((41 <= Z.abs (i - j))%Z -> 3 <= B2R (ratio_of_tones (lstar_from_argb c) (lstar_from_argb d))) /\
    ((52 <= Z.abs (i - j))%Z -> 4.5 <= B2R (ratio_of_tones (lstar_from_argb c) (lstar_from_argb d))).
Proof. exact (fun lm LA PS PM => palettes_apart LA PS PM). Qed.
Print Assumptions C80_palette_colours.
Example C80_palette_case : exists p p', @tp_of ref_libm (dec "270.0") (dec "36.0") = Ok p /\ @after_gets ref_libm p [10%Z; 90%Z; 10%Z] = Ok p'.
Proof. exact palettes_case. Qed.

(** C81.  [text_pairs] and [line_pairs] list which role is drawn on which. *)
Theorem C81_legacy_schemes_are_legible : forall lm : Libm, libm_accurate (1 / 10 ^ 13) lm -> pow_special lm -> pow_monotone lm ->
  forall (argb : Z) (s : scheme),
  scheme_light argb = Ok s \/ scheme_dark argb = Ok s \/ scheme_light_content argb = Ok s \/ scheme_dark_content argb = Ok s ->
  (forall text ground, In (text, ground) text_pairs ->
     4.5 <= B2R (ratio_of_tones (lstar_from_argb (text s)) (lstar_from_argb (ground s)))) /\
  (forall line ground, In (line, ground) line_pairs ->
     3 <= B2R (ratio_of_tones (lstar_from_argb (line s)) (lstar_from_argb (ground s)))).
Proof. exact (fun lm LA PS PM => scheme_legible LA PS PM). Qed.
Print Assumptions C81_legacy_schemes_are_legible.
Example C81_case : exists s s', @scheme_light ref_libm 0xFF6750A4 = Ok s /\ @scheme_dark_content ref_libm 0xFFFFFF00 = Ok s'.
Proof. exact legacy_case. Qed.

(** C82.  The tones of C60-C62 are those of the colours a scheme hands out, within 1; so the contrast asked for survives up to 8%. *)
Theorem C82_roles_have_their_tone : forall lm : Libm, libm_accurate (1 / 10 ^ 13) lm -> pow_special lm -> pow_monotone lm ->
  forall (v : variant) (argb : Z) (source : hct) (dark : bool) (level : f64) (s : dynamic_scheme) (role : dynamic_color) (t : f64),
  hct_from_int argb = Ok source -> construct v source dark level = Ok s -> In role all_roles ->
  get_tone role s = Ok t -> is_finite t = true ->
  exists h, ds_get_hct s role = Ok h /\ within 1 (h_tone h) (clamp_tone t).
Proof. exact (fun lm LA PS PM => role_delivered LA PS PM). Qed.
Print Assumptions C82_roles_have_their_tone.

Theorem C82_text_contrast : forall lm : Libm, libm_accurate (1 / 10 ^ 13) lm -> pow_special lm -> pow_monotone lm -> pow_defined lm ->
  forall (v : variant) (argb : Z) (source : hct) (dark : bool) (level : f64) (s : dynamic_scheme),
  hct_from_int argb = Ok source -> construct v source dark level = Ok s -> fixed_tones s \/ source_tones s ->
  forall role ground cv, In (role, ground, cv) (foregrounds (ds_is_dark s)) ->
  exists t b f g, tone_of s role = Ok t /\ tone_of s ground = Ok b /\ color_of s role = Ok f /\ color_of s ground = Ok g /\
    within 1 (h_tone f) (clamp_tone t) /\ within 1 (h_tone g) (clamp_tone b) /\
    (achievable [b] (cc_get cv level) -> 0.92 * B2R (cc_get cv level) <= B2R (ratio_of_tones (h_tone f) (h_tone g))) /\
    0.92 * Rmin (B2R (cc_get cv level)) 4.47 <= B2R (ratio_of_tones (h_tone f) (h_tone g)).
Proof. exact (fun lm LA PS PM PD => text_actual LA PS PM PD). Qed.
Print Assumptions C82_text_contrast.

Theorem C82_text_on_fixed_contrast : forall lm : Libm, libm_accurate (1 / 10 ^ 13) lm -> pow_special lm -> pow_monotone lm -> pow_defined lm ->
  forall (v : variant) (argb : Z) (source : hct) (dark : bool) (level : f64) (s : dynamic_scheme),
  hct_from_int argb = Ok source -> construct v source dark level = Ok s -> fixed_tones s \/ source_tones s ->
  forall role dim fixed cv, In (role, (dim, fixed), cv) fixed_foregrounds ->
  exists t d x f g h, tone_of s role = Ok t /\ tone_of s dim = Ok d /\ tone_of s fixed = Ok x /\
    color_of s role = Ok f /\ color_of s dim = Ok g /\ color_of s fixed = Ok h /\
    (achievable [d; x] (cc_get cv level) ->
       0.92 * B2R (cc_get cv level) <= B2R (ratio_of_tones (h_tone f) (h_tone g)) /\
       0.92 * B2R (cc_get cv level) <= B2R (ratio_of_tones (h_tone f) (h_tone h))) /\
    0.92 * Rmin (B2R (cc_get cv level)) 4.47 <= B2R (ratio_of_tones (h_tone f) (h_tone g)) /\
    0.92 * Rmin (B2R (cc_get cv level)) 4.47 <= B2R (ratio_of_tones (h_tone f) (h_tone h)).
Proof. exact (fun lm LA PS PM PD => fixed_actual LA PS PM PD). Qed.
Print Assumptions C82_text_on_fixed_contrast.
Example C82_case : exists source s, @hct_from_int ref_libm 0xFF4285F4 = Ok source /\
  @construct ref_libm TonalSpot source true (dec "0.5") = Ok s /\ fixed_tones s /\ @pow_defined ref_libm.
Proof. exact dynamic_case. Qed.

(** C83 *)
Theorem C83_complement_keeps_the_tone : forall lm : Libm, libm_accurate (1 / 10 ^ 13) lm -> pow_special lm -> pow_monotone lm ->
  forall (argb : Z) (h a : hct) (c : temp_cache), hct_from_int argb = Ok h -> get_complement (tc_new h) = Ok (a, c) ->
  (exists k, (0 <= k < 360)%Z /\ on_wheel h k a) /\ within (1 + 1 / 10 ^ 6) (h_tone a) (B2R (h_tone h)).
Proof. exact (fun lm LA PS PM => complement_both LA PS PM). Qed.
Print Assumptions C83_complement_keeps_the_tone.
Example C83_complement_case : exists h a c, @hct_from_int ref_libm 0xFF000000 = Ok h /\ @get_complement ref_libm (tc_new h) = Ok (a, c).
Proof. exact black_complement. Qed.
Theorem C83_analogous_keep_the_tone : forall lm : Libm, libm_accurate (1 / 10 ^ 13) lm -> pow_special lm -> pow_monotone lm ->
  forall (argb : Z) (h : hct) (count divisions : option Z) (l : list hct) (c : temp_cache) (x : hct),
  hct_from_int argb = Ok h -> count_fits count -> analogous (tc_new h) count divisions = Ok (l, c) -> In x l ->
  within (1 + 1 / 10 ^ 6) (h_tone x) (B2R (h_tone h)).
Proof. exact (fun lm LA PS PM => analogous_tone LA PS PM). Qed.
Print Assumptions C83_analogous_keep_the_tone.
Example C83_analogous_case : exists h l c, @hct_from_int ref_libm 0xFFFFFF00 = Ok h /\ count_fits (Some 7%Z) /\
  @analogous ref_libm (tc_new h) (Some 7%Z) None = Ok (l, c).
Proof. exact analogous_case. Qed.
