(** * Property theorems: contrast of tones, and the tones of the material roles. *)
From Coq Require Import ZArith Bool Reals List String Lra.
From Flocq Require Import Core IEEE754.BinarySingleNaN.
From Verif Require Import F64 ColorUtils Contrast Hct Palettes DynamicScheme DynamicColor MaterialDynamicColors
  Spec SpecTones FloatFacts SampleLibm RefLibm PfContrast PfTones PfRoles PfReach PfFixed PfText.
Import ListNotations.
Open Scope string_scope.
Open Scope list_scope.
Open Scope R_scope.

(** The assumptions about [pow] that appear below hold of a correctly rounded [pow]. *)
Example pow_hypotheses_met : pow_defined ref_libm /\ pow_accurate (1 / 10 ^ 5) ref_libm /\ pow_monotone ref_libm.
Proof.
  split; [exact ref_pow_defined|]. split; [|exact ref_pow_monotone].
  apply (accurate_weaken (/ 2 ^ 53)); [lra|exact ref_pow_accurate].
Qed.

(** C22 *)
Theorem C22_lighter_reaches_the_ratio : forall lm : Libm, pow_accurate (1 / 10 ^ 5) lm -> forall tone ratio : f64,
  is_tone tone -> is_finite ratio = true -> 1 <= B2R ratio <= 21 -> lighter tone ratio <> dec "-1.0" ->
  is_tone (lighter tone ratio) /\ B2R tone < B2R (lighter tone ratio) /\
  fle ratio (ratio_of_tones (lighter tone ratio) tone) = true.
Proof. exact (fun lm => lighter_delivers). Qed.
Print Assumptions C22_lighter_reaches_the_ratio.
Theorem C22_darker_reaches_the_ratio : forall lm : Libm, pow_accurate (1 / 10 ^ 5) lm -> forall tone ratio : f64,
  is_tone tone -> is_finite ratio = true -> 1 <= B2R ratio <= 21 -> darker tone ratio <> dec "-1.0" ->
  is_tone (darker tone ratio) /\ B2R (darker tone ratio) < B2R tone /\
  fle ratio (ratio_of_tones (darker tone ratio) tone) = true.
Proof. exact (fun lm => darker_delivers). Qed.
Print Assumptions C22_darker_reaches_the_ratio.
Example C22_case : is_tone (dec "80.0") /\ 1 <= B2R (dec "1.5") <= 21 /\ @darker ref_libm (dec "80.0") (dec "1.5") <> dec "-1.0".
Proof.
  destruct pow_hypotheses_met as (PD & PA & _). assert (T : is_tone (dec "80.0")) by tone_lit.
  fconst (dec "1.5"). fconst (dec "80.0"). split; [exact T|]. split; [lra|]. intros e.
  pose proof (darker_near PA (dec "80.0") (dec "1.5") T F ltac:(lra) ltac:(lra)) as N.
  destruct (darker_unsafe_ok (dec "80.0") (dec "1.5") (darker_nn _ _ PD (tone_nn _ T) (fin_not_nan _ F))) as (_ & A & _).
  rewrite (A e) in N. fconst (dec "0.0"). lra.
Qed.
Example C22_sample : andb (fle (dec "60.0") (@lighter sample_libm (dec "20.0") (dec "7.0")))
                          (fle (@lighter sample_libm (dec "20.0") (dec "7.0")) (dec "100.0")) = true.
Proof. vm_compute. reflexivity. Qed.

(** C24 *)
Theorem C24_foreground_tone : forall lm : Libm, pow_defined lm -> pow_accurate (1 / 10 ^ 5) lm -> forall tone ratio : f64,
  is_tone tone -> is_finite ratio = true -> 1 <= B2R ratio <= 21 ->
  is_tone (foreground_tone tone ratio) /\
  (foreground_tone tone ratio = lighter_unsafe tone ratio \/ foreground_tone tone ratio = darker_unsafe tone ratio) /\
  (achievable [tone] ratio -> fle ratio (ratio_of_tones (foreground_tone tone ratio) tone) = true).
Proof. exact (fun lm => foreground_delivers). Qed.
Print Assumptions C24_foreground_tone.
Example C24_case : is_tone (dec "50.0") /\ achievable [dec "50.0"] (dec "4.5").
Proof.
  split; [tone_lit|]. exists (dec "0.0"). split; [tone_lit|]. constructor; [|constructor]. vm_compute. reflexivity.
Qed.

(** A light scheme with dull palettes; tones do not depend on the palettes. *)
Definition a_scheme (v : variant) (dark : bool) (level : f64) : dynamic_scheme :=
  let h := {| h_hue := dec "120.0"; h_chroma := dec "8.0"; h_tone := dec "45.0"; h_argb := 0xFF6A6F60 |} in
  let p := {| tp_hue := dec "120.0"; tp_chroma := dec "8.0"; tp_key_color := h; tp_cache := []; tp_is_from_cache := false |} in
  {| ds_source_color_argb := 0xFF6A6F60; ds_source_color_hct := h; ds_variant := v; ds_is_dark := dark; ds_contrast_level := level;
     ds_primary_palette := p; ds_secondary_palette := p; ds_tertiary_palette := p; ds_neutral_palette := p;
     ds_neutral_variant_palette := p; ds_error_palette := p |}.
Example fixed_tones_met : fixed_tones (a_scheme TonalSpot false (dec "0.0")).
Proof. split; discriminate. Qed.
(** The Fidelity and Content variants, whose tones come from the source colour: a concrete scheme meets [source_tones]. *)
Example source_tones_met : @source_tones sample_libm (a_scheme Content false (dec "0.0")).
Proof.
  split; [change (is_tone (dec "45.0")); tone_lit|]. split.
  - set (x := find_desired_chroma_by_tone _ _ _ _).
    assert (E : match x with Ok t => fle (dec "0.0") t && fle t (dec "100.0") | Panic => false end = true) by (vm_compute; reflexivity).
    destruct x as [t|]; [|discriminate E]. exists t. split; [reflexivity|].
    apply andb_true_iff in E. destruct E as [E1 E2]. exact (tone_of_bounds _ E1 E2).
  - set (x := tp_get_hct _ _).
    assert (E : match bind x (@fix_if_disliked sample_libm) with Ok f => fle (dec "0.0") (h_tone f) && fle (h_tone f) (dec "100.0") | Panic => false end = true)
      by (vm_compute; reflexivity).
    destruct x as [p|]; [|discriminate E]. cbn [bind] in E. destruct (@fix_if_disliked sample_libm p) as [f|] eqn:Ef; [|discriminate E].
    exists p, f. split; [reflexivity|]. split; [exact Ef|].
    apply andb_true_iff in E. destruct E as [E1 E2]. exact (tone_of_bounds _ E1 E2).
Qed.

(** C61 *)
Theorem C61_roles_resolve_partial : forall lm : Libm, pow_defined lm -> forall s : dynamic_scheme,
  fixed_tones s \/ source_tones s -> forall role, In role all_roles -> ~ In (dc_name role) key_color_roles ->
  exists t, get_tone role s = Ok t /\ is_tone t.
Proof. exact (fun lm PD s h => all_resolve s PD h). Qed.
Print Assumptions C61_roles_resolve_partial.
Theorem C61_key_color_roles : forall (lm : Libm) (s : dynamic_scheme),
  tone_of s "primary_palette_key_color" = Ok (h_tone (tp_key_color (ds_primary_palette s))) /\
  tone_of s "secondary_palette_key_color" = Ok (h_tone (tp_key_color (ds_secondary_palette s))) /\
  tone_of s "tertiary_palette_key_color" = Ok (h_tone (tp_key_color (ds_tertiary_palette s))) /\
  tone_of s "neutral_palette_key_color" = Ok (h_tone (tp_key_color (ds_neutral_palette s))) /\
  tone_of s "neutral_variant_palette_key_color" = Ok (h_tone (tp_key_color (ds_neutral_variant_palette s))).
Proof. exact (fun lm => key_color_tones). Qed.
Print Assumptions C61_key_color_roles.

(** C62 *)
Theorem C62_text_reaches_its_ratio : forall lm : Libm, pow_defined lm -> pow_accurate (1 / 10 ^ 5) lm ->
  forall s : dynamic_scheme, fixed_tones s \/ source_tones s ->
  forall role bg cv, In (role, bg, cv) (foregrounds (ds_is_dark s)) ->
  exists t b, tone_of s role = Ok t /\ tone_of s bg = Ok b /\
    (achievable [b] (cc_get cv (ds_contrast_level s)) -> fle (cc_get cv (ds_contrast_level s)) (ratio_of_tones t b) = true) /\
    Rmin (B2R (cc_get cv (ds_contrast_level s))) 4.47 <= B2R (ratio_of_tones t b).
Proof. exact (fun lm => text_delivers). Qed.
Print Assumptions C62_text_reaches_its_ratio.
Theorem C62_text_on_fixed_colors : forall lm : Libm, pow_defined lm -> pow_accurate (1 / 10 ^ 5) lm ->
  forall (s : dynamic_scheme) role dim fixed cv, In (role, (dim, fixed), cv) fixed_foregrounds ->
  exists t d f, tone_of s role = Ok t /\ tone_of s dim = Ok d /\ tone_of s fixed = Ok f /\
    (achievable [d; f] (cc_get cv (ds_contrast_level s)) ->
     fle (cc_get cv (ds_contrast_level s)) (ratio_of_tones t d) = true /\
     fle (cc_get cv (ds_contrast_level s)) (ratio_of_tones t f) = true) /\
    Rmin (B2R (cc_get cv (ds_contrast_level s))) 4.47 <= B2R (ratio_of_tones t d) /\
    Rmin (B2R (cc_get cv (ds_contrast_level s))) 4.47 <= B2R (ratio_of_tones t f).
Proof. exact (fun lm PD PA => fixed_text_reaches PD PA). Qed.
Print Assumptions C62_text_on_fixed_colors.
(** At contrast level 0 the primary container of a light scheme has a text colour with ratio 7, and so have the fixed colours. *)
Example C62_case : match @tone_of ref_libm (a_scheme TonalSpot false (dec "0.0")) "primary_container",
    cc_get (curve "4.5" "7.0" "11.0" "21.0") (dec "0.0") with
  | Ok b, r => fle r (ratio_of_tones (dec "0.0") b) | _, _ => false end = true.
Proof. vm_compute. reflexivity. Qed.
Example C62_fixed_case : match @tone_of ref_libm (a_scheme TonalSpot false (dec "0.0")) "primary_fixed_dim",
    @tone_of ref_libm (a_scheme TonalSpot false (dec "0.0")) "primary_fixed" with
  | Ok d, Ok f => fle (dec "7.0") (ratio_of_tones (dec "0.0") d) && fle (dec "7.0") (ratio_of_tones (dec "0.0") f)
  | _, _ => false end = true.
Proof. vm_compute. reflexivity. Qed.

(** C63 *)
Theorem C63_accents_and_containers : forall lm : Libm, pow_defined lm -> forall s : dynamic_scheme,
  fixed_tones s \/ source_tones s -> forall accent container, In (accent, container) accents ->
  exists a c, tone_of s accent = Ok a /\ tone_of s container = Ok c /\ is_tone a /\ is_tone c /\
    10 - 1 / 10 ^ 12 <= (if ds_is_dark s then B2R a - B2R c else B2R c - B2R a).
Proof. exact (fun lm => accents_apart). Qed.
Print Assumptions C63_accents_and_containers.
Theorem C63_fixed_and_dim : forall lm : Libm, pow_defined lm -> forall (s : dynamic_scheme) fixed dim,
  In (fixed, dim) fixed_pairs -> exists f d, tone_of s fixed = Ok f /\ tone_of s dim = Ok d /\ is_tone f /\ is_tone d /\
    10 - 1 / 10 ^ 12 <= B2R f - B2R d.
Proof. exact (fun lm => fixed_apart). Qed.
Print Assumptions C63_fixed_and_dim.
Example C63_case : In ("primary", "primary_container") accents /\ In ("primary_fixed", "primary_fixed_dim") fixed_pairs /\
  match @tone_of sample_libm (a_scheme TonalSpot false (dec "0.7")) "primary", @tone_of sample_libm (a_scheme TonalSpot false (dec "0.7")) "primary_container" with
  | Ok a, Ok c => flt a (dec "40.0") && fle (dec "10.0") (c - a)%f && negb (feq c (dec "90.0")) | _, _ => false end = true.
Proof. split; [vm_compute; tauto|]. split; [vm_compute; tauto|]. vm_compute. reflexivity. Qed.

(** C64 *)
Theorem C64_backgrounds_avoid_the_zone : forall lm : Libm, pow_defined lm -> forall s : dynamic_scheme,
  fixed_tones s \/ source_tones s -> forall role, In role all_roles -> dc_is_background role = true ->
  exists t, get_tone role s = Ok t /\ (B2R t < 50 \/ 60 <= B2R t).
Proof. exact (fun lm => backgrounds_outside). Qed.
Print Assumptions C64_backgrounds_avoid_the_zone.
Theorem C64_fixed_stays_on_one_side : forall lm : Libm, pow_defined lm -> pow_accurate (1 / 10 ^ 5) lm ->
  forall (s : dynamic_scheme) fixed dim, In (fixed, dim) fixed_pairs ->
  exists f d, tone_of s fixed = Ok f /\ tone_of s dim = Ok d /\
    ((B2R f < 50 /\ B2R d < 50) \/ (60 <= B2R f /\ 60 <= B2R d)).
Proof. exact (fun lm => fixed_same_side). Qed.
Print Assumptions C64_fixed_stays_on_one_side.
(** At full contrast the error container of a dark scheme, 30 by default, is lifted clear over the zone. *)
Example C64_case : match @tone_of sample_libm (a_scheme Vibrant true (dec "1.0")) "error_container" with
  | Ok t => fle (dec "60.0") t | Panic => false end = true.
Proof. vm_compute. reflexivity. Qed.
