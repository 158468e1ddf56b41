(** * C103: palettes, setters, blends and schemes keep hue and chroma.  Theorems only.

    [renders hue chroma tone argb] (SpecRender.v): by the published model CAM16, [argb] is the rounding of a linear colour of that hue and
    chroma, or the search found none and [argb] is the limit of the gamut.  [coloured]: not so pale, dark or light that a grey is made. *)
From Coq Require Import ZArith Bool Reals String List.
From Flocq Require Import Core IEEE754.BinarySingleNaN.
From Verif Require Import F64 ColorUtils Hct Palettes LegacyScheme DynamicScheme DynamicColor MaterialDynamicColors Schemes Spec SpecCam SpecTone SpecHct SpecPalette SpecScheme SpecTones SpecToneRoles SpecSolve SpecRender RefLibm PfCamProps PfToneRange PfTotal PfToneHct PfRender PfRenderRoles.
Import ListNotations.
Open Scope string_scope.
Open Scope R_scope.

(** The colours of a palette share its hue and chroma, whatever was read before. *)
Theorem C103_palette_of : forall lm : Libm, libm_accurate (1 / 10 ^ 13) lm -> pow_special lm ->
  forall (hue chroma : f64) (p : tonal_palette) (before : list Z) (p' : tonal_palette) (tone : Z),
  tp_of hue chroma = Ok p -> after_gets p before = Ok p' ->
  is_finite hue = true -> is_finite chroma = true -> 0.00011 <= B2R chroma <= 10 ^ 9 -> (1 <= tone <= 99)%Z ->
  exists c, rmap fst (tp_get p' tone) = Ok c /\ renders hue chroma (of_Z tone) c.
Proof. exact (fun lm LA PS => of_renders LA PS). Qed.
Print Assumptions C103_palette_of.
Example C103_palette_case : exists p c, @tp_of ref_libm (dec "270.0") (dec "36.0") = Ok p /\ rmap fst (@tp_get ref_libm p 40) = Ok c /\
  @renders ref_libm (dec "270.0") (dec "36.0") (of_Z 40) c.
Proof. exact palette_case. Qed.

Theorem C103_palette_from_hct : forall lm : Libm, libm_accurate (1 / 10 ^ 13) lm -> pow_special lm ->
  forall (argb : Z) (h : hct) (before : list Z) (p' : tonal_palette) (tone : Z),
  hct_from_int argb = Ok h -> after_gets (tp_from_hct h) before = Ok p' -> 0.00011 <= B2R (h_chroma h) -> (1 <= tone <= 99)%Z ->
  exists c, rmap fst (tp_get p' tone) = Ok c /\ renders (h_hue h) (h_chroma h) (of_Z tone) c.
Proof. exact (fun lm LA PS => hct_renders LA PS). Qed.
Print Assumptions C103_palette_from_hct.

(** A setter replaces one of the three coordinates and keeps the others; [h1] is reached by any calls of the setters. *)
Theorem C103_setters : forall lm : Libm, libm_accurate (1 / 10 ^ 13) lm -> pow_special lm ->
  forall (argb : Z) (h : hct) (calls : list setter) (h1 h2 : hct) (x : f64),
  hct_from_int argb = Ok h -> call_setters h calls = Ok h1 -> is_finite x = true ->
  (set_hue h1 x = Ok h2 -> coloured (h_chroma h1) (h_tone h1) -> renders x (h_chroma h1) (h_tone h1) (hct_to_int h2)) /\
  (set_chroma h1 x = Ok h2 -> coloured x (h_tone h1) -> renders (h_hue h1) x (h_tone h1) (hct_to_int h2)) /\
  (set_tone h1 x = Ok h2 -> coloured (h_chroma h1) x -> renders (h_hue h1) (h_chroma h1) x (hct_to_int h2)).
Proof. exact (fun lm LA PS => set_renders LA PS). Qed.
Print Assumptions C103_setters.
Example C103_setter_case : forall h, exists h2, @set_chroma ref_libm h (dec "60.0") = Ok h2.
Proof. exact set_case. Qed.

(** A harmonized colour has the chroma of the design colour and the hue of C70; a hue blend has the hue of the blend in CAM16-UCS. *)
Theorem C103_harmonize : forall lm : Libm, libm_accurate (1 / 10 ^ 13) lm -> pow_special lm ->
  forall design source r : Z, harmonize design source = Ok r ->
  exists dh sh, hct_from_int design = Ok dh /\ hct_from_int source = Ok sh /\
    (coloured (h_chroma dh) (h_tone dh) -> renders (harmonize_hue (h_hue dh) (h_hue sh)) (h_chroma dh) (h_tone dh) r).
Proof. exact (fun lm LA PS => harmonize_renders LA PS). Qed.
Print Assumptions C103_harmonize.

Theorem C103_hct_hue : forall lm : Libm, libm_accurate (1 / 10 ^ 13) lm -> pow_special lm ->
  forall (from to : Z) (amount : f64) (r : Z), blend_hct_hue from to amount = Ok r ->
  exists u hu hf, blend_cam16_ucs from to amount = Ok u /\ hct_from_int u = Ok hu /\ hct_from_int from = Ok hf /\
    (coloured (h_chroma hf) (h_tone hf) -> renders (h_hue hu) (h_chroma hf) (h_tone hf) r).
Proof. exact (fun lm LA PS => blend_renders LA PS). Qed.
Print Assumptions C103_hct_hue.
Example C103_blend_case : exists r r', @harmonize ref_libm 0xFFFF0000 0xFF0000FF = Ok r /\ @blend_hct_hue ref_libm 0xFFFF0000 0xFF0000FF (dec "0.8") = Ok r'.
Proof. destruct (harmonize_ret ref_13 0xFFFF0000 0xFF0000FF) as [r E], (blend_hue_ret ref_13 0xFFFF0000 0xFF0000FF (dec "0.8")) as [r' E']. exists r, r'. split; [exact E|exact E']. Qed.

(** A role of a constructed scheme has the hue and the chroma of its palette. *)
Theorem C103_roles : forall lm : Libm, libm_accurate (1 / 10 ^ 13) lm -> pow_special lm ->
  forall (v : variant) (argb : Z) (source : hct) (dark : bool) (level : f64) (s : dynamic_scheme) (role : dynamic_color) (t : f64),
  hct_from_int argb = Ok source -> construct v source dark level = Ok s -> In role all_roles ->
  get_tone role s = Ok t -> is_finite t = true -> coloured (tp_chroma (dc_palette role s)) t ->
  exists h, ds_get_hct s role = Ok h /\ renders (tp_hue (dc_palette role s)) (tp_chroma (dc_palette role s)) t (hct_to_int h).
Proof. exact (fun lm LA PS => role_renders LA PS). Qed.
Print Assumptions C103_roles.

(** So has a role of the older schemes. *)
Theorem C103_legacy_schemes : forall lm : Libm, libm_accurate (1 / 10 ^ 13) lm -> pow_special lm -> forall (argb : Z) (s : scheme),
  (scheme_light argb = Ok s -> exists c, cp_of argb = Ok c /\ painted c light_roles s) /\
  (scheme_dark argb = Ok s -> exists c, cp_of argb = Ok c /\ painted c dark_roles s) /\
  (scheme_light_content argb = Ok s -> exists c, cp_content_of argb = Ok c /\ painted c light_roles s) /\
  (scheme_dark_content argb = Ok s -> exists c, cp_content_of argb = Ok c /\ painted c dark_roles s).
Proof. exact (fun lm LA PS => legacy_renders LA PS). Qed.
Print Assumptions C103_legacy_schemes.
Example C103_legacy_case : exists s, @scheme_light ref_libm 0xFF6750A4 = Ok s.
Proof. exact (proj1 (legacy_ret ref_13 0xFF6750A4)). Qed.
