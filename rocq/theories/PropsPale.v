(** * C104: a request for a pale colour of middle tone is always answered exactly.  Theorems only.

    [faithful hue chroma argb] (SpecPale.v): by the published model CAM16, [argb] is the rounding of a linear colour of that hue and chroma. *)
From Coq Require Import ZArith Bool Reals String List.
From Flocq Require Import Core IEEE754.BinarySingleNaN.
From Verif Require Import F64 MathUtils ColorUtils ViewingConditions HctSolver Hct Palettes LegacyScheme DynamicScheme DynamicColor MaterialDynamicColors Schemes Spec SpecScheme SpecTones SpecToneRoles SpecCam SpecTone SpecHct SpecPalette SpecPale RefLibm PfCamProps PfToneRange PfPaleEnd PfPaleUse.
Import ListNotations.
Open Scope string_scope.
Open Scope R_scope.

(** Every hue has a colour of every chroma up to 4 and every tone from 21 to 92, of every chroma up to 6 and every tone from 24 to 90, of
    every chroma up to 8 and every tone from 52 to 87, and so on ([pale], SpecPale.v), and the library finds it. *)
Theorem C104_pale : forall lm : Libm, libm_accurate (1 / 10 ^ 13) lm -> pow_special lm -> forall hue chroma tone : f64,
  is_finite hue = true -> is_finite chroma = true -> 0.00011 <= B2R chroma -> is_finite tone = true -> pale (B2R chroma) (B2R tone) ->
  exists h, hct_from hue chroma tone = Ok h /\ (B2R tone - 1 <= B2R (h_tone h) <= B2R tone + 1) /\ faithful hue chroma (hct_to_int h).
Proof. exact (fun lm LA PS => pale_hct LA PS). Qed.
Print Assumptions C104_pale.
Example C104_library : libm_accurate (1 / 10 ^ 13) ref_libm /\ pow_special ref_libm.
Proof. exact (conj ref_13 ref_pow_special). Qed.
Example C104_case : is_finite (dec "200.0") = true /\ is_finite (dec "4.0") = true /\ 0.00011 <= B2R (dec "4.0") /\
  is_finite (dec "50.0") = true /\ pale (B2R (dec "4.0")) (B2R (dec "50.0")) /\ pale 6 24 /\ pale 8 (IZR 87).
Proof. exact pale_case. Qed.

(** The search on the lightness answers every such request: the bisection at the limit of the gamut is not used. *)
Theorem C104_search : forall lm : Libm, libm_accurate (1 / 10 ^ 13) lm -> pow_special lm -> forall hue chroma y : f64,
  is_finite hue = true -> is_finite chroma = true -> 0.0001 <= B2R chroma -> is_finite y = true ->
  (B2R chroma <= 4 /\ 3 <= B2R y <= 82.5 \/ B2R chroma <= 5.5 /\ 3 <= B2R y <= 77 \/ B2R chroma <= 6 /\ 4 <= B2R y <= 77 \/ B2R chroma <= 8 /\ 20 <= B2R y <= 71 \/ B2R chroma <= 10 /\ 20 <= B2R y <= 52) ->
  exists argb, find_result_by_j (fmul (fdiv (sanitize_degrees_double hue) (dec "180.0")) PI64) chroma y = Ok argb /\ argb <> 0%Z.
Proof. exact (fun lm LA PS => pale_found LA PS). Qed.
Print Assumptions C104_search.

(** The same for the colours of a pale palette, whatever was read from it before. *)
Theorem C104_palette : forall lm : Libm, libm_accurate (1 / 10 ^ 13) lm -> pow_special lm ->
  forall (hue chroma : f64) (p : tonal_palette) (before : list Z) (p' : tonal_palette) (tone : Z),
  tp_of hue chroma = Ok p -> after_gets p before = Ok p' ->
  is_finite hue = true -> is_finite chroma = true -> 0.00011 <= B2R chroma -> pale (B2R chroma) (IZR tone) ->
  exists c, rmap fst (tp_get p' tone) = Ok c /\ faithful hue chroma c.
Proof. exact (fun lm LA PS => pale_palette LA PS). Qed.
Print Assumptions C104_palette.

(** The neutral palette of every source colour has the hue of that colour and the chroma 4, exactly, at these tones. *)
Theorem C104_neutral : forall lm : Libm, libm_accurate (1 / 10 ^ 13) lm -> pow_special lm ->
  forall (argb : Z) (c : core_palette) (before : list Z) (p' : tonal_palette) (tone : Z),
  cp_of argb = Ok c -> after_gets (cp_neutral c) before = Ok p' -> (21 <= tone <= 92)%Z ->
  exists h k, hct_from_int argb = Ok h /\ rmap fst (tp_get p' tone) = Ok k /\ faithful (h_hue h) (dec "4.0") k.
Proof. exact (fun lm LA PS => pale_neutral LA PS). Qed.
Print Assumptions C104_neutral.
Example C104_neutral_case : forall argb : Z, exists c, @cp_of ref_libm argb = Ok c.
Proof. exact neutral_case. Qed.

(** The neutral variant palette has the chroma 8 at the tones 52 to 87. *)
Theorem C104_neutral_variant : forall lm : Libm, libm_accurate (1 / 10 ^ 13) lm -> pow_special lm ->
  forall (argb : Z) (c : core_palette) (before : list Z) (p' : tonal_palette) (tone : Z),
  cp_of argb = Ok c -> after_gets (cp_neutral_variant c) before = Ok p' -> (52 <= tone <= 87)%Z ->
  exists h k, hct_from_int argb = Ok h /\ rmap fst (tp_get p' tone) = Ok k /\ faithful (h_hue h) (dec "8.0") k.
Proof. exact (fun lm LA PS => pale_variant LA PS). Qed.
Print Assumptions C104_neutral_variant.

(** A role of a constructed scheme, whose palette is pale for the tone of the role, has exactly the hue and the chroma of its palette. *)
Theorem C104_roles : forall lm : Libm, libm_accurate (1 / 10 ^ 13) lm -> pow_special lm ->
  forall (v : variant) (argb : Z) (source : hct) (dark : bool) (level : f64) (s : dynamic_scheme) (role : dynamic_color) (t : f64),
  hct_from_int argb = Ok source -> construct v source dark level = Ok s -> In role all_roles ->
  get_tone role s = Ok t -> is_finite t = true ->
  0.00011 <= B2R (tp_chroma (dc_palette role s)) -> pale (B2R (tp_chroma (dc_palette role s))) (B2R t) ->
  exists h, ds_get_hct s role = Ok h /\ faithful (tp_hue (dc_palette role s)) (tp_chroma (dc_palette role s)) (hct_to_int h).
Proof. exact (fun lm LA PS => pale_role LA PS). Qed.
Print Assumptions C104_roles.
Example C104_role_case : exists source s t, @hct_from_int ref_libm 0xFF4285F4 = Ok source /\ @construct ref_libm TonalSpot source true (dec "1.0") = Ok s /\
  In surface_bright (@all_roles ref_libm) /\ @get_tone ref_libm surface_bright s = Ok t /\ is_finite t = true /\
  0.00011 <= B2R (tp_chroma (dc_palette surface_bright s)) /\ pale (B2R (tp_chroma (dc_palette surface_bright s))) (B2R t).
Proof. exact bright_case. Qed.

(** A setter that is called with a pale result has exactly the hue and the chroma that it keeps or sets. *)
Theorem C104_setters : forall lm : Libm, libm_accurate (1 / 10 ^ 13) lm -> pow_special lm ->
  forall (argb : Z) (h : hct) (calls : list setter) (h1 h2 : hct) (x : f64),
  hct_from_int argb = Ok h -> call_setters h calls = Ok h1 -> is_finite x = true ->
  (set_hue h1 x = Ok h2 -> 0.00011 <= B2R (h_chroma h1) -> pale (B2R (h_chroma h1)) (B2R (h_tone h1)) -> faithful x (h_chroma h1) (hct_to_int h2)) /\
  (set_chroma h1 x = Ok h2 -> 0.00011 <= B2R x -> pale (B2R x) (B2R (h_tone h1)) -> faithful (h_hue h1) x (hct_to_int h2)) /\
  (set_tone h1 x = Ok h2 -> 0.00011 <= B2R (h_chroma h1) -> pale (B2R (h_chroma h1)) (B2R x) -> faithful (h_hue h1) (h_chroma h1) (hct_to_int h2)).
Proof. exact (fun lm LA PS => set_pale LA PS). Qed.
Print Assumptions C104_setters.
Example C104_setter_case : forall argb : Z, exists h h1 h2, @hct_from_int ref_libm argb = Ok h /\
  @call_setters ref_libm h [SetChroma (dec "3.0"); SetTone (dec "50.0")] = Ok h1 /\
  @set_chroma ref_libm h1 (dec "4.0") = Ok h2 /\ 0.00011 <= B2R (dec "4.0") /\ pale (B2R (dec "4.0")) (B2R (h_tone h1)).
Proof. exact set_pale_case. Qed.

(** In the older schemes the neutral roles of middle tone have the hue of the source colour and the chroma 4 or 8, whatever that colour is. *)
Theorem C104_legacy_schemes : forall lm : Libm, libm_accurate (1 / 10 ^ 13) lm -> pow_special lm -> forall (argb : Z) (s : scheme),
  (scheme_light argb = Ok s -> exists h, hct_from_int argb = Ok h /\ faithful (h_hue h) (dec "8.0") (sc_outline_variant s)) /\
  (scheme_dark argb = Ok s -> exists h, hct_from_int argb = Ok h /\
     faithful (h_hue h) (dec "4.0") (sc_on_background s) /\ faithful (h_hue h) (dec "4.0") (sc_on_surface s) /\
     faithful (h_hue h) (dec "4.0") (sc_inverse_surface s) /\
     faithful (h_hue h) (dec "8.0") (sc_on_surface_variant s) /\ faithful (h_hue h) (dec "8.0") (sc_outline s)).
Proof. exact (fun lm LA PS => pale_legacy LA PS). Qed.
Print Assumptions C104_legacy_schemes.
Example C104_legacy_case : (exists s, @scheme_light ref_libm 0xFF6750A4 = Ok s) /\ (exists s, @scheme_dark ref_libm 0xFF6750A4 = Ok s).
Proof. exact pale_legacy_case. Qed.
