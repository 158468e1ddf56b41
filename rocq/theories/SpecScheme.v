(** * Vocabulary for the dynamic scheme properties. *)
From Coq Require Import ZArith Bool List String.
From Flocq Require Import Core IEEE754.BinarySingleNaN.
From Verif Require Import F64 MathUtils Hct Palettes DynamicScheme DynamicColor Temperature Schemes SpecPalette.
Import ListNotations.
Open Scope Z_scope.

(** ** Grey colours *)
Definition is_grey (c : Z) : Prop := exists v, 0 <= v <= 255 /\ c = 0xFF000000 + 65536 * v + 256 * v + v.

Section WithLibm.
Context {lm : Libm}.

(** ** Histories of one DynamicColor *)
(** The answers to a sequence of [get_hct] calls on one DynamicColor, and the cache afterwards. *)
Fixpoint answers (role : dynamic_color) (cache : list (dynamic_scheme * hct)) (ss : list dynamic_scheme)
    : res (list hct * list (dynamic_scheme * hct)) :=
  match ss with
  | [] => Ok ([], cache)
  | s :: ss' => bind (dc_get_hct role cache s) (fun r =>
                bind (answers role (snd r) ss') (fun rs => Ok (fst r :: fst rs, snd rs)))
  end.
(** The answer a DynamicColor gives when it has never been asked anything. *)
Definition uncached (role : dynamic_color) (s : dynamic_scheme) : res hct := rmap fst (dc_get_hct role [] s).

(** [s'] is [s] after its palettes have served some [get] calls. *)
Definition read_from (s s' : dynamic_scheme) : Prop :=
  ds_source_color_argb s' = ds_source_color_argb s /\
  ds_source_color_hct s' = ds_source_color_hct s /\
  ds_variant s' = ds_variant s /\ ds_is_dark s' = ds_is_dark s /\ ds_contrast_level s' = ds_contrast_level s /\
  forall sel, In sel [ds_primary_palette; ds_secondary_palette; ds_tertiary_palette; ds_neutral_palette;
                      ds_neutral_variant_palette; ds_error_palette] ->
    exists tones, after_gets (sel s) tones = Ok (sel s').

(** No NaN in the fields that equality looks at, and no palette made by [from_list]. *)
Definition plain_scheme (s : dynamic_scheme) : Prop :=
  is_nan (ds_contrast_level s) = false /\
  forall sel, In sel [ds_primary_palette; ds_secondary_palette; ds_tertiary_palette; ds_neutral_palette;
                      ds_neutral_variant_palette; ds_error_palette] ->
    tp_is_from_cache (sel s) = false /\ is_nan (tp_hue (sel s)) = false /\ is_nan (tp_chroma (sel s)) = false.

(** ** The nine constructors *)
Definition construct (v : variant) (source : hct) (is_dark : bool) (contrast_level : f64) : res dynamic_scheme :=
  match v with
  | Monochrome => scheme_monochrome source is_dark contrast_level
  | Neutral => scheme_neutral source is_dark contrast_level
  | TonalSpot => scheme_tonal_spot source is_dark contrast_level
  | Vibrant => scheme_vibrant source is_dark contrast_level
  | Expressive => scheme_expressive source is_dark contrast_level
  | Content => scheme_content source is_dark contrast_level
  | Fidelity => scheme_fidelity source is_dark contrast_level
  | Rainbow => scheme_rainbow source is_dark contrast_level
  | FruitSalad => scheme_fruit_salad source is_dark contrast_level
  end.

(** Five palettes in the order primary, secondary, tertiary, neutral, neutral variant. *)
Definition five (s : dynamic_scheme) : list tonal_palette :=
  [ds_primary_palette s; ds_secondary_palette s; ds_tertiary_palette s; ds_neutral_palette s; ds_neutral_variant_palette s].

(** The documented hue and chroma of each palette, for the seven variants that do not depend on the
    source's chroma. *)
Definition same_hue (source : hct) : res f64 := Ok (h_hue source).
Definition turned (source : hct) (degrees : Z) : res f64 :=
  Ok (sanitize_degrees_double (fadd (h_hue source) (of_Z degrees))).
Definition banded (source : hct) (hues rotations : list Z) : res f64 :=
  get_rotated_hue source (map of_Z hues) (map of_Z rotations).
Definition documented (v : variant) (source : hct) : list (res f64 * Z) :=
  let same := same_hue source in
  let vibrant_bands := [0; 41; 61; 101; 131; 181; 251; 301; 360] in
  let expressive_bands := [0; 21; 51; 121; 151; 191; 271; 321; 360] in
  match v with
  | Monochrome => [(same, 0); (same, 0); (same, 0); (same, 0); (same, 0)]
  | Neutral => [(same, 12); (same, 8); (same, 16); (same, 2); (same, 2)]
  | TonalSpot => [(same, 36); (same, 16); (turned source 60, 24); (same, 6); (same, 8)]
  | Rainbow => [(same, 48); (same, 16); (turned source 60, 24); (same, 0); (same, 0)]
  | FruitSalad => [(turned source (-50), 48); (turned source (-50), 36); (same, 36); (same, 10); (same, 16)]
  | Vibrant => [(same, 200); (banded source vibrant_bands [18; 15; 10; 12; 15; 18; 15; 12; 12], 24);
                (banded source vibrant_bands [35; 30; 20; 25; 30; 35; 30; 25; 25], 32); (same, 10); (same, 12)]
  | Expressive => [(turned source 240, 40);
                   (banded source expressive_bands [45; 95; 45; 20; 45; 90; 45; 45; 45], 24);
                   (banded source expressive_bands [120; 120; 20; 45; 20; 15; 20; 120; 120], 32);
                   (Ok (fadd (h_hue source) (of_Z 15)), 8); (Ok (fadd (h_hue source) (of_Z 15)), 12)]
  | Content | Fidelity => []
  end.
End WithLibm.
