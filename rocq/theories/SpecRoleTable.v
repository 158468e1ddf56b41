(** * Vocabulary for the documented palette and default tone of every material role. *)
From Coq Require Import ZArith Bool List String Reals.
From Flocq Require Import Core IEEE754.BinarySingleNaN.
From Verif Require Import F64 Hct Palettes DynamicScheme DynamicColor MaterialDynamicColors.
Import ListNotations.
Open Scope string_scope.
Open Scope list_scope.
Open Scope Z_scope.

(** The six palettes of a scheme, and the roles coloured by each. *)
Definition role_palettes : list ((dynamic_scheme -> tonal_palette) * list string) :=
  [(ds_primary_palette,
    ["primary_palette_key_color"; "surface_tint"; "primary"; "on_primary"; "primary_container"; "on_primary_container";
     "inverse_primary"; "primary_fixed"; "primary_fixed_dim"; "on_primary_fixed"; "on_primary_fixed_variant"]);
   (ds_secondary_palette,
    ["secondary_palette_key_color"; "secondary"; "on_secondary"; "secondary_container"; "on_secondary_container";
     "secondary_fixed"; "secondary_fixed_dim"; "on_secondary_fixed"; "on_secondary_fixed_variant"]);
   (ds_tertiary_palette,
    ["tertiary_palette_key_color"; "tertiary"; "on_tertiary"; "tertiary_container"; "on_tertiary_container";
     "tertiary_fixed"; "tertiary_fixed_dim"; "on_tertiary_fixed"; "on_tertiary_fixed_variant"]);
   (ds_neutral_palette,
    ["neutral_palette_key_color"; "background"; "on_background"; "surface"; "surface_dim"; "surface_bright";
     "surface_container_lowest"; "surface_container_low"; "surface_container"; "surface_container_high";
     "surface_container_highest"; "on_surface"; "inverse_surface"; "inverse_on_surface"; "shadow"; "scrim"]);
   (ds_neutral_variant_palette,
    ["neutral_variant_palette_key_color"; "surface_variant"; "on_surface_variant"; "outline"; "outline_variant"]);
   (ds_error_palette,
    ["error"; "on_error"; "error_container"; "on_error_container"])].

(** A role with its tone in the light theme and its tone in the dark theme. *)
Definition tones : Set := string * (Z * Z).
(** The roles whose tone is the same at every contrast level. *)
Definition plain_tones : list tones :=
  [("background", (98, 6)); ("surface", (98, 6)); ("surface_variant", (90, 30)); ("inverse_surface", (20, 90));
   ("shadow", (0, 0)); ("scrim", (0, 0)); ("surface_tint", (40, 80))].
(** The other roles that look the same way in every variant at the default contrast level. *)
Definition shared_tones : list tones :=
  [("surface_dim", (87, 6)); ("surface_bright", (98, 24));
   ("surface_container_lowest", (100, 4)); ("surface_container_low", (96, 10)); ("surface_container", (94, 12));
   ("surface_container_high", (92, 17)); ("surface_container_highest", (90, 22));
   ("on_background", (10, 90)); ("on_surface", (10, 90)); ("on_surface_variant", (30, 80));
   ("inverse_on_surface", (95, 20)); ("outline", (50, 60)); ("outline_variant", (80, 30)); ("inverse_primary", (80, 40));
   ("error", (40, 80)); ("on_error", (100, 20)); ("error_container", (90, 30)); ("on_error_container", (10, 90))].
(** The fixed colours, in the monochrome variant and in all others. *)
Definition fixed_color_tones (monochrome : bool) : list tones :=
  if monochrome then
    [("primary_fixed", (40, 40)); ("primary_fixed_dim", (30, 30));
     ("on_primary_fixed", (100, 100)); ("on_primary_fixed_variant", (90, 90));
     ("secondary_fixed", (80, 80)); ("secondary_fixed_dim", (70, 70));
     ("on_secondary_fixed", (10, 10)); ("on_secondary_fixed_variant", (25, 25));
     ("tertiary_fixed", (40, 40)); ("tertiary_fixed_dim", (30, 30));
     ("on_tertiary_fixed", (100, 100)); ("on_tertiary_fixed_variant", (90, 90))]
  else
    [("primary_fixed", (90, 90)); ("primary_fixed_dim", (80, 80));
     ("on_primary_fixed", (10, 10)); ("on_primary_fixed_variant", (30, 30));
     ("secondary_fixed", (90, 90)); ("secondary_fixed_dim", (80, 80));
     ("on_secondary_fixed", (10, 10)); ("on_secondary_fixed_variant", (30, 30));
     ("tertiary_fixed", (90, 90)); ("tertiary_fixed_dim", (80, 80));
     ("on_tertiary_fixed", (10, 10)); ("on_tertiary_fixed_variant", (30, 30))].
(** The accents and their containers, in the monochrome variant and in the other variants that do not take them
    from the source colour. *)
Definition accent_tones (monochrome : bool) : list tones :=
  if monochrome then
    [("primary", (0, 100)); ("on_primary", (90, 10)); ("primary_container", (25, 85)); ("on_primary_container", (100, 0));
     ("secondary", (40, 80)); ("on_secondary", (100, 10)); ("secondary_container", (85, 30)); ("on_secondary_container", (10, 90));
     ("tertiary", (25, 90)); ("on_tertiary", (90, 10)); ("tertiary_container", (49, 60)); ("on_tertiary_container", (100, 0))]
  else
    [("primary", (40, 80)); ("on_primary", (100, 20)); ("primary_container", (90, 30)); ("on_primary_container", (10, 90));
     ("secondary", (40, 80)); ("on_secondary", (100, 20)); ("secondary_container", (90, 30)); ("on_secondary_container", (10, 90));
     ("tertiary", (40, 80)); ("on_tertiary", (100, 20)); ("tertiary_container", (90, 30)); ("on_tertiary_container", (10, 90))].

(** The tones documented for the variant at the default contrast level: the Fidelity and Content variants take
    the accents from the source colour, so no tone is listed for them. *)
Definition default_tones (v : variant) : list tones :=
  plain_tones ++ shared_tones ++
  match v with
  | Monochrome => fixed_color_tones true ++ accent_tones true
  | Fidelity | Content => fixed_color_tones false
  | _ => fixed_color_tones false ++ accent_tones false
  end.

(** The surfaces move with the contrast level: their tones in the light theme and in the dark theme, at the
    contrast levels up to -1 and 0, at 0.5, and from 1. *)
Definition surface_tones : list (string * ((Z * Z * Z) * (Z * Z * Z))) :=
  [("surface_dim", ((87, 80, 75), (6, 6, 6))); ("surface_bright", ((98, 98, 98), (24, 29, 34)));
   ("surface_container_lowest", ((100, 100, 100), (4, 2, 0))); ("surface_container_low", ((96, 96, 95), (10, 11, 12)));
   ("surface_container", ((94, 92, 90), (12, 16, 20))); ("surface_container_high", ((92, 88, 85), (17, 21, 25)));
   ("surface_container_highest", ((90, 84, 80), (22, 26, 30)))].
(** The tone [t] at the contrast level [x], for such a triple. *)
Definition at_levels (x t : f64) (low medium high : Z) : Prop :=
  (fle x (dec "-1.0") = true \/ feq x (dec "0.0") = true -> is_finite t = true /\ B2R t = IZR low) /\
  (feq x (dec "0.5") = true -> is_finite t = true /\ B2R t = IZR medium) /\
  (fle (dec "1.0") x = true -> is_finite t = true /\ B2R t = IZR high).
