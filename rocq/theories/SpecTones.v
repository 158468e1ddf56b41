(** * Vocabulary for the properties of resolved tones. *)
From Coq Require Import ZArith Bool List String Reals.
From Flocq Require Import Core IEEE754.BinarySingleNaN.
From Verif Require Import F64 Hct Contrast Palettes DynamicScheme DynamicColor MaterialDynamicColors.
Import ListNotations.
Open Scope string_scope.
Open Scope list_scope.
Open Scope R_scope.

(** A finite number from 0 to 100. *)
Definition is_tone (t : f64) : Prop := is_finite t = true /\ 0 <= B2R t <= 100.

Section WithLibm.
Context {lm : Libm}.
(** The tone of the material role of that name in the scheme [s]. *)
Definition tone_of (s : dynamic_scheme) (name : string) : res f64 :=
  match find (fun r => String.eqb name (rc_name (dc_core r))) all_roles with
  | Some role => get_tone role s
  | None => Panic
  end.

(** The scheme takes its container tones from fixed tables... *)
Definition fixed_tones (s : dynamic_scheme) : Prop := ds_variant s <> Fidelity /\ ds_variant s <> Content.
(** ... or, in the Fidelity and Content variants, from its source colour: from the source colour itself, from
    a search for a tone at which the secondary chroma exists, and from the tertiary palette's colour at the
    source tone after disliked colours are lightened. *)
Definition source_tones (s : dynamic_scheme) : Prop :=
  is_tone (h_tone (ds_source_color_hct s)) /\
  (exists t, find_desired_chroma_by_tone (tp_hue (ds_secondary_palette s)) (tp_chroma (ds_secondary_palette s))
     (if ds_is_dark s then dec "30.0" else dec "90.0") (negb (ds_is_dark s)) = Ok t /\ is_tone t) /\
  (exists proposed fixed, tp_get_hct (ds_tertiary_palette s) (h_tone (ds_source_color_hct s)) = Ok proposed /\
     fix_if_disliked proposed = Ok fixed /\ is_tone (h_tone fixed)).
End WithLibm.

(** Some tone has at least the contrast ratio [r] with every tone of the list. *)
Definition achievable (backgrounds : list f64) (r : f64) : Prop :=
  exists u, is_tone u /\ Forall (fun b => fle r (ratio_of_tones u b) = true) backgrounds.

(** The five key colour roles; every other material role derives its tone from fixed tables, the
    contrast level, and (in the Fidelity and Content variants) the source colour. *)
Definition key_color_roles : list string :=
  ["primary_palette_key_color"; "secondary_palette_key_color"; "tertiary_palette_key_color";
   "neutral_palette_key_color"; "neutral_variant_palette_key_color"].

(** The accent colours and the containers that go with them. *)
Definition accents : list (string * string) :=
  [("primary", "primary_container"); ("secondary", "secondary_container");
   ("tertiary", "tertiary_container"); ("error", "error_container")].
(** The fixed colours and their dim companions. *)
Definition fixed_pairs : list (string * string) :=
  [("primary_fixed", "primary_fixed_dim"); ("secondary_fixed", "secondary_fixed_dim");
   ("tertiary_fixed", "tertiary_fixed_dim")].

(** The roles for text, icons and lines, with the background each is read against and the contrast ratios asked
    of it at the contrast levels -1, 0, 0.5 and 1. *)
Definition curve (low normal medium high : string) : contrast_curve :=
  {| cc_low := dec low; cc_normal := dec normal; cc_medium := dec medium; cc_high := dec high |}.
Definition foregrounds (dark : bool) : list (string * string * contrast_curve) :=
  let highest := if dark then "surface_bright" else "surface_dim" in
  let text := curve "4.5" "7.0" "11.0" "21.0" in
  [("on_background", "background", curve "3.0" "3.0" "4.5" "7.0");
   ("on_surface", highest, text);
   ("on_surface_variant", highest, curve "3.0" "4.5" "7.0" "11.0");
   ("inverse_on_surface", "inverse_surface", text);
   ("inverse_primary", "inverse_surface", curve "3.0" "4.5" "7.0" "7.0");
   ("outline", highest, curve "1.5" "3.0" "4.5" "7.0");
   ("outline_variant", highest, curve "1.0" "1.0" "3.0" "4.5");
   ("on_primary", "primary", text); ("on_primary_container", "primary_container", text);
   ("on_secondary", "secondary", text); ("on_secondary_container", "secondary_container", text);
   ("on_tertiary", "tertiary", text); ("on_tertiary_container", "tertiary_container", text);
   ("on_error", "error", text); ("on_error_container", "error_container", text)].
(** Text on a fixed colour is read against the fixed colour and against its dim companion. *)
Definition fixed_foregrounds : list (string * (string * string) * contrast_curve) :=
  let text := curve "4.5" "7.0" "11.0" "21.0" in
  let variant := curve "3.0" "4.5" "7.0" "11.0" in
  [("on_primary_fixed", ("primary_fixed_dim", "primary_fixed"), text);
   ("on_primary_fixed_variant", ("primary_fixed_dim", "primary_fixed"), variant);
   ("on_secondary_fixed", ("secondary_fixed_dim", "secondary_fixed"), text);
   ("on_secondary_fixed_variant", ("secondary_fixed_dim", "secondary_fixed"), variant);
   ("on_tertiary_fixed", ("tertiary_fixed_dim", "tertiary_fixed"), text);
   ("on_tertiary_fixed_variant", ("tertiary_fixed_dim", "tertiary_fixed"), variant)].
