(** * Which roles of the legacy scheme are drawn on which. *)
From Coq Require Import ZArith List String.
From Verif Require Import F64 Hct DynamicScheme DynamicColor MaterialDynamicColors LegacyScheme.
Import ListNotations.

(** Text and icons with their background (Material 3: each "on" role is meant for the role it names; the accents and the
    inverse primary are used as text on surfaces). *)
Definition text_pairs : list ((scheme -> Z) * (scheme -> Z)) :=
  [ (sc_on_primary, sc_primary); (sc_on_primary_container, sc_primary_container);
    (sc_on_secondary, sc_secondary); (sc_on_secondary_container, sc_secondary_container);
    (sc_on_tertiary, sc_tertiary); (sc_on_tertiary_container, sc_tertiary_container);
    (sc_on_error, sc_error); (sc_on_error_container, sc_error_container);
    (sc_on_background, sc_background); (sc_on_surface, sc_surface); (sc_on_surface_variant, sc_surface_variant);
    (sc_on_surface, sc_surface_variant); (sc_on_surface_variant, sc_surface);
    (sc_inverse_on_surface, sc_inverse_surface); (sc_inverse_primary, sc_inverse_surface);
    (sc_primary, sc_surface); (sc_secondary, sc_surface); (sc_tertiary, sc_surface); (sc_error, sc_surface) ].

(** Outlines of components. *)
Definition line_pairs : list ((scheme -> Z) * (scheme -> Z)) :=
  [ (sc_outline, sc_surface); (sc_outline, sc_background) ].

(** The colour of the material role of that name in the dynamic scheme [s]. *)
Definition color_of {lm : Libm} (s : dynamic_scheme) (name : string) : res hct :=
  match find (fun r => String.eqb name (rc_name (dc_core r))) all_roles with
  | Some role => ds_get_hct s role
  | None => Panic
  end.
