(** * Vocabulary for the palette properties: histories of [get] calls and the table of role tones. *)
From Coq Require Import ZArith List String.
From Verif Require Import F64 Palettes LegacyScheme.
Import ListNotations.
Open Scope Z_scope.

Section WithLibm.
Context {lm : Libm}.
(** The palette after a list of [get] calls, [Panic] as soon as one of them panics. *)
Fixpoint after_gets (p : tonal_palette) (tones : list Z) : res tonal_palette :=
  match tones with
  | [] => Ok p
  | t :: ts => bind (tp_get p t) (fun r => after_gets (snd r) ts)
  end.
End WithLibm.

(** The thirteen common tones of the documentation. *)
Definition common_tones : list Z := [0; 10; 20; 30; 40; 50; 60; 70; 80; 90; 95; 99; 100].

(** Role, palette and tone of the light and the dark legacy scheme (Material 3 baseline table). *)
Definition light_roles : list ((scheme -> Z) * pal * Z) :=
  [ (sc_primary, Primary, 40); (sc_on_primary, Primary, 100);
    (sc_primary_container, Primary, 90); (sc_on_primary_container, Primary, 10);
    (sc_secondary, Secondary, 40); (sc_on_secondary, Secondary, 100);
    (sc_secondary_container, Secondary, 90); (sc_on_secondary_container, Secondary, 10);
    (sc_tertiary, Tertiary, 40); (sc_on_tertiary, Tertiary, 100);
    (sc_tertiary_container, Tertiary, 90); (sc_on_tertiary_container, Tertiary, 10);
    (sc_error, Error, 40); (sc_on_error, Error, 100);
    (sc_error_container, Error, 90); (sc_on_error_container, Error, 10);
    (sc_background, Neutral, 99); (sc_on_background, Neutral, 10);
    (sc_surface, Neutral, 99); (sc_on_surface, Neutral, 10);
    (sc_surface_variant, NeutralVariant, 90); (sc_on_surface_variant, NeutralVariant, 30);
    (sc_outline, NeutralVariant, 50); (sc_outline_variant, NeutralVariant, 80);
    (sc_shadow, Neutral, 0); (sc_scrim, Neutral, 0);
    (sc_inverse_surface, Neutral, 20); (sc_inverse_on_surface, Neutral, 95);
    (sc_inverse_primary, Primary, 80) ].
Definition dark_roles : list ((scheme -> Z) * pal * Z) :=
  [ (sc_primary, Primary, 80); (sc_on_primary, Primary, 20);
    (sc_primary_container, Primary, 30); (sc_on_primary_container, Primary, 90);
    (sc_secondary, Secondary, 80); (sc_on_secondary, Secondary, 20);
    (sc_secondary_container, Secondary, 30); (sc_on_secondary_container, Secondary, 90);
    (sc_tertiary, Tertiary, 80); (sc_on_tertiary, Tertiary, 20);
    (sc_tertiary_container, Tertiary, 30); (sc_on_tertiary_container, Tertiary, 90);
    (sc_error, Error, 80); (sc_on_error, Error, 20);
    (sc_error_container, Error, 30); (sc_on_error_container, Error, 80);
    (sc_background, Neutral, 10); (sc_on_background, Neutral, 90);
    (sc_surface, Neutral, 10); (sc_on_surface, Neutral, 90);
    (sc_surface_variant, NeutralVariant, 30); (sc_on_surface_variant, NeutralVariant, 80);
    (sc_outline, NeutralVariant, 60); (sc_outline_variant, NeutralVariant, 30);
    (sc_shadow, Neutral, 0); (sc_scrim, Neutral, 0);
    (sc_inverse_surface, Neutral, 90); (sc_inverse_on_surface, Neutral, 20);
    (sc_inverse_primary, Primary, 40) ].
