(** * Model of /repo/src/scheme/scheme.rs (legacy Scheme) *)
From Coq Require Import ZArith Bool String List.
From Verif Require Import F64 Palettes.
Import ListNotations.
Open Scope Z_scope.

(** scheme.rs 8-38: struct Scheme. *)
Record scheme := {
  sc_primary : Z;
  sc_on_primary : Z;
  sc_primary_container : Z;
  sc_on_primary_container : Z;
  sc_secondary : Z;
  sc_on_secondary : Z;
  sc_secondary_container : Z;
  sc_on_secondary_container : Z;
  sc_tertiary : Z;
  sc_on_tertiary : Z;
  sc_tertiary_container : Z;
  sc_on_tertiary_container : Z;
  sc_error : Z;
  sc_on_error : Z;
  sc_error_container : Z;
  sc_on_error_container : Z;
  sc_background : Z;
  sc_on_background : Z;
  sc_surface : Z;
  sc_on_surface : Z;
  sc_surface_variant : Z;
  sc_on_surface_variant : Z;
  sc_outline : Z;
  sc_outline_variant : Z;
  sc_shadow : Z;
  sc_scrim : Z;
  sc_inverse_surface : Z;
  sc_inverse_on_surface : Z;
  sc_inverse_primary : Z
}.

(** Which palette of a CorePalette is addressed ([palette.primary] etc.). *)
Inductive pal := Primary | Secondary | Tertiary | Neutral | NeutralVariant | Error.

Definition cp_sel (c : core_palette) (p : pal) : tonal_palette :=
  match p with
  | Primary => cp_primary c | Secondary => cp_secondary c | Tertiary => cp_tertiary c
  | Neutral => cp_neutral c | NeutralVariant => cp_neutral_variant c | Error => cp_error c
  end.

Definition cp_upd (c : core_palette) (p : pal) (t : tonal_palette) : core_palette :=
  {| cp_primary := match p with Primary => t | _ => cp_primary c end;
     cp_secondary := match p with Secondary => t | _ => cp_secondary c end;
     cp_tertiary := match p with Tertiary => t | _ => cp_tertiary c end;
     cp_neutral := match p with Neutral => t | _ => cp_neutral c end;
     cp_neutral_variant := match p with NeutralVariant => t | _ => cp_neutral_variant c end;
     cp_error := match p with Error => t | _ => cp_error c end |}.

Section WithLibm.
Context {lm : Libm}.

(** [palette.<p>.get(tone)] on a mutable CorePalette. *)
Definition cp_get (c : core_palette) (p : pal) (tone : Z) : res (Z * core_palette) :=
  do r <- tp_get (cp_sel c p) tone;
  Ok (fst r, cp_upd c p (snd r)).

(** scheme.rs 56-88: [light_from_core_palette]. *)
Definition light_from_core_palette (c : core_palette) : res scheme :=
  do x0 <- cp_get c Primary 40;
  let '(v_primary, c) := x0 in
  do x1 <- cp_get c Primary 100;
  let '(v_on_primary, c) := x1 in
  do x2 <- cp_get c Primary 90;
  let '(v_primary_container, c) := x2 in
  do x3 <- cp_get c Primary 10;
  let '(v_on_primary_container, c) := x3 in
  do x4 <- cp_get c Secondary 40;
  let '(v_secondary, c) := x4 in
  do x5 <- cp_get c Secondary 100;
  let '(v_on_secondary, c) := x5 in
  do x6 <- cp_get c Secondary 90;
  let '(v_secondary_container, c) := x6 in
  do x7 <- cp_get c Secondary 10;
  let '(v_on_secondary_container, c) := x7 in
  do x8 <- cp_get c Tertiary 40;
  let '(v_tertiary, c) := x8 in
  do x9 <- cp_get c Tertiary 100;
  let '(v_on_tertiary, c) := x9 in
  do x10 <- cp_get c Tertiary 90;
  let '(v_tertiary_container, c) := x10 in
  do x11 <- cp_get c Tertiary 10;
  let '(v_on_tertiary_container, c) := x11 in
  do x12 <- cp_get c Error 40;
  let '(v_error, c) := x12 in
  do x13 <- cp_get c Error 100;
  let '(v_on_error, c) := x13 in
  do x14 <- cp_get c Error 90;
  let '(v_error_container, c) := x14 in
  do x15 <- cp_get c Error 10;
  let '(v_on_error_container, c) := x15 in
  do x16 <- cp_get c Neutral 99;
  let '(v_background, c) := x16 in
  do x17 <- cp_get c Neutral 10;
  let '(v_on_background, c) := x17 in
  do x18 <- cp_get c Neutral 99;
  let '(v_surface, c) := x18 in
  do x19 <- cp_get c Neutral 10;
  let '(v_on_surface, c) := x19 in
  do x20 <- cp_get c NeutralVariant 90;
  let '(v_surface_variant, c) := x20 in
  do x21 <- cp_get c NeutralVariant 30;
  let '(v_on_surface_variant, c) := x21 in
  do x22 <- cp_get c NeutralVariant 50;
  let '(v_outline, c) := x22 in
  do x23 <- cp_get c NeutralVariant 80;
  let '(v_outline_variant, c) := x23 in
  do x24 <- cp_get c Neutral 0;
  let '(v_shadow, c) := x24 in
  do x25 <- cp_get c Neutral 0;
  let '(v_scrim, c) := x25 in
  do x26 <- cp_get c Neutral 20;
  let '(v_inverse_surface, c) := x26 in
  do x27 <- cp_get c Neutral 95;
  let '(v_inverse_on_surface, c) := x27 in
  do x28 <- cp_get c Primary 80;
  let '(v_inverse_primary, c) := x28 in
  Ok {| sc_primary := v_primary;
        sc_on_primary := v_on_primary;
        sc_primary_container := v_primary_container;
        sc_on_primary_container := v_on_primary_container;
        sc_secondary := v_secondary;
        sc_on_secondary := v_on_secondary;
        sc_secondary_container := v_secondary_container;
        sc_on_secondary_container := v_on_secondary_container;
        sc_tertiary := v_tertiary;
        sc_on_tertiary := v_on_tertiary;
        sc_tertiary_container := v_tertiary_container;
        sc_on_tertiary_container := v_on_tertiary_container;
        sc_error := v_error;
        sc_on_error := v_on_error;
        sc_error_container := v_error_container;
        sc_on_error_container := v_on_error_container;
        sc_background := v_background;
        sc_on_background := v_on_background;
        sc_surface := v_surface;
        sc_on_surface := v_on_surface;
        sc_surface_variant := v_surface_variant;
        sc_on_surface_variant := v_on_surface_variant;
        sc_outline := v_outline;
        sc_outline_variant := v_outline_variant;
        sc_shadow := v_shadow;
        sc_scrim := v_scrim;
        sc_inverse_surface := v_inverse_surface;
        sc_inverse_on_surface := v_inverse_on_surface;
        sc_inverse_primary := v_inverse_primary |}.

(** scheme.rs 89-121: [dark_from_core_palette]. *)
Definition dark_from_core_palette (c : core_palette) : res scheme :=
  do x0 <- cp_get c Primary 80;
  let '(v_primary, c) := x0 in
  do x1 <- cp_get c Primary 20;
  let '(v_on_primary, c) := x1 in
  do x2 <- cp_get c Primary 30;
  let '(v_primary_container, c) := x2 in
  do x3 <- cp_get c Primary 90;
  let '(v_on_primary_container, c) := x3 in
  do x4 <- cp_get c Secondary 80;
  let '(v_secondary, c) := x4 in
  do x5 <- cp_get c Secondary 20;
  let '(v_on_secondary, c) := x5 in
  do x6 <- cp_get c Secondary 30;
  let '(v_secondary_container, c) := x6 in
  do x7 <- cp_get c Secondary 90;
  let '(v_on_secondary_container, c) := x7 in
  do x8 <- cp_get c Tertiary 80;
  let '(v_tertiary, c) := x8 in
  do x9 <- cp_get c Tertiary 20;
  let '(v_on_tertiary, c) := x9 in
  do x10 <- cp_get c Tertiary 30;
  let '(v_tertiary_container, c) := x10 in
  do x11 <- cp_get c Tertiary 90;
  let '(v_on_tertiary_container, c) := x11 in
  do x12 <- cp_get c Error 80;
  let '(v_error, c) := x12 in
  do x13 <- cp_get c Error 20;
  let '(v_on_error, c) := x13 in
  do x14 <- cp_get c Error 30;
  let '(v_error_container, c) := x14 in
  do x15 <- cp_get c Error 80;
  let '(v_on_error_container, c) := x15 in
  do x16 <- cp_get c Neutral 10;
  let '(v_background, c) := x16 in
  do x17 <- cp_get c Neutral 90;
  let '(v_on_background, c) := x17 in
  do x18 <- cp_get c Neutral 10;
  let '(v_surface, c) := x18 in
  do x19 <- cp_get c Neutral 90;
  let '(v_on_surface, c) := x19 in
  do x20 <- cp_get c NeutralVariant 30;
  let '(v_surface_variant, c) := x20 in
  do x21 <- cp_get c NeutralVariant 80;
  let '(v_on_surface_variant, c) := x21 in
  do x22 <- cp_get c NeutralVariant 60;
  let '(v_outline, c) := x22 in
  do x23 <- cp_get c NeutralVariant 30;
  let '(v_outline_variant, c) := x23 in
  do x24 <- cp_get c Neutral 0;
  let '(v_shadow, c) := x24 in
  do x25 <- cp_get c Neutral 0;
  let '(v_scrim, c) := x25 in
  do x26 <- cp_get c Neutral 90;
  let '(v_inverse_surface, c) := x26 in
  do x27 <- cp_get c Neutral 20;
  let '(v_inverse_on_surface, c) := x27 in
  do x28 <- cp_get c Primary 40;
  let '(v_inverse_primary, c) := x28 in
  Ok {| sc_primary := v_primary;
        sc_on_primary := v_on_primary;
        sc_primary_container := v_primary_container;
        sc_on_primary_container := v_on_primary_container;
        sc_secondary := v_secondary;
        sc_on_secondary := v_on_secondary;
        sc_secondary_container := v_secondary_container;
        sc_on_secondary_container := v_on_secondary_container;
        sc_tertiary := v_tertiary;
        sc_on_tertiary := v_on_tertiary;
        sc_tertiary_container := v_tertiary_container;
        sc_on_tertiary_container := v_on_tertiary_container;
        sc_error := v_error;
        sc_on_error := v_on_error;
        sc_error_container := v_error_container;
        sc_on_error_container := v_on_error_container;
        sc_background := v_background;
        sc_on_background := v_on_background;
        sc_surface := v_surface;
        sc_on_surface := v_on_surface;
        sc_surface_variant := v_surface_variant;
        sc_on_surface_variant := v_on_surface_variant;
        sc_outline := v_outline;
        sc_outline_variant := v_outline_variant;
        sc_shadow := v_shadow;
        sc_scrim := v_scrim;
        sc_inverse_surface := v_inverse_surface;
        sc_inverse_on_surface := v_inverse_on_surface;
        sc_inverse_primary := v_inverse_primary |}.

(** scheme.rs 44-46, 47-49, 50-52, 53-55. *)
Definition scheme_light (color : Z) : res scheme := do c <- cp_of color; light_from_core_palette c.
Definition scheme_dark (color : Z) : res scheme := do c <- cp_of color; dark_from_core_palette c.
Definition scheme_light_content (color : Z) : res scheme := do c <- cp_content_of color; light_from_core_palette c.
Definition scheme_dark_content (color : Z) : res scheme := do c <- cp_content_of color; dark_from_core_palette c.
End WithLibm.
