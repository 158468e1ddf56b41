(** * The temperature of a colour, as published, in real numbers.
    L.-C. Ou, M. R. Luo, A. Woodcock, A. Wright, "A study of colour emotion and colour preference, part I", 2004: a colour of CIELAB chroma C
    and hue h (in degrees) has the temperature -0.5 + 0.02 C^1.07 cos(h - 50).  Nothing here mentions the code. *)
From Coq Require Import ZArith Bool Reals.
From Verif Require Import SpecAppear SpecCie.
Open Scope R_scope.

Definition temperature_of (chroma hue : R) : R := -0.5 + 0.02 * power chroma 1.07 * cos (radians (hue - 50)).
(** The sRGB colour [r], [g], [b] has this CIELAB chroma and hue. *)
Definition has_polar (r g b : Z) (chroma hue : R) : Prop :=
  0 <= chroma /\ srgb_a r g b = chroma * cos (radians hue) /\ srgb_b r g b = chroma * sin (radians hue).
