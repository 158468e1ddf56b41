(** * A colour that the library makes for a hue, a chroma and a tone that are not those of a grey. *)
From Coq Require Import ZArith Bool Reals String List.
From Flocq Require Import Core IEEE754.BinarySingleNaN.
From Verif Require Import F64 MathUtils ColorUtils ViewingConditions HctSolver Hct Palettes LegacyScheme SpecPalette SpecViewing SpecAppear SpecCie SpecSolve.
Open Scope string_scope.
Open Scope R_scope.

(** Either [argb] is the rounding of a linear colour with the hue and the chroma under the standard conditions of the published model (SpecSolve.v),
    or the search for one found none, and [argb] is the limit of the gamut that the bisection finds for the hue and the tone. *)
Definition renders {lm : Libm} (hue chroma tone : f64) (argb : Z) : Prop :=
  exists vc, s_rgb = Ok vc /\
    let standard := conditions_of (B2R (dec "95.047")) 100 (B2R (dec "108.883")) (B2R (vc_adapting_luminance vc)) 50 2 false in
    let angle := fmul (fdiv (sanitize_degrees_double hue) (dec "180.0")) PI64 in
    ((exists lr lg lb, shows argb lr lg lb /\ looks standard lr lg lb (B2R hue) (B2R chroma)) \/
     (find_result_by_j angle chroma (y_from_lstar tone) = Ok 0%Z /\
      exists l, bisect_to_limit (y_from_lstar tone) angle = Ok l /\ argb = argb_from_linrgb l)).

(** Neither so pale nor so dark nor so light that the library makes a grey. *)
Definition coloured (chroma tone : f64) : Prop := 0.00011 <= B2R chroma <= 10 ^ 9 /\ 0.00011 <= B2R tone <= 99.9998.

(** Each role of a scheme that is read from the palettes [c], other than the greys, has the hue and the chroma of its palette.
    [light_roles] and [dark_roles] (SpecPalette.v) list the palette and the tone of each role. *)
Definition painted {lm : Libm} (c : core_palette) (roles : list ((scheme -> Z) * pal * Z)) (s : scheme) : Prop := forall g p t, In (g, p, t) roles ->
  coloured (tp_chroma (cp_sel c p)) (of_Z t) -> renders (tp_hue (cp_sel c p)) (tp_chroma (cp_sel c p)) (of_Z t) (g s).
