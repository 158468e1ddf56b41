(** * A colour of the library that has exactly a requested hue and chroma. *)
From Coq Require Import ZArith Bool Reals String.
From Flocq Require Import Core IEEE754.BinarySingleNaN.
From Verif Require Import F64 ColorUtils ViewingConditions SpecViewing SpecAppear SpecSolve.
Open Scope string_scope.
Open Scope R_scope.

(** [argb] is the rounding of a linear colour with the hue and the chroma under the standard conditions of the published model (SpecSolve.v). *)
Definition faithful {lm : Libm} (hue chroma : f64) (argb : Z) : Prop :=
  exists vc, s_rgb = Ok vc /\
    let standard := conditions_of (B2R (dec "95.047")) 100 (B2R (dec "108.883")) (B2R (vc_adapting_luminance vc)) 50 2 false in
    exists lr lg lb, shows argb lr lg lb /\ looks standard lr lg lb (B2R hue) (B2R chroma).

(** The requests with a chroma low enough for their tone: every hue has a colour of such a chroma and tone in the gamut. *)
Definition pale (chroma tone : R) : Prop :=
  chroma <= 4 /\ 21 <= tone <= 92 \/ chroma <= 5.5 /\ 21 <= tone <= 90 \/ chroma <= 6 /\ 24 <= tone <= 90 \/
  chroma <= 8 /\ 52 <= tone <= 87 \/ chroma <= 10 /\ 52 <= tone <= 77.
