(** * Property theorems: the order of the colours of palettes. *)
From Coq Require Import ZArith Bool Reals String List.
From Flocq Require Import Core IEEE754.BinarySingleNaN.
From Verif Require Import F64 MathUtils ColorUtils Cam16 Hct Palettes Spec SpecCam SpecPalette RefLibm PfToneOrder PfToneContrast PfToneCase.
From Verif Require Import SpecTone.
Import ListNotations.
Open Scope string_scope.
Open Scope list_scope.
Open Scope R_scope.
Notation B2R := (@BinarySingleNaN.B2R 53 1024).

(** C87.  A tone at least 3 higher gives a lighter colour, in the same palette or another, whatever was read from them before. *)
Theorem C87_higher_tones_are_lighter : forall lm : Libm, libm_accurate (1 / 10 ^ 13) lm -> pow_special lm -> pow_monotone lm ->
  forall (hue1 chroma1 hue2 chroma2 : f64) (p q p' q' : tonal_palette) (reads1 reads2 : list Z) (i j : Z),
  is_finite hue1 = true -> is_finite chroma1 = true -> B2R chroma1 <= 10 ^ 9 ->
  is_finite hue2 = true -> is_finite chroma2 = true -> B2R chroma2 <= 10 ^ 9 ->
  tp_of hue1 chroma1 = Ok p -> after_gets p reads1 = Ok p' -> tp_of hue2 chroma2 = Ok q -> after_gets q reads2 = Ok q' ->
  (0 <= i)%Z -> (i + 3 <= j)%Z -> (j <= 100)%Z ->
  exists c d, rmap fst (tp_get p' i) = Ok c /\ rmap fst (tp_get q' j) = Ok d /\
    flt (lstar_from_argb c) (lstar_from_argb d) = true /\ IZR (j - i - 2) <= B2R (lstar_from_argb d) - B2R (lstar_from_argb c).
Proof. exact (fun lm LA PS PM => of_ramp LA PS PM). Qed.
Print Assumptions C87_higher_tones_are_lighter.
Theorem C87_higher_tones_are_lighter_from_colours : forall lm : Libm, libm_accurate (1 / 10 ^ 13) lm -> pow_special lm -> pow_monotone lm ->
  forall (argb1 argb2 : Z) (h1 h2 : hct) (p' q' : tonal_palette) (reads1 reads2 : list Z) (i j : Z),
  hct_from_int argb1 = Ok h1 -> hct_from_int argb2 = Ok h2 ->
  after_gets (tp_from_hct h1) reads1 = Ok p' -> after_gets (tp_from_hct h2) reads2 = Ok q' ->
  (0 <= i)%Z -> (i + 3 <= j)%Z -> (j <= 100)%Z ->
  exists c d, rmap fst (tp_get p' i) = Ok c /\ rmap fst (tp_get q' j) = Ok d /\
    flt (lstar_from_argb c) (lstar_from_argb d) = true /\ IZR (j - i - 2) <= B2R (lstar_from_argb d) - B2R (lstar_from_argb c).
Proof. exact (fun lm LA PS PM => hct_ramp LA PS PM). Qed.
Print Assumptions C87_higher_tones_are_lighter_from_colours.
Example C87_case : exists p p', @tp_of ref_libm (dec "270.0") (dec "36.0") = Ok p /\ @after_gets ref_libm p [10%Z; 90%Z; 10%Z] = Ok p'.
Proof. exact palettes_case. Qed.
