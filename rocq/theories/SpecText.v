(** * Vocabulary for texts. *)
From Coq Require Import ZArith Reals String DecimalString List.
From Flocq Require Import Core IEEE754.BinarySingleNaN.
From Verif Require Import F64 Hct Palettes SpecPalette.
Import ListNotations.
Open Scope string_scope.
Open Scope R_scope.

(** The decimal numeral of an integer. *)
Definition numeral (z : Z) : string := NilZero.string_of_int (Z.to_int z).
(** Such a numeral, or the "-0" that Rust prints for a negative zero. *)
Definition shows (s : string) (z : Z) : Prop := s = numeral z \/ (z = 0%Z /\ s = "-0").
(** The [Display] of an f64 shows integers (up to 2^53) as integers. *)
Definition shows_integers (fmt : f64 -> string) : Prop :=
  forall (x : f64) (z : Z), is_finite x = true -> B2R x = IZR z -> (Z.abs z <= 2 ^ 53)%Z -> shows (fmt x) z.

(** The integer is nearest to the number. *)
Definition nearest (z : Z) (x : f64) : Prop := Rabs (IZR z - B2R x) <= 1 / 2.

(** The colours a palette has at the thirteen common tones. *)
Definition ramp {lm : Libm} (hue chroma : f64) (colors : list Z) : Prop :=
  Forall2 (fun t c => exists h, hct_from hue chroma (of_Z t) = Ok h /\ hct_to_int h = c) common_tones colors.
Definition comma_separated (colors : list Z) : string := String.concat ", " (map numeral colors).
