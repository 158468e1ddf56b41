(** * Vocabulary for [analogous]: at which offsets from the input the wheel is sampled. *)
From Coq Require Import ZArith List String.
From Flocq Require Import IEEE754.BinarySingleNaN.
From Verif Require Import F64 ViewingConditions Hct Temperature SpecTemperature.
Import ListNotations.
Open Scope string_scope.
Open Scope list_scope.
Open Scope Z_scope.

(** How much the temperature has gone up and down on the way from offset 0 to offset [n], degree by degree. *)
Fixpoint travelled (temp : Z -> f64) (n : nat) : f64 :=
  match n with
  | O => dec "0.0"
  | S m => fadd (travelled temp m) (fabs (fsub (temp (Z.of_nat n)) (temp (Z.of_nat m))))
  end.
(** [reached temp step o x]: at offset [o] the temperature has travelled at least [x] steps. *)
Definition reached (temp : Z -> f64) (step : f64) (o x : Z) : bool :=
  fge (travelled temp (Z.to_nat o)) (fmul (of_Z x) step).
(** [follows temp step i p r os]: [os] are offsets at which colours number [i], [i+1], ... may be taken, when colour number
    [i-1] was taken at offset [p] and was the [r]-th colour taken there (the input's own offset, 0, is never used again).
    A colour is taken at the first later offset that has reached [i] steps; it is taken at the same offset as
    the one before when that offset has even reached [i+r] steps; and what is left at the end of the
    turn is taken at offset 360. *)
Inductive follows (temp : Z -> f64) (step : f64) : Z -> Z -> Z -> list Z -> Prop :=
| follows_end i p r : follows temp step i p r []
| follows_again i p r os : 1 <= r -> reached temp step p (i + r) = true ->
    follows temp step (i + 1) p (r + 1) os -> follows temp step i p r (p :: os)
| follows_next i p r o os : p < o <= 360 -> r = 0 \/ reached temp step p (i + r) = false ->
    (forall a, p < a < o -> reached temp step a i = false) -> reached temp step o i = true ->
    follows temp step (i + 1) o 1 os -> follows temp step i p r (o :: os)
| follows_last i p r o os : p <= o -> o = 360 -> r = 0 \/ reached temp step p (i + r) = false ->
    (forall a, p < a <= 360 -> reached temp step a i = false) ->
    (forall o', In o' os -> o' = 360) -> follows temp step i p r (o :: os).

(** The relative temperature of the wheel colour at offset [o] clockwise from the input. *)
Definition temp_at_offset {lm : Libm} (h : hct) (o : Z) (t : f64) : Prop :=
  exists w, on_wheel h ((to_i64 (fround (h_hue h)) + o) mod 360) w /\
    rmap fst (relative_temperature (tc_new h) w) = Ok t.

(** What [analogous] returns: [analogous_shape] with the offsets pinned down.  One step is the temperature travelled in a
    whole turn (up to offset 359) divided by [divisions]. *)
Definition analogous_steps {lm : Libm} (h : hct) (count divisions : Z) (l : list hct) : Prop :=
  exists (offsets : list Z) (colors : list hct) (temp : Z -> f64) (step : f64),
    (forall o, 0 <= o <= 360 -> temp_at_offset h o (temp o)) /\
    (is_finite (temp 0) = true -> step = fdiv (travelled temp 359) (of_Z divisions)) /\
    follows temp step 1 0 0 offsets /\
    Forall2 (fun o x => on_wheel h ((to_i64 (fround (h_hue h)) + o) mod 360) x) (0 :: offsets) colors /\
    Z.of_nat (List.length colors) = Z.max 1 divisions /\
    Z.of_nat (List.length l) = Z.max 1 count /\
    nth_error l (Z.to_nat (middle count)) = Some h /\
    forall j, 0 <= j < Z.max 1 count -> j <> middle count ->
      nth_error l (Z.to_nat j) =
      nth_error colors (Z.to_nat ((j - middle count) mod Z.of_nat (List.length colors))).
