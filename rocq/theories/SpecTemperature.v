(** * Vocabulary for the temperature properties: call histories, and rotating clockwise. *)
From Coq Require Import ZArith List Reals.
From Flocq Require Import IEEE754.BinarySingleNaN.
From Verif Require Import F64 ViewingConditions Hct Temperature.
Import ListNotations.
Open Scope Z_scope.

(** The public operations of a TemperatureCache, and what each of them answers. *)
Inductive call :=
| Warmest | Coldest | HctsByTemp | HctsByHue | TempsByHct
| RelativeTemperature (h : hct) | InputRelativeTemperature | Complement
| Analogous (count divisions : option Z).
Inductive answer :=
| AColor (h : hct) | AColors (l : list hct) | ATemps (m : list (hct * f64)) | ANumber (x : f64).

(** Offsets in [from,360], in non-decreasing order. *)
Fixpoint nondecreasing (from : Z) (l : list Z) : Prop :=
  match l with [] => True | x :: l' => from <= x <= 360 /\ nondecreasing x l' end.
(** Counts that a list can have. *)
Definition count_fits (count : option Z) : Prop := - 2 ^ 53 < unwrap_or count 5 <= 2 ^ 53.

Section WithLibm.
Context {lm : Libm}.
Definition answered {A} (f : A -> answer) (r : res (A * temp_cache)) : res (answer * temp_cache) :=
  rmap (fun p => (f (fst p), snd p)) r.
(** One call: the answer and the cache afterwards. *)
Definition perform (c : temp_cache) (k : call) : res (answer * temp_cache) :=
  match k with
  | Warmest => answered AColor (get_warmest c)
  | Coldest => answered AColor (get_coldest c)
  | HctsByTemp => answered AColors (get_hcts_by_temp c)
  | HctsByHue => answered AColors (get_hcts_by_hue c)
  | TempsByHct => answered ATemps (get_temps_by_hct c)
  | RelativeTemperature h => answered ANumber (relative_temperature c h)
  | InputRelativeTemperature => answered ANumber (get_input_relative_temperature c)
  | Complement => answered AColor (get_complement c)
  | Analogous n d => answered AColors (analogous c n d)
  end.
(** A list of calls one after the other; the answers are dropped. *)
Fixpoint after_calls (c : temp_cache) (ks : list call) : res temp_cache :=
  match ks with
  | [] => Ok c
  | k :: ks' => bind (perform c k) (fun r => after_calls (snd r) ks')
  end.

(** The colour wheel of an input: Hct::from answers for each of the 360 hues. *)
Definition on_wheel (h : hct) (k : Z) (w : hct) : Prop := hct_from (of_Z k) (h_chroma h) (h_tone h) = Ok w.
Definition has_wheel (h : hct) : Prop := forall k, (0 <= k < 360)%Z -> exists w, on_wheel h k w.

(** What [analogous] returns, when asked for [count] colours out of [divisions]: [colors] are wheel
    colours met when rotating once clockwise from the rounded hue of the input; the input is in the
    middle of the result, and its neighbours at distance [d] are the colours number [d] and [-d],
    wrapping around. *)
Definition middle (count : Z) : Z := Z.max 0 ((count - 1) / 2).
Definition analogous_shape (h : hct) (count divisions : Z) (l : list hct) : Prop :=
  exists (offsets : list Z) (colors : list hct),
    nondecreasing 0 (0 :: offsets) /\
    Forall2 (fun o x => on_wheel h ((to_i64 (fround (h_hue h)) + o) mod 360) x) (0 :: offsets) colors /\
    Z.of_nat (List.length colors) = Z.max 1 divisions /\
    Z.of_nat (List.length l) = Z.max 1 count /\
    nth_error l (Z.to_nat (middle count)) = Some h /\
    forall j, 0 <= j < Z.max 1 count -> j <> middle count ->
      nth_error l (Z.to_nat j) =
      nth_error colors (Z.to_nat ((j - middle count) mod Z.of_nat (List.length colors))).
End WithLibm.

(** The angle by which one rotates clockwise from [a] to [x], both in [0,360). *)
Definition clockwise (a x : R) : R := if Rle_dec a x then (x - a)%R else (x - a + 360)%R.
