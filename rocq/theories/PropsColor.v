(** * Property theorems: colour conversions, contrast and tone helpers.
    Only statements, each closed by one lemma from the proof files. *)
From Coq Require Import ZArith Bool Reals String Lra.
From Flocq Require Import Core IEEE754.BinarySingleNaN.
From Verif Require Import F64 MathUtils ColorUtils Contrast DynamicScheme DynamicColor Spec PfColor PfContrast.
Open Scope string_scope.
Open Scope R_scope.
Notation B2R := (@BinarySingleNaN.B2R 53 1024).

(** C11: whatever the arguments and whatever pow returns. *)
Theorem C11_conversions_are_opaque : forall (lm : Libm) (x y z : f64),
  opaque (argb_from_linrgb (x, y, z)) /\ opaque (argb_from_xyz x y z) /\
  opaque (argb_from_lab x y z) /\ opaque (argb_from_lstar x).
Proof.
  exact (fun lm x y z => conj (linrgb_opaque (x, y, z)) (conj (xyz_opaque x y z) (conj (lab_opaque x y z) (lstar_opaque x)))).
Qed.
Print Assumptions C11_conversions_are_opaque.

Theorem C11_delinearized_is_a_byte : forall (lm : Libm) (x : f64), (0 <= delinearized x <= 255)%Z.
Proof. exact (fun lm => delinearized_byte). Qed.
Print Assumptions C11_delinearized_is_a_byte.
Example C11_case : forall lm : Libm, argb_from_linrgb (dec "-1.0", dec "0.2", dec "0.1") = 0xFF000703%Z.
Proof. intros lm. vm_compute. reflexivity. Qed.

(** C16, the part that needs nothing about pow. *)
Theorem C16_lstar_gives_greys : forall (lm : Libm) (l : f64),
  exists c, (0 <= c <= 255)%Z /\ argb_from_lstar l = (0xFF000000 + 65536 * c + 256 * c + c)%Z.
Proof. exact (fun lm => lstar_grey). Qed.
Print Assumptions C16_lstar_gives_greys.

Theorem C16_nonpositive_lstar_is_black : forall (lm : Libm) (l : f64),
  fle l (dec "0.0") = true -> argb_from_lstar l = 0xFF000000%Z.
Proof. exact (fun lm => black). Qed.
Print Assumptions C16_nonpositive_lstar_is_black.
Example C16_case : fle (dec "-3.5") (dec "0.0") = true.
Proof. vm_compute. reflexivity. Qed.

(** C18 *)
Theorem C18_y_from_lstar_monotone : forall a b : f64,
  fle a b = true -> fle (y_from_lstar a) (y_from_lstar b) = true.
Proof. exact y_mono_fle. Qed.
Print Assumptions C18_y_from_lstar_monotone.

Theorem C18_y_from_lstar_range : forall a : f64,
  fle (dec "0.0") a = true -> fle a (dec "100.0") = true ->
  fle (dec "0.0") (y_from_lstar a) = true /\ fle (y_from_lstar a) (dec "100.0") = true.
Proof. exact y_range_fle. Qed.
Print Assumptions C18_y_from_lstar_range.

Theorem C18_y_from_lstar_endpoints :
  y_from_lstar (dec "0.0") = dec "0.0" /\ y_from_lstar (dec "100.0") = dec "100.0".
Proof. exact (conj y_from_lstar_0 y_from_lstar_100). Qed.
Print Assumptions C18_y_from_lstar_endpoints.
Example C18_case : fle (dec "7.99") (dec "8.01") = true /\
  flt (y_from_lstar (dec "7.99")) (y_from_lstar (dec "8.01")) = true.
Proof. split; vm_compute; reflexivity. Qed.

(** C19 *)
Theorem C19_ratio_symmetric : forall a b : f64, is_nan a = false -> is_nan b = false ->
  ratio_of_tones a b = ratio_of_tones b a.
Proof. exact ratio_sym. Qed.
Print Assumptions C19_ratio_symmetric.

Theorem C19_ratio_bounds : forall a b : f64, is_nan a = false -> is_nan b = false ->
  is_finite (ratio_of_tones a b) = true /\ 1 <= B2R (ratio_of_tones a b) <= 21.
Proof. exact ratio_bounds. Qed.
Print Assumptions C19_ratio_bounds.

Theorem C19_ratio_of_equal_tones : forall a b : f64, feq a b = true -> B2R (ratio_of_tones a b) = 1.
Proof. exact ratio_self_feq. Qed.
Print Assumptions C19_ratio_of_equal_tones.

Theorem C19_ratio_clamps : forall a b : f64, is_nan a = false -> is_nan b = false ->
  ratio_of_tones a b =
  ratio_of_tones (clamp_double (dec "0.0") (dec "100.0") a) (clamp_double (dec "0.0") (dec "100.0") b).
Proof. exact ratio_clamped. Qed.
Print Assumptions C19_ratio_clamps.

Theorem C19_black_on_white : B2R (ratio_of_tones (dec "0.0") (dec "100.0")) = 21.
Proof. exact ratio_0_100. Qed.
Print Assumptions C19_black_on_white.
Example C19_case : is_nan finf = false /\ is_nan (dec "-40.0") = false /\
  B2SF (ratio_of_tones finf (dec "-40.0")) = B2SF (dec "21.0").
Proof. repeat split; vm_compute; reflexivity. Qed.

(** C20 *)
Theorem C20_ratio_grows_with_distance : forall a b c : f64, fle a b = true -> fle b c = true ->
  fle (ratio_of_tones a b) (ratio_of_tones a c) = true /\
  fle (ratio_of_tones b c) (ratio_of_tones a c) = true.
Proof. exact ratio_widen_fle. Qed.
Print Assumptions C20_ratio_grows_with_distance.
Example C20_case : flt (ratio_of_tones (dec "10.0") (dec "40.0")) (ratio_of_tones (dec "10.0") (dec "90.0")) = true /\
  flt (ratio_of_tones (dec "40.0") (dec "90.0")) (ratio_of_tones (dec "10.0") (dec "90.0")) = true.
Proof. split; vm_compute; reflexivity. Qed.

(** C21 *)
Theorem C21_any_libm : forall (lm : Libm) (t r : f64),
  (is_nan (lighter t r) = true \/ lighter t r = dec "-1.0" \/
     (is_finite (lighter t r) = true /\ 0 <= B2R (lighter t r) <= 100)) /\
  (is_nan (darker t r) = true \/ darker t r = dec "-1.0" \/
     (is_finite (darker t r) = true /\ 0 <= B2R (darker t r) <= 100)).
Proof. exact (fun lm t r => conj (lighter_cases t r) (darker_cases t r)). Qed.
Print Assumptions C21_any_libm.

Theorem C21_lighter_darker_range : forall (lm : Libm) (t r : f64), pow_defined lm ->
  is_nan t = false -> is_nan r = false ->
  (lighter t r = dec "-1.0" \/ (is_finite (lighter t r) = true /\ 0 <= B2R (lighter t r) <= 100)) /\
  (darker t r = dec "-1.0" \/ (is_finite (darker t r) = true /\ 0 <= B2R (darker t r) <= 100)).
Proof. exact (fun lm t r p nt nr => conj (lighter_range t r p nt nr) (darker_range t r p nt nr)). Qed.
Print Assumptions C21_lighter_darker_range.

Theorem C21_tone_outside_fails : forall (lm : Libm) (t r : f64),
  (flt t (dec "0.0") || flt (dec "100.0") t)%bool = true ->
  lighter t r = dec "-1.0" /\ darker t r = dec "-1.0".
Proof. exact (fun lm => outside_fail). Qed.
Print Assumptions C21_tone_outside_fails.
(** A pow that answers 1 everywhere is defined; below the linear threshold pow is not used at all. *)
Example C21_case : let lm := {| powf := fun _ _ => dec "1.0"; expf := fun x => x; lnf := fun x => x;
    sinf := fun x => x; cosf := fun x => x; atan2f := fun x _ => x |} in
  pow_defined lm /\ B2SF (lighter (lm := lm) (dec "10.0") (dec "30.0")) = B2SF (dec "-1.0") /\
  fle (dec "0.0") (darker (lm := lm) (dec "10.0") (dec "1.05")) = true.
Proof. cbv zeta. repeat split; try (vm_compute; reflexivity). Qed.

(** C23 *)
Theorem C23_lighter_unsafe : forall (lm : Libm) (t r : f64), is_nan (lighter t r) = false ->
  (is_finite (lighter_unsafe t r) = true /\ 0 <= B2R (lighter_unsafe t r) <= 100) /\
  (lighter t r = dec "-1.0" -> lighter_unsafe t r = dec "100.0") /\
  (lighter t r <> dec "-1.0" -> lighter_unsafe t r = lighter t r).
Proof. exact (fun lm => lighter_unsafe_ok). Qed.
Print Assumptions C23_lighter_unsafe.

Theorem C23_darker_unsafe : forall (lm : Libm) (t r : f64), is_nan (darker t r) = false ->
  (is_finite (darker_unsafe t r) = true /\ 0 <= B2R (darker_unsafe t r) <= 100) /\
  (darker t r = dec "-1.0" -> darker_unsafe t r = dec "0.0") /\
  (darker t r <> dec "-1.0" -> darker_unsafe t r = darker t r).
Proof. exact (fun lm => darker_unsafe_ok). Qed.
Print Assumptions C23_darker_unsafe.
Example C23_case : forall lm : Libm, is_nan (lighter (dec "-5.0") (dec "3.0")) = false /\
  is_nan (darker (dec "50.0") (dec "40.0")) = false.
Proof. intros lm. split; vm_compute; reflexivity. Qed.

(** C25: round(tone) < 60 prefers, round(tone) <= 49 allows; the band between is [49.5, 59.5). *)
Theorem C25_enable_light_foreground : forall t : f64, is_nan t = false ->
  (fle (dec "49.5") t = true /\ flt t (dec "59.5") = true -> enable_light_foreground t = dec "49.0") /\
  (flt t (dec "49.5") = true \/ fle (dec "59.5") t = true -> enable_light_foreground t = t) /\
  (flt (enable_light_foreground t) (dec "49.5") = true \/ fle (dec "59.5") (enable_light_foreground t) = true).
Proof. exact enable_light_fle. Qed.
Print Assumptions C25_enable_light_foreground.

Theorem C25_nan_tone_unchanged : forall t : f64, is_nan t = true -> enable_light_foreground t = t.
Proof. exact enable_light_nan. Qed.
Print Assumptions C25_nan_tone_unchanged.
Example C25_case : B2SF (enable_light_foreground (dec "52.0")) = B2SF (dec "49.0") /\
  B2SF (enable_light_foreground (dec "59.5")) = B2SF (dec "59.5").
Proof. split; vm_compute; reflexivity. Qed.

(** C26 *)
Theorem C26_curve_control_points : forall (low normal medium high x : f64),
  is_finite normal = true -> is_finite medium = true -> is_finite high = true ->
  let c := cc_new low normal medium high in
  (fle x (dec "-1.0") = true -> cc_get c x = low) /\
  (feq x (dec "0.0") = true -> is_finite (cc_get c x) = true /\ B2R (cc_get c x) = B2R normal) /\
  (feq x (dec "0.5") = true -> is_finite (cc_get c x) = true /\ B2R (cc_get c x) = B2R medium) /\
  (fle (dec "1.0") x = true -> cc_get c x = high).
Proof. exact cc_points. Qed.
Print Assumptions C26_curve_control_points.

(** Between the points: inside the neighbouring values up to a relative 2^-50. *)
Theorem C26_curve_between : forall (low normal medium high x : f64),
  is_finite low = true -> is_finite normal = true -> is_finite medium = true -> is_finite high = true ->
  0 <= B2R low <= B2R normal -> B2R normal <= B2R medium <= B2R high -> B2R high <= bpow radix2 1020 ->
  is_finite x = true ->
  let c := cc_new low normal medium high in
  let inside lo hi := is_finite (cc_get c x) = true /\
    B2R lo * (1 - bpow radix2 (-50)) - bpow radix2 (-1072) <= B2R (cc_get c x)
      <= B2R hi * (1 + bpow radix2 (-50)) + bpow radix2 (-1072) in
  (-1 < B2R x < 0 -> inside low normal) /\ (0 <= B2R x < 0.5 -> inside normal medium) /\
  (0.5 <= B2R x < 1 -> inside medium high).
Proof. exact cc_between_new. Qed.
Print Assumptions C26_curve_between.
Example C26_case : B2SF (cc_get (cc_new (dec "3.0") (dec "4.5") (dec "7.0") (dec "11.0")) (dec "0.25")) = B2SF (dec "5.75").
Proof. vm_compute. reflexivity. Qed.
