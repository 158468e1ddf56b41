(** * Properties C01-C10: packing, hexadecimal strings, degree and interpolation helpers. *)
From Coq Require Import ZArith Bool List Ascii String Reals Lia.
From Flocq Require Import Core IEEE754.BinarySingleNaN.
From Verif Require Import F64 MathUtils ColorUtils StringUtils Spec FloatFacts PfArgb PfMath.
Import ListNotations.
Open Scope list_scope.
Open Scope Z_scope.

(** C01 *)
Theorem C01_pack_keeps_channels : forall r g b : Z,
  opaque (argb_from_rgb r g b) /\
  red_from_argb (argb_from_rgb r g b) = r mod 256 /\
  green_from_argb (argb_from_rgb r g b) = g mod 256 /\
  blue_from_argb (argb_from_rgb r g b) = b mod 256 /\
  alpha_from_argb (argb_from_rgb r g b) = 255.
Proof. exact pack_channels. Qed.
Print Assumptions C01_pack_keeps_channels.
Example C01_case : argb_from_rgb 300 (-1) 7 = 0xFF2CFF07. Proof. reflexivity. Qed.

(** C02 *)
Theorem C02_repack_identity_iff_opaque : forall argb : Z,
  (argb_from_rgb (red_from_argb argb) (green_from_argb argb) (blue_from_argb argb) = argb <-> opaque argb) /\
  argb_from_rgb (red_from_argb argb) (green_from_argb argb) (blue_from_argb argb)
    = 0xFF000000 + argb mod 2 ^ 24.
Proof. exact (fun z => conj (repack_iff z) (repack z)). Qed.
Print Assumptions C02_repack_identity_iff_opaque.

Theorem C02_accessors_are_bytes : forall argb : Z,
  0 <= alpha_from_argb argb <= 255 /\ 0 <= red_from_argb argb <= 255 /\
  0 <= green_from_argb argb <= 255 /\ 0 <= blue_from_argb argb <= 255.
Proof. exact accessors_range. Qed.
Print Assumptions C02_accessors_are_bytes.

(** The accessors read exactly their eight bits (two's complement for negative numbers). *)
Theorem C02_accessors_read_their_bits : forall argb : Z,
  alpha_from_argb argb = argb / 2 ^ 24 mod 256 /\ red_from_argb argb = argb / 2 ^ 16 mod 256 /\
  green_from_argb argb = argb / 2 ^ 8 mod 256 /\ blue_from_argb argb = argb mod 256.
Proof. exact (fun z => conj (alpha_div z) (conj (red_div z) (conj (green_div z) (blue_div z)))). Qed.
Print Assumptions C02_accessors_read_their_bits.

Theorem C02_is_opaque_iff_alpha_bits : forall argb : Z,
  is_opaque argb = true <-> (forall i, 24 <= i < 32 -> Z.testbit argb i = true).
Proof. exact is_opaque_bits. Qed.
Print Assumptions C02_is_opaque_iff_alpha_bits.
Example C02_case : is_opaque (-1) = true /\ opaque 0xFF00FF12 /\ is_opaque 0x7F00FF12 = false.
Proof. split; [reflexivity|split; [unfold opaque; lia|reflexivity]]. Qed.

(** C03: the shape of the string, and what parsing it back gives. *)
Theorem C03_hex_shape_and_lossy_round_trip : forall (argb : Z) (hash : option bool),
  exists digits : list ascii,
    hex_from_argb argb hash =
      (match hash with Some false => [] | _ => ["#"%char] end) ++ digits /\
    List.length digits = 6%nat /\ Forall upper_hex_char digits /\
    argb_from_hex (hex_from_argb argb hash) = Some (argb mod 2 ^ 24) /\
    (opaque argb -> argb_from_hex (hex_from_argb argb hash) <> Some argb).
Proof. exact hex_shape_full. Qed.
Print Assumptions C03_hex_shape_and_lossy_round_trip.
Example C03_case : hex_from_argb 0xFF0A0B0C None = list_ascii_of_string "#0A0B0C"%string /\
  argb_from_hex (list_ascii_of_string "#0A0B0C"%string) = Some 0x0A0B0C.
Proof. split; vm_compute; reflexivity. Qed.

(** C04 *)
Theorem C04_hex_parser_is_exact : forall (s : list ascii) (v : Z),
  argb_from_hex s = Some v <->
  exists n t, s = repeat "#"%char n ++ t /\ hex_numeral t v /\ is_i64 v.
Proof. exact argb_from_hex_spec. Qed.
Print Assumptions C04_hex_parser_is_exact.
Example C04_case : argb_from_hex (list_ascii_of_string "##-fF"%string) = Some (-255) /\
  argb_from_hex (list_ascii_of_string "#"%string) = None /\
  argb_from_hex (list_ascii_of_string "8000000000000000"%string) = None /\
  argb_from_hex (list_ascii_of_string "-8000000000000000"%string) = Some (- 2 ^ 63).
Proof. repeat split; vm_compute; reflexivity. Qed.

(** C05 *)
Theorem C05_sanitize_int : forall d : Z,
  0 <= sanitize_degrees_int d < 360 /\ exists k, d = sanitize_degrees_int d + 360 * k.
Proof. exact sanitize_int. Qed.
Print Assumptions C05_sanitize_int.

(** No intermediate value leaves the range of i64: the remainder and the sum. *)
Theorem C05_sanitize_int_no_overflow : forall d : Z, is_i64 d ->
  is_i64 (Z.rem d 360) /\ is_i64 (Z.rem d 360 + 360).
Proof. exact sanitize_int_no_overflow. Qed.
Print Assumptions C05_sanitize_int_no_overflow.
Example C05_case : sanitize_degrees_int (-1) = 359 /\ sanitize_degrees_int (- 2 ^ 63) = 352.
Proof. split; reflexivity. Qed.

Open Scope R_scope.
(** C06 *)
Theorem C06_sanitize_double : forall d : f64, is_finite d = true ->
  exists k : Z, is_finite (sanitize_degrees_double d) = true /\
  0 <= B2R (sanitize_degrees_double d) <= 360 /\
  (0 <= B2R d -> B2R (sanitize_degrees_double d) = B2R d - 360 * IZR k /\
                 B2R (sanitize_degrees_double d) < 360) /\
  Rabs (B2R (sanitize_degrees_double d) - (B2R d - 360 * IZR k)) <= bpow radix2 (-45).
Proof. exact sanitize_double. Qed.
Print Assumptions C06_sanitize_double.

Theorem C06_sanitize_double_nonfinite : forall d : f64, is_finite d = false ->
  is_nan (sanitize_degrees_double d) = true.
Proof. exact sanitize_double_nonfinite. Qed.
Print Assumptions C06_sanitize_double_nonfinite.

(** The documented strict bound is false: -10^-20 is sent to exactly 360. *)
Theorem C06_strict_bound_refuted : exists d : f64, is_finite d = true /\ B2R d < 0 /\
  B2R (sanitize_degrees_double d) = 360.
Proof. exact sanitize_double_360. Qed.
Print Assumptions C06_strict_bound_refuted.
Example C06_case : B2SF (sanitize_degrees_double (dec "-30.5")) = B2SF (dec "329.5").
Proof. vm_compute. reflexivity. Qed.

(** C07 *)
Theorem C07_difference_symmetric : forall a b : f64, difference_degrees a b = difference_degrees b a.
Proof. exact difference_sym. Qed.
Print Assumptions C07_difference_symmetric.

Theorem C07_difference_is_shorter_arc : forall a b : f64,
  is_finite a = true -> is_finite b = true -> 0 <= B2R a <= 360 -> 0 <= B2R b <= 360 ->
  is_finite (difference_degrees a b) = true /\ 0 <= B2R (difference_degrees a b) <= 180 /\
  (B2R a = B2R b -> B2R (difference_degrees a b) = 0) /\
  Rabs (B2R (difference_degrees a b) -
        Rmin (Rabs (B2R a - B2R b)) (360 - Rabs (B2R a - B2R b))) <= bpow radix2 (-43).
Proof. exact difference_range. Qed.
Print Assumptions C07_difference_is_shorter_arc.
Example C07_case : B2SF (difference_degrees (dec "350.0") (dec "10.0")) = B2SF (dec "20.0").
Proof. vm_compute. reflexivity. Qed.

(** C08 *)
Theorem C08_rotation_is_a_sign : forall a b : f64,
  rotation_direction a b = dec "1.0" \/ rotation_direction a b = dec "-1.0".
Proof. exact rotation_pm1. Qed.
Print Assumptions C08_rotation_is_a_sign.

(** For angles in [0,360): +1 when going up is at most half a turn, -1 when it is
    more (by more than 2^-40 degrees, the rounding of the difference). *)
Theorem C08_rotation_follows_shorter_arc : forall from to : f64,
  is_finite from = true -> is_finite to = true -> 0 <= B2R from < 360 -> 0 <= B2R to < 360 ->
  (0 <= B2R to - B2R from <= 180 -> rotation_direction from to = dec "1.0") /\
  (B2R to - B2R from <= -180 -> rotation_direction from to = dec "1.0") /\
  (180 + bpow radix2 (-40) <= B2R to - B2R from -> rotation_direction from to = dec "-1.0") /\
  (-180 + bpow radix2 (-40) <= B2R to - B2R from < 0 -> rotation_direction from to = dec "-1.0").
Proof. exact rotation_arc. Qed.
Print Assumptions C08_rotation_follows_shorter_arc.

(** For any finite pair with a finite difference: the direction is +1 exactly when the
    representative of the rounded difference modulo a full turn is at most 180. *)
Theorem C08_rotation_any_angles : forall from to : f64,
  is_finite (fsub to from) = true ->
  exists k : Z,
    Rabs (B2R (sanitize_degrees_double (fsub to from)) - (B2R (fsub to from) - 360 * IZR k)) <= bpow radix2 (-45) /\
    0 <= B2R (sanitize_degrees_double (fsub to from)) <= 360 /\
    (rotation_direction from to = dec "1.0" <-> B2R (sanitize_degrees_double (fsub to from)) <= 180).
Proof. exact rotation_any. Qed.
Print Assumptions C08_rotation_any_angles.
Example C08_case : B2SF (rotation_direction (dec "350.0") (dec "10.0")) = B2SF (dec "1.0") /\
  B2SF (rotation_direction (dec "10.0") (dec "350.0")) = B2SF (dec "-1.0").
Proof. split; vm_compute; reflexivity. Qed.

(** C09 *)
Theorem C09_clamp_int : forall lo hi x : Z, (lo <= hi)%Z ->
  (lo <= clamp_int lo hi x <= hi)%Z /\
  ((lo <= x <= hi)%Z -> clamp_int lo hi x = x) /\
  ((x < lo)%Z -> clamp_int lo hi x = lo) /\ ((hi < x)%Z -> clamp_int lo hi x = hi) /\
  clamp_int lo hi (clamp_int lo hi x) = clamp_int lo hi x.
Proof. exact clamp_int_ok. Qed.
Print Assumptions C09_clamp_int.

Theorem C09_clamp_double : forall lo hi x : f64, fle lo hi = true -> is_nan x = false ->
  (fle lo (clamp_double lo hi x) = true /\ fle (clamp_double lo hi x) hi = true) /\
  (fle lo x = true -> fle x hi = true -> clamp_double lo hi x = x) /\
  (flt x lo = true -> clamp_double lo hi x = lo) /\
  (flt hi x = true -> clamp_double lo hi x = hi) /\
  clamp_double lo hi (clamp_double lo hi x) = clamp_double lo hi x.
Proof. exact clamp_double_cases. Qed.
Print Assumptions C09_clamp_double.
Example C09_case : fle (dec "0.0") (dec "100.0") = true /\ B2SF (clamp_double (dec "0.0") (dec "100.0") finf) = B2SF (dec "100.0")
  /\ clamp_int 0 255 (-7) = 0%Z.
Proof. repeat split; vm_compute; reflexivity. Qed.

(** C10 *)
Theorem C10_lerp_endpoints : forall s e : f64, is_finite s = true -> is_finite e = true ->
  (is_finite (lerp s e (dec "0.0")) = true /\ B2R (lerp s e (dec "0.0")) = B2R s) /\
  (is_finite (lerp s e (dec "1.0")) = true /\ B2R (lerp s e (dec "1.0")) = B2R e).
Proof. exact (fun s e fs fe => conj (lerp_0 s e fs fe) (lerp_1 s e fs fe)). Qed.
Print Assumptions C10_lerp_endpoints.

Theorem C10_lerp_between : forall s e t : f64,
  is_finite s = true -> is_finite e = true -> is_finite t = true ->
  0 <= B2R t <= 1 -> 0 <= B2R s <= B2R e -> B2R e <= bpow radix2 1020 ->
  is_finite (lerp s e t) = true /\
  B2R s * (1 - bpow radix2 (-50)) - bpow radix2 (-1072) <= B2R (lerp s e t)
    <= B2R e * (1 + bpow radix2 (-50)) + bpow radix2 (-1072).
Proof. exact lerp_between. Qed.
Print Assumptions C10_lerp_between.
Example C10_case : B2SF (lerp (dec "4.5") (dec "7.0") (dec "0.5")) = B2SF (dec "5.75").
Proof. vm_compute. reflexivity. Qed.
