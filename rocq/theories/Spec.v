(** * Specification vocabulary.
    Small definitions, independent of the model files, in which the property
    theorems are stated. *)
From Coq Require Import ZArith Bool List Ascii String Reals.
From Flocq Require Import Core IEEE754.BinarySingleNaN.
From Verif Require Import F64.
Import ListNotations.
Open Scope Z_scope.

(** An opaque 32-bit colour 0xFFrrggbb. *)
Definition opaque (c : Z) : Prop := 0xFF000000 <= c <= 0xFFFFFFFF.

(** The range of i64. *)
Definition is_i64 (z : Z) : Prop := - 2 ^ 63 <= z <= 2 ^ 63 - 1.

(** The characters 0-9A-F, and the value of a hexadecimal digit of either case. *)
Definition upper_hex_char (c : ascii) : Prop := In c (list_ascii_of_string "0123456789ABCDEF").

Fixpoint position (c : ascii) (s : list ascii) (i : Z) : option Z :=
  match s with
  | [] => None
  | d :: s' => if Ascii.eqb c d then Some i else position c s' (i + 1)
  end.
Definition hex_digit_value (c : ascii) : option Z :=
  match position c (list_ascii_of_string "0123456789ABCDEF") 0 with
  | Some v => Some v
  | None => position c (list_ascii_of_string "0123456789abcdef") 0
  end.

(** [hex_number ds v]: the digit string [ds] denotes [v] in base 16. *)
Inductive hex_number : list ascii -> Z -> Prop :=
| hex_one c d : hex_digit_value c = Some d -> hex_number [c] d
| hex_more ds v c d : hex_number ds v -> hex_digit_value c = Some d ->
    hex_number (ds ++ [c]) (16 * v + d).

(** An optional sign followed by a hexadecimal number. *)
Inductive hex_numeral : list ascii -> Z -> Prop :=
| hn_plain ds v : hex_number ds v -> hex_numeral ds v
| hn_plus ds v : hex_number ds v -> hex_numeral ("+"%char :: ds) v
| hn_minus ds v : hex_number ds v -> hex_numeral ("-"%char :: ds) (- v).

(** ** What a platform's [pow] is assumed to satisfy, where a theorem assumes anything. *)
(** pow of a positive number (or +infinity) is not NaN. *)
Definition pow_defined (lm : Libm) : Prop := forall x y : f64,
  flt (dec "0.0") x = true -> is_finite y = true -> is_nan (powf x y) = false.

(** pow has relative error at most [eps] when the exact power is neither huge nor tiny. *)
Definition pow_accurate (eps : R) (lm : Libm) : Prop := forall x y : f64,
  is_finite x = true -> is_finite y = true -> (0 < B2R x)%R ->
  (bpow radix2 (-900) <= Rpower (B2R x) (B2R y) <= bpow radix2 900)%R ->
  is_finite (powf x y) = true /\
  (Rabs (B2R (powf x y) - Rpower (B2R x) (B2R y)) <= eps * Rpower (B2R x) (B2R y))%R.

(** pow is monotone in its base. *)
Definition pow_monotone (lm : Libm) : Prop := forall x x' y : f64,
  flt (dec "0.0") x = true -> fle x x' = true -> flt (dec "0.0") y = true ->
  fle (powf x y) (powf x' y) = true.
