(** * Model of /repo/src/utils/string_utils.rs
    Strings are byte sequences ([list ascii]); the functions only inspect
    ASCII bytes, and no byte of a multi-byte UTF-8 character is an ASCII byte. *)
From Coq Require Import ZArith Bool List Ascii.
From Verif Require Import F64 ColorUtils.
Import ListNotations.
Open Scope Z_scope.

(** The character of a hexadecimal digit, lower case (Rust's [LowerHex]). *)
Definition lower_hex_digit (d : Z) : ascii :=
  ascii_of_N (Z.to_N (if d <? 10 then 48 + d else 87 + d)).

(** Hexadecimal digits of a non-negative number, most significant first,
    at least one digit (std's [LowerHex] for i64; sixteen digits suffice for 64 bits). *)
Fixpoint hex_digits (fuel : nat) (v : Z) (acc : list ascii) : list ascii :=
  match fuel with
  | O => acc
  | S fuel' =>
      let acc := lower_hex_digit (v mod 16) :: acc in
      if v / 16 =? 0 then acc else hex_digits fuel' (v / 16) acc
  end.

(** [format!("{:02x}", v)]; a negative i64 prints its two's complement. *)
Definition fmt_02x (v : Z) : list ascii :=
  let ds := hex_digits 16 (v mod 2 ^ 64) [] in
  match ds with
  | [d] => ["0"%char; d]
  | _ => ds
  end.

(** [str::to_uppercase] on ASCII. *)
Definition to_upper (c : ascii) : ascii :=
  let n := Z.of_N (N_of_ascii c) in
  if (97 <=? n) && (n <=? 122) then ascii_of_N (Z.to_N (n - 32)) else c.

(** string_utils.rs 5-11 and 13-25: [hex_from_argb]. *)
Definition hex_from_argb (argb : Z) (leading_hash_sign : option bool) : list ascii :=
  let leading_hash_sign := match leading_hash_sign with Some b => b | None => true end in
  let red := red_from_argb argb in
  let green := green_from_argb argb in
  let blue := blue_from_argb argb in
  (if leading_hash_sign then ["#"%char] else []) ++
  map to_upper (fmt_02x red ++ fmt_02x green ++ fmt_02x blue).

(** [str::trim_start_matches("#")]: removes every leading '#'. *)
Fixpoint trim_start_hash (s : list ascii) : list ascii :=
  match s with
  | c :: s' => if Ascii.eqb c "#" then trim_start_hash s' else s
  | [] => []
  end.

(** [char::to_digit(16)]. *)
Definition hex_val (c : ascii) : option Z :=
  let n := Z.of_N (N_of_ascii c) in
  if (48 <=? n) && (n <=? 57) then Some (n - 48)
  else if (97 <=? n) && (n <=? 102) then Some (n - 87)
  else if (65 <=? n) && (n <=? 70) then Some (n - 55)
  else None.

(** The digit loop of std's [i64::from_str_radix] with checked arithmetic:
    [result = result.checked_mul(16)?.checked_add/sub(digit)?]. *)
Fixpoint radix_loop (neg : bool) (s : list ascii) (acc : Z) : option Z :=
  match s with
  | [] => Some acc
  | c :: s' =>
      match hex_val c with
      | None => None
      | Some d =>
          let m := acc * 16 in
          if in_i64 m then
            let a := if neg then m - d else m + d in
            if in_i64 a then radix_loop neg s' a else None
          else None
      end
  end.

(** std's [i64::from_str_radix(s, 16).ok()]. *)
Definition i64_from_str_radix_16 (s : list ascii) : option Z :=
  match s with
  | [] => None
  | c :: s' =>
      if Ascii.eqb c "+" then (match s' with [] => None | _ => radix_loop false s' 0 end)
      else if Ascii.eqb c "-" then (match s' with [] => None | _ => radix_loop true s' 0 end)
      else radix_loop false s 0
  end.

(** string_utils.rs 27-29: [argb_from_hex]. *)
Definition argb_from_hex (hex : list ascii) : option Z :=
  i64_from_str_radix_16 (trim_start_hash hex).
