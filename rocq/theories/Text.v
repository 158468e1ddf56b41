(** * Model of the [to_string] functions
    (/repo/src/hct/hct.rs, /repo/src/palettes/tonal_palette.rs, /repo/src/palettes/core_palette.rs).  [fmt] stands for the standard library's [Display] of an f64, which prints
    a shortest decimal that reads back; it is a parameter, and the theorems say what they need of it. *)
From Coq Require Import ZArith Bool List String Ascii DecimalString.
From Verif Require Import F64 Hct Palettes.
Import ListNotations.
Open Scope string_scope.
Open Scope list_scope.

(** [Display] of an i64: the decimal numeral. *)
Definition show_i64 (z : Z) : string := NilZero.string_of_int (Z.to_int z).

(** The newline character. *)
Definition newline : string := String (Ascii.ascii_of_nat 10) "".

(** [join(", ")] of the standard library. *)
Fixpoint join (sep : string) (l : list string) : string :=
  match l with
  | [] => ""
  | [x] => x
  | x :: l' => (x ++ sep ++ join sep l')%string
  end.

Section Display.
Variable fmt : f64 -> string.

(** hct.rs 155-164: [Hct::to_string]. *)
Definition hct_to_string (h : hct) : string :=
  ("H" ++ fmt (fround (h_hue h)) ++ " C" ++ fmt (fround (h_chroma h)) ++ " T" ++ fmt (fround (h_tone h)))%string.

Context {lm : Libm}.
(** tonal_palette.rs 193-207: [TonalPalette::to_string] (on a clone: the palette is not changed). *)
Definition tp_to_string (self : tonal_palette) : res string :=
  if tp_is_from_cache self then
    Ok ("TonalPalette.of(" ++ fmt (tp_hue self) ++ ", " ++ fmt (tp_chroma self) ++ ")")%string
  else
    do r <- tp_get_as_list self;
    Ok ("TonalPalette.fromList([" ++ join ", " (map show_i64 (fst r)) ++ "])")%string.

(** core_palette.rs 122-139: [CorePalette::to_string]; after each [\n] the literal goes on with a line break and
    twelve spaces. *)
Definition cp_to_string (self : core_palette) : res string :=
  let gap := (newline ++ newline ++ "            ")%string in
  do p <- tp_to_string (cp_primary self);
  do s <- tp_to_string (cp_secondary self);
  do t <- tp_to_string (cp_tertiary self);
  do n <- tp_to_string (cp_neutral self);
  do nv <- tp_to_string (cp_neutral_variant self);
  do e <- tp_to_string (cp_error self);
  Ok ("primary: " ++ p ++ gap ++ "secondary: " ++ s ++ gap ++ "tertiary: " ++ t ++ gap ++
      "neutral: " ++ n ++ gap ++ "neutralVariant: " ++ nv ++ gap ++ "error: " ++ e ++ newline)%string.
End Display.
