(** * Model of /repo/src/dynamiccolor/variant.rs, dynamic_scheme.rs 1-135,
    src/contrast_curve.rs and src/tone_delta_pair.rs *)
From Coq Require Import ZArith Bool String List.
From Verif Require Import F64 MathUtils ColorUtils ViewingConditions Cam16 HctSolver Hct Assoc Palettes.
Import ListNotations.
Open Scope string_scope.
Open Scope list_scope.
Open Scope f64_scope.

(** variant.rs 5-38: enum Variant. *)
Inductive variant := Monochrome | Neutral | TonalSpot | Vibrant | Expressive | Content | Fidelity | Rainbow | FruitSalad.

(** variant.rs 41-45: equality of discriminants. *)
Definition variant_eqb (a b : variant) : bool :=
  match a, b with
  | Monochrome, Monochrome | Neutral, Neutral | TonalSpot, TonalSpot | Vibrant, Vibrant
  | Expressive, Expressive | Content, Content | Fidelity, Fidelity | Rainbow, Rainbow
  | FruitSalad, FruitSalad => true
  | _, _ => false
  end.

(** contrast_curve.rs 9-30: struct ContrastCurve and [new]. *)
Record contrast_curve := { cc_low : f64; cc_normal : f64; cc_medium : f64; cc_high : f64 }.
Definition cc_new (low normal medium high : f64) : contrast_curve :=
  {| cc_low := low; cc_normal := normal; cc_medium := medium; cc_high := high |}.

(** contrast_curve.rs 36-48: [get]. *)
Definition cc_get (self : contrast_curve) (contrast_level : f64) : f64 :=
  if contrast_level <=? - dec "1.0" then cc_low self
  else if contrast_level <? dec "0.0" then
    lerp (cc_low self) (cc_normal self) ((contrast_level - (- dec "1.0")) / dec "1.0")
  else if contrast_level <? dec "0.5" then
    lerp (cc_normal self) (cc_medium self) ((contrast_level - dec "0.0") / dec "0.5")
  else if contrast_level <? dec "1.0" then
    lerp (cc_medium self) (cc_high self) ((contrast_level - dec "0.5") / dec "0.5")
  else cc_high self.

(** dynamic_scheme.rs 14-56: struct DynamicScheme. *)
Record dynamic_scheme := {
  ds_source_color_argb : Z;
  ds_source_color_hct : hct;
  ds_variant : variant;
  ds_is_dark : bool;
  ds_contrast_level : f64;
  ds_primary_palette : tonal_palette;
  ds_secondary_palette : tonal_palette;
  ds_tertiary_palette : tonal_palette;
  ds_neutral_palette : tonal_palette;
  ds_neutral_variant_palette : tonal_palette;
  ds_error_palette : tonal_palette
}.

(** Short-circuit conjunction of computations that may panic. *)
Definition and_res (a : bool) (b : res bool) : res bool := if a then b else Ok false.

(** Bit equality of two f64 ([to_ne_bytes]; all NaNs are one value in this model). *)
Definition f64_bits_eqb (a b : f64) : bool :=
  match a, b with
  | Flocq.IEEE754.BinarySingleNaN.B754_zero s, Flocq.IEEE754.BinarySingleNaN.B754_zero s' => Bool.eqb s s'
  | _, _ => (a =? b) || (is_nanb a && is_nanb b)
  end.

(** Equality of what two palettes feed to the hasher (tonal_palette.rs 222-232). *)
Definition tp_hash_eqb (a b : tp_hash_data) : bool :=
  match a, b with
  | HashHueChroma h c, HashHueChroma h' c' => f64_bits_eqb h h' && f64_bits_eqb c c'
  | HashList l, HashList l' => list_equals l l'
  | _, _ => false
  end.

(** dynamic_scheme.rs 116-135: [get_rotated_hue]; [Panic] is the assertion of line 118. *)
Fixpoint rotated_hue_loop (source_hue : f64) (hues rotations : list f64) : f64 :=
  match hues, rotations with
  | this_hue :: ((next_hue :: _) as hues'), rotation :: rotations' =>
      if (this_hue <? source_hue) && (source_hue <? next_hue)
      then sanitize_degrees_double (source_hue + rotation)
      else rotated_hue_loop source_hue hues' rotations'
  | _, _ => source_hue
  end.
Definition get_rotated_hue (source_color : hct) (hues rotations : list f64) : res f64 :=
  let source_hue := h_hue source_color in
  if negb (Nat.eqb (List.length hues) (List.length rotations)) then Panic else
  match rotations with
  | [rotation] => Ok (sanitize_degrees_double (source_hue + rotation))
  | _ => Ok (rotated_hue_loop source_hue hues rotations)
  end.

Section WithLibm.
Context {lm : Libm}.

(** dynamic_scheme.rs 57-71: [eq]. *)
Definition ds_eqb (a b : dynamic_scheme) : res bool :=
  and_res (ds_source_color_argb a =? ds_source_color_argb b)%Z (
  and_res (hct_eqb (ds_source_color_hct a) (ds_source_color_hct b)) (
  and_res (variant_eqb (ds_variant a) (ds_variant b)) (
  and_res (Bool.eqb (ds_is_dark a) (ds_is_dark b)) (
  and_res (ds_contrast_level a =? ds_contrast_level b) (
  do p <- tp_eqb (ds_primary_palette a) (ds_primary_palette b);
  and_res p (
  do p <- tp_eqb (ds_secondary_palette a) (ds_secondary_palette b);
  and_res p (
  do p <- tp_eqb (ds_tertiary_palette a) (ds_tertiary_palette b);
  and_res p (
  do p <- tp_eqb (ds_neutral_palette a) (ds_neutral_palette b);
  and_res p (
  do p <- tp_eqb (ds_neutral_variant_palette a) (ds_neutral_variant_palette b);
  and_res p (
  tp_eqb (ds_error_palette a) (ds_error_palette b))))))))))).

Definition tp_same_hash (a b : tonal_palette) : res bool :=
  do x <- tp_hash a; do y <- tp_hash b; Ok (tp_hash_eqb x y).

(** dynamic_scheme.rs 73-87: whether two schemes feed the same data to the hasher. *)
Definition ds_same_hash (a b : dynamic_scheme) : res bool :=
  do p1 <- tp_same_hash (ds_primary_palette a) (ds_primary_palette b);
  do p2 <- tp_same_hash (ds_secondary_palette a) (ds_secondary_palette b);
  do p3 <- tp_same_hash (ds_tertiary_palette a) (ds_tertiary_palette b);
  do p4 <- tp_same_hash (ds_neutral_palette a) (ds_neutral_palette b);
  do p5 <- tp_same_hash (ds_neutral_variant_palette a) (ds_neutral_variant_palette b);
  do p6 <- tp_same_hash (ds_error_palette a) (ds_error_palette b);
  Ok ((ds_source_color_argb a =? ds_source_color_argb b)%Z
      && (hct_hash (ds_source_color_hct a) =? hct_hash (ds_source_color_hct b))%Z
      && variant_eqb (ds_variant a) (ds_variant b)
      && Bool.eqb (ds_is_dark a) (ds_is_dark b)
      && f64_bits_eqb (ds_contrast_level a) (ds_contrast_level b)
      && p1 && p2 && p3 && p4 && p5 && p6).

(** dynamic_scheme.rs 90-114: [new]. *)
Definition ds_new (source_color_argb : Z) (v : variant) (contrast_level : option f64) (is_dark : bool)
    (primary secondary tertiary neutral neutral_variant : tonal_palette) : res dynamic_scheme :=
  do source_color_hct <- hct_from_int source_color_argb;
  do error <- tp_of (dec "25.0") (dec "84.0");
  Ok {| ds_source_color_argb := source_color_argb;
        ds_source_color_hct := source_color_hct;
        ds_variant := v;
        ds_is_dark := is_dark;
        ds_contrast_level := unwrap_or contrast_level (dec "0.0");
        ds_primary_palette := primary;
        ds_secondary_palette := secondary;
        ds_tertiary_palette := tertiary;
        ds_neutral_palette := neutral;
        ds_neutral_variant_palette := neutral_variant;
        ds_error_palette := error |}.
End WithLibm.
