(** * Model of the nine scheme constructors in /repo/src/scheme/scheme_*.rs *)
From Coq Require Import ZArith Bool String List.
From Verif Require Import F64 MathUtils ColorUtils ViewingConditions Cam16 HctSolver Hct Assoc Palettes Temperature DynamicScheme.
Import ListNotations.
Open Scope string_scope.
Open Scope list_scope.
Open Scope f64_scope.

Section WithLibm.
Context {lm : Libm}.

Definition ds_build (source : hct) (v : variant) (contrast_level : f64) (is_dark : bool)
    (p s t n nv : res tonal_palette) : res dynamic_scheme :=
  do p <- p; do s <- s; do t <- t; do n <- n; do nv <- nv;
  ds_new (hct_to_int source) v (Some contrast_level) is_dark p s t n nv.

(** scheme_monochrome.rs 12-26. *)
Definition scheme_monochrome (source : hct) (is_dark : bool) (contrast_level : f64) : res dynamic_scheme :=
  ds_build source Monochrome contrast_level is_dark
    (tp_of (h_hue source) (dec "0.0"))
    (tp_of (h_hue source) (dec "0.0"))
    (tp_of (h_hue source) (dec "0.0"))
    (tp_of (h_hue source) (dec "0.0"))
    (tp_of (h_hue source) (dec "0.0")).

(** scheme_neutral.rs 12-26. *)
Definition scheme_neutral (source : hct) (is_dark : bool) (contrast_level : f64) : res dynamic_scheme :=
  ds_build source Neutral contrast_level is_dark
    (tp_of (h_hue source) (dec "12.0"))
    (tp_of (h_hue source) (dec "8.0"))
    (tp_of (h_hue source) (dec "16.0"))
    (tp_of (h_hue source) (dec "2.0"))
    (tp_of (h_hue source) (dec "2.0")).

(** scheme_tonal_spot.rs 15-32. *)
Definition scheme_tonal_spot (source : hct) (is_dark : bool) (contrast_level : f64) : res dynamic_scheme :=
  ds_build source TonalSpot contrast_level is_dark
    (tp_of (h_hue source) (dec "36.0"))
    (tp_of (h_hue source) (dec "16.0"))
    (tp_of (sanitize_degrees_double (h_hue source + dec "60.0")) (dec "24.0"))
    (tp_of (h_hue source) (dec "6.0"))
    (tp_of (h_hue source) (dec "8.0")).

(** scheme_rainbow.rs 13-30. *)
Definition scheme_rainbow (source : hct) (is_dark : bool) (contrast_level : f64) : res dynamic_scheme :=
  ds_build source Rainbow contrast_level is_dark
    (tp_of (h_hue source) (dec "48.0"))
    (tp_of (h_hue source) (dec "16.0"))
    (tp_of (sanitize_degrees_double (h_hue source + dec "60.0")) (dec "24.0"))
    (tp_of (h_hue source) (dec "0.0"))
    (tp_of (h_hue source) (dec "0.0")).

(** scheme_fruit_salad.rs 13-33. *)
Definition scheme_fruit_salad (source : hct) (is_dark : bool) (contrast_level : f64) : res dynamic_scheme :=
  ds_build source FruitSalad contrast_level is_dark
    (tp_of (sanitize_degrees_double (h_hue source - dec "50.0")) (dec "48.0"))
    (tp_of (sanitize_degrees_double (h_hue source - dec "50.0")) (dec "36.0"))
    (tp_of (h_hue source) (dec "36.0"))
    (tp_of (h_hue source) (dec "10.0"))
    (tp_of (h_hue source) (dec "16.0")).

Definition decs (l : list string) : list f64 := map dec l.

(** scheme_vibrant.rs 15-23. *)
Definition vibrant_hues : list f64 :=
  decs ["0.0"; "41.0"; "61.0"; "101.0"; "131.0"; "181.0"; "251.0"; "301.0"; "360.0"].
Definition vibrant_secondary_rotations : list f64 :=
  decs ["18.0"; "15.0"; "10.0"; "12.0"; "15.0"; "18.0"; "15.0"; "12.0"; "12.0"].
Definition vibrant_tertiary_rotations : list f64 :=
  decs ["35.0"; "30.0"; "20.0"; "25.0"; "30.0"; "35.0"; "30.0"; "25.0"; "25.0"].

(** scheme_vibrant.rs 25-53. *)
Definition scheme_vibrant (source : hct) (is_dark : bool) (contrast_level : f64) : res dynamic_scheme :=
  ds_build source Vibrant contrast_level is_dark
    (tp_of (h_hue source) (dec "200.0"))
    (do h <- get_rotated_hue source vibrant_hues vibrant_secondary_rotations; tp_of h (dec "24.0"))
    (do h <- get_rotated_hue source vibrant_hues vibrant_tertiary_rotations; tp_of h (dec "32.0"))
    (tp_of (h_hue source) (dec "10.0"))
    (tp_of (h_hue source) (dec "12.0")).

(** scheme_expressive.rs 15-23. *)
Definition expressive_hues : list f64 :=
  decs ["0.0"; "21.0"; "51.0"; "121.0"; "151.0"; "191.0"; "271.0"; "321.0"; "360.0"].
Definition expressive_secondary_rotations : list f64 :=
  decs ["45.0"; "95.0"; "45.0"; "20.0"; "45.0"; "90.0"; "45.0"; "45.0"; "45.0"].
Definition expressive_tertiary_rotations : list f64 :=
  decs ["120.0"; "120.0"; "20.0"; "45.0"; "20.0"; "15.0"; "20.0"; "120.0"; "120.0"].

(** scheme_expressive.rs 25-56. *)
Definition scheme_expressive (source : hct) (is_dark : bool) (contrast_level : f64) : res dynamic_scheme :=
  ds_build source Expressive contrast_level is_dark
    (tp_of (sanitize_degrees_double (h_hue source + dec "240.0")) (dec "40.0"))
    (do h <- get_rotated_hue source expressive_hues expressive_secondary_rotations; tp_of h (dec "24.0"))
    (do h <- get_rotated_hue source expressive_hues expressive_tertiary_rotations; tp_of h (dec "32.0"))
    (tp_of (h_hue source + dec "15.0") (dec "8.0"))
    (tp_of (h_hue source + dec "15.0") (dec "12.0")).

(** scheme_content.rs 22-47; [Panic] also for [last().unwrap()] on an empty Vec (line 24).  The
    palettes are evaluated in the order of the Rust arguments, after the analogous colours. *)
Definition scheme_content (source : hct) (is_dark : bool) (contrast_level : f64) : res dynamic_scheme :=
  do an <- analogous (tc_new source) (Some 3%Z) (Some 6%Z);
  do temp <- ok_or_panic (last (map Some (fst an)) None);
  ds_build source Content contrast_level is_dark
    (tp_of (h_hue source) (h_chroma source))
    (tp_of (h_hue source) (fmax (h_chroma source - dec "32.0") (h_chroma source * dec "0.5")))
    (rmap tp_from_hct (fix_if_disliked temp))
    (tp_of (h_hue source) (h_chroma source / dec "8.0"))
    (tp_of (h_hue source) (h_chroma source / dec "8.0" + dec "4.0")).

(** scheme_fidelity.rs 21-42. *)
Definition scheme_fidelity (source : hct) (is_dark : bool) (contrast_level : f64) : res dynamic_scheme :=
  ds_build source Fidelity contrast_level is_dark
    (tp_of (h_hue source) (h_chroma source))
    (tp_of (h_hue source) (fmax (h_chroma source - dec "32.0") (h_chroma source * dec "0.5")))
    (do c <- get_complement (tc_new source); rmap tp_from_hct (fix_if_disliked (fst c)))
    (tp_of (h_hue source) (h_chroma source / dec "8.0"))
    (tp_of (h_hue source) (h_chroma source / dec "8.0" + dec "4.0")).
End WithLibm.
