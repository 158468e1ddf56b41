(** * Model of /repo/src/palettes/tonal_palette.rs and /repo/src/palettes/core_palette.rs *)
From Coq Require Import ZArith Bool String List.
From Verif Require Import F64 MathUtils ColorUtils ViewingConditions Cam16 HctSolver Hct Assoc.
Import ListNotations.
Open Scope string_scope.
Open Scope list_scope.
Open Scope f64_scope.

(** tonal_palette.rs 15-24: struct TonalPalette. *)
Record tonal_palette := {
  tp_hue : f64; tp_chroma : f64; tp_key_color : hct;
  tp_cache : list (Z * Z); tp_is_from_cache : bool
}.

(** tonal_palette.rs 28-30. *)
Definition COMMON_TONES : list Z := [0; 10; 20; 30; 40; 50; 60; 70; 80; 90; 95; 99; 100]%Z.
Definition COMMON_SIZE : nat := 13.

(** tonal_palette.rs 234-248: [ListEquality::equals]. *)
Fixpoint list_equals_go (a b : list Z) : bool :=
  match a, b with
  | x :: a', y :: b' => if (x =? y)%Z then list_equals_go a' b' else false
  | _, _ => true
  end.
Definition list_equals (a b : list Z) : bool :=
  if Nat.eqb (List.length a) (List.length b) then list_equals_go a b else false.

(** tonal_palette.rs 222-232 and 250-254: what is fed to the hasher. *)
Inductive tp_hash_data := HashHueChroma (hue chroma : f64) | HashList (l : list Z).

Section WithLibm.
Context {lm : Libm}.

(** tonal_palette.rs 120-143: the loop of [create_key_color]; [deltas] are the remaining values of
    the loop variable. *)
Fixpoint key_color_loop (hue chroma : f64) (deltas : list Z) (best : hct) (smallest_delta : f64) : res hct :=
  match deltas with
  | [] => Ok best
  | delta :: deltas' =>
      if fround chroma =? fround (h_chroma best) then Ok best else
      do hct_add <- hct_from hue chroma (dec "50.0" + of_Z delta);
      let hct_add_delta := fabs (h_chroma hct_add - chroma) in
      let '(best, smallest_delta) :=
        if hct_add_delta <? smallest_delta then (hct_add, hct_add_delta) else (best, smallest_delta) in
      do hct_subtract <- hct_from hue chroma (dec "50.0" - of_Z delta);
      let hct_subtract_delta := fabs (h_chroma hct_subtract - chroma) in
      let '(best, smallest_delta) :=
        if hct_subtract_delta <? smallest_delta then (hct_subtract, hct_subtract_delta)
        else (best, smallest_delta) in
      key_color_loop hue chroma deltas' best smallest_delta
  end.

(** tonal_palette.rs 110-146: [create_key_color] ([for delta in 1..50]). *)
Definition create_key_color (hue chroma : f64) : res hct :=
  do start <- hct_from hue chroma (dec "50.0");
  key_color_loop hue chroma (map Z.of_nat (seq 1 49)) start (fabs (h_chroma start - chroma)).

(** tonal_palette.rs 42-50, 63-65: [of]. *)
Definition tp_of (hue chroma : f64) : res tonal_palette :=
  do key <- create_key_color hue chroma;
  Ok {| tp_hue := hue; tp_chroma := chroma; tp_key_color := key; tp_cache := []; tp_is_from_cache := false |}.

(** tonal_palette.rs 32-40, 68-70: [from_hct]. *)
Definition tp_from_hct (h : hct) : tonal_palette :=
  {| tp_hue := h_hue h; tp_chroma := h_chroma h; tp_key_color := h; tp_cache := []; tp_is_from_cache := false |}.

(** tonal_palette.rs 87-102: deduction of hue and chroma from the list of colours. *)
Fixpoint deduce_hue_chroma (colors : list Z) (best_hue best_chroma : f64) : res (f64 * f64) :=
  match colors with
  | [] => Ok (best_hue, best_chroma)
  | argb :: colors' =>
      do h <- hct_from_int argb;
      if h_tone h >? dec "98.0" then deduce_hue_chroma colors' best_hue best_chroma
      else if h_chroma h >? best_chroma then deduce_hue_chroma colors' (h_hue h) (h_chroma h)
      else deduce_hue_chroma colors' best_hue best_chroma
  end.

(** tonal_palette.rs 52-60, 75-105: [from_list]; [Panic] is the assertion of line 76. *)
Definition tp_from_list (colors : list Z) : res tonal_palette :=
  if negb (Nat.eqb (List.length colors) COMMON_SIZE) then Panic else
  let cache := fold_left (fun m tc => ainsert Z.eqb m (fst tc) (snd tc)) (combine COMMON_TONES colors) [] in
  do hc <- deduce_hue_chroma colors (dec "0.0") (dec "0.0");
  let '(best_hue, best_chroma) := hc in
  do key <- create_key_color best_hue best_chroma;
  Ok {| tp_hue := best_hue; tp_chroma := best_chroma; tp_key_color := key;
        tp_cache := cache; tp_is_from_cache := true |}.

(** tonal_palette.rs 167-172: [get] ([&mut self]: the new palette is returned too). *)
Definition tp_get (self : tonal_palette) (tone : Z) : res (Z * tonal_palette) :=
  match afind Z.eqb (tp_cache self) tone with
  | Some c => Ok (c, self)
  | None =>
      do h <- hct_from (tp_hue self) (tp_chroma self) (of_Z tone);
      Ok (h_argb h,
          {| tp_hue := tp_hue self; tp_chroma := tp_chroma self; tp_key_color := tp_key_color self;
             tp_cache := ainsert Z.eqb (tp_cache self) tone (h_argb h);
             tp_is_from_cache := tp_is_from_cache self |})
  end.

(** tonal_palette.rs 151-156: [get_as_list]. *)
Fixpoint tp_get_all (self : tonal_palette) (tones : list Z) : res (list Z * tonal_palette) :=
  match tones with
  | [] => Ok ([], self)
  | t :: ts =>
      do r <- tp_get self t;
      let '(c, self) := r in
      do r' <- tp_get_all self ts;
      let '(cs, self) := r' in
      Ok (c :: cs, self)
  end.
Definition tp_get_as_list (self : tonal_palette) : res (list Z * tonal_palette) :=
  tp_get_all self COMMON_TONES.

(** tonal_palette.rs 183-190: [get_hct] ([&self]: the palette is not changed). *)
Definition tp_get_hct (self : tonal_palette) (tone : f64) : res hct :=
  match afind Z.eqb (tp_cache self) (to_i64 tone) with
  | Some c => hct_from_int c
  | None => hct_from (tp_hue self) (tp_chroma self) tone
  end.

(** tonal_palette.rs 209-221: [eq]. *)
Definition tp_eqb (self other : tonal_palette) : res bool :=
  if negb (tp_is_from_cache self) && negb (tp_is_from_cache other) then
    Ok ((tp_hue self =? tp_hue other) && (tp_chroma self =? tp_chroma other))
  else
    do a <- tp_get_as_list self;
    do b <- tp_get_as_list other;
    Ok (list_equals (fst a) (fst b)).

(** tonal_palette.rs 222-232: [hash]. *)
Definition tp_hash (self : tonal_palette) : res tp_hash_data :=
  if negb (tp_is_from_cache self) then Ok (HashHueChroma (tp_hue self) (tp_chroma self))
  else do l <- tp_get_as_list self; Ok (HashList (fst l)).

(** core_palette.rs 11-18: struct CorePalette. *)
Record core_palette := {
  cp_primary : tonal_palette; cp_secondary : tonal_palette; cp_tertiary : tonal_palette;
  cp_neutral : tonal_palette; cp_neutral_variant : tonal_palette; cp_error : tonal_palette
}.

(** core_palette.rs 20-22: [_default_error]. *)
Definition default_error : res tonal_palette := tp_of (dec "25.0") (dec "84.0").

Definition mk_core (p s t n nv e : res tonal_palette) : res core_palette :=
  do p <- p; do s <- s; do t <- t; do n <- n; do nv <- nv; do e <- e;
  Ok {| cp_primary := p; cp_secondary := s; cp_tertiary := t; cp_neutral := n;
        cp_neutral_variant := nv; cp_error := e |}.

(** core_palette.rs 33-42: [__]. *)
Definition cp_make (hue chroma : f64) : res core_palette :=
  mk_core (tp_of hue (fmax (dec "48.0") chroma))
          (tp_of hue (dec "16.0"))
          (tp_of (hue + dec "60.0") (dec "24.0"))
          (tp_of hue (dec "4.0"))
          (tp_of hue (dec "8.0"))
          default_error.

(** core_palette.rs 28-31: [of]. *)
Definition cp_of (argb : Z) : res core_palette :=
  do cam <- cam16_from_int argb; cp_make (c_hue cam) (c_chroma cam).

(** core_palette.rs 50-59: [_content_of]. *)
Definition cp_make_content (hue chroma : f64) : res core_palette :=
  mk_core (tp_of hue chroma)
          (tp_of hue (chroma / dec "3.0"))
          (tp_of (hue + dec "60.0") (chroma / dec "2.0"))
          (tp_of hue (fmin (chroma / dec "12.0") (dec "4.0")))
          (tp_of hue (fmin (chroma / dec "6.0") (dec "8.0")))
          default_error.

(** core_palette.rs 45-48: [content_of]. *)
Definition cp_content_of (argb : Z) : res core_palette :=
  do cam <- cam16_from_int argb; cp_make_content (c_hue cam) (c_chroma cam).

(** core_palette.rs 112-120: [_get_partition]. *)
Definition get_partition (l : list Z) (partition_number partition_size : nat) : list Z :=
  firstn partition_size (skipn (partition_number * partition_size) l).

(** core_palette.rs 65-87: [from_list]; [Panic] is the assertion of line 66. *)
Definition cp_from_list (colors : list Z) : res core_palette :=
  if negb (Nat.eqb (List.length colors) (5 * COMMON_SIZE)) then Panic else
  mk_core (tp_from_list (get_partition colors 0 COMMON_SIZE))
          (tp_from_list (get_partition colors 1 COMMON_SIZE))
          (tp_from_list (get_partition colors 2 COMMON_SIZE))
          (tp_from_list (get_partition colors 3 COMMON_SIZE))
          (tp_from_list (get_partition colors 4 COMMON_SIZE))
          default_error.

(** core_palette.rs 92-102: [as_list]. *)
Definition cp_as_list (self : core_palette) : res (list Z * core_palette) :=
  do p <- tp_get_as_list (cp_primary self);
  do s <- tp_get_as_list (cp_secondary self);
  do t <- tp_get_as_list (cp_tertiary self);
  do n <- tp_get_as_list (cp_neutral self);
  do nv <- tp_get_as_list (cp_neutral_variant self);
  Ok (fst p ++ fst s ++ fst t ++ fst n ++ fst nv,
      {| cp_primary := snd p; cp_secondary := snd s; cp_tertiary := snd t; cp_neutral := snd n;
         cp_neutral_variant := snd nv; cp_error := cp_error self |}).
End WithLibm.
