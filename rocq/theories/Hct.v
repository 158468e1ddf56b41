(** * Model of /repo/src/hct/hct.rs, /repo/src/dislike/dislike_analyzer.rs and /repo/src/blend/blend.rs *)
From Coq Require Import ZArith Bool String.
From Verif Require Import F64 MathUtils ColorUtils ViewingConditions Cam16 HctSolver.
Open Scope string_scope.
Open Scope f64_scope.

(** hct.rs 10-16: struct Hct. *)
Record hct := { h_hue : f64; h_chroma : f64; h_tone : f64; h_argb : Z }.

(** hct.rs 18-23: equality compares the ARGB integers only. *)
Definition hct_eqb (a b : hct) : bool := (h_argb b =? h_argb a)%Z.
(** hct.rs 24-28: the value fed to the hasher. *)
Definition hct_hash (a : hct) : Z := h_argb a.

Section WithLibm.
Context {lm : Libm}.

(** hct.rs 104-117: [new]. *)
Definition hct_new (argb : Z) : res hct :=
  do cam <- cam16_from_int argb;
  Ok {| h_hue := c_hue cam; h_chroma := c_chroma cam; h_tone := lstar_from_argb argb; h_argb := argb |}.

(** hct.rs 36-39: [from]. *)
Definition hct_from (hue chroma tone : f64) : res hct :=
  do argb <- solve_to_int hue chroma tone; hct_new argb.

(** hct.rs 42-44: [from_int]. *)
Definition hct_from_int (argb : Z) : res hct := hct_new argb.

(** hct.rs 46-48: [to_int]. *)
Definition hct_to_int (h : hct) : Z := h_argb h.

(** hct.rs 61-67: [set_hue]. *)
Definition set_hue (self : hct) (new_hue : f64) : res hct :=
  do argb <- solve_to_int new_hue (h_chroma self) (h_tone self);
  do cam <- cam16_from_int argb;
  Ok {| h_hue := c_hue cam; h_chroma := c_chroma cam; h_tone := lstar_from_argb argb; h_argb := argb |}.

(** hct.rs 78-84: [set_chroma]. *)
Definition set_chroma (self : hct) (new_chroma : f64) : res hct :=
  do argb <- solve_to_int (h_hue self) new_chroma (h_tone self);
  do cam <- cam16_from_int argb;
  Ok {| h_hue := c_hue cam; h_chroma := c_chroma cam; h_tone := lstar_from_argb argb; h_argb := argb |}.

(** hct.rs 96-102: [set_tone]. *)
Definition set_tone (self : hct) (new_tone : f64) : res hct :=
  do argb <- solve_to_int (h_hue self) (h_chroma self) new_tone;
  do cam <- cam16_from_int argb;
  Ok {| h_hue := c_hue cam; h_chroma := c_chroma cam; h_tone := lstar_from_argb argb; h_argb := argb |}.

(** hct.rs 130-152: [in_viewing_conditions]. *)
Definition in_viewing_conditions (self : hct) (vc : viewing_conditions) : res hct :=
  do cam <- cam16_from_int (h_argb self);
  let viewed_in_vc := cam16_xyz_in cam vc in
  do std <- make None None None None None;
  do recast_in_vc <- cam16_from_xyz (v0 viewed_in_vc) (v1 viewed_in_vc) (v2 viewed_in_vc) std;
  hct_from (c_hue recast_in_vc) (c_chroma recast_in_vc) (lstar_from_y (v1 viewed_in_vc)).

(** dislike_analyzer.rs 16-22: [is_disliked]. *)
Definition is_disliked (h : hct) : bool :=
  let hue_passes := (fround (h_hue h) >=? dec "90.0") && (fround (h_hue h) <=? dec "111.0") in
  let chroma_passes := fround (h_chroma h) >? dec "16.0" in
  let tone_passes := fround (h_tone h) <? dec "65.0" in
  hue_passes && chroma_passes && tone_passes.

(** dislike_analyzer.rs 25-31: [fix_if_disliked]. *)
Definition fix_if_disliked (h : hct) : res hct :=
  if is_disliked h then hct_from (h_hue h) (h_chroma h) (dec "70.0") else Ok h.

(** blend.rs 24-28: the hue handed to the solver by [harmonize]. *)
Definition harmonize_hue (from_hue to_hue : f64) : f64 :=
  let difference_degrees := difference_degrees from_hue to_hue in
  let rotation_degrees := fmin (difference_degrees * dec "0.5") (dec "15.0") in
  sanitize_degrees_double (from_hue + rotation_degrees * rotation_direction from_hue to_hue).

(** blend.rs 18-30: [harmonize]. *)
Definition harmonize (design_color source_color : Z) : res Z :=
  do from_hct <- hct_from_int design_color;
  do to_hct <- hct_from_int source_color;
  let output_hue := harmonize_hue (h_hue from_hct) (h_hue to_hct) in
  do h <- hct_from output_hue (h_chroma from_hct) (h_tone from_hct);
  Ok (h_argb h).

(** blend.rs 59-72: [cam16_ucs]. *)
Definition blend_cam16_ucs (from to : Z) (amount : f64) : res Z :=
  do from_cam <- cam16_from_int from;
  do to_cam <- cam16_from_int to;
  let jstar := c_jstar from_cam + (c_jstar to_cam - c_jstar from_cam) * amount in
  let astar := c_astar from_cam + (c_astar to_cam - c_astar from_cam) * amount in
  let bstar := c_bstar from_cam + (c_bstar to_cam - c_bstar from_cam) * amount in
  do cam <- cam16_from_ucs jstar astar bstar;
  cam16_to_int cam.

(** blend.rs 40-50: [hct_hue]. *)
Definition blend_hct_hue (from to : Z) (amount : f64) : res Z :=
  do ucs <- blend_cam16_ucs from to amount;
  do ucs_cam <- cam16_from_int ucs;
  do from_cam <- cam16_from_int from;
  do blended <- hct_from (c_hue ucs_cam) (c_chroma from_cam) (lstar_from_argb from);
  Ok (h_argb blended).
End WithLibm.
