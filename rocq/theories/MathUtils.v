(** * Model of /repo/src/utils/math_utils.rs *)
From Coq Require Import ZArith Bool String.
From Verif Require Import F64.
Open Scope Z_scope.
Open Scope string_scope.
Open Scope f64_scope.

(** A three-element [Vec<f64>].  Simplification: every vector the library builds for
    colour coordinates has exactly three entries, so the bounds checks on
    constant indices 0..2 are not modelled. *)
Definition vec3 : Set := f64 * f64 * f64.
Definition mat3 : Set := vec3 * vec3 * vec3.
Definition v0 (v : vec3) : f64 := fst (fst v).
Definition v1 (v : vec3) : f64 := snd (fst v).
Definition v2 (v : vec3) : f64 := snd v.

(** math_utils.rs 7-15: [signum] (note that NaN yields 1). *)
Definition signum (num : f64) : Z :=
  if num <? dec "0.0" then (-1)%Z else if num =? dec "0.0" then 0%Z else 1%Z.

(** math_utils.rs 20-22: [lerp]. *)
Definition lerp (start stop amount : f64) : f64 :=
  (dec "1.0" - amount) * start + amount * stop.

(** math_utils.rs 28-36: [clamp_int]. *)
Definition clamp_int (min max input : Z) : Z :=
  if (input <? min)%Z then min else if (max <? input)%Z then max else input.

(** math_utils.rs 42-50: [clamp_double]. *)
Definition clamp_double (min max input : f64) : f64 :=
  if input <? min then min else if input >? max then max else input.

(** math_utils.rs 56-62: [sanitize_degrees_int] ([%] truncates: [Z.rem]). *)
Definition sanitize_degrees_int (degrees : Z) : Z :=
  let degrees := Z.rem degrees 360 in
  if (degrees <? 0)%Z then (degrees + 360)%Z else degrees.

(** math_utils.rs 68-74: [sanitize_degrees_double]. *)
Definition sanitize_degrees_double (degrees : f64) : f64 :=
  let degrees := frem degrees (dec "360.0") in
  if degrees <? dec "0.0" then degrees + dec "360.0" else degrees.

(** math_utils.rs 88-95: [rotation_direction]. *)
Definition rotation_direction (from to : f64) : f64 :=
  let increasing_difference := sanitize_degrees_double (to - from) in
  if increasing_difference <=? dec "180.0" then dec "1.0" else dec "-1.0".

(** math_utils.rs 98-100: [difference_degrees]. *)
Definition difference_degrees (a b : f64) : f64 :=
  dec "180.0" - fabs (fabs (a - b) - dec "180.0").

(** math_utils.rs 103-108: [matrix_multiply]. *)
Definition matrix_multiply (row : vec3) (m : mat3) : vec3 :=
  let '(m0, m1, m2) := m in
  (v0 row * v0 m0 + v1 row * v1 m0 + v2 row * v2 m0,
   v0 row * v0 m1 + v1 row * v1 m1 + v2 row * v2 m1,
   v0 row * v0 m2 + v1 row * v1 m2 + v2 row * v2 m2).
