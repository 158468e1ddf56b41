(** * Vocabulary for the attributes of a colour in CAM16 and for distances between colours. *)
From Coq Require Import Reals.
From Flocq Require Import Core IEEE754.BinarySingleNaN.
From Verif Require Import F64 Cam16.
Open Scope R_scope.

(** Two numbers agree to a part in 10^10, or to 10^-10 when they are small. *)
Definition agree (x y : R) : Prop := Rabs (x - y) <= (1 + Rabs y) / 10 ^ 10.

(** The straight-line distance between two colours in CAM16-UCS. *)
Definition ucs_length (a b : cam16) : R :=
  let dj := B2R (c_jstar a) - B2R (c_jstar b) in
  let da := B2R (c_astar a) - B2R (c_astar b) in
  let db := B2R (c_bstar a) - B2R (c_bstar b) in
  sqrt (dj * dj + da * da + db * db).
