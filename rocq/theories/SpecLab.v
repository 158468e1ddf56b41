(** * From CIE 1976 L*a*b* back to a stimulus, as published, in real numbers (white D65).  Nothing here mentions the code. *)
From Coq Require Import Reals.
Open Scope R_scope.

(** CIE 15: the inverse of the function f of L*a*b*. *)
Definition cie_inverse (t : R) : R := if Rlt_dec (6 / 29) t then t ^ 3 else (116 * t - 16) * 27 / 24389.
(** The stimulus of L*, a* and b*. *)
Definition lab_x (l a : R) : R := 95.047 * cie_inverse ((l + 16) / 116 + a / 500).
Definition lab_y (l : R) : R := 100 * cie_inverse ((l + 16) / 116).
Definition lab_z (l b : R) : R := 108.883 * cie_inverse ((l + 16) / 116 - b / 200).
