(** * Model of /repo/src/utils/color_utils.rs *)
From Coq Require Import ZArith Bool String.
From Verif Require Import F64 MathUtils.
Open Scope Z_scope.
Open Scope string_scope.
Open Scope f64_scope.

(** color_utils.rs 9-15: [_srgb_to_xyz]. *)
Definition srgb_to_xyz : mat3 :=
  ((dec "0.41233895", dec "0.35762064", dec "0.18051042"),
   (dec "0.2126", dec "0.7152", dec "0.0722"),
   (dec "0.01932141", dec "0.11916382", dec "0.95034478")).

(** color_utils.rs 17-31: [_xyz_to_srgb]. *)
Definition xyz_to_srgb : mat3 :=
  ((dec "3.2413774792388685", dec "-1.5376652402851851", dec "-0.49885366846268053"),
   (dec "-0.9691452513005321", dec "1.8758853451067872", dec "0.04156585616912061"),
   (dec "0.05562093689691305", dec "-0.20395524564742123", dec "1.0571799111220335")).

(** color_utils.rs 33-35 and 224-226: [white_point_d65]. *)
Definition white_point_d65 : vec3 := (dec "95.047", dec "100.0", dec "108.883").

(** color_utils.rs 38-40: [argb_from_rgb]
    ([255 << 24 | (red & 255) << 16 | (green & 255) << 8 | blue & 255]). *)
Definition argb_from_rgb (red green blue : Z) : Z :=
  Z.lor (Z.lor (Z.lor (Z.shiftl 255 24) (Z.shiftl (Z.land red 255) 16))
               (Z.shiftl (Z.land green 255) 8))
        (Z.land blue 255).

(** color_utils.rs 50-52, 55-57, 60-62, 65-67: channel accessors. *)
Definition alpha_from_argb (argb : Z) : Z := Z.land (Z.shiftr argb 24) 255.
Definition red_from_argb (argb : Z) : Z := Z.land (Z.shiftr argb 16) 255.
Definition green_from_argb (argb : Z) : Z := Z.land (Z.shiftr argb 8) 255.
Definition blue_from_argb (argb : Z) : Z := Z.land argb 255.

(** color_utils.rs 70-72: [is_opaque]. *)
Definition is_opaque (argb : Z) : bool := (255 <=? alpha_from_argb argb)%Z.

Section WithLibm.
Context {lm : Libm}.

(** color_utils.rs 194-201: [linearized]. *)
Definition linearized (rgb_component : Z) : f64 :=
  let normalized := of_Z rgb_component / dec "255.0" in
  if normalized <=? dec "0.040449936"
  then normalized / dec "12.92" * dec "100.0"
  else powf ((normalized + dec "0.055") / dec "1.055") (dec "2.4") * dec "100.0".

(** color_utils.rs 209-219: [delinearized]. *)
Definition delinearized (rgb_component : f64) : Z :=
  let normalized := rgb_component / dec "100.0" in
  let d :=
    if normalized <=? dec "0.0031308"
    then normalized * dec "12.92"
    else dec "1.055" * powf normalized (dec "1.0" / dec "2.4") - dec "0.055" in
  clamp_int 0 255 (to_i64 (fround (d * dec "255.0"))).

(** color_utils.rs 42-47: [argb_from_linrgb]. *)
Definition argb_from_linrgb (linrgb : vec3) : Z :=
  let r := delinearized (v0 linrgb) in
  let g := delinearized (v1 linrgb) in
  let b := delinearized (v2 linrgb) in
  argb_from_rgb r g b.

(** color_utils.rs 75-84: [argb_from_xyz]. *)
Definition argb_from_xyz (x y z : f64) : Z :=
  let '(m0, m1, m2) := xyz_to_srgb in
  let linear_r := v0 m0 * x + v1 m0 * y + v2 m0 * z in
  let linear_g := v0 m1 * x + v1 m1 * y + v2 m1 * z in
  let linear_b := v0 m2 * x + v1 m2 * y + v2 m2 * z in
  argb_from_rgb (delinearized linear_r) (delinearized linear_g) (delinearized linear_b).

(** color_utils.rs 87-98: [xyz_from_argb]. *)
Definition xyz_from_argb (argb : Z) : vec3 :=
  let r := linearized (red_from_argb argb) in
  let g := linearized (green_from_argb argb) in
  let b := linearized (blue_from_argb argb) in
  matrix_multiply (r, g, b) srgb_to_xyz.

(** color_utils.rs 228-237: [_lab_f]. *)
Definition lab_f (t : f64) : f64 :=
  let e := dec "216.0" / dec "24389.0" in
  let kappa := dec "24389.0" / dec "27.0" in
  if t >? e then powf t (dec "1.0" / dec "3.0")
  else (kappa * t + dec "16.0") / dec "116.0".

(** color_utils.rs 239-248: [_lab_invf]. *)
Definition lab_invf (ft : f64) : f64 :=
  let e := dec "216.0" / dec "24389.0" in
  let kappa := dec "24389.0" / dec "27.0" in
  let ft3 := ft * ft * ft in
  if ft3 >? e then ft3
  else (dec "116.0" * ft - dec "16.0") / kappa.

(** color_utils.rs 102-114: [argb_from_lab]. *)
Definition argb_from_lab (l a b : f64) : Z :=
  let fy := (l + dec "16.0") / dec "116.0" in
  let fx := a / dec "500.0" + fy in
  let fz := fy - b / dec "200.0" in
  let x_normalized := lab_invf fx in
  let y_normalized := lab_invf fy in
  let z_normalized := lab_invf fz in
  let x := x_normalized * v0 white_point_d65 in
  let y := y_normalized * v1 white_point_d65 in
  let z := z_normalized * v2 white_point_d65 in
  argb_from_xyz x y z.

(** color_utils.rs 121-140: [lab_from_argb]. *)
Definition lab_from_argb (argb : Z) : vec3 :=
  let linear_r := linearized (red_from_argb argb) in
  let linear_g := linearized (green_from_argb argb) in
  let linear_b := linearized (blue_from_argb argb) in
  let '(m0, m1, m2) := srgb_to_xyz in
  let x := v0 m0 * linear_r + v1 m0 * linear_g + v2 m0 * linear_b in
  let y := v0 m1 * linear_r + v1 m1 * linear_g + v2 m1 * linear_b in
  let z := v0 m2 * linear_r + v1 m2 * linear_g + v2 m2 * linear_b in
  let x_normalized := x / v0 white_point_d65 in
  let y_normalized := y / v1 white_point_d65 in
  let z_normalized := z / v2 white_point_d65 in
  let fx := lab_f x_normalized in
  let fy := lab_f y_normalized in
  let fz := lab_f z_normalized in
  let l := dec "116.0" * fy - dec "16.0" in
  let a := dec "500.0" * (fx - fy) in
  let b := dec "200.0" * (fy - fz) in
  (l, a, b).

(** color_utils.rs 171-173: [y_from_lstar]. *)
Definition y_from_lstar (lstar : f64) : f64 :=
  dec "100.0" * lab_invf ((lstar + dec "16.0") / dec "116.0").

(** color_utils.rs 147-151: [argb_from_lstar]. *)
Definition argb_from_lstar (lstar : f64) : Z :=
  let y := y_from_lstar lstar in
  let component := delinearized y in
  argb_from_rgb component component component.

(** color_utils.rs 157-160: [lstar_from_argb]. *)
Definition lstar_from_argb (argb : Z) : f64 :=
  let y := v1 (xyz_from_argb argb) in
  dec "116.0" * lab_f (y / dec "100.0") - dec "16.0".

(** color_utils.rs 184-186: [lstar_from_y]. *)
Definition lstar_from_y (y : f64) : f64 :=
  lab_f (y / dec "100.0") * dec "116.0" - dec "16.0".
End WithLibm.
