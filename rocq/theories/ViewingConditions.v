(** * Model of /repo/src/hct/viewing_conditions.rs *)
From Coq Require Import ZArith Bool String List.
From Verif Require Import F64 MathUtils ColorUtils.
Import ListNotations.
Open Scope string_scope.
Open Scope f64_scope.

(** viewing_conditions.rs 14-31 (struct ViewingConditions).  [vc_white_point] keeps the
    caller's vector; [drgb_inverse] is always [0,0,0] and never read, hence omitted. *)
Record viewing_conditions := {
  vc_white_point : list f64;
  vc_adapting_luminance : f64;
  vc_background_lstar : f64;
  vc_surround : f64;
  vc_discounting_illuminant : bool;
  vc_n : f64;                    (* background_y_to_white_point_y *)
  vc_aw : f64;
  vc_nbb : f64;
  vc_ncb : f64;
  vc_c : f64;
  vc_n_c : f64;
  vc_rgb_d : vec3;
  vc_fl : f64;
  vc_f_lroot : f64;
  vc_z : f64
}.

Definition unwrap_or {A} (o : option A) (d : A) : A := match o with Some a => a | None => d end.

Section WithLibm.
Context {lm : Libm}.

(** viewing_conditions.rs 48-183: [make]; [Panic] for the index on a white point with fewer than three
    entries (line 74) and the assertion on [surround] (line 79). *)
Definition make (white_point : option (list f64)) (adapting_luminance background_lstar surround : option f64)
    (discounting_illuminant : option bool) : res viewing_conditions :=
  let adapting_luminance :=
    let adapting_luminance := unwrap_or adapting_luminance (dec "-1.0") in
    if adapting_luminance >? dec "0.0" then adapting_luminance
    else dec "200.0" / PI64 * y_from_lstar (dec "50.0") / dec "100.0" in
  let background_lstar := unwrap_or background_lstar (dec "50.0") in
  let surround := unwrap_or surround (dec "2.0") in
  let discounting_illuminant := unwrap_or discounting_illuminant false in
  let white_point := unwrap_or white_point [v0 white_point_d65; v1 white_point_d65; v2 white_point_d65] in
  let background_lstar := fmax (dec "0.1") background_lstar in
  do x <- index white_point 0;
  do y <- index white_point 1;
  do z <- index white_point 2;
  let r_w := x * dec "0.401288" + y * dec "0.650173" + z * dec "-0.051461" in
  let g_w := x * dec "-0.250268" + y * dec "1.204414" + z * dec "0.045854" in
  let b_w := x * dec "-0.002079" + y * dec "0.048952" + z * dec "0.953127" in
  if negb ((surround >=? dec "0.0") && (surround <=? dec "2.0")) then Panic else
  let f := dec "0.8" + surround / dec "10.0" in
  let c :=
    if f >=? dec "0.9" then lerp (dec "0.59") (dec "0.69") ((f - dec "0.9") * dec "10.0")
    else lerp (dec "0.525") (dec "0.59") ((f - dec "0.8") * dec "10.0") in
  let d :=
    if discounting_illuminant then dec "1.0"
    else f * (dec "1.0" - (dec "1.0" / dec "3.6") *
                expf ((- adapting_luminance - dec "42.0") / dec "92.0")) in
  let d := if d >? dec "1.0" then dec "1.0" else if d <? dec "0.0" then dec "0.0" else d in
  let n_c := f in
  let rgb_d : vec3 :=
    (d * (dec "100.0" / r_w) + dec "1.0" - d,
     d * (dec "100.0" / g_w) + dec "1.0" - d,
     d * (dec "100.0" / b_w) + dec "1.0" - d) in
  let k := dec "1.0" / (dec "5.0" * adapting_luminance + dec "1.0") in
  let k4 := k * k * k * k in
  let k4_f := dec "1.0" - k4 in
  let fl := k4 * adapting_luminance
            + dec "0.1" * k4_f * k4_f * powf (dec "5.0" * adapting_luminance) (dec "1.0" / dec "3.0") in
  let n := y_from_lstar background_lstar / y in
  let zz := dec "1.48" + fsqrt n in
  let nbb := dec "0.725" / powf n (dec "0.2") in
  let ncb := nbb in
  let f0 := powf (fl * v0 rgb_d * r_w / dec "100.0") (dec "0.42") in
  let f1 := powf (fl * v1 rgb_d * g_w / dec "100.0") (dec "0.42") in
  let f2 := powf (fl * v2 rgb_d * b_w / dec "100.0") (dec "0.42") in
  let a0 := (dec "400.0" * f0) / (f0 + dec "27.13") in
  let a1 := (dec "400.0" * f1) / (f1 + dec "27.13") in
  let a2 := (dec "400.0" * f2) / (f2 + dec "27.13") in
  let aw := (dec "40.0" * a0 + dec "20.0" * a1 + a2) / dec "20.0" * nbb in
  Ok {| vc_white_point := white_point;
        vc_adapting_luminance := adapting_luminance;
        vc_background_lstar := background_lstar;
        vc_surround := surround;
        vc_discounting_illuminant := discounting_illuminant;
        vc_n := n; vc_aw := aw; vc_nbb := nbb; vc_ncb := ncb; vc_c := c; vc_n_c := n_c;
        vc_rgb_d := rgb_d; vc_fl := fl; vc_f_lroot := powf fl (dec "0.25"); vc_z := zz |}.

(** viewing_conditions.rs 33-38: [s_rgb] and [standard]. *)
Definition s_rgb : res viewing_conditions := make None None None None None.
End WithLibm.
