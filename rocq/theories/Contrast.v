(** * Model of /repo/src/contrast/contrast.rs *)
From Coq Require Import ZArith Bool String.
From Verif Require Import F64 MathUtils ColorUtils.
Open Scope string_scope.
Open Scope f64_scope.

(** contrast.rs 27-43: [_ratio_of_ys]. *)
Definition ratio_of_ys (y1 y2 : f64) : f64 :=
  let lighter := if y1 >? y2 then y1 else y2 in
  let darker := if lighter =? y2 then y1 else y2 in
  (lighter + dec "5.0") / (darker + dec "5.0").

(** contrast.rs 18-25: [ratio_of_tones]. *)
Definition ratio_of_tones (tone_a tone_b : f64) : f64 :=
  let tone_a := clamp_double (dec "0.0") (dec "100.0") tone_a in
  let tone_b := clamp_double (dec "0.0") (dec "100.0") tone_b in
  ratio_of_ys (y_from_lstar tone_a) (y_from_lstar tone_b).

Section WithLibm.
Context {lm : Libm}.

(** contrast.rs 53-73: [lighter]. *)
Definition lighter (tone ratio : f64) : f64 :=
  if (tone <? dec "0.0") || (tone >? dec "100.0") then dec "-1.0" else
  let dark_y := y_from_lstar tone in
  let light_y := ratio * (dark_y + dec "5.0") - dec "5.0" in
  let real_contrast := ratio_of_ys light_y dark_y in
  let delta := fabs (real_contrast - ratio) in
  if (real_contrast <? ratio) && (delta >? dec "0.04") then dec "-1.0" else
  let return_value := lstar_from_y light_y + dec "0.4" in
  if (return_value <? dec "0.0") || (return_value >? dec "100.0") then dec "-1.0"
  else return_value.

(** contrast.rs 83-104: [darker]. *)
Definition darker (tone ratio : f64) : f64 :=
  if (tone <? dec "0.0") || (tone >? dec "100.0") then dec "-1.0" else
  let light_y := y_from_lstar tone in
  let dark_y := (light_y + dec "5.0") / ratio - dec "5.0" in
  let real_contrast := ratio_of_ys light_y dark_y in
  let delta := fabs (real_contrast - ratio) in
  if (real_contrast <? ratio) && (delta >? dec "0.04") then dec "-1.0" else
  let return_value := lstar_from_y dark_y - dec "0.4" in
  if (return_value <? dec "0.0") || (return_value >? dec "100.0") then dec "-1.0"
  else return_value.

(** contrast.rs 118-125: [lighter_unsafe]. *)
Definition lighter_unsafe (tone ratio : f64) : f64 :=
  let lighter_safe := lighter tone ratio in
  if lighter_safe <? dec "0.0" then dec "100.0" else lighter_safe.

(** contrast.rs 139-142: [darker_unsafe]. *)
Definition darker_unsafe (tone ratio : f64) : f64 :=
  let darker_safe := darker tone ratio in
  if darker_safe <? dec "0.0" then dec "0.0" else darker_safe.
End WithLibm.
