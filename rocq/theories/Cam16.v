(** * Model of /repo/src/hct/cam16.rs *)
From Coq Require Import ZArith Bool String.
From Verif Require Import F64 MathUtils ColorUtils ViewingConditions.
Open Scope string_scope.
Open Scope f64_scope.

(** cam16.rs 35-63 and 72-94: struct Cam16 and [new]. *)
Record cam16 := {
  c_hue : f64; c_chroma : f64; c_j : f64; c_q : f64; c_m : f64; c_s : f64;
  c_jstar : f64; c_astar : f64; c_bstar : f64
}.

Section WithLibm.
Context {lm : Libm}.

(** cam16.rs 99-106: [distance]. *)
Definition cam16_distance (self other : cam16) : f64 :=
  let d_j := c_jstar self - c_jstar other in
  let d_a := c_astar self - c_astar other in
  let d_b := c_bstar self - c_bstar other in
  let d_eprime := fsqrt (d_j * d_j + d_a * d_a + d_b * d_b) in
  dec "1.41" * powf d_eprime (dec "0.63").

(** cam16.rs 129-164: the opponent coordinates (a, b) and the responses (r_a, g_a, b_a)
    computed by [from_xyz_in_viewing_conditions]; split out so that lemmas can name them. *)
Definition xyz_responses (x y z : f64) (vc : viewing_conditions) : vec3 :=
  let r_c := dec "0.401288" * x + dec "0.650173" * y - dec "0.051461" * z in
  let g_c := dec "-0.250268" * x + dec "1.204414" * y + dec "0.045854" * z in
  let b_c := dec "-0.002079" * x + dec "0.048952" * y + dec "0.953127" * z in
  let r_d := v0 (vc_rgb_d vc) * r_c in
  let g_d := v1 (vc_rgb_d vc) * g_c in
  let b_d := v2 (vc_rgb_d vc) * b_c in
  let r_af := powf (vc_fl vc * fabs r_d / dec "100.0") (dec "0.42") in
  let g_af := powf (vc_fl vc * fabs g_d / dec "100.0") (dec "0.42") in
  let b_af := powf (vc_fl vc * fabs b_d / dec "100.0") (dec "0.42") in
  (of_Z (signum r_d) * dec "400.0" * r_af / (r_af + dec "27.13"),
   of_Z (signum g_d) * dec "400.0" * g_af / (g_af + dec "27.13"),
   of_Z (signum b_d) * dec "400.0" * b_af / (b_af + dec "27.13")).

(** cam16.rs 154: redness-greenness. *)
Definition opp_a (ra : vec3) : f64 :=
  (dec "11.0" * v0 ra + dec "-12.0" * v1 ra + v2 ra) / dec "11.0".
(** cam16.rs 156: yellowness-blueness. *)
Definition opp_b (ra : vec3) : f64 :=
  (v0 ra + v1 ra - dec "2.0" * v2 ra) / dec "9.0".

(** cam16.rs 163-173: hue in degrees from the opponent coordinates. *)
Definition hue_of_ab (a b : f64) : f64 :=
  let atan2 := atan2f b a in
  let atan_degrees := atan2 * dec "180.0" / PI64 in
  if atan_degrees <? dec "0.0" then atan_degrees + dec "360.0"
  else if atan_degrees >=? dec "360.0" then atan_degrees - dec "360.0"
  else atan_degrees.

(** cam16.rs 129-212: [from_xyz_in_viewing_conditions]; [Panic] is the assertion of line 176. *)
Definition cam16_from_xyz (x y z : f64) (vc : viewing_conditions) : res cam16 :=
  let ra := xyz_responses x y z vc in
  let r_a := v0 ra in let g_a := v1 ra in let b_a := v2 ra in
  let a := opp_a ra in
  let b := opp_b ra in
  let u := (dec "20.0" * r_a + dec "20.0" * g_a + dec "21.0" * b_a) / dec "20.0" in
  let p2 := (dec "40.0" * r_a + dec "20.0" * g_a + b_a) / dec "20.0" in
  let hue := hue_of_ab a b in
  let hue_radians := hue * PI64 / dec "180.0" in
  if negb ((hue >=? dec "0.0") && (hue <? dec "360.0")) then Panic else
  let ac := p2 * vc_nbb vc in
  let j := dec "100.0" * powf (ac / vc_aw vc) (vc_c vc * vc_z vc) in
  let q := (dec "4.0" / vc_c vc) * fsqrt (j / dec "100.0") * (vc_aw vc + dec "4.0") * vc_f_lroot vc in
  let hue_prime := if hue <? dec "20.14" then hue + dec "360.0" else hue in
  let e_hue := (dec "1.0" / dec "4.0") *
               (cosf (hue_prime * PI64 / dec "180.0" + dec "2.0") + dec "3.8") in
  let p1 := dec "50000.0" / dec "13.0" * e_hue * vc_n_c vc * vc_ncb vc in
  let t := p1 * fsqrt (a * a + b * b) / (u + dec "0.305") in
  let alpha := powf t (dec "0.9") *
               powf (dec "1.64" - powf (dec "0.29") (vc_n vc)) (dec "0.73") in
  let c := alpha * fsqrt (j / dec "100.0") in
  let m := c * vc_f_lroot vc in
  let s := dec "50.0" * fsqrt ((alpha * vc_c vc) / (vc_aw vc + dec "4.0")) in
  let jstar := (dec "1.0" + dec "100.0" * dec "0.007") * j / (dec "1.0" + dec "0.007" * j) in
  let mstar := lnf (dec "1.0" + dec "0.0228" * m) / dec "0.0228" in
  let astar := mstar * cosf hue_radians in
  let bstar := mstar * sinf hue_radians in
  Ok {| c_hue := hue; c_chroma := c; c_j := j; c_q := q; c_m := m; c_s := s;
        c_jstar := jstar; c_astar := astar; c_bstar := bstar |}.

(** cam16.rs 115-125: [from_int_in_viewing_conditions]. *)
Definition cam16_from_int_in (argb : Z) (vc : viewing_conditions) : res cam16 :=
  let xyz := xyz_from_argb argb in
  cam16_from_xyz (v0 xyz) (v1 xyz) (v2 xyz) vc.

(** cam16.rs 110-112: [from_int]. *)
Definition cam16_from_int (argb : Z) : res cam16 :=
  do vc <- s_rgb; cam16_from_int_in argb vc.

(** cam16.rs 222-242: [from_jch_in_viewing_conditions]. *)
Definition cam16_from_jch_in (j c h : f64) (vc : viewing_conditions) : cam16 :=
  let q := (dec "4.0" / vc_c vc) * fsqrt (j / dec "100.0") * (vc_aw vc + dec "4.0") * vc_f_lroot vc in
  let m := c * vc_f_lroot vc in
  let alpha := c / fsqrt (j / dec "100.0") in
  let s := dec "50.0" * fsqrt ((alpha * vc_c vc) / (vc_aw vc + dec "4.0")) in
  let hue_radians := h * PI64 / dec "180.0" in
  let jstar := (dec "1.0" + dec "100.0" * dec "0.007") * j / (dec "1.0" + dec "0.007" * j) in
  let mstar := dec "1.0" / dec "0.0228" * lnf (dec "1.0" + dec "0.0228" * m) in
  let astar := mstar * cosf hue_radians in
  let bstar := mstar * sinf hue_radians in
  {| c_hue := h; c_chroma := c; c_j := j; c_q := q; c_m := m; c_s := s;
     c_jstar := jstar; c_astar := astar; c_bstar := bstar |}.

(** cam16.rs 216-218: [from_jch]. *)
Definition cam16_from_jch (j c h : f64) : res cam16 :=
  do vc <- s_rgb; Ok (cam16_from_jch_in j c h vc).

(** cam16.rs 257-275: [from_ucs_in_viewing_conditions]. *)
Definition cam16_from_ucs_in (jstar astar bstar : f64) (vc : viewing_conditions) : cam16 :=
  let a := astar in
  let b := bstar in
  let m := fsqrt (a * a + b * b) in
  let m := (expf (m * dec "0.0228") - dec "1.0") / dec "0.0228" in
  let c := m / vc_f_lroot vc in
  let h := atan2f b a * (dec "180.0" / PI64) in
  let h := if h <? dec "0.0" then h + dec "360.0" else h in
  let j := jstar / (dec "1.0" - (jstar - dec "100.0") * dec "0.007") in
  cam16_from_jch_in j c h vc.

(** cam16.rs 246-253: [from_ucs]. *)
Definition cam16_from_ucs (jstar astar bstar : f64) : res cam16 :=
  do vc <- s_rgb; Ok (cam16_from_ucs_in jstar astar bstar vc).

(** cam16.rs 299-363: [xyz_in_viewing_conditions] (the [array] argument only selects between two
    ways of building the same vector, lines 354-362, and is omitted). *)
Definition cam16_xyz_in (self : cam16) (vc : viewing_conditions) : vec3 :=
  let alpha :=
    if (c_chroma self =? dec "0.0") || (c_j self =? dec "0.0") then dec "0.0"
    else c_chroma self / fsqrt (c_j self / dec "100.0") in
  let t := powf (alpha / powf (dec "1.64" - powf (dec "0.29") (vc_n vc)) (dec "0.73"))
                (dec "1.0" / dec "0.9") in
  let h_rad := c_hue self * PI64 / dec "180.0" in
  let e_hue := dec "0.25" * (cosf (h_rad + dec "2.0") + dec "3.8") in
  let ac := vc_aw vc * powf (c_j self / dec "100.0") (dec "1.0" / vc_c vc / vc_z vc) in
  let p1 := e_hue * (dec "50000.0" / dec "13.0") * vc_n_c vc * vc_ncb vc in
  let p2 := ac / vc_nbb vc in
  let h_sin := sinf h_rad in
  let h_cos := cosf h_rad in
  let gamma := dec "23.0" * (p2 + dec "0.305") * t /
               (dec "23.0" * p1 + dec "11.0" * t * h_cos + dec "108.0" * t * h_sin) in
  let a := gamma * h_cos in
  let b := gamma * h_sin in
  let r_a := (dec "460.0" * p2 + dec "451.0" * a + dec "288.0" * b) / dec "1403.0" in
  let g_a := (dec "460.0" * p2 - dec "891.0" * a - dec "261.0" * b) / dec "1403.0" in
  let b_a := (dec "460.0" * p2 - dec "220.0" * a - dec "6300.0" * b) / dec "1403.0" in
  let r_cbase := fmax (dec "0.0") ((dec "27.13" * fabs r_a) / (dec "400.0" - fabs r_a)) in
  let r_c := of_Z (signum r_a) * (dec "100.0" / vc_fl vc) * powf r_cbase (dec "1.0" / dec "0.42") in
  let g_cbase := fmax (dec "0.0") ((dec "27.13" * fabs g_a) / (dec "400.0" - fabs g_a)) in
  let g_c := of_Z (signum g_a) * (dec "100.0" / vc_fl vc) * powf g_cbase (dec "1.0" / dec "0.42") in
  let b_cbase := fmax (dec "0.0") ((dec "27.13" * fabs b_a) / (dec "400.0" - fabs b_a)) in
  let b_c := of_Z (signum b_a) * (dec "100.0" / vc_fl vc) * powf b_cbase (dec "1.0" / dec "0.42") in
  let r_f := r_c / v0 (vc_rgb_d vc) in
  let g_f := g_c / v1 (vc_rgb_d vc) in
  let b_f := b_c / v2 (vc_rgb_d vc) in
  let x := dec "1.86206786" * r_f - dec "1.01125463" * g_f + dec "0.14918677" * b_f in
  let y := dec "0.38752654" * r_f + dec "0.62144744" * g_f - dec "0.00897398" * b_f in
  let z := dec "-0.01584150" * r_f - dec "0.03412294" * g_f + dec "1.04996444" * b_f in
  (x, y, z).

(** cam16.rs 288-296: [viewed]. *)
Definition cam16_viewed (self : cam16) (vc : viewing_conditions) : Z :=
  let xyz := cam16_xyz_in self vc in
  argb_from_xyz (v0 xyz) (v1 xyz) (v2 xyz).

(** cam16.rs 279-281: [to_int]. *)
Definition cam16_to_int (self : cam16) : res Z :=
  do vc <- s_rgb; Ok (cam16_viewed self vc).
End WithLibm.
