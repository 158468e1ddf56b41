(** * Property theorems: Hct, the solver, viewing conditions, blending and dislike analysis. *)
From Coq Require Import ZArith Bool Reals List String.
From Flocq Require Import Core IEEE754.BinarySingleNaN.
From Verif Require Import F64 MathUtils ColorUtils ViewingConditions Cam16 HctSolver Hct Spec SpecHct
  SampleLibm PfContrast PfHct PfViewing.
Import ListNotations.
Open Scope string_scope.
Open Scope list_scope.
Open Scope R_scope.
Notation B2R := (@BinarySingleNaN.B2R 53 1024).

(** C27: after any history of setter calls. *)
Theorem C27_hct_is_coherent : forall (lm : Libm) (l : list setter) (h0 h : hct),
  (exists z, hct_from_int z = Ok h0) \/ (exists hue chroma tone, hct_from hue chroma tone = Ok h0) ->
  call_setters h0 l = Ok h ->
  hct_from_int (hct_to_int h) = Ok h /\ (l <> [] -> opaque (hct_to_int h)).
Proof. exact (fun lm => history_from_any). Qed.
Print Assumptions C27_hct_is_coherent.
Example C27_case :
  match bind (@hct_from_int sample_libm 0x123456789)
     (fun h0 => @call_setters sample_libm h0 [SetTone (dec "0.0"); SetHue (dec "30.0")]) with
  | Ok h => Z.eqb (hct_to_int h) 0xFF000000 | Panic => false end = true.
Proof. vm_compute. reflexivity. Qed.

(** C28 *)
Theorem C28_from_int_keeps_its_integer : forall (lm : Libm) (z : Z) (h : hct),
  hct_from_int z = Ok h -> hct_to_int h = z.
Proof. exact (fun lm => new_argb). Qed.
Print Assumptions C28_from_int_keeps_its_integer.

Theorem C28_equality_is_by_integer : forall a b : hct, hct_eqb a b = true <-> hct_to_int a = hct_to_int b.
Proof. exact eqb_iff. Qed.
Print Assumptions C28_equality_is_by_integer.

Theorem C28_equality_is_an_equivalence_respected_by_hash : forall a b c : hct,
  hct_eqb a a = true /\ hct_eqb a b = hct_eqb b a /\
  (hct_eqb a b = true -> hct_eqb b c = true -> hct_eqb a c = true) /\
  (hct_eqb a b = true -> hct_hash a = hct_hash b).
Proof. exact eqb_equiv. Qed.
Print Assumptions C28_equality_is_an_equivalence_respected_by_hash.

Theorem C28_equal_hcts_agree_everywhere : forall (lm : Libm) (z1 z2 : Z) (a b : hct),
  hct_from_int z1 = Ok a -> hct_from_int z2 = Ok b -> hct_eqb a b = true -> a = b.
Proof. exact (fun lm => eq_all_fields). Qed.
Print Assumptions C28_equal_hcts_agree_everywhere.
Example C28_case : match @hct_from_int sample_libm 0xFF00FF00 with Ok h => hct_to_int h | Panic => 0%Z end = 0xFF00FF00%Z.
Proof. vm_compute. reflexivity. Qed.

(** C29 *)
Theorem C29_solver_returns_opaque : forall (lm : Libm) (hue chroma tone : f64) (r : Z),
  solve_to_int hue chroma tone = Ok r -> opaque r.
Proof. exact (fun lm => solve_opaque). Qed.
Print Assumptions C29_solver_returns_opaque.
Example C29_case :
  match @solve_to_int sample_libm (dec "120.0") (dec "200.0") (dec "50.0") with
  | Ok r => Z.leb 0xFF000000 r | Panic => false end = true.
Proof. vm_compute. reflexivity. Qed.

(** C30 *)
Theorem C30_degenerate_requests_solve_to_grey : forall (lm : Libm) (hue chroma tone : f64),
  (flt chroma (dec "0.0001") || flt tone (dec "0.0001") || flt (dec "99.9999") tone)%bool = true ->
  solve_to_int hue chroma tone = Ok (argb_from_lstar tone) /\
  (exists c, (0 <= c <= 255)%Z /\ argb_from_lstar tone = (0xFF000000 + 65536 * c + 256 * c + c)%Z) /\
  (fle tone (dec "0.0") = true -> argb_from_lstar tone = 0xFF000000%Z).
Proof.
  exact (fun lm hue c t d => conj (solve_degenerate hue c t d) (conj (lstar_grey t) (black t))).
Qed.
Print Assumptions C30_degenerate_requests_solve_to_grey.

Theorem C30_hue_is_ignored : forall (lm : Libm) (hue hue' chroma tone : f64),
  (flt chroma (dec "0.0001") || flt tone (dec "0.0001") || flt (dec "99.9999") tone)%bool = true ->
  hct_from hue chroma tone = hct_from hue' chroma tone.
Proof.
  exact (fun lm hue hue' c t d => eq_trans (from_degenerate hue c t d) (eq_sym (from_degenerate hue' c t d))).
Qed.
Print Assumptions C30_hue_is_ignored.
Example C30_case : (flt (dec "0.0") (dec "0.0001") || flt (dec "61.0") (dec "0.0001") || flt (dec "99.9999") (dec "61.0"))%bool = true
  /\ @solve_to_int sample_libm (dec "10.0") (dec "0.0") (dec "61.0") = Ok 0xFF939393%Z.
Proof. split; vm_compute; reflexivity. Qed.

(** C32 for every libm: a hue that is returned is in range.  For an accurate libm one is always returned: PropsCam.v. *)
Theorem C32_returned_hue_in_range : forall (lm : Libm) (z : Z) (h : hct), hct_from_int z = Ok h ->
  fle (dec "0.0") (h_hue h) = true /\ flt (h_hue h) (dec "360.0") = true.
Proof. exact (fun lm => new_hue_range). Qed.
Print Assumptions C32_returned_hue_in_range.

(** C33.  [s], [l] and [b] are the arguments or their defaults. *)
Theorem C33_surround_check : forall (lm : Libm) (w0 w1 w2 : f64) (rest : list f64) wp lum bg sur disc,
  wp = Some (w0 :: w1 :: w2 :: rest) \/ (wp = None /\ [w0; w1; w2] = [dec "95.047"; dec "100.0"; dec "108.883"] /\ rest = []) ->
  let s := match sur with Some s => s | None => dec "2.0" end in
  (make wp lum bg sur disc = Panic <-> ~ (fle (dec "0.0") s = true /\ fle s (dec "2.0") = true)).
Proof. exact (fun lm => make_panics_iff). Qed.
Print Assumptions C33_surround_check.

Theorem C33_short_white_point_panics : forall (lm : Libm) (wp : list f64) lum bg sur disc,
  (List.length wp < 3)%nat -> make (Some wp) lum bg sur disc = Panic.
Proof. exact (fun lm => short_white_point). Qed.
Print Assumptions C33_short_white_point_panics.

Theorem C33_fields : forall (lm : Libm) wp lum bg sur disc vc, make wp lum bg sur disc = Ok vc ->
  let l := match lum with Some l => l | None => dec "-1.0" end in
  let b := match bg with Some b => b | None => dec "50.0" end in
  (* background: at least 0.1, unchanged when it already is, 0.1 otherwise *)
  fle (dec "0.1") (vc_background_lstar vc) = true /\
  (fle (dec "0.1") b = true -> B2R (vc_background_lstar vc) = B2R b) /\
  (fle (dec "0.1") b = false -> vc_background_lstar vc = dec "0.1") /\
  (* luminance: positive, unchanged when it already is, else 200/pi * Y(50) / 100 *)
  flt (dec "0.0") (vc_adapting_luminance vc) = true /\
  (flt (dec "0.0") l = true -> vc_adapting_luminance vc = l) /\
  (flt (dec "0.0") l = false ->
     vc_adapting_luminance vc = fdiv (fmul (fdiv (dec "200.0") PI64) (y_from_lstar (dec "50.0"))) (dec "100.0")) /\
  (* c and n_c *)
  is_finite (vc_c vc) = true /\ 0.525 - bpow radix2 (-49) <= B2R (vc_c vc) <= 0.69 + bpow radix2 (-49) /\
  fle (dec "0.8") (vc_n_c vc) = true /\ fle (vc_n_c vc) (dec "1.0") = true.
Proof. exact (fun lm => make_fields). Qed.
Print Assumptions C33_fields.
(** Chromatic adaptation: one degree between 0 and 1 (1 when the illuminant is discounted) or not a number
    scales the three cone responses of the white point. *)
Theorem C33_adaptation : forall (lm : Libm) (w0 w1 w2 : f64) (rest : list f64) lum bg sur disc vc,
  make (Some (w0 :: w1 :: w2 :: rest)) lum bg sur disc = Ok vc ->
  exists d, (is_nan d = true \/ (fle (dec "0.0") d = true /\ fle d (dec "1.0") = true)) /\
    (disc = Some true -> d = dec "1.0") /\
    let r_w := fadd (fadd (fmul w0 (dec "0.401288")) (fmul w1 (dec "0.650173"))) (fmul w2 (dec "-0.051461")) in
    let g_w := fadd (fadd (fmul w0 (dec "-0.250268")) (fmul w1 (dec "1.204414"))) (fmul w2 (dec "0.045854")) in
    let b_w := fadd (fadd (fmul w0 (dec "-0.002079")) (fmul w1 (dec "0.048952"))) (fmul w2 (dec "0.953127")) in
    let gain w := fsub (fadd (fmul d (fdiv (dec "100.0") w)) (dec "1.0")) d in
    vc_rgb_d vc = (gain r_w, gain g_w, gain b_w).
Proof. exact (fun lm => make_adaptation). Qed.
Print Assumptions C33_adaptation.
Example C33_case :
  match @make sample_libm None (Some (dec "-3.0")) (Some (dec "0.0")) (Some (dec "1.0")) None with
  | Ok vc => feq (vc_background_lstar vc) (dec "0.1") | Panic => false end = true.
Proof. vm_compute. reflexivity. Qed.

(** C70: [D] is the length and [s] the direction of the shorter arc from design to source. *)
Theorem C70_harmonized_hue : forall from to : f64,
  is_finite from = true -> is_finite to = true -> 0 <= B2R from < 360 -> 0 <= B2R to < 360 ->
  is_finite (harmonize_hue from to) = true /\ 0 <= B2R (harmonize_hue from to) <= 360 /\
  exists (D s : R) (k k' : Z), 0 <= D <= 180 /\ (s = 1 \/ s = -1) /\
    Rabs (B2R to - (B2R from + s * D - 360 * IZR k)) <= bpow radix2 (-40) /\
    Rabs (B2R (harmonize_hue from to) - (B2R from + s * Rmin (D / 2) 15 - 360 * IZR k')) <= bpow radix2 (-40).
Proof. exact harmonize_hue_ok. Qed.
Print Assumptions C70_harmonized_hue.

Theorem C70_same_hue_unchanged : forall h : f64, is_finite h = true -> 0 <= B2R h < 360 ->
  B2R (harmonize_hue h h) = B2R h.
Proof. exact harmonize_same. Qed.
Print Assumptions C70_same_hue_unchanged.

Theorem C70_harmonize_keeps_chroma_and_tone : forall (lm : Libm) (design source r : Z),
  harmonize design source = Ok r ->
  exists dh sh h, hct_from_int design = Ok dh /\ hct_from_int source = Ok sh /\
    hct_from (harmonize_hue (h_hue dh) (h_hue sh)) (h_chroma dh) (h_tone dh) = Ok h /\ hct_to_int h = r /\ opaque r.
Proof. exact (fun lm => harmonize_full). Qed.
Print Assumptions C70_harmonize_keeps_chroma_and_tone.
Example C70_case : B2SF (harmonize_hue (dec "350.0") (dec "40.0")) = B2SF (dec "5.0") /\
  B2SF (harmonize_hue (dec "20.0") (dec "10.0")) = B2SF (dec "15.0").
Proof. split; vm_compute; reflexivity. Qed.

(** C71 *)
Theorem C71_amount_zero_keeps_coordinates : forall (lm : Libm) (a b : Z) (ca cb : cam16),
  cam16_from_int a = Ok ca -> cam16_from_int b = Ok cb ->
  is_finite (c_jstar ca) = true -> is_finite (c_astar ca) = true -> is_finite (c_bstar ca) = true ->
  is_finite (fsub (c_jstar cb) (c_jstar ca)) = true -> is_finite (fsub (c_astar cb) (c_astar ca)) = true ->
  is_finite (fsub (c_bstar cb) (c_bstar ca)) = true ->
  exists j' a' b', blend_cam16_ucs a b (dec "0.0") = bind (cam16_from_ucs j' a' b') cam16_to_int /\
    (is_finite j' = true /\ B2R j' = B2R (c_jstar ca)) /\ (is_finite a' = true /\ B2R a' = B2R (c_astar ca)) /\
    (is_finite b' = true /\ B2R b' = B2R (c_bstar ca)).
Proof. exact (fun lm => ucs_0). Qed.
Print Assumptions C71_amount_zero_keeps_coordinates.

Theorem C71_hct_hue_keeps_chroma_and_tone : forall (lm : Libm) (a b : Z) (t : f64) (r : Z),
  blend_hct_hue a b t = Ok r ->
  exists u hu ha h, blend_cam16_ucs a b t = Ok u /\ hct_from_int u = Ok hu /\ hct_from_int a = Ok ha /\
    hct_from (h_hue hu) (h_chroma ha) (h_tone ha) = Ok h /\ hct_to_int h = r.
Proof. exact (fun lm => hct_hue_inv). Qed.
Print Assumptions C71_hct_hue_keeps_chroma_and_tone.

Theorem C71_results_are_opaque : forall (lm : Libm) (a b : Z) (t : f64) (r : Z),
  (blend_cam16_ucs a b t = Ok r -> opaque r) /\ (blend_hct_hue a b t = Ok r -> opaque r).
Proof. exact (fun lm a b t r => conj (ucs_opaque a b t r) (hct_hue_opaque a b t r)). Qed.
Print Assumptions C71_results_are_opaque.
Example C71_case : @blend_cam16_ucs sample_libm 0xFFFF0000 0xFF0000FF (dec "0.0") = Ok 0xFFFF0000%Z /\
  match @cam16_from_int sample_libm 0xFFFF0000, @cam16_from_int sample_libm 0xFF0000FF with
  | Ok ca, Ok cb => (is_finite (c_jstar ca) && is_finite (c_astar ca) && is_finite (c_bstar ca) &&
      is_finite (fsub (c_jstar cb) (c_jstar ca)) && is_finite (fsub (c_astar cb) (c_astar ca)) &&
      is_finite (fsub (c_bstar cb) (c_bstar ca)))%bool
  | _, _ => false end = true.
Proof. split; vm_compute; reflexivity. Qed.

(** C72 *)
Theorem C72_disliked_iff : forall h : hct,
  is_nan (h_hue h) = false -> is_nan (h_chroma h) = false -> is_nan (h_tone h) = false ->
  (is_disliked h = true <->
   (fle (dec "89.5") (h_hue h) = true /\ flt (h_hue h) (dec "111.5") = true) /\
   fle (dec "16.5") (h_chroma h) = true /\ flt (h_tone h) (dec "64.5") = true).
Proof. exact disliked_iff. Qed.
Print Assumptions C72_disliked_iff.

Theorem C72_nan_is_liked : forall h : hct,
  is_nan (h_hue h) = true \/ is_nan (h_chroma h) = true \/ is_nan (h_tone h) = true -> is_disliked h = false.
Proof. exact disliked_nan. Qed.
Print Assumptions C72_nan_is_liked.

Theorem C72_fix_if_disliked : forall (lm : Libm) (h : hct),
  (is_disliked h = false -> fix_if_disliked h = Ok h) /\
  (is_disliked h = true -> fix_if_disliked h = hct_from (h_hue h) (h_chroma h) (dec "70.0")).
Proof. exact (fun lm h => conj (fix_liked h) (fix_disliked h)). Qed.
Print Assumptions C72_fix_if_disliked.
Example C72_case : is_disliked {| h_hue := dec "100.0"; h_chroma := dec "50.0"; h_tone := dec "50.0"; h_argb := 0 |} = true
  /\ is_disliked {| h_hue := dec "89.4"; h_chroma := dec "50.0"; h_tone := dec "50.0"; h_argb := 0 |} = false.
Proof. split; vm_compute; reflexivity. Qed.
