(** * C102: the solver's answer has the hue and the chroma that were asked for.  Theorems only. *)
From Coq Require Import ZArith Bool Reals String.
From Flocq Require Import Core IEEE754.BinarySingleNaN.
From Verif Require Import F64 MathUtils ColorUtils ViewingConditions HctSolver Hct Spec SpecCam SpecTone SpecViewing SpecAppear SpecCie SpecSolve RefLibm PfCamProps PfSolveHue PfSolveEnd PfToneRange.
Open Scope string_scope.
Open Scope R_scope.

(** For every hue, chroma and tone that are not those of a grey, a colour is made whose tone is within 1 of the one asked for.  Either a linear
    colour rounds to it that has the hue and the chroma asked for under the standard conditions, by the published model (SpecAppear.v, SpecSolve.v),
    or the search for such a colour found none and the colour is the limit of the gamut. *)
Theorem C102_hue_and_chroma : forall lm : Libm, libm_accurate (1 / 10 ^ 13) lm -> pow_special lm -> forall hue chroma tone : f64,
  is_finite hue = true -> is_finite chroma = true -> 0.00011 <= B2R chroma <= 10 ^ 9 -> is_finite tone = true -> 0.00011 <= B2R tone <= 99.9998 ->
  exists h vc, hct_from hue chroma tone = Ok h /\ s_rgb = Ok vc /\ (B2R tone - 1 <= B2R (h_tone h) <= B2R tone + 1) /\
    let standard := conditions_of (B2R (dec "95.047")) 100 (B2R (dec "108.883")) (B2R (vc_adapting_luminance vc)) 50 2 false in
    let angle := fmul (fdiv (sanitize_degrees_double hue) (dec "180.0")) PI64 in
    ((exists lr lg lb, shows (hct_to_int h) lr lg lb /\ looks standard lr lg lb (B2R hue) (B2R chroma)) \/
     (find_result_by_j angle chroma (y_from_lstar tone) = Ok 0%Z /\
      exists l, bisect_to_limit (y_from_lstar tone) angle = Ok l /\ hct_to_int h = argb_from_linrgb l)).
Proof. exact (fun lm LA PS => hct_looks LA PS). Qed.
Print Assumptions C102_hue_and_chroma.

(** Whatever the luminance asked for, an answer of the search has the hue and the chroma asked for. *)
Theorem C102_search : forall lm : Libm, libm_accurate (1 / 10 ^ 13) lm -> pow_special lm -> forall (hue chroma y : f64) (argb : Z),
  is_finite hue = true -> is_finite chroma = true -> 0.0001 <= B2R chroma <= 10 ^ 9 -> is_finite y = true -> 1.1 / 10 ^ 5 <= B2R y <= 99.9999 ->
  find_result_by_j (fmul (fdiv (sanitize_degrees_double hue) (dec "180.0")) PI64) chroma y = Ok argb -> argb <> 0%Z ->
  exists vc, s_rgb = Ok vc /\ exists lr lg lb, shows argb lr lg lb /\
    looks (conditions_of (B2R (dec "95.047")) 100 (B2R (dec "108.883")) (B2R (vc_adapting_luminance vc)) 50 2 false) lr lg lb (B2R hue) (B2R chroma).
Proof. exact (fun lm LA PS hue chroma y argb => search_looks LA PS hue chroma y argb). Qed.
Print Assumptions C102_search.

(** The hypotheses hold for the reference library and for a green of hue 120, chroma 30 and tone 50. *)
Example C102_library : libm_accurate (1 / 10 ^ 13) ref_libm /\ pow_special ref_libm.
Proof. exact (conj ref_13 ref_pow_special). Qed.
Example C102_case : is_finite (dec "120.0") = true /\ is_finite (dec "30.0") = true /\ 0.00011 <= B2R (dec "30.0") <= 10 ^ 9 /\
  is_finite (dec "50.0") = true /\ 0.00011 <= B2R (dec "50.0") <= 99.9998.
Proof. exact solve_case. Qed.
