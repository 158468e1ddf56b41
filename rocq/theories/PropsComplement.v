(** * Property theorems: the temperature scale and the complement. *)
From Coq Require Import ZArith Bool Reals Lra List String Sorted.
From Flocq Require Import Core IEEE754.BinarySingleNaN.
From Verif Require Import F64 MathUtils ColorUtils ViewingConditions Hct Temperature Spec SpecCam SpecTemperature SpecComplement
  FloatFacts RefLibm PfTemperature PfCamProps PfTotal PfTempRange PfTempAll PfComplement PfToneCase.
Import ListNotations.
Open Scope string_scope.
Open Scope list_scope.
Open Scope Z_scope.

(** C84.  Every colour has a temperature, and it lies in the range the documentation gives. *)
Theorem C84_range : forall lm : Libm, libm_accurate (1 / 10 ^ 13) lm -> forall h : hct,
  is_finite (raw_temperature h) = true /\ (-9.66 <= B2R (raw_temperature h) <= 8.61)%R.
Proof. exact (fun lm LA => temperature_range LA). Qed.
Print Assumptions C84_range.
Example C84_libm_case : libm_accurate (1 / 10 ^ 13) ref_libm.
Proof. exact ref_13. Qed.

(** The documented formula for the upper bound, -0.52 + chroma^1.07 / 20, is wrong: black has L*a*b* chroma 0 and a
    temperature above -0.52. *)
Theorem C84_documented_formula_refuted : forall lm : Libm, libm_accurate (1 / 10 ^ 13) lm ->
  exists h, hct_from_int 0xFF000000 = Ok h /\
    let lab := lab_from_argb 0xFF000000 in sqrt (B2R (v1 lab) ^ 2 + B2R (v2 lab) ^ 2) = 0%R /\
    (-0.52 < B2R (raw_temperature h))%R.
Proof. exact (fun lm LA => black_above LA). Qed.
Print Assumptions C84_documented_formula_refuted.

(** The wheel of any colour, with the colour itself, can be sorted by temperature. *)
Theorem C84_sorted : forall lm : Libm, libm_accurate (1 / 10 ^ 13) lm -> forall h : hct,
  exists l c, get_hcts_by_temp (tc_new h) = Ok (l, c) /\ Z.of_nat (List.length l) = 361 /\
    StronglySorted (fun x y => B2R (raw_temperature x) <= B2R (raw_temperature y))%R l /\
    (forall x, In x l <-> (x = h \/ exists k, 0 <= k < 360 /\ on_wheel h k x)).
Proof. exact (fun lm LA => sorted_always LA). Qed.
Print Assumptions C84_sorted.

(** The relative temperature of the colour and of each colour of its wheel is a number from 0 to 1. *)
Theorem C84_relative : forall lm : Libm, libm_accurate (1 / 10 ^ 13) lm -> forall h x : hct,
  x = h \/ (exists k, 0 <= k < 360 /\ on_wheel h k x) ->
  exists r c, relative_temperature (tc_new h) x = Ok (r, c) /\ is_finite r = true /\ (0 <= B2R r <= 1)%R.
Proof. exact (fun lm LA => relative_always LA). Qed.
Print Assumptions C84_relative.

(** C85.  [get_complement] walks from [walk_start] to [walk_stop] (SpecComplement.v) in steps of one degree and answers
    the colour whose relative temperature is nearest to one minus that of the input, the first such colour met.  Only if
    no gap is below 1000 (all temperatures alike) it answers the wheel colour at the input's own hue. *)
Theorem C85_complement : forall (lm : Libm) (argb : Z) (h coldest warmest : hct) (t : f64) (a : hct) (c1 c2 c3 c4 : temp_cache),
  hct_from_int argb = Ok h ->
  get_coldest (tc_new h) = Ok (coldest, c1) -> get_warmest (tc_new h) = Ok (warmest, c2) ->
  get_input_relative_temperature (tc_new h) = Ok (t, c3) -> get_complement (tc_new h) = Ok (a, c4) ->
  let gap := temperature_gap coldest warmest (fsub (dec "1.0") t) in
  let start := walk_start h coldest warmest in let stop := walk_stop h coldest warmest in
  (exists k, met h start stop k a /\ flt (gap a) (dec "1000.0") = true /\
    forall k' x, met h start stop k' x ->
      flt (gap x) (gap a) = false /\ (k' < k -> flt (gap x) (dec "1000.0") = true -> flt (gap a) (gap x) = true))
  \/ (on_wheel h (to_i64 (fround (h_hue h))) a /\
      forall k x, met h start stop k x -> flt (gap x) (dec "1000.0") = false).
Proof. exact (fun lm => complement_chosen). Qed.
Print Assumptions C85_complement.
Example C85_black_case : exists h a c, @hct_from_int ref_libm 0xFF000000 = Ok h /\ @get_complement ref_libm (tc_new h) = Ok (a, c).
Proof. exact black_complement. Qed.

(** When the wheel has two temperatures the answer is on the arc and no colour on the arc is nearer. *)
Theorem C85_complement_nearest : forall (lm : Libm) (argb : Z) (h coldest warmest : hct) (t : f64) (a : hct) (c1 c2 c3 c4 : temp_cache),
  hct_from_int argb = Ok h -> ordinary_temperatures h ->
  get_coldest (tc_new h) = Ok (coldest, c1) -> get_warmest (tc_new h) = Ok (warmest, c2) ->
  flt (raw_temperature coldest) (raw_temperature warmest) = true ->
  get_input_relative_temperature (tc_new h) = Ok (t, c3) -> get_complement (tc_new h) = Ok (a, c4) ->
  let gap x := B2R (temperature_gap coldest warmest (fsub (dec "1.0") t) x) in
  let start := walk_start h coldest warmest in let stop := walk_stop h coldest warmest in
  exists k, met h start stop k a /\ (gap a <= 1)%R /\
    forall k' x, met h start stop k' x -> (gap a <= gap x)%R /\ (k' < k -> (gap a < gap x)%R).
Proof. exact (fun lm => complement_nearest). Qed.
Print Assumptions C85_complement_nearest.
Example C85_nearest_case : exists h coldest warmest t a c1 c2 c3 c4,
  @hct_from_int stub_libm 0xFF0A0000 = Ok h /\ @ordinary_temperatures stub_libm h /\
  @get_coldest stub_libm (tc_new h) = Ok (coldest, c1) /\ @get_warmest stub_libm (tc_new h) = Ok (warmest, c2) /\
  flt (@raw_temperature stub_libm coldest) (@raw_temperature stub_libm warmest) = true /\
  @get_input_relative_temperature stub_libm (tc_new h) = Ok (t, c3) /\ @get_complement stub_libm (tc_new h) = Ok (a, c4).
Proof. exact stub_case. Qed.
(** The hypothesis on the temperatures is no restriction for an accurate libm. *)
Theorem C85_ordinary : forall lm : Libm, libm_accurate (1 / 10 ^ 13) lm -> forall h : hct, ordinary_temperatures h.
Proof. exact (fun lm LA => ordinary_always LA). Qed.
Print Assumptions C85_ordinary.
