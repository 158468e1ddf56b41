(** * Property theorems: the temperature cache. *)
From Coq Require Import ZArith Bool Reals List String Sorted.
From Flocq Require Import Core IEEE754.BinarySingleNaN.
From Verif Require Import F64 MathUtils ColorUtils ViewingConditions Hct Temperature Spec SpecTemperature SampleLibm PfTemperature.
Import ListNotations.
Open Scope string_scope.
Open Scope list_scope.
Open Scope Z_scope.

(** C46 *)
Theorem C46_analogous_panics : forall (lm : Libm) (argb : Z) (h : hct) (count divisions : option Z),
  hct_from_int argb = Ok h -> fle (dec "359.5") (h_hue h) = true ->
  analogous (tc_new h) count divisions = Panic.
Proof. exact (fun lm => analogous_late). Qed.
Print Assumptions C46_analogous_panics.

Theorem C46_complement_panics : forall (lm : Libm) (argb : Z) (h : hct),
  hct_from_int argb = Ok h -> fle (dec "359.5") (h_hue h) = true ->
  get_complement (tc_new h) = Panic.
Proof. exact (fun lm => complement_late). Qed.
Print Assumptions C46_complement_panics.

Theorem C46_analogous_returns : forall (lm : Libm) (argb : Z) (h : hct) (count divisions : option Z),
  hct_from_int argb = Ok h -> has_wheel h -> flt (h_hue h) (dec "359.5") = true -> count_fits count ->
  exists l c, analogous (tc_new h) count divisions = Ok (l, c).
Proof. exact (fun lm => analogous_returns). Qed.
Print Assumptions C46_analogous_returns.

(** [get_complement] walks the arc between the warmest and the coldest colour that does not contain the
    input.  It panics exactly when the input or a hue it visits on that arc is at 359.5 or above. *)
Theorem C46_complement : forall (lm : Libm) (argb : Z) (h coldest warmest : hct) (c1 c2 : temp_cache),
  hct_from_int argb = Ok h ->
  get_coldest (tc_new h) = Ok (coldest, c1) -> get_warmest (tc_new h) = Ok (warmest, c2) ->
  let warm_side := is_between (h_hue h) (h_hue coldest) (h_hue warmest) in
  let start := h_hue (if warm_side then warmest else coldest) in
  let stop := h_hue (if warm_side then coldest else warmest) in
  get_complement (tc_new h) = Panic <->
    (fle (dec "359.5") (h_hue h) = true \/
     exists k, 0 <= k < 360 /\
       is_between (sanitize_degrees_double (fadd start (of_Z k))) start stop = true /\
       fle (dec "359.5") (sanitize_degrees_double (fadd start (of_Z k))) = true).
Proof. exact (fun lm => complement_iff). Qed.
Print Assumptions C46_complement.

(** A pink whose hue is about 359.76. *)
Example C46_pink : match @hct_from_int sample_libm 0xFFC8006C with
  | Ok h => fle (dec "359.5") (h_hue h) | Panic => false end = true.
Proof. vm_compute. reflexivity. Qed.
(** White has a wheel (of white), its hue is about 209.5 and its temperature is finite. *)
Definition is_white_like (h : hct) : Prop :=
  @hct_from_int sample_libm 0xFFFFFFFF = Ok h /\ flt (h_hue h) (dec "359.5") = true /\
  (forall k, @on_wheel sample_libm h k h) /\
  is_finite (@raw_temperature sample_libm h) = true /\ (Rabs (B2R (@raw_temperature sample_libm h)) <= 1000000)%R.
Lemma white_case : exists h, is_white_like h.
Proof. apply (@white_like sample_libm). vm_compute. reflexivity. Qed.
Example C46_returns_case : exists h, @hct_from_int sample_libm 0xFFFFFFFF = Ok h /\ @has_wheel sample_libm h /\
  flt (h_hue h) (dec "359.5") = true /\ count_fits None.
Proof.
  destruct white_case as (h & E & L & W & _). exists h. split; [exact E|]. split; [intros k _; exists h; apply W|].
  split; [exact L|]. split; reflexivity || discriminate.
Qed.

(** C47 *)
Theorem C47_analogous_shape : forall (lm : Libm) (argb : Z) (h : hct) (count divisions : option Z) (l : list hct) (c : temp_cache),
  hct_from_int argb = Ok h -> count_fits count -> analogous (tc_new h) count divisions = Ok (l, c) ->
  analogous_shape h (unwrap_or count 5) (unwrap_or divisions 12) l.
Proof. exact (fun lm => analogous_result). Qed.
Print Assumptions C47_analogous_shape.
(** The hypotheses are met by white (and the result then follows from C46_analogous_returns). *)
Example C47_case : exists h l c, @hct_from_int sample_libm 0xFFFFFFFF = Ok h /\
  @analogous sample_libm (tc_new h) (Some 3) (Some 6) = Ok (l, c).
Proof.
  destruct C46_returns_case as (h & E & W & L & _).
  destruct (C46_analogous_returns sample_libm _ h (Some 3) (Some 6) E W L) as (l & c & A); [split; reflexivity || discriminate|].
  exists h, l, c. split; [exact E|exact A].
Qed.

(** C48 *)
Theorem C48_sorted : forall (lm : Libm) (h : hct) (l : list hct) (c : temp_cache),
  get_hcts_by_temp (tc_new h) = Ok (l, c) ->
  (forall x, x = h \/ (exists k, 0 <= k < 360 /\ on_wheel h k x) -> is_nan (raw_temperature x) = false) ->
  List.length l = 361%nat /\
  StronglySorted (fun a b => fle (raw_temperature a) (raw_temperature b) = true) l /\
  forall x, In x l <-> (x = h \/ exists k, 0 <= k < 360 /\ on_wheel h k x).
Proof. exact (fun lm => by_temp_result). Qed.
Print Assumptions C48_sorted.

Theorem C48_relative : forall (lm : Libm) (h x : hct),
  has_wheel h ->
  (forall y, y = h \/ (exists k, 0 <= k < 360 /\ on_wheel h k y) ->
    is_finite (raw_temperature y) = true /\ (Rabs (B2R (raw_temperature y)) <= 1000000)%R) ->
  x = h \/ (exists k, 0 <= k < 360 /\ on_wheel h k x) ->
  exists coldest warmest r c1 c2 c3,
    get_coldest (tc_new h) = Ok (coldest, c1) /\ get_warmest (tc_new h) = Ok (warmest, c2) /\
    relative_temperature (tc_new h) x = Ok (r, c3) /\
    fle (raw_temperature coldest) (raw_temperature x) = true /\
    fle (raw_temperature x) (raw_temperature warmest) = true /\
    (feq (raw_temperature coldest) (raw_temperature warmest) = true -> r = dec "0.5") /\
    (feq (raw_temperature coldest) (raw_temperature warmest) = false ->
      is_finite r = true /\ (0 <= B2R r <= 1)%R /\
      (feq (raw_temperature x) (raw_temperature coldest) = true -> B2R r = 0%R) /\
      (feq (raw_temperature x) (raw_temperature warmest) = true -> B2R r = 1%R)).
Proof. exact (fun lm => relative_result). Qed.
Print Assumptions C48_relative.

Theorem C48_input : forall (lm : Libm) (h : hct),
  rmap fst (get_input_relative_temperature (tc_new h)) = rmap fst (relative_temperature (tc_new h) h).
Proof. exact (fun lm => input_relative). Qed.
Print Assumptions C48_input.
Example C48_case : exists h, @has_wheel sample_libm h /\
  forall y, y = h \/ (exists k, 0 <= k < 360 /\ @on_wheel sample_libm h k y) ->
    is_finite (@raw_temperature sample_libm y) = true /\ (Rabs (B2R (@raw_temperature sample_libm y)) <= 1000000)%R.
Proof.
  destruct white_case as (h & E & L & W & T). exists h. split; [intros k _; exists h; apply W|].
  intros y [->|(k & _ & Q)]; [exact T|]. pose proof (W k) as P. unfold on_wheel in P, Q.
  rewrite P in Q. assert (H : h = y) by congruence. rewrite <- H. exact T.
Qed.

(** C49 *)
Theorem C49_caches_transparent : forall (lm : Libm) (h : hct) (history : list call) (c : temp_cache) (k : call),
  after_calls (tc_new h) history = Ok c -> rmap fst (perform c k) = rmap fst (perform (tc_new h) k).
Proof. exact (fun lm => cache_transparent). Qed.
Print Assumptions C49_caches_transparent.

Example C49_case : exists h c,
  @after_calls sample_libm (tc_new h) [Coldest; InputRelativeTemperature; HctsByHue; RelativeTemperature h] = Ok c.
Proof.
  destruct C46_returns_case as (h & _ & W & _). exists h. exact (@some_history sample_libm h W).
Qed.

(** C50 *)
Theorem C50_is_between : forall x a b : f64,
  fle (dec "0.0") x = true -> flt x (dec "360.0") = true ->
  fle (dec "0.0") a = true -> flt a (dec "360.0") = true ->
  fle (dec "0.0") b = true -> flt b (dec "360.0") = true ->
  is_between x a b = true <->
  (B2R a = B2R b \/ clockwise (B2R a) (B2R x) <= clockwise (B2R a) (B2R b))%R.
Proof. exact between_spec. Qed.
Print Assumptions C50_is_between.
Example C50_case : is_between (dec "10.0") (dec "350.0") (dec "20.0") = true /\
  is_between (dec "30.0") (dec "350.0") (dec "20.0") = false /\ is_between (dec "30.0") (dec "20.0") (dec "350.0") = true.
Proof. repeat split; vm_compute; reflexivity. Qed.
