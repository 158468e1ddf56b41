(** * Property theorems: what never panics, for every accurate libm (SpecCam.v). *)
From Coq Require Import ZArith Bool Reals List String.
From Verif Require Import F64 MathUtils ViewingConditions Cam16 Hct Palettes LegacyScheme Score Temperature DynamicScheme DynamicColor MaterialDynamicColors Schemes
  Spec SpecCam SpecHct SpecPalette SpecScheme SpecTemperature SpecTones SpecTotal RefLibm PfCamProps PfTotal.
Import ListNotations.
Open Scope string_scope.
Open Scope list_scope.
Open Scope Z_scope.

(** C77.  [returns r]: the call did not panic.  A correctly rounded libm meets the hypothesis. *)
Example C77_libm_case : libm_accurate (1 / 10 ^ 13) ref_libm.
Proof. exact ref_13. Qed.

(** Any integer, any floats (infinities and NaN included), any number of setter calls. *)
Theorem C77_hct : forall lm : Libm, libm_accurate (1 / 10 ^ 13) lm ->
  (forall argb, returns (hct_from_int argb)) /\
  (forall hue chroma tone, returns (hct_from hue chroma tone)) /\
  (forall h calls, returns (call_setters h calls)) /\
  (forall h, returns (fix_if_disliked h)).
Proof. exact (fun lm LA => conj (new_ret LA) (conj (from_ret LA) (conj (fun h l => setters_ret LA l h) (fix_ret LA)))). Qed.
Print Assumptions C77_hct.

Theorem C77_blend : forall lm : Libm, libm_accurate (1 / 10 ^ 13) lm -> forall (a b : Z) (amount : f64),
  returns (harmonize a b) /\ returns (blend_cam16_ucs a b amount) /\ returns (blend_hct_hue a b amount).
Proof. exact (fun lm LA a b t => conj (harmonize_ret LA a b) (conj (ucs_ret LA a b t) (blend_hue_ret LA a b t))). Qed.
Print Assumptions C77_blend.

(** A palette can only fail to be made from a list of the wrong length; then every read returns, after any
    history of reads. *)
Theorem C77_tonal_palette : forall lm : Libm, libm_accurate (1 / 10 ^ 13) lm ->
  (forall hue chroma, returns (tp_of hue chroma)) /\
  (forall l, returns (tp_from_list l) <-> List.length l = 13%nat) /\
  (forall p tones, returns (after_gets p tones)) /\
  (forall p tone, returns (tp_get_hct p tone)) /\
  (forall p, returns (tp_get_as_list p)) /\
  (forall p q, returns (tp_eqb p q)) /\
  (forall p, returns (tp_hash p)).
Proof.
  exact (fun lm LA => conj (tp_ret LA) (conj (tp_list_iff LA) (conj (fun p l => gets_ret LA l p)
    (conj (get_hct_ret LA) (conj (get_list_ret LA) (conj (tp_eqb_ret LA) (tp_hash_ret LA))))))).
Qed.
Print Assumptions C77_tonal_palette.

Theorem C77_core_palette : forall lm : Libm, libm_accurate (1 / 10 ^ 13) lm ->
  (forall argb, returns (cp_of argb)) /\ (forall argb, returns (cp_content_of argb)) /\
  (forall l, returns (cp_from_list l) <-> List.length l = 65%nat) /\
  (forall c, returns (cp_as_list c)) /\
  (forall argb, returns (scheme_light argb) /\ returns (scheme_dark argb) /\
     returns (scheme_light_content argb) /\ returns (scheme_dark_content argb)) /\
  (forall c, returns (light_from_core_palette c)) /\ (forall c, returns (dark_from_core_palette c)).
Proof.
  exact (fun lm LA => conj (cp_ret LA) (conj (cp_content_ret LA) (conj (cp_list_iff LA) (conj (cp_as_list_ret LA)
    (conj (legacy_ret LA) (conj (light_ret LA) (dark_ret LA))))))).
Qed.
Print Assumptions C77_core_palette.

(** Populations are counts that add up to an i64. *)
Theorem C77_score : forall lm : Libm, libm_accurate (1 / 10 ^ 13) lm ->
  forall (entries : list (Z * Z)) (desired fallback : option Z) (filter : option bool),
  Forall (fun e => 0 <= snd e) entries -> fold_right Z.add 0 (map snd entries) <= i64_max ->
  returns (score entries desired fallback filter).
Proof. exact (fun lm LA => score_ret LA). Qed.
Print Assumptions C77_score.
Example C77_score_case : exists l, @score ref_libm [(0xFFFF0000, 3); (0xFF00FF00, 4)] None None None = Ok l.
Proof. apply (C77_score ref_libm C77_libm_case); [repeat constructor; discriminate|discriminate]. Qed.

(** Seven variants always build a scheme.  Content fails exactly for hues that round to 360, Fidelity exactly
    when the complement does (C46 says when). *)
Theorem C77_schemes : forall lm : Libm, libm_accurate (1 / 10 ^ 13) lm ->
  forall (v : variant) (argb : Z) (source : hct) (dark : bool) (level : f64), hct_from_int argb = Ok source ->
  (v <> Content -> v <> Fidelity -> returns (construct v source dark level)) /\
  (returns (construct Content source dark level) <-> flt (h_hue source) (dec "359.5") = true) /\
  (returns (construct Fidelity source dark level) <-> returns (get_complement (tc_new source))).
Proof.
  exact (fun lm LA v z h d l E => conj (seven_ret LA v h d l) (conj (content_ret LA z h d l E) (fidelity_ret LA h d l))).
Qed.
Print Assumptions C77_schemes.

(** Every material role of such a scheme has a colour, whatever the role object was asked before. *)
Theorem C77_roles : forall lm : Libm, libm_accurate (1 / 10 ^ 13) lm -> pow_defined lm ->
  forall (role : dynamic_color) (asked : list dynamic_scheme), In role all_roles -> Forall fixed_tones asked ->
  returns (answers role [] asked).
Proof.
  exact (fun lm LA PD role ss I F => answers_ret LA role ss (fun s hs => role_ret s role PD (proj1 (Forall_forall fixed_tones ss) F s hs) I) []).
Qed.
Print Assumptions C77_roles.
Example C77_roles_case : exists h s answer, @hct_from_int ref_libm 0xFF4285F4 = Ok h /\
  @construct ref_libm TonalSpot h true (dec "0.5") = Ok s /\ fixed_tones s /\ @answers ref_libm on_primary [] [s] = Ok answer.
Proof.
  destruct (proj1 (C77_hct ref_libm C77_libm_case) 0xFF4285F4) as [h E].
  destruct (proj1 (C77_schemes ref_libm C77_libm_case TonalSpot 0xFF4285F4 h true (dec "0.5") E)) as [s B]; [discriminate|discriminate|].
  assert (F : fixed_tones s) by exact (spot_fixed h true (dec "0.5") s B).
  destruct (C77_roles ref_libm C77_libm_case ref_pow_defined on_primary [s]) as [a A].
  - exact on_primary_listed.
  - constructor; [exact F|constructor].
  - exists h, s, a. auto.
Qed.

(** A TemperatureCache answers everything; [relative_temperature] needs a colour of the wheel or the input. *)
Theorem C77_temperature : forall lm : Libm, libm_accurate (1 / 10 ^ 13) lm ->
  forall (h : hct),
  (forall k, In k [Warmest; Coldest; HctsByTemp; HctsByHue; TempsByHct; InputRelativeTemperature] -> returns (perform (tc_new h) k)) /\
  (forall x, returns (perform (tc_new h) (RelativeTemperature x)) <->
    (h_argb x = h_argb h \/ exists k w, 0 <= k < 360 /\ on_wheel h k w /\ h_argb x = h_argb w)).
Proof. exact (fun lm LA h => conj (temp_calls_ret LA h) (temp_at_ret LA h)). Qed.
Print Assumptions C77_temperature.
