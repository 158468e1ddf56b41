(** * Properties: texts of colours and palettes. *)
From Coq Require Import ZArith Bool Reals String List.
From Flocq Require Import Core IEEE754.BinarySingleNaN.
From Verif Require Import F64 Hct Palettes Text Spec SpecCam SpecPalette SpecExact SpecText RefLibm PfShow PfShowCase.
Import ListNotations.
Open Scope string_scope.
Open Scope R_scope.

(** C88.  [fmt] is the standard library's Display of an f64. *)
Theorem C88_text_of_a_colour : forall lm : Libm, libm_accurate (1 / 10 ^ 13) lm -> pow_monotone lm -> pow_one lm ->
  forall (fmt : f64 -> string) (argb : Z) (h : hct), shows_integers fmt -> hct_from_int argb = Ok h ->
  exists hs cs ts n m k, hct_to_string fmt h = ("H" ++ hs ++ " C" ++ cs ++ " T" ++ ts)%string /\
    shows hs n /\ nearest n (h_hue h) /\ (0 <= n <= 360)%Z /\
    shows cs m /\ nearest m (h_chroma h) /\ (0 <= m)%Z /\ shows ts k /\ nearest k (h_tone h) /\ (0 <= k <= 100)%Z.
Proof. exact (fun lm LA PM P1 => hct_text LA PM P1). Qed.
Print Assumptions C88_text_of_a_colour.
Example C88_case : libm_accurate (1 / 10 ^ 13) ref_libm /\ pow_monotone ref_libm /\ pow_one ref_libm /\ shows_integers plain_fmt /\
  exists h, @hct_from_int ref_libm 0xFF4285F4 = Ok h.
Proof. exact colour_text_case. Qed.
Example C88_sample : hct_to_string plain_fmt {| h_hue := dec "359.6"; h_chroma := dec "47.4"; h_tone := dec "0.5"; h_argb := 0 |} = "H360 C47 T1".
Proof. vm_compute. reflexivity. Qed.

(** C89.  The text of a palette made from a hue and a chroma, after any reads, lists its thirteen colours. *)
Theorem C89_text_of_a_palette : forall lm : Libm, libm_accurate (1 / 10 ^ 13) lm ->
  forall (fmt : f64 -> string) (hue chroma : f64) (p : tonal_palette) (tones : list Z) (p' : tonal_palette),
  tp_of hue chroma = Ok p -> after_gets p tones = Ok p' ->
  exists colors, ramp hue chroma colors /\ tp_to_string fmt p' = Ok ("TonalPalette.fromList([" ++ comma_separated colors ++ "])")%string.
Proof. exact (fun lm LA fmt => of_text LA fmt). Qed.
Print Assumptions C89_text_of_a_palette.
Theorem C89_text_of_a_colours_palette : forall lm : Libm, libm_accurate (1 / 10 ^ 13) lm ->
  forall (fmt : f64 -> string) (h : hct) (tones : list Z) (p' : tonal_palette), after_gets (tp_from_hct h) tones = Ok p' ->
  exists colors, ramp (h_hue h) (h_chroma h) colors /\ tp_to_string fmt p' = Ok ("TonalPalette.fromList([" ++ comma_separated colors ++ "])")%string.
Proof. exact (fun lm LA fmt => hct_palette_text LA fmt). Qed.
Print Assumptions C89_text_of_a_colours_palette.
Theorem C89_equal_texts_equal_colours : forall lm : Libm, libm_accurate (1 / 10 ^ 13) lm ->
  forall (fmt : f64 -> string) (hue chroma : f64) (p : tonal_palette) (hue' chroma' : f64) (p' : tonal_palette) (s s' : string) (l l' : list Z),
  tp_of hue chroma = Ok p -> tp_of hue' chroma' = Ok p' -> tp_to_string fmt p = Ok s -> tp_to_string fmt p' = Ok s' ->
  ramp hue chroma l -> ramp hue' chroma' l' -> (s = s' <-> l = l').
Proof. exact (fun lm LA fmt => of_texts LA fmt). Qed.
Print Assumptions C89_equal_texts_equal_colours.
Theorem C89_equal_core_texts_equal_colours : forall lm : Libm, libm_accurate (1 / 10 ^ 13) lm ->
  forall (fmt : f64 -> string) (a b : Z) (c c' : core_palette) (s s' : string) (l l' : list Z) (k k' : core_palette),
  cp_of a = Ok c -> cp_of b = Ok c' -> cp_to_string fmt c = Ok s -> cp_to_string fmt c' = Ok s' ->
  cp_as_list c = Ok (l, k) -> cp_as_list c' = Ok (l', k') -> (s = s' <-> l = l').
Proof. exact (fun lm LA fmt => core_of_texts LA fmt). Qed.
Print Assumptions C89_equal_core_texts_equal_colours.
Example C89_case : exists p p' s s', @tp_of ref_libm (dec "270.0") (dec "36.0") = Ok p /\ @after_gets ref_libm p [10%Z; 15%Z] = Ok p' /\
  @tp_to_string plain_fmt ref_libm p = Ok s /\ @tp_to_string plain_fmt ref_libm p' = Ok s'.
Proof. exact palette_text_case. Qed.
Example C89_core_case : exists c s l k, @cp_of ref_libm 0xFF4285F4 = Ok c /\ @cp_to_string plain_fmt ref_libm c = Ok s /\ @cp_as_list ref_libm c = Ok (l, k).
Proof. exact core_text_case. Qed.
(** A palette made from a list of colours is shown as if made from a hue and a chroma, so its text does not tell its colours. *)
Theorem C89_text_of_a_listed_palette : forall (lm : Libm) (fmt : f64 -> string) (colors : list Z) (p : tonal_palette), tp_from_list colors = Ok p ->
  forall (tones : list Z) (p' : tonal_palette), after_gets p tones = Ok p' ->
  tp_to_string fmt p' = Ok ("TonalPalette.of(" ++ fmt (tp_hue p) ++ ", " ++ fmt (tp_chroma p) ++ ")")%string.
Proof. exact (fun lm fmt => list_text fmt). Qed.
Print Assumptions C89_text_of_a_listed_palette.
Theorem C89_listed_colours_refuted : forall lm : Libm, libm_accurate (1 / 10 ^ 13) lm -> forall fmt : f64 -> string,
  exists l l' p p', l <> l' /\ tp_from_list l = Ok p /\ tp_from_list l' = Ok p' /\ tp_to_string fmt p = tp_to_string fmt p'.
Proof. exact (fun lm LA fmt => lists_alike LA fmt). Qed.
Print Assumptions C89_listed_colours_refuted.
