(** * Cases for texts.  Proof file. *)
From Coq Require Import ZArith Bool Reals Lra Lia String List.
From Flocq Require Import Core IEEE754.BinarySingleNaN.
From Verif Require Import F64 Hct Palettes Text Spec SpecCam SpecPalette SpecExact SpecTotal SpecText RefLibm FloatFacts FloatCast PfTotal PfCamProps PfExact PfToneCase PfShow.
Import ListNotations.
Open Scope string_scope.
Open Scope R_scope.

(** A formatter that shows the integral part. *)
Definition plain_fmt (x : f64) : string := numeral (to_i64 x).
Lemma plain_shows : shows_integers plain_fmt.
Proof.
  intros x z fx ex bz. left. unfold plain_fmt. f_equal. rewrite to_i64_fin by exact fx. rewrite ex. rewrite Ztrunc_IZR. change (2 ^ 53)%Z with 9007199254740992%Z in bz. unfold zclamp, i64_min, i64_max. destruct (Z.ltb_spec z (- 2 ^ 63)); [lia|]. destruct (Z.ltb_spec (2 ^ 63 - 1) z); lia.
Qed.
Lemma colour_text_case : libm_accurate (1 / 10 ^ 13) ref_libm /\ pow_monotone ref_libm /\ pow_one ref_libm /\ shows_integers plain_fmt /\
  exists h, @hct_from_int ref_libm 0xFF4285F4 = Ok h.
Proof. split; [exact ref_13|]. split; [exact ref_pow_monotone|]. split; [exact ref_pow_one|]. split; [exact plain_shows|]. exact (@int_ret ref_libm ref_13 0xFF4285F4). Qed.
Lemma palette_text_case : exists p p' s s', @tp_of ref_libm (dec "270.0") (dec "36.0") = Ok p /\ @after_gets ref_libm p [10%Z; 15%Z] = Ok p' /\
  @tp_to_string plain_fmt ref_libm p = Ok s /\ @tp_to_string plain_fmt ref_libm p' = Ok s'.
Proof.
  destruct (@tp_ret ref_libm ref_13 (dec "270.0") (dec "36.0")) as [p E]. destruct (@gets_ret ref_libm ref_13 [10%Z; 15%Z] p) as [p' E'].
  destruct (@of_text ref_libm ref_13 plain_fmt _ _ p [] p E eq_refl) as (l & _ & T). destruct (@of_text ref_libm ref_13 plain_fmt _ _ p [10%Z; 15%Z] p' E E') as (l' & _ & T').
  eexists p, p', _, _. split; [exact E|]. split; [exact E'|]. split; [exact T|exact T'].
Qed.
Lemma core_text_case : exists c s l k, @cp_of ref_libm 0xFF4285F4 = Ok c /\ @cp_to_string plain_fmt ref_libm c = Ok s /\ @cp_as_list ref_libm c = Ok (l, k).
Proof.
  destruct (@cp_ret ref_libm ref_13 0xFF4285F4) as [c E]. destruct (@core_text_ret ref_libm ref_13 plain_fmt _ c E) as [s S]. destruct (@cp_as_list_ret ref_libm ref_13 c) as [[l k] A].
  exists c, s, l, k. split; [exact E|]. split; [exact S|exact A].
Qed.
