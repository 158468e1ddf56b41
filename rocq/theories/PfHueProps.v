(** * Every colour has a hue: the assembled statements.  Proof file. *)
From Coq Require Import ZArith Bool Reals String List.
From Flocq Require Import Core IEEE754.BinarySingleNaN.
From Verif Require Import F64 MathUtils ColorUtils ViewingConditions Cam16 Hct Spec SpecCam PfHct PfCamProps PfHueAll.
Open Scope string_scope.
Open Scope R_scope.

Section Acc.
Context {lm : Libm} (LA : libm_accurate (1 / 10 ^ 13) lm).

Lemma hct_int_total argb : exists h, hct_from_int argb = Ok h.
Proof using LA.
  destruct (from_int_total LA argb) as [cam E]. unfold hct_from_int, hct_new. rewrite E. cbn [bind]. eexists. reflexivity.
Qed.

Lemma every_hue argb : exists h, hct_from_int argb = Ok h /\ fle (dec "0.0") (h_hue h) = true /\ flt (h_hue h) (dec "360.0") = true.
Proof using LA.
  destruct (hct_int_total argb) as [h E]. exists h. split; [exact E|]. exact (new_hue_range argb h E).
Qed.

Lemma trip_total argb : exists cam, cam16_from_int argb = Ok cam /\
  cam16_to_int cam = Ok (0xFF000000 + argb mod 0x1000000)%Z /\ (opaque argb -> cam16_to_int cam = Ok argb).
Proof using LA.
  destruct (from_int_total LA argb) as [cam E]. exists cam. split; [exact E|]. exact (cam_trip_full LA argb cam E).
Qed.
End Acc.
