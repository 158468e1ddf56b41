(** * C97: viewing conditions are those of CAM16.  Theorems only. *)
From Coq Require Import ZArith Bool Reals String List.
From Flocq Require Import Core IEEE754.BinarySingleNaN.
From Verif Require Import F64 MathUtils ColorUtils ViewingConditions Spec SpecCam SpecViewing RefLibm PfCamProps PfViewingStd.
Import ListNotations.
Open Scope string_scope.
Open Scope R_scope.

(** For every ordinary white, luminance, background and surround, [make] returns, and each of the twelve
    quantities is the published one (SpecViewing.v) to nine digits.  A background below 0.1 counts as 0.1. *)
Theorem C97_cam16_conditions : forall (lm : Libm) (x y z : f64) (rest : list f64) (la l s : f64) (disc : bool),
  libm_accurate (1 / 10 ^ 13) lm -> ordinary x y z la l s ->
  exists vc, make (Some (x :: y :: z :: rest)) (Some la) (Some l) (Some s) (Some disc) = Ok vc /\
    follows_cam16 vc (B2R x) (B2R y) (B2R z) (B2R la) (Rmax 0.1 (B2R l)) (B2R s) disc.
Proof. exact (fun lm x y z rest la l s disc LA => follows_ex LA x y z rest la l s disc). Qed.
Print Assumptions C97_cam16_conditions.

(** The hypotheses hold for illuminant A in a dim room and for D50 before a black background in the dark. *)
Example C97_case :
  ordinary (dec "109.85") (dec "100.0") (dec "35.585") (dec "4.0") (dec "20.0") (dec "1.0") /\
  ordinary (dec "96.42") (dec "100.0") (dec "82.51") (dec "318.31") (dec "0.0") (dec "0.0").
Proof. exact lamp_ordinary. Qed.
Example C97_lamp : exists vc,
  @make ref_libm (Some [dec "109.85"; dec "100.0"; dec "35.585"]) (Some (dec "4.0")) (Some (dec "20.0")) (Some (dec "1.0")) (Some false) = Ok vc /\
  close (vc_n_c vc) (surround_F (B2R (dec "1.0"))) /\ close (vc_c vc) (surround_c (B2R (dec "1.0"))).
Proof.
  destruct (C97_cam16_conditions ref_libm (dec "109.85") (dec "100.0") (dec "35.585") [] (dec "4.0") (dec "20.0") (dec "1.0") false ref_13 (proj1 lamp_ordinary)) as (vc & E & H).
  exists vc. exact (conj E (conj (fc_nc _ _ _ _ _ _ _ _ H) (fc_c _ _ _ _ _ _ _ _ H))).
Qed.

(** An argument left out, or a luminance that is not positive, means its default: white D65, luminance
    200/pi * Y(50) / 100, background 50, average surround, no discounting of the illuminant. *)
Theorem C97_defaults : forall (lm : Libm) wp lum bg sur disc,
  let la0 := fdiv (fmul (fdiv (dec "200.0") PI64) (y_from_lstar (dec "50.0"))) (dec "100.0") in
  make wp lum bg sur disc =
  make (Some (match wp with Some w => w | None => [dec "95.047"; dec "100.0"; dec "108.883"] end))
       (Some (match lum with Some l => if fgt l (dec "0.0") then l else la0 | None => la0 end))
       (Some (match bg with Some b => b | None => dec "50.0" end))
       (Some (match sur with Some s => s | None => dec "2.0" end))
       (Some (match disc with Some d => d | None => false end)).
Proof. exact (fun lm => make_defaults). Qed.
Print Assumptions C97_defaults.

(** The standard conditions are CAM16's for sRGB: D65, an adapting luminance of 200/pi times 18.4 percent, a mid-grey background. *)
Theorem C97_standard : forall lm : Libm, libm_accurate (1 / 10 ^ 13) lm ->
  exists vc, s_rgb = Ok vc /\ close (vc_adapting_luminance vc) (200 / PI * luminance 50 / 100) /\
    follows_cam16 vc (B2R (dec "95.047")) 100 (B2R (dec "108.883")) (B2R (vc_adapting_luminance vc)) 50 2 false.
Proof. exact (fun lm LA => standard_follows LA). Qed.
Print Assumptions C97_standard.

(** ... and so every platform gets these numbers. *)
Theorem C97_standard_values : forall lm : Libm, libm_accurate (1 / 10 ^ 13) lm ->
  exists vc, s_rgb = Ok vc /\
    to_six (vc_n vc) 0.184187 /\ to_six (vc_z vc) 1.909170 /\ to_six (vc_nbb vc) 1.016919 /\ to_six (vc_ncb vc) 1.016919 /\
    to_six (vc_c vc) 0.69 /\ to_six (vc_n_c vc) 1 /\
    to_six (v0 (vc_rgb_d vc)) 1.021178 /\ to_six (v1 (vc_rgb_d vc)) 0.986308 /\ to_six (v2 (vc_rgb_d vc)) 0.933961 /\
    to_six (vc_fl vc) 0.388481 /\ to_six (vc_f_lroot vc) 0.789483 /\ to_six (vc_aw vc) 29.980997.
Proof. exact (fun lm LA => standard_values LA). Qed.
Print Assumptions C97_standard_values.
