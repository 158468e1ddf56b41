(** * C101: from L*a*b* to ARGB by the published formula.  Theorems only. *)
From Coq Require Import ZArith Bool Reals String.
From Flocq Require Import Core IEEE754.BinarySingleNaN.
From Verif Require Import F64 MathUtils ColorUtils Spec SpecCam SpecViewing SpecAppear SpecCie SpecLab RefLibm PfCamProps PfLabFormula.
Open Scope R_scope.

(** For every L*a*b* that a screen can show, each channel of the colour is the one nearest to the published stimulus. *)
Theorem C101_colour_of_lab : forall lm : Libm, libm_accurate (1 / 10 ^ 13) lm -> forall l a b : f64,
  is_finite l = true -> is_finite a = true -> is_finite b = true ->
  let x := lab_x (B2R l) (B2R a) in let y := lab_y (B2R l) in let z := lab_z (B2R l) (B2R b) in
  0 <= linear_red x y z <= 100 -> 0 <= linear_green x y z <= 100 -> 0 <= linear_blue x y z <= 100 ->
  let argb := argb_from_lab l a b in
  channel_of (red_from_argb argb) (linear_red x y z) /\ channel_of (green_from_argb argb) (linear_green x y z) /\ channel_of (blue_from_argb argb) (linear_blue x y z).
Proof. exact (fun lm LA => lab_encode LA). Qed.
Print Assumptions C101_colour_of_lab.

(** The specification of the way back inverts that of the way there (SpecCie.v). *)
Theorem C101_way_back : forall t : R, cie_inverse (cie_f t) = t.
Proof. exact inverse_of_f. Qed.
Print Assumptions C101_way_back.

(** The hypotheses hold for the reference library and for L* = 50, a* = 20, b* = 10, which is reddish. *)
Example C101_library : libm_accurate (1 / 10 ^ 13) ref_libm.
Proof. exact ref_13. Qed.
Example C101_case : let l := dec "50.0" in let a := dec "20.0" in let b := dec "10.0" in
  let x := lab_x (B2R l) (B2R a) in let y := lab_y (B2R l) in let z := lab_z (B2R l) (B2R b) in
  (is_finite l = true /\ is_finite a = true /\ is_finite b = true) /\
  0 <= linear_red x y z <= 100 /\ 0 <= linear_green x y z <= 100 /\ 0 <= linear_blue x y z <= 100 /\ linear_green x y z < linear_red x y z.
Proof. exact lab_case. Qed.
