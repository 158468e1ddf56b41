(** * Property theorems: round trips between ARGB, linear RGB, XYZ, Lab and L*.
    Only statements, each closed by one lemma from the proof files.
    Every theorem holds for any [pow] with the stated relative error; the last
    two parts of C16 also use that [pow] is monotone in its base. *)
From Coq Require Import ZArith Bool Reals String Lra Lia.
From Flocq Require Import Core IEEE754.BinarySingleNaN.
From Verif Require Import F64 MathUtils ColorUtils Spec RefLibm PfGamma PfLabTrip PfDelin.
Open Scope string_scope.
Open Scope R_scope.
Notation B2R := (@BinarySingleNaN.B2R 53 1024).

(** The hypotheses below have a model: correctly rounded pow. *)
Example pow_hypotheses_met : pow_accurate (1 / 10 ^ 5) ref_libm /\ pow_accurate (1 / 10 ^ 10) ref_libm /\ pow_monotone ref_libm.
Proof.
  split; [|split]; [apply (accurate_weaken (/ 2 ^ 53)); [lra|exact ref_pow_accurate]..|exact ref_pow_monotone].
Qed.

(** C12 *)
Theorem C12_linearize_round_trip : forall (lm : Libm) (eps : R) (c : Z),
  0 <= eps <= 1 / 10 ^ 5 -> pow_accurate eps lm -> (0 <= c <= 255)%Z -> delinearized (linearized c) = c.
Proof. exact (fun lm eps c he pa => delin_lin eps he pa c). Qed.
Print Assumptions C12_linearize_round_trip.
Example C12_case : @delinearized ref_libm (@linearized ref_libm 200) = 200%Z.
Proof. apply (C12_linearize_round_trip ref_libm (1 / 10 ^ 5)); [lra|apply pow_hypotheses_met|lia]. Qed.

(** C13 *)
Theorem C13_xyz_round_trip : forall (lm : Libm) (eps : R) (argb : Z),
  0 <= eps <= 1 / 10 ^ 5 -> pow_accurate eps lm -> opaque argb ->
  let '(x, y, z) := xyz_from_argb argb in argb_from_xyz x y z = argb.
Proof. exact (fun lm eps argb => xyz_trip_opaque eps argb). Qed.
Print Assumptions C13_xyz_round_trip.
(** The hypothesis is met by, for example, a saturated blue. *)
Example C13_case : opaque 0xFF0102FE.
Proof. unfold opaque. lia. Qed.

(** C14 *)
Theorem C14_lab_round_trip : forall (lm : Libm) (eps : R) (argb : Z),
  0 <= eps <= 1 / 10 ^ 10 -> pow_accurate eps lm -> opaque argb ->
  let '(l, a, b) := lab_from_argb argb in argb_from_lab l a b = argb.
Proof. exact (fun lm eps argb => lab_trip_opaque eps argb). Qed.
Print Assumptions C14_lab_round_trip.
Example C14_case : let '(l, a, b) := @lab_from_argb ref_libm 0xFF0102FE in @argb_from_lab ref_libm l a b = 0xFF0102FE%Z.
Proof. apply (C14_lab_round_trip ref_libm (1 / 10 ^ 10)); [lra|apply pow_hypotheses_met|exact C13_case]. Qed.

(** C15 *)
Theorem C15_lstar_is_a_percentage : forall (lm : Libm) (eps : R) (argb : Z),
  0 <= eps <= 1 / 10 ^ 10 -> pow_accurate eps lm ->
  is_finite (lstar_from_argb argb) = true /\
  - (1 / 10 ^ 6) <= B2R (lstar_from_argb argb) <= 100 + 1 / 10 ^ 6.
Proof. exact (fun lm eps argb he pa => lstar_range eps he pa argb). Qed.
Print Assumptions C15_lstar_is_a_percentage.

Theorem C15_lstar_of_black : forall lm : Libm, lstar_from_argb 0xFF000000 = dec "0.0".
Proof. exact (@lstar_of_black). Qed.
Print Assumptions C15_lstar_of_black.

Theorem C15_raising_channels_raises_lstar : forall (lm : Libm) (eps : R) (a b : Z),
  0 <= eps <= 1 / 10 ^ 10 -> pow_accurate eps lm ->
  (red_from_argb a <= red_from_argb b)%Z -> (green_from_argb a <= green_from_argb b)%Z ->
  (blue_from_argb a <= blue_from_argb b)%Z ->
  B2R (lstar_from_argb a) <= B2R (lstar_from_argb b) + 1 / 10 ^ 5.
Proof. exact (fun lm eps a b he pa => lstar_mono eps he pa a b). Qed.
Print Assumptions C15_raising_channels_raises_lstar.
Example C15_case : (red_from_argb 0xFF102030 <= red_from_argb 0xFF112131)%Z /\
  (green_from_argb 0xFF102030 <= green_from_argb 0xFF112131)%Z /\ (blue_from_argb 0xFF102030 <= blue_from_argb 0xFF112131)%Z.
Proof. vm_compute. repeat split; discriminate. Qed.

(** C16, the part that depends on pow; greyness and black are in PropsColor. *)
Theorem C16_lstar_from_100_is_white : forall (lm : Libm) (eps : R) (l : f64),
  0 <= eps <= 1 / 10 ^ 5 -> pow_accurate eps lm -> pow_monotone lm ->
  fle (dec "100.0") l = true -> argb_from_lstar l = 0xFFFFFFFF%Z.
Proof. exact (fun lm eps l he pa pm => white eps he pa pm l). Qed.
Print Assumptions C16_lstar_from_100_is_white.

Theorem C16_greys_are_ordered : forall (lm : Libm) (eps : R) (a b : f64),
  0 <= eps <= 1 / 10 ^ 5 -> pow_accurate eps lm -> pow_monotone lm ->
  fle a b = true -> (argb_from_lstar a <= argb_from_lstar b)%Z.
Proof. exact (fun lm eps a b he pa pm => lstar_grey_mono eps he pa pm a b). Qed.
Print Assumptions C16_greys_are_ordered.
Example C16_cases : fle (dec "100.0") (B754_infinity false) = true /\ fle (dec "8.85") (dec "9.1") = true.
Proof. vm_compute. split; reflexivity. Qed.

(** C17 *)
Theorem C17_greys_survive_lstar : forall (lm : Libm) (eps : R) (c : Z),
  0 <= eps <= 1 / 10 ^ 5 -> pow_accurate eps lm -> (0 <= c <= 255)%Z ->
  argb_from_lstar (lstar_from_argb (argb_from_rgb c c c)) = argb_from_rgb c c c.
Proof. exact (fun lm eps c he pa => grey_trip eps he pa c). Qed.
Print Assumptions C17_greys_survive_lstar.
Example C17_case : let grey := argb_from_rgb 77 77 77 in @argb_from_lstar ref_libm (@lstar_from_argb ref_libm grey) = grey.
Proof. apply (C17_greys_survive_lstar ref_libm (1 / 10 ^ 5)); [lra|apply pow_hypotheses_met|lia]. Qed.
