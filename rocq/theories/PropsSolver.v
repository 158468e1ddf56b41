(** * Property theorems: the HCT solver returns. *)
From Coq Require Import ZArith Bool Reals Lra List String.
From Flocq Require Import Core IEEE754.BinarySingleNaN.
From Verif Require Import F64 MathUtils ColorUtils HctSolver Hct Spec SampleLibm RefLibm PfHct PfNoPanic.
Open Scope string_scope.
Open Scope R_scope.

(** C31.  [Ok] means that no table index was out of range and no i64 operation overflowed.  The
    hypothesis only speaks about finite bases above zero; hue, chroma and tone are any floats. *)
Theorem C31_solving_never_panics : forall (lm : Libm) (eps : R), 0 <= eps <= 1 / 10 ^ 12 -> pow_accurate eps lm ->
  forall hue chroma tone : f64, exists argb : Z, solve_to_int hue chroma tone = Ok argb.
Proof. exact (fun lm eps h PA => solve_total eps h PA). Qed.
Print Assumptions C31_solving_never_panics.

(** A correctly rounded pow meets the hypothesis. *)
Example C31_hypothesis_met : pow_accurate (1 / 10 ^ 12) ref_libm.
Proof. apply (accurate_weaken (/ 2 ^ 53)); [lra|exact ref_pow_accurate]. Qed.
Example C31_case : exists argb, @solve_to_int ref_libm (dec "209.0") (dec "200.0") (dec "50.0") = Ok argb.
Proof. apply (C31_solving_never_panics ref_libm (1 / 10 ^ 12)); [lra|exact C31_hypothesis_met]. Qed.
(** This request is outside the sRGB gamut, so the bisection runs. *)
Example C31_run : @solve_to_int sample_libm (dec "209.0") (dec "200.0") (dec "50.0") = Ok 0xFF008491%Z.
Proof. vm_compute. reflexivity. Qed.

(** The same for [Hct::from]: it always does what [Hct::from_int] does with some opaque colour. *)
Theorem C31_from_is_from_int_of_an_opaque_colour : forall (lm : Libm) (eps : R), 0 <= eps <= 1 / 10 ^ 12 -> pow_accurate eps lm ->
  forall hue chroma tone : f64, exists argb : Z, opaque argb /\ hct_from hue chroma tone = hct_from_int argb.
Proof. exact (fun lm eps h PA => from_is_from_int eps h PA). Qed.
Print Assumptions C31_from_is_from_int_of_an_opaque_colour.
Example C31_from_case : exists argb, opaque argb /\ @hct_from ref_libm finf fnan (dec "50.0") = @hct_from_int ref_libm argb.
Proof. apply (C31_from_is_from_int_of_an_opaque_colour ref_libm (1 / 10 ^ 12)); [lra|exact C31_hypothesis_met]. Qed.

(** Accuracy matters: with a pow that is always 2, the index leaves the table. *)
Theorem C31_inaccurate_pow_refuted : exists (lm : Libm) (hue chroma tone : f64), solve_to_int hue chroma tone = Panic.
Proof.
  exists {| powf := fun _ _ => dec "2.0"; expf := fun x => x; lnf := fun x => x; sinf := fun x => x; cosf := fun x => x; atan2f := fun x _ => x |},
    (dec "209.0"), (dec "200.0"), (dec "50.0"). vm_compute. reflexivity.
Qed.
Print Assumptions C31_inaccurate_pow_refuted.
