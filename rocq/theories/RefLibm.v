(** * A correctly rounded libm: a witness that what some theorems assume about [pow] can hold.
    It models no code in /repo and is not computable; the theorems quantify over every libm with the stated
    properties, and this one shows that such a libm exists. *)
From Coq Require Import ZArith Bool Reals Lra Lia String.
From Flocq Require Import Core Relative IEEE754.BinarySingleNaN.
From Verif Require Import F64 Spec FloatFacts.
Open Scope string_scope.
Open Scope R_scope.

(** The float nearest to a real number. *)
Definition R2f (r : R) : f64 :=
  binary_normalize 53 1024 prec53 prec53_lt mode_NE
    (Ztrunc (scaled_mantissa radix2 fexp64 (rnd r))) (cexp radix2 fexp64 (rnd r)) false.

Lemma R2f_val r : is_nan (R2f r) = false /\ val (R2f r) = rndx r.
Proof.
  unfold R2f. set (m := Ztrunc _). set (e := cexp _ _ _).
  assert (E : F2R (Float radix2 m e) = rnd r).
  { unfold m, e. symmetry. change (generic_format radix2 fexp64 (rnd r)). apply generic_format_round; typeclasses eauto. }
  clearbody m e.
  pose proof (binary_normalize_correct 53 1024 prec53 prec53_lt mode_NE m e false) as C. cbv zeta in C.
  rewrite E in C. change (round radix2 (SpecFloat.fexp 53 1024) (round_mode mode_NE) (rnd r)) with (rnd (rnd r)) in C.
  assert (I : rnd (rnd r) = rnd r) by (apply round_generic; [typeclasses eauto|apply generic_format_round; typeclasses eauto]).
  rewrite I in C. unfold rndx. fold BIG in C. destruct (Rlt_bool (Rabs (rnd r)) BIG) eqn:O.
  - destruct C as (C1 & C2 & _). split; [now apply fin_not_nan|]. now rewrite val_fin.
  - unfold binary_overflow in C. cbn [overflow_to_inf] in C.
    set (x := binary_normalize _ _ _ _ _ _ _ _) in *. clearbody x.
    assert (X : x = B754_infinity (Rlt_bool (rnd r) 0)) by (destruct x; try discriminate C; cbn in C; congruence).
    subst x. split; [reflexivity|]. cbn [val].
    destruct (Rlt_bool_spec (rnd r) 0) as [q|q], (Rlt_bool_spec r 0) as [q'|q']; try reflexivity; exfalso.
    + pose proof (rnd_ge_0 r q'). lra.
    + assert (Z0 : rnd r <= 0) by (apply rnd_le_0; lra). assert (rnd r = 0) as Z1 by lra. rewrite Z1, Rabs_R0 in O.
      rewrite Rlt_bool_true in O by (exact BIG_pos). discriminate O.
Qed.

Definition ref_pow (x y : f64) : f64 :=
  if flt (dec "0.0") x then
    match y with
    | B754_nan => B754_nan
    | B754_infinity sy =>
        let grows := if sy then flt x (dec "1.0") else flt (dec "1.0") x in
        if feq x (dec "1.0") then dec "1.0" else if grows then B754_infinity false else dec "0.0"
    | _ => match x with
           | B754_infinity _ => if flt (dec "0.0") y then B754_infinity false
                                else if flt y (dec "0.0") then dec "0.0" else dec "1.0"
           | _ => R2f (Rpower (B2R x) (B2R y))
           end
    end
  else if feq x (dec "0.0") then
    (if flt (dec "0.0") y then dec "0.0" else if flt y (dec "0.0") then B754_infinity false else dec "1.0")
  else B754_nan.

(** The argument of the complex number x + iy. *)
Definition real_atan2 (y x : R) : R :=
  if Rlt_bool 0 x then atan (y / x)
  else if Rlt_bool x 0 then (if Rlt_bool y 0 then atan (y / x) - PI else atan (y / x) + PI)
  else if Rlt_bool 0 y then PI / 2 else if Rlt_bool y 0 then - PI / 2 else 0.

Definition ref_libm : Libm := {|
  powf := ref_pow;
  expf := fun x => if is_nan x then B754_nan else
    match x with B754_infinity s => if s then dec "0.0" else B754_infinity false | _ => R2f (exp (B2R x)) end;
  lnf := fun x => if flt (dec "0.0") x then
    match x with B754_infinity _ => B754_infinity false | _ => R2f (ln (B2R x)) end
    else if feq x (dec "0.0") then B754_infinity true else B754_nan;
  sinf := fun x => if is_finite x then R2f (sin (B2R x)) else B754_nan;
  cosf := fun x => if is_finite x then R2f (cos (B2R x)) else B754_nan;
  atan2f := fun y x => if is_nan x || is_nan y then B754_nan else R2f (real_atan2 (val y) (val x)) |}.

Lemma pos_cases (x : f64) : flt (dec "0.0") x = true -> x = B754_infinity false \/ (fin x /\ 0 < B2R x).
Proof.
  intros h. destruct (flt_not_nan _ _ h) as [n0 nx]. apply (flt_val _ _ n0 nx) in h. fconst (dec "0.0").
  rewrite (val_fin (dec "0.0") F), V in h.
  destruct x as [s|[]| |s m e b]; try discriminate nx; cbn [val] in h.
  - right. split; [reflexivity|exact h].
  - exfalso. pose proof BIG_pos. lra.
  - now left.
  - right. split; [reflexivity|exact h].
Qed.

Lemma ref_pow_fin (x y : f64) : fin x -> 0 < B2R x -> fin y -> ref_pow x y = R2f (Rpower (B2R x) (B2R y)).
Proof.
  intros fx px fy. unfold ref_pow. fconst (dec "0.0").
  assert (P : flt (dec "0.0") x = true) by (apply (proj2 (flt_fin _ x F fx)); lra). rewrite P.
  destruct y; try discriminate fy; destruct x; try discriminate fx; reflexivity.
Qed.

Theorem ref_pow_defined : pow_defined ref_libm.
Proof.
  intros x y hx fy. cbn [powf ref_libm]. destruct (pos_cases x hx) as [->|[fx px]].
  - unfold ref_pow. rewrite hx. clear hx. fconst (dec "0.0"). fconst (dec "1.0").
    apply fin_not_nan in F, F0. generalize (flt (dec "0.0") y), (flt y (dec "0.0")). intros b b'.
    destruct y; try discriminate fy; destruct b, b'; assumption || reflexivity.
  - rewrite ref_pow_fin by assumption. apply R2f_val.
Qed.

Theorem ref_pow_accurate : pow_accurate (/ 2 ^ 53) ref_libm.
Proof.
  intros x y fx fy px b. cbn [powf ref_libm]. rewrite ref_pow_fin by assumption.
  set (p := Rpower (B2R x) (B2R y)) in *. destruct (R2f_val p) as [N E].
  assert (Pp : 0 < p) by (unfold p, Rpower; apply exp_pos).
  assert (S : Rabs (rnd p) < BIG).
  { rewrite Rabs_pos_eq by (apply rnd_ge_0; lra).
    apply Rle_lt_trans with (bpow radix2 900); [|apply bpow_lt; lia].
    apply rnd_le_fmt; [apply generic_format_bpow; vm_compute; discriminate|apply b]. }
  unfold rndx in E. rewrite Rlt_bool_true in E by exact S.
  assert (F : fin (R2f p)).
  { destruct (R2f p) as [s|s| |s m e h]; try reflexivity; try discriminate N. cbn [val] in E.
    exfalso. rewrite <- E in S. destruct s; rewrite ?Rabs_Ropp, Rabs_pos_eq in S; pose proof BIG_pos; lra. }
  split; [exact F|]. rewrite val_fin in E by exact F. rewrite E.
  pose proof (relative_error_N_FLT radix2 (-1074) 53 ltac:(lia) (fun t => negb (Z.even t)) p) as R.
  rewrite (Rabs_pos_eq p) in R by lra.
  specialize (R ltac:(apply Rle_trans with (2 := proj1 b); apply bpow_le; lia)).
  apply Rle_trans with (1 := R). apply Req_le. change (bpow radix2 (- (53) + 1)) with (/ 4503599627370496). lra.
Qed.

Lemma accurate_weaken a b (lm : Libm) : a <= b -> pow_accurate a lm -> pow_accurate b lm.
Proof.
  intros h A x y fx fy px c. destruct (A x y fx fy px c) as [F B]. split; [exact F|]. apply Rle_trans with (1 := B).
  apply Rmult_le_compat_r; [|exact h]. unfold Rpower. left. apply exp_pos.
Qed.

Theorem ref_pow_monotone : pow_monotone ref_libm.
Proof.
  intros x x' y hx hxx hy. cbn [powf ref_libm].
  assert (hx' : flt (dec "0.0") x' = true).
  { destruct (flt_not_nan _ _ hx) as [n0 nx]. destruct (fle_not_nan _ _ hxx) as [_ nx'].
    apply (flt_val _ _ n0 nx'). apply (flt_val _ _ n0 nx) in hx. apply (fle_val _ _ nx nx') in hxx. lra. }
  destruct (pos_cases y hy) as [->|[fy py]].
  - unfold ref_pow. rewrite hx, hx'. cbv zeta. fconst (dec "1.0"). fconst (dec "0.0").
    destruct (flt_not_nan _ _ hx) as [_ nx]. destruct (flt_not_nan _ _ hx') as [_ nx'].
    pose proof (fin_not_nan _ F) as n1. pose proof (fin_not_nan _ F0) as n0.
    apply (fle_val _ _ nx nx') in hxx.
    assert (Q : forall z : f64, is_nan z = false -> forall r,
      (if feq z (dec "1.0") then dec "1.0" else if flt (dec "1.0") z then B754_infinity false else dec "0.0") = r ->
      is_nan r = false /\ ((val z < 1 /\ val r = 0) \/ (val z = 1 /\ val r = 1) \/ (1 < val z /\ val r = BIG))).
    { intros z nz r <-. destruct (feq z (dec "1.0")) eqn:A.
      - apply (feq_val _ _ nz n1) in A. rewrite (val_fin (dec "1.0") F), V in *. split; [exact n1|]. right; left; split; [exact A|reflexivity].
      - assert (A' : val z <> 1).
        { intros q. assert (X : feq z (dec "1.0") = true) by (apply (feq_val _ _ nz n1); rewrite (val_fin (dec "1.0") F), V; exact q).
          rewrite X in A. discriminate A. }
        destruct (flt (dec "1.0") z) eqn:B.
        + apply (flt_val _ _ n1 nz) in B. rewrite (val_fin (dec "1.0") F), V in B. split; [reflexivity|]. right; right. split; [exact B|reflexivity].
        + apply (flt_val_f _ _ n1 nz) in B. rewrite (val_fin (dec "1.0") F), V in B. split; [exact n0|]. left.
          rewrite (val_fin (dec "0.0") F0). split; [lra|exact V0]. }
    destruct (Q x nx _ eq_refl) as [N1 C1]. destruct (Q x' nx' _ eq_refl) as [N2 C2].
    apply (fle_val _ _ N1 N2). assert (1 < BIG) by (change 1 with (bpow radix2 0); apply bpow_lt; lia). lra.
  - destruct (pos_cases x' hx') as [->|[fx' px']].
    + assert (E : ref_pow (B754_infinity false) y = B754_infinity false).
      { unfold ref_pow. rewrite hx'. destruct y; try discriminate fy; now rewrite hy. }
      rewrite E. pose proof (ref_pow_defined x y hx fy) as N. cbn [powf ref_libm] in N.
      apply (fle_val _ (B754_infinity false) N eq_refl). apply val_BIG.
    + destruct (pos_cases x hx) as [->|[fx px]].
      { exfalso. apply (fle_val (B754_infinity false) x' eq_refl (fin_not_nan _ fx')) in hxx. cbn [val] in hxx.
        rewrite (val_fin x' fx') in hxx. pose proof (B2R_BIG x'). lra. }
      rewrite !ref_pow_fin by assumption.
      destruct (R2f_val (Rpower (B2R x) (B2R y))) as [N1 E1]. destruct (R2f_val (Rpower (B2R x') (B2R y))) as [N2 E2].
      apply (fle_val _ _ N1 N2). rewrite E1, E2. apply rndx_mono.
      apply (fle_val _ _ (fin_not_nan _ fx) (fin_not_nan _ fx')) in hxx. rewrite !val_fin in hxx by assumption.
      apply Rle_Rpower_l; lra.
Qed.
