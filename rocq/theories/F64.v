(** * IEEE-754 binary64 arithmetic and Rust's [f64]/[i64] primitives.

    Model of the numeric primitives of Rust that /repo uses everywhere.
    [f64] is Flocq's [binary_float 53 1024] (one NaN; NaN payloads are not
    observable in /repo).  Every operation rounds to nearest, ties to even,
    exactly as IEEE-754 and the Rust reference require.                      *)
From Coq Require Import ZArith Bool List String Ascii.
From Flocq Require Import Core.Zaux Core.FLX IEEE754.BinarySingleNaN.
Open Scope Z_scope.

Definition f64 : Set := binary_float 53 1024.

Lemma prec53 : FLX.Prec_gt_0 53. Proof. reflexivity. Qed.
Lemma prec53_lt : Prec_lt_emax 53 1024. Proof. reflexivity. Qed.
#[global] Existing Instance prec53.
#[global] Existing Instance prec53_lt.

Definition fadd : f64 -> f64 -> f64 := @Bplus 53 1024 prec53 prec53_lt mode_NE.
Definition fsub : f64 -> f64 -> f64 := @Bminus 53 1024 prec53 prec53_lt mode_NE.
Definition fmul : f64 -> f64 -> f64 := @Bmult 53 1024 prec53 prec53_lt mode_NE.
Definition fdiv : f64 -> f64 -> f64 := @Bdiv 53 1024 prec53 prec53_lt mode_NE.
Definition fsqrt : f64 -> f64 := @Bsqrt 53 1024 prec53 prec53_lt mode_NE.
Definition fneg : f64 -> f64 := @Bopp 53 1024.
Definition fabs : f64 -> f64 := @Babs 53 1024.

(** Comparisons: [false] as soon as one side is NaN, [-0.0 == 0.0]. *)
Definition flt (x y : f64) : bool := Bltb x y.
Definition fle (x y : f64) : bool := Bleb x y.
Definition feq (x y : f64) : bool := Beqb x y.
Definition fgt (x y : f64) : bool := Bltb y x.
Definition fge (x y : f64) : bool := Bleb y x.
Definition fne (x y : f64) : bool := negb (Beqb x y).

Definition fnan : f64 := B754_nan.
Definition finf : f64 := B754_infinity false.
Definition is_nanb (x : f64) : bool := is_nan x.

(** [z as f64] for an i64 [z] (correctly rounded). *)
Definition of_Z (z : Z) : f64 := binary_normalize 53 1024 prec53 prec53_lt mode_NE z 0 false.

(** [f64::round] (ties away from zero), [floor], [ceil]. *)
Definition fround (x : f64) : f64 := @Bnearbyint 53 1024 prec53_lt mode_NA x.
Definition ffloor (x : f64) : f64 := @Bnearbyint 53 1024 prec53_lt mode_DN x.
Definition fceil (x : f64) : f64 := @Bnearbyint 53 1024 prec53_lt mode_UP x.

Definition i64_min : Z := - 2 ^ 63.
Definition i64_max : Z := 2 ^ 63 - 1.
Definition in_i64 (z : Z) : bool := (i64_min <=? z) && (z <=? i64_max).
Definition u64_max : Z := 2 ^ 64 - 1.

Definition zclamp (lo hi z : Z) : Z := if z <? lo then lo else if hi <? z then hi else z.

(** [x as i64]: truncation toward zero, saturating, NaN becomes 0. *)
Definition to_i64 (x : f64) : Z :=
  match x with
  | B754_nan => 0
  | B754_zero _ => 0
  | B754_infinity s => if s then i64_min else i64_max
  | B754_finite _ _ _ _ => zclamp i64_min i64_max (Btrunc x)
  end.

(** [x as usize] (64-bit target): truncation, saturating at 0 and 2^64-1. *)
Definition to_usize (x : f64) : Z :=
  match x with
  | B754_nan => 0
  | B754_zero _ => 0
  | B754_infinity s => if s then 0 else u64_max
  | B754_finite _ _ _ _ => zclamp 0 u64_max (Btrunc x)
  end.

(** [x % y] on f64: C's fmod.  The remainder of two finite numbers is computed
    exactly on a common exponent; it has the sign of [x]. *)
Definition frem (x y : f64) : f64 :=
  match x, y with
  | B754_nan, _ | _, B754_nan => B754_nan
  | B754_infinity _, _ => B754_nan
  | _, B754_zero _ => B754_nan
  | _, B754_infinity _ => x
  | B754_zero _, _ => x
  | B754_finite sx mx ex _, B754_finite _ my ey _ =>
      let e := Z.min ex ey in
      let a := Z.pos mx * 2 ^ (ex - e) in
      let b := Z.pos my * 2 ^ (ey - e) in
      let r := Z.modulo a b in
      if r =? 0 then B754_zero sx
      else binary_normalize 53 1024 prec53 prec53_lt mode_NE (if sx then - r else r) e sx
  end.

(** [f64::max] / [f64::min]: a NaN operand is ignored. *)
Definition fmax (x y : f64) : f64 :=
  if is_nan x then y else if is_nan y then x else if flt x y then y else x.
Definition fmin (x y : f64) : f64 :=
  if is_nan x then y else if is_nan y then x else if flt y x then y else x.

(** ** Decimal literals.  Rust rounds a decimal literal to the nearest binary64
    number; [quot_lit m d] is the correctly rounded value of [m/d]. *)
Definition quot_lit (m d : positive) : f64 :=
  SF2B _ (proj1 (Bdiv_correct_aux 53 1024 prec53 prec53_lt mode_NE false m 0 false d 0)).

Definition lit (m : Z) (n : positive) : f64 :=
  match m with
  | Z0 => B754_zero false
  | Zpos p => quot_lit p n
  | Zneg p => fneg (quot_lit p n)
  end.

(** Parsing of "12.345" / "-0.5": digits, an optional point, digits. *)
Definition digit (c : ascii) : option Z :=
  let n := Z.of_N (N_of_ascii c) in
  if (48 <=? n) && (n <=? 57) then Some (n - 48) else None.

Fixpoint parse_dec (s : string) (frac : bool) (m : Z) (d : positive) : Z * positive :=
  match s with
  | EmptyString => (m, d)
  | String c s' =>
      match digit c with
      | Some k => parse_dec s' frac (10 * m + k) (if frac then 10 * d else d)%positive
      | None => parse_dec s' true m d
      end
  end.

Definition dec (s : string) : f64 :=
  match s with
  | String "-" s' => let '(m, d) := parse_dec s' false 0 1 in fneg (lit m d)
  | _ => let '(m, d) := parse_dec s false 0 1 in lit m d
  end.

Declare Scope f64_scope.
Delimit Scope f64_scope with f.
Notation "x + y" := (fadd x y) : f64_scope.
Notation "x - y" := (fsub x y) : f64_scope.
Notation "x * y" := (fmul x y) : f64_scope.
Notation "x / y" := (fdiv x y) : f64_scope.
Notation "- x" := (fneg x) : f64_scope.
Notation "x <? y" := (flt x y) : f64_scope.
Notation "x <=? y" := (fle x y) : f64_scope.
Notation "x >? y" := (fgt x y) (at level 70, no associativity) : f64_scope.
Notation "x >=? y" := (fge x y) (at level 70, no associativity) : f64_scope.
Notation "x =? y" := (feq x y) : f64_scope.
Notation "x <>? y" := (fne x y) (at level 70, no associativity) : f64_scope.
Bind Scope f64_scope with f64.

(** [std::f64::consts::PI] = 3.14159265358979323846264338327950288_f64 *)
Definition PI64 : f64 := dec "3.14159265358979323846264338327950288".

(** ** Panics.  [Panic] stands for any Rust panic (assert, index, unwrap,
    overflow in a debug build, remainder by zero). *)
Inductive res (A : Type) : Type := Ok (a : A) | Panic.
Arguments Ok {A} a.
Arguments Panic {A}.

Definition bind {A B} (x : res A) (f : A -> res B) : res B :=
  match x with Ok a => f a | Panic => Panic end.
Notation "'do' x <- e ; f" := (bind e (fun x => f)) (at level 200, x pattern, e at level 100, f at level 200).
Definition rmap {A B} (f : A -> B) (x : res A) : res B :=
  match x with Ok a => Ok (f a) | Panic => Panic end.

(** [v[i]] with a bounds check. *)
Definition index {A} (l : list A) (i : Z) : res A :=
  if i <? 0 then Panic else
  match nth_error l (Z.to_nat i) with Some a => Ok a | None => Panic end.

Definition ok_or_panic {A} (o : option A) : res A :=
  match o with Some a => Ok a | None => Panic end.

(** Checked i64 arithmetic (debug build). *)
Definition chk (z : Z) : res Z := if in_i64 z then Ok z else Panic.

(** ** libm.  Rust documents [powf], [exp], [ln], [sin], [cos], [atan2] as having
    platform-dependent precision, so the model is parametric in them. *)
Class Libm := {
  powf : f64 -> f64 -> f64;
  expf : f64 -> f64;
  lnf : f64 -> f64;
  sinf : f64 -> f64;
  cosf : f64 -> f64;
  atan2f : f64 -> f64 -> f64   (* [atan2f y x] is [y.atan2(x)] *)
}.
