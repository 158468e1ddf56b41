(** * A computable libm, used only to exhibit concrete cases beside the theorems.
    It models no code in /repo: Rust's [powf], [exp], [ln], [sin], [cos], [atan2] call the platform's
    libm, and the property theorems quantify over every such libm.  These are textbook series with
    argument reduction, evaluated in 72-bit fixed point and rounded once, so that examples show
    realistic colours. *)
From Coq Require Import ZArith Bool List String.
From Flocq Require Import Core IEEE754.BinarySingleNaN.
From Verif Require Import F64.
Import ListNotations.
Open Scope string_scope.
Open Scope list_scope.
Open Scope Z_scope.

(** Fixed-point numbers: [z] stands for z / 2^72. *)
Definition P : Z := 72.
Definition ONE : Z := 2 ^ 72.
Definition LN2 : Z := 3273295013171879848906.
Definition PIx : Z := 14835751850141947581203.
Definition ATAN_HALF : Z := 2189513928608057238200.
Definition fx_mul (a b : Z) : Z := Z.shiftr (a * b) P.
Definition fx_div (a b : Z) : Z := Z.shiftl a P / b.
Definition to_fx (x : f64) : Z :=
  match x with
  | B754_finite s m e _ => Z.shiftl (if s then Z.neg m else Z.pos m) (e + P)
  | _ => 0
  end.
(** z * 2^(k-72), rounded. *)
Definition from_fx (z k : Z) : f64 := binary_normalize 53 1024 prec53 prec53_lt mode_NE z (k - P) false.

(** Horner evaluation of sum c_i x^i. *)
Definition horner (cs : list Z) (x : Z) : Z := fold_right (fun c acc => c + fx_mul x acc) 0 cs.

Fixpoint inv_facts (n : nat) (k : Z) (f : Z) : list Z :=   (* 1/k!, 1/(k+1)!, ... with f = k! *)
  match n with
  | O => []
  | S n' => ONE / f :: inv_facts n' (k + 1) (f * (k + 1))
  end.
Definition EXP_COEFS : list Z := inv_facts 19 0 1.
Definition odd_recips (n : nat) : list Z := map (fun i => ONE / (2 * Z.of_nat i + 1)) (seq 0 n).
Definition LN_COEFS : list Z := odd_recips 15.
Definition alternate (cs : list Z) : list Z :=
  map (fun ic => if Nat.even (fst ic) then snd ic else - snd ic) (combine (seq 0 (List.length cs)) cs).
(** 1 - x/(k(k+1)) (1 - x/((k+2)(k+3)) (1 - ...)), [n] factors. *)
Fixpoint nested (n : nat) (k x : Z) : Z :=
  match n with
  | O => ONE
  | S n' => ONE - fx_mul x (nested n' (k + 2) x) / (k * (k + 1))
  end.
Definition ATAN_COEFS : list Z := alternate (odd_recips 36).

(** exp of a fixed-point number. *)
Definition exp_fx (t : Z) : f64 :=
  let k := (t + LN2 / 2) / LN2 in
  if 1100 <? k then finf else if k <? -1200 then dec "0.0" else
  from_fx (horner EXP_COEFS (t - k * LN2)) k.
Definition sample_exp (x : f64) : f64 :=
  match x with
  | B754_finite s m e _ => if 11 <? e + 53 then (if s then dec "0.0" else finf) else exp_fx (to_fx x)
  | B754_zero _ => dec "1.0"
  | B754_infinity true => dec "0.0"
  | _ => x
  end.

(** ln of a positive m * 2^e, in fixed point. *)
Definition ln_fx (m : positive) (e : Z) : Z :=
  let d := Z.log2 (Z.pos m) in
  let u := Z.shiftl (Z.pos m) (P - d) in                    (* in [1, 2) *)
  let '(u, e) := if 1414 * ONE <? 1000 * u then (u / 2, e + d + 1) else (u, e + d) in
  let s := fx_div (u - ONE) (u + ONE) in
  2 * fx_mul s (horner LN_COEFS (fx_mul s s)) + e * LN2.
Definition sample_ln (x : f64) : f64 :=
  match x with
  | B754_finite false m e _ => from_fx (ln_fx m e) 0
  | B754_zero _ => fneg finf
  | B754_infinity false => x
  | _ => fnan
  end.

Definition sample_pow (x y : f64) : f64 :=
  if feq y (dec "0.0") then dec "1.0" else
  match x with
  | B754_zero _ => if fgt y (dec "0.0") then dec "0.0" else finf
  | B754_finite false m e _ =>
      match y with
      | B754_finite sy my ey _ => if 60 <? ey + 53 then fnan else
          exp_fx (Z.shiftl ((if sy then Z.neg my else Z.pos my) * ln_fx m e) ey)
      | _ => fnan
      end
  | B754_infinity false => if fgt y (dec "0.0") then x else dec "0.0"
  | _ => fnan
  end.

(** sin and cos for moderate arguments: reduce into [-pi, pi]. *)
Definition reduce (x : f64) : Z := let t := to_fx x in t - ((t + PIx) / (2 * PIx)) * (2 * PIx).
Definition sample_sin (x : f64) : f64 :=
  if is_finite x then let r := reduce x in from_fx (fx_mul r (nested 16 2 (fx_mul r r))) 0 else fnan.
Definition sample_cos (x : f64) : f64 :=
  if is_finite x then let r := reduce x in from_fx (nested 16 1 (fx_mul r r)) 0 else fnan.

(** atan of y/x for 0 <= y <= x, 0 < x. *)
Definition atan_fx (y x : Z) : Z :=
  let t := fx_div y x in
  let u := fx_div (t - ONE / 2) (ONE + t / 2) in
  ATAN_HALF + fx_mul u (horner ATAN_COEFS (fx_mul u u)).
Definition atan2_fx (y x : Z) : Z :=
  let ay := Z.abs y in let ax := Z.abs x in
  let q := if ay <=? ax then atan_fx ay ax else PIx / 2 - atan_fx ax ay in
  let h := if x <? 0 then PIx - q else q in
  if y <? 0 then - h else h.
Definition sample_atan2 (y x : f64) : f64 :=
  if is_finite x && is_finite y then
    match x, y with
    | B754_zero false, B754_zero _ => y
    | B754_zero true, B754_zero s => if s then fneg PI64 else PI64
    | B754_finite _ _ _ _, B754_zero s =>
        if fgt x (dec "0.0") then y else if s then fneg PI64 else PI64
    | _, _ => from_fx (atan2_fx (to_fx y) (to_fx x)) 0
    end
  else fnan.

Definition sample_libm : Libm := {|
  powf := sample_pow; expf := sample_exp; lnf := sample_ln;
  sinf := sample_sin; cosf := sample_cos; atan2f := sample_atan2 |}.
