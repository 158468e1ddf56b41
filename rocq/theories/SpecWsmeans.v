(** * Vocabulary for the properties of the Wsmeans and Celebi quantizers. *)
From Coq Require Import ZArith List Bool String.
From Verif Require Import F64 MathUtils ColorUtils Assoc SpecQuantize.
Import ListNotations.
Open Scope string_scope.
Open Scope list_scope.
Open Scope Z_scope.

(** The number of different pixels. *)
Definition distinct (pixels : list Z) : Z := Z.of_nat (List.length (nodup Z.eq_dec pixels)).

(** How many of the pixels the map sends to the colour. *)
Definition mapped_to (m : list (Z * Z)) (color : Z) (pixels : list Z) : Z :=
  Z.of_nat (List.length (filter (fun p => match afind Z.eqb m p with Some c => c =? color | None => false end) pixels)).

(** The number of pixels, the sum and the mean in L*a*b* of the pixels whose colour is in [members]; the sum is taken in
    the order of [members] with binary64 arithmetic. *)
Section Mean.
Context {lm : Libm}.
Definition population (pixels members : list Z) : Z := fold_right Z.add 0 (map (fun p => occurrences p pixels) members).
Definition lab_sum (pixels members : list Z) : vec3 :=
  fold_left (fun s p => let l := lab_from_argb p in let n := of_Z (occurrences p pixels) in
    (fadd (v0 s) (fmul (v0 l) n), fadd (v1 s) (fmul (v1 l) n), fadd (v2 s) (fmul (v2 l) n))) members (dec "0.0", dec "0.0", dec "0.0").
Definition lab_mean (pixels members : list Z) : vec3 :=
  let s := lab_sum pixels members in let n := of_Z (population pixels members) in
  (fdiv (v0 s) n, fdiv (v1 s) n, fdiv (v2 s) n).
End Mean.
