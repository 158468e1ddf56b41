(** * HashMap as an association list, and slice sorting.

    [std::collections::HashMap] is modelled by a list of pairs with at most one pair per key
    (an invariant of [ainsert], proved in AssocFacts.v).  The iteration order of a real HashMap is
    unspecified; functions that iterate over a map take the list in an arbitrary order. *)
From Coq Require Import ZArith List Bool.
Import ListNotations.

Section Assoc.
Context {K V : Type} (keqb : K -> K -> bool).

(** [HashMap::get]. *)
Fixpoint afind (m : list (K * V)) (k : K) : option V :=
  match m with
  | [] => None
  | (k', v) :: m' => if keqb k' k then Some v else afind m' k
  end.

(** [HashMap::insert]: an existing entry keeps its key and gets the new value. *)
Fixpoint ainsert (m : list (K * V)) (k : K) (v : V) : list (K * V) :=
  match m with
  | [] => [(k, v)]
  | (k', v') :: m' => if keqb k' k then (k', v) :: m' else (k', v') :: ainsert m' k v
  end.
End Assoc.

(** Stable sorting with a strict order test, as [slice::sort] / [sort_by] do.  Where the test is
    not a strict weak order Rust leaves the result unspecified (some permutation). *)
Section Sort.
Context {A : Type} (lt : A -> A -> bool).
Fixpoint insert_sorted (x : A) (l : list A) : list A :=
  match l with
  | [] => [x]
  | y :: l' => if lt y x then y :: insert_sorted x l' else x :: l
  end.
Definition stable_sort (l : list A) : list A := fold_right insert_sorted [] l.
End Sort.

(** [v[i] = x] for an index known to be in bounds (no effect otherwise). *)
Fixpoint list_set {A} (l : list A) (n : nat) (x : A) : list A :=
  match l, n with
  | [], _ => []
  | _ :: l', O => x :: l'
  | y :: l', S n' => y :: list_set l' n' x
  end.

(** 0, 1, ..., n-1 as integers. *)
Definition zrange (n : nat) : list Z := map Z.of_nat (seq 0 n).
