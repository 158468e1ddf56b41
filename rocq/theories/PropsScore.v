(** * Property theorems: Score. *)
From Coq Require Import ZArith Bool Reals List String Permutation.
From Flocq Require Import Core IEEE754.BinarySingleNaN.
From Verif Require Import F64 MathUtils ViewingConditions Hct Assoc Score Spec SpecScore SampleLibm PfScore.
Import ListNotations.
Open Scope string_scope.
Open Scope list_scope.
Open Scope Z_scope.

(** C42.  [entries] is the content of the map in its iteration order, so its keys do not repeat. *)
Theorem C42_score_range : forall (lm : Libm) (entries : list (Z * Z)) (desired fallback : option Z) (filter : option bool)
    (l : list Z),
  NoDup (map fst entries) -> score entries desired fallback filter = Ok l ->
  l <> [] /\ Z.of_nat (List.length l) <= Z.max 1 (unwrap_or desired 4) /\
  (l = [unwrap_or fallback 0xff4285f4] \/ (NoDup l /\ incl l (map fst entries))).
Proof. exact (fun lm => score_range). Qed.
Print Assumptions C42_score_range.

(** It does return whenever every colour has an Hct and the populations fit. *)
Theorem C42_score_returns : forall (lm : Libm) (entries : list (Z * Z)) (pop : population) (desired fallback : option Z)
    (filter : option bool),
  resolves entries pop -> Forall (fun e => 0 <= snd e) entries -> total pop <= i64_max ->
  exists l, score entries desired fallback filter = Ok l.
Proof. exact (fun lm => score_total). Qed.
Print Assumptions C42_score_returns.

Theorem C42_no_candidate : forall (lm : Libm) (entries : list (Z * Z)) (desired fallback : option Z) (filter : option bool)
    (l : list Z) (pop : population),
  resolves entries pop -> score entries desired fallback filter = Ok l ->
  (forall c, In c pop -> unwrap_or filter true = true /\
     (flt (h_chroma (fst c)) (dec "5.0") = true \/ fle (proportion_of pop (fst c)) (dec "0.01") = true)) ->
  l = [unwrap_or fallback 0xff4285f4].
Proof. exact (fun lm => score_no_candidate). Qed.
Print Assumptions C42_no_candidate.

Definition sample_entries : list (Z * Z) :=
  [(0xFF0000FF, 10); (0xFFFF0000, 30); (0xFF00FF00, 20); (0xFF808080, 40); (0xFF0A00FF, 5)].
Example C42_case : match @score sample_libm sample_entries None None None with
  | Ok l => forallb (fun p => fst p =? snd p) (combine l [0xFFFF0000; 0xFF00FF00; 0xFF0000FF]) && Nat.eqb (List.length l) 3
  | Panic => false end = true.
Proof. vm_compute. reflexivity. Qed.
Example C42_fallback_case : match @score sample_libm [(0xFF808080, 40)] None None None with
  | Ok [z] => z =? 0xff4285f4 | _ => false end = true.
Proof. vm_compute. reflexivity. Qed.

(** C43 *)
Theorem C43_distinct_hues : forall (lm : Libm) (entries : list (Z * Z)) (desired fallback : option Z) (filter : option bool)
    (l : list Z) (i j : nat) (a b : Z) (ha hb : hct),
  NoDup (map fst entries) -> score entries desired fallback filter = Ok l -> i <> j ->
  nth_error l i = Some a -> nth_error l j = Some b -> hct_from_int a = Ok ha -> hct_from_int b = Ok hb ->
  fle (dec "15.0") (difference_degrees (h_hue ha) (h_hue hb)) = true.
Proof. exact (fun lm => score_hues). Qed.
Print Assumptions C43_distinct_hues.
Example C43_case : match @score sample_libm [(0xFF0000FF, 10); (0xFF0A00FF, 5)] None None None with
  | Ok [_] => true | _ => false end = true.
Proof. vm_compute. reflexivity. Qed.

(** C44 *)
Theorem C44_ranked : forall (lm : Libm) (entries : list (Z * Z)) (desired fallback : option Z) (filter : option bool)
    (l : list Z) (pop : population),
  NoDup (map fst entries) -> resolves entries pop ->
  (forall c, In c pop -> is_nan (rank_score pop (fst c)) = false) ->
  score entries desired fallback filter = Ok l ->
  l = [unwrap_or fallback 0xff4285f4] \/
  (forall i j a b ha hb, (i < j)%nat -> nth_error l i = Some a -> nth_error l j = Some b ->
    hct_from_int a = Ok ha -> hct_from_int b = Ok hb -> fle (rank_score pop hb) (rank_score pop ha) = true) /\
  (unwrap_or filter true = true -> forall a ha, In a l -> hct_from_int a = Ok ha ->
    flt (h_chroma ha) (dec "5.0") = false /\ fle (proportion_of pop ha) (dec "0.01") = false).
Proof. exact (fun lm => score_ranked). Qed.
Print Assumptions C44_ranked.
Definition sample_pop (entries : list (Z * Z)) : population :=
  flat_map (fun e => match @hct_from_int sample_libm (fst e) with Ok h => [(h, snd e)] | Panic => [] end) entries.
Example C44_case :
  let pop := sample_pop sample_entries in
  Nat.eqb (List.length pop) 5 && forallb (fun c => negb (is_nan (rank_score pop (fst c)))) pop = true.
Proof. vm_compute. reflexivity. Qed.

(** C45 *)
Theorem C45_order_irrelevant : forall (lm : Libm) (entries entries' : list (Z * Z)) (desired fallback : option Z)
    (filter : option bool) (l : list Z) (pop : population),
  Permutation entries entries' -> Forall (fun e => 0 <= snd e) entries -> resolves entries pop ->
  (forall c, In c pop -> is_nan (rank_score pop (fst c)) = false) -> distinct_scores pop ->
  score entries desired fallback filter = Ok l -> score entries' desired fallback filter = Ok l.
Proof. exact (fun lm => score_order). Qed.
Print Assumptions C45_order_irrelevant.
(** The five sample colours have five different scores. *)
Example C45_case :
  let pop := sample_pop sample_entries in
  let scores := map (fun c => rank_score pop (fst c)) pop in
  forallb (fun i => forallb (fun j => Nat.eqb i j || negb (feq (nth i scores (dec "0.0")) (nth j scores (dec "0.0")))) (seq 0 5)) (seq 0 5) = true.
Proof. vm_compute. reflexivity. Qed.

Theorem C45_ties_refuted : exists (lm : Libm) (entries entries' : list (Z * Z)) (desired : option Z) (filter : option bool),
  Permutation entries entries' /\ NoDup (map fst entries) /\
  score entries desired None filter <> score entries' desired None filter.
Proof. exact score_ties. Qed.
Print Assumptions C45_ties_refuted.

(** C73 *)
Theorem C73_best_first_and_complete : forall (lm : Libm) (entries : list (Z * Z)) (desired fallback : option Z)
    (filter : option bool) (l : list Z) (pop : population) (c : hct * Z),
  resolves entries pop -> (forall c, In c pop -> is_nan (rank_score pop (fst c)) = false) ->
  score entries desired fallback filter = Ok l -> In c pop ->
  (unwrap_or filter true = true ->
     flt (h_chroma (fst c)) (dec "5.0") = false /\ fle (proportion_of pop (fst c)) (dec "0.01") = false) ->
  (exists a ha t, l = a :: t /\ In a (map fst entries) /\ hct_from_int a = Ok ha /\
     fle (rank_score pop (fst c)) (rank_score pop ha) = true) /\
  (Z.of_nat (List.length l) < unwrap_or desired 4 ->
   In (h_argb (fst c)) l \/
   exists a ha, In a l /\ hct_from_int a = Ok ha /\
     flt (difference_degrees (h_hue (fst c)) (h_hue ha)) (dec "15.0") = true).
Proof. exact (fun lm => score_best). Qed.
Print Assumptions C73_best_first_and_complete.
Example C73_case : match @score sample_libm sample_entries (Some 2) None None with
  | Ok [a; b] => (a =? 0xFFFF0000) && (b =? 0xFF00FF00) | _ => false end = true.
Proof. vm_compute. reflexivity. Qed.
