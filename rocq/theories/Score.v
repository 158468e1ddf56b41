(** * Model of /repo/src/score/score.rs *)
From Coq Require Import ZArith Bool String List.
From Verif Require Import F64 MathUtils ColorUtils Cam16 HctSolver Hct Assoc ViewingConditions.
Import ListNotations.
Open Scope string_scope.
Open Scope list_scope.
Open Scope f64_scope.

(** score.rs 5-8: struct _ScoredHCT. *)
Record scored_hct := { sh_hct : hct; sh_score : f64 }.

(** score.rs 10-18: [_compare_to]. *)
Definition compare_to (self other : scored_hct) : Z :=
  if sh_score self >? sh_score other then (-1)%Z
  else if sh_score self =? sh_score other then 0%Z else 1%Z.

(** score.rs 27-37: [partial_cmp], through the provided method [lt], which is what [slice::sort]
    (line 143) calls ([stable_sort(self, T::lt)]); the inconsistent [Ord::cmp] of lines 39-45 is not
    used by it. *)
Definition scored_lt (a b : scored_hct) : bool := (compare_to a b =? -1)%Z.

(** [a[i] += x] on a Vec/array of i64 / f64, with bounds (and overflow) check. *)
Definition add_at_i64 (l : list Z) (i : Z) (x : Z) : res (list Z) :=
  do old <- index l i;
  do new <- chk (old + x)%Z;
  Ok (list_set l (Z.to_nat i) new).
Definition add_at_f64 (l : list f64) (i : Z) (x : f64) : res (list f64) :=
  do old <- index l i;
  Ok (list_set l (Z.to_nat i) (old + x)).

Section WithLibm.
Context {lm : Libm}.

(** score.rs 92-100: the first loop, over the entries of the map in iteration order. *)
Fixpoint count_loop (entries : list (Z * Z)) (colors_hct : list hct) (hue_population : list Z)
    (population_sum : Z) : res (list hct * list Z * Z) :=
  match entries with
  | [] => Ok (colors_hct, hue_population, population_sum)
  | (argb, population) :: entries' =>
      do h <- hct_from_int argb;
      let hue := ffloor (h_hue h) in
      do hue_population <- add_at_i64 hue_population (to_usize hue) population;
      do population_sum <- chk (population_sum + population)%Z;
      count_loop entries' (colors_hct ++ [h]) hue_population population_sum
  end.

(** score.rs 107-112: spreading one hue's proportion over its 30 neighbours. *)
Fixpoint spread_loop (is : list Z) (proportion : f64) (ex : list f64) : res (list f64) :=
  match is with
  | [] => Ok ex
  | i :: is' =>
      do ex <- add_at_f64 ex (sanitize_degrees_int i) proportion;
      spread_loop is' proportion ex
  end.

(** score.rs 103-114: excited proportions. *)
Fixpoint excite_loop (hues : list Z) (hue_population : list Z) (population_sum : Z) (ex : list f64)
    : res (list f64) :=
  match hues with
  | [] => Ok ex
  | hue :: hues' =>
      do p <- index hue_population hue;
      let proportion := of_Z p / of_Z population_sum in
      do ex <- spread_loop (map (fun k => hue - 14 + k)%Z (zrange 30)) proportion ex;
      excite_loop hues' hue_population population_sum ex
  end.

(** score.rs 129-139: the score of one colour given the excited proportion of its hue. *)
Definition score_of (proportion chroma : f64) : f64 :=
  let proportion_score := proportion * dec "100.0" * dec "0.7" in
  let chroma_weight := if chroma <? dec "48.0" then dec "0.1" else dec "0.3" in
  let chroma_score := (chroma - dec "48.0") * chroma_weight in
  proportion_score + chroma_score.

(** score.rs 119-141: filtering and scoring. *)
Fixpoint score_loop (colors_hct : list hct) (ex : list f64) (filter : bool) : res (list scored_hct) :=
  match colors_hct with
  | [] => Ok []
  | h :: hs =>
      let hue := sanitize_degrees_int (to_i64 (fround (h_hue h))) in
      do proportion <- index ex hue;
      do rest <- score_loop hs ex filter;
      if filter && ((h_chroma h <? dec "5.0") || (proportion <=? dec "0.01")) then Ok rest
      else Ok ({| sh_hct := h; sh_score := score_of proportion (h_chroma h) |} :: rest)
  end.

(** score.rs 153-166: one greedy pass with a given minimal hue difference. *)
Fixpoint choose_pass (entries : list scored_hct) (difference : Z) (desired : Z) (chosen : list hct) : list hct :=
  match entries with
  | [] => chosen
  | entry :: entries' =>
      let h := sh_hct entry in
      let duplicate := existsb (fun c => difference_degrees (h_hue h) (h_hue c) <? of_Z difference) chosen in
      let chosen := if duplicate then chosen else chosen ++ [h] in
      if (desired <=? Z.of_nat (List.length chosen))%Z then chosen
      else choose_pass entries' difference desired chosen
  end.

(** score.rs 149-171: differences 90 down to 15 ([diffs] are the values still to try; [chosen] is the
    result of the previous pass). *)
Fixpoint choose_loop (diffs : list Z) (entries : list scored_hct) (desired : Z) (chosen : list hct) : list hct :=
  match diffs with
  | [] => chosen
  | d :: ds =>
      let chosen := choose_pass entries d desired [] in
      if (desired <=? Z.of_nat (List.length chosen))%Z then chosen
      else choose_loop ds entries desired chosen
  end.

Definition score_diffs : list Z := map (fun k => 90 - k)%Z (zrange 76).

(** score.rs 77-180: [score].  [entries] is the content of the map in its iteration order. *)
Definition score (entries : list (Z * Z)) (desired fallback_color_argb : option Z) (filter : option bool)
    : res (list Z) :=
  let desired := unwrap_or desired 4%Z in
  let fallback_color_argb := unwrap_or fallback_color_argb 0xff4285f4%Z in
  let filter := unwrap_or filter true in
  do c <- count_loop entries [] (repeat 0%Z 360) 0%Z;
  let '(colors_hct, hue_population, population_sum) := c in
  do ex <- excite_loop (zrange 360) hue_population population_sum (repeat (dec "0.0") 360);
  do scored <- score_loop colors_hct ex filter;
  let scored := stable_sort scored_lt scored in
  let chosen := choose_loop score_diffs scored desired [] in
  let colors := match chosen with [] => [fallback_color_argb] | _ => [] end in
  Ok (colors ++ map h_argb chosen).
End WithLibm.
