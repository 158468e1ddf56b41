(** * Model of /repo/src/quantize/quantizer_wsmeans.rs, quantizer_celebi.rs and
    src/quantize/src/point_provider_lab.rs *)
From Coq Require Import ZArith Bool List String.
From Verif Require Import F64 MathUtils ColorUtils Assoc ViewingConditions QuantizerMap QuantizerWu.
Import ListNotations.
Open Scope string_scope.
Open Scope list_scope.
Open Scope Z_scope.

(** quantizer_wsmeans.rs 10-19: struct DistanceAndIndex. *)
Record dist_idx := { di_distance : f64; di_index : Z }.

(** quantizer_wsmeans.rs 10 (derived [PartialOrd], lexicographic), the order used by [sort] on
    line 179 ([slice::sort] calls [T::lt]). *)
Definition di_lt (a b : dist_idx) : bool :=
  if (di_distance a <? di_distance b)%f then true
  else if (di_distance a =? di_distance b)%f then di_index a <? di_index b
  else false.

(** point_provider_lab.rs 20-31: [distance] (squared Lab distance). *)
Definition lab_distance (one two : vec3) : f64 :=
  let d_l := (v0 one - v0 two)%f in
  let d_a := (v1 one - v1 two)%f in
  let d_b := (v2 one - v2 two)%f in
  (d_l * d_l + d_a * d_a + d_b * d_b)%f.

Definition vzero : vec3 := (dec "0.0", dec "0.0", dec "0.0").

(** [l[i] = f(l[i])] with bounds check. *)
Definition lupd {A} (l : list A) (i : Z) (f : A -> A) : res (list A) :=
  do x <- index l i; Ok (list_set l (Z.to_nat i) (f x)).

(** quantizer_wsmeans.rs 66-76: counting the pixels; [pixels] keeps first occurrences in order. *)
Fixpoint ws_count (input_pixels : list Z) (counts : list (Z * Z)) (pixels : list Z) : list (Z * Z) * list Z :=
  match input_pixels with
  | [] => (counts, pixels)
  | p :: ps =>
      match afind Z.eqb counts p with
      | Some c => ws_count ps (ainsert Z.eqb counts p (c + 1)) pixels
      | None => ws_count ps (ainsert Z.eqb counts p 1) (pixels ++ [p])
      end
  end.

(** quantizer_wsmeans.rs 96-119: distinct random indices.  [rng] is the remaining output of the
    generator: [gen_range(0..n)] of a raw value [z] is [z mod n].  [Panic] on an exhausted stream
    stands for "has not terminated yet". *)
Fixpoint pick_indices (rng : list Z) (n : Z) (needed : nat) (indices : list Z) : res (list Z) :=
  match needed with
  | O => Ok indices
  | S needed' =>
      (fix draw (rng : list Z) : res (list Z) :=
         match rng with
         | [] => Panic
         | z :: rng' =>
             let i := z mod n in
             if existsb (Z.eqb i) indices then draw rng'
             else pick_indices rng' n needed' (indices ++ [i])
         end) rng
  end.

(** quantizer_wsmeans.rs 169-178: the distances of row i to the rows j > i. *)
Fixpoint matrix_row (clusters : list vec3) (i : Z) (js : list Z) (dm : list (list dist_idx)) : res (list (list dist_idx)) :=
  match js with
  | [] => Ok dm
  | j :: js' =>
      do ci <- index clusters i;
      do cj <- index clusters j;
      let distance := lab_distance ci cj in
      do rj <- index dm j;
      do rj <- lupd rj i (fun _ => {| di_distance := distance; di_index := i |});
      do dm <- lupd dm j (fun _ => rj);
      do ri <- index dm i;
      do ri <- lupd ri j (fun _ => {| di_distance := distance; di_index := j |});
      do dm <- lupd dm i (fun _ => ri);
      matrix_row clusters i js' dm
  end.

(** quantizer_wsmeans.rs 168-184: the whole matrix; [index_matrix] (lines 180-183) is written but never
    read, hence omitted. *)
Fixpoint matrix_rows (clusters : list vec3) (cluster_count : Z) (is : list Z) (dm : list (list dist_idx))
    : res (list (list dist_idx)) :=
  match is with
  | [] => Ok dm
  | i :: is' =>
      do dm <- matrix_row clusters i (zseq (i + 1) cluster_count) dm;
      do ri <- index dm i;
      do dm <- lupd dm i (fun _ => stable_sort di_lt ri);
      matrix_rows clusters cluster_count is' dm
  end.

(** quantizer_wsmeans.rs 194-209: nearest cluster of one point. *)
Fixpoint nearest_loop (clusters : list vec3) (row : list dist_idx) (point : vec3) (previous_distance : f64)
    (js : list Z) (minimum_distance : f64) (new_cluster_index : Z) : res Z :=
  match js with
  | [] => Ok new_cluster_index
  | j :: js' =>
      do e <- index row j;
      if (di_distance e >=? dec "4.0" * previous_distance)%f
      then nearest_loop clusters row point previous_distance js' minimum_distance new_cluster_index
      else
        do cj <- index clusters j;
        let distance := lab_distance point cj in
        if (distance <? minimum_distance)%f
        then nearest_loop clusters row point previous_distance js' distance j
        else nearest_loop clusters row point previous_distance js' minimum_distance new_cluster_index
  end.

(** quantizer_wsmeans.rs 186-214: reassignment of all points; returns the new indices and the number
    of points moved. *)
Fixpoint assign_loop (clusters : list vec3) (dm : list (list dist_idx)) (cluster_count : Z)
    (points : list vec3) (cluster_indices : list Z) : res (list Z * Z) :=
  match points, cluster_indices with
  | point :: points', previous :: ci' =>
      do pc <- index clusters previous;
      let previous_distance := lab_distance point pc in
      do row <- index dm previous;
      do new_cluster_index <-
        nearest_loop clusters row point previous_distance (zseq 0 cluster_count) previous_distance (-1);
      do rest <- assign_loop clusters dm cluster_count points' ci';
      let '(rest_ci, moved) := rest in
      if negb (new_cluster_index =? -1) then Ok (new_cluster_index :: rest_ci, moved + 1)
      else Ok (previous :: rest_ci, moved)
  | _, _ => Ok ([], 0)
  end.

(** quantizer_wsmeans.rs 226-241: per-cluster sums (population, and Lab sums weighted by count). *)
Fixpoint sums_loop (points : list vec3) (counts : list Z) (cluster_indices : list Z)
    (pcs : list Z) (sums : list vec3) : res (list Z * list vec3) :=
  match points, counts, cluster_indices with
  | point :: points', count :: counts', ci :: cis' =>
      do old <- index pcs ci;
      do new <- chk (old + count);
      let pcs := list_set pcs (Z.to_nat ci) new in
      let n := of_Z count in
      do sums <- lupd sums ci (fun s => (v0 s + v0 point * n, v1 s + v1 point * n, v2 s + v2 point * n)%f);
      sums_loop points' counts' cis' pcs sums
  | _, _, _ => Ok (pcs, sums)
  end.

(** quantizer_wsmeans.rs 242-252: new centroids for the clusters 0..cluster_count; clusters beyond
    cluster_count are left alone. *)
Fixpoint centroid_loop (is : list Z) (pcs : list Z) (sums : list vec3) (clusters : list vec3) : res (list vec3) :=
  match is with
  | [] => Ok clusters
  | i :: is' =>
      do count <- index pcs i;
      do s <- index sums i;
      do clusters <-
        lupd clusters i (fun _ => if count =? 0 then vzero
                                  else (v0 s / of_Z count, v1 s / of_Z count, v2 s / of_Z count)%f);
      centroid_loop is' pcs sums clusters
  end.

(** quantizer_wsmeans.rs 143-253: the k-means iterations; [fuel] counts the iterations left and
    [first] tells whether this is iteration 0. *)
Fixpoint kmeans_loop (fuel : nat) (first : bool) (cluster_count : Z) (points : list vec3) (counts : list Z)
    (clusters : list vec3) (dm : list (list dist_idx)) (cluster_indices pcs : list Z)
    : res (list vec3 * list Z * list Z) :=
  match fuel with
  | O => Ok (clusters, cluster_indices, pcs)
  | S fuel' =>
      do dm <- matrix_rows clusters cluster_count (zseq 0 cluster_count) dm;
      do am <- assign_loop clusters dm cluster_count points cluster_indices;
      let '(cluster_indices, points_moved) := am in
      if (points_moved =? 0) && negb first then Ok (clusters, cluster_indices, pcs)
      else
        let k := Z.to_nat cluster_count in
        do ps <- sums_loop points counts cluster_indices (repeat 0 k) (repeat vzero k);
        let '(pcs, sums) := ps in
        do clusters <- centroid_loop (zseq 0 cluster_count) pcs sums clusters;
        kmeans_loop fuel' false cluster_count points counts clusters dm cluster_indices pcs
  end.

Section WithLibm.
Context {lm : Libm}.

(** point_provider_lab.rs 12-14 and 16-18: [from_int], [to_int]. *)
Definition lab_from_int (argb : Z) : vec3 := lab_from_argb argb.
Definition lab_to_int (p : vec3) : Z := argb_from_lab (v0 p) (v1 p) (v2 p).

(** quantizer_wsmeans.rs 255-271: final colours with their populations. *)
Fixpoint collect_loop (is : list Z) (pcs : list Z) (clusters : list vec3) (argbs populations : list Z)
    : res (list Z * list Z) :=
  match is with
  | [] => Ok (argbs, populations)
  | i :: is' =>
      do count <- index pcs i;
      if count =? 0 then collect_loop is' pcs clusters argbs populations
      else
        do c <- index clusters i;
        let possible := lab_to_int c in
        if existsb (Z.eqb possible) argbs then collect_loop is' pcs clusters argbs populations
        else collect_loop is' pcs clusters (argbs ++ [possible]) (populations ++ [count])
  end.

(** quantizer_wsmeans.rs 281-287: the map from input pixel to cluster colour. *)
Fixpoint pixel_map_loop (pixels cluster_indices : list Z) (clusters : list vec3) (m : list (Z * Z)) : res (list (Z * Z)) :=
  match pixels, cluster_indices with
  | p :: ps, ci :: cis =>
      do c <- index clusters ci;
      pixel_map_loop ps cis clusters (ainsert Z.eqb m p (lab_to_int c))
  | [], _ => Ok m
  | _ :: _, [] => Panic
  end.

(** quantizer_wsmeans.rs 45-304: [quantize].  [rng] is the output of the seeded generator. *)
Definition ws_quantize (rng : list Z) (input_pixels : list Z) (max_colors : Z) (starting_clusters : option (list Z))
    (max_iterations : option Z) (return_map : option bool) : res quantizer_result :=
  let starting_clusters := unwrap_or starting_clusters [] in
  let max_iterations := unwrap_or max_iterations 5 in
  let return_map := unwrap_or return_map false in
  let '(pixel_to_count, pixels) := ws_count input_pixels [] [] in
  let points := map lab_from_int pixels in
  let point_count := Z.of_nat (List.length pixels) in
  let counts := map (fun p => unwrap_or (afind Z.eqb pixel_to_count p) 0) pixels in
  let cluster_count := Z.min max_colors point_count in
  let clusters := map lab_from_int starting_clusters in
  let additional := cluster_count - Z.of_nat (List.length clusters) in
  do clusters <-
    (if 0 <? additional then
       do indices <- pick_indices rng point_count (Z.to_nat additional) [];
       Ok (clusters ++ map (fun i => nth (Z.to_nat i) points vzero) indices)
     else Ok clusters);
  (* line 130: [index % cluster_count] *)
  if (cluster_count =? 0) && negb (point_count =? 0) then Panic else
  (* line 142: [vec![0; cluster_count as usize]] with a negative count *)
  if cluster_count <? 0 then Panic else
  let k := Z.to_nat cluster_count in
  let cluster_indices := map (fun i => Z.rem (Z.of_nat i) cluster_count) (seq 0 (List.length pixels)) in
  let dm := repeat (map (fun j => {| di_distance := dec "0.0"; di_index := j |}) (zseq 0 cluster_count)) k in
  do r <- kmeans_loop (Z.to_nat max_iterations) true cluster_count points counts clusters dm cluster_indices
            (repeat 0 k);
  let '(clusters, cluster_indices, pcs) := r in
  do ap <- collect_loop (zseq 0 cluster_count) pcs clusters [] [];
  let '(argbs, populations) := ap in
  do pm <- (if return_map then pixel_map_loop pixels cluster_indices clusters [] else Ok []);
  Ok {| qr_color_to_count := combine argbs populations; qr_input_pixel_to_cluster_pixel := pm |}.

(** quantizer_celebi.rs 10-29: [QuantizerCelebi::quantize]; [order1] is the iteration order of the
    histogram map and [order2] that of Wu's result. *)
Definition celebi_quantize (rng : list Z) (order1 : list (Z * Z) -> list (Z * Z)) (order2 : list Z -> list Z)
    (pixels : list Z) (max_colors : Z) (return_map : option bool) : res quantizer_result :=
  let return_map := unwrap_or return_map false in
  do wu_result <- wu_quantize order1 pixels max_colors;
  ws_quantize rng pixels max_colors (Some (order2 (map fst (qr_color_to_count wu_result)))) None (Some return_map).
End WithLibm.
