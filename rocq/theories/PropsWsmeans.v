(** * C57 - C60: the k-means quantizer and its composition with Wu. *)
From Coq Require Import ZArith Bool List Permutation String Reals.
From Flocq Require Import IEEE754.BinarySingleNaN.
From Verif Require Import F64 MathUtils ColorUtils Palettes Assoc ViewingConditions QuantizerMap QuantizerWu QuantizerWsmeans SpecQuantize SpecWu SpecWsmeans SampleLibm PfWsmeans PfKmeans PfFew.
Import ListNotations.
Open Scope string_scope.
Open Scope list_scope.
Open Scope Z_scope.

(** Two dark and three light greys, and the result of clustering them. *)
Definition greys : list Z := [0xFF000000; 0xFF3B3B3B; 0xFFFFFFFF; 0xFFB9B9B9; 0xFFB9B9B9].
Definition same_result (r : res quantizer_result) (colors m : list (Z * Z)) : bool :=
  match r with
  | Ok r => forallb (fun e => (fst (fst e) =? fst (snd e)) && (snd (fst e) =? snd (snd e))) (combine (qr_color_to_count r ++ qr_input_pixel_to_cluster_pixel r) (colors ++ m))
            && Nat.eqb (List.length (qr_color_to_count r)) (List.length colors)
            && Nat.eqb (List.length (qr_input_pixel_to_cluster_pixel r)) (List.length m)
  | Panic => false
  end.

(** C57 *)
Theorem C57_populations : forall (lm : Libm) rng pixels max_colors starting max_iterations return_map r,
  Z.of_nat (List.length pixels) <= i64_max ->
  ws_quantize rng pixels max_colors starting max_iterations return_map = Ok r ->
  let colors := qr_color_to_count r in
  NoDup (map fst colors) /\ Z.of_nat (List.length colors) <= Z.min max_colors (distinct pixels) /\
  (forall c n, In (c, n) colors -> opaque c /\ 0 < n) /\
  total_count colors <= Z.of_nat (List.length pixels) /\
  (1 <= unwrap_or max_iterations 5 -> Z.of_nat (List.length colors) = Z.min max_colors (distinct pixels) ->
   total_count colors = Z.of_nat (List.length pixels)).
Proof. exact (fun lm => ws_populations). Qed.
Print Assumptions C57_populations.

(** The call returns whenever the arguments make sense and the generator reaches every index. *)
Theorem C57_returns : forall (lm : Libm) rng pixels max_colors starting max_iterations return_map,
  Z.of_nat (List.length pixels) <= i64_max -> 1 <= max_colors ->
  (forall i, 0 <= i < distinct pixels -> In i (map (fun z => z mod distinct pixels) rng)) ->
  exists r, ws_quantize rng pixels max_colors starting max_iterations return_map = Ok r.
Proof. exact (fun lm => ws_returns). Qed.
Print Assumptions C57_returns.

(** The populations need not add up to the number of pixels. *)
Theorem C57_exact_refuted : exists (lm : Libm) rng pixels max_colors starting max_iterations return_map r,
  1 <= unwrap_or max_iterations 5 /\
  ws_quantize rng pixels max_colors starting max_iterations return_map = Ok r /\
  total_count (qr_color_to_count r) < Z.of_nat (List.length pixels).
Proof. exact ws_not_exact. Qed.
Print Assumptions C57_exact_refuted.
Example C57_case : same_result (@ws_quantize sample_libm [] greys 2 (Some [0xFF000000; 0xFFFFFFFF]) None (Some true))
  [(0xFF202020, 2); (0xFFD0D0D0, 3)]
  [(0xFF000000, 0xFF202020); (0xFF3B3B3B, 0xFF202020); (0xFFFFFFFF, 0xFFD0D0D0); (0xFFB9B9B9, 0xFFD0D0D0)] = true.
Proof. vm_compute. reflexivity. Qed.

(** C58 *)
Theorem C58_pixel_map : forall (lm : Libm) rng pixels max_colors starting max_iterations r,
  Z.of_nat (List.length pixels) <= i64_max ->
  ws_quantize rng pixels max_colors starting max_iterations (Some true) = Ok r ->
  let colors := qr_color_to_count r in let m := qr_input_pixel_to_cluster_pixel r in
  NoDup (map fst m) /\ (forall p, In p (map fst m) <-> In p pixels) /\
  (1 <= unwrap_or max_iterations 5 -> forall p c, In (p, c) m -> In c (map fst colors)) /\
  (forall c n, In (c, n) colors -> n <= mapped_to m c pixels).
Proof. exact (fun lm => ws_pixel_map). Qed.
Print Assumptions C58_pixel_map.
(** [C57_case] is an instance: it asks for the map. *)
Example C58_case : mapped_to [(0xFF000000, 0xFF202020); (0xFF3B3B3B, 0xFF202020); (0xFFFFFFFF, 0xFFD0D0D0); (0xFFB9B9B9, 0xFFD0D0D0)] 0xFFD0D0D0 greys = 3.
Proof. reflexivity. Qed.

Theorem C58_no_map : forall (lm : Libm) rng pixels max_colors starting max_iterations return_map r,
  Z.of_nat (List.length pixels) <= i64_max -> unwrap_or return_map false = false ->
  ws_quantize rng pixels max_colors starting max_iterations return_map = Ok r ->
  qr_input_pixel_to_cluster_pixel r = [].
Proof. exact (fun lm => ws_no_map). Qed.
Print Assumptions C58_no_map.

(** C59 *)
Theorem C59_no_colors_panics : forall (lm : Libm) rng pixels max_colors starting max_iterations return_map,
  max_colors < 0 \/ (max_colors = 0 /\ pixels <> []) ->
  ws_quantize rng pixels max_colors starting max_iterations return_map = Panic.
Proof. exact (fun lm => ws_no_colors). Qed.
Print Assumptions C59_no_colors_panics.
Theorem C59_no_pixels : forall (lm : Libm) rng max_colors starting max_iterations return_map,
  0 <= max_colors ->
  ws_quantize rng [] max_colors starting max_iterations return_map =
    Ok {| qr_color_to_count := []; qr_input_pixel_to_cluster_pixel := [] |}.
Proof. exact (fun lm => ws_no_pixels). Qed.
Print Assumptions C59_no_pixels.
Theorem C59_no_iterations : forall (lm : Libm) rng pixels max_colors starting max_iterations return_map r,
  Z.of_nat (List.length pixels) <= i64_max -> max_iterations <= 0 ->
  ws_quantize rng pixels max_colors starting (Some max_iterations) return_map = Ok r ->
  qr_color_to_count r = [].
Proof. exact (fun lm => ws_no_iterations). Qed.
Print Assumptions C59_no_iterations.
(** With at least one iteration and one pixel the result is never empty. *)
Theorem C59_never_empty : forall (lm : Libm) rng pixels max_colors starting max_iterations return_map r,
  Z.of_nat (List.length pixels) <= i64_max -> 1 <= unwrap_or max_iterations 5 -> pixels <> [] ->
  ws_quantize rng pixels max_colors starting max_iterations return_map = Ok r ->
  qr_color_to_count r <> [].
Proof. exact (fun lm => ws_never_empty). Qed.
Print Assumptions C59_never_empty.
Example C59_case : same_result (@ws_quantize sample_libm [7; 3; 4; 6; 1] greys 2 None (Some 0) None) [] [] = true.
Proof. vm_compute. reflexivity. Qed.

(** C60 *)
Theorem C60_celebi : forall (lm : Libm) rng order1 order2 pixels max_colors return_map r,
  Z.of_nat (List.length pixels) <= i64_max ->
  celebi_quantize rng order1 order2 pixels max_colors return_map = Ok r ->
  let colors := qr_color_to_count r in
  NoDup (map fst colors) /\ Z.of_nat (List.length colors) <= max_colors /\
  (forall c n, In (c, n) colors -> opaque c /\ 0 < n) /\
  total_count colors <= Z.of_nat (List.length pixels) /\ (pixels <> [] -> colors <> []).
Proof. exact (fun lm => celebi_populations). Qed.
Print Assumptions C60_celebi.
Theorem C60_returns : forall (lm : Libm) rng order1 order2 pixels max_colors return_map,
  Permutation (order1 (qr_color_to_count (map_quantize pixels))) (qr_color_to_count (map_quantize pixels)) ->
  1 <= max_colors -> image_fits pixels -> Z.of_nat (List.length pixels) <= i64_max ->
  (forall i, 0 <= i < distinct pixels -> In i (map (fun z => z mod distinct pixels) rng)) ->
  exists r, celebi_quantize rng order1 order2 pixels max_colors return_map = Ok r.
Proof. exact (fun lm => celebi_returns). Qed.
Print Assumptions C60_returns.
(** The four greys: every hypothesis of [C60_returns] holds. *)
Example C60_case : image_fits greys /\ forallb (fun i => existsb (Z.eqb i) (map (fun z => z mod distinct greys) [7; 8; 2; 1])) [0; 1; 2; 3] = true /\ distinct greys = 4.
Proof. repeat split; vm_compute; congruence. Qed.

(** C74.  [lab_mean], [population] (SpecWsmeans.v): mean in L*a*b* and number of the pixels with the given colours. *)
Theorem C74_colours_are_cluster_means : forall (lm : Libm) rng pixels max_colors starting max_iterations return_map r,
  Z.of_nat (List.length pixels) <= i64_max -> 1 <= unwrap_or max_iterations 5 ->
  ws_quantize rng pixels max_colors starting max_iterations return_map = Ok r ->
  exists (colors : list Z) (cluster : Z -> Z), NoDup colors /\ (forall p, In p colors <-> In p pixels) /\
    (forall p, In p pixels -> 0 <= cluster p < Z.min max_colors (distinct pixels)) /\
    let members i := filter (fun p => cluster p =? i) colors in
    let colour i := let m := lab_mean pixels (members i) in argb_from_lab (v0 m) (v1 m) (v2 m) in
    (forall c n, In (c, n) (qr_color_to_count r) -> exists i, members i <> [] /\ c = colour i /\ n = population pixels (members i)) /\
    (forall p c, In (p, c) (qr_input_pixel_to_cluster_pixel r) -> In p pixels /\ c = colour (cluster p)).
Proof. exact (fun lm => ws_means). Qed.
Print Assumptions C74_colours_are_cluster_means.
(** [C57_case] is an instance: the mean of the two dark greys is 0xFF202020. *)
Example C74_case : let m := @lab_mean sample_libm greys [0xFF000000; 0xFF3B3B3B] in
  (@argb_from_lab sample_libm (v0 m) (v1 m) (v2 m) =? 0xFF202020) = true /\ population greys [0xFFFFFFFF; 0xFFB9B9B9] = 3.
Proof. split; vm_compute; reflexivity. Qed.

(** C75.  One reassignment of the pixels to the clusters: [points] are the pixels, [cis] and [cis'] their clusters before and
    after; [dm] is the table of distances between clusters.  A pixel only moves to a cluster that is closer, and a cluster that
    is closer than the chosen one has been skipped because of its entry in the table. *)
Theorem C75_pixels_move_closer : forall (clusters : list vec3) (dm : list (list dist_idx)) (k : Z) (points : list vec3)
    (cis cis' : list Z) (moved : Z),
  assign_loop clusters dm k points cis = Ok (cis', moved) ->
  forall i p c c', nth_error points i = Some p -> nth_error cis i = Some c -> nth_error cis' i = Some c' ->
  exists old new, index clusters c = Ok old /\ index clusters c' = Ok new /\
    (c' = c \/ flt (lab_distance p new) (lab_distance p old) = true) /\
    forall j row e other, 0 <= j < k -> index dm c = Ok row -> index row j = Ok e -> index clusters j = Ok other ->
      flt (lab_distance p other) (lab_distance p new) = true -> fle (fmul (dec "4.0") (lab_distance p old)) (di_distance e) = true.
Proof. exact assign_spec. Qed.
Print Assumptions C75_pixels_move_closer.
Example C75_case :
  let grey l : vec3 := (of_Z l, dec "0.0", dec "0.0") in
  let row := [{| di_distance := dec "0.0"; di_index := 0 |}; {| di_distance := dec "400.0"; di_index := 1 |}] in
  match assign_loop [grey 10; grey 30] [row; row] 2 [grey 12; grey 25; grey 31] [0; 0; 1] with
  | Ok (cis, moved) => list_equals cis [0; 1; 1] && (moved =? 1) | Panic => false end = true.
Proof. vm_compute. reflexivity. Qed.

(** The distance of two colours is the square of their distance in L*a*b*, up to rounding.  Colours of an image have coordinates below 1000. *)
Theorem C75_squared_distance : forall u v : vec3,
  let real := @BinarySingleNaN.B2R 53 1024 in
  let good (x : f64) := is_finite x = true /\ (-1000 <= real x <= 1000)%R in
  good (v0 u) -> good (v1 u) -> good (v2 u) -> good (v0 v) -> good (v1 v) -> good (v2 v) ->
  let square (x y : f64) := ((real x - real y) * (real x - real y))%R in
  let exact := (square (v0 u) (v0 v) + square (v1 u) (v1 v) + square (v2 u) (v2 v))%R in
  is_finite (lab_distance u v) = true /\ (Rabs (real (lab_distance u v) - exact) <= 1 / 10 ^ 15 * exact + 1 / 10 ^ 40)%R.
Proof. exact distance_good. Qed.
Print Assumptions C75_squared_distance.
Example C75_distance_case : feq (lab_distance (dec "10.0", dec "20.0", dec "30.0") (dec "7.0", dec "24.0", dec "42.0")) (dec "169.0") = true.
Proof. vm_compute. reflexivity. Qed.

(** The table is sorted before it is read, so a cluster can be skipped because of another cluster's distance: a pixel stays with
    a colour more than twice as far away as another returned colour, however many iterations are allowed. *)
Theorem C75_nearest_colour_refuted : exists (lm : Libm) pixels max_colors starting r p c c',
  (forall n, 2 <= n -> ws_quantize [] pixels max_colors (Some starting) (Some n) (Some true) = Ok r) /\
  In (p, c) (qr_input_pixel_to_cluster_pixel r) /\ In c' (map fst (qr_color_to_count r)) /\
  flt (fmul (dec "4.0") (lab_distance (lab_from_argb p) (lab_from_argb c'))) (lab_distance (lab_from_argb p) (lab_from_argb c)) = true.
Proof. exact ws_not_nearest. Qed.
Print Assumptions C75_nearest_colour_refuted.
