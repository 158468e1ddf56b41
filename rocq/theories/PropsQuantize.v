(** * C51 - C56: the map and Wu quantizers. *)
From Coq Require Import ZArith Bool List Permutation Lia.
From Verif Require Import F64 ColorUtils QuantizerMap QuantizerWu SpecQuantize SpecWu PfQuantizeMap PfWuMoments PfWu.
Import ListNotations.
Open Scope Z_scope.

(** A small image: four reds, two greens, a translucent pixel, a white. *)
Definition sample_image : list Z := [0xFFFF0000; 0xFFFF0000; 0xFF00FF00; 0x80FF0000; 0xFFFF0000; 0xFFFF0008; 0xFF00FF00; 0xFFFFFFFF].

(** C51 *)
Theorem C51_map_counts : forall pixels,
  let counts := qr_color_to_count (map_quantize pixels) in
  NoDup (map fst counts) /\
  (forall p n, In (p, n) counts <-> opaque p /\ n = occurrences p pixels /\ 0 < n) /\
  total_count counts = Z.of_nat (List.length (filter opaque_b pixels)).
Proof. exact (fun pixels => conj (map_keys pixels) (conj (map_counts pixels) (map_total pixels))). Qed.
Print Assumptions C51_map_counts.

Theorem C51_order_irrelevant : forall pixels pixels', Permutation pixels pixels' ->
  Permutation (qr_color_to_count (map_quantize pixels)) (qr_color_to_count (map_quantize pixels')).
Proof. exact map_perm. Qed.
Print Assumptions C51_order_irrelevant.
Example C51_case : qr_color_to_count (map_quantize sample_image) = [(0xFFFF0000, 3); (0xFF00FF00, 2); (0xFFFF0008, 1); (0xFFFFFFFF, 1)].
Proof. vm_compute. reflexivity. Qed.

(** C52 *)
Theorem C52_index : forall r g b, 0 <= r <= 32 -> 0 <= g <= 32 -> 0 <= b <= 32 ->
  get_index r g b = 1089 * r + 33 * g + b /\ 0 <= get_index r g b < 35937.
Proof. exact (fun r g b R G B => conj (idx_eq r g b) (idx_range r g b R G B)). Qed.
Print Assumptions C52_index.
Theorem C52_injective : forall r g b r' g' b',
  0 <= r <= 32 -> 0 <= g <= 32 -> 0 <= b <= 32 -> 0 <= r' <= 32 -> 0 <= g' <= 32 -> 0 <= b' <= 32 ->
  get_index r g b = get_index r' g' b' -> r = r' /\ g = g' /\ b = b'.
Proof. exact idx_inj. Qed.
Print Assumptions C52_injective.
Example C52_case : get_index 32 32 32 = 35936 /\ get_index 0 0 0 = 0 /\ get_index 1 0 0 = get_index 0 33 0.
Proof. repeat split; vm_compute; reflexivity. Qed.

(** C53: the moment tables hold exact sums, and box volumes are exact. *)
Theorem C53_prefix_sums : forall ps w0 w, construct_histogram ps = Ok w0 -> compute_moments w0 = Ok w ->
  (forall r g b, 0 <= r <= 32 -> 0 <= g <= 32 -> 0 <= b <= 32 ->
    aget 0 (w_weights w) (get_index r g b) = Ok (weighted one (dominated r g b) ps) /\
    aget 0 (w_moments_r w) (get_index r g b) = Ok (weighted red_from_argb (dominated r g b) ps) /\
    aget 0 (w_moments_g w) (get_index r g b) = Ok (weighted green_from_argb (dominated r g b) ps) /\
    aget 0 (w_moments_b w) (get_index r g b) = Ok (weighted blue_from_argb (dominated r g b) ps)) /\
  (forall c, in_cube c ->
    (forall v, volume c (w_weights w) = Ok v -> v = weighted one (inside c) ps) /\
    (forall v, volume c (w_moments_r w) = Ok v -> v = weighted red_from_argb (inside c) ps) /\
    (forall v, volume c (w_moments_g w) = Ok v -> v = weighted green_from_argb (inside c) ps) /\
    (forall v, volume c (w_moments_b w) = Ok v -> v = weighted blue_from_argb (inside c) ps)).
Proof. exact tables_exact. Qed.
Print Assumptions C53_prefix_sums.

Theorem C53_no_overflow : forall ps, Forall (fun e => 0 <= snd e) ps ->
  3 * (255 * weighted one everywhere ps) * (255 * weighted one everywhere ps) <= i64_max ->
  exists w0 w, construct_histogram ps = Ok w0 /\ compute_moments w0 = Ok w /\
    forall c, in_cube c -> volume c (w_weights w) = Ok (weighted one (inside c) ps).
Proof. exact tables_total. Qed.
Print Assumptions C53_no_overflow.
(** The tables of the sample image exist, and the red corner of the cube weighs 4. *)
Definition red_corner : box := {| b_r0 := 16; b_r1 := 32; b_g0 := 0; b_g1 := 16; b_b0 := 0; b_b1 := 16; b_vol := 0 |}.
Example C53_case : exists w0 w, construct_histogram (qr_color_to_count (map_quantize sample_image)) = Ok w0 /\
  compute_moments w0 = Ok w /\ volume red_corner (w_weights w) = Ok 4.
Proof.
  destruct (tables_total (qr_color_to_count (map_quantize sample_image))) as (w0 & w & H & M & V).
  - vm_compute. repeat constructor; discriminate.
  - vm_compute. discriminate.
  - exists w0, w. split; [exact H|]. split; [exact M|]. rewrite V; [vm_compute; reflexivity|]. vm_compute. repeat split; discriminate.
Qed.

(** C54: after create_boxes every colour is in exactly one box. *)
Theorem C54_boxes_partition : forall ps w0 w n cubes count,
  construct_histogram ps = Ok w0 -> compute_moments w0 = Ok w -> create_boxes w n = Ok (cubes, count) ->
  Z.of_nat (List.length cubes) = n /\ 1 <= count <= n /\ Forall in_cube cubes /\ partition cubes /\
  (forall j c, count <= Z.of_nat j -> nth_error cubes j = Some c -> forall p, inside c p = false).
Proof. exact boxes_exact. Qed.
Print Assumptions C54_boxes_partition.
Example C54_case : exists w0 w cubes count, construct_histogram (qr_color_to_count (map_quantize sample_image)) = Ok w0 /\
  compute_moments w0 = Ok w /\ create_boxes w 5 = Ok (cubes, count).
Proof. apply boxes_total; [vm_compute; repeat constructor; discriminate|vm_compute; discriminate|discriminate]. Qed.

(** C55 *)
Theorem C55_wu_result : forall order pixels n r,
  Permutation (order (qr_color_to_count (map_quantize pixels))) (qr_color_to_count (map_quantize pixels)) ->
  wu_quantize order pixels n = Ok r ->
  exists boxes, Z.of_nat (List.length boxes) <= n /\ Forall in_cube boxes /\ partition boxes /\
    (forall z, In z (map fst (qr_color_to_count r)) <-> exists c, In c boxes /\ pixels_in c pixels <> [] /\ z = mean_color c pixels) /\
    (forall c, In c boxes -> pixels_in c pixels <> [] -> within (mean_color c pixels) (pixels_in c pixels)) /\
    NoDup (map fst (qr_color_to_count r)) /\ Z.of_nat (List.length (qr_color_to_count r)) <= n.
Proof. exact wu_result. Qed.
Print Assumptions C55_wu_result.
Theorem C55_wu_total : forall order pixels n,
  Permutation (order (qr_color_to_count (map_quantize pixels))) (qr_color_to_count (map_quantize pixels)) ->
  1 <= n -> image_fits pixels -> exists r, wu_quantize order pixels n = Ok r.
Proof. exact wu_total. Qed.
Print Assumptions C55_wu_total.
Theorem C55_nonpositive : forall order pixels n, n <= 0 -> wu_quantize order pixels n = Panic.
Proof. exact wu_nonpositive. Qed.
Print Assumptions C55_nonpositive.
Example C55_case : image_fits sample_image /\
  rmap (fun r => map fst (qr_color_to_count r)) (wu_quantize (fun m => m) sample_image 3) = Ok [0xFFFF0002; 0xFF00FF00; 0xFFFFFFFF].
Proof. split; vm_compute; [discriminate|reflexivity]. Qed.

(** C56: [image_fits] is at most 6,876,129 opaque pixels; beyond it the sums of squares can leave i64. *)
Theorem C56_small_images : forall order pixels n,
  Permutation (order (qr_color_to_count (map_quantize pixels))) (qr_color_to_count (map_quantize pixels)) ->
  1 <= n -> opaque_count pixels <= 6876129 -> wu_quantize order pixels n <> Panic.
Proof. exact wu_small. Qed.
Print Assumptions C56_small_images.
Theorem C56_overflow : forall order pixels n,
  Permutation (order (qr_color_to_count (map_quantize pixels))) (qr_color_to_count (map_quantize pixels)) ->
  2 <= n -> (forall p, In p pixels -> opaque p -> red_from_argb p < 248) ->
  (let total f := sum_of f (filter opaque_b pixels) in
   i64_max < total red_from_argb * total red_from_argb + total green_from_argb * total green_from_argb + total blue_from_argb * total blue_from_argb) ->
  wu_quantize order pixels n = Panic.
Proof. exact wu_overflow. Qed.
Print Assumptions C56_overflow.
(** Seven million pixels of one light cyan (0xFFF7FFFF) are such an image. *)
Example C56_case : wu_quantize (fun m => m) (repeat 0xFFF7FFFF (Z.to_nat 7000000)) 2 = Panic.
Proof. exact cyan_overflow. Qed.
