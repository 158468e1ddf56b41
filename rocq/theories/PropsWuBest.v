(** * C93: how the Wu quantizer chooses its boxes. *)
From Coq Require Import ZArith Bool List Reals Permutation String.
From Verif Require Import F64 ColorUtils Assoc QuantizerMap QuantizerWu SpecQuantize SpecWu SpecWuBest PfWuGreedy.
Import ListNotations.
Open Scope Z_scope.

(** C93: the colours are the means of boxes obtained from the whole cube by rounds.  Each round takes a box with the
    largest spread and cuts it by a plane that minimises the total spread. *)
Theorem C93_greedy : forall order pixels n,
  Permutation (order (qr_color_to_count (map_quantize pixels))) (qr_color_to_count (map_quantize pixels)) ->
  1 <= n -> image_fits pixels ->
  exists r m l, wu_quantize order pixels n = Ok r /\ rounds (opaque_pixels pixels) [(whole_cube, 0)] m l /\ m <= n - 1 /\
    (m = n - 1 \/ 1 <= m /\ forall e, In e l -> snd e = 0) /\
    forall z, In z (map fst (qr_color_to_count r)) <-> exists c v, In (c, v) l /\ pixels_in c pixels <> [] /\ z = mean_color c pixels.
Proof. exact wu_greedy. Qed.
Print Assumptions C93_greedy.
(** With two colours there is one round. *)
Theorem C93_two_colours : forall order pixels,
  Permutation (order (qr_color_to_count (map_quantize pixels))) (qr_color_to_count (map_quantize pixels)) -> image_fits pixels ->
  exists r, wu_quantize order pixels 2 = Ok r /\
    ((single_cell (opaque_pixels pixels) whole_cube /\
      forall z, In z (map fst (qr_color_to_count r)) <-> pixels_in whole_cube pixels <> [] /\ z = mean_color whole_cube pixels) \/
     (exists a b, best_cut (opaque_pixels pixels) whole_cube a b /\
      forall z, In z (map fst (qr_color_to_count r)) <-> z = mean_color a pixels \/ z = mean_color b pixels)).
Proof. exact wu_two. Qed.
Print Assumptions C93_two_colours.
(** A round spent on a box that cannot be cut is lost: an image with pixels in n cells may get fewer than n colours. *)
Theorem C93_fewer_colours_refuted : exists pixels chosen n r, image_fits pixels /\ NoDup (map cell_of chosen) /\ incl chosen pixels /\ Forall opaque chosen /\
  Z.of_nat (List.length chosen) = n /\ wu_quantize (fun m => m) pixels n = Ok r /\ Z.of_nat (List.length (qr_color_to_count r)) < n.
Proof. exact crowded_refuted. Qed.
Print Assumptions C93_fewer_colours_refuted.

(** Non-vacuity: an image that fits, and a plane that separates its pixels. *)
Example C93_case : image_fits crowded /\
  0 < weighted one (below whole_cube DRed 1) (opaque_pixels crowded) /\ 0 < weighted one (above whole_cube DRed 1) (opaque_pixels crowded).
Proof. split; [vm_compute; discriminate|split; reflexivity]. Qed.
