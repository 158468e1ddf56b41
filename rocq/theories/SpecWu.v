(** * Vocabulary for the properties of the Wu quantizer. *)
From Coq Require Import ZArith List Bool.
From Verif Require Import F64 ColorUtils QuantizerWu SpecQuantize.
Import ListNotations.
Open Scope Z_scope.

(** The sum of [f pixel * count] over the pixels selected by [sel]. *)
Definition weighted (f : Z -> Z) (sel : Z -> bool) (pixels : list (Z * Z)) : Z :=
  fold_right Z.add 0 (map (fun e => if sel (fst e) then f (fst e) * snd e else 0) pixels).

(** The pixel's coordinates, in eighths of a channel, are all below r, g, b. *)
Definition dominated (r g b pixel : Z) : bool :=
  (red_from_argb pixel / 8 <? r) && (green_from_argb pixel / 8 <? g) && (blue_from_argb pixel / 8 <? b).

(** The pixel lies in the box: r0 <= red/8 < r1 and so on. *)
Definition inside (c : box) (pixel : Z) : bool :=
  (b_r0 c <=? red_from_argb pixel / 8) && (red_from_argb pixel / 8 <? b_r1 c) &&
  (b_g0 c <=? green_from_argb pixel / 8) && (green_from_argb pixel / 8 <? b_g1 c) &&
  (b_b0 c <=? blue_from_argb pixel / 8) && (blue_from_argb pixel / 8 <? b_b1 c).

(** The box is part of the cube. *)
Definition in_cube (c : box) : Prop :=
  0 <= b_r0 c <= b_r1 c /\ b_r1 c <= 32 /\ 0 <= b_g0 c <= b_g1 c /\ b_g1 c <= 32 /\ 0 <= b_b0 c <= b_b1 c /\ b_b1 c <= 32.

Definition one (p : Z) : Z := 1.
Definition everywhere (p : Z) : bool := true.

(** The opaque pixels of an image that lie in the box, and their mean in one channel (rounded down). *)
Definition pixels_in (c : box) (pixels : list Z) : list Z :=
  filter (fun p => (Z.land (Z.shiftr p 24) 255 =? 255) && inside c p) pixels.
Definition sum_of (f : Z -> Z) (l : list Z) : Z := fold_right Z.add 0 (map f l).
Definition mean (f : Z -> Z) (l : list Z) : Z := sum_of f l / Z.of_nat (List.length l).

(** The box's colour. *)
Definition mean_color (c : box) (pixels : list Z) : Z :=
  let l := pixels_in c pixels in
  argb_from_rgb (mean red_from_argb l) (mean green_from_argb l) (mean blue_from_argb l).

(** Every colour lies in exactly one of the boxes. *)
Definition partition (boxes : list box) : Prop :=
  forall p, exists! j, exists c, nth_error boxes j = Some c /\ inside c p = true.

(** A bound on the image under which no integer sum of the quantizer can leave i64. *)
Definition opaque_count (pixels : list Z) : Z := Z.of_nat (List.length (filter opaque_b pixels)).
Definition image_fits (pixels : list Z) : Prop := 3 * (255 * opaque_count pixels) * (255 * opaque_count pixels) <= i64_max.

(** The colour is opaque and each of its channels lies between channels of pixels of the list. *)
Definition between (f : Z -> Z) (color : Z) (l : list Z) : Prop := exists p q, In p l /\ In q l /\ f p <= f color <= f q.
Definition within (color : Z) (l : list Z) : Prop :=
  opaque color /\ between red_from_argb color l /\ between green_from_argb color l /\ between blue_from_argb color l.
