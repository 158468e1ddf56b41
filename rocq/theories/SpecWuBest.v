(** * Vocabulary for Wu's choices: which box is cut next, and where. *)
From Coq Require Import ZArith List Bool Reals.
From Flocq Require Import Core.
From Verif Require Import F64 ColorUtils QuantizerWu SpecQuantize SpecWu.
Import ListNotations.
Open Scope Z_scope.

(** A pixel's channel in a direction; in eighths, its coordinate. *)
Definition channel_of (d : direction) (p : Z) : Z :=
  match d with DRed => red_from_argb p | DGreen => green_from_argb p | DBlue => blue_from_argb p end.
Definition coord (d : direction) (p : Z) : Z := channel_of d p / 8.
(** The two sides of the plane at [k]. *)
Definition below (c : box) (d : direction) (k p : Z) : bool := inside c p && (coord d p <? k).
Definition above (c : box) (d : direction) (k p : Z) : bool := inside c p && (k <=? coord d p).

(** The sum of the squared distances of the selected pixels from their mean. *)
Definition center (f : Z -> Z) (sel : Z -> bool) (ps : list (Z * Z)) : R :=
  (IZR (weighted f sel ps) / IZR (weighted one sel ps))%R.
Definition spread (sel : Z -> bool) (ps : list (Z * Z)) : R :=
  let off f p := ((IZR (f p) - center f sel ps) ^ 2)%R in
  fold_right Rplus 0%R (map (fun e => if sel (fst e)
    then (IZR (snd e) * (off red_from_argb (fst e) + off green_from_argb (fst e) + off blue_from_argb (fst e)))%R else 0%R) ps).
(** The sum of the squared distances from black, used to express a tolerance. *)
Definition squares (p : Z) : Z :=
  red_from_argb p * red_from_argb p + green_from_argb p * green_from_argb p + blue_from_argb p * blue_from_argb p.
Definition tolerance (c : box) (ps : list (Z * Z)) : R := (IZR (weighted squares (inside c) ps) / 10 ^ 14)%R.

(** No plane separates the pixels of the box. *)
Definition single_cell (ps : list (Z * Z)) (c : box) : Prop :=
  forall d k, weighted one (below c d k) ps = 0 \/ weighted one (above c d k) ps = 0.
(** [a] and [b] are the sides of a plane with pixels on both sides, and no such plane has a smaller total spread. *)
Definition best_cut (ps : list (Z * Z)) (c a b : box) : Prop :=
  exists d k, (forall p, inside a p = below c d k p) /\ (forall p, inside b p = above c d k p) /\
    0 < weighted one (inside a) ps /\ 0 < weighted one (inside b) ps /\
    forall d' k', 0 < weighted one (below c d' k') ps -> 0 < weighted one (above c d' k') ps ->
      (spread (inside a) ps + spread (inside b) ps <= spread (below c d' k') ps + spread (above c d' k') ps + tolerance c ps)%R.

(** The priority of a box: its spread, rounded up, if it is larger than one cell. *)
Definition cell_count (c : box) : Z := (b_r1 c - b_r0 c) * (b_g1 c - b_g0 c) * (b_b1 c - b_b0 c).
Definition priority (ps : list (Z * Z)) (c : box) : Z := if 1 <? cell_count c then Zceil (spread (inside c) ps) else 0.

(** One round: a box of the highest priority is cut in two, or, if it cannot be cut, loses its priority. *)
Inductive round (ps : list (Z * Z)) : list (box * Z) -> list (box * Z) -> Prop :=
| round_cut l1 c v l2 a b : (forall e, In e (l1 ++ l2) -> snd e <= v) -> best_cut ps c a b ->
    round ps (l1 ++ (c, v) :: l2) (l1 ++ (a, priority ps a) :: l2 ++ [(b, priority ps b)])
| round_stuck l1 c v l2 : (forall e, In e (l1 ++ l2) -> snd e <= v) -> single_cell ps c ->
    round ps (l1 ++ (c, v) :: l2) (l1 ++ (c, 0) :: l2).
(** [m] rounds, none but the first of which begins with every priority at zero. *)
Inductive rounds (ps : list (Z * Z)) (l0 : list (box * Z)) : Z -> list (box * Z) -> Prop :=
| rounds_0 : rounds ps l0 0 l0
| rounds_S m l l' : rounds ps l0 m l -> m = 0 \/ (exists e, In e l /\ 0 < snd e) -> round ps l l' -> rounds ps l0 (m + 1) l'.

(** The cube that contains every pixel, and the boxes of non-zero extent. *)
Definition whole_cube : box := {| b_r0 := 0; b_r1 := 32; b_g0 := 0; b_g1 := 32; b_b0 := 0; b_b1 := 32; b_vol := 0 |}.
Definition in_use (c : box) : bool := negb (cell_count c =? 0).

(** The opaque pixels of an image, one by one. *)
Definition opaque_pixels (pixels : list Z) : list (Z * Z) := map (fun p => (p, 1)) (filter opaque_b pixels).
(** The cell of a pixel. *)
Definition cell_of (p : Z) : Z * Z * Z := (coord DRed p, coord DGreen p, coord DBlue p).
