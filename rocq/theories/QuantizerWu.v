(** * Model of /repo/src/quantize/quantizer_wu.rs *)
From Coq Require Import ZArith Bool List String FMapPositive.
From Verif Require Import F64 ColorUtils Assoc QuantizerMap.
Import ListNotations.
Open Scope string_scope.
Open Scope list_scope.
Open Scope Z_scope.

(** A Vec of TOTAL_SIZE elements, all of which start at [zero], as a finite map from the index. *)
Definition arr (A : Type) : Type := PositiveMap.t A.
Definition akey (i : Z) : positive := Z.to_pos (i + 1).
Definition TOTAL_SIZE : Z := 35937.
Definition MAX_INDEX : Z := 32.
Definition SIDE_LENGTH : nat := 33.

Definition aread {A} (zero : A) (m : arr A) (i : Z) : A :=
  match PositiveMap.find (akey i) m with Some a => a | None => zero end.

(** [m[i as usize]] and [m[i as usize] = x] with the bounds check. *)
Definition aget {A} (zero : A) (m : arr A) (i : Z) : res A :=
  if (0 <=? i) && (i <? TOTAL_SIZE) then Ok (aread zero m i) else Panic.
Definition aset {A} (m : arr A) (i : Z) (x : A) : res (arr A) :=
  if (0 <=? i) && (i <? TOTAL_SIZE) then Ok (PositiveMap.add (akey i) x m) else Panic.

Definition zadd (a b : Z) : res Z := chk (a + b).
Definition zsub (a b : Z) : res Z := chk (a - b).
Definition zmul (a b : Z) : res Z := chk (a * b).
Definition fadd_res (a b : f64) : res f64 := Ok (fadd a b).

(** quantizer_wu.rs 460-490: struct Box. *)
Record box := { b_r0 : Z; b_r1 : Z; b_g0 : Z; b_g1 : Z; b_b0 : Z; b_b1 : Z; b_vol : Z }.
Definition empty_box : box := {| b_r0 := 0; b_r1 := 0; b_g0 := 0; b_g1 := 0; b_b0 := 0; b_b1 := 0; b_vol := 0 |}.

(** quantizer_wu.rs 10-17: struct QuantizerWu without [cubes], which is passed separately. *)
Record wu := {
  w_weights : arr Z; w_moments_r : arr Z; w_moments_g : arr Z; w_moments_b : arr Z;
  w_moments : arr f64
}.
Definition wu_zero : wu :=
  {| w_weights := PositiveMap.empty _; w_moments_r := PositiveMap.empty _;
     w_moments_g := PositiveMap.empty _; w_moments_b := PositiveMap.empty _;
     w_moments := PositiveMap.empty _ |}.

(** quantizer_wu.rs 59-66: [get_index] (INDEX_BITS = 5). *)
Definition get_index (r g b : Z) : Z :=
  Z.shiftl r (5 * 2) + Z.shiftl r (5 + 1) + Z.shiftl g 5 + r + g + b.

(** [m[i] += x]. *)
Definition abump {A} (zero : A) (add : A -> A -> res A) (m : arr A) (i : Z) (x : A) : res (arr A) :=
  do old <- aget zero m i;
  do new <- add old x;
  aset m i new.

(** quantizer_wu.rs 74-89: one pixel of [construct_histogram]. *)
Definition histogram_step (w : wu) (pixel count : Z) : res wu :=
  let red := red_from_argb pixel in
  let green := green_from_argb pixel in
  let blue := blue_from_argb pixel in
  let i_r := Z.shiftr red (8 - 5) + 1 in
  let i_g := Z.shiftr green (8 - 5) + 1 in
  let i_b := Z.shiftr blue (8 - 5) + 1 in
  let i := get_index i_r i_g i_b in
  do ws <- abump 0 zadd (w_weights w) i count;
  do xr <- zmul red count;
  do mr <- abump 0 zadd (w_moments_r w) i xr;
  do xg <- zmul green count;
  do mg <- abump 0 zadd (w_moments_g w) i xg;
  do xb <- zmul blue count;
  do mb <- abump 0 zadd (w_moments_b w) i xb;
  do sq <- zmul count (red * red + green * green + blue * blue);
  do m <- abump (dec "0.0") fadd_res (w_moments w) i (of_Z sq);
  Ok {| w_weights := ws; w_moments_r := mr; w_moments_g := mg; w_moments_b := mb; w_moments := m |}.

(** quantizer_wu.rs 68-90: [construct_histogram]; [pixels] is the map in its iteration order. *)
Fixpoint histogram_loop (w : wu) (pixels : list (Z * Z)) : res wu :=
  match pixels with
  | [] => Ok w
  | (pixel, count) :: ps => do w <- histogram_step w pixel count; histogram_loop w ps
  end.
Definition construct_histogram (pixels : list (Z * Z)) : res wu := histogram_loop wu_zero pixels.

(** quantizer_wu.rs 92-133: [compute_moments].  The Rust loop updates five tables with five
    independent sets of accumulators; the model runs the same triple loop once per table (loop
    fission), which computes the same tables and panics in the same cases.
    Innermost loop (105-130) for one (r, g): [bs] are the remaining values of b. *)
Section Moment.
Context {A : Type} (zero : A) (add : A -> A -> res A).
Fixpoint moment_b (r g : Z) (bs : list Z) (line : A) (area : list A) (m : arr A) : res (list A * arr A) :=
  match bs with
  | [] => Ok (area, m)
  | b :: bs' =>
      let i := get_index r g b in
      do x <- aget zero m i;
      do line <- add line x;
      do a0 <- index area b;
      do a <- add a0 line;
      let area := list_set area (Z.to_nat b) a in
      do p <- aget zero m (get_index (r - 1) g b);
      do v <- add p a;
      do m <- aset m i v;
      moment_b r g bs' line area m
  end.
(** Middle loop (99-131). *)
Fixpoint moment_g (r : Z) (gs : list Z) (area : list A) (m : arr A) : res (list A * arr A) :=
  match gs with
  | [] => Ok (area, m)
  | g :: gs' =>
      do am <- moment_b r g (map Z.of_nat (seq 1 32)) zero area m;
      let '(area, m) := am in
      moment_g r gs' area m
  end.
(** Outer loop (93-132). *)
Fixpoint moment_r (rs : list Z) (m : arr A) : res (arr A) :=
  match rs with
  | [] => Ok m
  | r :: rs' =>
      do am <- moment_g r (map Z.of_nat (seq 1 32)) (repeat zero SIDE_LENGTH) m;
      moment_r rs' (snd am)
  end.
Definition prefix_moments (m : arr A) : res (arr A) := moment_r (map Z.of_nat (seq 1 32)) m.
End Moment.

Definition compute_moments (w : wu) : res wu :=
  do ws <- prefix_moments 0 zadd (w_weights w);
  do mr <- prefix_moments 0 zadd (w_moments_r w);
  do mg <- prefix_moments 0 zadd (w_moments_g w);
  do mb <- prefix_moments 0 zadd (w_moments_b w);
  do m <- prefix_moments (dec "0.0") fadd_res (w_moments w);
  Ok {| w_weights := ws; w_moments_r := mr; w_moments_g := mg; w_moments_b := mb; w_moments := m |}.

(** quantizer_wu.rs 368-377: [volume]. *)
Definition volume (c : box) (m : arr Z) : res Z :=
  do x1 <- aget 0 m (get_index (b_r1 c) (b_g1 c) (b_b1 c));
  do x2 <- aget 0 m (get_index (b_r1 c) (b_g1 c) (b_b0 c));
  do s <- zsub x1 x2;
  do x3 <- aget 0 m (get_index (b_r1 c) (b_g0 c) (b_b1 c));
  do s <- zsub s x3;
  do x4 <- aget 0 m (get_index (b_r1 c) (b_g0 c) (b_b0 c));
  do s <- zadd s x4;
  do x5 <- aget 0 m (get_index (b_r0 c) (b_g1 c) (b_b1 c));
  do s <- zsub s x5;
  do x6 <- aget 0 m (get_index (b_r0 c) (b_g1 c) (b_b0 c));
  do s <- zadd s x6;
  do x7 <- aget 0 m (get_index (b_r0 c) (b_g0 c) (b_b1 c));
  do s <- zadd s x7;
  do x8 <- aget 0 m (get_index (b_r0 c) (b_g0 c) (b_b0 c));
  zsub s x8.

(** quantizer_wu.rs 426-431: enum Direction. *)
Inductive direction := DRed | DGreen | DBlue.

(** [-x1 + x2 + x3 - x4] and [x1 - x2 - x3 + x4] with overflow checks. *)
Definition neg_sum (m : arr Z) (i1 i2 i3 i4 : Z) : res Z :=
  do x1 <- aget 0 m i1;
  do s <- chk (- x1);
  do x2 <- aget 0 m i2;
  do s <- zadd s x2;
  do x3 <- aget 0 m i3;
  do s <- zadd s x3;
  do x4 <- aget 0 m i4;
  zsub s x4.
Definition pos_sum (m : arr Z) (i1 i2 i3 i4 : Z) : res Z :=
  do x1 <- aget 0 m i1;
  do x2 <- aget 0 m i2;
  do s <- zsub x1 x2;
  do x3 <- aget 0 m i3;
  do s <- zsub s x3;
  do x4 <- aget 0 m i4;
  zadd s x4.

(** quantizer_wu.rs 379-400: [bottom]. *)
Definition bottom (c : box) (d : direction) (m : arr Z) : res Z :=
  match d with
  | DRed => neg_sum m (get_index (b_r0 c) (b_g1 c) (b_b1 c)) (get_index (b_r0 c) (b_g1 c) (b_b0 c))
                      (get_index (b_r0 c) (b_g0 c) (b_b1 c)) (get_index (b_r0 c) (b_g0 c) (b_b0 c))
  | DGreen => neg_sum m (get_index (b_r1 c) (b_g0 c) (b_b1 c)) (get_index (b_r1 c) (b_g0 c) (b_b0 c))
                        (get_index (b_r0 c) (b_g0 c) (b_b1 c)) (get_index (b_r0 c) (b_g0 c) (b_b0 c))
  | DBlue => neg_sum m (get_index (b_r1 c) (b_g1 c) (b_b0 c)) (get_index (b_r1 c) (b_g0 c) (b_b0 c))
                       (get_index (b_r0 c) (b_g1 c) (b_b0 c)) (get_index (b_r0 c) (b_g0 c) (b_b0 c))
  end.

(** quantizer_wu.rs 402-423: [top]. *)
Definition top (c : box) (d : direction) (position : Z) (m : arr Z) : res Z :=
  match d with
  | DRed => pos_sum m (get_index position (b_g1 c) (b_b1 c)) (get_index position (b_g1 c) (b_b0 c))
                      (get_index position (b_g0 c) (b_b1 c)) (get_index position (b_g0 c) (b_b0 c))
  | DGreen => pos_sum m (get_index (b_r1 c) position (b_b1 c)) (get_index (b_r1 c) position (b_b0 c))
                        (get_index (b_r0 c) position (b_b1 c)) (get_index (b_r0 c) position (b_b0 c))
  | DBlue => pos_sum m (get_index (b_r1 c) (b_g1 c) position) (get_index (b_r1 c) (b_g0 c) position)
                       (get_index (b_r0 c) (b_g1 c) position) (get_index (b_r0 c) (b_g0 c) position)
  end.

(** [(x*x) + (y*y) + (z*z)] with overflow checks. *)
Definition sum_squares (x y z : Z) : res Z :=
  do xx <- zmul x x; do yy <- zmul y y; do s <- zadd xx yy; do zz <- zmul z z; zadd s zz.

(** quantizer_wu.rs 207-223: [variance]; [Panic] also stands for the division by zero of line 222. *)
Definition variance (w : wu) (c : box) : res f64 :=
  do dr <- volume c (w_moments_r w);
  do dg <- volume c (w_moments_g w);
  do db <- volume c (w_moments_b w);
  let g i := aget (dec "0.0") (w_moments w) i in
  do x1 <- g (get_index (b_r1 c) (b_g1 c) (b_b1 c));
  do x2 <- g (get_index (b_r1 c) (b_g1 c) (b_b0 c));
  do x3 <- g (get_index (b_r1 c) (b_g0 c) (b_b1 c));
  do x4 <- g (get_index (b_r1 c) (b_g0 c) (b_b0 c));
  do x5 <- g (get_index (b_r0 c) (b_g1 c) (b_b1 c));
  do x6 <- g (get_index (b_r0 c) (b_g1 c) (b_b0 c));
  do x7 <- g (get_index (b_r0 c) (b_g0 c) (b_b1 c));
  do x8 <- g (get_index (b_r0 c) (b_g0 c) (b_b0 c));
  let xx := (x1 - x2 - x3 + x4 - x5 + x6 + x7 - x8)%f in
  do hypotenuse <- sum_squares dr dg db;
  do volume_ <- volume c (w_weights w);
  if volume_ =? 0 then Panic else
  Ok (xx - of_Z (Z.quot hypotenuse volume_))%f.

(** quantizer_wu.rs 330-364: the loop of [maximize]; returns (cut_location, maximum). *)
Fixpoint maximize_loop (w : wu) (c : box) (d : direction) (is : list Z)
    (bottom_r bottom_g bottom_b bottom_w whole_r whole_g whole_b whole_w : Z) (max : f64) (cut : Z)
    : res (Z * f64) :=
  match is with
  | [] => Ok (cut, max)
  | i :: is' =>
      do tr <- top c d i (w_moments_r w); do half_r <- zadd bottom_r tr;
      do tg <- top c d i (w_moments_g w); do half_g <- zadd bottom_g tg;
      do tb <- top c d i (w_moments_b w); do half_b <- zadd bottom_b tb;
      do tw <- top c d i (w_weights w); do half_w <- zadd bottom_w tw;
      if half_w =? 0
      then maximize_loop w c d is' bottom_r bottom_g bottom_b bottom_w whole_r whole_g whole_b whole_w max cut
      else
        do sq <- sum_squares half_r half_g half_b;
        let temp := (of_Z sq / of_Z half_w)%f in
        do half_r <- zsub whole_r half_r;
        do half_g <- zsub whole_g half_g;
        do half_b <- zsub whole_b half_b;
        do half_w <- zsub whole_w half_w;
        if half_w =? 0
        then maximize_loop w c d is' bottom_r bottom_g bottom_b bottom_w whole_r whole_g whole_b whole_w max cut
        else
          do sq <- sum_squares half_r half_g half_b;
          let temp := (temp + of_Z sq / of_Z half_w)%f in
          if (temp >? max)%f
          then maximize_loop w c d is' bottom_r bottom_g bottom_b bottom_w whole_r whole_g whole_b whole_w temp i
          else maximize_loop w c d is' bottom_r bottom_g bottom_b bottom_w whole_r whole_g whole_b whole_w max cut
  end.

(** [first..last]. *)
Definition zseq (first last : Z) : list Z := map (fun k => first + Z.of_nat k) (seq 0 (Z.to_nat (last - first))).

(** quantizer_wu.rs 312-366: [maximize]. *)
Definition maximize (w : wu) (c : box) (d : direction) (first last whole_r whole_g whole_b whole_w : Z)
    : res (Z * f64) :=
  do bottom_r <- bottom c d (w_moments_r w);
  do bottom_g <- bottom c d (w_moments_g w);
  do bottom_b <- bottom c d (w_moments_b w);
  do bottom_w <- bottom c d (w_weights w);
  maximize_loop w c d (zseq first last) bottom_r bottom_g bottom_b bottom_w whole_r whole_g whole_b whole_w
    (dec "0.0") (-1).

Definition set_vol (c : box) : box :=
  {| b_r0 := b_r0 c; b_r1 := b_r1 c; b_g0 := b_g0 c; b_g1 := b_g1 c; b_b0 := b_b0 c; b_b1 := b_b1 c;
     b_vol := (b_r1 c - b_r0 c) * (b_g1 c - b_g0 c) * (b_b1 c - b_b0 c) |}.

(** quantizer_wu.rs 225-310: [cut] on the box [one]; [None] is [false], [Some (one', two')] is [true]
    with the new contents of the two boxes (every field of box two is overwritten). *)
Definition cut (w : wu) (one : box) : res (option (box * box)) :=
  do whole_r <- volume one (w_moments_r w);
  do whole_g <- volume one (w_moments_g w);
  do whole_b <- volume one (w_moments_b w);
  do whole_w <- volume one (w_weights w);
  do mr <- maximize w one DRed (b_r0 one + 1) (b_r1 one) whole_r whole_g whole_b whole_w;
  do mg <- maximize w one DGreen (b_g0 one + 1) (b_g1 one) whole_r whole_g whole_b whole_w;
  do mb <- maximize w one DBlue (b_b0 one + 1) (b_b1 one) whole_r whole_g whole_b whole_w;
  let max_r := snd mr in let max_g := snd mg in let max_b := snd mb in
  let cut_red :=
    let k := fst mr in
    Some (set_vol {| b_r0 := b_r0 one; b_r1 := k; b_g0 := b_g0 one; b_g1 := b_g1 one;
                     b_b0 := b_b0 one; b_b1 := b_b1 one; b_vol := 0 |},
          set_vol {| b_r0 := k; b_r1 := b_r1 one; b_g0 := b_g0 one; b_g1 := b_g1 one;
                     b_b0 := b_b0 one; b_b1 := b_b1 one; b_vol := 0 |}) in
  let cut_green :=
    let k := fst mg in
    Some (set_vol {| b_r0 := b_r0 one; b_r1 := b_r1 one; b_g0 := b_g0 one; b_g1 := k;
                     b_b0 := b_b0 one; b_b1 := b_b1 one; b_vol := 0 |},
          set_vol {| b_r0 := b_r0 one; b_r1 := b_r1 one; b_g0 := k; b_g1 := b_g1 one;
                     b_b0 := b_b0 one; b_b1 := b_b1 one; b_vol := 0 |}) in
  let cut_blue :=
    let k := fst mb in
    Some (set_vol {| b_r0 := b_r0 one; b_r1 := b_r1 one; b_g0 := b_g0 one; b_g1 := b_g1 one;
                     b_b0 := b_b0 one; b_b1 := k; b_vol := 0 |},
          set_vol {| b_r0 := b_r0 one; b_r1 := b_r1 one; b_g0 := b_g0 one; b_g1 := b_g1 one;
                     b_b0 := k; b_b1 := b_b1 one; b_vol := 0 |}) in
  if ((max_r >=? max_g) && (max_r >=? max_b))%f then
    if fst mr <? 0 then Ok None else Ok cut_red
  else if ((max_g >=? max_r) && (max_g >=? max_b))%f then Ok cut_green
  else Ok cut_blue.

(** quantizer_wu.rs 171-178: index of the largest variance among 0..=i, and that variance. *)
Fixpoint argmax_loop (vv : list f64) (js : list Z) (next : Z) (temp : f64) : res (Z * f64) :=
  match js with
  | [] => Ok (next, temp)
  | j :: js' =>
      do v <- index vv j;
      if (v >? temp)%f then argmax_loop vv js' j v else argmax_loop vv js' next temp
  end.

Definition box_variance (w : wu) (c : box) : res f64 :=
  if 1 <? b_vol c then variance w c else Ok (dec "0.0").

(** quantizer_wu.rs 152-183: the loop of [create_boxes]; [is] are the remaining loop values (the
    assignment [i -= 1] of line 168 changes a copy, not the loop counter).
    Returns the boxes and [generated_color_count]. *)
Fixpoint boxes_loop (w : wu) (max_color_count : Z) (is : list Z) (cubes : list box) (vv : list f64) (next : Z)
    : res (list box * Z) :=
  match is with
  | [] => Ok (cubes, max_color_count)
  | i0 :: is' =>
      do one <- index cubes next;
      do c <- cut w one;
      do st <-
        match c with
        | Some (one', two') =>
            let cubes := list_set (list_set cubes (Z.to_nat next) one') (Z.to_nat i0) two' in
            do v1 <- box_variance w one';
            do v2 <- box_variance w two';
            Ok (cubes, list_set (list_set vv (Z.to_nat next) v1) (Z.to_nat i0) v2, i0)
        | None => Ok (cubes, list_set vv (Z.to_nat next) (dec "0.0"), i0 - 1)
        end;
      let '(cubes, vv, i) := st in
      do t0 <- index vv 0;
      do nt <- argmax_loop vv (zseq 1 (i + 1)) 0 t0;
      let '(next, temp) := nt in
      if (temp <=? dec "0.0")%f then Ok (cubes, i + 1)
      else boxes_loop w max_color_count is' cubes vv next
  end.

(** quantizer_wu.rs 135-186: [create_boxes]; [Panic] for [cubes[0]] on an empty Vec (line 139). *)
Definition create_boxes (w : wu) (max_color_count : Z) : res (list box * Z) :=
  if max_color_count <=? 0 then Panic else
  let n := Z.to_nat max_color_count in
  let first := {| b_r0 := 0; b_r1 := MAX_INDEX; b_g0 := 0; b_g1 := MAX_INDEX; b_b0 := 0; b_b1 := MAX_INDEX;
                  b_vol := 0 |} in
  boxes_loop w max_color_count (zseq 1 max_color_count) (list_set (repeat empty_box n) 0 first)
    (repeat (dec "0.0") n) 0.

(** quantizer_wu.rs 194-199: [(volume(..) / weight) as f64).round() as i64]. *)
Definition mean_channel (c : box) (m : arr Z) (weight : Z) : res Z :=
  do v <- volume c m; Ok (to_i64 (fround (of_Z (Z.quot v weight)))).

(** quantizer_wu.rs 188-205: [create_result] over the first [color_count] boxes. *)
Fixpoint result_loop (w : wu) (cubes : list box) (is : list Z) : res (list Z) :=
  match is with
  | [] => Ok []
  | i :: is' =>
      do c <- index cubes i;
      do weight <- volume c (w_weights w);
      if 0 <? weight then
        do r <- mean_channel c (w_moments_r w) weight;
        do g <- mean_channel c (w_moments_g w) weight;
        do b <- mean_channel c (w_moments_b w) weight;
        do rest <- result_loop w cubes is';
        Ok (argb_from_rgb r g b :: rest)
      else result_loop w cubes is'
  end.
Definition create_result (w : wu) (cubes : list box) (color_count : Z) : res (list Z) :=
  result_loop w cubes (zseq 0 color_count).

(** quantizer_wu.rs 19-33: [QuantizerWu::quantize]; [order] is the iteration order of the
    intermediate HashMap. *)
Definition wu_quantize (order : list (Z * Z) -> list (Z * Z)) (pixels : list Z) (color_count : Z)
    : res quantizer_result :=
  let result := map_quantize pixels in
  do w <- construct_histogram (order (qr_color_to_count result));
  do w <- compute_moments w;
  do bs <- create_boxes w color_count;
  do results <- create_result w (fst bs) (snd bs);
  Ok {| qr_color_to_count := fold_left (fun m e => ainsert Z.eqb m e 0) results [];
        qr_input_pixel_to_cluster_pixel := [] |}.
