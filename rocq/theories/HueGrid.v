(** * Integer enclosures of the compressed responses of all colours.
    Not a model of the code: the computation behind the proof that no colour has hue 0 (PfHueCheck.v). *)
From Coq Require Import ZArith List Bool.
Import ListNotations.
Open Scope Z_scope.

(** Products of numbers scaled by 2^64, rounded down and up. *)
Definition mlo (a b : Z) : Z := Z.shiftr (a * b) 64.
Definition mhi (a b : Z) : Z := Z.shiftr (a * b) 64 + 1.

(** t^21 and t^50. *)
Definition powers (mul : Z -> Z -> Z) (t : Z) : Z * Z :=
  let t2 := mul t t in
  let t4 := mul t2 t2 in
  let t5 := mul t4 t in
  let t10 := mul t5 t5 in
  let t20 := mul t10 t10 in
  let t21 := mul t20 t in
  let t25 := mul t20 t5 in
  (t21, mul t25 t25).

(** At t = n / 2^e: t^50 scaled by 2^50 rounded up ([gx]) and down ([gf]), the response 400 t^21 / (t^21 + 27.13) scaled by 2^40
    rounded down ([gv]) and up ([gu]), and its slope scaled by 2^24 rounded up ([gs]). *)
Record grid := { gx : Z; gf : Z; gv : Z; gu : Z; gs : Z }.
Definition grid_at (e n : Z) : grid :=
  let t := Z.shiftl n (64 - e) in
  let (al, xl) := powers mlo t in
  let (ah, xh) := powers mhi t in
  {| gx := Z.shiftr xh 14 + 1;
     gf := Z.shiftr xl 14;
     gv := Z.shiftl (40000 * al) 40 / (100 * al + Z.shiftl 2713 64);
     gu := Z.shiftl (40000 * ah) 40 / (100 * ah + Z.shiftl 2713 64) + 1;
     gs := Z.shiftl (45578400 * ah) 152 / (xl * ((100 * al + Z.shiftl 2713 64) * (100 * al + Z.shiftl 2713 64))) + 1 |}.

(** A chord below the response between two grid points, and a tangent above it. *)
Record leaf := { ln : Z; lx : Z; lx2 : Z; lv : Z; ls : Z; lf : Z; lu : Z; lt : Z }.
Definition no_leaf : leaf := {| ln := 0; lx := 1; lx2 := 0; lv := 0; ls := 0; lf := 0; lu := Z.shiftl 400 40; lt := 0 |}.
Definition leaf_of (n : Z) (a b c : grid) : leaf :=
  if 0 <? gf c then
    {| ln := n; lx := gx a; lx2 := gx b; lv := gv a; ls := Z.shiftl (gv b - gv a) 34 / (gx b - gx a);
       lf := gf c; lu := gu c; lt := gs c |}
  else no_leaf.
Definition leaf_lo (l : leaf) (x : Z) : Z :=
  if (lx l <=? x) && (x <=? lx2 l) then lv l + Z.shiftr (ls l * (x - lx l)) 34 else 0.
Definition leaf_hi (l : leaf) (x : Z) : Z := lu l + Z.shiftr (lt l * Z.max 0 (x - lf l)) 34 + 1.

(** Search tree over the coarse grid. *)
Inductive tree := Lf (l : leaf) | Nd (k : Z) (a b : tree).
Fixpoint chain (prev : grid) (n : Z) (k : nat) : list leaf :=
  match k with
  | O => []
  | S k' => let g := grid_at 13 (n + 1) in leaf_of n prev g prev :: chain g (n + 1) k'
  end.
Fixpoint build (d : nat) (ls : list leaf) : Z * tree * list leaf :=
  match d with
  | O => match ls with [] => (0, Lf no_leaf, []) | l :: rest => (lx l, Lf l, rest) end
  | S d' => let '(k1, a, ls1) := build d' ls in
            let '(k2, b, ls2) := build d' ls1 in (k1, Nd k2 a b, ls2)
  end.
Definition the_tree : tree := snd (fst (build 11 (chain (grid_at 13 6140) 6140 (Z.to_nat 2048)))).
Fixpoint find (t : tree) (x : Z) : leaf :=
  match t with
  | Lf l => l
  | Nd k a b => if x <? k then find a x else find b x
  end.

(** The fine grid around [x]. *)
Definition fine (l : leaf) (x : Z) : leaf :=
  let n := 128 * ln l + 128 * (x - lx l) / (lx2 l - lx l) in
  if 1 <? n then leaf_of n (grid_at 20 (n - 1)) (grid_at 20 (n + 2)) (grid_at 20 n) else no_leaf.

(** Excitations of a colour, scaled by 2^50, from below; [up] bounds them from above. *)
Definition tri := (Z * Z * Z)%type.
Definition up (x : Z) : Z := x + Z.shiftr x 28 + 11.
Definition add3 (a b c : tri) : tri :=
  let '(a1, a2, a3) := a in let '(b1, b2, b3) := b in let '(c1, c2, c3) := c in (a1 + b1 + c1, a2 + b2 + c2, a3 + b3 + c3).

(** Is the response at x1 plus that at x2 surely larger than twice the response at x3? *)
Definition margin : Z := 300000.
Definition larger (t : tree) (x1 x2 x3 : Z) : bool :=
  let x3 := up x3 in
  let l1 := find t x1 in let l2 := find t x2 in let l3 := find t x3 in
  if (2 * leaf_hi l3 x3 + margin <=? leaf_lo l1 x1 + leaf_lo l2 x2) then true
  else 2 * leaf_hi (fine l3 x3) x3 + margin <=? leaf_lo (fine l1 x1) x1 + leaf_lo (fine l2 x2) x2.
Definition smaller (t : tree) (x1 x2 x3 : Z) : bool :=
  let x1 := up x1 in let x2 := up x2 in
  let l1 := find t x1 in let l2 := find t x2 in let l3 := find t x3 in
  if (leaf_hi l1 x1 + leaf_hi l2 x2 + margin <=? 2 * leaf_lo l3 x3) then true
  else leaf_hi (fine l1 x1) x1 + leaf_hi (fine l2 x2) x2 + margin <=? 2 * leaf_lo (fine l3 x3) x3.
Definition pos (t : tree) (c : tri) : bool := let '(a, b, c) := c in larger t a b c.
Definition neg (t : tree) (c : tri) : bool := let '(a, b, c) := c in smaller t a b c.

(** Products q K scaled by 2^50, with q scaled by 10^10 and K by 10^14. *)
Definition coef (q k : Z) : Z := Z.shiftl (q * k) 50 / 10 ^ 24.
Definition q1 := 3967085983.
Definition q2 := 3831622604.
Definition q3 := 3628263358.
Definition times (k l : Z) : Z := Z.shiftr (k * l) 52.
Definition red_tri (l : Z) : tri := (times (coef q1 30269915328759) l, times (coef q2 15374913599554) l, times (coef q3 2796570007202) l).
Definition green_tri (l : Z) : tri := (times (coef q1 60238031164330) l, times (coef q2 77736002827076) l, times (coef q3 14784523135458) l).
Definition blue_tri (l : Z) : tri := (times (coef q1 7047346329738) l, times (coef q2 8535981854956) l, times (coef q3 90895832236388) l).

Definition zero3 : tri := (0, 0, 0).
Definition at3 (l : list tri) (i : Z) : tri := nth (Z.to_nat i) l zero3.

(** One value of green.  From blue [b] on, [rs] lists for each blue the first red [r] that is positive, red [r] - 1 being negative;
    the list ends after blue 255 or where even red 255 is negative. *)
Fixpoint columns (t : tree) (reds blues : list tri) (g : tri) (b : Z) (rs : list Z) : bool :=
  match rs with
  | [] => if 255 <? b then true else neg t (add3 (at3 reds 255) g (at3 blues b))
  | r :: rest =>
      if (1 <=? r) && (r <=? 255) && (b <=? 255) then
        if pos t (add3 (at3 reds r) g (at3 blues b)) then
          if neg t (add3 (at3 reds (r - 1)) g (at3 blues b)) then columns t reds blues g (b + 1) rest
          else false
        else false
      else false
  end.
(** For blue below [fst h] even red 0 is positive. *)
Definition row (t : tree) (reds blues : list tri) (g : tri) (h : Z * list Z) : bool :=
  let (b, rs) := h in
  if (1 <=? b) && (b <=? 256) then
    if pos t (add3 (at3 reds 0) g (at3 blues (b - 1))) then columns t reds blues g b rs else false
  else false.
(** Green 0: red 1 without blue is positive, and blue 1 starts the columns. *)
Definition row0 (t : tree) (reds blues : list tri) (g : tri) (rs : list Z) : bool :=
  pos t (add3 (at3 reds 1) g (at3 blues 0)) && columns t reds blues g 1 rs.
Fixpoint rows (t : tree) (reds blues greens : list tri) (hs : list (Z * list Z)) : bool :=
  match greens, hs with
  | [], [] => true
  | g :: gs, h :: hs => if row t reds blues g h then rows t reds blues gs hs else false
  | _, _ => false
  end.
Definition whole (t : tree) (lin : list Z) (rs0 : list Z) (hs : list (Z * list Z)) : bool :=
  let reds := map red_tri lin in
  let blues := map blue_tri lin in
  match map green_tri lin with
  | g :: greens => row0 t reds blues g rs0 && rows t reds blues greens hs
  | [] => false
  end.

(** The linear values scaled by 2^52, from below: [l] for the channel value [c] and the next value [l'] at most twice as large. *)
Definition lin_ok (c l : Z) : bool :=
  if c <=? 10 then l =? Z.shiftl (10 * c) 52 / 32946
  else (0 <? l) && (l ^ 5 * 269025 ^ 12 <=? Z.shiftl ((1000 * c + 14025) ^ 12) 260)
       && (Z.shiftl ((1000 * c + 14025) ^ 12) 260 <=? (l + 1) ^ 5 * 269025 ^ 12).
Fixpoint lins_ok (c : Z) (ls : list Z) : bool :=
  match ls with
  | [] => c =? 256
  | l :: rest => lin_ok c l && match rest with [] => true | l' :: _ => (c <=? 9) || (l' + 1 <=? 2 * l) end && lins_ok (c + 1) rest
  end.
