(** * From the luminance before rounding to the tone of the result.  Proof file. *)
From Coq Require Import ZArith Bool Reals Lra Lia Psatz String List.
From Flocq Require Import Core Relative IEEE754.BinarySingleNaN.
From Verif Require Import F64 Spec SpecCam FloatFacts FloatMono MathUtils ColorUtils HctSolver PfMath PfLab PfTones PfNear PfGamma PfRel PfToneReal PfToneCode PfArgb PfLabTrip.
Open Scope string_scope.
Open Scope R_scope.

(** A luminance close to that of a tone has a close tone. *)
Lemma tone_move w x Y v D : 16 / 116 <= w <= 1 -> cubish w Y -> rootish x v -> -0.01 <= v <= 1.1 -> Y / 100 - D <= v <= Y / 100 + D ->
  (w <= 0.2070 -> D <= 0.001) -> (0.2068 <= w -> D <= 0.0258 * (w * w) - 0.00022188 * w) -> w - 0.99999 / 116 <= x <= w + 0.99999 / 116.
Proof.
  intros hw hY hx hv hD D1 D2. set (d := 0.0086). assert (dd : d = 0.0086) by reflexivity. clearbody d.
  assert (UP : (w + d) ^ 3 = w ^ 3 + 0.0258 * (w * w) + 3 * w * (d * d) + d ^ 3) by (rewrite dd; lra).
  assert (DN : (w - d) ^ 3 = w ^ 3 - 0.0258 * (w * w) + 0.00022188 * w - d ^ 3) by (rewrite dd; lra).
  assert (H3 : 0.0000006 <= d ^ 3 <= 0.000001) by (rewrite dd; lra). assert (H2 : 0 <= w * (d * d)) by (apply Rmult_le_pos; [lra|rewrite dd; lra]).
  assert (D3 : w <= 0.2068 \/ 0.2070 <= w \/ 0.2068 <= w <= 0.2070) by lra.
  assert (TG : lin w <= w ^ 3) by (apply tangent; lra).
  assert (KN : w <= 0.2068 -> w ^ 3 <= eR - 1 / 10 ^ 6). { intros h. apply Rle_trans with (0.2068 ^ 3); [apply cube_lt; lra|unfold eR; lra]. }
  assert (KN2 : 0.2070 <= w -> eR + 1 / 10 ^ 6 <= w ^ 3). { intros h. apply Rle_trans with (0.2070 ^ 3); [unfold eR; lra|apply cube_lt; lra]. }
  assert (KN3 : 0.2068 <= w <= 0.2070 -> w ^ 3 <= lin w + 1 / 10 ^ 6).
  { intros h. assert (w ^ 3 - lin w = (w - 6 / 29) * (w - 6 / 29) * (w + 12 / 29)) by (unfold lin; lra). assert ((w - 6 / 29) * (w - 6 / 29) * (w + 12 / 29) <= 0.0002 * 0.0002 * 1); [|lra].
    apply Rmult_le_compat; [apply Rle_0_sqr|lra| |lra]. apply Rabs_le_inv. rewrite Rabs_mult. apply Rmult_le_compat; try apply Rabs_pos; apply Rabs_le; lra. }
  split.
  - destruct (Rle_or_lt (w - 0.99999 / 116) x) as [|g]; [assumption|exfalso]. destruct hx as [(x1 & x2 & x3)|(x1 & x2)].
    + assert (X : 6 / 29 - 0.0001 <= x). { apply (above_knee x 0.0001); [lra|lra|]. unfold eR in *. lra. }
      assert (X3 : x ^ 3 <= (w - d) ^ 3 - 0.000002).
      { apply Rle_trans with ((w - d - 0.00002) ^ 3); [apply cube_lt; lra|]. assert (E : (w - d - 0.00002) ^ 3 = (w - d) ^ 3 - 0.00006 * ((w - d) * (w - d)) + 3 * (w - d) * 0.0000000004 - 0.000000000000008) by lra.
        assert (0.2 * 0.2 <= (w - d) * (w - d)) by (apply Rmult_le_compat; lra). lra. }
      specialize (D2 ltac:(lra)). destruct hY as [(y1 & y2)|(y1 & y2)]; [|exfalso; specialize (KN2 ltac:(lra)); lra].
      assert (v <= 1.2) by lra. assert (X4 : v <= x ^ 3 + 0.00005) by lra.
      assert (X5 : x ^ 3 <= (w - d - 0.00002) ^ 3) by (apply cube_lt; lra).
      assert (E : (w - d - 0.00002) ^ 3 = (w - d) ^ 3 - 0.00006 * ((w - d) * (w - d)) + 3 * (w - d) * 0.0000000004 - 0.000000000000008) by lra.
      assert (VX : v * (1 - 4 / 10 ^ 5) <= (w - d) ^ 3 - 0.00006 * ((w - d) * (w - d)) + 2 / 10 ^ 9) by lra.
      assert (C : (w - d) ^ 3 <= (w - d) * (w - d)). { replace ((w - d) ^ 3) with ((w - d) * (w - d) * (w - d)) by ring. assert (0 <= (w - d) * (w - d)) by (apply Rmult_le_pos; lra). assert ((w - d) * (w - d) * (w - d) <= (w - d) * (w - d) * 1) by (apply Rmult_le_compat_l; lra). lra. }
      assert (0.2 * 0.2 <= (w - d) * (w - d)) by (apply Rmult_le_compat; lra).
      assert (v <= (w - d) ^ 3) by lra. lra.
    + assert (LX : lin x <= lin (w - d)) by (unfold lin; lra). assert (TD : lin (w - d) <= (w - d) ^ 3) by (apply tangent; lra).
      destruct hY as [(y1 & y2)|(y1 & y2)].
      * assert (0.2068 <= w) by (destruct (Rle_dec 0.2068 w); [assumption|specialize (KN ltac:(lra)); lra]). specialize (D2 ltac:(lra)). lra.
      * assert (w <= 0.2070) by (destruct (Rle_dec w 0.2070); [assumption|specialize (KN2 ltac:(lra)); lra]). specialize (D1 ltac:(lra)). unfold lin in *. lra.
  - destruct (Rle_or_lt x (w + 0.99999 / 116)) as [|g]; [assumption|exfalso]. destruct hx as [(x1 & x2 & x3)|(x1 & x2)].
    + assert (X5 : (w + d + 0.00002) ^ 3 <= x ^ 3) by (apply cube_lt; lra).
      assert (E : (w + d + 0.00002) ^ 3 = (w + d) ^ 3 + 0.00006 * ((w + d) * (w + d)) + 3 * (w + d) * 0.0000000004 + 0.000000000000008) by lra.
      assert (C : (w + d) ^ 3 <= 1.01 * ((w + d) * (w + d))). { replace ((w + d) ^ 3) with ((w + d) * (w + d) * (w + d)) by ring. assert (0 <= (w + d) * (w + d)) by (apply Rmult_le_pos; lra). assert ((w + d) * (w + d) * (w + d) <= (w + d) * (w + d) * 1.01) by (apply Rmult_le_compat_l; lra). lra. }
      assert (0.14 * 0.14 <= (w + d) * (w + d)) by (apply Rmult_le_compat; lra).
      assert (VX : (w + d) ^ 3 <= v) by lra. assert (TD : lin (w + d) <= (w + d) ^ 3) by (apply tangent; lra).
      destruct hY as [(y1 & y2)|(y1 & y2)].
      * assert (0.2068 <= w) by (destruct (Rle_dec 0.2068 w); [assumption|specialize (KN ltac:(lra)); lra]). specialize (D2 ltac:(lra)). lra.
      * assert (w <= 0.2070) by (destruct (Rle_dec w 0.2070); [assumption|specialize (KN2 ltac:(lra)); lra]). specialize (D1 ltac:(lra)). unfold lin in *. lra.
    + assert (XK : x <= 0.2070) by (unfold lin, eR in *; lra). specialize (D1 ltac:(lra)).
      destruct hY as [(y1 & y2)|(y1 & y2)]; [specialize (KN ltac:(lra)); lra|]. unfold lin in *. lra.
Qed.

Lemma amgm a s : 0 <= a -> 0 < s -> sqrt a <= (a / s + s) / 2.
Proof.
  intros ha hs. pose proof (sqrt_sqrt a ha) as E. set (r := sqrt a) in *. assert (0 <= (r - s) * (r - s)) by apply Rle_0_sqr.
  apply Rmult_le_reg_r with (2 * s); [lra|]. replace ((a / s + s) / 2 * (2 * s)) with (a + s * s) by (field; lra). lra.
Qed.

Section Acc.
Context {lm : Libm} (PA : pow_accurate (1 / 10 ^ 13) lm).

Lemma chan (x : f64) ex s : fin x -> 0 <= ex <= 0.0005 -> - ex <= B2R x / 100 <= 1 + ex -> 0 < s ->
  let c := delinearized x in (0 <= c <= 255)%Z /\ fin (linearized c) /\ -0.5 <= B2R (linearized c) <= 101 /\
  - (0.002375 * ((B2R x / 100 + ex + 0.00114) / s + s)) - ex - 3 / 10 ^ 10 <= B2R (linearized c) / 100 - B2R x / 100 <= 0.002375 * ((B2R x / 100 + ex + 0.00114) / s + s) + ex + 3 / 10 ^ 10.
Proof using PA.
  intros fx he hx hs. cbv zeta. destruct (code_gap PA x ex fx he hx) as [c1 c2]. set (c := delinearized x) in *. clearbody c.
  destruct (linearized_R (1 / 10 ^ 13) ltac:(lra) PA c c1) as [fl bl]. pose proof (linR_range c c1) as LR. split; [exact c1|]. split; [exact fl|].
  assert (M : Rmax (B2R x / 100) 0 <= B2R x / 100 + ex) by (apply Rmax_lub; lra). pose proof (Rmax_r (B2R x / 100) 0) as M0.
  pose proof (amgm (Rmax (B2R x / 100) 0 + 0.00114) s ltac:(lra) hs) as A.
  assert (B : (Rmax (B2R x / 100) 0 + 0.00114) / s <= (B2R x / 100 + ex + 0.00114) / s) by (unfold Rdiv at 1 3; apply Rmult_le_compat_r; [left; apply Rinv_0_lt_compat; exact hs|lra]).
  set (q := (B2R x / 100 + ex + 0.00114) / s) in *. set (sq := sqrt (Rmax (B2R x / 100) 0 + 0.00114)) in *. clearbody q sq. split; lra.
Qed.

Lemma tone_close (l : vec3) (t : f64) ex dl s : fin (v0 l) -> fin (v1 l) -> fin (v2 l) -> 0 <= ex <= 0.0005 ->
  - ex <= B2R (v0 l) / 100 <= 1 + ex -> - ex <= B2R (v1 l) / 100 <= 1 + ex -> - ex <= B2R (v2 l) / 100 <= 1 + ex ->
  fin t -> 0 <= B2R t <= 100 -> let y := B2R (y_from_lstar t) / 100 in let w := (B2R t + 16) / 116 in
  let Y := (0.2126 * B2R (v0 l) + 0.7152 * B2R (v1 l) + 0.0722 * B2R (v2 l)) / 100 in
  y - dl <= Y <= y + dl -> 0 < s -> 0 <= dl ->
  let D := dl + 0.002375 * ((y + dl + ex + 0.00114) / s + s) + ex + 1 / 10 ^ 8 in
  (w <= 0.2070 -> D <= 0.001) -> (0.2068 <= w -> D <= 0.0258 * (w * w) - 0.00022188 * w) ->
  let r := lstar_from_argb (argb_from_linrgb l) in fin r /\ B2R t - 1 <= B2R r <= B2R t + 1.
Proof using PA.
  intros f0 f1 f2 he h0 h1 h2 ft bt. cbv zeta. set (y := y_from_lstar t) in *. set (w := (B2R t + 16) / 116) in *.
  set (Y := (0.2126 * B2R (v0 l) + 0.7152 * B2R (v1 l) + 0.0722 * B2R (v2 l)) / 100). intros hY hs hdl D1 D2.
  destruct (chan (v0 l) ex s f0 he h0 hs) as (a1 & a2 & a3 & a4). destruct (chan (v1 l) ex s f1 he h1 hs) as (b1 & b2 & b3 & b4). destruct (chan (v2 l) ex s f2 he h2 hs) as (c1 & c2 & c3 & c4).
  rewrite lstar_eq. unfold argb_from_linrgb. cbv zeta. set (r := delinearized (v0 l)) in *. set (g := delinearized (v1 l)) in *. set (b := delinearized (v2 l)) in *.
  destruct (pack_channels r g b) as (_ & P1 & P2 & P3 & _). rewrite Z.mod_small in P1, P2, P3 by lia. unfold xyz_from_argb. cbv zeta. rewrite P1, P2, P3.
  pose proof (xyz_R (linearized r) (linearized g) (linearized b) a2 b2 c2 ltac:(lra) ltac:(lra) ltac:(lra)) as X.
  destruct (matrix_multiply (linearized r, linearized g, linearized b) srgb_to_xyz) as [[mx my] mz]. cbn [v1 v0 v2 fst snd] in *. destruct X as ((_ & fy & _) & _ & X & _).
  set (R := B2R (linearized r)) in *. set (G := B2R (linearized g)) in *. set (B := B2R (linearized b)) in *.
  assert (Q : forall x, (x + ex + 0.00114) / s = x * / s + (ex + 0.00114) * / s) by (intros x; unfold Rdiv at 1; ring). rewrite !Q in a4, b4, c4. rewrite Q in D1, D2.
  assert (IS : 0 < / s) by (apply Rinv_0_lt_compat; exact hs). set (i := / s) in *. clearbody i.
  set (V0 := B2R (v0 l) / 100) in *. set (V1 := B2R (v1 l) / 100) in *. set (V2 := B2R (v2 l) / 100) in *.
  assert (EY : Y = 0.2126 * V0 + 0.7152 * V1 + 0.0722 * V2) by (unfold Y, V0, V1, V2; lra). clearbody Y V0 V1 V2.
  assert (YI : Y * i <= (B2R y / 100 + dl) * i) by (apply Rmult_le_compat_r; lra).
  assert (EI : Y * i = 0.2126 * (V0 * i) + 0.7152 * (V1 * i) + 0.0722 * (V2 * i)) by (rewrite EY; lra).
  set (k := (ex + 0.00114) * i) in *. set (i0 := V0 * i) in *. set (i1 := V1 * i) in *. set (i2 := V2 * i) in *. set (Yi := Y * i) in *. set (yi := (B2R y / 100 + dl) * i) in *. clearbody k i0 i1 i2 Yi yi.
  assert (QQ : Y - (0.002375 * (Yi + k + s) + ex + 1 / 10 ^ 9) <= B2R my / 100 <= Y + (0.002375 * (Yi + k + s) + ex + 1 / 10 ^ 9)) by lra.
  destruct (L_R (1 / 10 ^ 13) ltac:(lra) PA my fy ltac:(lra)) as (fL & x & bL & rt). fold (rootish x (B2R my / 100)) in rt.
  destruct (Y_R t ft ltac:(lra)) as [fyy cu]. fold w y in cu. fold (cubish w (B2R y)) in cu.
  split; [exact fL|]. set (D := dl + 0.002375 * (yi + k + s) + ex + 1 / 10 ^ 8) in *.
  assert (RA : -0.01 <= B2R my / 100 <= 1.1) by lra.
  destruct (tone_move w x (B2R y) (B2R my / 100) D ltac:(unfold w; lra) cu rt RA ltac:(unfold D; lra) D1 D2) as [m1 m2]. unfold w in *. lra.
Qed.
End Acc.
