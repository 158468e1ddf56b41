(** * Viewing conditions against the published formulas: the pieces.  Proof file. *)
From Coq Require Import ZArith Bool Reals Lra Lia Psatz String List.
From Flocq Require Import Core Relative IEEE754.BinarySingleNaN.
From Verif Require Import F64 MathUtils ColorUtils ViewingConditions Spec SpecCam SpecViewing FloatFacts FloatMono PfArgb PfMath PfTones PfLab PfGamma PfNear PfRel.
Open Scope string_scope.
Open Scope R_scope.

Lemma ln_20 r : 1 / 10 ^ 6 <= r <= 10 ^ 6 -> -20 <= ln r <= 20.
Proof.
  intros h. assert (L2 : ln (2 ^ 20) = 20 * ln 2) by (rewrite ln_pow by lra; simpl INR; lra). pose proof (ln_le_sub 2 ltac:(lra)) as B.
  assert (U : forall x, 0 < x <= 10 ^ 6 -> ln x <= 20).
  { intros x hx. apply Rle_trans with (ln (2 ^ 20)); [|lra]. destruct (Req_dec x (2 ^ 20)) as [->|]; [lra|]. left. apply ln_increasing; lra. }
  split; [|apply U; lra]. assert (I : ln (/ r) = - ln r) by (apply ln_Rinv; lra).
  assert (0 < / r <= 10 ^ 6). { split; [apply Rinv_0_lt_compat; lra|]. apply Rmult_le_reg_r with r; [lra|]. rewrite Rinv_l by lra. lra. }
  pose proof (U (/ r) H). lra.
Qed.

Lemma rel_trans x r t a b : rel x r a -> rel r t b -> 0 <= a <= 1 / 2 -> 0 <= b <= 1 / 10 -> rel x t (1.1 * a + b).
Proof.
  intros [h1 b1] [h2 b2] ha hb. split; [exact h2|]. assert (t * b <= t * (1 / 10)) by (apply Rmult_le_compat_l; lra).
  assert (E1 : r * a <= 1.1 * t * a) by (apply Rmult_le_compat_r; lra). lra.
Qed.

(** Products with a small result. *)
Lemma frel_mul' x y r s a b : frel x r a -> frel y s b -> 0 <= a <= 1 / 10 -> 0 <= b <= 1 / 10 -> 2 / 10 ^ 30 <= r * s <= 10 ^ 20 ->
  frel (fmul x y) (r * s) (1.1 * (a + b) + 3 / 10 ^ 16).
Proof.
  intros [fx hx] [fy hy] ha hb h. pose proof (rel_mul _ _ _ _ _ _ hx hy ha hb) as P.
  pose proof (rel_big _ _ _ P ltac:(lra) ltac:(lra)) as B. destruct (fmul_S x y fx fy ltac:(unfold HUGE; lra)) as [E F].
  split; [exact F|]. rewrite E. apply rel_rnd; [exact P|lra|lra].
Qed.

Lemma close_frel x r e : frel x r e -> e <= 1 / 10 ^ 9 -> close x r.
Proof.
  intros [f [h b]] he. split; [exact f|]. rewrite (Rabs_pos_eq r) by lra. assert (r * e <= r * (1 / 10 ^ 9)) by (apply Rmult_le_compat_l; lra). apply Rabs_le. lra.
Qed.

Lemma near_c (c : f64) k r e : fin c -> B2R c = k -> - e <= k - r <= e -> near c r e.
Proof. intros f <- h. split; [exact f|lra]. Qed.
Lemma near_rel x r e m e' : near x r e -> 0 < m <= r -> 0 <= e -> e <= m * e' -> frel x r e'.
Proof.
  intros h hm he q. apply frel_w with (e / m); [now apply near_frel|]. apply div_le; lra.
Qed.

(** ** The luminance of the background *)
Definition eF' : f64 := fdiv (dec "216.0") (dec "24389.0").
Definition kF' : f64 := fdiv (dec "24389.0") (dec "27.0").
Lemma luminance_near (t : f64) : fin t -> 0.099 <= B2R t <= 100 -> frel (y_from_lstar t) (luminance (B2R t)) (5 / 10 ^ 12) /\ 0.01 <= luminance (B2R t) <= 100.
Proof.
  intros ft bt.
  assert (RNG : 0.01 <= luminance (B2R t) <= 100).
  { unfold luminance. destruct (Rlt_dec 8 (B2R t)).
    - assert (W : 24 / 116 <= (B2R t + 16) / 116 <= 1) by lra. set (w := (B2R t + 16) / 116) in *. clearbody w.
      pose proof (pow_incr (24 / 116) w 3 ltac:(lra)) as L. pose proof (pow_incr w 1 3 ltac:(lra)) as U. lra.
    - lra. }
  split; [|exact RNG].
  unfold y_from_lstar, lab_invf. cbv zeta. fold eF'. fold kF'.
  fconst (dec "16.0"). fconst (dec "116.0"). fconst (dec "100.0"). fconst eF'. fconst kF'.
  pose proof (near_add t (dec "16.0") (B2R t) 16 0 0 120 (near_self t ft) (near_c _ _ 16 0 F V ltac:(lra)) ltac:(lra) ltac:(lra) ltac:(lra) ltac:(lra) ltac:(lra)) as N1.
  pose proof (near_div _ (dec "116.0") _ 116 _ 0 1.1 116 N1 (near_c _ _ 116 0 F0 V0 ltac:(lra)) ltac:(lra) ltac:(lra) ltac:(lra) ltac:(lra) ltac:(unfold uu; lra) ltac:(lra) ltac:(unfold uu; lra) ltac:(lra)) as N2.
  set (w := (B2R t + 16) / 116) in *. assert (BW : 0.137 <= w <= 1) by (unfold w; lra). assert (ET : B2R t = 116 * w - 16) by (unfold w; field).
  set (ff := fdiv (fadd t (dec "16.0")) (dec "116.0")) in *. clearbody ff. apply near_weak with (e' := 1 / 10 ^ 15) in N2; [|unfold uu; lra].
  assert (BF : -1.01 <= B2R ff <= 1.01) by (destruct N2 as [_ b]; lra).
  pose proof (near_mul ff ff w w _ _ 1.01 1.01 N2 N2 ltac:(lra) ltac:(lra) ltac:(lra) ltac:(lra) ltac:(lra) ltac:(lra) ltac:(lra)) as N3. apply near_weak with (e' := 3 / 10 ^ 15) in N3; [|unfold uu; lra].
  assert (W2 : 0 <= w * w <= 1) by nra.
  pose proof (near_mul _ ff (w * w) w _ _ 1.01 1.01 N3 N2 ltac:(lra) ltac:(lra) ltac:(lra) ltac:(lra) ltac:(lra) ltac:(lra) ltac:(lra)) as N4. apply near_weak with (e' := 5 / 10 ^ 15) in N4; [|unfold uu; lra].
  assert (E3 : w * w * w = w ^ 3) by ring. rewrite E3 in N4. clear N3 W2 N1.
  set (f3 := fmul (fmul ff ff) ff) in *. clearbody f3. destruct N4 as [Ff3 B3]. unfold fgt. change Bltb with flt.
  assert (KN : w ^ 3 - lin w = (w - 6 / 29) * (w - 6 / 29) * (w + 12 / 29)) by (unfold lin; field).
  assert (SQ : forall d, - (1 / 10 ^ 12) <= d <= 1 / 10 ^ 12 -> 0 <= d * d <= 1 / 10 ^ 24) by (intros d hd; split; [nra|]; apply Rle_trans with ((1 / 10 ^ 12) * (1 / 10 ^ 12)); [nra|lra]).
  assert (W3 : 0 <= w ^ 3 <= 1) by (split; [apply pow_le; lra|pose proof (pow_incr w 1 3 ltac:(lra)); lra]).
  destruct (flt eF' f3) eqn:C.
  - apply (proj1 (flt_fin _ _ F2 Ff3)) in C. rewrite V2 in C.
    assert (K := above_knee w (1 / 10 ^ 12) ltac:(lra) ltac:(lra) ltac:(unfold eR; lra)).
    assert (W3' : 0.0088 <= w ^ 3) by (pose proof (pow_incr 0.2068 w 3 ltac:(lra)); lra).
    pose proof (near_mul (dec "100.0") f3 100 (w ^ 3) 0 _ 100 1.01 (near_c _ _ 100 0 F1 V1 ltac:(lra)) (conj Ff3 B3) ltac:(lra) ltac:(lra) ltac:(lra) ltac:(lra) ltac:(lra) ltac:(lra) ltac:(lra)) as N5.
    apply near_weak with (e' := 7 / 10 ^ 13) in N5; [|unfold uu; lra].
    apply near_rel with (7.1 / 10 ^ 13) 0.88; [|unfold luminance; destruct (Rlt_dec 8 (B2R t))|lra|lra].
    + apply near_move with (1 := N5). unfold luminance. destruct (Rlt_dec 8 (B2R t)) as [g|g]; [fold w; lra|].
      replace (100 * B2R t * (27 / 24389)) with (100 * lin w) by (rewrite ET; unfold lin; field).
      assert (Q := SQ (w - 6 / 29) ltac:(lra)). set (q := (w - 6 / 29) * (w - 6 / 29)) in *. clearbody q.
      assert (0 <= q * (w + 12 / 29) <= q * 2) by (split; [apply Rmult_le_pos; lra|apply Rmult_le_compat_l; lra]). lra.
    + fold w. lra.
    + rewrite ET. lra.
  - apply (proj1 (flt_fin_f _ _ F2 Ff3)) in C. rewrite V2 in C.
    assert (K := below_knee w (1 / 10 ^ 12) ltac:(lra) ltac:(unfold eR; lra)).
    pose proof (near_mul (dec "116.0") ff 116 w 0 _ 116 1.01 (near_c _ _ 116 0 F0 V0 ltac:(lra)) N2 ltac:(lra) ltac:(lra) ltac:(lra) ltac:(lra) ltac:(lra) ltac:(lra) ltac:(lra)) as N5.
    apply near_weak with (e' := 2 / 10 ^ 13) in N5; [|unfold uu; lra].
    pose proof (near_sub _ (dec "16.0") _ 16 _ 0 10 N5 (near_c _ _ 16 0 F V ltac:(lra)) ltac:(lra) ltac:(lra) ltac:(lra) ltac:(lra) ltac:(lra)) as N6.
    apply near_weak with (e' := 2.1 / 10 ^ 13) in N6; [|unfold uu; lra]. rewrite <- ET in N6.
    pose proof (near_div _ kF' _ (24389 / 27) _ (2 / 10 ^ 13) 0.01 903 N6 (near_c _ _ (24389 / 27) (2 / 10 ^ 13) F3 V3 ltac:(lra)) ltac:(lra) ltac:(lra) ltac:(lra) ltac:(lra) ltac:(lra) ltac:(lra) ltac:(lra) ltac:(lra)) as N7.
    apply near_weak with (e' := 3 / 10 ^ 16) in N7; [|unfold uu; lra]. destruct N7 as [F7 B7].
    pose proof (near_mul (dec "100.0") _ 100 (B2R t / (24389 / 27)) 0 (3 / 10 ^ 16) 100 0.01 (near_c _ _ 100 0 F1 V1 ltac:(lra)) (conj F7 B7) ltac:(lra) ltac:(lra) ltac:(lra) ltac:(lra) ltac:(lra) ltac:(lra) ltac:(lra)) as N8.
    apply near_weak with (e' := 4 / 10 ^ 14) in N8; [|unfold uu; lra].
    apply near_rel with (4.1 / 10 ^ 14) 0.01; [|lra|lra|lra].
    apply near_move with (1 := N8). unfold luminance. destruct (Rlt_dec 8 (B2R t)) as [g|g]; [|lra]. fold w.
    replace (100 * (B2R t / (24389 / 27))) with (100 * lin w) by (rewrite ET; unfold lin; field).
    assert (Q := SQ (w - 6 / 29) ltac:(lra)). set (q := (w - 6 / 29) * (w - 6 / 29)) in *. clearbody q.
    assert (0 <= q * (w + 12 / 29) <= q * 2) by (split; [apply Rmult_le_pos; lra|apply Rmult_le_compat_l; lra]). lra.
Qed.

(** ** The surround *)
Definition fF (s : f64) : f64 := fadd (dec "0.8") (fdiv s (dec "10.0")).
Definition fC (s : f64) : f64 :=
  if fge (fF s) (dec "0.9") then lerp (dec "0.59") (dec "0.69") (fmul (fsub (fF s) (dec "0.9")) (dec "10.0"))
  else lerp (dec "0.525") (dec "0.59") (fmul (fsub (fF s) (dec "0.8")) (dec "10.0")).

Lemma fF_near (s : f64) : fin s -> 0 <= B2R s <= 2 -> near (fF s) (surround_F (B2R s)) (1 / 10 ^ 15) /\ 0.8 <= surround_F (B2R s) <= 1.
Proof.
  intros fs bs. unfold fF, surround_F. fconst (dec "0.8"). fconst (dec "10.0"). split; [|lra].
  pose proof (near_div s (dec "10.0") (B2R s) 10 0 0 0.2 10 (near_self s fs) (near_c _ _ 10 0 F0 V0 ltac:(lra)) ltac:(lra) ltac:(lra) ltac:(lra) ltac:(lra) ltac:(lra) ltac:(lra) ltac:(lra) ltac:(lra)) as N1.
  pose proof (near_add (dec "0.8") _ 0.8 _ (1 / 10 ^ 16) _ 1 (near_c _ _ 0.8 (1 / 10 ^ 16) F V ltac:(lra)) N1 ltac:(lra) ltac:(lra) ltac:(unfold uu; lra) ltac:(unfold uu; lra) ltac:(lra)) as N2.
  apply near_weak with (1 := N2). unfold uu. lra.
Qed.

Lemma lerp_near (p q a : f64) P Q A : near p P (1 / 10 ^ 16) -> near q Q (1 / 10 ^ 16) -> 0.5 <= P <= 0.7 -> 0.5 <= Q <= 0.7 -> near a A (2 / 10 ^ 14) -> -0.01 <= A <= 1.01 ->
  near (lerp p q a) (P + (Q - P) * A) (1 / 10 ^ 13).
Proof.
  intros np nq bP bQ na bA. unfold lerp. fconst (dec "1.0").
  assert (Bp : -1 <= B2R p <= 1) by (destruct np; lra). assert (Bq : -1 <= B2R q <= 1) by (destruct nq; lra).
  pose proof (near_sub (dec "1.0") a 1 A 0 _ 1.1 (near_c _ _ 1 0 F V ltac:(lra)) na ltac:(lra) ltac:(lra) ltac:(lra) ltac:(lra) ltac:(lra)) as N1.
  pose proof (near_mul _ p _ P _ _ 1.1 1 N1 np ltac:(lra) ltac:(lra) ltac:(unfold uu; lra) ltac:(lra) ltac:(unfold uu; lra) ltac:(lra) ltac:(lra)) as N2.
  pose proof (near_mul a q _ Q _ _ 1.1 1 na nq ltac:(lra) ltac:(lra) ltac:(unfold uu; lra) ltac:(lra) ltac:(unfold uu; lra) ltac:(lra) ltac:(lra)) as N3.
  assert (M1 : 0 <= (A + 0.01) * P <= 1.02 * P /\ 0 <= (A + 0.01) * Q <= 1.02 * Q) by (repeat split; try (apply Rmult_le_pos; lra); apply Rmult_le_compat_r; lra).
  pose proof (near_add _ _ _ _ _ _ 2 N2 N3 ltac:(lra) ltac:(unfold uu; lra) ltac:(unfold uu; lra) ltac:(unfold uu; lra) ltac:(lra)) as N4.
  apply near_move with (1 := N4). unfold uu. lra.
Qed.

Lemma fC_near (s : f64) : fin s -> 0 <= B2R s <= 2 -> near (fC s) (surround_c (B2R s)) (2 / 10 ^ 13) /\ 0.5 <= surround_c (B2R s) <= 1.
Proof.
  intros fs bs. destruct (fF_near s fs bs) as [N B]. unfold fC. set (f := fF s) in *. clearbody f. unfold surround_F in *.
  fconst (dec "0.9"). fconst (dec "0.8"). fconst (dec "10.0"). fconst (dec "0.59"). fconst (dec "0.69"). fconst (dec "0.525").
  assert (RG : 0.5 <= surround_c (B2R s) <= 1) by (unfold surround_c; destruct (Rle_dec 1 (B2R s)); lra). split; [|exact RG].
  unfold fge. change Bleb with fle. destruct (fle (dec "0.9") f) eqn:C.
  - apply (proj1 (fle_fin _ _ F (proj1 N))) in C. rewrite V in C. assert (1 - 2 / 10 ^ 14 <= B2R s) by (destruct N; lra).
    pose proof (near_sub f (dec "0.9") _ 0.9 _ (1 / 10 ^ 16) 0.11 N (near_c _ _ 0.9 (1 / 10 ^ 16) F V ltac:(lra)) ltac:(lra) ltac:(lra) ltac:(lra) ltac:(lra) ltac:(lra)) as N1. apply near_weak with (e' := 1.2 / 10 ^ 15) in N1; [|unfold uu; lra].
    pose proof (near_mul _ (dec "10.0") _ 10 _ 0 0.11 10 N1 (near_c _ _ 10 0 F1 V1 ltac:(lra)) ltac:(lra) ltac:(lra) ltac:(lra) ltac:(lra) ltac:(lra) ltac:(lra) ltac:(lra)) as N2. apply near_weak with (e' := 2 / 10 ^ 14) in N2; [|unfold uu; lra].
    pose proof (lerp_near (dec "0.59") (dec "0.69") _ 0.59 0.69 _ (near_c _ _ 0.59 (1 / 10 ^ 16) F2 V2 ltac:(lra)) (near_c _ _ 0.69 (1 / 10 ^ 16) F3 V3 ltac:(lra)) ltac:(lra) ltac:(lra) N2 ltac:(lra)) as N3.
    apply near_move with (1 := N3). unfold surround_c. destruct (Rle_dec 1 (B2R s)); lra.
  - apply (proj1 (fle_fin_f _ _ F (proj1 N))) in C. rewrite V in C. assert (B2R s <= 1 + 2 / 10 ^ 14) by (destruct N; lra).
    pose proof (near_sub f (dec "0.8") _ 0.8 _ (1 / 10 ^ 16) 0.11 N (near_c _ _ 0.8 (1 / 10 ^ 16) F0 V0 ltac:(lra)) ltac:(lra) ltac:(lra) ltac:(lra) ltac:(lra) ltac:(lra)) as N1. apply near_weak with (e' := 1.2 / 10 ^ 15) in N1; [|unfold uu; lra].
    pose proof (near_mul _ (dec "10.0") _ 10 _ 0 0.11 10 N1 (near_c _ _ 10 0 F1 V1 ltac:(lra)) ltac:(lra) ltac:(lra) ltac:(lra) ltac:(lra) ltac:(lra) ltac:(lra) ltac:(lra)) as N2. apply near_weak with (e' := 2 / 10 ^ 14) in N2; [|unfold uu; lra].
    pose proof (lerp_near (dec "0.525") (dec "0.59") _ 0.525 0.59 _ (near_c _ _ 0.525 (1 / 10 ^ 16) F4 V4 ltac:(lra)) (near_c _ _ 0.59 (1 / 10 ^ 16) F2 V2 ltac:(lra)) ltac:(lra) ltac:(lra) N2 ltac:(lra)) as N3.
    apply near_move with (1 := N3). unfold surround_c. destruct (Rle_dec 1 (B2R s)); lra.
Qed.

(** ** Cones and gains *)
Lemma cone_any (x y z p q r : f64) X Y Z P Q S : near x X 0 -> near y Y 0 -> near z Z 0 -> near p P (2 / 10 ^ 16) -> near q Q (2 / 10 ^ 16) -> near r S (2 / 10 ^ 16) ->
  0 <= X <= 200 -> 0 <= Y <= 200 -> 0 <= Z <= 200 -> -1.3 <= P <= 1.3 -> -1.3 <= Q <= 1.3 -> -1.3 <= S <= 1.3 ->
  near (fadd (fadd (fmul x p) (fmul y q)) (fmul z r)) (X * P + Y * Q + Z * S) (2 / 10 ^ 12).
Proof.
  intros nx ny nz np nq nr bX bY bZ bP bQ bS.
  assert (Bp : -2 <= B2R p <= 2) by (destruct np; lra). assert (Bq : -2 <= B2R q <= 2) by (destruct nq; lra). assert (Br : -2 <= B2R r <= 2) by (destruct nr; lra).
  pose proof (near_mul x p X P _ _ 200 2 nx np ltac:(lra) ltac:(lra) ltac:(lra) ltac:(lra) ltac:(lra) ltac:(lra) ltac:(lra)) as N1. apply near_weak with (e' := 3 / 10 ^ 13) in N1; [|unfold uu; lra].
  pose proof (near_mul y q Y Q _ _ 200 2 ny nq ltac:(lra) ltac:(lra) ltac:(lra) ltac:(lra) ltac:(lra) ltac:(lra) ltac:(lra)) as N2. apply near_weak with (e' := 3 / 10 ^ 13) in N2; [|unfold uu; lra].
  pose proof (near_mul z r Z S _ _ 200 2 nz nr ltac:(lra) ltac:(lra) ltac:(lra) ltac:(lra) ltac:(lra) ltac:(lra) ltac:(lra)) as N3. apply near_weak with (e' := 3 / 10 ^ 13) in N3; [|unfold uu; lra].
  assert (K : forall a b, 0 <= a <= 200 -> -1.3 <= b <= 1.3 -> -260 <= a * b <= 260) by (intros a b ha hb; nra).
  pose proof (K X P bX bP). pose proof (K Y Q bY bQ). pose proof (K Z S bZ bS).
  pose proof (near_add _ _ _ _ _ _ 600 N1 N2 ltac:(lra) ltac:(lra) ltac:(lra) ltac:(lra) ltac:(lra)) as N4. apply near_weak with (e' := 9 / 10 ^ 13) in N4; [|unfold uu; lra].
  pose proof (near_add _ _ _ _ _ _ 800 N4 N3 ltac:(lra) ltac:(lra) ltac:(lra) ltac:(lra) ltac:(lra)) as N5. apply near_weak with (1 := N5). unfold uu. lra.
Qed.

Definition gainF (d w : f64) : f64 := fsub (fadd (fmul d (fdiv (dec "100.0") w)) (dec "1.0")) d.
Lemma gain_near (d w : f64) D W : near d D (2 / 10 ^ 13) -> 0 <= D <= 1 -> near w W (2 / 10 ^ 12) -> 20 <= W <= 200 ->
  frel (gainF d w) (gain D W) (1 / 10 ^ 11) /\ 0.5 <= gain D W <= 5 /\ 20 <= gain D W * W <= 200.
Proof.
  intros nd bD nw bW. unfold gainF, gain. fconst (dec "100.0"). fconst (dec "1.0").
  assert (BQ : 0.5 <= 100 / W <= 5) by (split; [apply le_div|apply div_le]; lra).
  assert (P : 0 <= D * (100 / W) <= 5) by (split; [apply Rmult_le_pos; lra|]; apply Rle_trans with (1 * (100 / W)); [apply Rmult_le_compat_r; lra|lra]).
  assert (EW : (D * (100 / W) + 1 - D) * W = D * 100 + (1 - D) * W) by (field; lra).
  assert (P2 : 0 <= (1 - D) * (W - 20) <= (1 - D) * 180) by (split; [apply Rmult_le_pos; lra|apply Rmult_le_compat_l; lra]).
  assert (P3 : 0 <= D * (100 / W - 0.5) <= D * 4.5) by (split; [apply Rmult_le_pos; lra|apply Rmult_le_compat_l; lra]).
  split; [|split; [|rewrite EW]]; [|lra|lra].
  pose proof (near_div (dec "100.0") w 100 W 0 _ 5 19.9 (near_c _ _ 100 0 F V ltac:(lra)) nw ltac:(lra) ltac:(destruct nw; lra) ltac:(lra) ltac:(lra) ltac:(lra) ltac:(lra) ltac:(lra) ltac:(lra)) as N1. apply near_weak with (e' := 6 / 10 ^ 13) in N1; [|unfold uu; lra].
  pose proof (near_mul d _ D _ _ _ 1 5.1 nd N1 ltac:(lra) ltac:(destruct N1; lra) ltac:(lra) ltac:(lra) ltac:(lra) ltac:(lra) ltac:(lra)) as N2. apply near_weak with (e' := 2 / 10 ^ 12) in N2; [|unfold uu; lra].
  pose proof (near_add _ (dec "1.0") _ 1 _ 0 6 N2 (near_c _ _ 1 0 F0 V0 ltac:(lra)) ltac:(lra) ltac:(lra) ltac:(lra) ltac:(lra) ltac:(lra)) as N3.
  pose proof (near_sub _ d _ D _ _ 6 N3 nd ltac:(lra) ltac:(unfold uu; lra) ltac:(lra) ltac:(unfold uu; lra) ltac:(lra)) as N4.
  apply near_rel with (1 := N4) (m := 0.5); unfold uu; lra.
Qed.

Section Accurate.
Context {lm : Libm}.
Hypothesis LA : libm_accurate (1 / 10 ^ 13) lm.

(** ** The degree of adaptation *)
Definition fD (disc : bool) (s la : f64) : f64 :=
  let d := if disc then dec "1.0"
    else fmul (fF s) (fsub (dec "1.0") (fmul (fdiv (dec "1.0") (dec "3.6")) (expf (fdiv (fsub (fneg la) (dec "42.0")) (dec "92.0"))))) in
  if fgt d (dec "1.0") then dec "1.0" else if flt d (dec "0.0") then dec "0.0" else d.

Lemma fD_near disc (s la : f64) : fin s -> 0 <= B2R s <= 2 -> fin la -> 1 / 100 <= B2R la <= 10000 ->
  near (fD disc s la) (adaptation disc (B2R s) (B2R la)) (2 / 10 ^ 13) /\ 0 <= adaptation disc (B2R s) (B2R la) <= 1.
Proof using LA.
  intros fs bs fl bl. unfold fD, adaptation. fconst (dec "1.0"). fconst (dec "0.0").
  assert (CL : forall d D, near d D (2 / 10 ^ 13) -> 0 <= D <= 1 -> near (if fgt d (dec "1.0") then dec "1.0" else if flt d (dec "0.0") then dec "0.0" else d) D (2 / 10 ^ 13)).
  { intros d D [fd bd] bD. unfold fgt. change Bltb with flt. destruct (flt (dec "1.0") d) eqn:A.
    - apply (proj1 (flt_fin _ _ F fd)) in A. split; [exact F|lra].
    - destruct (flt d (dec "0.0")) eqn:A0; [|split; [exact fd|exact bd]]. apply (proj1 (flt_fin _ _ fd F0)) in A0. split; [exact F0|lra]. }
  destruct disc; cbv zeta.
  { split; [|lra]. apply CL; [|lra]. split; [exact F|lra]. }
  destruct (fF_near s fs bs) as [NF BF]. set (f := fF s) in *. clearbody f. set (Fs := surround_F (B2R s)) in *. clearbody Fs.
  fconst (dec "42.0"). fconst (dec "92.0"). fconst (fdiv (dec "1.0") (dec "3.6")). set (q := fdiv (dec "1.0") (dec "3.6")) in *. clearbody q.
  assert (NN : near (fneg la) (- B2R la) 0). { split; [unfold fneg; rewrite is_finite_Bopp; exact fl|]. unfold fneg. rewrite B2R_Bopp. lra. }
  pose proof (near_sub _ (dec "42.0") _ 42 0 0 10042 NN (near_c _ _ 42 0 F1 V1 ltac:(lra)) ltac:(lra) ltac:(lra) ltac:(lra) ltac:(lra) ltac:(lra)) as N1.
  pose proof (near_div _ (dec "92.0") _ 92 _ 0 110 92 N1 (near_c _ _ 92 0 F2 V2 ltac:(lra)) ltac:(lra) ltac:(lra) ltac:(lra) ltac:(lra) ltac:(unfold uu; lra) ltac:(lra) ltac:(unfold uu; lra) ltac:(lra)) as N2.
  set (x := fdiv (fsub (fneg la) (dec "42.0")) (dec "92.0")) in *. clearbody x. set (X := (- B2R la - 42) / 92) in *. assert (BX : -110 <= X <= -0.456) by (unfold X; lra). clearbody X.
  apply near_weak with (e' := 1 / 10 ^ 13) in N2; [|unfold uu; lra]. destruct N2 as [fx bx].
  destruct (la_exp _ _ LA x fx ltac:(lra)) as (FE & EE & _). apply Rabs_le_inv in EE.
  assert (E2 : exp (B2R x) = exp X * exp (B2R x - X)) by (rewrite <- exp_plus; f_equal; ring).
  destruct (exp_small (B2R x - X) ltac:(lra)) as [S1 S2]. assert (AB : Rabs (B2R x - X) <= 1 / 10 ^ 13) by (apply Rabs_le; lra).
  assert (PX : 0 < exp X <= 1). { split; [apply exp_pos|]. rewrite <- exp_0. left. apply exp_increasing. lra. }
  set (EX := exp X) in *. set (ex := exp (B2R x - X)) in *. clearbody EX ex.
  assert (M : EX * (1 - 1 / 10 ^ 13) <= EX * ex <= EX * (1 + 2 / 10 ^ 13)) by (split; apply Rmult_le_compat_l; lra). rewrite <- E2 in M.
  assert (NE : near (expf x) EX (3.1 / 10 ^ 13)) by (split; [exact FE|lra]). clear EE S1 S2 AB E2 M.
  pose proof (near_mul q _ (1 / 3.6) EX (1 / 10 ^ 16) _ 0.28 1.1 (near_c _ _ (1 / 3.6) (1 / 10 ^ 16) F3 V3 ltac:(lra)) NE ltac:(lra) ltac:(destruct NE; lra) ltac:(lra) ltac:(lra) ltac:(lra) ltac:(lra) ltac:(lra)) as N3. apply near_weak with (e' := 9 / 10 ^ 14) in N3; [|unfold uu; lra].
  pose proof (near_sub (dec "1.0") _ 1 _ 0 _ 1 (near_c _ _ 1 0 F V ltac:(lra)) N3 ltac:(lra) ltac:(lra) ltac:(lra) ltac:(lra) ltac:(lra)) as N4. apply near_weak with (e' := 1 / 10 ^ 13) in N4; [|unfold uu; lra].
  assert (RG : 0 <= Fs * (1 - 1 / 3.6 * EX) <= 1). { split; [apply Rmult_le_pos; lra|]. apply Rle_trans with (Fs * 1); [apply Rmult_le_compat_l; lra|lra]. }
  split; [|exact RG]. apply CL; [|exact RG].
  pose proof (near_mul f _ Fs _ _ _ 1 1.1 NF N4 ltac:(lra) ltac:(destruct N4; lra) ltac:(lra) ltac:(lra) ltac:(lra) ltac:(lra) ltac:(lra)) as N5. apply near_weak with (1 := N5). unfold uu. lra.
Qed.

(** ** Powers *)
Lemma rel_exponent r y Y : 1 / 10 ^ 6 <= r <= 10 ^ 6 -> Y - 1 / 10 ^ 16 <= y <= Y + 1 / 10 ^ 16 -> rel (Rpower r y) (Rpower r Y) (4 / 10 ^ 15).
Proof using.
  intros hr hy. destruct (ln_20 r hr) as [l1 l2]. split; [apply exp_pos|].
  assert (P : - (2 / 10 ^ 15) <= (y - Y) * ln r <= 2 / 10 ^ 15). { apply Rabs_le_inv. rewrite Rabs_mult. apply Rle_trans with (1 / 10 ^ 16 * 20); [|lra]. apply Rmult_le_compat; try apply Rabs_pos; apply Rabs_le; lra. }
  pose proof (rpow_near r r y Y (2 / 10 ^ 15) ltac:(lra) ltac:(lra) ltac:(lra) ltac:(lra)) as Q. assert (PP : 0 < Rpower r Y) by apply exp_pos. lra.
Qed.

Lemma frel_powc (x y : f64) r e Y : frel x r e -> fin y -> Y - 1 / 10 ^ 16 <= B2R y <= Y + 1 / 10 ^ 16 -> 1 / 10 <= Y <= 1 / 2 -> 0 <= e <= 1 / 1000 -> 1 / 10 ^ 6 <= r <= 10 ^ 6 ->
  frel (powf x y) (Rpower r Y) (5 * Y * e + 1.4 / 10 ^ 13).
Proof using LA.
  intros hx fy hy bY he hr.
  assert (B : 1 / 10 ^ 6 <= Rpower r (B2R y) <= 10 ^ 6).
  { assert (R1 : Rpower r 1 = r) by (apply Rpower_1; lra). assert (R0 : Rpower r 0 = 1) by (apply Rpower_O; lra). destruct (Rle_or_lt 1 r) as [g|g].
    - pose proof (rpow_exp_big r 0 (B2R y) g ltac:(lra)). pose proof (rpow_exp_big r (B2R y) 1 g ltac:(lra)). lra.
    - pose proof (rpow_exp_small r 0 (B2R y) ltac:(lra) ltac:(lra)). pose proof (rpow_exp_small r (B2R y) 1 ltac:(lra) ltac:(lra)). lra. }
  assert (YE : 0 <= B2R y * e <= 0.6 * e /\ B2R y * e <= (Y + 1 / 10 ^ 16) * e) by (repeat split; [apply Rmult_le_pos; lra|apply Rmult_le_compat_r; lra|apply Rmult_le_compat_r; lra]).
  assert (YE2 : 1 / 10 * e <= Y * e) by (apply Rmult_le_compat_r; lra).
  destruct (frel_pow LA x y r e hx fy he ltac:(lra) ltac:(lra)) as [F R]. split; [exact F|].
  apply rel_w with (1.1 * (4.4 * B2R y * e + 1.2 / 10 ^ 13) + 4 / 10 ^ 15); [|lra].
  apply rel_trans with (1 := R); [now apply rel_exponent|lra|lra].
Qed.

(** ** The luminance level *)
Definition fK (la : f64) : f64 := fdiv (dec "1.0") (fadd (fmul (dec "5.0") la) (dec "1.0")).
Definition fK4 (la : f64) : f64 := fmul (fmul (fmul (fK la) (fK la)) (fK la)) (fK la).
Definition fK4f (la : f64) : f64 := fsub (dec "1.0") (fK4 la).
Definition fFL (la : f64) : f64 :=
  fadd (fmul (fK4 la) la) (fmul (fmul (fmul (dec "0.1") (fK4f la)) (fK4f la)) (powf (fmul (dec "5.0") la) (fdiv (dec "1.0") (dec "3.0")))).

Lemma fFL_near (la : f64) : fin la -> 1 / 100 <= B2R la <= 10000 -> frel (fFL la) (level (B2R la)) (3 / 10 ^ 12) /\ 0.001 <= level (B2R la) <= 7.
Proof using LA.
  intros fl bl. unfold fFL, fK4f. assert (NL := frel_self la fl ltac:(lra)). set (l := B2R la) in *. fconst (dec "1.0"). fconst (dec "5.0"). fconst (dec "0.1"). fconst (fdiv (dec "1.0") (dec "3.0")).
  pose proof (frel_mul (dec "5.0") la 5 l 0 0 (frel_const _ _ 5 0 F0 V0 ltac:(split; lra)) NL ltac:(lra) ltac:(lra) ltac:(lra)) as N1. apply frel_w with (e' := 4 / 10 ^ 16) in N1; [|lra].
  pose proof (frel_add _ (dec "1.0") _ 1 (4 / 10 ^ 16) N1 (frel_const _ _ 1 (4 / 10 ^ 16) F V ltac:(split; lra)) ltac:(lra) ltac:(lra)) as N2.
  assert (BK : 1 / 50001 <= level_k l <= 1 / 1.05) by (unfold level_k; split; [apply le_div|apply div_le]; lra).
  pose proof (frel_div (dec "1.0") _ 1 _ 0 _ (frel_const _ _ 1 0 F V ltac:(split; lra)) N2 ltac:(lra) ltac:(lra) ltac:(fold (level_k l); lra)) as N3. fold (fK la) in N3. fold (level_k l) in N3.
  apply frel_w with (e' := 2 / 10 ^ 15) in N3; [|lra]. assert (EK : level_k l * l <= 0.2).
  { unfold level_k. replace (1 / (5 * l + 1) * l) with (l / (5 * l + 1)) by (field; lra). apply div_le; lra. }
  unfold fK4. set (k := fK la) in *. clearbody k. unfold level. set (K := level_k l) in *. clearbody K.
  assert (K2 : 3.9 / 10 ^ 10 <= K * K <= 0.91) by (split; [apply Rle_trans with (1 / 50001 * (1 / 50001)); [lra|apply Rmult_le_compat; lra]|apply Rle_trans with (1 / 1.05 * (1 / 1.05)); [apply Rmult_le_compat; lra|lra]]).
  pose proof (frel_mul' k k K K _ _ N3 N3 ltac:(lra) ltac:(lra) ltac:(lra)) as N4.
  assert (K3 : 1 / 10 ^ 15 <= K * K * K <= 0.87) by (split; [apply Rle_trans with (3.9 / 10 ^ 10 * (1 / 50001)); [lra|apply Rmult_le_compat; lra]|apply Rle_trans with (0.91 * (1 / 1.05)); [apply Rmult_le_compat; lra|lra]]).
  pose proof (frel_mul' _ k _ K _ _ N4 N3 ltac:(lra) ltac:(lra) ltac:(lra)) as N5.
  assert (K4 : 1 / 10 ^ 20 <= K * K * K * K <= 0.83) by (split; [apply Rle_trans with (1 / 10 ^ 15 * (1 / 50001)); [lra|apply Rmult_le_compat; lra]|apply Rle_trans with (0.87 * (1 / 1.05)); [apply Rmult_le_compat; lra|lra]]).
  pose proof (frel_mul' _ k _ K _ _ N5 N3 ltac:(lra) ltac:(lra) ltac:(lra)) as N6. apply frel_w with (e' := 2 / 10 ^ 14) in N6; [|lra].
  replace (K ^ 4) with (K * K * K * K) by ring. assert (KL : 0 < K * K * K * K * l <= 0.2).
  { split; [apply Rmult_lt_0_compat; lra|]. replace (K * K * K * K * l) with (K * K * K * (K * l)) by ring. apply Rle_trans with (1 * (K * l)); [apply Rmult_le_compat_r; [apply Rmult_le_pos; lra|lra]|lra]. }
  assert (KL2 : 1 / 10 ^ 22 <= K * K * K * K * l) by (apply Rle_trans with (1 / 10 ^ 20 * (1 / 100)); [lra|apply Rmult_le_compat; lra]).
  set (q := K * K * K * K) in *. set (kf := fmul (fmul (fmul k k) k) k) in *. clearbody kf q. clear N5 N4 K2 K3.
  pose proof (frel_mul' kf la q l _ _ N6 NL ltac:(lra) ltac:(lra) ltac:(lra)) as N7. apply frel_w with (e' := 2 / 10 ^ 12) in N7; [|lra].
  pose proof (frel_near _ _ _ 0.83 N6 ltac:(lra) ltac:(lra)) as N8.
  pose proof (near_sub (dec "1.0") kf 1 q 0 _ 1 (near_c _ _ 1 0 F V ltac:(lra)) N8 ltac:(lra) ltac:(lra) ltac:(lra) ltac:(lra) ltac:(lra)) as N9.
  apply near_rel with (m := 0.17) (e' := 2 / 10 ^ 13) in N9; [|lra|unfold uu; lra|unfold uu; lra]. set (g := fsub (dec "1.0") kf) in *. clearbody g.
  set (Q := 1 - q) in *. assert (BQ : 0.17 <= Q <= 1) by (unfold Q; lra). clearbody Q.
  pose proof (frel_mul (dec "0.1") g 0.1 Q (1 / 10 ^ 16) _ (frel_const _ _ 0.1 (1 / 10 ^ 16) F1 V1 ltac:(split; lra)) N9 ltac:(lra) ltac:(lra) ltac:(lra)) as N10.
  assert (BQ2 : 0.028 <= Q * Q <= 1) by (split; [apply Rle_trans with (0.17 * 0.17); [lra|apply Rmult_le_compat; lra]|apply Rle_trans with (1 * 1); [apply Rmult_le_compat; lra|lra]]).
  pose proof (frel_mul _ g _ Q _ _ N10 N9 ltac:(lra) ltac:(lra) ltac:(lra)) as N11. apply frel_w with (e' := 6 / 10 ^ 13) in N11; [|lra].
  pose proof (frel_powc _ (fdiv (dec "1.0") (dec "3.0")) _ _ (1 / 3) N1 F2 ltac:(lra) ltac:(lra) ltac:(lra) ltac:(lra)) as N12. apply frel_w with (e' := 1.5 / 10 ^ 13) in N12; [|lra].
  assert (BP : 0.36 <= Rpower (5 * l) (1 / 3) <= 40).
  { replace (1 / 3) with (INR 1 / INR 3) by (cbn [INR]; lra). split; [apply rpow_ratio_lo|apply rpow_ratio_hi]; try lra; try lia. }
  set (P := Rpower (5 * l) (1 / 3)) in *. clearbody P.
  assert (BQP : 0.0028 * 0.36 <= 0.1 * Q * Q * P <= 0.1 * 40) by (split; apply Rmult_le_compat; lra).
  pose proof (frel_mul _ _ _ P _ _ N11 N12 ltac:(lra) ltac:(lra) ltac:(lra)) as N13. apply frel_w with (e' := 2 / 10 ^ 12) in N13; [|lra].
  pose proof (frel_add _ _ _ _ _ N7 N13 ltac:(lra) ltac:(lra)) as N14. replace (0.2 * q * (5 * l) + 0.1 * Q ^ 2 * P) with (q * l + 0.1 * Q * Q * P) by lra.
  split; [apply frel_w with (1 := N14)|]; lra.
Qed.

(** ** The background *)
Definition fN (t y : f64) : f64 := fdiv (y_from_lstar t) y.
Lemma fN_near (t y : f64) : fin t -> 0.099 <= B2R t <= 100 -> fin y -> 20 <= B2R y <= 200 ->
  frel (fN t y) (luminance (B2R t) / B2R y) (8 / 10 ^ 12) /\ 1 / 10 ^ 5 <= luminance (B2R t) / B2R y <= 5.
Proof using.
  intros ft bt fy by_. destruct (luminance_near t ft bt) as [N B]. set (L := luminance (B2R t)) in *. clearbody L. unfold fN.
  assert (RG : 1 / 10 ^ 5 <= L / B2R y <= 5) by (split; [apply le_div|apply div_le]; lra). split; [|exact RG].
  pose proof (frel_div _ y L _ _ _ N (frel_self y fy ltac:(lra)) ltac:(lra) ltac:(lra) ltac:(lra)) as H. apply frel_w with (1 := H). lra.
Qed.

Definition fNbb (n : f64) : f64 := fdiv (dec "0.725") (powf n (dec "0.2")).
Lemma fNbb_near (n : f64) N : frel n N (9 / 10 ^ 12) -> 1 / 10 ^ 5 <= N <= 5 -> frel (fNbb n) (induction_nbb N) (2 / 10 ^ 11) /\ 0.3 <= induction_nbb N <= 8.
Proof using LA.
  intros hn bN. unfold fNbb, induction_nbb. fconst (dec "0.2"). fconst (dec "0.725").
  pose proof (frel_powc n _ N _ 0.2 hn F ltac:(lra) ltac:(lra) ltac:(lra) ltac:(lra)) as H1. apply frel_w with (e' := 9.5 / 10 ^ 12) in H1; [|lra].
  assert (BP : 0.0999 <= Rpower N 0.2 <= 1.4).
  { replace 0.2 with (INR 1 / INR 5) by (cbn [INR]; lra). split; [apply rpow_ratio_lo|apply rpow_ratio_hi]; try lra; try lia. }
  assert (E : Rpower (1 / N) 0.2 = / Rpower N 0.2). { unfold Rpower. replace (1 / N) with (/ N) by (field; lra). rewrite ln_Rinv by lra. rewrite <- exp_Ropp. f_equal. ring. }
  rewrite E. set (P := Rpower N 0.2) in *. clearbody P. change (0.725 * / P) with (0.725 / P).
  assert (RG : 0.3 <= 0.725 / P <= 8) by (split; [apply le_div|apply div_le]; lra). split; [|exact RG].
  pose proof (frel_div (dec "0.725") _ 0.725 P (1 / 10 ^ 15) _ (frel_const _ _ 0.725 (1 / 10 ^ 15) F0 V0 ltac:(split; lra)) H1 ltac:(lra) ltac:(lra) ltac:(lra)) as H2. apply frel_w with (1 := H2). lra.
Qed.

Lemma fZ_near (n : f64) N : frel n N (9 / 10 ^ 12) -> 1 / 10 ^ 5 <= N <= 5 -> frel (fadd (dec "1.48") (fsqrt n)) (exponent_z N) (1 / 10 ^ 11).
Proof using.
  intros hn bN. fconst (dec "1.48"). pose proof (frel_sqrt n N _ hn ltac:(lra) ltac:(lra)) as H1. apply frel_w with (e' := 9.5 / 10 ^ 12) in H1; [|lra].
  assert (S : 0 <= sqrt N <= 3). { split; [apply sqrt_pos|]. apply Rle_trans with (sqrt (3 * 3)); [apply sqrt_le_1; lra|rewrite sqrt_square; lra]. }
  pose proof (frel_add (dec "1.48") _ 1.48 _ (9.5 / 10 ^ 12) (frel_const _ _ 1.48 (9.5 / 10 ^ 12) F V ltac:(split; lra)) H1 ltac:(lra) ltac:(lra)) as H2. apply frel_w with (1 := H2). lra.
Qed.

(** ** The response to the white *)
Definition fR (fl g w : f64) : f64 :=
  fdiv (fmul (dec "400.0") (powf (fdiv (fmul (fmul fl g) w) (dec "100.0")) (dec "0.42"))) (fadd (powf (fdiv (fmul (fmul fl g) w) (dec "100.0")) (dec "0.42")) (dec "27.13")).
Lemma fR_near (fl g w : f64) L G W : frel fl L (3 / 10 ^ 12) -> 0.001 <= L <= 7 -> frel g G (1 / 10 ^ 11) -> 0.5 <= G <= 5 -> near w W (2 / 10 ^ 12) -> 20 <= W <= 200 -> 20 <= G * W <= 200 ->
  frel (fR fl g w) (response L G W) (2 / 10 ^ 10) /\ 0.1 <= response L G W <= 300.
Proof using LA.
  intros hl bL hg bG hw bW bGW. unfold fR, response. fconst (dec "100.0"). fconst (dec "0.42"). fconst (dec "400.0"). fconst (dec "27.13").
  assert (W1 : frel w W (1 / 10 ^ 13)) by (apply near_rel with (1 := hw) (m := 20); lra).
  assert (B1 : 0.001 * 0.5 <= L * G <= 7 * 5) by (split; apply Rmult_le_compat; lra).
  assert (B2 : 0.001 * 20 <= L * (G * W) <= 7 * 200) by (split; apply Rmult_le_compat; lra). replace (L * (G * W)) with (L * G * W) in B2 by ring.
  pose proof (frel_mul fl g L G _ _ hl hg ltac:(lra) ltac:(lra) ltac:(lra)) as N1. apply frel_w with (e' := 1.5 / 10 ^ 11) in N1; [|lra].
  pose proof (frel_mul _ w _ W _ _ N1 W1 ltac:(lra) ltac:(lra) ltac:(lra)) as N2. apply frel_w with (e' := 1.7 / 10 ^ 11) in N2; [|lra].
  pose proof (frel_div _ (dec "100.0") _ 100 _ 0 N2 (frel_const _ _ 100 0 F V ltac:(split; lra)) ltac:(lra) ltac:(lra) ltac:(lra)) as N3. apply frel_w with (e' := 2.4 / 10 ^ 11) in N3; [|lra].
  set (x := fdiv (fmul (fmul fl g) w) (dec "100.0")) in *. clearbody x. set (X := L * G * W / 100) in *. assert (BX : 0.0002 <= X <= 14) by (unfold X; lra). clearbody X. clear N1 N2.
  pose proof (frel_powc x (dec "0.42") X _ 0.42 N3 F0 ltac:(lra) ltac:(lra) ltac:(lra) ltac:(lra)) as N4. apply frel_w with (e' := 5.1 / 10 ^ 11) in N4; [|lra].
  assert (BP : 0.013 <= Rpower X 0.42 <= 14).
  { assert (R1 : 0.013 <= Rpower X (INR 1 / INR 2)) by (apply rpow_ratio_lo; try lra; try lia). assert (RH : Rpower X (INR 1 / INR 2) = Rpower X 0.5) by (f_equal; cbn [INR]; lra). rewrite RH in R1. clear RH.
    assert (R1' : Rpower X 1 = X) by (apply Rpower_1; lra). assert (R0 : Rpower X 0 = 1) by (apply Rpower_O; lra). destruct (Rle_or_lt 1 X) as [gx|gx].
    - pose proof (rpow_exp_big X 0 0.42 gx ltac:(lra)). pose proof (rpow_exp_big X 0.42 1 gx ltac:(lra)). lra.
    - pose proof (rpow_exp_small X 0 0.42 ltac:(lra) ltac:(lra)). pose proof (rpow_exp_small X 0.42 0.5 ltac:(lra) ltac:(lra)). lra. }
  set (p := powf x (dec "0.42")) in *. set (P := Rpower X 0.42) in *. clearbody p P.
  pose proof (frel_mul (dec "400.0") p 400 P 0 _ (frel_const _ _ 400 0 F1 V1 ltac:(split; lra)) N4 ltac:(lra) ltac:(lra) ltac:(lra)) as N5. apply frel_w with (e' := 5.7 / 10 ^ 11) in N5; [|lra].
  pose proof (frel_add p (dec "27.13") P 27.13 (5.1 / 10 ^ 11) N4 (frel_const _ _ 27.13 (5.1 / 10 ^ 11) F2 V2 ltac:(split; lra)) ltac:(lra) ltac:(lra)) as N6. apply frel_w with (e' := 5.2 / 10 ^ 11) in N6; [|lra].
  assert (RG : 0.1 <= 400 * P / (P + 27.13) <= 300) by (split; [apply le_div|apply div_le]; lra). split; [|exact RG].
  pose proof (frel_div _ _ _ _ _ _ N5 N6 ltac:(lra) ltac:(lra) ltac:(lra)) as N7. apply frel_w with (1 := N7). lra.
Qed.

Definition fAw (a0 a1 a2 nbb : f64) : f64 := fmul (fdiv (fadd (fadd (fmul (dec "40.0") a0) (fmul (dec "20.0") a1)) a2) (dec "20.0")) nbb.
Lemma fAw_near (a0 a1 a2 nbb : f64) A0 A1 A2 N : frel a0 A0 (2 / 10 ^ 10) -> frel a1 A1 (2 / 10 ^ 10) -> frel a2 A2 (2 / 10 ^ 10) -> frel nbb N (2 / 10 ^ 11) ->
  0.1 <= A0 <= 300 -> 0.1 <= A1 <= 300 -> 0.1 <= A2 <= 300 -> 0.3 <= N <= 8 -> frel (fAw a0 a1 a2 nbb) ((2 * A0 + A1 + A2 / 20) * N) (5 / 10 ^ 10).
Proof using.
  intros h0 h1 h2 hn b0 b1 b2 bn. unfold fAw. fconst (dec "40.0"). fconst (dec "20.0").
  pose proof (frel_mul (dec "40.0") a0 40 A0 0 _ (frel_const _ _ 40 0 F V ltac:(split; lra)) h0 ltac:(lra) ltac:(lra) ltac:(lra)) as N1. apply frel_w with (e' := 2.3 / 10 ^ 10) in N1; [|lra].
  pose proof (frel_mul (dec "20.0") a1 20 A1 0 _ (frel_const _ _ 20 0 F0 V0 ltac:(split; lra)) h1 ltac:(lra) ltac:(lra) ltac:(lra)) as N2. apply frel_w with (e' := 2.3 / 10 ^ 10) in N2; [|lra].
  pose proof (frel_add _ _ _ _ _ N1 N2 ltac:(lra) ltac:(lra)) as N3. apply frel_w with (e' := 2.4 / 10 ^ 10) in N3; [|lra].
  pose proof (frel_add _ a2 _ A2 (2.4 / 10 ^ 10) N3 (frel_w _ _ _ (2.4 / 10 ^ 10) h2 ltac:(lra)) ltac:(lra) ltac:(lra)) as N4. apply frel_w with (e' := 2.5 / 10 ^ 10) in N4; [|lra].
  pose proof (frel_div _ (dec "20.0") _ 20 _ 0 N4 (frel_const _ _ 20 0 F0 V0 ltac:(split; lra)) ltac:(lra) ltac:(lra) ltac:(lra)) as N5. apply frel_w with (e' := 3.6 / 10 ^ 10) in N5; [|lra].
  replace ((40 * A0 + 20 * A1 + A2) / 20) with (2 * A0 + A1 + A2 / 20) in N5 by lra. set (S := 2 * A0 + A1 + A2 / 20) in *. assert (BS : 0.3 <= S <= 1000) by (unfold S; lra). clearbody S.
  assert (BN : 0.3 * 0.3 <= S * N <= 1000 * 8) by (split; apply Rmult_le_compat; lra).
  pose proof (frel_mul _ nbb S N _ _ N5 hn ltac:(lra) ltac:(lra) ltac:(lra)) as N6. apply frel_w with (1 := N6). lra.
Qed.
End Accurate.
