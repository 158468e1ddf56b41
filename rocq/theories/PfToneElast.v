(** * How the luminance of a CAM16 colour responds to its lightness: bounds inside the gamut.  Proof file. *)
From Coq Require Import Reals Lra Lia Psatz.
From Verif Require Import PfNear PfToneReal.
Open Scope R_scope.

Section Elast.
Variables K q : R.
Hypothesis HK : 0 < K.
Hypothesis Hq : 2.38 <= q <= 2.381.
Notation vv := (vv K q).

Definition w1 := 97.6854408.
Definition w2 := 162.1891052.
Definition w3 := 2.4733555.
Definition FF (x1 x2 x3 : R) : R := w1 * vv x1 + w2 * vv x2 - w3 * vv x3.
Definition PP (x1 x2 x3 : R) : R := (2 * x1 + x2 + x3 / 20) / 3.05.

(** Responses of colours whose linear RGB is not negative. *)
Record cone (x1 x2 x3 : R) : Prop := {
  c_pos : 0 < x2;
  c_r : 0.91 * x2 <= x1 <= 1.36 * x2;
  c_b : 0.47 * x2 <= x3 <= 2.66 * x2 }.
Record vcone (x1 x2 x3 : R) : Prop := {
  vc_r : 0.799 * vv x2 <= vv x1 <= 2.05 * vv x2;
  vc_b : 0.17 * vv x2 <= vv x3 <= 10.2 * vv x2 }.

Lemma cone_bounds x1 x2 x3 B : cone x1 x2 x3 -> PP x1 x2 x3 <= B -> 0 < x1 /\ 0 < x3 /\ x1 <= 1.46 * B /\ x2 <= 1.073 * B /\ x3 <= 2.75 * B /\ 0 < PP x1 x2 x3.
Proof. intros [a b c] h. unfold PP in *. repeat split; lra. Qed.

Lemma cone_P x1 x2 x3 s : cone x1 x2 x3 -> 0 <= s <= 1 -> let P := PP x1 x2 x3 in
  let y1 := (1 - s) * x1 + s * P in let y2 := (1 - s) * x2 + s * P in let y3 := (1 - s) * x3 + s * P in cone y1 y2 y3 /\ PP y1 y2 y3 = P.
Proof.
  intros [a b c] hs P y1 y2 y3. assert (hP : 0 < P) by (unfold P, PP; lra). split.
  - assert (A : forall k u v, k * u <= v -> k <= 1 -> k * ((1 - s) * u + s * P) <= (1 - s) * v + s * P).
    { intros k u v h1 h2. assert ((1 - s) * (k * u) <= (1 - s) * v) by (apply Rmult_le_compat_l; lra). assert (k * (s * P) <= 1 * (s * P)) by (apply Rmult_le_compat_r; [apply Rmult_le_pos; lra|lra]). lra. }
    assert (B : forall k u v, v <= k * u -> 1 <= k -> (1 - s) * v + s * P <= k * ((1 - s) * u + s * P)).
    { intros k u v h1 h2. assert ((1 - s) * v <= (1 - s) * (k * u)) by (apply Rmult_le_compat_l; lra). assert (1 * (s * P) <= k * (s * P)) by (apply Rmult_le_compat_r; [apply Rmult_le_pos; lra|lra]). lra. }
    split; [apply mix_pos; assumption|split; [apply A|apply B]; lra|split; [apply A|apply B]; lra].
  - unfold y1, y2, y3, P, PP. lra.
Qed.

(** What v does on a mixture with the grey of the same lightness. *)
Lemma tan_mix x P s : 0 < x <= 37 -> 0 < P <= 37 -> 0 <= s <= 1 ->
  exists g, 2.38 <= g <= 2.624 /\ vv x + s * (g * (vv x * (P / x - 1))) <= vv ((1 - s) * x + s * P).
Proof.
  intros hx hP hs. exists (q * (400 / (400 - x))). split.
  - assert (L : 1 <= 400 / (400 - x)) by (apply Rmult_le_reg_r with (400 - x); [lra|]; unfold Rdiv; rewrite Rmult_assoc, Rinv_l; lra).
    assert (U : 400 / (400 - x) <= 400 / 363) by (unfold Rdiv; apply Rmult_le_compat_l; [lra|]; apply Rinv_le_contravar; lra).
    split.
    + apply Rle_trans with (q * 1); [lra|apply Rmult_le_compat_l; lra].
    + apply Rle_trans with (2.381 * (400 / 363)); [apply Rmult_le_compat; lra|lra].
  - pose proof (mix_pos x P s ltac:(lra) ltac:(lra) hs) as M. pose proof (mix_pos (400 - x) (400 - P) s ltac:(lra) ltac:(lra) hs) as M'.
    pose proof (vv_tangent K q HK Hq x ((1 - s) * x + s * P) ltac:(lra) ltac:(lra)) as T.
    replace (((1 - s) * x + s * P - x) / x) with (s * (P / x - 1)) in T by (field; lra). lra.
Qed.

Lemma vP_hi x1 x2 x3 : 0 < x1 <= 37 -> 0 < x2 <= 37 -> 0 < x3 <= 37 -> vv (PP x1 x2 x3) <= (2 * vv x1 + vv x2 + vv x3 / 20) / 3.05.
Proof.
  intros h1 h2 h3. set (z := (20 * x2 + x3) / 21). assert (hz : 0 < z < 400) by (unfold z; lra).
  pose proof (vv_convex K q HK Hq x2 x3 (1 / 21) ltac:(lra) ltac:(lra) ltac:(lra)) as A.
  replace ((1 - 1 / 21) * x2 + 1 / 21 * x3) with z in A by (unfold z; field).
  pose proof (vv_convex K q HK Hq x1 z (1.05 / 3.05) ltac:(lra) hz ltac:(lra)) as B.
  replace ((1 - 1.05 / 3.05) * x1 + 1.05 / 3.05 * z) with (PP x1 x2 x3) in B by (unfold PP, z; lra). lra.
Qed.

Lemma FF_pos x1 x2 x3 : vcone x1 x2 x3 -> 214 * vv x2 <= FF x1 x2 x3.
Proof. intros [a b]. unfold FF, w1, w2, w3. pose proof (vv_pos K q x2). lra. Qed.

Lemma prod_lo g v a A : 2.38 <= g <= 2.624 -> 0 < v -> 0 <= A -> - A <= a -> - (2.624 * A * v) <= g * (v * a).
Proof.
  intros hg hv hA ha. destruct (Rle_or_lt 0 a) as [c|c].
  - assert (0 <= g * (v * a)) by (apply Rmult_le_pos; [lra|apply Rmult_le_pos; lra]). assert (0 <= A * v) by (apply Rmult_le_pos; lra). lra.
  - assert (E : g * (v * - a) <= 2.624 * (v * A)) by (apply Rmult_le_compat; [lra|apply Rmult_le_pos; lra|lra|apply Rmult_le_compat_l; lra]). lra.
Qed.

Lemma mix_lo x1 x2 x3 s : cone x1 x2 x3 -> vcone x1 x2 x3 -> PP x1 x2 x3 <= 13.4 -> 0 <= s <= 1 -> let P := PP x1 x2 x3 in
  FF x1 x2 x3 * (1 - 0.14 * s) <= FF ((1 - s) * x1 + s * P) ((1 - s) * x2 + s * P) ((1 - s) * x3 + s * P).
Proof.
  intros C V hP hs P. destruct (cone_bounds _ _ _ _ C hP) as (p1 & p3 & b1 & b2 & b3 & pP). fold P in hP, pP. pose proof (c_pos _ _ _ C) as p2.
  destruct (tan_mix x1 P s ltac:(lra) ltac:(lra) hs) as (g1 & G1 & T1). destruct (tan_mix x2 P s ltac:(lra) ltac:(lra) hs) as (g2 & G2 & T2).
  pose proof (vv_convex K q HK Hq x3 P s ltac:(lra) ltac:(lra) hs) as T3.
  pose proof (vP_hi x1 x2 x3 ltac:(lra) ltac:(lra) ltac:(lra)) as VP. fold P in VP.
  pose proof (vv_pos K q x1) as u1. pose proof (vv_pos K q x2) as u2. pose proof (vv_pos K q x3) as u3. pose proof (vv_pos K q P) as uP.
  destruct C as [_ Cr Cb]. destruct V as [Vr Vb].
  set (v1 := vv x1) in *. set (v2 := vv x2) in *. set (v3 := vv x3) in *. set (vp := vv P) in *.
  assert (KEY : - (0.14 * (w1 * v1 + w2 * v2 - w3 * v3)) <= w1 * (g1 * (v1 * (P / x1 - 1))) + w2 * (g2 * (v2 * (P / x2 - 1))) - w3 * (vp - v3)).
  { destruct (Rle_or_lt x1 x2) as [c|c].
    - assert (A1 : - (0.0087) <= P / x1 - 1).
      { assert (0.9913 <= P / x1); [|lra]. apply Rmult_le_reg_r with x1; [exact p1|]. unfold Rdiv. rewrite Rmult_assoc, Rinv_l, Rmult_1_r by lra. unfold P, PP. lra. }
      assert (A2 : - (0.0678) <= P / x2 - 1).
      { assert (0.9322 <= P / x2); [|lra]. apply Rmult_le_reg_r with x2; [exact p2|]. unfold Rdiv. rewrite Rmult_assoc, Rinv_l, Rmult_1_r by lra. unfold P, PP. lra. }
      pose proof (prod_lo g1 v1 _ 0.0087 G1 u1 ltac:(lra) A1). pose proof (prod_lo g2 v2 _ 0.0678 G2 u2 ltac:(lra) A2). unfold w1, w2, w3. lra.
    - set (d := (x1 - x2) / x2). assert (D : d * x2 = x1 - x2) by (unfold d; field; lra). assert (d0 : 0 <= d <= 0.36).
      { split; apply Rmult_le_reg_r with x2; lra. }
      assert (A1 : - (0.0087 + 0.3356 * d) <= P / x1 - 1).
      { assert (H : 1 - 0.0087 - 0.3356 * d <= P / x1); [|lra]. apply Rmult_le_reg_r with x1; [exact p1|]. unfold Rdiv. rewrite Rmult_assoc, Rinv_l, Rmult_1_r by lra.
        assert (E : d * x1 = d * x2 + d * d * x2) by (replace x1 with (x2 + d * x2) by lra; ring). assert (0 <= d * d * x2) by (apply Rmult_le_pos; [apply Rmult_le_pos; lra|lra]). assert (0 <= d * x2) by (apply Rmult_le_pos; lra). unfold P, PP. lra. }
      assert (A2 : 0.6557 * d - 0.0087 <= P / x2 - 1).
      { assert (H : 1 + 0.6557 * d - 0.0087 <= P / x2); [|lra]. apply Rmult_le_reg_r with x2; [exact p2|]. unfold Rdiv. rewrite Rmult_assoc, Rinv_l, Rmult_1_r by lra.
        unfold P, PP. lra. }
      assert (B1 : - (2.624 * (0.0087 + 0.3356 * d) * (2.05 * v2)) <= g1 * (v1 * (P / x1 - 1))).
      { pose proof (prod_lo g1 v1 _ (0.0087 + 0.3356 * d) G1 u1 ltac:(lra) A1). assert ((0.0087 + 0.3356 * d) * v1 <= (0.0087 + 0.3356 * d) * (2.05 * v2)) by (apply Rmult_le_compat_l; lra). lra. }
      assert (B2 : (1.56 * d - 0.0229) * v2 <= g2 * (v2 * (P / x2 - 1))).
      { assert (v2 * (0.6557 * d - 0.0087) <= v2 * (P / x2 - 1)) by (apply Rmult_le_compat_l; lra).
        assert (g2 * (v2 * (0.6557 * d - 0.0087)) <= g2 * (v2 * (P / x2 - 1))) by (apply Rmult_le_compat_l; lra).
        assert (vd : 0 <= v2 * d) by (apply Rmult_le_pos; lra).
        assert (2.38 * (v2 * d) <= g2 * (v2 * d)) by (apply Rmult_le_compat_r; lra). assert (g2 * v2 <= 2.624 * v2) by (apply Rmult_le_compat_r; lra). lra. }
      assert (0 <= d * v2) by (apply Rmult_le_pos; lra). unfold w1, w2, w3. lra. }
  apply (Rmult_le_compat_l s) in KEY; [|lra].
  unfold FF, w1, w2, w3 in *. fold v1 v2 v3. fold vp in T3. lra.
Qed.

Lemma mix_hi x1 x2 x3 s : cone x1 x2 x3 -> vcone x1 x2 x3 -> PP x1 x2 x3 <= 13.4 -> 0 <= s <= 1 -> let P := PP x1 x2 x3 in
  FF ((1 - s) * x1 + s * P) ((1 - s) * x2 + s * P) ((1 - s) * x3 + s * P) <= FF x1 x2 x3 * (1 + 0.468 * s).
Proof.
  intros C V hP hs P. destruct (cone_bounds _ _ _ _ C hP) as (p1 & p3 & b1 & b2 & b3 & pP). fold P in hP, pP. pose proof (c_pos _ _ _ C) as p2.
  destruct (tan_mix x3 P s ltac:(lra) ltac:(lra) hs) as (g3 & G3 & T3).
  pose proof (vv_convex K q HK Hq x1 P s ltac:(lra) ltac:(lra) hs) as T1. pose proof (vv_convex K q HK Hq x2 P s ltac:(lra) ltac:(lra) hs) as T2.
  pose proof (vP_hi x1 x2 x3 ltac:(lra) ltac:(lra) ltac:(lra)) as VP. fold P in VP.
  pose proof (vv_pos K q x1) as u1. pose proof (vv_pos K q x2) as u2. pose proof (vv_pos K q x3) as u3. pose proof (vv_pos K q P) as uP.
  destruct C as [_ Cr Cb]. destruct V as [Vr Vb].
  set (v1 := vv x1) in *. set (v2 := vv x2) in *. set (v3 := vv x3) in *. set (vp := vv P) in *.
  assert (A3 : - (0.6361) <= P / x3 - 1).
  { assert (0.3639 <= P / x3); [|lra]. apply Rmult_le_reg_r with x3; [exact p3|]. unfold Rdiv. rewrite Rmult_assoc, Rinv_l, Rmult_1_r by lra. unfold P, PP. lra. }
  pose proof (prod_lo g3 v3 _ 0.6361 G3 u3 ltac:(lra) A3) as B3.
  assert (KEY : w1 * (vp - v1) + w2 * (vp - v2) - w3 * (g3 * (v3 * (P / x3 - 1))) <= 0.468 * (w1 * v1 + w2 * v2 - w3 * v3)).
  { unfold w1, w2, w3. lra. }
  apply (Rmult_le_compat_l s) in KEY; [|lra].
  unfold FF, w1, w2, w3 in *. fold v1 v2 v3. fold vp in T1, T2. lra.
Qed.

(** ** Scaling all responses *)
Lemma vv_scale y l : 0 < y -> 1 <= l -> l * y <= 37 -> let m := Rpower ((400 - 37 / l) / 363) q in
  Rpower l q * vv y <= vv (l * y) <= Rpower l q * vv y * m.
Proof.
  intros hy hl h m. assert (y <= l * y) by (apply Rle_trans with (1 * y); [lra|apply Rmult_le_compat_r; lra]).
  rewrite (vv_ratio K q HK y (l * y)) by lra.
  replace (l * y / y * ((400 - y) / (400 - l * y))) with (l * ((400 - y) / (400 - l * y))) by (field; lra).
  set (r := (400 - y) / (400 - l * y)). assert (r1 : 1 <= r) by (apply Rmult_le_reg_r with (400 - l * y); [lra|]; unfold r, Rdiv; rewrite Rmult_assoc, Rinv_l; lra).
  rewrite <- Rpower_mult_distr by lra.
  assert (r2 : r <= (400 - 37 / l) / 363).
  { unfold r. apply Rmult_le_reg_r with (400 - l * y); [lra|]. unfold Rdiv at 1. rewrite Rmult_assoc, Rinv_l, Rmult_1_r by lra.
    set (i := 37 / l). assert (I : i * l = 37) by (unfold i; field; lra). apply Rmult_le_reg_l with l; [lra|].
    replace (l * ((400 - i) / 363 * (400 - l * y))) with ((400 * l - i * l) / 363 * (400 - l * y)) by field. rewrite I.
    set (z := l * y) in *. replace (l * (400 - y)) with (400 * l - z) by (unfold z; ring).
    assert (0 <= (l - 1) * (37 - z)) by (apply Rmult_le_pos; lra). lra. }
  assert (M1 : 1 <= Rpower r q). { rewrite <- (Rpower_O r) by lra. apply Rle_Rpower; lra. }
  assert (M2 : Rpower r q <= m) by (apply Rle_Rpower_l; lra).
  assert (p1 := vv_pos K q y). assert (p2 : 0 < Rpower l q) by apply exp_pos. assert (p3 := Rmult_lt_0_compat _ _ p2 p1).
  replace (vv y * (Rpower l q * Rpower r q)) with (Rpower l q * vv y * Rpower r q) by ring. split.
  - rewrite <- (Rmult_1_r (Rpower l q * vv y)) at 1. apply Rmult_le_compat_l; lra.
  - apply Rmult_le_compat_l; lra.
Qed.

Lemma rough x1 x2 x3 : cone x1 x2 x3 -> PP x1 x2 x3 <= 13.4 -> w3 * vv x3 <= 0.17 * FF x1 x2 x3 /\ 0 < FF x1 x2 x3.
Proof.
  intros C hP. destruct (cone_bounds _ _ _ _ C hP) as (p1 & p3 & b1 & b2 & b3 & _). destruct C as [p2 Cr Cb].
  assert (V3 : vv x3 <= 13.1 * vv x2).
  { rewrite (vv_ratio K q HK x2 x3) by lra. rewrite Rmult_comm. apply Rmult_le_compat_r; [left; apply vv_pos|].
    apply Rle_trans with (Rpower 2.9313 q).
    - apply Rle_Rpower_l; [lra|]. split; [apply Rmult_lt_0_compat; apply Rdiv_lt_0_compat; lra|].
      apply Rle_trans with (2.66 * (400 / 363)); [|lra]. apply Rmult_le_compat; try (left; apply Rdiv_lt_0_compat; lra).
      + apply Rmult_le_reg_r with x2; [exact p2|]. unfold Rdiv. rewrite Rmult_assoc, Rinv_l; lra.
      + apply Rmult_le_compat; [lra|left; apply Rinv_0_lt_compat; lra|lra|apply Rinv_le_contravar; lra].
    - apply (pow_hi_big _ _ _ 43 18); [lra|lra|lia|simpl; lra|lra]. }
  assert (V1 : 0.77 * vv x2 <= vv x1).
  { rewrite (vv_ratio K q HK x2 x1) by lra. rewrite Rmult_comm. apply Rmult_le_compat_l; [left; apply vv_pos|].
    apply Rle_trans with (Rpower 0.905 q).
    - apply Rle_trans with (Rpower 0.905 (INR 5 / INR 2)); [|simpl; unfold Rpower; apply exp_le; assert (ln 0.905 < 0) by (rewrite <- ln_1; apply ln_increasing; lra); nra].
      apply (rpow_ratio_lo _ _ 5 2); [lra|lra|lia|]. lra.
    - apply Rle_Rpower_l; [lra|]. split; [lra|]. replace (x1 / x2 * ((400 - x2) / (400 - x1))) with (x1 * (400 - x2) / (x2 * (400 - x1))) by (field; lra).
      apply Rmult_le_reg_r with (x2 * (400 - x1)); [apply Rmult_lt_0_compat; lra|]. unfold Rdiv. rewrite Rmult_assoc, Rinv_l, Rmult_1_r by (apply Rgt_not_eq, Rmult_lt_0_compat; lra).
      assert (0 <= (x1 - 0.91 * x2) * (400 - x2)) by (apply Rmult_le_pos; lra). assert (0 <= x2 * (x1 - 0.91 * x2)) by (apply Rmult_le_pos; lra).
      assert (x2 * x2 <= 14.4 * x2) by (apply Rmult_le_compat_r; lra). lra. }
  pose proof (vv_pos K q x2). unfold FF, w1, w2, w3. lra.
Qed.

Lemma scale_F y1 y2 y3 l : cone y1 y2 y3 -> 1 <= l -> l * PP y1 y2 y3 <= 13.4 -> let m := Rpower ((400 - 37 / l) / 363) q in
  Rpower l q * (FF y1 y2 y3 * (1 - 0.17 * (m - 1))) <= FF (l * y1) (l * y2) (l * y3) <= Rpower l q * (FF y1 y2 y3 * (m + 0.17 * (m - 1))).
Proof.
  intros C hl hP m.
  assert (C' : cone (l * y1) (l * y2) (l * y3)).
  { destruct C as [a b c]. assert (l0 : 0 <= l) by lra.
    pose proof (Rmult_le_compat_l l _ _ l0 (proj1 b)). pose proof (Rmult_le_compat_l l _ _ l0 (proj2 b)).
    pose proof (Rmult_le_compat_l l _ _ l0 (proj1 c)). pose proof (Rmult_le_compat_l l _ _ l0 (proj2 c)).
    split; [apply Rmult_lt_0_compat; lra|lra|lra]. }
  assert (hP' : PP (l * y1) (l * y2) (l * y3) <= 13.4) by (replace (PP (l * y1) (l * y2) (l * y3)) with (l * PP y1 y2 y3) by (unfold PP; lra); exact hP).
  destruct (cone_bounds _ _ _ _ C' hP') as (p1 & p3 & b1 & b2 & b3 & _). pose proof (c_pos _ _ _ C') as p2.
  assert (PB : PP y1 y2 y3 <= 13.4).
  { destruct (cone_bounds _ _ _ _ C (Rle_refl _)) as (_ & _ & _ & _ & _ & pp). apply Rle_trans with (2 := hP). rewrite <- (Rmult_1_l (PP y1 y2 y3)) at 1. apply Rmult_le_compat_r; lra. }
  destruct (rough _ _ _ C PB) as [R1 R2].
  destruct (cone_bounds _ _ _ _ C PB) as (q1 & q3 & _). pose proof (c_pos _ _ _ C) as q2.
  pose proof (vv_scale y1 l q1 hl ltac:(lra)) as S1. pose proof (vv_scale y2 l q2 hl ltac:(lra)) as S2. pose proof (vv_scale y3 l q3 hl ltac:(lra)) as S3.
  fold m in S1, S2, S3. cbv zeta in S1, S2, S3.
  assert (M : 1 <= m).
  { apply Rmult_le_reg_l with (Rpower l q * vv y2); [apply Rmult_lt_0_compat; apply exp_pos|]. lra. }
  assert (p0 : 0 < Rpower l q) by apply exp_pos. set (L := Rpower l q) in *.
  assert (u1 := vv_pos K q y1). assert (u2 := vv_pos K q y2). assert (u3 := vv_pos K q y3).
  assert (R3 : (m - 1) * (w3 * vv y3) <= (m - 1) * (0.17 * FF y1 y2 y3)) by (apply Rmult_le_compat_l; lra).
  apply (Rmult_le_compat_l L) in R3; [|lra].
  unfold FF, w1, w2, w3 in *. clearbody m L. split; lra.
Qed.

(** ** The elasticity *)
Lemma elast x1 x2 x3 l s : cone x1 x2 x3 -> vcone x1 x2 x3 -> 0 <= ln l <= 0.6 -> 0 < l -> l * PP x1 x2 x3 <= 13.4 -> 0 <= s <= 1 -> s <= 2.168 * ln l ->
  let P := PP x1 x2 x3 in
  let FU := FF (l * ((1 - s) * x1 + s * P)) (l * ((1 - s) * x2 + s * P)) (l * ((1 - s) * x3 + s * P)) in
  0 < FU /\ 1.97 * ln l <= ln FU - ln (FF x1 x2 x3) <= 3.6867 * ln l.
Proof.
  intros C V hL l0 hP hs sL P FU.
  assert (hl : 1 <= l). { rewrite <- (exp_ln l) by exact l0. rewrite <- exp_0. apply exp_le. lra. }
  assert (PB : P <= 13.4).
  { destruct (cone_bounds _ _ _ _ C (Rle_refl _)) as (_ & _ & _ & _ & _ & pp). fold P in pp. apply Rle_trans with (2 := hP). fold P. rewrite <- (Rmult_1_l P) at 1. apply Rmult_le_compat_r; lra. }
  pose proof (mix_lo x1 x2 x3 s C V PB hs) as ML. pose proof (mix_hi x1 x2 x3 s C V PB hs) as MH. fold P in ML, MH. cbv zeta in ML, MH.
  destruct (cone_P x1 x2 x3 s C hs) as [C' EP]. fold P in C', EP.
  set (y1 := (1 - s) * x1 + s * P) in *. set (y2 := (1 - s) * x2 + s * P) in *. set (y3 := (1 - s) * x3 + s * P) in *.
  destruct (scale_F y1 y2 y3 l C' hl ltac:(rewrite EP; exact hP)) as [SL SH]. fold FU in SL, SH.
  set (m := Rpower ((400 - 37 / l) / 363) q) in *. set (Lq := Rpower l q) in *.
  destruct (rough x1 x2 x3 C PB) as [_ F0]. set (F := FF x1 x2 x3) in *. set (Fy := FF y1 y2 y3) in *.
  set (L := ln l) in *. assert (LL : ln Lq = q * L) by (unfold Lq, Rpower; apply ln_exp). assert (Lq0 : 0 < Lq) by apply exp_pos.
  (* the factor m *)
  assert (I : 0 < / l) by (apply Rinv_0_lt_compat; exact l0). assert (IL : 1 - / l <= L) by (apply ln_ge_inv; exact l0).
  assert (I1 : / l <= 1) by (rewrite <- Rinv_1; apply Rinv_le_contravar; lra).
  assert (B : (400 - 37 / l) / 363 = 1 + 37 / 363 * (1 - / l)) by (field; lra).
  assert (LM : 0 <= ln m <= 0.2427 * L).
  { unfold m, Rpower. rewrite ln_exp, B. set (b := 37 / 363 * (1 - / l)). assert (hb : 0 <= b) by (unfold b; lra).
    assert (X := ln_le_sub1 (1 + b) ltac:(lra)). assert (Y : 0 <= ln (1 + b)) by (rewrite <- ln_1 at 1; apply ln_le'; lra).
    split; [apply Rmult_le_pos; lra|]. apply Rle_trans with (2.381 * (37 / 363 * L)); [|lra]. apply Rmult_le_compat; [lra|exact Y|lra|]. unfold b in X |- *. lra. }
  assert (m0 : 0 < m) by apply exp_pos.
  assert (M1 : 1 <= m) by (rewrite <- (exp_ln m) by exact m0; rewrite <- exp_0; apply exp_le; lra).
  assert (M2 : m - 1 <= 0.2842 * L).
  { set (x := ln m) in *. assert (E : m = exp x) by (unfold x; symmetry; apply exp_ln; exact m0).
    pose proof (exp_ineq1_le (- x)) as X. rewrite exp_Ropp, <- E in X. assert (Y : m * (1 - x) <= 1).
    { replace 1 with (m * / m) at 2 by (field; lra). apply Rmult_le_compat_l; lra. }
    assert ((1 - x) * (m - 1) <= x) by lra.
    assert ((1 - 0.2427 * 0.6) * (m - 1) <= (1 - x) * (m - 1)) by (apply Rmult_le_compat_r; lra). lra. }
  (* lower *)
  set (A := 1 - 0.17 * (m - 1)) in *. assert (hA : 0.95 <= A) by (unfold A; lra).
  set (Bs := 1 - 0.14 * s) in *. assert (hB : 0.86 <= Bs) by (unfold Bs; lra).
  assert (FB : 0 < F * Bs) by (apply Rmult_lt_0_compat; lra).
  assert (FyB : 0 < Fy) by lra.
  assert (FUlo : Lq * (F * Bs * A) <= FU). { apply Rle_trans with (2 := SL). apply Rmult_le_compat_l; [lra|]. apply Rmult_le_compat_r; lra. }
  assert (pos1 : 0 < Lq * (F * Bs * A)) by (apply Rmult_lt_0_compat; [exact Lq0|apply Rmult_lt_0_compat; lra]).
  split; [lra|]. split.
  - apply ln_le' in FUlo; [|exact pos1]. rewrite ln_mult in FUlo by (try (apply Rmult_lt_0_compat); lra). rewrite ln_mult in FUlo by lra. rewrite ln_mult in FUlo by lra.
    rewrite LL in FUlo.
    assert (NA : - (0.0516 * L) <= ln A).
    { pose proof (ln_ge_inv A ltac:(lra)) as X. assert (/ A <= 1 + 0.0516 * L); [|lra].
      apply Rmult_le_reg_l with A; [lra|]. rewrite Rinv_r by lra. assert (0 <= (0.048314 * 0.6 - 0.048314 * L) * L) by (apply Rmult_le_pos; lra). unfold A.
      assert (0.17 * (m - 1) * (1 + 0.0516 * L) <= 0.17 * (0.2842 * L) * (1 + 0.0516 * L)) by (apply Rmult_le_compat_r; lra). nra. }
    assert (NB : - (0.1628 * s) <= ln Bs).
    { pose proof (ln_ge_inv Bs ltac:(lra)) as X. assert (/ Bs <= 1 + 0.1628 * s); [|lra].
      apply Rmult_le_reg_l with Bs; [lra|]. rewrite Rinv_r by lra. unfold Bs. assert (0 <= s * (1 - s)) by (apply Rmult_le_pos; lra). lra. }
    assert (2.38 * L <= q * L) by (apply Rmult_le_compat_r; lra). lra.
  - set (A' := m + 0.17 * (m - 1)) in *. assert (Z : Fy * A' <= F * (1 + 0.468 * s) * A') by (apply Rmult_le_compat_r; unfold A'; lra).
    assert (FUhi : FU <= Lq * (F * (1 + 0.468 * s) * A')) by (apply Rle_trans with (1 := SH); apply Rmult_le_compat_l; lra).
    apply ln_le' in FUhi; [|lra]. assert (A'0 : 0 < A') by (unfold A'; lra).
    rewrite ln_mult in FUhi; [|lra|apply Rmult_lt_0_compat; [apply Rmult_lt_0_compat; lra|lra]]. rewrite ln_mult in FUhi; [|apply Rmult_lt_0_compat; lra|lra]. rewrite ln_mult in FUhi by lra.
    rewrite LL in FUhi.
    assert (NA : ln A' <= 0.2427 * L + 0.17 * (0.2842 * L)).
    { replace A' with (m * (1 + 0.17 * (1 - / m))) by (unfold A'; field; lra). assert (0 < / m <= 1) by (split; [apply Rinv_0_lt_compat; lra|rewrite <- Rinv_1; apply Rinv_le_contravar; lra]).
      rewrite ln_mult by lra. pose proof (ln_le_sub1 (1 + 0.17 * (1 - / m)) ltac:(lra)) as X.
      assert (1 - / m <= m - 1) by (assert (0 <= (m - 1) * (1 - / m)) by (apply Rmult_le_pos; lra); assert (m * / m = 1) by (field; lra); lra). lra. }
    pose proof (ln_le_sub1 (1 + 0.468 * s) ltac:(lra)) as NB. assert (q * L <= 2.381 * L) by (apply Rmult_le_compat_r; lra). lra.
Qed.
End Elast.
