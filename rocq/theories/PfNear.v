(** * Tracking absolute errors through float expressions.  Proof file. *)
From Coq Require Import ZArith Bool Reals Lra Lia Psatz String List.
From Flocq Require Import Core Relative IEEE754.BinarySingleNaN.
From Verif Require Import F64 Spec FloatFacts FloatMono PfMath PfLab.
Open Scope string_scope.
Open Scope R_scope.

(** [x] is finite and within [e] of [r]. *)
Definition near (x : f64) (r e : R) : Prop := fin x /\ r - e <= B2R x <= r + e.

Lemma near_fin x r e : near x r e -> fin x.
Proof. intros [h _]. exact h. Qed.
Lemma near_self x : fin x -> near x (B2R x) 0.
Proof. intros h. split; [exact h|lra]. Qed.
Lemma near_weak x r e e' : near x r e -> e <= e' -> near x r e'.
Proof. intros [h b] q. split; [exact h|lra]. Qed.
Lemma near_move x r e r' e' : near x r e -> - (e' - e) <= r - r' <= e' - e -> near x r' e'.
Proof. intros [h b] q. split; [exact h|lra]. Qed.

(** Twice the unit roundoff, with room for the underflow term. *)
Definition uu : R := 2 / 10 ^ 16.

Lemma rnd_uu r M : - M <= r <= M -> 1 / 10 ^ 30 <= M -> r - M * uu <= rnd r <= r + M * uu.
Proof.
  intros h hM. pose proof (rnd_bounds_abs r M ltac:(apply Rabs_le; lra)) as E. pose proof eta_small. unfold u53, uu in *. lra.
Qed.

Lemma near_add x y a b ea eb M : near x a ea -> near y b eb -> - M <= a + b <= M -> 0 <= ea -> 0 <= eb -> ea + eb <= M -> 1 / 10 ^ 30 <= M <= 10 ^ 20 ->
  near (fadd x y) (a + b) (ea + eb + 2 * M * uu).
Proof.
  intros [fx hx] [fy hy] h pa pb he hM.
  destruct (fadd_S x y fx fy ltac:(unfold HUGE; lra)) as [E F]. split; [exact F|]. rewrite E.
  pose proof (rnd_uu (B2R x + B2R y) (2 * M) ltac:(lra) ltac:(lra)). lra.
Qed.
Lemma near_sub x y a b ea eb M : near x a ea -> near y b eb -> - M <= a - b <= M -> 0 <= ea -> 0 <= eb -> ea + eb <= M -> 1 / 10 ^ 30 <= M <= 10 ^ 20 ->
  near (fsub x y) (a - b) (ea + eb + 2 * M * uu).
Proof.
  intros [fx hx] [fy hy] h pa pb he hM.
  destruct (fsub_S x y fx fy ltac:(unfold HUGE; lra)) as [E F]. split; [exact F|]. rewrite E.
  pose proof (rnd_uu (B2R x - B2R y) (2 * M) ltac:(lra) ltac:(lra)). lra.
Qed.

Lemma mul_err x y a b ea eb A B : a - ea <= x <= a + ea -> b - eb <= y <= b + eb -> - A <= a <= A -> - B <= y <= B -> 0 <= ea -> 0 <= eb ->
  - (A * eb + B * ea) <= x * y - a * b <= A * eb + B * ea.
Proof.
  intros hx hy ha hb pa pb. replace (x * y - a * b) with (a * (y - b) + (x - a) * y) by ring.
  pose proof (mul_bnd a (y - b) A eb ha ltac:(lra)). pose proof (mul_bnd (x - a) y ea B ltac:(lra) hb). lra.
Qed.

Lemma near_mul x y a b ea eb A B : near x a ea -> near y b eb -> - A <= a <= A -> - B <= B2R y <= B -> 0 <= ea -> 0 <= eb ->
  ea <= A -> 1 / 10 ^ 15 <= A <= 10 ^ 10 -> 1 / 10 ^ 15 <= B <= 10 ^ 10 ->
  near (fmul x y) (a * b) (A * eb + B * ea + 2 * (A * B) * uu).
Proof.
  intros [fx hx] [fy hy] h1 h2 pa pb hea hA hB.
  assert (Q := mul_bnd (B2R x) (B2R y) (2 * A) B ltac:(lra) ltac:(lra)).
  assert (1 / 10 ^ 30 <= A * B <= 10 ^ 20).
  { split; [apply Rle_trans with ((1 / 10 ^ 15) * (1 / 10 ^ 15)); [lra|]|apply Rle_trans with (10 ^ 10 * 10 ^ 10); [|lra]];
      apply Rmult_le_compat; lra. }
  destruct (fmul_S x y fx fy ltac:(unfold HUGE; lra)) as [E F]. split; [exact F|]. rewrite E.
  pose proof (rnd_uu (B2R x * B2R y) (2 * (A * B)) ltac:(lra) ltac:(lra)).
  pose proof (mul_err (B2R x) (B2R y) a b ea eb A B hx hy h1 h2 pa pb). lra.
Qed.

(** Quotients: the true quotient is at most [Q] in size and the denominator at least [m]. *)
Lemma near_div x y a b ea eb Q m : near x a ea -> near y b eb -> 0 < m -> m <= B2R y -> 0 < b -> - Q <= a / b <= Q -> 0 <= ea -> 0 <= eb ->
  (ea + Q * eb) / m <= Q -> 1 / 10 ^ 30 <= Q <= 10 ^ 20 ->
  near (fdiv x y) (a / b) ((ea + Q * eb) / m + 2 * Q * uu).
Proof.
  intros [fx hx] [fy hy] hm hb pb hq pa pe hs hQ.
  assert (D : - ((ea + Q * eb) / m) <= B2R x / B2R y - a / b <= (ea + Q * eb) / m).
  { set (q := a / b) in *. assert (Ea : a = q * b) by (unfold q; field; lra).
    replace (B2R x / B2R y - q) with ((B2R x - q * B2R y) * / B2R y) by (field; lra).
    assert (N : - (ea + Q * eb) <= B2R x - q * B2R y <= ea + Q * eb).
    { rewrite Ea in hx. pose proof (mul_bnd q (B2R y - b) Q eb hq ltac:(lra)). lra. }
    apply Rabs_le_inv. rewrite Rabs_mult. unfold Rdiv. apply Rmult_le_compat; try apply Rabs_pos; [apply Rabs_le; lra|].
    rewrite Rabs_pos_eq by (left; apply Rinv_0_lt_compat; lra). apply Rinv_le; lra. }
  destruct (fdiv_S x y fx ltac:(lra) ltac:(unfold HUGE; lra)) as [E F]. split; [exact F|]. rewrite E.
  pose proof (rnd_uu (B2R x / B2R y) (2 * Q) ltac:(lra) ltac:(lra)). lra.
Qed.

(** Constants. *)
Ltac nconst c := let H := fresh "N" in
  assert (H : near c (B2R c) 0) by (apply near_self; fconst c; assumption).

(** ** Powers of non-negative reals *)
Definition pw (x y : R) : R := if Rle_dec x 0 then 0 else Rpower x y.

Lemma pw_pos x y : 0 < x -> pw x y = Rpower x y.
Proof. intros h. unfold pw. destruct (Rle_dec x 0); [lra|reflexivity]. Qed.
Lemma pw_0 y : pw 0 y = 0.
Proof. unfold pw. destruct (Rle_dec 0 0); [reflexivity|lra]. Qed.
Lemma pw_nonneg x y : 0 <= pw x y.
Proof. unfold pw. destruct (Rle_dec x 0); [lra|]. unfold Rpower. left. apply exp_pos. Qed.

Lemma rpower_mono x x' y : 0 < x -> x <= x' -> 0 <= y -> Rpower x y <= Rpower x' y.
Proof. intros. apply Rle_Rpower_l; lra. Qed.

Lemma pw_mono x x' y : 0 <= x -> x <= x' -> 0 <= y -> pw x y <= pw x' y.
Proof.
  intros h1 h2 h3. destruct (Req_dec x 0) as [->|n]; [rewrite pw_0; apply pw_nonneg|].
  rewrite !pw_pos by lra. apply rpower_mono; lra.
Qed.

(** Bounds from integer powers. *)
Lemma pow_lt_strict a b n : 0 < a -> a < b -> (0 < n)%nat -> a ^ n < b ^ n.
Proof.
  intros ha hab hn. induction n as [|n IH]; [lia|]. destruct n as [|n]; [simpl; lra|].
  specialize (IH ltac:(lia)). change (a * a ^ S n < b * b ^ S n). assert (0 < a ^ S n) by (apply pow_lt; lra).
  apply Rmult_gt_0_lt_compat; lra.
Qed.

Lemma rpow_ratio_lo w t p q : 0 < w -> 0 < t -> (0 < q)%nat -> t ^ q <= w ^ p -> t <= Rpower w (INR p / INR q).
Proof.
  intros hw ht hq h. assert (P : 0 < Rpower w (INR p / INR q)) by apply exp_pos.
  assert (Q : 0 < INR q) by (apply lt_0_INR; lia).
  assert (E : Rpower w (INR p / INR q) ^ q = w ^ p).
  { rewrite <- !Rpower_pow by assumption. rewrite Rpower_mult. f_equal. field. lra. }
  destruct (Rle_or_lt t (Rpower w (INR p / INR q))) as [|g]; [assumption|exfalso].
  pose proof (pow_lt_strict _ _ q P g hq). lra.
Qed.
Lemma rpow_ratio_hi w t p q : 0 < w -> 0 < t -> (0 < q)%nat -> w ^ p <= t ^ q -> Rpower w (INR p / INR q) <= t.
Proof.
  intros hw ht hq h. assert (P : 0 < Rpower w (INR p / INR q)) by apply exp_pos.
  assert (Q : 0 < INR q) by (apply lt_0_INR; lia).
  assert (E : Rpower w (INR p / INR q) ^ q = w ^ p).
  { rewrite <- !Rpower_pow by assumption. rewrite Rpower_mult. f_equal. field. lra. }
  destruct (Rle_or_lt (Rpower w (INR p / INR q)) t) as [|g]; [assumption|exfalso].
  pose proof (pow_lt_strict _ _ q ht g hq). lra.
Qed.

Lemma rpow_exp_big w y y' : 1 <= w -> y <= y' -> Rpower w y <= Rpower w y'.
Proof.
  intros hw h. destruct (Req_dec w 1) as [->|n].
  - unfold Rpower. rewrite ln_1, !Rmult_0_r. lra.
  - destruct (Req_dec y y') as [->|m]; [lra|]. left. apply Rpower_lt; lra.
Qed.
Lemma rpow_exp_small w y y' : 0 < w <= 1 -> y <= y' -> Rpower w y' <= Rpower w y.
Proof.
  intros hw h. unfold Rpower. assert (L : ln w <= 0) by (pose proof (ln_le_sub w ltac:(lra)); lra).
  assert (y' * ln w <= y * ln w) by nra. destruct (Req_dec (y' * ln w) (y * ln w)) as [->|]; [lra|]. left. apply exp_increasing. lra.
Qed.

Lemma pow_lo_small w y t p q : 0 < w <= 1 -> 0 < t -> (0 < q)%nat -> y <= INR p / INR q -> t ^ q <= w ^ p -> t <= Rpower w y.
Proof. intros hw ht hq hy h. apply Rle_trans with (2 := rpow_exp_small w y _ hw hy). now apply rpow_ratio_lo. Qed.
Lemma pow_hi_small w y t p q : 0 < w <= 1 -> 0 < t -> (0 < q)%nat -> INR p / INR q <= y -> w ^ p <= t ^ q -> Rpower w y <= t.
Proof. intros hw ht hq hy h. apply Rle_trans with (1 := rpow_exp_small w _ y hw hy). now apply rpow_ratio_hi. Qed.
Lemma pow_lo_big w y t p q : 1 <= w -> 0 < t -> (0 < q)%nat -> INR p / INR q <= y -> t ^ q <= w ^ p -> t <= Rpower w y.
Proof. intros hw ht hq hy h. apply Rle_trans with (2 := rpow_exp_big w _ y hw hy). apply rpow_ratio_lo; try assumption; lra. Qed.
Lemma pow_hi_big w y t p q : 1 <= w -> 0 < t -> (0 < q)%nat -> y <= INR p / INR q -> w ^ p <= t ^ q -> Rpower w y <= t.
Proof. intros hw ht hq hy h. apply Rle_trans with (1 := rpow_exp_big w y _ hw hy). apply rpow_ratio_hi; try assumption; lra. Qed.

(** A power with exponent between 1 and 2 is Lipschitz on [0, A]. *)
Lemma pw_lip x y p L : 0 <= x -> x <= y -> 1 <= p <= 2 -> (0 < y -> Rpower y (p - 1) <= L) -> 0 <= L ->
  0 <= pw y p - pw x p <= 2 * L * (y - x).
Proof.
  intros hx hxy hp hL pL. split; [pose proof (pw_mono x y p hx hxy ltac:(lra)); lra|].
  destruct (Req_dec y 0) as [->|ny]; [assert (x = 0) as -> by lra; lra|].
  assert (Y : 0 < y) by lra. specialize (hL Y).
  assert (E : Rpower y p = Rpower y (p - 1) * y).
  { replace p with (p - 1 + 1) at 1 by ring. rewrite Rpower_plus, Rpower_1 by exact Y. reflexivity. }
  assert (P : 0 < Rpower y (p - 1)) by apply exp_pos.
  rewrite (pw_pos y p Y). destruct (Req_dec x 0) as [->|nx].
  - rewrite pw_0, E. rewrite !Rminus_0_r. assert (Rpower y (p - 1) * y <= L * y) by (apply Rmult_le_compat_r; lra).
    assert (0 <= L * y) by (apply Rmult_le_pos; lra). lra.
  - rewrite (pw_pos x p) by lra. set (z := x / y). assert (Z : 0 < z <= 1).
    { unfold z. split; [apply Rdiv_lt_0_compat; lra|]. apply Rmult_le_reg_r with y; [exact Y|]. unfold Rdiv. rewrite Rmult_assoc, Rinv_l; lra. }
    assert (Ex : x = y * z) by (unfold z; field; lra).
    assert (Ep : Rpower x p = Rpower y p * Rpower z p) by (rewrite Ex, Rpower_mult_distr; [reflexivity|lra|lra]).
    assert (S : z * z <= Rpower z p).
    { apply Rle_trans with (Rpower z (INR 2)); [rewrite Rpower_pow by lra; simpl; lra|]. apply rpow_exp_small; simpl; lra. }
    rewrite Ep, E. replace (y - x) with (y * (1 - z)) by (rewrite Ex; ring).
    set (K := Rpower y (p - 1)) in *. clearbody K z. clear Ep E.
    replace (K * y - K * y * Rpower z p) with (K * y * (1 - Rpower z p)) by ring.
    apply Rle_trans with (L * y * (2 * (1 - z))); [|apply Req_le; ring].
    apply Rmult_le_compat.
    + apply Rmult_le_pos; lra.
    + assert (Rpower z p <= 1); [|lra]. apply Rle_trans with (Rpower z 0); [apply rpow_exp_small; lra|]. rewrite Rpower_O by lra. lra.
    + apply Rmult_le_compat_r; lra.
    + nra.
Qed.

(** x^(1+k) is close to x. *)
Lemma pw_one_near x k : 0 <= x <= 10 ^ 4 -> - (1 / 10 ^ 10) <= k <= 1 / 10 ^ 10 ->
  - (10 ^ 6 * Rabs k) <= pw x (1 + k) - x <= 10 ^ 6 * Rabs k.
Proof.
  intros hx hk. assert (K := Rabs_pos k). destruct (Req_dec x 0) as [->|n]; [rewrite pw_0; lra|]. assert (X : 0 < x) by lra. rewrite pw_pos by exact X.
  rewrite Rpower_plus, Rpower_1 by exact X. set (s := Rpower x k).
  assert (L1 := ln_le_sub x X). assert (L2 := ln_ge_inv x X).
  assert (B : - 1 <= x * ln x <= 10 ^ 4 * 12).
  { split.
    - assert (x * (1 - / x) <= x * ln x) by (apply Rmult_le_compat_l; lra). replace (x * (1 - / x)) with (x - 1) in H by (field; lra). lra.
    - assert (ln x <= 12).
      { rewrite <- (ln_exp 12). destruct (Req_dec x (exp 12)) as [->|]; [lra|]. left. apply ln_increasing; [exact X|].
        apply Rle_lt_trans with (10 ^ 4); [lra|]. replace 12 with (INR 12 * 1) by (simpl; lra). 
        assert (E12 : exp (INR 12 * 1) = exp 1 ^ 12).
        { rewrite <- Rpower_pow by apply exp_pos. unfold Rpower. rewrite ln_exp. reflexivity. }
        rewrite E12. assert (2.2 <= exp 1) by (pose proof (exp_ineq1_le (1/10)); assert (exp (1/10) ^ 10 = exp 1) as <- by (rewrite <- Rpower_pow by apply exp_pos; unfold Rpower; rewrite ln_exp; f_equal; simpl; lra); apply Rle_trans with ((1 + 1/10) ^ 10); [lra|apply pow_incr; lra]).
        apply Rlt_le_trans with (2.2 ^ 12); [lra|apply pow_incr; lra]. }
      assert (x * ln x <= x * 12) by (apply Rmult_le_compat_l; lra). lra. }
  assert (S : 1 + k * ln x <= s) by apply exp_ineq1_le.
  assert (S' : s * (1 - k * ln x) <= 1).
  { unfold s, Rpower. pose proof (exp_ineq1_le (- (k * ln x))) as Q. rewrite exp_Ropp in Q. assert (P : 0 < exp (k * ln x)) by apply exp_pos.
    apply Rle_trans with (exp (k * ln x) * / exp (k * ln x)); [apply Rmult_le_compat_l; lra|]. rewrite Rinv_r; lra. }
  assert (P : 0 < s) by apply exp_pos.
  assert (xl := Rabs_le_inv (k * (x * ln x)) (10 ^ 4 * 12 * Rabs k)).
  assert (XL : - (10 ^ 4 * 12 * Rabs k) <= k * (x * ln x) <= 10 ^ 4 * 12 * Rabs k).
  { apply xl. rewrite Rabs_mult, Rmult_comm. apply Rmult_le_compat_r; [exact K|]. apply Rabs_le. lra. }
  assert (LO : x * (1 + k * ln x) <= x * s) by (apply Rmult_le_compat_l; lra).
  assert (HI : x * s <= x + 10 ^ 6 * Rabs k).
  { (* x s (1 - k ln x) <= x, i.e. x s <= x + s k x ln x *)
    assert (A : x * (s * (1 - k * ln x)) <= x * 1) by (apply Rmult_le_compat_l; lra).
    assert (SB : s * (k * (x * ln x)) <= 10 ^ 6 * Rabs k); [|nra].
    destruct (Rle_or_lt (k * (x * ln x)) 0) as [g|g]; [assert (s * (k * (x * ln x)) <= 0) by nra; assert (0 <= 10 ^ 6 * Rabs k) by lra; lra|].
    (* s <= 2 when the product is positive and x is not tiny; otherwise k <= 0 *)
    destruct (Rle_or_lt x 1) as [l|l].
    - assert (ln x <= 0) by lra. assert (XN : 0 <= x * - ln x) by (apply Rmult_le_pos; lra).
      assert (kn : k < 0).
      { destruct (Rlt_or_le k 0) as [|q]; [assumption|exfalso]. assert (0 <= k * (x * - ln x)) by (apply Rmult_le_pos; lra). lra. }
      (* x s = x^(1+k) = y, and y ln y is at least -1 *)
      set (y := x * s). assert (Y : 0 < y) by (apply Rmult_lt_0_compat; assumption).
      assert (Ly : ln y = (1 + k) * ln x). { unfold y, s. rewrite ln_mult by (assumption || apply exp_pos). unfold Rpower. rewrite ln_exp. ring. }
      pose proof (ln_ge_inv y Y) as L3. assert (y - 1 <= y * ln y) by (apply Rle_trans with (y * (1 - / y)); [apply Req_le; field; lra|apply Rmult_le_compat_l; lra]).
      assert (y * ln x * (1 + k) = y * ln y) by (rewrite Ly; ring).
      assert (W : - 2 <= y * ln x).
      { assert (YN : 0 <= y * - ln x) by (apply Rmult_le_pos; lra).
        assert (- k * (y * - ln x) <= 1 / 10 ^ 10 * (y * - ln x)) by (apply Rmult_le_compat_r; lra). lra. }
      replace (s * (k * (x * ln x))) with (- k * - (y * ln x)) by (unfold y; ring).
      apply Rle_trans with (- k * 2); [apply Rmult_le_compat_l; lra|]. rewrite Rabs_left1 by lra. lra.
    - assert (0 <= ln x) by (rewrite <- ln_1; left; apply ln_increasing; lra). assert (XN : 0 <= x * ln x) by (apply Rmult_le_pos; lra).
      assert (kp : 0 < k).
      { destruct (Rlt_or_le 0 k) as [|q]; [assumption|exfalso]. assert (0 <= - k * (x * ln x)) by (apply Rmult_le_pos; lra). lra. }
      assert (LX : k * ln x <= / 2). { assert (k * ln x <= 1 / 10 ^ 10 * (10 ^ 4 * 12)); [|lra]. apply Rmult_le_compat; lra. }
      assert (s <= 2) by nra. apply Rle_trans with (2 * (10 ^ 4 * 12 * Rabs k)); [|lra].
      apply Rmult_le_compat; lra. }
  nra.
Qed.
