(** * Relative errors of positive float expressions.  Proof file. *)
From Coq Require Import ZArith Bool Reals Lra Lia Psatz String List.
From Flocq Require Import Core Relative IEEE754.BinarySingleNaN.
From Verif Require Import F64 MathUtils Spec SpecCam FloatFacts FloatMono PfMath PfTones PfLab PfGamma PfNear PfVc.
Open Scope string_scope.
Open Scope R_scope.

Lemma div_le x s c : 0 < s -> x <= c * s -> x / s <= c.
Proof. intros h q. apply Rmult_le_reg_r with s; [exact h|]. unfold Rdiv. rewrite Rmult_assoc, Rinv_l, Rmult_1_r by lra. exact q. Qed.
Lemma le_div x s c : 0 < s -> c * s <= x -> c <= x / s.
Proof. intros h q. apply Rmult_le_reg_r with s; [exact h|]. unfold Rdiv. rewrite Rmult_assoc, Rinv_l, Rmult_1_r by lra. exact q. Qed.

(** [x] is within the relative error [e] of the positive number [r]. *)
Definition rel (x r e : R) : Prop := 0 < r /\ r * (1 - e) <= x <= r * (1 + e).
Definition frel (x : f64) (r e : R) : Prop := fin x /\ rel (B2R x) r e.

Lemma rel_w x r e e' : rel x r e -> e <= e' -> rel x r e'.
Proof. intros [h b] q. split; [exact h|]. assert (r * e <= r * e') by (apply Rmult_le_compat_l; lra). lra. Qed.
Lemma frel_w x r e e' : frel x r e -> e <= e' -> frel x r e'.
Proof. intros [f h] q. split; [exact f|]. now apply rel_w with e. Qed.
Lemma frel_self x : fin x -> 0 < B2R x -> frel x (B2R x) 0.
Proof. intros f h. split; [exact f|]. split; [exact h|lra]. Qed.
Lemma rel_pos x r e : rel x r e -> e <= 1 / 2 -> 0 < x.
Proof. intros [h b] q. assert (r * e <= r * (1 / 2)) by (apply Rmult_le_compat_l; lra). lra. Qed.
Lemma frel_near x r e M : frel x r e -> r <= M -> 0 <= e -> near x r (M * e).
Proof.
  intros [f [h b]] q p. split; [exact f|]. assert (r * e <= M * e) by (apply Rmult_le_compat_r; lra). lra.
Qed.
Lemma near_frel x r e m : near x r e -> 0 < m <= r -> 0 <= e -> frel x r (e / m).
Proof.
  intros [f h] hm he. split; [exact f|]. split; [lra|].
  assert (Q : m * (e / m) = e) by (field; lra). assert (P : 0 <= e / m) by (apply Rmult_le_pos; [exact he|left; apply Rinv_0_lt_compat; lra]).
  assert (m * (e / m) <= r * (e / m)) by (apply Rmult_le_compat_r; lra). lra.
Qed.
Lemma frel_const (c : f64) k r e : fin c -> B2R c = k -> rel k r e -> frel c r e.
Proof. intros f <- h. split; assumption. Qed.

Lemma rnd_rel_pos r : 1 / 10 ^ 30 <= r -> rel (rnd r) r (2 / 10 ^ 16).
Proof.
  intros h. split; [lra|]. pose proof (rnd_bounds r ltac:(lra)) as B. pose proof eta_small.
  assert (u53 <= 1.2 / 10 ^ 16) by (unfold u53; lra). assert (u53 * r <= 1.2 / 10 ^ 16 * r) by (apply Rmult_le_compat_r; lra). lra.
Qed.

Lemma rel_rnd x r e : rel x r e -> 0 <= e <= 1 / 2 -> 2 / 10 ^ 30 <= r -> rel (rnd x) r (e + 3 / 10 ^ 16).
Proof.
  intros [h b] he hr. assert (r * e <= r * (1 / 2)) by (apply Rmult_le_compat_l; lra). assert (0 <= r * e) by (apply Rmult_le_pos; lra).
  destruct (rnd_rel_pos x ltac:(lra)) as [_ q]. split; [exact h|]. lra.
Qed.

Lemma rel_mul x y r s a b : rel x r a -> rel y s b -> 0 <= a <= 1 / 10 -> 0 <= b <= 1 / 10 -> rel (x * y) (r * s) (1.1 * (a + b)).
Proof.
  intros [hr bx] [hs by_] ha hb. split; [now apply Rmult_lt_0_compat|].
  assert (r * a <= r * (1 / 10)) by (apply Rmult_le_compat_l; lra). assert (s * b <= s * (1 / 10)) by (apply Rmult_le_compat_l; lra).
  assert (P : 0 < r * s) by (now apply Rmult_lt_0_compat). assert (ab : 0 <= a * b <= 0.1 * b) by (split; [apply Rmult_le_pos; lra|apply Rmult_le_compat_r; lra]).
  split.
  - apply Rle_trans with ((r * (1 - a)) * (s * (1 - b))); [|apply Rmult_le_compat; try lra; apply Rmult_le_pos; lra].
    replace (r * (1 - a) * (s * (1 - b))) with (r * s * (1 - (a + b - a * b))) by ring. apply Rmult_le_compat_l; lra.
  - apply Rle_trans with ((r * (1 + a)) * (s * (1 + b))); [apply Rmult_le_compat; lra|].
    replace (r * (1 + a) * (s * (1 + b))) with (r * s * (1 + (a + b + a * b))) by ring. apply Rmult_le_compat_l; lra.
Qed.

Lemma rel_inv y s b : rel y s b -> 0 <= b <= 1 / 10 -> rel (/ y) (/ s) (1.2 * b).
Proof.
  intros [hs by_] hb. assert (s * b <= s * (1 / 10)) by (apply Rmult_le_compat_l; lra). assert (Y : 0 < y) by lra.
  assert (I : 0 < / s) by (now apply Rinv_0_lt_compat). split; [exact I|].
  assert (B2 : 0 <= b * b <= 0.1 * b) by (split; [apply Rmult_le_pos; lra|apply Rmult_le_compat_r; lra]).
  split; apply Rmult_le_reg_r with (s * y); try (apply Rmult_lt_0_compat; lra).
  - replace (/ y * (s * y)) with s by (field; lra). replace (/ s * (1 - 1.2 * b) * (s * y)) with ((1 - 1.2 * b) * y) by (field; lra).
    apply Rle_trans with ((1 - 1.2 * b) * (s * (1 + b))); [apply Rmult_le_compat_l; lra|].
    replace ((1 - 1.2 * b) * (s * (1 + b))) with (s * (1 - 0.2 * b - 1.2 * (b * b))) by lra. rewrite <- (Rmult_1_r s) at 2. apply Rmult_le_compat_l; lra.
  - replace (/ y * (s * y)) with s by (field; lra). replace (/ s * (1 + 1.2 * b) * (s * y)) with ((1 + 1.2 * b) * y) by (field; lra).
    apply Rle_trans with ((1 + 1.2 * b) * (s * (1 - b))); [|apply Rmult_le_compat_l; lra].
    replace ((1 + 1.2 * b) * (s * (1 - b))) with (s * (1 + 0.2 * b - 1.2 * (b * b))) by lra. rewrite <- (Rmult_1_r s) at 1. apply Rmult_le_compat_l; lra.
Qed.

Lemma rel_div x y r s a b : rel x r a -> rel y s b -> 0 <= a <= 1 / 20 -> 0 <= b <= 1 / 20 -> rel (x / y) (r / s) (1.4 * (a + b)).
Proof.
  intros hx hy ha hb. apply rel_w with (1.1 * (a + 1.2 * b)); [|lra]. apply rel_mul; [exact hx|apply rel_inv; [exact hy|lra]|lra|lra].
Qed.

Lemma rel_big x r e : rel x r e -> 0 <= e <= 1 / 2 -> r <= 10 ^ 20 -> 0 < x <= 2 * 10 ^ 20.
Proof. intros [h b] he hr. assert (r * e <= r * (1 / 2)) by (apply Rmult_le_compat_l; lra). lra. Qed.

Lemma frel_mul x y r s a b : frel x r a -> frel y s b -> 0 <= a <= 1 / 10 -> 0 <= b <= 1 / 10 -> 1 / 10 ^ 15 <= r * s <= 10 ^ 20 ->
  frel (fmul x y) (r * s) (1.1 * (a + b) + 3 / 10 ^ 16).
Proof.
  intros [fx hx] [fy hy] ha hb h. pose proof (rel_mul _ _ _ _ _ _ hx hy ha hb) as P.
  pose proof (rel_big _ _ _ P ltac:(lra) ltac:(lra)) as G.
  destruct (fmul_S x y fx fy ltac:(unfold HUGE; lra)) as [E F]. split; [exact F|]. rewrite E. apply rel_rnd; [exact P|lra|lra].
Qed.
Lemma frel_div x y r s a b : frel x r a -> frel y s b -> 0 <= a <= 1 / 20 -> 0 <= b <= 1 / 20 -> 1 / 10 ^ 15 <= r / s <= 10 ^ 20 ->
  frel (fdiv x y) (r / s) (1.4 * (a + b) + 3 / 10 ^ 16).
Proof.
  intros [fx hx] [fy hy] ha hb h. pose proof (rel_div _ _ _ _ _ _ hx hy ha hb) as P.
  pose proof (rel_big _ _ _ P ltac:(lra) ltac:(lra)) as G. pose proof (rel_pos _ _ _ hy ltac:(lra)) as Y.
  destruct (fdiv_S x y fx ltac:(lra) ltac:(unfold HUGE; lra)) as [E F]. split; [exact F|]. rewrite E. apply rel_rnd; [exact P|lra|lra].
Qed.
Lemma frel_add x y r s e : frel x r e -> frel y s e -> 0 <= e <= 1 / 10 -> 1 / 10 ^ 15 <= r + s <= 10 ^ 20 ->
  frel (fadd x y) (r + s) (e + 3 / 10 ^ 16).
Proof.
  intros [fx [hr hx]] [fy [hs hy]] ha h. assert (P : rel (B2R x + B2R y) (r + s) e) by (split; lra).
  pose proof (rel_big _ _ _ P ltac:(lra) ltac:(lra)) as G.
  destruct (fadd_S x y fx fy ltac:(unfold HUGE; lra)) as [E F]. split; [exact F|]. rewrite E. apply rel_rnd; [exact P|lra|lra].
Qed.

Lemma fsqrt_R (x : f64) : fin x -> 0 <= B2R x -> fin (fsqrt x) /\ B2R (fsqrt x) = rnd (sqrt (B2R x)).
Proof.
  intros f h. pose proof (Bsqrt_correct 53 1024 prec53 prec53_lt mode_NE x) as (E & F & _).
  split; [|exact E]. change (is_finite (fsqrt x) = true). unfold fsqrt. rewrite F.
  destruct x as [s|s| |s m e p]; try reflexivity; [discriminate f|discriminate f|].
  destruct s; [|reflexivity]. exfalso. simpl in h. unfold F2R in h. simpl in h.
  assert (0 < bpow radix2 e) by apply bpow_gt_0. assert (IZR (Z.neg m) <= -1) by (apply IZR_le; lia).
  assert (IZR (Z.neg m) * bpow radix2 e <= -1 * bpow radix2 e) by (apply Rmult_le_compat_r; lra). lra.
Qed.

Lemma rel_sqrt x r e : rel x r e -> 0 <= e <= 1 / 2 -> rel (sqrt x) (sqrt r) e.
Proof.
  intros [hr b] he. assert (S : 0 < sqrt r) by (now apply sqrt_lt_R0). split; [exact S|].
  assert (r * e <= r * (1 / 2)) by (apply Rmult_le_compat_l; lra).
  assert (Er : sqrt r * sqrt r = r) by (apply sqrt_def; lra). split.
  - rewrite <- (sqrt_square (sqrt r * (1 - e))) by (apply Rmult_le_pos; lra). apply sqrt_le_1_alt.
    replace (sqrt r * (1 - e) * (sqrt r * (1 - e))) with ((sqrt r * sqrt r) * ((1 - e) * (1 - e))) by ring. rewrite Er.
    apply Rle_trans with (2 := proj1 b). apply Rmult_le_compat_l; [lra|]. nra.
  - rewrite <- (sqrt_square (sqrt r * (1 + e))) by (apply Rmult_le_pos; lra). apply sqrt_le_1_alt.
    replace (sqrt r * (1 + e) * (sqrt r * (1 + e))) with ((sqrt r * sqrt r) * ((1 + e) * (1 + e))) by ring. rewrite Er.
    apply Rle_trans with (1 := proj2 b). apply Rmult_le_compat_l; [lra|]. nra.
Qed.
Lemma frel_sqrt x r e : frel x r e -> 0 <= e <= 1 / 2 -> 1 / 10 ^ 20 <= r <= 10 ^ 20 -> frel (fsqrt x) (sqrt r) (e + 3 / 10 ^ 16).
Proof.
  intros [f h] he hr. pose proof (rel_pos _ _ _ h ltac:(lra)) as P. destruct (fsqrt_R x f ltac:(lra)) as [F E].
  split; [exact F|]. rewrite E. apply rel_rnd; [now apply rel_sqrt|lra|].
  apply Rle_trans with (sqrt (1 / 10 ^ 20)); [|apply sqrt_le_1_alt; lra].
  replace (1 / 10 ^ 20) with ((1 / 10 ^ 10) * (1 / 10 ^ 10)) by lra. rewrite sqrt_square; lra.
Qed.

Lemma rel_pow x r e y : rel x r e -> 0 <= e <= 1 / 1000 -> 0 <= y <= 3 -> rel (Rpower x y) (Rpower r y) (4 * y * e).
Proof.
  intros [hr b] he hy. destruct (ln_near x r e hr ltac:(lra) b) as [px l].
  assert (ye : 0 <= y * e <= 3 / 1000) by (split; [apply Rmult_le_pos; lra|apply Rle_trans with (3 * (1 / 1000)); [apply Rmult_le_compat; lra|lra]]).
  destruct (rpow_near x r y y (2 * (y * e)) px hr) as [A B]; [|lra|].
  - replace (y * ln x - y * ln r) with (y * (ln x - ln r)) by ring. pose proof (mul_bnd y (ln x - ln r) y (2 * e) ltac:(lra) l). lra.
  - split; [apply exp_pos|]. assert (0 < Rpower r y) by apply exp_pos. split.
    + apply Rle_trans with (2 := A). apply Rmult_le_compat_l; lra.
    + apply Rle_trans with (1 := B). apply Rmult_le_compat_l; lra.
Qed.

Section Acc.
Context {lm : Libm} (LA : libm_accurate (1 / 10 ^ 13) lm).
Lemma pow_wide (x y : f64) : fin x -> fin y -> 0 < B2R x -> 1 / 10 ^ 15 <= Rpower (B2R x) (B2R y) <= 10 ^ 15 ->
  frel (powf x y) (Rpower (B2R x) (B2R y)) (1 / 10 ^ 13).
Proof using LA.
  intros fx fy px b. destruct (la_pow _ _ LA x y fx fy px) as [F E].
  { split.
    - apply Rle_trans with (bpow radix2 (-60)); [apply bpow_le; lia|]. simpl bpow. lra.
    - apply Rle_trans with (bpow radix2 60); [simpl bpow; lra|apply bpow_le; lia]. }
  split; [exact F|]. split; [lra|]. apply Rabs_le_inv in E. lra.
Qed.
Lemma frel_pow (x y : f64) r e : frel x r e -> fin y -> 0 <= e <= 1 / 1000 -> 0 <= B2R y <= 3 -> 2 / 10 ^ 15 <= Rpower r (B2R y) <= 10 ^ 14 ->
  frel (powf x y) (Rpower r (B2R y)) (4.4 * B2R y * e + 1.2 / 10 ^ 13).
Proof using LA.
  intros [fx h] fy he hy b. pose proof (rel_pos _ _ _ h ltac:(lra)) as P. pose proof (rel_pow _ _ _ _ h he hy) as Q.
  assert (ye : 0 <= B2R y * e <= 3 / 1000) by (split; [apply Rmult_le_pos; lra|apply Rle_trans with (3 * (1 / 1000)); [apply Rmult_le_compat; lra|lra]]).
  pose proof Q as [q0 q]. set (R0 := Rpower r (B2R y)) in *.
  assert (R0 * (4 * B2R y * e) <= R0 * 0.012) by (apply Rmult_le_compat_l; lra). assert (0 <= R0 * (4 * B2R y * e)) by (apply Rmult_le_pos; lra).
  destruct (pow_wide x y fx fy P ltac:(lra)) as [F [p0 p]]. split; [exact F|]. split; [exact q0|].
  set (S := Rpower (B2R x) (B2R y)) in *. clearbody R0 S. 
  assert (U : S * (1 / 10 ^ 13) <= R0 * (1.1 / 10 ^ 13)) by lra. 
  assert (0 <= R0 * (0.4 * B2R y * e)) by (apply Rmult_le_pos; lra). lra.
Qed.
End Acc.
