(** * The compressed response as a concave function of the cone excitation.  Proof file. *)
From Coq Require Import ZArith Bool Reals Lra Lia Psatz.
From Verif Require Import PfNear PfVc PfRel PfCamC.
Open Scope R_scope.

Definition pc (x : R) : R := Rpower x (21 / 50).
Definition F (x : R) : R := hyp (pc x).
(** Its derivative. *)
Definition m (y : R) : R := 4557.84 * (pc y / (y * ((pc y + 27.13) * (pc y + 27.13)))).

Lemma pc_pos x : 0 < pc x. Proof. apply exp_pos. Qed.

Lemma bern z : 0 < z -> Rpower z (21 / 50) <= 1 + 21 / 50 * (z - 1).
Proof.
  intros hz. unfold Rpower. assert (E : z = exp (ln z)) by (symmetry; apply exp_ln; exact hz). rewrite E at 2. set (u := ln z). clearbody u. clear E hz z.
  set (q := exp (21 / 50 * u)). assert (P : 0 < q) by apply exp_pos.
  assert (E1 : exp u = q * exp (29 / 50 * u)) by (unfold q; rewrite <- exp_plus; f_equal; lra).
  assert (E2 : 1 = q * exp (- (21 / 50 * u))) by (unfold q; rewrite <- exp_plus, <- exp_0; f_equal; lra).
  assert (H1 : q * (1 + 29 / 50 * u) <= exp u) by (rewrite E1; apply Rmult_le_compat_l; [lra|apply exp_ineq1_le]).
  assert (H2 : q * (1 + - (21 / 50 * u)) <= 1) by (rewrite E2 at 2; apply Rmult_le_compat_l; [lra|apply exp_ineq1_le]). lra.
Qed.

Lemma pc_tangent x y : 0 < x -> 0 < y -> pc x <= pc y + 21 / 50 * (pc y / y) * (x - y).
Proof.
  intros hx hy. assert (Z : 0 < x / y) by (apply Rdiv_lt_0_compat; assumption). pose proof (bern _ Z) as B.
  assert (E : pc x = pc y * Rpower (x / y) (21 / 50)).
  { unfold pc. rewrite Rpower_mult_distr by assumption. f_equal. field. lra. }
  rewrite E. apply Rle_trans with (pc y * (1 + 21 / 50 * (x / y - 1))); [apply Rmult_le_compat_l; [left; apply pc_pos|exact B]|].
  right. field. lra.
Qed.

Lemma hyp_tangent a b : 0 < a -> 0 < b -> hyp a <= hyp b + 10852 * / ((b + 27.13) * (b + 27.13)) * (a - b).
Proof.
  intros ha hb. assert (K : 0 < 27.13) by lra. assert (E : 10852 = 400 * 27.13) by lra. unfold hyp. rewrite E. set (k := 27.13) in *. clearbody k. clear E.
  assert (D : 400 * b / (b + k) + 400 * k * / ((b + k) * (b + k)) * (a - b) - 400 * a / (a + k)
    = 400 * k * ((a - b) * (a - b)) * (/ ((b + k) * (b + k)) * / (a + k))) by (field; lra).
  assert (0 <= 400 * k * ((a - b) * (a - b)) * (/ ((b + k) * (b + k)) * / (a + k))); [|lra].
  apply Rmult_le_pos; [apply Rmult_le_pos; [lra|apply Rle_0_sqr]|]. apply Rmult_le_pos; left; apply Rinv_0_lt_compat; [apply Rmult_lt_0_compat|]; lra.
Qed.

Lemma F_tangent x y : 0 < x -> 0 < y -> F x <= F y + m y * (x - y).
Proof.
  intros hx hy. unfold F. assert (P := pc_pos x). assert (Q := pc_pos y). pose proof (hyp_tangent (pc x) (pc y) P Q) as H.
  pose proof (pc_tangent x y hx hy) as T. set (a := pc x) in *. unfold m. set (b := pc y) in *. clearbody a b.
  set (s := / ((b + 27.13) * (b + 27.13))) in *. assert (S : 0 < s) by (apply Rinv_0_lt_compat, Rmult_lt_0_compat; lra).
  assert (H2 : 10852 * s * (a - b) <= 10852 * s * (21 / 50 * (b / y) * (x - y))) by (apply Rmult_le_compat_l; lra).
  apply Rle_trans with (1 := H). apply Rle_trans with (hyp b + 10852 * s * (21 / 50 * (b / y) * (x - y))); [lra|]. right. f_equal.
  replace 4557.84 with (10852 * (21 / 50)) by lra. unfold s. clear - hy Q. assert (0 < b + 27.13) by lra. set (c := b + 27.13) in *. clearbody c. field. lra.
Qed.

Lemma F_mono x y : 0 < x <= y -> F x <= F y.
Proof.
  intros h. unfold F. assert (P := pc_pos x). assert (Q : pc x <= pc y) by (unfold pc; apply rpower_mono; lra). set (a := pc x) in *. set (b := pc y) in *. clearbody a b.
  unfold hyp. apply Rmult_le_reg_r with ((a + 27.13) * (b + 27.13)); [apply Rmult_lt_0_compat; lra|].
  assert (K : 0 < 27.13) by lra. set (k := 27.13) in *. clearbody k.
  replace (400 * a / (a + k) * ((a + k) * (b + k))) with (400 * a * (b + k)) by (field; lra). replace (400 * b / (b + k) * ((a + k) * (b + k))) with (400 * b * (a + k)) by (field; lra). nra.
Qed.

Lemma F_nonneg x : 0 <= F x.
Proof. unfold F, hyp. assert (P := pc_pos x). apply Rmult_le_pos; [lra|]. left. apply Rinv_0_lt_compat. lra. Qed.

Lemma F_chord x1 x x2 v1 v2 s : 0 < x1 -> x1 <= x <= x2 -> v1 <= F x1 -> v2 <= F x2 -> s * (x2 - x1) <= v2 - v1 -> v1 + s * (x - x1) <= F x.
Proof.
  intros p [h1 h2] H1 H2 hs. destruct (Req_dec x1 x2) as [e|n]; [assert (x = x1) by lra; subst x; lra|].
  pose proof (F_tangent x1 x p ltac:(lra)) as T1. pose proof (F_tangent x2 x ltac:(lra) ltac:(lra)) as T2.
  set (f := F x) in *. set (mm := m x) in *. clearbody f mm.
  assert (G : (x2 - x1) * (v1 + s * (x - x1)) <= (x2 - x1) * f); [|apply Rmult_le_reg_l with (x2 - x1); lra].
  apply Rle_trans with ((x2 - x1) * v1 + (x - x1) * (v2 - v1)).
  - assert ((x - x1) * (s * (x2 - x1)) <= (x - x1) * (v2 - v1)) by (apply Rmult_le_compat_l; lra). lra.
  - assert (A1 : (x2 - x) * v1 <= (x2 - x) * (f + mm * (x1 - x))) by (apply Rmult_le_compat_l; lra).
    assert (A2 : (x - x1) * v2 <= (x - x1) * (f + mm * (x2 - x))) by (apply Rmult_le_compat_l; lra). lra.
Qed.

Lemma pc_grid t : 0 < t -> pc (t ^ 50) = t ^ 21.
Proof.
  intros h. unfold pc. rewrite <- (Rpower_pow 50), <- (Rpower_pow 21) by exact h. rewrite Rpower_mult. f_equal. simpl. lra.
Qed.

(** ** How fast the derivative falls *)
Lemma m_form y : 0 < y -> m y = 4557.84 * (Rpower y (- (29 / 50)) * (/ (pc y + 27.13) * / (pc y + 27.13))).
Proof.
  intros h. unfold m. assert (P := pc_pos y). assert (E : pc y = Rpower y (- (29 / 50)) * y).
  { unfold pc. rewrite <- (Rpower_1 y) at 3 by exact h. rewrite <- Rpower_plus. f_equal. lra. }
  f_equal. set (a := pc y) in *. clearbody a. assert (0 < a + 27.13) by lra. set (c := a + 27.13) in *. clearbody c. rewrite E. field. lra.
Qed.

(** [c] to the power -50 is at least K^29: the derivative at r <= K b is at least 0.945 c times that at b. *)
Lemma m_ratio r b K c : 0 < r <= 0.5 -> 0 < b <= 0.5 -> 1 <= K -> r <= K * b -> 0 < c <= 1 -> c ^ 50 * K ^ 29 <= 1 -> 0.94 * c * m b <= m r.
Proof.
  intros hr hb hK hrb hc hcK. rewrite (m_form r), (m_form b) by lra.
  assert (PA : forall x, 0 < x <= 0.5 -> 0 < pc x <= 0.76).
  { intros x hx. split; [apply pc_pos|]. apply (pow_hi_small _ _ _ 2 5); [lra|lra|lia|simpl; lra|]. apply Rle_trans with (0.5 ^ 2); [apply pow_incr; lra|lra]. }
  assert (Ar := PA r hr). assert (Ab := PA b hb). set (ar := pc r) in *. set (a_b := pc b) in *. clearbody ar a_b. clear PA.
  assert (Q : c * Rpower b (- (29 / 50)) <= Rpower r (- (29 / 50))).
  { rewrite !Rpower_Ropp. assert (Pr : 0 < Rpower r (29 / 50)) by apply exp_pos. assert (Pb : 0 < Rpower b (29 / 50)) by apply exp_pos.
    assert (R1 : Rpower r (29 / 50) <= Rpower (K * b) (29 / 50)) by (apply rpower_mono; lra).
    rewrite <- Rpower_mult_distr in R1 by lra.
    assert (R2 : Rpower K (29 / 50) <= / c).
    { replace (29 / 50) with (INR 29 / INR 50) by (simpl; lra). apply rpow_ratio_hi; [lra|apply Rinv_0_lt_compat; lra|lia|].
      rewrite pow_inv. assert (0 < c ^ 50) by (apply pow_lt; lra). apply Rmult_le_reg_l with (c ^ 50); [assumption|]. rewrite Rinv_r by lra. exact hcK. }
    set (pr := Rpower r (29 / 50)) in *. set (pb := Rpower b (29 / 50)) in *. set (pk := Rpower K (29 / 50)) in *. clearbody pr pb pk.
    apply Rmult_le_reg_r with (pr * pb); [apply Rmult_lt_0_compat; assumption|].
    replace (c * / pb * (pr * pb)) with (c * pr) by (field; lra). replace (/ pr * (pr * pb)) with pb by (field; lra).
    apply Rle_trans with (c * (/ c * pb)); [apply Rmult_le_compat_l; [lra|]|right; field; lra].
    apply Rle_trans with (1 := R1). apply Rmult_le_compat_r; lra. }
  assert (I : forall a, 0 < a <= 0.76 -> 0.03585 <= / (a + 27.13) <= 0.03687).
  { intros a ha. assert (P : 0 < / (a + 27.13)) by (apply Rinv_0_lt_compat; lra). assert (E : / (a + 27.13) * (a + 27.13) = 1) by (apply Rinv_l; lra). set (i := / (a + 27.13)) in *. clearbody i. nra. }
  assert (Ir := I ar Ar). assert (Ib := I a_b Ab). set (ir := / (ar + 27.13)) in *. set (ib := / (a_b + 27.13)) in *. clearbody ir ib. clear I.
  assert (J : 0.94 * (ib * ib) <= ir * ir) by nra.
  assert (Pb : 0 < Rpower b (- (29 / 50))) by apply exp_pos. set (pb := Rpower b _) in *. set (pr := Rpower r _) in *. clearbody pb pr.
  replace (0.94 * c * (4557.84 * (pb * (ib * ib)))) with (4557.84 * ((c * pb) * (0.94 * (ib * ib)))) by ring.
  apply Rmult_le_compat_l; [lra|]. apply Rmult_le_compat; try lra; [apply Rmult_le_pos; lra|]. apply Rmult_le_pos; [lra|apply Rle_0_sqr].
Qed.

Lemma m_pos y : 0 < y -> 0 < m y.
Proof.
  intros h. rewrite m_form by exact h. assert (P := pc_pos y). assert (0 < / (pc y + 27.13)) by (apply Rinv_0_lt_compat; lra).
  apply Rmult_lt_0_compat; [lra|]. apply Rmult_lt_0_compat; [apply exp_pos|]. apply Rmult_lt_0_compat; assumption.
Qed.
