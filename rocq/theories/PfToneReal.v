(** * How the luminance of a CAM16 colour responds to its lightness: the real analysis.  Proof file. *)
From Coq Require Import Reals Lra Lia Psatz.
Open Scope R_scope.

(** ** Elementary inequalities *)
Lemma ln_le_sub1 x : 0 < x -> ln x <= x - 1.
Proof. intros h. destruct (Req_dec x 1) as [->|n]; [rewrite ln_1; lra|]. pose proof (exp_ineq1_le (ln x)) as E. rewrite exp_ln in E by exact h. lra. Qed.
Lemma ln_ge_inv x : 0 < x -> 1 - / x <= ln x.
Proof. intros h. pose proof (ln_le_sub1 (/ x) (Rinv_0_lt_compat _ h)) as E. rewrite ln_Rinv in E by exact h. lra. Qed.

Lemma bern_ge w q : 0 < w -> 1 <= q -> 1 + q * (w - 1) <= Rpower w q.
Proof.
  intros hw hq. destruct (Rle_or_lt (1 + q * (w - 1)) 0) as [n|p]; [apply Rle_trans with (1 := n); left; apply exp_pos|].
  set (u := 1 + q * (w - 1)) in *. assert (E : ln u <= q * ln w).
  { pose proof (ln_le_sub1 (u / w) (Rdiv_lt_0_compat _ _ p hw)) as A. pose proof (ln_le_sub1 (1 / w) ltac:(apply Rdiv_lt_0_compat; lra)) as B.
    unfold Rdiv in A, B. rewrite ln_mult, ln_Rinv in A by (try apply Rinv_0_lt_compat; assumption). rewrite Rmult_1_l, ln_Rinv in B by assumption.
    set (i := / w) in *. assert (W : w * i = 1) by (unfold i; field; lra). clearbody i.
    assert (C : (q - 1) * - ln w <= (q - 1) * (i - 1)) by (apply Rmult_le_compat_l; lra).
    assert (U : u * i = q - (q - 1) * i) by (unfold u; rewrite Rmult_plus_distr_r, Rmult_assoc, Rmult_minus_distr_r, W; ring).
    lra. }
  unfold Rpower. rewrite <- (exp_ln u) at 1 by exact p. destruct (Req_dec (ln u) (q * ln w)) as [->|n]; [lra|]. left. apply exp_increasing. lra.
Qed.

Lemma exp_le x y : x <= y -> exp x <= exp y.
Proof. intros h. destruct (Req_dec x y) as [->|n]; [lra|]. left. apply exp_increasing. lra. Qed.
Lemma ln_le' x y : 0 < x -> x <= y -> ln x <= ln y.
Proof. intros h q. destruct (Req_dec x y) as [->|n]; [lra|]. left. apply ln_increasing; lra. Qed.

(** The logarithm of the mean of 1 and e^x. *)
Lemma half_lo x : x / 2 <= ln ((1 + exp x) / 2).
Proof.
  rewrite <- (ln_exp (x / 2)) at 1. apply ln_le'; [apply exp_pos|]. set (z := exp (x / 2)).
  replace (exp x) with (z * z) by (unfold z; rewrite <- exp_plus; f_equal; field). pose proof (Rle_0_sqr (z - 1)) as Q. unfold Rsqr in Q. lra.
Qed.

Lemma logistic_hi c : 0 <= c -> 2 * exp c - c * exp c <= 2 + c.
Proof.
  intros hc. destruct (Req_dec c 0) as [->|n]; [rewrite exp_0; lra|].
  destruct (MVT_cor2 (fun x => 2 * exp x - x * exp x) (fun x => 2 * exp x - (1 * exp x + x * exp x)) 0 c ltac:(lra)) as (d & E & hd).
  { intros y _. apply (derivable_pt_lim_minus (fun x => 2 * exp x) (fun x => x * exp x)).
    - apply (derivable_pt_lim_scal exp 2). apply derivable_pt_lim_exp.
    - apply (derivable_pt_lim_mult (fun x => x) exp); [apply derivable_pt_lim_id|apply derivable_pt_lim_exp]. }
  rewrite exp_0 in E. pose proof (exp_pos d) as P. pose proof (exp_ineq1_le (- d)) as X. rewrite exp_Ropp in X.
  assert (Y : (1 - d) * exp d <= 1).
  { apply Rle_trans with (/ exp d * exp d); [apply Rmult_le_compat_r; lra|rewrite Rinv_l; lra]. }
  assert (Z : (2 * exp d - (1 * exp d + d * exp d)) * (c - 0) <= 1 * c) by (replace (c - 0) with c by ring; apply Rmult_le_compat_r; lra). lra.
Qed.

Lemma half_hi_pos x : 0 <= x -> ln ((1 + exp x) / 2) <= x / 2 + x * x / 8.
Proof.
  intros hx. destruct (Req_dec x 0) as [->|n]; [rewrite exp_0; replace ((1 + 1) / 2) with 1 by field; rewrite ln_1; lra|].
  destruct (MVT_cor2 (fun x => 1 / 2 * x + 1 / 8 * (x * x) - ln (1 / 2 * (1 + exp x))) (fun x => 1 / 2 * 1 + 1 / 8 * (1 * x + x * 1) - / (1 / 2 * (1 + exp x)) * (1 / 2 * (0 + exp x))) 0 x ltac:(lra)) as (c & E & hc).
  { intros y _. apply (derivable_pt_lim_minus (fun x => 1 / 2 * x + 1 / 8 * (x * x)) (fun x => ln (1 / 2 * (1 + exp x)))).
    - apply (derivable_pt_lim_plus (fun x => 1 / 2 * x) (fun x => 1 / 8 * (x * x))).
      + apply (derivable_pt_lim_scal (fun x => x)). apply derivable_pt_lim_id.
      + apply (derivable_pt_lim_scal (fun x => x * x)). apply (derivable_pt_lim_mult (fun x => x) (fun x => x)); apply derivable_pt_lim_id.
    - apply (derivable_pt_lim_comp (fun x => 1 / 2 * (1 + exp x)) ln).
      + apply (derivable_pt_lim_scal (fun x => 1 + exp x)). apply (derivable_pt_lim_plus (fun _ => 1) exp); [apply derivable_pt_lim_const|apply derivable_pt_lim_exp].
      + apply derivable_pt_lim_ln. pose proof (exp_pos y). lra. }
  rewrite exp_0 in E. replace (1 / 2 * (1 + 1)) with 1 in E by field. rewrite ln_1 in E.
  pose proof (exp_pos c) as P. pose proof (logistic_hi c ltac:(lra)) as L.
  assert (D : 0 <= 1 / 2 * 1 + 1 / 8 * (1 * c + c * 1) - / (1 / 2 * (1 + exp c)) * (1 / 2 * (0 + exp c))).
  { replace (1 / 2 * 1 + 1 / 8 * (1 * c + c * 1) - / (1 / 2 * (1 + exp c)) * (1 / 2 * (0 + exp c))) with ((2 + c - (2 * exp c - c * exp c)) * / (4 * (1 + exp c))) by (field; lra).
    apply Rmult_le_pos; [lra|]. left. apply Rinv_0_lt_compat. lra. }
  pose proof (Rmult_le_pos _ _ D (ltac:(lra) : 0 <= x - 0)) as Q. rewrite <- E in Q.
  replace ((1 + exp x) / 2) with (1 / 2 * (1 + exp x)) by field. lra.
Qed.
Lemma half_hi x : ln ((1 + exp x) / 2) <= x / 2 + x * x / 8.
Proof.
  destruct (Rle_or_lt 0 x) as [h|h]; [apply half_hi_pos; exact h|].
  pose proof (half_hi_pos (- x) ltac:(lra)) as A. pose proof (exp_pos x) as P. pose proof (exp_pos (- x)) as P'.
  replace ((1 + exp x) / 2) with (exp x * ((1 + exp (- x)) / 2)).
  - rewrite ln_mult by lra. rewrite ln_exp. lra.
  - assert (exp x * exp (- x) = 1) by (rewrite <- exp_plus, Rplus_opp_r; apply exp_0). lra.
Qed.

(** ** One Newton step in logarithmic form *)
Lemma newton_step e m M E eta : - m <= e <= M -> 0 <= m <= 4 -> 0 <= M -> 1.48 <= E <= 2.8 -> - (1 / 10 ^ 6) <= eta <= 1 / 10 ^ 6 ->
  let e' := e - E * ln ((1 + exp e) / 2) + eta in
  - (Rmax (0.26 * m + 0.185 * m * m) (0.4 * M + 0.35 * M * M) + 1 / 10 ^ 6) <= e' <= Rmax (0.4 * m) (0.26 * M) + 1 / 10 ^ 6.
Proof.
  intros he hm hM hE ht e'. pose proof (half_lo e) as L. pose proof (half_hi e) as H. set (l := ln ((1 + exp e) / 2)) in *. clearbody l.
  pose proof (Rmax_l (0.26 * m + 0.185 * m * m) (0.4 * M + 0.35 * M * M)) as X1. pose proof (Rmax_r (0.26 * m + 0.185 * m * m) (0.4 * M + 0.35 * M * M)) as X2.
  pose proof (Rmax_l (0.4 * m) (0.26 * M)) as X3. pose proof (Rmax_r (0.4 * m) (0.26 * M)) as X4. unfold e'.
  destruct (Rle_or_lt e 0) as [n|p].
  - set (a := - e) in *. replace e with (- a) in * by (unfold a; ring). clearbody a.
    assert (0 <= a <= m) by lra. assert (a * a <= m * m) by (apply Rmult_le_compat; lra).
    assert (a * a <= 4 * a) by (apply Rmult_le_compat_r; lra).
    assert (U : - (E * l) <= 2.8 * (a / 2)). { replace (- (E * l)) with (E * - l) by ring. apply Rle_trans with (E * (a / 2)); [apply Rmult_le_compat_l; lra|apply Rmult_le_compat_r; lra]. }
    assert (D : 1.48 * (a / 2 - a * a / 8) <= - (E * l)).
    { replace (- (E * l)) with (E * - l) by ring. apply Rle_trans with (E * (a / 2 - a * a / 8)); [apply Rmult_le_compat_r; lra|apply Rmult_le_compat_l; lra]. }
    split; lra.
  - assert (e * e <= M * M) by (apply Rmult_le_compat; lra). assert (0 <= e * e) by (apply Rmult_le_pos; lra).
    assert (U : E * l <= 2.8 * (e / 2 + e * e / 8)). { apply Rle_trans with (E * (e / 2 + e * e / 8)); [apply Rmult_le_compat_l; lra|apply Rmult_le_compat_r; lra]. }
    assert (D : 1.48 * (e / 2) <= E * l). { apply Rle_trans with (E * (e / 2)); [apply Rmult_le_compat_r; lra|apply Rmult_le_compat_l; lra]. }
    split; lra.
Qed.

Lemma mix_pos a b s : 0 < a -> 0 < b -> 0 <= s <= 1 -> 0 < (1 - s) * a + s * b.
Proof.
  intros ha hb hs. assert (0 <= s * b) by (apply Rmult_le_pos; lra). assert (0 <= (1 - s) * a) by (apply Rmult_le_pos; lra).
  destruct (Rle_or_lt s (1 / 2)) as [c|c].
  - assert (1 / 2 * a <= (1 - s) * a) by (apply Rmult_le_compat_r; lra). lra.
  - assert (1 / 2 * b <= s * b) by (apply Rmult_le_compat_r; lra). lra.
Qed.

(** ** The inverse of the response compression *)
Section Resp.
Variables K q : R.
Hypothesis HK : 0 < K.
Hypothesis Hq : 2.38 <= q <= 2.381.

Definition vv (x : R) : R := Rpower (K * x / (400 - x)) q.

Lemma base_pos x : 0 < x < 400 -> 0 < K * x / (400 - x).
Proof. intros h. apply Rdiv_lt_0_compat; [apply Rmult_lt_0_compat; lra|lra]. Qed.
Lemma vv_pos x : 0 < vv x. Proof. apply exp_pos. Qed.

Lemma vv_ratio x z : 0 < x < 400 -> 0 < z < 400 -> vv z = vv x * Rpower (z / x * ((400 - x) / (400 - z))) q.
Proof.
  intros hx hz. unfold vv. rewrite Rpower_mult_distr.
  - apply (f_equal (fun t => Rpower t q)). field. lra.
  - apply base_pos; exact hx.
  - apply Rmult_lt_0_compat; apply Rdiv_lt_0_compat; lra.
Qed.

Lemma vv_tangent x z : 0 < x < 400 -> 0 < z < 400 -> vv x * (1 + q * (400 / (400 - x)) * ((z - x) / x)) <= vv z.
Proof.
  intros hx hz. rewrite (vv_ratio x z hx hz). apply Rmult_le_compat_l; [left; apply vv_pos|].
  set (w := z / x * ((400 - x) / (400 - z))). assert (hw : 0 < w) by (apply Rmult_lt_0_compat; apply Rdiv_lt_0_compat; lra).
  apply Rle_trans with (2 := bern_ge w q hw ltac:(lra)). apply Rplus_le_compat_l. rewrite Rmult_assoc. apply Rmult_le_compat_l; [lra|].
  replace (w - 1) with (400 / (400 - z) * ((z - x) / x)) by (unfold w; field; lra).
  assert (P : 0 < / x) by (apply Rinv_0_lt_compat; lra). unfold Rdiv.
  assert (A : 0 < 400 - x) by lra. assert (B : 0 < 400 - z) by lra.
  destruct (Rle_or_lt x z) as [c|c].
  - apply Rmult_le_compat_r; [apply Rmult_le_pos; lra|]. apply Rmult_le_compat_l; [lra|]. apply Rinv_le_contravar; lra.
  - assert (I : / (400 - z) <= / (400 - x)) by (apply Rinv_le_contravar; lra).
    assert (N : (z - x) * / x <= 0) by (replace ((z - x) * / x) with (- ((x - z) * / x)) by ring; pose proof (Rmult_le_pos (x - z) (/ x)); lra).
    set (n := (z - x) * / x) in *. pose proof (Rmult_le_compat_neg_l n _ _ N I). lra.
Qed.

Lemma vv_convex x z s : 0 < x < 400 -> 0 < z < 400 -> 0 <= s <= 1 -> vv ((1 - s) * x + s * z) <= (1 - s) * vv x + s * vv z.
Proof.
  intros hx hz hs. set (y := (1 - s) * x + s * z).
  assert (hy : 0 < y < 400) by (pose proof (mix_pos x z s); pose proof (mix_pos (400 - x) (400 - z) s); unfold y; lra).
  pose proof (vv_tangent y x hy hx) as A. pose proof (vv_tangent y z hy hz) as B.
  apply (Rmult_le_compat_l (1 - s)) in A; [|lra]. apply (Rmult_le_compat_l s) in B; [|lra].
  set (h := q * (400 / (400 - y))) in *. set (i := / y). unfold Rdiv in A, B. fold i in A, B.
  assert (Y : (1 - s) * (x - y) + s * (z - y) = 0) by (unfold y; ring).
  assert (Z : (1 - s) * (vv y * (1 + h * ((x - y) * i))) + s * (vv y * (1 + h * ((z - y) * i))) = vv y * (1 + h * i * ((1 - s) * (x - y) + s * (z - y)))) by ring.
  rewrite Y in Z. lra.
Qed.

Lemma vv_mono x z : 0 < x -> x <= z -> z < 400 -> vv x <= vv z.
Proof.
  intros hx h hz. unfold vv. apply Rle_Rpower_l; [lra|]. split; [apply base_pos; lra|]. unfold Rdiv.
  apply Rmult_le_compat; [apply Rmult_le_pos; lra|left; apply Rinv_0_lt_compat; lra|apply Rmult_le_compat_l; lra|apply Rinv_le_contravar; lra].
Qed.

(** Comparing responses from a comparison of the stimuli. *)
Lemma vv_ge x z k c : 0 < x < 400 -> 0 < z < 400 -> 0 < c -> Rpower c q <= k -> k * vv x <= vv z -> c * x * (400 - z) <= z * (400 - x).
Proof.
  intros hx hz hc hk h. rewrite (vv_ratio x z hx hz) in h. set (w := z / x * ((400 - x) / (400 - z))) in *.
  assert (hw : 0 < w) by (apply Rmult_lt_0_compat; apply Rdiv_lt_0_compat; lra).
  assert (P := vv_pos x). assert (Q : Rpower c q <= Rpower w q) by (apply Rmult_le_reg_l with (vv x); [exact P|]; nra).
  assert (c <= w).
  { destruct (Rle_or_lt c w) as [y|y]; [exact y|exfalso]. assert (Rpower w q < Rpower c q) by (apply Rlt_Rpower_l; lra). lra. }
  assert (E : w * (x * (400 - z)) = z * (400 - x)) by (unfold w; field; lra).
  rewrite <- E. rewrite Rmult_assoc. apply Rmult_le_compat_r; [apply Rmult_le_pos; lra|exact H].
Qed.
End Resp.
