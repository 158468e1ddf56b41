(** * The yellow-blue coordinate grows with red and falls with blue.  Proof file. *)
From Coq Require Import ZArith Bool Reals Lra Lia Psatz.
From Verif Require Import PfNear PfVc PfRel PfCamC PfHueReal.
Open Scope R_scope.

(** The adapted cone excitations of linear channels lR, lG, lB between 0 and 1. *)
Definition exr (q lR lG lB : R) : R := q * (0.30269915328759 * lR + 0.60238031164330 * lG + 0.07047346329738 * lB).
Definition exg (q lR lG lB : R) : R := q * (0.15374913599554 * lR + 0.77736002827076 * lG + 0.08535981854956 * lB).
Definition exb (q lR lG lB : R) : R := q * (0.02796570007202 * lR + 0.14784523135458 * lG + 0.90895832236388 * lB).

Section Mono.
Variables q1 q2 q3 : R.
Hypothesis h1 : 0.396 <= q1 <= 0.397.
Hypothesis h2 : 0.383 <= q2 <= 0.384.
Hypothesis h3 : 0.362 <= q3 <= 0.363.

(** Nine times the yellow-blue coordinate. *)
Definition yb (lR lG lB : R) : R := F (exr q1 lR lG lB) + F (exg q2 lR lG lB) - 2 * F (exb q3 lR lG lB).

Lemma q_bounds q lo hi s : lo <= q <= hi -> 0 <= s -> lo * s <= q * s <= hi * s.
Proof using. intros h hs. split; apply Rmult_le_compat_r; lra. Qed.


Lemma yb_red l l' lG lB : 0 <= l -> l <= l' -> 0 < l' <= 1 -> 0 <= lG <= 1 -> 0 <= lB <= 1 -> (l' <= 2 * l \/ l' <= lG \/ l' <= lB) -> yb l lG lB <= yb l' lG lB.
Proof using h1 h2 h3.
  intros hl hll hl' hG hB hc. unfold yb.
  assert (R1 := q_bounds q1 _ _ (0.30269915328759 * l + 0.60238031164330 * lG + 0.07047346329738 * lB) h1 ltac:(lra)).
  assert (R2 := q_bounds q1 _ _ (0.30269915328759 * l' + 0.60238031164330 * lG + 0.07047346329738 * lB) h1 ltac:(lra)).
  assert (G1 := q_bounds q2 _ _ (0.15374913599554 * l + 0.77736002827076 * lG + 0.08535981854956 * lB) h2 ltac:(lra)).
  assert (G2 := q_bounds q2 _ _ (0.15374913599554 * l' + 0.77736002827076 * lG + 0.08535981854956 * lB) h2 ltac:(lra)).
  assert (B1 := q_bounds q3 _ _ (0.02796570007202 * l + 0.14784523135458 * lG + 0.90895832236388 * lB) h3 ltac:(lra)).
  assert (B2 := q_bounds q3 _ _ (0.02796570007202 * l' + 0.14784523135458 * lG + 0.90895832236388 * lB) h3 ltac:(lra)).
  assert (ER : exr q1 l' lG lB - exr q1 l lG lB = q1 * 0.30269915328759 * (l' - l)) by (unfold exr; ring).
  assert (EG : exg q2 l' lG lB - exg q2 l lG lB = q2 * 0.15374913599554 * (l' - l)) by (unfold exg; ring).
  assert (EB : exb q3 l' lG lB - exb q3 l lG lB = q3 * 0.02796570007202 * (l' - l)) by (unfold exb; ring).
  fold (exr q1 l lG lB) in R1. fold (exr q1 l' lG lB) in R2. fold (exg q2 l lG lB) in G1. fold (exg q2 l' lG lB) in G2. fold (exb q3 l lG lB) in B1. fold (exb q3 l' lG lB) in B2.
  set (r1 := exr q1 l lG lB) in *. set (r2 := exr q1 l' lG lB) in *. set (g1 := exg q2 l lG lB) in *. set (g2 := exg q2 l' lG lB) in *. set (b1 := exb q3 l lG lB) in *. set (b2 := exb q3 l' lG lB) in *. clearbody r1 r2 g1 g2 b1 b2.
  assert (P1 : 0 < r1 <= 0.5 /\ 0 < r2 <= 0.5 /\ 0 < g1 <= 0.5 /\ 0 < g2 <= 0.5 /\ 0 < b1 <= 0.5 /\ 0 < b2 <= 0.5) by (destruct hc as [c|[c|c]]; lra). destruct P1 as (p1 & p2 & p3 & p4 & p5 & p6).
  assert (K1 : r2 <= 24 * b1) by (destruct hc as [c|[c|c]]; lra). assert (K2 : g2 <= 12 * b1) by (destruct hc as [c|[c|c]]; lra).
  pose proof (m_ratio r2 b1 24 0.158 p2 p5 ltac:(lra) K1 ltac:(lra) ltac:(lra)) as M1.
  pose proof (m_ratio g2 b1 12 0.236 p4 p5 ltac:(lra) K2 ltac:(lra) ltac:(lra)) as M2.
  pose proof (F_tangent r1 r2 ltac:(lra) ltac:(lra)) as T1. pose proof (F_tangent g1 g2 ltac:(lra) ltac:(lra)) as T2. pose proof (F_tangent b2 b1 ltac:(lra) ltac:(lra)) as T3.
  pose proof (m_pos b1 ltac:(lra)) as MP. set (mb := m b1) in *. set (mr := m r2) in *. set (mg := m g2) in *. clearbody mb mr mg.
  replace (r1 - r2) with (- (q1 * 0.30269915328759 * (l' - l))) in T1 by lra. replace (g1 - g2) with (- (q2 * 0.15374913599554 * (l' - l))) in T2 by lra. rewrite EB in T3.
  set (d := l' - l) in *. assert (D : 0 <= d) by (unfold d; lra). clearbody d.
  assert (MB : 0 <= mb * d) by (apply Rmult_le_pos; lra).
  assert (W1 : 0.396 * 0.30269915328759 * (0.94 * 0.158) * (mb * d) <= mr * (q1 * 0.30269915328759 * d)).
  { replace (mr * (q1 * 0.30269915328759 * d)) with ((q1 * mr) * (0.30269915328759 * d)) by ring.
    apply Rle_trans with ((0.396 * (0.94 * 0.158 * mb)) * (0.30269915328759 * d)); [right; ring|]. apply Rmult_le_compat_r; [apply Rmult_le_pos; lra|]. apply Rmult_le_compat; try lra. }
  assert (W2 : 0.383 * 0.15374913599554 * (0.94 * 0.236) * (mb * d) <= mg * (q2 * 0.15374913599554 * d)).
  { replace (mg * (q2 * 0.15374913599554 * d)) with ((q2 * mg) * (0.15374913599554 * d)) by ring.
    apply Rle_trans with ((0.383 * (0.94 * 0.236 * mb)) * (0.15374913599554 * d)); [right; ring|]. apply Rmult_le_compat_r; [apply Rmult_le_pos; lra|]. apply Rmult_le_compat; try lra. }
  assert (W3 : mb * (q3 * 0.02796570007202 * d) <= 0.363 * 0.02796570007202 * (mb * d)).
  { replace (mb * (q3 * 0.02796570007202 * d)) with (q3 * 0.02796570007202 * (mb * d)) by ring. apply Rmult_le_compat_r; lra. }
  rewrite Ropp_mult_distr_r_reverse in T1, T2. set (z := mb * d) in *. clearbody z. lra.
Qed.

Lemma yb_blue l l' lR lG : 0 <= l -> l <= l' -> 0 < l' <= 1 -> 0 <= lG <= 1 -> 0 <= lR <= 1 -> (l' <= 2 * l \/ l' <= lG \/ l' <= lR) -> yb lR lG l' <= yb lR lG l.
Proof using h1 h2 h3.
  intros hl hll hl' hG hR hc. unfold yb.
  assert (R1 := q_bounds q1 _ _ (0.30269915328759 * lR + 0.60238031164330 * lG + 0.07047346329738 * l) h1 ltac:(lra)).
  assert (R2 := q_bounds q1 _ _ (0.30269915328759 * lR + 0.60238031164330 * lG + 0.07047346329738 * l') h1 ltac:(lra)).
  assert (G1 := q_bounds q2 _ _ (0.15374913599554 * lR + 0.77736002827076 * lG + 0.08535981854956 * l) h2 ltac:(lra)).
  assert (G2 := q_bounds q2 _ _ (0.15374913599554 * lR + 0.77736002827076 * lG + 0.08535981854956 * l') h2 ltac:(lra)).
  assert (B1 := q_bounds q3 _ _ (0.02796570007202 * lR + 0.14784523135458 * lG + 0.90895832236388 * l) h3 ltac:(lra)).
  assert (B2 := q_bounds q3 _ _ (0.02796570007202 * lR + 0.14784523135458 * lG + 0.90895832236388 * l') h3 ltac:(lra)).
  assert (ER : exr q1 lR lG l' - exr q1 lR lG l = q1 * 0.07047346329738 * (l' - l)) by (unfold exr; ring).
  assert (EG : exg q2 lR lG l' - exg q2 lR lG l = q2 * 0.08535981854956 * (l' - l)) by (unfold exg; ring).
  assert (EB : exb q3 lR lG l' - exb q3 lR lG l = q3 * 0.90895832236388 * (l' - l)) by (unfold exb; ring).
  fold (exr q1 lR lG l) in R1. fold (exr q1 lR lG l') in R2. fold (exg q2 lR lG l) in G1. fold (exg q2 lR lG l') in G2. fold (exb q3 lR lG l) in B1. fold (exb q3 lR lG l') in B2.
  set (r1 := exr q1 lR lG l) in *. set (r2 := exr q1 lR lG l') in *. set (g1 := exg q2 lR lG l) in *. set (g2 := exg q2 lR lG l') in *. set (b1 := exb q3 lR lG l) in *. set (b2 := exb q3 lR lG l') in *. clearbody r1 r2 g1 g2 b1 b2.
  assert (P1 : 0 < r1 <= 0.5 /\ 0 < r2 <= 0.5 /\ 0 < g1 <= 0.5 /\ 0 < g2 <= 0.5 /\ 0 < b1 <= 0.5 /\ 0 < b2 <= 0.5) by (destruct hc as [c|[c|c]]; lra). destruct P1 as (p1 & p2 & p3 & p4 & p5 & p6).
  assert (K1 : b2 <= 24 * r1) by (destruct hc as [c|[c|c]]; lra). assert (K2 : b2 <= 24 * g1) by (destruct hc as [c|[c|c]]; lra).
  pose proof (m_ratio b2 r1 24 0.158 p6 p1 ltac:(lra) K1 ltac:(lra) ltac:(lra)) as M1.
  pose proof (m_ratio b2 g1 24 0.158 p6 p3 ltac:(lra) K2 ltac:(lra) ltac:(lra)) as M2.
  pose proof (F_tangent r2 r1 ltac:(lra) ltac:(lra)) as T1. pose proof (F_tangent g2 g1 ltac:(lra) ltac:(lra)) as T2. pose proof (F_tangent b1 b2 ltac:(lra) ltac:(lra)) as T3.
  pose proof (m_pos r1 ltac:(lra)) as MP1. pose proof (m_pos g1 ltac:(lra)) as MP2. set (mb := m b2) in *. set (mr := m r1) in *. set (mg := m g1) in *. clearbody mb mr mg.
  rewrite ER in T1. rewrite EG in T2. replace (b1 - b2) with (- (q3 * 0.90895832236388 * (l' - l))) in T3 by lra. rewrite Ropp_mult_distr_r_reverse in T3.
  set (d := l' - l) in *. assert (D : 0 <= d) by (unfold d; lra). clearbody d.
  assert (Z1 : 0 <= mr * d) by (apply Rmult_le_pos; lra). assert (Z2 : 0 <= mg * d) by (apply Rmult_le_pos; lra).
  assert (W1 : mr * (q1 * 0.07047346329738 * d) <= 0.397 * 0.07047346329738 * (mr * d)).
  { replace (mr * (q1 * 0.07047346329738 * d)) with (q1 * 0.07047346329738 * (mr * d)) by ring. apply Rmult_le_compat_r; lra. }
  assert (W2 : mg * (q2 * 0.08535981854956 * d) <= 0.384 * 0.08535981854956 * (mg * d)).
  { replace (mg * (q2 * 0.08535981854956 * d)) with (q2 * 0.08535981854956 * (mg * d)) by ring. apply Rmult_le_compat_r; lra. }
  assert (W3 : forall x, 0 <= x * d -> 0 < x -> 0.94 * 0.158 * x <= mb -> 0.362 * 0.90895832236388 * (0.94 * 0.158) * (x * d) <= mb * (q3 * 0.90895832236388 * d)).
  { intros x hx px hm. replace (mb * (q3 * 0.90895832236388 * d)) with ((q3 * mb) * (0.90895832236388 * d)) by ring.
    apply Rle_trans with ((0.362 * (0.94 * 0.158 * x)) * (0.90895832236388 * d)); [right; ring|]. apply Rmult_le_compat_r; [apply Rmult_le_pos; lra|]. apply Rmult_le_compat; try lra. }
  pose proof (W3 mr Z1 MP1 M1) as Y1. pose proof (W3 mg Z2 MP2 M2) as Y2.
  set (z1 := mr * d) in *. set (z2 := mg * d) in *. clearbody z1 z2. lra.
Qed.
End Mono.
