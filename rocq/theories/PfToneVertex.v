(** * The vertices the fallback starts from lie on the plane of the requested luminance.  Proof file. *)
From Coq Require Import ZArith Bool Reals Lra Lia Psatz String List.
From Flocq Require Import Core IEEE754.BinarySingleNaN.
From Verif Require Import F64 MathUtils ColorUtils ViewingConditions Cam16 HctSolver Hct Spec FloatFacts FloatMono FloatCast PfArgb PfMath PfColor PfContrast PfTones PfLab PfGamma PfDelin PfScore PfPlanes PfLimit PfHct PfNoPanic PfTonePlane.
Import ListNotations.
Open Scope string_scope.
Open Scope R_scope.

Lemma edge_mul (x k : f64) K : x = dec "0.0" \/ x = dec "100.0" -> fin k -> 0 <= B2R k <= 1 -> - (1 / 10 ^ 15) <= B2R k - K <= 1 / 10 ^ 15 ->
  fin (fmul x k) /\ 0 <= B2R (fmul x k) <= 100 /\ - (1 / 10 ^ 12) <= B2R (fmul x k) - B2R x * K <= 1 / 10 ^ 12.
Proof.
  intros hx fk bk hk. assert (X : fin x /\ (B2R x = 0 \/ B2R x = 100)) by (destruct hx as [-> | ->]; [fconst (dec "0.0")|fconst (dec "100.0")]; (split; [exact F|]); lra).
  clear hx. destruct X as [fx bx].
  assert (P : 0 <= B2R x * B2R k <= 100) by (destruct bx as [-> | ->]; lra).
  destruct (fmul_S x k fx fk ltac:(fsmall)) as [E F]. split; [exact F|]. rewrite E. split.
  - split; [apply rnd_ge_0; lra|apply (rnd_le_IZR _ 100); [vm_compute; discriminate|lra]].
  - pose proof (rnd_near (B2R x * B2R k) ltac:(lra)) as N. destruct bx as [q|q]; rewrite q in N |- *; lra.
Qed.

Lemma free_fin (y A B k : f64) : fin y -> -1 <= B2R y <= 101 -> fin A -> 0 <= B2R A <= 100 -> fin B -> 0 <= B2R B <= 100 -> 0.07 <= B2R k <= 1 ->
  fin (fdiv (fsub (fsub y A) B) k).
Proof.
  intros fy by' fA bA fB bB bk. pose proof eta_small as ES. pose proof eta_pos as EP.
  destruct (fsub_S y A fy fA ltac:(fsmall)) as [E1 F1]. pose proof (rnd_bounds_abs (B2R y - B2R A) 300 ltac:(apply Rabs_le; lra)) as N1. rewrite <- E1 in N1. unfold u53 in N1.
  set (u := fsub y A) in *. clearbody u.
  destruct (fsub_S u B F1 fB ltac:(fsmall)) as [E2 F2]. pose proof (rnd_bounds_abs (B2R u - B2R B) 300 ltac:(apply Rabs_le; lra)) as N2. rewrite <- E2 in N2. unfold u53 in N2.
  set (w := fsub u B) in *. clearbody w.
  set (i := / B2R k). assert (bi : 1 <= i <= 15).
  { unfold i. split; [rewrite <- Rinv_1|apply Rle_trans with (/ 0.07); [|lra]]; apply Rinv_le; lra. }
  assert (bw : - 4500 <= B2R w * i <= 4500) by (pose proof (mul_bnd (B2R w) i 300 15 ltac:(lra) ltac:(lra)); lra).
  destruct (fdiv_S w k F2 ltac:(lra)) as [E3 F3]; [unfold Rdiv; fold i; fsmall|]. exact F3.
Qed.

(** The free coordinate completes the luminance. *)
Lemma complete (y e1 e2 k1 k2 k : f64) K1 K2 K : fin y -> 0 <= B2R y <= 100 -> e1 = dec "0.0" \/ e1 = dec "100.0" -> e2 = dec "0.0" \/ e2 = dec "100.0" ->
  fin k1 -> fin k2 -> 0 <= B2R k1 <= 1 -> 0 <= B2R k2 <= 1 -> 0.07 <= B2R k <= 1 ->
  - (1 / 10 ^ 15) <= B2R k1 - K1 <= 1 / 10 ^ 15 -> - (1 / 10 ^ 15) <= B2R k2 - K2 <= 1 / 10 ^ 15 -> - (1 / 10 ^ 15) <= B2R k - K <= 1 / 10 ^ 15 ->
  let f := fdiv (fsub (fsub y (fmul e1 k1)) (fmul e2 k2)) k in
  fin f /\ - (1 / 10 ^ 9) <= K * B2R f + K1 * B2R e1 + K2 * B2R e2 - B2R y <= 1 / 10 ^ 9.
Proof.
  intros fy by' h1 h2 f1 f2 b1 b2 bk d1 d2 dk f.
  destruct (edge_mul e1 k1 K1 h1 f1 b1 d1) as (A1 & A2 & A3). destruct (edge_mul e2 k2 K2 h2 f2 b2 d2) as (B1 & B2 & B3).
  pose proof (free_err y _ _ k fy ltac:(lra) A1 A2 B1 B2 bk) as E. pose proof (free_fin y _ _ k fy ltac:(lra) A1 A2 B1 B2 bk) as FF. fold f in E, FF. split; [exact FF|].
  set (a := fmul e1 k1) in *. set (b := fmul e2 k2) in *. clearbody a b f.
  assert (q1 : - 1 <= B2R y - B2R a - B2R b + 200 <= 300) by lra.
  set (q := (B2R y - B2R a - B2R b) / B2R k) in *. assert (Q : B2R k * q = B2R y - B2R a - B2R b) by (unfold q; field; lra).
  assert (bq : -5000 <= q <= 5000).
  { split; (apply Rmult_le_reg_l with (B2R k); [lra|]; rewrite Q; lra). }
  clearbody q. pose proof (mul_bnd (B2R k) (B2R f - q) 1 (1 / 10 ^ 10) ltac:(lra) ltac:(lra)) as M1.
  pose proof (mul_bnd (K - B2R k) (B2R f) (1 / 10 ^ 15) 6000 ltac:(lra) ltac:(lra)) as M2. lra.
Qed.

Ltac kk := match goal with V : B2R ?k = _ |- context [B2R ?k] => rewrite V end.

Lemma vertex_lum (y : f64) n : fin y -> 0 <= B2R y <= 100 -> (0 <= n)%Z -> usable (nth_vertex y n) ->
  - (1 / 10 ^ 8) <= lum (vR (nth_vertex y n)) - B2R y <= 1 / 10 ^ 8.
Proof.
  intros fy by' hn U. fconst (dec "0.2126"). fconst (dec "0.7152"). fconst (dec "0.0722").
  assert (d0 : - (1 / 10 ^ 15) <= B2R (dec "0.2126") - 0.2126 <= 1 / 10 ^ 15) by (rewrite V; lra).
  assert (d1 : - (1 / 10 ^ 15) <= B2R (dec "0.7152") - 0.7152 <= 1 / 10 ^ 15) by (rewrite V0; lra).
  assert (d2 : - (1 / 10 ^ 15) <= B2R (dec "0.0722") - 0.0722 <= 1 / 10 ^ 15) by (rewrite V1; lra).
  clear V V0 V1.
  destruct (Z_lt_ge_dec n 4) as [a|a]; [|destruct (Z_lt_ge_dec n 8) as [b|b]].
  - destruct (vertex_red y n ltac:(lia) U) as (g & b & hg & hb & _ & R & ->). unfold lum, vR. rewrite !vget_mk. cbn [Z.eqb Pos.eqb].
    destruct (complete y g b (dec "0.7152") (dec "0.0722") (dec "0.2126") 0.7152 0.0722 0.2126 fy by' hg hb F0 F1 ltac:(lra) ltac:(lra) ltac:(lra) d1 d2 d0) as [_ C]. lra.
  - destruct (vertex_green y n ltac:(lia) U) as (b0 & r & hg & hb & _ & R & ->). unfold lum, vR. rewrite !vget_mk. cbn [Z.eqb Pos.eqb].
    destruct (complete y r b0 (dec "0.2126") (dec "0.0722") (dec "0.7152") 0.2126 0.0722 0.7152 fy by' hb hg F F1 ltac:(lra) ltac:(lra) ltac:(lra) d0 d2 d1) as [_ C]. lra.
  - destruct (vertex_blue y n ltac:(lia) U) as (r & g & b0 & hr & hg & R & -> & E & _). unfold lum, vR. rewrite !vget_mk. cbn [Z.eqb Pos.eqb]. rewrite E.
    destruct (complete y r g (dec "0.2126") (dec "0.7152") (dec "0.0722") 0.2126 0.7152 0.0722 fy by' hr hg F F0 ltac:(lra) ltac:(lra) ltac:(lra) d0 d1 d2) as [_ C]. lra.
Qed.

Lemma vertex_edges (y : f64) n : (0 <= n)%Z -> usable (nth_vertex y n) -> ~ is_edge (vR (nth_vertex y n) 0) -> is_edge (vR (nth_vertex y n) 1) /\ is_edge (vR (nth_vertex y n) 2).
Proof.
  intros hn U NE. destruct (Z_lt_ge_dec n 4) as [a|a].
  - destruct (vertex_red y n ltac:(lia) U) as (g & b & hg & hb & _ & R & ->). unfold vR. rewrite !vget_mk. cbn [Z.eqb Pos.eqb]. split; apply edge_fin; assumption.
  - exfalso. apply NE. destruct (vertex_ok y n hn U) as (_ & _ & X & _). apply X. lia.
Qed.

Lemma vertex_edge2 (y : f64) n : (0 <= n < 8)%Z -> usable (nth_vertex y n) -> is_edge (vR (nth_vertex y n) 2).
Proof.
  intros hn U. destruct (Z_lt_ge_dec n 4) as [a|a].
  - destruct (vertex_red y n ltac:(lia) U) as (g & b & hg & hb & _ & R & ->). unfold vR. rewrite !vget_mk. cbn [Z.eqb Pos.eqb]. apply edge_fin; assumption.
  - destruct (vertex_green y n ltac:(lia) U) as (b & r & hg & hb & _ & R & ->). unfold vR. rewrite !vget_mk. cbn [Z.eqb Pos.eqb]. apply edge_fin; assumption.
Qed.

Lemma blue_apart (y : f64) n1 n2 : fin y -> 0 <= B2R y <= 100 -> (8 <= n1)%Z -> (8 <= n2)%Z -> usable (nth_vertex y n1) -> usable (nth_vertex y n2) ->
  nth_vertex y n1 = nth_vertex y n2.
Proof.
  intros fy by' h1 h2 U1 U2.
  pose proof (vertex_lum y n1 fy by' ltac:(lia) U1) as L1. pose proof (vertex_lum y n2 fy by' ltac:(lia) U2) as L2.
  destruct (vertex_blue y n1 h1 U1) as (r1 & g1 & b1 & hr1 & hg1 & R1 & E1 & e1 & _). destruct (vertex_blue y n2 h2 U2) as (r2 & g2 & b2 & hr2 & hg2 & R2 & E2 & e2 & _).
  rewrite E1 in *. rewrite E2 in *. unfold lum, vR in L1, L2. rewrite !vget_mk in L1, L2. cbn [Z.eqb Pos.eqb] in L1, L2.
  apply bounded_fin in R1, R2. destruct R1 as [_ R1]. destruct R2 as [_ R2]. fconst (dec "0.0"). fconst (dec "100.0").
  assert (X : r1 = r2 /\ g1 = g2).
  { clear e1 e2 E1 E2. destruct hr1 as [-> | ->]; destruct hr2 as [-> | ->]; destruct hg1 as [-> | ->]; destruct hg2 as [-> | ->]; try (split; reflexivity);
      exfalso; rewrite ?V, ?V0 in L1; rewrite ?V, ?V0 in L2; lra. }
  destruct X as [-> ->]. rewrite <- e1 in e2. rewrite e2. reflexivity.
Qed.

(** Some vertex is usable. *)
Lemma is_bounded_i (x : f64) : fin x -> 0 <= B2R x <= 100 -> is_bounded x = true.
Proof.
  intros fx bx. unfold is_bounded. fconst (dec "0.0"). fconst (dec "100.0"). apply andb_true_intro. split.
  - apply (fle_fin _ _ F fx). lra.
  - apply (fle_fin _ _ fx F0). lra.
Qed.

Lemma usable_i (r g b : f64) : fin r -> 0 <= B2R r -> usable (r, g, b).
Proof. intros fr br. unfold usable, v0. cbn [fst]. fconst (dec "0.0"). apply (flt_fin_f _ _ fr F). lra. Qed.

Lemma some_vertex (y : f64) : fin y -> 1 / 10 ^ 6 <= B2R y <= 99.9999 -> exists n, In n [0; 1; 2; 3; 4; 5; 6; 7; 8; 9; 10; 11]%Z /\ usable (nth_vertex y n).
Proof.
  intros fy by'. fconst (dec "0.2126"). fconst (dec "0.7152"). fconst (dec "0.0722"). fconst (dec "0.0"). fconst (dec "100.0").
  assert (d0 : - (1 / 10 ^ 15) <= B2R (dec "0.2126") - 0.2126 <= 1 / 10 ^ 15) by (rewrite V; lra).
  assert (d1 : - (1 / 10 ^ 15) <= B2R (dec "0.7152") - 0.7152 <= 1 / 10 ^ 15) by (rewrite V0; lra).
  assert (d2 : - (1 / 10 ^ 15) <= B2R (dec "0.0722") - 0.0722 <= 1 / 10 ^ 15) by (rewrite V1; lra).
  assert (z : dec "0.0" = dec "0.0" \/ dec "0.0" = dec "100.0") by (left; reflexivity). assert (h : dec "100.0" = dec "0.0" \/ dec "100.0" = dec "100.0") by (right; reflexivity).
  destruct (Rle_or_lt (B2R y) 21) as [c|c]; [|destruct (Rle_or_lt (B2R y) 71) as [c'|c']].
  - exists 0%Z. split; [cbn; tauto|].
    destruct (complete y (dec "0.0") (dec "0.0") (dec "0.7152") (dec "0.0722") (dec "0.2126") 0.7152 0.0722 0.2126 fy ltac:(lra) z z F0 F1 ltac:(lra) ltac:(lra) ltac:(lra) d1 d2 d0) as [FF C]. rewrite V2 in C.
    unfold nth_vertex, Y_FROM_LINRGB, v0, v1, v2. cbn [fst snd Z.ltb Z.compare]. cbv zeta.
    change (Z.rem 0 4 <=? 1)%Z with true. change (Z.rem 0 2 =? 0)%Z with true. cbv iota.
    rewrite is_bounded_i; [|exact FF|lra]. apply usable_i; [exact FF|lra].
  - exists 4%Z. split; [cbn; tauto|].
    destruct (complete y (dec "0.0") (dec "0.0") (dec "0.2126") (dec "0.0722") (dec "0.7152") 0.2126 0.0722 0.7152 fy ltac:(lra) z z F F1 ltac:(lra) ltac:(lra) ltac:(lra) d0 d2 d1) as [FF C]. rewrite V2 in C.
    unfold nth_vertex, Y_FROM_LINRGB, v0, v1, v2. cbn [fst snd]. cbv zeta.
    change (4 <? 4)%Z with false. change (4 <? 8)%Z with true. change (Z.rem 4 4 <=? 1)%Z with true. change (Z.rem 4 2 =? 0)%Z with true. cbv iota.
    rewrite is_bounded_i; [|exact FF|lra]. apply usable_i; [exact F2|lra].
  - exists 7%Z. split; [cbn; tauto|].
    destruct (complete y (dec "100.0") (dec "100.0") (dec "0.2126") (dec "0.0722") (dec "0.7152") 0.2126 0.0722 0.7152 fy ltac:(lra) h h F F1 ltac:(lra) ltac:(lra) ltac:(lra) d0 d2 d1) as [FF C]. rewrite V3 in C.
    unfold nth_vertex, Y_FROM_LINRGB, v0, v1, v2. cbn [fst snd]. cbv zeta.
    change (7 <? 4)%Z with false. change (7 <? 8)%Z with true. change (Z.rem 7 4 <=? 1)%Z with false. change (Z.rem 7 2 =? 0)%Z with false. cbv iota.
    rewrite is_bounded_i; [|exact FF|lra]. apply usable_i; [exact F3|lra].
Qed.

Section Limit.
Context {lm : Libm} (eps : R) (heps : 0 <= eps <= 1 / 10 ^ 12) (PA : pow_accurate eps lm).

Lemma step_init y t s n : usable (nth_vertex y n) -> s_initialized (segment_step y t s n) = true.
Proof using.
  intros U. unfold segment_step. unfold usable in U. rewrite U. destruct (s_initialized s) eqn:E; cbn [negb]; [|reflexivity].
  destruct (_ || _)%bool; [destruct (are_in_cyclic_order _ _ _); reflexivity|exact E].
Qed.
Lemma step_keep y t s n : s_initialized s = true -> s_initialized (segment_step y t s n) = true.
Proof using.
  intros I. unfold segment_step. destruct (flt _ _); [exact I|]. rewrite I. cbn [negb].
  destruct (_ || _)%bool; [destruct (are_in_cyclic_order _ _ _); reflexivity|exact I].
Qed.
Lemma fold_keep y t ns : forall s, s_initialized s = true -> s_initialized (fold_left (segment_step y t) ns s) = true.
Proof using. induction ns as [|n ns IH]; intros s I; [exact I|]. cbn [fold_left]. apply IH. now apply step_keep. Qed.
Lemma fold_init y t ns n : In n ns -> usable (nth_vertex y n) -> forall s, s_initialized (fold_left (segment_step y t) ns s) = true.
Proof using.
  induction ns as [|m ns IH]; intros H U s; [destruct H|]. cbn [fold_left]. destruct H as [->|H]; [apply fold_keep; now apply step_init|now apply IH].
Qed.

Lemma segment_vertices (y t : f64) : fin y -> 1 / 10 ^ 6 <= B2R y <= 99.9999 -> let '(lft, rgt) := bisect_to_segment y t in
  exists n1 n2, (0 <= n1)%Z /\ (0 <= n2)%Z /\ lft = nth_vertex y n1 /\ rgt = nth_vertex y n2 /\ usable lft /\ usable rgt.
Proof using.
  intros fy by'. destruct (some_vertex y fy by') as (n & hn & U). unfold bisect_to_segment. set (s := fold_left _ _ _).
  assert (I : seg_inv y s).
  { apply seg_fold; [repeat (constructor; [lia|]); constructor|]. left. split; [reflexivity|]. split; reflexivity. }
  assert (J : s_initialized s = true) by (apply (fold_init y t _ n hn U)).
  destruct I as [(X & _)|(_ & n1 & n2 & h1 & h2 & L & R & UL & UR)]; [rewrite X in J; discriminate J|].
  exists n1, n2. repeat (split; [assumption|]). assumption.
Qed.

Lemma midpoint_good y a c : good y a -> good y c -> let m := midpoint a c in
  vfin m /\ (forall j, -0.0221 <= vR m j <= 100.0221) /\ -0.0097 <= lum (vR m) - y <= 0.0097.
Proof using.
  intros (fa & ra & la) (fc & rc & lc) m.
  assert (K : forall j, fin (vget m j) /\ - (1 / 10 ^ 11) <= vR m j - (vR a j + vR c j) / 2 <= 1 / 10 ^ 11).
  { assert (Q : forall x z : f64, fin x -> fin z -> -1 <= B2R x <= 101 -> -1 <= B2R z <= 101 ->
      fin (fdiv (fadd x z) (dec "2.0")) /\ - (1 / 10 ^ 11) <= B2R (fdiv (fadd x z) (dec "2.0")) - (B2R x + B2R z) / 2 <= 1 / 10 ^ 11).
    { intros x z fx fz bx bz. fconst (dec "2.0"). destruct (fadd_S x z fx fz ltac:(fsmall)) as [E1 F1]. pose proof (rnd_far (B2R x + B2R z) ltac:(lra)) as R1. rewrite <- E1 in R1.
      set (u := fadd x z) in *. clearbody u. destruct (fdiv_S u (dec "2.0") F1 ltac:(rewrite V; lra)) as [E2 F2]; [rewrite V; fsmall|].
      rewrite V in E2. pose proof (rnd_far (B2R u / 2) ltac:(lra)) as R2. rewrite <- E2 in R2. split; [exact F2|lra]. }
    intro j. unfold m, midpoint, vR. rewrite vget_mk.
    assert (E : forall v : vec3, vget v j = if (j =? 0)%Z then v0 v else if (j =? 1)%Z then v1 v else v2 v) by (intro v; reflexivity).
    specialize (fa j). specialize (fc j). specialize (ra j). specialize (rc j). unfold vR in ra, rc. rewrite (E a), (E c) in *.
    destruct (j =? 0)%Z; [apply Q; lra || assumption|]. destruct (j =? 1)%Z; apply Q; lra || assumption. }
  split; [intro j; apply K|]. split.
  - intro j. destruct (K j) as [_ k]. specialize (ra j). specialize (rc j). lra.
  - pose proof (lum_near (vR m) (fun j => (vR a j + vR c j) / 2) _ (fun j => proj2 (K j))) as N.
    replace (lum (fun j => (vR a j + vR c j) / 2)) with ((lum (vR a) + lum (vR c)) / 2) in N by (unfold lum; field). lra.
Qed.

(** What the fallback returns. *)
Lemma limit_plane (y target : f64) : fin y -> 1 / 10 ^ 6 <= B2R y <= 99.9999 -> exists v, bisect_to_limit y target = Ok v /\
  vfin v /\ (forall j, -0.0221 <= vR v j <= 100.0221) /\ -0.0097 <= lum (vR v) - B2R y <= 0.0097.
Proof using heps PA.
  intros fy by'. unfold bisect_to_limit. pose proof (segment_vertices y target fy by') as S. destruct (bisect_to_segment y target) as [lft rgt]. cbv zeta. cbn [fst snd].
  set (lh := hue_of lft). clearbody lh. destruct S as (n1 & n2 & h1 & h2 & EL & ER & UL & UR).
  assert (K : exists a b c, (do s0 <- limit_axis target 0 (lft, lh, rgt); do s1 <- limit_axis target 1 s0; limit_axis target 2 s1) = Ok (a, b, c) /\ good (B2R y) a /\ good (B2R y) c).
  { rewrite EL in UL. rewrite ER in UR.
    destruct (vertex_ok y n1 h1 UL) as (FL & BL & L0 & L1). destruct (vertex_ok y n2 h2 UR) as (FR & BR & R0 & R1).
    pose proof (vertex_lum y n1 fy ltac:(lra) h1 UL) as YL. pose proof (vertex_lum y n2 fy ltac:(lra) h2 UR) as YR.
    pose proof (vertex_edges y n1 h1 UL) as VL. pose proof (vertex_edges y n2 h2 UR) as VR.
    assert (SAME : rgt = lft -> exists a b c, (do s0 <- limit_axis target 0 (lft, lh, rgt); do s1 <- limit_axis target 1 s0; limit_axis target 2 s1) = Ok (a, b, c) /\ good (B2R y) a /\ good (B2R y) c).
    { intros ->. rewrite <- EL in FL, BL, YL. rewrite equal_ends by exact FL. cbn [bind]. rewrite equal_ends by exact FL. cbn [bind]. rewrite equal_ends by exact FL.
      assert (GD : good (B2R y) lft) by (split; [exact FL|split; [intro j; specialize (BL j); lra|lra]]). exists lft, lh, lft. split; [reflexivity|]. split; exact GD. }
    destruct (Z.eq_dec n1 n2) as [e|e]; [apply SAME; rewrite EL, ER, e; reflexivity|].
    destruct (Z_lt_ge_dec n1 8) as [k1|k1]; [|destruct (Z_lt_ge_dec n2 8) as [k2|k2]; [|apply SAME; rewrite EL, ER; symmetry; apply blue_apart; (assumption || lia || lra)]].
    - clear SAME. pose proof (vertex_edge2 y n1 ltac:(lia) UL) as L2. 
      apply (axes_good eps heps PA); rewrite ?EL, ?ER; try assumption.
      + intro j. specialize (BL j). specialize (BR j). lra.
      + unfold geo, is_edge in *. destruct (Z_lt_ge_dec n1 4) as [a|a]; [|destruct (L0 ltac:(lia)); lra].
        destruct (Z_lt_ge_dec n2 4) as [b|b]; [|destruct (R0 ltac:(lia)); lra].
        left. apply red_apart; (assumption || lia || lra).
      + unfold geo, is_edge in *. destruct (Z_lt_ge_dec n1 4) as [a|a]; [destruct (L1 ltac:(lia)); lra|].
        destruct (Z_lt_ge_dec n2 4) as [b|b]; [destruct (R1 ltac:(lia)); lra|].
        destruct (Z_lt_ge_dec n2 8) as [b'|b']; [|destruct (R1 ltac:(lia)); lra].
        left. apply green_apart; (assumption || lia || lra).
      + unfold geo, is_edge in *. destruct L2; lra.
      + intros w [-> | ->]; assumption.
    - clear SAME. pose proof (vertex_edge2 y n2 ltac:(lia) UR) as R2. 
      apply (axes_good eps heps PA); rewrite ?EL, ?ER; try assumption.
      + intro j. specialize (BL j). specialize (BR j). lra.
      + unfold geo, is_edge in *. destruct (L0 ltac:(lia)); lra.
      + unfold geo, is_edge in *. destruct (L1 ltac:(lia)); lra.
      + unfold geo, is_edge in *. destruct R2; lra.
      + intros w [-> | ->]; assumption. }
  destruct K as (a & b & c & K & Ga & Gc).
  destruct (limit_axis target 0 (lft, lh, rgt)) as [s0|]; [|discriminate K]. cbn [bind] in K |- *.
  destruct (limit_axis target 1 s0) as [s1|]; [|discriminate K]. cbn [bind] in K |- *.
  rewrite K. cbn [bind]. eexists; split; [reflexivity|]. exact (midpoint_good _ a c Ga Gc).
Qed.
End Limit.
