(** * Contrast survives an error of one tone.  Proof file. *)
From Coq Require Import ZArith Bool Reals Lra Lia Psatz String List.
From Flocq Require Import Core Relative IEEE754.BinarySingleNaN.
From Verif Require Import F64 MathUtils ColorUtils Contrast Spec SpecTone FloatFacts FloatMono PfMath PfContrast PfTones PfLab.
Open Scope string_scope.
Open Scope R_scope.

Lemma sq a b : 0 <= (a - b) * (a - b).
Proof. apply Rle_0_sqr. Qed.
Lemma rate (a : R) : 0 <= a <= 2 -> 0.001 <= 4 * a ^ 3 - 300 * (1 / 116) * a ^ 2 - 300 * (1 / 116) ^ 2 * a - 100 * (1 / 116) ^ 3 + 0.2.
Proof.
  intros h. assert (P : 0 <= a * ((a - 0.43) * (a - 0.43))) by (apply Rmult_le_pos; [lra|apply sq]). pose proof (sq a 0.446) as Q.
  assert (E1 : a * ((a - 0.43) * (a - 0.43)) = a ^ 3 - 0.86 * a ^ 2 + 0.1849 * a) by (cbn [pow]; lra).
  assert (E2 : (a - 0.446) * (a - 0.446) = a ^ 2 - 0.892 * a + 0.198916) by (cbn [pow]; lra).
  lra.
Qed.

Lemma slow (w w' y y' : R) : cubish w y -> cubish w' y' -> 0.137 <= w -> w' <= 1 -> w <= w' -> w' <= w + 1 / 116 -> y' + 5 <= 1.04 * (y + 5).
Proof.
  intros c c' lo hi le st. assert (T : lin w <= w ^ 3) by (apply tangent; lra). assert (T' : lin w' <= w' ^ 3) by (apply tangent; lra).
  assert (CU : w' ^ 3 <= (w + 1 / 116) ^ 3) by (apply cube_lt; lra).
  destruct c' as [(k' & b')|(k' & b')].
  - destruct c as [(k & b)|(k & b)].
    + pose proof (rate w ltac:(lra)) as R. assert (E : (w + 1 / 116) ^ 3 = w ^ 3 + 3 * (1 / 116) * w ^ 2 + 3 * (1 / 116) ^ 2 * w + (1 / 116) ^ 3) by (cbn [pow]; lra). lra.
    + assert (K' : 6 / 29 - 1 / 10 ^ 6 <= w') by (apply (above_knee w' (1 / 10 ^ 6)); lra).
      assert (K : w <= 6 / 29 + 1 / 10 ^ 6).
      { destruct (Rle_or_lt w (6 / 29 + 1 / 10 ^ 6)) as [?|g]; [assumption|exfalso]. assert ((6 / 29 + 1 / 10 ^ 6) ^ 3 <= w ^ 3) by (apply cube_lt; lra). unfold eR in *. lra. }
      assert (W' : w' ^ 3 <= (6 / 29 + 1 / 10 ^ 6 + 1 / 116) ^ 3) by (apply cube_lt; lra). unfold lin in *. lra.
  - destruct c as [(k & b)|(k & b)]; unfold lin in *; lra.
Qed.

(** Tones that far apart reach the ratio even if each is off by one. *)
Lemma far_3 (w w' y y' : R) : cubish w y -> cubish w' y' -> 0.137 <= w -> w <= 0.6553 -> w + 39 / 116 - 1 / 10 ^ 8 <= w' -> w' <= 2 -> 3.0001 * (y + 5) <= y' + 5.
Proof.
  intros c c' lo hi st up. assert (T : lin w <= w ^ 3) by (apply tangent; lra).
  assert (Y : y <= 100 * w ^ 3 + 1 / 10 ^ 9) by (destruct c as [(k & b)|(k & b)]; lra).
  assert (CU : (w + 0.3362068) ^ 3 <= w' ^ 3) by (apply cube_lt; lra).
  destruct c' as [(k' & b')|(k' & b')].
  2: { exfalso. assert ((0.4) ^ 3 <= w' ^ 3) by (apply cube_lt; lra). unfold eR in k'. lra. }
  destruct (Rle_or_lt w 0.1466) as [l|l].
  { assert (X : w ^ 3 <= 0.1466 ^ 3) by (apply cube_lt; lra). destruct c as [(k & b)|(k & b)]; [exfalso; unfold eR in k; lra|].
    assert (Z : (0.137 + 0.3362068) ^ 3 <= w' ^ 3) by (apply Rle_trans with (2 := CU); apply cube_lt; lra). unfold lin in b. lra. }
  assert (E : (w + 0.3362068) ^ 3 = w ^ 3 + 3 * 0.3362068 * w ^ 2 + 3 * 0.3362068 ^ 2 * w + 0.3362068 ^ 3) by (cbn [pow]; lra).
  (* (w - 0.1466) (0.6553 - w) (w + c) is non-negative *)
  assert (P : 0 <= (w - 0.1466) * (0.6553 - w) * (w + 0.3)) by (repeat apply Rmult_le_pos; lra).
  assert (P2 : 0 <= (w - 0.1466) * (0.6553 - w)) by (apply Rmult_le_pos; lra).
  assert (E2 : (w - 0.1466) * (0.6553 - w) * (w + 0.3) = - w ^ 3 + 0.5019 * w ^ 2 + 0.14450302 * w - 0.028820094) by (cbn [pow]; lra).
  assert (E3 : (w - 0.1466) * (0.6553 - w) = - w ^ 2 + 0.8019 * w - 0.09606698) by (cbn [pow]; lra).
  pose proof (pow2_ge_0 w). lra.
Qed.
Lemma far_45 (w w' y y' : R) : cubish w y -> cubish w' y' -> 0.137 <= w -> w <= 0.5604 -> w + 50 / 116 - 1 / 10 ^ 8 <= w' -> w' <= 2 -> 4.5001 * (y + 5) <= y' + 5.
Proof.
  intros c c' lo hi st up. assert (T : lin w <= w ^ 3) by (apply tangent; lra).
  assert (Y : y <= 100 * w ^ 3 + 1 / 10 ^ 9) by (destruct c as [(k & b)|(k & b)]; lra).
  assert (CU : (w + 0.4310344) ^ 3 <= w' ^ 3) by (apply cube_lt; lra).
  destruct c' as [(k' & b')|(k' & b')].
  2: { exfalso. assert ((0.4) ^ 3 <= w' ^ 3) by (apply cube_lt; lra). unfold eR in k'. lra. }
  destruct (Rle_or_lt w 0.15) as [l|l].
  { assert (X : w ^ 3 <= 0.15 ^ 3) by (apply cube_lt; lra). destruct c as [(k & b)|(k & b)]; [exfalso; unfold eR in k; lra|].
    assert (Z : (0.137 + 0.4310344) ^ 3 <= w' ^ 3) by (apply Rle_trans with (2 := CU); apply cube_lt; lra).
    assert (Z2 : (w + 0.4310344) ^ 3 >= (0.137 + 0.4310344) ^ 3 + 3 * (0.137 + 0.4310344) ^ 2 * (w - 0.137)).
    { pose proof (sq w 0.137). assert (0 <= (w + 1.5) * ((w - 0.137) * (w - 0.137))) by (apply Rmult_le_pos; lra). cbn [pow]. nra. }
    unfold lin in b. lra. }
  assert (E : (w + 0.4310344) ^ 3 = w ^ 3 + 3 * 0.4310344 * w ^ 2 + 3 * 0.4310344 ^ 2 * w + 0.4310344 ^ 3) by (cbn [pow]; lra).
  assert (P : 0 <= (w - 0.15) * (0.5604 - w) * (w + 0.3)) by (repeat apply Rmult_le_pos; lra).
  assert (P2 : 0 <= (w - 0.15) * (0.5604 - w)) by (apply Rmult_le_pos; lra).
  assert (E2 : (w - 0.15) * (0.5604 - w) * (w + 0.3) = - w ^ 3 + 0.4104 * w ^ 2 + 0.12906 * w - 0.025218) by (cbn [pow]; lra).
  assert (E3 : (w - 0.15) * (0.5604 - w) = - w ^ 2 + 0.7104 * w - 0.08406) by (cbn [pow]; lra).
  pose proof (pow2_ge_0 w). lra.
Qed.

(** ** On the floats *)
Lemma ct_R (x : f64) : fin x -> fin (ct x) /\ B2R (ct x) = clamp_tone x /\ 0 <= clamp_tone x <= 100.
Proof.
  intros fx. fconst (dec "0.0"). fconst (dec "100.0").
  destruct (clamp_double_cases (dec "0.0") (dec "100.0") x) as (_ & E1 & E2 & E3 & _); [vm_compute; reflexivity|apply fin_not_nan; exact fx|].
  fold (ct x) in E1, E2, E3. unfold clamp_tone. destruct (Rlt_or_le (B2R x) 0) as [l|l]; [|destruct (Rlt_or_le 100 (B2R x)) as [u|u]].
  - rewrite E2 by (apply (flt_fin _ _ fx F); lra). rewrite Rmax_left, Rmin_right by lra. split; [exact F|]. lra.
  - rewrite E3 by (apply (flt_fin _ _ F0 fx); lra). rewrite Rmax_right, Rmin_left by lra. split; [exact F0|]. lra.
  - rewrite E1; [|apply (fle_fin _ _ F fx); lra|apply (fle_fin _ _ fx F0); lra]. rewrite Rmax_right, Rmin_right by lra. split; [exact fx|]. lra.
Qed.

Definition wt (r : R) : R := (r + 16) / 116.
Lemma y_ct (x : f64) : fin x -> fin (y_from_lstar (ct x)) /\ cubish (wt (clamp_tone x)) (B2R (y_from_lstar (ct x))) /\ 0 <= B2R (y_from_lstar (ct x)) <= 100.
Proof.
  intros fx. destruct (ct_R x fx) as (f & E & b). destruct (Yct x (fin_not_nan _ fx)) as (fy & by_). split; [exact fy|]. split; [|exact by_].
  destruct (Y_R (ct x) f ltac:(lra)) as (_ & C). rewrite E in C. exact C.
Qed.

Lemma ratio_lo (a b : f64) : fin a -> fin b ->
  (B2R (y_from_lstar (ct b)) + 5) / (B2R (y_from_lstar (ct a)) + 5) <= B2R (ratio_of_tones a b) + 1 / 10 ^ 11.
Proof.
  intros fa fb. rewrite ratio_eq. destruct (y_ct a fa) as (f1 & _ & b1), (y_ct b fb) as (f2 & _ & b2).
  destruct (ratio_ys_R _ _ f1 f2 b1 b2) as (_ & E & _). rewrite E. clear E. set (p := B2R (y_from_lstar (ct a))) in *. set (q := B2R (y_from_lstar (ct b))) in *. clearbody p q.
  assert (M1 : q <= Rmax p q <= 100) by (unfold Rmax; destruct (Rle_dec p q); lra). assert (M2 : 0 <= Rmin p q <= p) by (unfold Rmin; destruct (Rle_dec p q); lra).
  set (M := Rmax p q) in *. set (m := Rmin p q) in *. clearbody M m.
  pose proof (rnd_near (M + 5) ltac:(lra)) as R1. pose proof (rnd_near (m + 5) ltac:(lra)) as R2. set (u := rnd (M + 5)) in *. set (v := rnd (m + 5)) in *. clearbody u v.
  assert (D : (q + 5) / (p + 5) <= u / v + 1 / 10 ^ 12).
  { apply Rle_trans with ((u + 1 / 10 ^ 13) / (v - 1 / 10 ^ 13)); [apply div_mono; lra|].
    apply Rmult_le_reg_r with (v - 1 / 10 ^ 13); [lra|]. unfold Rdiv at 1. rewrite Rmult_assoc, Rinv_l, Rmult_1_r by lra.
    assert (Q : u / v * v = u) by (unfold Rdiv; rewrite Rmult_assoc, Rinv_l, Rmult_1_r; lra). assert (U : u / v <= 30) by (apply Rmult_le_reg_r with v; [lra|rewrite Q; lra]).
    set (z := u / v) in *. clearbody z. nra. }
  assert (U : 0 <= u / v <= 30).
  { assert (Q : u / v * v = u) by (unfold Rdiv; rewrite Rmult_assoc, Rinv_l, Rmult_1_r; lra). split; apply Rmult_le_reg_r with v; lra. }
  pose proof (rnd_near (u / v) ltac:(lra)). lra.
Qed.
Lemma ratio_hi (a b : f64) : fin a -> fin b -> clamp_tone a <= clamp_tone b ->
  B2R (ratio_of_tones a b) <= (B2R (y_from_lstar (ct b)) + 5) / (B2R (y_from_lstar (ct a)) + 5) + 1 / 10 ^ 11.
Proof.
  intros fa fb le. rewrite ratio_eq. destruct (y_ct a fa) as (f1 & _ & b1), (y_ct b fb) as (f2 & _ & b2).
  assert (MO : B2R (y_from_lstar (ct a)) <= B2R (y_from_lstar (ct b))).
  { destruct (ct_R a fa) as (g1 & e1 & _), (ct_R b fb) as (g2 & e2 & _). rewrite <- !val_fin by assumption.
    apply PfColor.y_from_lstar_mono; [apply fin_not_nan; exact g1|apply fin_not_nan; exact g2|rewrite !val_fin by assumption; lra]. }
  destruct (ratio_ys_R _ _ f1 f2 b1 b2) as (_ & E & _). rewrite E. clear E. set (p := B2R (y_from_lstar (ct a))) in *. set (q := B2R (y_from_lstar (ct b))) in *. clearbody p q.
  rewrite Rmax_right, Rmin_left by lra.
  pose proof (rnd_near (q + 5) ltac:(lra)) as R1. pose proof (rnd_near (p + 5) ltac:(lra)) as R2. set (u := rnd (q + 5)) in *. set (v := rnd (p + 5)) in *. clearbody u v.
  assert (D : u / v <= (q + 5) / (p + 5) + 1 / 10 ^ 12).
  { assert (Q : u / v * v = u) by (unfold Rdiv; rewrite Rmult_assoc, Rinv_l, Rmult_1_r; lra).
    assert (P : (q + 5) / (p + 5) * (p + 5) = q + 5) by (unfold Rdiv; rewrite Rmult_assoc, Rinv_l, Rmult_1_r; lra).
    apply Rmult_le_reg_r with v; [lra|]. rewrite Q. set (z := (q + 5) / (p + 5)) in *.
    assert (Z : 0 <= z <= 30) by (split; apply Rmult_le_reg_r with (p + 5); lra). clearbody z. nra. }
  assert (U : 0 <= u / v <= 30).
  { assert (Q : u / v * v = u) by (unfold Rdiv; rewrite Rmult_assoc, Rinv_l, Rmult_1_r; lra). split; apply Rmult_le_reg_r with v; lra. }
  pose proof (rnd_near (u / v) ltac:(lra)). lra.
Qed.

Lemma step_up (x s : f64) : fin x -> fin s -> Rabs (clamp_tone x - clamp_tone s) <= 1 ->
  B2R (y_from_lstar (ct x)) + 5 <= 1.04 * (B2R (y_from_lstar (ct s)) + 5).
Proof.
  intros fx fs d. destruct (y_ct x fx) as (y1 & c1 & b1), (y_ct s fs) as (y2 & c2 & b2). destruct (ct_R x fx) as (g1 & e1 & r1), (ct_R s fs) as (g2 & e2 & r2). apply Rabs_le_inv in d.
  destruct (Rle_or_lt (clamp_tone s) (clamp_tone x)) as [l|l].
  - apply (slow (wt (clamp_tone s)) (wt (clamp_tone x))); [exact c2|exact c1| | | |]; unfold wt; lra.
  - assert (MO : B2R (y_from_lstar (ct x)) <= B2R (y_from_lstar (ct s))).
    { rewrite <- !val_fin by assumption. apply PfColor.y_from_lstar_mono; [apply fin_not_nan; exact g1|apply fin_not_nan; exact g2|rewrite !val_fin by assumption; lra]. }
    lra.
Qed.
Lemma clamp_1 (x s : f64) : Rabs (B2R x - clamp_tone s) <= 1 -> 0 <= clamp_tone s <= 100 -> Rabs (clamp_tone x - clamp_tone s) <= 1.
Proof.
  intros d r. apply Rabs_le_inv in d. apply Rabs_le. set (q := clamp_tone s) in *. clearbody q. unfold clamp_tone, Rmin, Rmax. repeat destruct (Rle_dec _ _); lra.
Qed.

Lemma kept_1 (x y s t : f64) : SpecTone.within 1 x (clamp_tone s) -> SpecTone.within 1 y (clamp_tone t) -> fin s -> fin t -> clamp_tone s <= clamp_tone t ->
  0.92 * B2R (ratio_of_tones s t) <= B2R (ratio_of_tones x y).
Proof.
  intros [fx dx] [fy dy] fs ft le. destruct (ct_R s fs) as (_ & _ & rs), (ct_R t ft) as (_ & _ & rt).
  apply clamp_1 in dx; [|exact rs]. apply clamp_1 in dy; [|exact rt]. rewrite Rabs_minus_sym in dy.
  pose proof (step_up x s fx fs dx) as U1. pose proof (step_up t y ft fy dy) as U2. pose proof (ratio_lo x y fx fy) as L. pose proof (ratio_hi s t fs ft le) as H.
  destruct (y_ct x fx) as (_ & _ & b1), (y_ct s fs) as (_ & _ & b2), (y_ct y fy) as (_ & _ & b3), (y_ct t ft) as (_ & _ & b4).
  destruct (ratio_bounds x y (fin_not_nan _ fx) (fin_not_nan _ fy)) as (_ & lo & _).
  set (X := B2R (y_from_lstar (ct x))) in *. set (Y := B2R (y_from_lstar (ct y))) in *. set (S := B2R (y_from_lstar (ct s))) in *. set (T := B2R (y_from_lstar (ct t))) in *. clearbody X Y S T.
  assert (D : (T + 5) / (S + 5) <= 1.04 * 1.04 * ((Y + 5) / (X + 5))).
  { replace (1.04 * 1.04 * ((Y + 5) / (X + 5))) with ((1.04 * (Y + 5)) / ((X + 5) / 1.04)) by (field; lra). apply div_mono; lra. }
  lra.
Qed.
Lemma kept (x y s t : f64) : SpecTone.within 1 x (clamp_tone s) -> SpecTone.within 1 y (clamp_tone t) -> fin s -> fin t ->
  0.92 * B2R (ratio_of_tones s t) <= B2R (ratio_of_tones x y).
Proof.
  intros wx wy fs ft. destruct (Rle_or_lt (clamp_tone s) (clamp_tone t)) as [l|l]; [exact (kept_1 x y s t wx wy fs ft l)|].
  rewrite (ratio_sym s t) by (apply fin_not_nan; assumption). rewrite (ratio_sym x y) by (apply fin_not_nan; apply wx || apply wy).
  apply (kept_1 y x t s wy wx ft fs). lra.
Qed.
Lemma apart_1 (x y s t : f64) : SpecTone.within 1 x (clamp_tone s) -> SpecTone.within 1 y (clamp_tone t) -> fin s -> fin t ->
  (clamp_tone s + 41 <= clamp_tone t -> 3 <= B2R (ratio_of_tones x y)) /\ (clamp_tone s + 52 <= clamp_tone t -> 4.5 <= B2R (ratio_of_tones x y)).
Proof.
  intros [fx dx] [fy dy] fs ft. destruct (ct_R s fs) as (_ & _ & rs), (ct_R t ft) as (_ & _ & rt).
  apply clamp_1 in dx; [|exact rs]. apply clamp_1 in dy; [|exact rt]. apply Rabs_le_inv in dx. apply Rabs_le_inv in dy.
  pose proof (ratio_lo x y fx fy) as L. destruct (y_ct x fx) as (_ & c1 & b1), (y_ct y fy) as (_ & c2 & b2). destruct (ct_R x fx) as (_ & _ & rx), (ct_R y fy) as (_ & _ & ry).
  set (X := B2R (y_from_lstar (ct x))) in *. set (Y := B2R (y_from_lstar (ct y))) in *. clearbody X Y.
  assert (D : forall k, k * (X + 5) <= Y + 5 -> k <= (Y + 5) / (X + 5)).
  { intros k h. apply Rmult_le_reg_r with (X + 5); [lra|]. unfold Rdiv. rewrite Rmult_assoc, Rinv_l, Rmult_1_r; lra. }
  split; intros g.
  - pose proof (D 3.0001 (far_3 (wt (clamp_tone x)) (wt (clamp_tone y)) X Y c1 c2 ltac:(unfold wt; lra) ltac:(unfold wt; lra) ltac:(unfold wt; lra) ltac:(unfold wt; lra))). lra.
  - pose proof (D 4.5001 (far_45 (wt (clamp_tone x)) (wt (clamp_tone y)) X Y c1 c2 ltac:(unfold wt; lra) ltac:(unfold wt; lra) ltac:(unfold wt; lra) ltac:(unfold wt; lra))). lra.
Qed.
Lemma apart (x y s t : f64) : SpecTone.within 1 x (clamp_tone s) -> SpecTone.within 1 y (clamp_tone t) -> fin s -> fin t ->
  (41 <= Rabs (clamp_tone s - clamp_tone t) -> 3 <= B2R (ratio_of_tones x y)) /\ (52 <= Rabs (clamp_tone s - clamp_tone t) -> 4.5 <= B2R (ratio_of_tones x y)).
Proof.
  intros wx wy fs ft. pose proof (apart_1 x y s t wx wy fs ft) as [A1 A2]. pose proof (apart_1 y x t s wy wx ft fs) as [B1 B2].
  rewrite (ratio_sym y x) in B1, B2 by (apply fin_not_nan; apply wx || apply wy).
  split; intros h; unfold Rabs in h; destruct (Rcase_abs _); [apply A1|apply B1|apply A2|apply B2]; lra.
Qed.
