(** * The compressed cone response and its inverse.  Proof file. *)
From Coq Require Import ZArith Bool Reals Lra Lia Psatz String List.
From Flocq Require Import Core Relative IEEE754.BinarySingleNaN.
From Verif Require Import F64 MathUtils ColorUtils ViewingConditions Cam16 Spec SpecCam FloatFacts FloatMono PfMath PfTones PfLab PfGamma PfNear PfVc PfRel.
Open Scope string_scope.
Open Scope R_scope.

Lemma signum_pos (x : f64) : fin x -> 0 < B2R x -> signum x = 1%Z.
Proof.
  intros f h. unfold signum. fconst (dec "0.0").
  replace (flt x (dec "0.0")) with false by (symmetry; apply flt_fin_f; [exact f|exact F|rewrite V; lra]).
  destruct (feq x (dec "0.0")) eqn:E; [|reflexivity]. exfalso. apply (feq_fin x (dec "0.0") f F) in E. lra.
Qed.

Section Acc.
Context {lm : Libm} (LA : libm_accurate (1 / 10 ^ 13) lm).

Definition resp_arg (fl d rc : f64) : f64 := fdiv (fmul fl (fabs (fmul d rc))) (dec "100.0").
Definition resp (fl d rc : f64) : f64 :=
  let af := powf (resp_arg fl d rc) (dec "0.42") in
  fdiv (fmul (fmul (of_Z (signum (fmul d rc))) (dec "400.0")) af) (fadd af (dec "27.13")).
Definition unbase (ra : f64) : f64 := fmax (dec "0.0") (fdiv (fmul (dec "27.13") (fabs ra)) (fsub (dec "400.0") (fabs ra))).
Definition unresp (fl d ra : f64) : f64 :=
  fdiv (fmul (fmul (of_Z (signum ra)) (fdiv (dec "100.0") fl)) (powf (unbase ra) (fdiv (dec "1.0") (dec "0.42")))) d.

(** The compressed response of the real number [A]. *)
Definition hyp (A : R) : R := 400 * A / (A + 27.13).
Definition y42 : R := B2R (dec "0.42").
Lemma y42_near : 0.42 - 1 / 10 ^ 16 <= y42 <= 0.42 + 1 / 10 ^ 16.
Proof using. unfold y42. fconst (dec "0.42"). lra. Qed.

Lemma resp_fwd (fl d rc : f64) : between fl 0.38 0.4 -> between d 0.9 1.1 -> between rc 0.0008 109.2 ->
  let X := B2R fl * B2R d * B2R rc / 100 in
  0.0000027 <= X <= 0.481 /\ 0.0016 <= Rpower X y42 <= 0.75 /\ near (resp fl d rc) (hyp (Rpower X y42)) (1 / 10 ^ 10).
Proof using LA.
  intros [ff bf] [fd bd] [fr br] X.
  assert (P1 : 0.00072 <= B2R d * B2R rc <= 120.12) by (split; [apply Rle_trans with (0.9 * 0.0008); [lra|]|apply Rle_trans with (1.1 * 109.2); [|lra]]; apply Rmult_le_compat; lra).
  assert (P2 : 0.00027 <= B2R fl * (B2R d * B2R rc) <= 48.05) by (split; [apply Rle_trans with (0.38 * 0.00072); [lra|]|apply Rle_trans with (0.4 * 120.12); [|lra]]; apply Rmult_le_compat; lra).
  assert (EX : X = B2R fl * (B2R d * B2R rc) / 100) by (unfold X; field). clearbody X.
  assert (BX : 0.0000027 <= X <= 0.481) by lra.
  assert (Y := y42_near).
  assert (BA : 0.0016 <= Rpower X y42 <= 0.75).
  { split.
    - apply (pow_lo_small _ _ _ 1 2); [lra|lra|lia|simpl; lra|]. lra.
    - apply (pow_hi_small _ _ _ 2 5); [lra|lra|lia|simpl; lra|]. apply Rle_trans with (0.481 ^ 2); [apply pow_incr; lra|lra]. }
  split; [exact BX|]. split; [exact BA|].
  pose proof (frel_mul _ _ _ _ _ _ (frel_self d fd ltac:(lra)) (frel_self rc fr ltac:(lra)) ltac:(lra) ltac:(lra) ltac:(lra)) as N1.
  unfold resp, resp_arg. cbv zeta. set (rd := fmul d rc) in *. clearbody rd.
  assert (R1 : fin rd /\ 0 < B2R rd) by (destruct N1 as [g h]; split; [exact g|apply (rel_pos _ _ _ h); lra]).
  destruct R1 as [fn pn]. rewrite (signum_pos rd fn pn).
  assert (N2 : frel (fabs rd) (B2R d * B2R rc) (1.1 * (0 + 0) + 3 / 10 ^ 16)).
  { destruct N1 as [g h]. split; [rewrite fabs_fin; exact g|rewrite fabs_R, Rabs_pos_eq by lra; exact h]. }
  pose proof (frel_mul _ _ _ _ _ _ (frel_self fl ff ltac:(lra)) N2 ltac:(lra) ltac:(lra) ltac:(lra)) as N3.
  fconst (dec "100.0"). assert (N4 : frel (dec "100.0") 100 0) by (apply frel_const with (1 := F) (2 := V); split; lra).
  pose proof (frel_div _ _ _ _ _ _ N3 N4 ltac:(lra) ltac:(lra) ltac:(lra)) as N5. rewrite <- EX in N5.
  fconst (dec "0.42"). fold y42 in V0.
  pose proof (frel_pow LA _ (dec "0.42") _ _ N5 F0 ltac:(lra) ltac:(fold y42; lra) ltac:(fold y42; lra)) as N6. fold y42 in N6.
  set (af := powf _ (dec "0.42")) in *. clearbody af. set (A := Rpower X y42) in *. clearbody A.
  assert (N7 : frel af A (2 / 10 ^ 13)) by (apply frel_w with (1 := N6); lra).
  fconst (dec "400.0"). assert (N8 : frel (dec "400.0") 400 0) by (apply frel_const with (1 := F1) (2 := V1); split; lra).
  assert (N9 : frel (of_Z 1) 1 0) by (destruct (of_Z_R 1 ltac:(lia)) as [q1 q2]; apply frel_const with (1 := q2) (2 := q1); split; lra).
  pose proof (frel_mul _ _ _ _ _ _ N9 N8 ltac:(lra) ltac:(lra) ltac:(lra)) as M1.
  pose proof (frel_mul _ _ _ _ _ _ M1 N7 ltac:(lra) ltac:(lra) ltac:(lra)) as M2.
  fconst (dec "27.13"). assert (M3 : frel (dec "27.13") 27.13 (2 / 10 ^ 13)) by (apply frel_const with (1 := F2) (2 := V2); split; lra).
  pose proof (frel_add _ _ _ _ _ N7 M3 ltac:(lra) ltac:(lra)) as M4.
  assert (HY : 0.02 <= hyp A <= 11).
  { unfold hyp. split; apply Rmult_le_reg_r with (A + 27.13); try lra; unfold Rdiv; rewrite Rmult_assoc, Rinv_l by lra; lra. }
  assert (EH : 1 * 400 * A / (A + 27.13) = hyp A) by (unfold hyp; field; lra).
  pose proof (frel_div _ _ _ _ _ _ M2 M4 ltac:(lra) ltac:(lra) ltac:(rewrite EH; lra)) as M5. rewrite EH in M5.
  apply near_weak with (1 := frel_near _ _ _ 11 M5 ltac:(lra) ltac:(lra)). lra.
Qed.

Lemma hyp_range A : 0.0016 <= A <= 0.75 -> 0.022 <= hyp A <= 10.8.
Proof using.
  intros h. unfold hyp. split; apply Rmult_le_reg_r with (A + 27.13); try lra; unfold Rdiv; rewrite Rmult_assoc, Rinv_l by lra; lra.
Qed.

Lemma unhyp A x d : 0.0016 <= A <= 0.75 -> hyp A - d <= x <= hyp A + d -> 0 <= d <= 2 / 10 ^ 6 ->
  - (0.072 * d) <= 27.13 * x / (400 - x) - A <= 0.072 * d.
Proof using.
  intros hA hx hd. assert (H := hyp_range A hA). set (h := hyp A) in *.
  assert (E : A = 27.13 * h / (400 - h)).
  { unfold h, hyp. assert (K : 0 < 27.13) by lra. set (k := 27.13) in *. clearbody k. field. split; lra. }
  assert (EQ : 27.13 * x / (400 - x) - A = (x - h) * (10852 * (/ (400 - x) * / (400 - h)))).
  { rewrite E. replace 10852 with (400 * 27.13) by lra. set (k := 27.13). clearbody k. field. lra. }
  rewrite EQ. clearbody h. assert (I1 : 0 < / (400 - x) <= / 389.1) by (split; [apply Rinv_0_lt_compat; lra|apply Rinv_le; lra]).
  assert (I2 : 0 < / (400 - h) <= / 389.1) by (split; [apply Rinv_0_lt_compat; lra|apply Rinv_le; lra]).
  assert (Q : 0 <= / (400 - x) * / (400 - h) <= / 389.1 * / 389.1) by (split; [apply Rmult_le_pos; lra|apply Rmult_le_compat; lra]).
  pose proof (mul_bnd (x - h) (10852 * (/ (400 - x) * / (400 - h))) d 0.072 ltac:(lra) ltac:(lra)). lra.
Qed.

Lemma pow_lip3 a b p : 0 < a <= 1 -> 0 < b <= 1 -> 2 <= p <= 3 -> - (3 * Rabs (b - a)) <= Rpower b p - Rpower a p <= 3 * Rabs (b - a).
Proof using.
  assert (W : forall a b, 0 < a -> a <= b -> b <= 1 -> 2 <= p <= 3 -> 0 <= Rpower b p - Rpower a p <= 3 * (b - a)).
  { clear. intros a b ha hab hb hp. assert (B : 0 < b) by lra.
    assert (one : forall z q, 0 < z <= 1 -> 0 <= q -> Rpower z q <= 1).
    { intros z q hz hq. apply Rle_trans with (Rpower z 0); [apply rpow_exp_small; lra|rewrite Rpower_O by lra; lra]. }
    destruct (pw_lip a b (p - 1) 1 ltac:(lra) hab ltac:(lra)) as [l u]; [intros _; apply one; lra|lra|].
    rewrite !pw_pos in l, u by lra.
    assert (E : forall z, 0 < z -> Rpower z p = Rpower z (p - 1) * z).
    { intros z hz. replace p with (p - 1 + 1) at 1 by ring. rewrite Rpower_plus, Rpower_1 by exact hz. reflexivity. }
    rewrite (E a ha), (E b B). assert (0 < Rpower a (p - 1)) by apply exp_pos. assert (Oa := one a (p - 1) ltac:(lra) ltac:(lra)).
    set (u1 := Rpower a (p - 1)) in *. set (u2 := Rpower b (p - 1)) in *. clearbody u1 u2.
    replace (u2 * b - u1 * a) with ((u2 - u1) * b + u1 * (b - a)) by ring.
    assert (0 <= (u2 - u1) * b <= (u2 - u1) * 1) by (split; [apply Rmult_le_pos; lra|apply Rmult_le_compat_l; lra]).
    assert (0 <= u1 * (b - a) <= 1 * (b - a)) by (split; [apply Rmult_le_pos; lra|apply Rmult_le_compat_r; lra]). lra. }
  intros ha hb hp. destruct (Rle_or_lt a b) as [h|h].
  - pose proof (W a b ltac:(lra) h ltac:(lra) hp). rewrite Rabs_pos_eq by lra. lra.
  - pose proof (W b a ltac:(lra) ltac:(lra) ltac:(lra) hp). rewrite Rabs_left by lra. lra.
Qed.


Lemma unresp_back (fl d rc ra : f64) : between fl 0.38 0.4 -> between d 0.9 1.1 -> between rc 0.0008 109.2 ->
  near ra (hyp (Rpower (B2R fl * B2R d * B2R rc / 100) y42)) (1.3 / 10 ^ 6) -> near (unresp fl d ra) (B2R rc) (1 / 10 ^ 4).
Proof using LA.
  intros hf hd hr hn. destruct (resp_fwd fl d rc hf hd hr) as (BX & BA & _). set (X := B2R fl * B2R d * B2R rc / 100) in *.
  assert (EX : X * 100 / B2R fl / B2R d = B2R rc) by (unfold X; destruct hf, hd; field; lra).
  destruct hf as [ff bf]. destruct hd as [fd bd]. destruct hr as [fr br]. clearbody X.
  set (A := Rpower X y42) in *. destruct hn as [fa ba]. assert (HA := hyp_range A BA).
  pose proof (unhyp A (B2R ra) (1.3 / 10 ^ 6) BA ba ltac:(lra)) as U.
  unfold unresp, unbase. rewrite (signum_pos ra fa ltac:(lra)).
  assert (FA : fin (fabs ra) /\ B2R (fabs ra) = B2R ra) by (split; [rewrite fabs_fin; exact fa|rewrite fabs_R, Rabs_pos_eq by lra; reflexivity]).
  destruct FA as [g e]. set (x := fabs ra) in *. clearbody x. rewrite <- e in ba, U. clear e fa ra.
  fconst (dec "27.13"). fconst (dec "400.0").
  assert (N1 : frel (dec "27.13") 27.13 (1 / 10 ^ 15)) by (apply frel_const with (1 := F) (2 := V); split; lra).
  pose proof (frel_mul _ _ _ _ _ _ N1 (frel_self x g ltac:(lra)) ltac:(lra) ltac:(lra) ltac:(lra)) as N2.
  destruct (fsub_S (dec "400.0") x F0 g ltac:(rewrite V0; fsmall)) as [E1 G1]. rewrite V0 in E1.
  assert (N3 : frel (fsub (dec "400.0") x) (400 - B2R x) (2 / 10 ^ 16)) by (split; [exact G1|rewrite E1; apply rnd_rel_pos; lra]).
  assert (Q : 0.001 <= 27.13 * B2R x / (400 - B2R x) <= 0.76) by lra.
  pose proof (frel_div _ _ _ _ _ _ N2 N3 ltac:(lra) ltac:(lra) ltac:(lra)) as N4.
  set (base := fdiv _ (fsub (dec "400.0") x)) in *. clearbody base. clear N1 N2 N3 E1 G1 V V0 F F0.
  pose proof (frel_near _ _ _ 0.76 N4 ltac:(lra) ltac:(lra)) as [fb bb]. 
  assert (NB : A - 1 / 10 ^ 7 <= B2R base <= A + 1 / 10 ^ 7) by lra.
  assert (FB : fin (fmax (dec "0.0") base) /\ B2R (fmax (dec "0.0") base) = B2R base).
  { fconst (dec "0.0"). destruct (fmax_R (dec "0.0") base F fb) as [k1 k2]. split; [exact k1|]. rewrite k2, V. apply Rmax_right. lra. }
  destruct FB as [fm em]. set (bm := fmax (dec "0.0") base) in *. clearbody bm. rewrite <- em in NB. clear em N4 bb fb base U Q.
  set (y := fdiv (dec "1.0") (dec "0.42")) in *.
  assert (FY : fin y) by (unfold y; fconst (fdiv (dec "1.0") (dec "0.42")); assumption).
  assert (BY : 2.38095238 <= B2R y <= 2.3809524 /\ - (1 / 10 ^ 15) <= y42 * B2R y - 1 <= 1 / 10 ^ 15).
  { unfold y42, y. fconst (dec "0.42"). fconst (fdiv (dec "1.0") (dec "0.42")). rewrite V, V0. lra. }
  clearbody y. destruct BY as [BY KY].
  pose proof (pow_lip3 A (B2R bm) (B2R y) ltac:(lra) ltac:(lra) ltac:(lra)) as L.
  assert (Rabs (B2R bm - A) <= 1 / 10 ^ 7) by (apply Rabs_le; lra).
  assert (EA : Rpower A (B2R y) = Rpower X (1 + (y42 * B2R y - 1))).
  { unfold A. rewrite Rpower_mult. f_equal. ring. }
  pose proof (pw_one_near X (y42 * B2R y - 1) ltac:(lra) ltac:(lra)) as PO. rewrite pw_pos, <- EA in PO by lra.
  assert (Rabs (y42 * B2R y - 1) <= 1 / 10 ^ 15) by (apply Rabs_le; lra).
  assert (PX : X - 3.02 / 10 ^ 7 <= Rpower (B2R bm) (B2R y) <= X + 3.02 / 10 ^ 7) by lra.
  destruct (pow_wide LA bm y fm FY ltac:(lra) ltac:(lra)) as [FP [_ EP]]. set (P := powf bm y) in *. clearbody P.
  assert (NP : near P X (3.021 / 10 ^ 7)) by (split; [exact FP|]; lra). clear EP PX EA PO L.
  fconst (dec "100.0"). assert (N4 : frel (dec "100.0") 100 0) by (apply frel_const with (1 := F) (2 := V); split; lra).
  assert (IF : 249.9 <= 100 / B2R fl <= 263.2).
  { split; apply Rmult_le_reg_r with (B2R fl); try lra; unfold Rdiv; rewrite Rmult_assoc, Rinv_l by lra; lra. }
  pose proof (frel_div _ _ _ _ _ _ N4 (frel_self fl ff ltac:(lra)) ltac:(lra) ltac:(lra) ltac:(lra)) as N5.
  assert (N9 : frel (of_Z 1) 1 0) by (destruct (of_Z_R 1 ltac:(lia)) as [q1 q2]; apply frel_const with (1 := q2) (2 := q1); split; lra).
  pose proof (frel_mul _ _ _ _ _ _ N9 N5 ltac:(lra) ltac:(lra) ltac:(lra)) as N6. rewrite Rmult_1_l in N6.
  pose proof (frel_near _ _ _ 263.2 N6 ltac:(lra) ltac:(lra)) as N7.
  assert (N8 : near (fmul (of_Z 1) (fdiv (dec "100.0") fl)) (100 / B2R fl) (1 / 10 ^ 12)) by (apply near_weak with (1 := N7); lra).
  pose proof (near_mul _ _ _ _ _ _ 263.2 1 N8 NP ltac:(lra) ltac:(destruct NP; lra) ltac:(lra) ltac:(lra) ltac:(lra) ltac:(lra) ltac:(lra)) as M1.
  set (m := fmul (fmul (of_Z 1) _) P) in *. clearbody m.
  assert (M2 : near m (100 / B2R fl * X) (7.96 / 10 ^ 5)) by (apply near_weak with (1 := M1); unfold uu; lra).
  assert (ER : 100 / B2R fl * X / B2R d = B2R rc) by (rewrite <- EX; field; lra).
  pose proof (near_div m d _ _ _ _ 110 0.9 M2 (near_self d fd) ltac:(lra) ltac:(lra) ltac:(lra) ltac:(rewrite ER; lra) ltac:(lra) ltac:(lra) ltac:(lra) ltac:(lra)) as M3.
  rewrite ER in M3. apply near_weak with (1 := M3). unfold uu. lra.
Qed.
End Acc.
