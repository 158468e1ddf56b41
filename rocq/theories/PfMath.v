(** * Proofs about math_utils.  Proof file. *)
From Coq Require Import ZArith Bool Reals Lra Lia Psatz String.
From Flocq Require Import Core Relative IEEE754.BinarySingleNaN.
From Verif Require Import F64 MathUtils FloatFacts.
Open Scope R_scope.

Lemma sanitize_int d :
  (0 <= sanitize_degrees_int d < 360)%Z /\ (exists k, d = sanitize_degrees_int d + 360 * k)%Z.
Proof.
  unfold sanitize_degrees_int. pose proof (Z.quot_rem' d 360) as Q.
  pose proof (Z.rem_bound_abs d 360 ltac:(lia)) as B.
  destruct (Z.ltb_spec (Z.rem d 360) 0); (split; [lia|]).
  - exists (Z.quot d 360 - 1)%Z. lia.
  - exists (Z.quot d 360). lia.
Qed.

Lemma half_ulp_512 r : 0 <= r <= 360 -> Rabs (rnd r - r) <= bpow radix2 (-45).
Proof.
  intros h. unfold rnd.
  eapply Rle_trans; [apply error_le_half_ulp; apply vexp64|].
  replace (bpow radix2 (-45)) with (/ 2 * bpow radix2 (-44)) by (simpl; lra).
  apply Rmult_le_compat_l; [lra|].
  apply Rle_trans with (ulp radix2 fexp64 360).
  - apply ulp_le; [apply vexp64|apply mexp64|]. rewrite !Rabs_pos_eq by lra. lra.
  - rewrite ulp_neq_0 by lra. apply bpow_le. unfold cexp.
    rewrite (mag_unique radix2 360 9).
    + unfold fexp64, FLT_exp. lia.
    + rewrite Rabs_pos_eq by lra. simpl. lra.
Qed.

Lemma sanitize_double d : fin d ->
  exists k : Z, fin (sanitize_degrees_double d) /\
  0 <= B2R (sanitize_degrees_double d) <= 360 /\
  (0 <= B2R d -> B2R (sanitize_degrees_double d) = B2R d - 360 * IZR k /\
                 B2R (sanitize_degrees_double d) < 360) /\
  Rabs (B2R (sanitize_degrees_double d) - (B2R d - 360 * IZR k)) <= bpow radix2 (-45).
Proof.
  intros hd. fconst (dec "360.0"). fconst (dec "0.0").
  destruct (frem_R d (dec "360.0") hd F ltac:(rewrite V; lra)) as (k & FR & E & B & _ & P & N).
  unfold sanitize_degrees_double. set (r := frem d (dec "360.0")) in *.
  rewrite V in *. apply Rabs_lt_inv in B. pose proof (bpow_gt_0 radix2 (-45)).
  destruct (flt r (dec "0.0")) eqn:L.
  - apply flt_fin in L; try assumption. rewrite V0 in L.
    destruct (fadd_S r (dec "360.0") FR F ltac:(rewrite V; fsmall)) as [A FA]. rewrite V in A.
    exists (k - 1)%Z. rewrite minus_IZR. split; [assumption|]. rewrite A. split; [|split].
    + split; [apply rnd_ge_0; lra|]. apply (rnd_le_IZR _ 360); [lia|lra].
    + intros h. specialize (P h). lra.
    + replace (B2R d - 360 * (IZR k - 1)) with (B2R r + 360) by lra. apply half_ulp_512. lra.
  - apply flt_fin_f in L; try assumption. rewrite V0 in L. exists k. split; [assumption|].
    split; [lra|]. split; [intros; lra|]. replace (_ - _) with 0 by lra. rewrite Rabs_R0. lra.
Qed.

Lemma sanitize_double_nonfinite d : is_finite d = false -> is_nan (sanitize_degrees_double d) = true.
Proof. intros h. unfold sanitize_degrees_double. rewrite frem_not_finite by assumption. reflexivity. Qed.

Lemma fsub_swap_abs (a b : f64) : fabs (fsub a b) = fabs (fsub b a).
Proof.
  destruct (is_finite a) eqn:fa, (is_finite b) eqn:fb.
  - destruct (fsub_val a b fa fb) as [V1 N1], (fsub_val b a fb fa) as [V2 N2].
    assert (E : rndx (B2R b - B2R a) = - rndx (B2R a - B2R b)).
    { unfold rndx. replace (B2R b - B2R a) with (- (B2R a - B2R b)) by lra. rewrite rnd_opp, Rabs_Ropp.
      destruct (Rlt_bool_spec (Rabs (rnd (B2R a - B2R b))) BIG) as [h|h]; [reflexivity|].
      apply ovf_ge in h. pose proof (bpow_gt_0 radix2 1023).
      destruct (Rlt_bool_spec (B2R a - B2R b) 0), (Rlt_bool_spec (- (B2R a - B2R b)) 0); try lra.
      replace (B2R a - B2R b) with 0 in h by lra. rewrite Rabs_R0 in h. lra. }
    rewrite E in V2. rewrite <- V1 in V2. clear E V1.
    destruct (is_finite (fsub a b)) eqn:f1.
    + assert (f2 : fin (fsub b a)).
      { apply (val_fin_iff _ N2). rewrite V2. apply (val_fin_iff _ N1) in f1. lra. }
      apply B2R_eq_abs; try assumption. rewrite !fabs_R, <- !val_fin, V2, Rabs_Ropp by assumption. reflexivity.
    + assert (f2 : is_finite (fsub b a) = false).
      { destruct (is_finite (fsub b a)) eqn:f2; [|reflexivity]. apply (val_fin_iff _ N2) in f2.
        rewrite <- f1. symmetry. apply (val_fin_iff _ N1). lra. }
      destruct (fsub a b), (fsub b a); try discriminate. reflexivity.
  - destruct a, b; try discriminate; reflexivity.
  - destruct a, b; try discriminate; reflexivity.
  - destruct a as [|[]| |], b as [|[]| |]; try discriminate; reflexivity.
Qed.

Lemma difference_sym a b : difference_degrees a b = difference_degrees b a.
Proof. unfold difference_degrees. now rewrite (fsub_swap_abs a b). Qed.

Lemma difference_range a b : fin a -> fin b -> 0 <= B2R a <= 360 -> 0 <= B2R b <= 360 ->
  fin (difference_degrees a b) /\ 0 <= B2R (difference_degrees a b) <= 180 /\
  (B2R a = B2R b -> B2R (difference_degrees a b) = 0) /\
  Rabs (B2R (difference_degrees a b) -
        Rmin (Rabs (B2R a - B2R b)) (360 - Rabs (B2R a - B2R b))) <= bpow radix2 (-43).
Proof.
  intros fa fb ha hb. fconst (dec "180.0").
  destruct (fsub_S a b fa fb ltac:(fsmall)) as [S1 F1].
  pose proof (fabs_R (fsub a b)) as A1. rewrite S1 in A1.
  assert (FA1 : fin (fabs (fsub a b))) by now rewrite fabs_fin.
  set (x := fabs (fsub a b)) in *.
  assert (Bx : 0 <= B2R x <= 360).
  { rewrite A1. split; [apply Rabs_pos|]. apply Rabs_le. split.
    - apply (rnd_ge_IZR _ (-360)); [lia|lra].
    - apply (rnd_le_IZR _ 360); [lia|lra]. }
  destruct (fsub_S x (dec "180.0") FA1 F ltac:(fsmall)) as [S2 F2]. rewrite V in S2.
  pose proof (fabs_R (fsub x (dec "180.0"))) as A2. rewrite S2 in A2.
  assert (FA2 : fin (fabs (fsub x (dec "180.0")))) by now rewrite fabs_fin.
  set (y := fabs (fsub x (dec "180.0"))) in *.
  assert (By : 0 <= B2R y <= 180).
  { rewrite A2. split; [apply Rabs_pos|]. apply Rabs_le. split.
    - apply (rnd_ge_IZR _ (-180)); [lia|lra].
    - apply (rnd_le_IZR _ 180); [lia|lra]. }
  destruct (fsub_S (dec "180.0") y F FA2 ltac:(fsmall)) as [S3 F3]. rewrite V in S3.
  unfold difference_degrees. fold x. fold y. split; [assumption|]. rewrite S3. split; [|split].
  - split; [apply rnd_ge_0; lra|]. apply (rnd_le_IZR _ 180); [lia|lra].
  - intros E. assert (X0 : B2R x = 0).
    { rewrite A1, E, Rminus_diag_eq by reflexivity. rewrite rnd_0. apply Rabs_R0. }
    assert (Y0 : B2R y = 180).
    { rewrite A2, X0. replace (0 - 180) with (IZR (-180)) by lra. rewrite rnd_IZR by lia.
      rewrite <- abs_IZR. reflexivity. }
    rewrite Y0. replace (180 - 180) with 0 by lra. apply rnd_0.
  - assert (D : Rabs (B2R a - B2R b) <= 360) by (apply Rabs_le; lra).
    pose proof (rnd_bounds _ (Rabs_pos (B2R a - B2R b))) as E1. rewrite rnd_abs, <- A1 in E1.
    assert (A2' : B2R y = rnd (Rabs (B2R x - 180))) by now rewrite rnd_abs.
    pose proof (rnd_bounds _ (Rabs_pos (B2R x - 180))) as E2. rewrite <- A2' in E2.
    assert (D2 : Rabs (B2R x - 180) <= 180) by (apply Rabs_le; lra).
    pose proof (rnd_bounds (180 - B2R y) ltac:(lra)) as E3.
    pose proof eta_small. pose proof eta_pos.
    set (t := Rabs (B2R a - B2R b)) in *. unfold u53 in *.
    assert (bpow radix2 (-43) = / 8796093022208) by reflexivity. rewrite H1.
    pose proof (Rabs_pos (B2R a - B2R b)) as tp. fold t in tp.
    set (Y := B2R y) in *. set (X := B2R x) in *. clearbody X Y t.
    apply Rabs_le. unfold Rabs in E2, D2. unfold Rmin.
    destruct (Rcase_abs (X - 180)), (Rle_dec t (360 - t)); lra.
Qed.

Lemma rotation_pm1 from to : rotation_direction from to = dec "1.0" \/ rotation_direction from to = dec "-1.0".
Proof. unfold rotation_direction. destruct (fle _ _); auto. Qed.

Lemma sanitize_small d : fin d -> 0 <= B2R d < 360 -> B2R (sanitize_degrees_double d) = B2R d.
Proof.
  intros fd h. destruct (sanitize_double d fd) as (k & _ & _ & P & _). destruct (P ltac:(lra)) as [E L].
  pose proof (sanitize_double d fd) as (k' & _ & [L0 _] & _ & _).
  rewrite E in *. assert (k = 0)%Z as ->; [|lra].
  assert (-1 < k < 1)%Z; [|lia]. split; apply lt_IZR; lra.
Qed.

Lemma sanitize_neg d : fin d -> -360 < B2R d < 0 ->
  B2R (sanitize_degrees_double d) = rnd (B2R d + 360).
Proof.
  intros hd h. fconst (dec "360.0"). fconst (dec "0.0").
  destruct (frem_R d (dec "360.0") hd F ltac:(rewrite V; lra)) as (k & FR & E & B & A & P & N).
  rewrite V in *. apply Rabs_lt_inv in B. specialize (N ltac:(lra)).
  rewrite (Rabs_left (B2R d)), Rabs_left1 in A by lra.
  assert (k = 0)%Z as ->.
  { assert (-1 < k < 1)%Z; [|lia]. split; apply lt_IZR; lra. }
  unfold sanitize_degrees_double. set (r := frem d (dec "360.0")) in *.
  assert (L : flt r (dec "0.0") = true) by (apply flt_fin; try assumption; lra).
  rewrite L. destruct (fadd_S r (dec "360.0") FR F ltac:(rewrite V; fsmall)) as [Q FA].
  rewrite Q, V. f_equal. lra.
Qed.

Lemma rotation_arc from to : fin from -> fin to -> 0 <= B2R from < 360 -> 0 <= B2R to < 360 ->
  (0 <= B2R to - B2R from <= 180 -> rotation_direction from to = dec "1.0") /\
  (B2R to - B2R from <= -180 -> rotation_direction from to = dec "1.0") /\
  (180 + bpow radix2 (-40) <= B2R to - B2R from -> rotation_direction from to = dec "-1.0") /\
  (-180 + bpow radix2 (-40) <= B2R to - B2R from < 0 -> rotation_direction from to = dec "-1.0").
Proof.
  intros f1 f2 h1 h2. fconst (dec "180.0").
  destruct (fsub_S to from f2 f1 ltac:(fsmall)) as [S1 F1].
  destruct (sanitize_double _ F1) as (k & FS & _).
  assert (Bd : -360 < B2R to - B2R from < 360) by lra.
  unfold rotation_direction.
  pose proof eta_small. pose proof eta_pos.
  assert (C40 : bpow radix2 (-40) = / 1099511627776) by reflexivity. rewrite C40.
  split; [|split; [|split]]; intros h.
  - assert (L : fle (sanitize_degrees_double (fsub to from)) (dec "180.0") = true); [|now rewrite L].
    apply fle_fin; try assumption. rewrite V.
    rewrite sanitize_small; try assumption; rewrite S1.
    + apply (rnd_le_IZR _ 180); [lia|lra].
    + split; [apply rnd_ge_0; lra|]. assert (rnd (B2R to - B2R from) <= 180); [|lra].
      apply (rnd_le_IZR _ 180); [lia|lra].
  - assert (L : fle (sanitize_degrees_double (fsub to from)) (dec "180.0") = true); [|now rewrite L].
    apply fle_fin; try assumption. rewrite V.
    assert (U : rnd (B2R to - B2R from) <= -180) by (apply (rnd_le_IZR _ (-180)); [lia|lra]).
    assert (Lo : -360 <= rnd (B2R to - B2R from)) by (apply (rnd_ge_IZR _ (-360)); [lia|lra]).
    assert (Lo' : - B2R from <= rnd (B2R to - B2R from)).
    { rewrite <- fneg_R. apply rnd_ge_B2R. rewrite fneg_R. lra. }
    rewrite sanitize_neg by (try assumption; rewrite S1; lra).
    rewrite S1. apply (rnd_le_IZR _ 180); [lia|lra].
  - assert (L : fle (sanitize_degrees_double (fsub to from)) (dec "180.0") = false); [|now rewrite L].
    apply fle_fin_f; try assumption. rewrite V.
    pose proof (rnd_bounds (B2R to - B2R from) ltac:(lra)) as Q. unfold u53 in Q.
    assert (U : rnd (B2R to - B2R from) <= B2R to) by (apply rnd_le_B2R; lra).
    rewrite sanitize_small by (try assumption; rewrite S1; lra). rewrite S1. lra.
  - assert (L : fle (sanitize_degrees_double (fsub to from)) (dec "180.0") = false); [|now rewrite L].
    apply fle_fin_f; try assumption. rewrite V.
    assert (Lo : -180 <= rnd (B2R to - B2R from)) by (apply (rnd_ge_IZR _ (-180)); [lia|lra]).
    assert (U : rnd (B2R to - B2R from) <= 0) by (apply rnd_le_0; lra).
    assert (U' : rnd (B2R to - B2R from) < 0).
    { destruct (Req_dec (rnd (B2R to - B2R from)) 0) as [E|]; [|lra]. exfalso.
      apply rnd_sub_0 in E. lra. }
    rewrite sanitize_neg by (try assumption; rewrite S1; lra). rewrite S1.
    pose proof (rnd_bounds_abs (B2R to - B2R from) 180 ltac:(apply Rabs_le; lra)) as Q. 
    pose proof (rnd_bounds (rnd (B2R to - B2R from) + 360) ltac:(lra)) as Q'. unfold u53 in *. lra.
Qed.

Lemma clamp_int_ok lo hi x : (lo <= hi)%Z ->
  (lo <= clamp_int lo hi x <= hi)%Z /\
  ((lo <= x <= hi)%Z -> clamp_int lo hi x = x) /\
  ((x < lo)%Z -> clamp_int lo hi x = lo) /\ ((hi < x)%Z -> clamp_int lo hi x = hi) /\
  clamp_int lo hi (clamp_int lo hi x) = clamp_int lo hi x.
Proof.
  intros h. unfold clamp_int.
  destruct (Z.ltb_spec x lo), (Z.ltb_spec hi x); repeat split; intros; try lia;
    repeat (match goal with |- context [(?a <? ?b)%Z] => destruct (Z.ltb_spec a b) end); lia.
Qed.

Lemma clamp_double_cases lo hi x : fle lo hi = true -> is_nan x = false ->
  (fle lo (clamp_double lo hi x) = true /\ fle (clamp_double lo hi x) hi = true) /\
  (fle lo x = true -> fle x hi = true -> clamp_double lo hi x = x) /\
  (flt x lo = true -> clamp_double lo hi x = lo) /\
  (flt hi x = true -> clamp_double lo hi x = hi) /\
  clamp_double lo hi (clamp_double lo hi x) = clamp_double lo hi x.
Proof.
  intros h nx. destruct (fle_not_nan _ _ h) as [nl nh]. pose proof (fle_true _ _ h) as L.
  unfold clamp_double, fgt. change Bltb with flt.
  assert (R : forall y : f64, is_nan y = false -> fle y y = true) by (intros; apply fle_val; try assumption; lra).
  assert (I : forall y : f64, is_nan y = false -> flt y y = false) by (intros; apply flt_val_f; try assumption; lra).
  destruct (flt x lo) eqn:E1.
  - pose proof (flt_true _ _ E1). rewrite (I lo) by assumption.
    assert (flt hi lo = false) as -> by (apply flt_val_f; assumption).
    repeat split; auto; intros q.
    + apply fle_true in q. lra.
    + apply flt_true in q. exfalso. lra.
  - assert (val lo <= val x) by (apply flt_val_f; assumption).
    destruct (flt hi x) eqn:E2.
    + pose proof (flt_true _ _ E2). rewrite (I hi) by assumption.
      assert (flt hi lo = false) as -> by (apply flt_val_f; assumption).
      repeat split; auto; intros q; try discriminate q. intros q'. apply fle_true in q'. lra.
    + assert (val x <= val hi) by (apply flt_val_f; assumption). rewrite E1, E2.
      repeat split; auto; try (apply fle_val; assumption); discriminate.
Qed.

(** ** lerp *)
Lemma lerp_0 s e : fin s -> fin e -> fin (lerp s e (dec "0.0")) /\ B2R (lerp s e (dec "0.0")) = B2R s.
Proof.
  intros fs fe. fconst (dec "1.0"). fconst (dec "0.0").
  unfold lerp. pose proof (B2R_BIG s). pose proof (B2R_BIG e).
  fconst (fsub (dec "1.0") (dec "0.0")).
  destruct (fmul_val _ _ F1 fs) as [M1 N1]. rewrite V1, Rmult_1_l in M1.
  assert (X : forall x : f64, rndx (B2R x) = B2R x).
  { intros x. unfold rndx. rewrite rnd_B2R, Rlt_bool_true; [reflexivity|apply B2R_lt_BIG]. }
  rewrite X in M1.
  assert (FM1 : fin (fmul (fsub (dec "1.0") (dec "0.0")) s)) by (apply (val_fin_iff _ N1); rewrite M1; assumption).
  rewrite val_fin in M1 by assumption.
  destruct (fmul_val _ _ F0 fe) as [M2 N2]. rewrite V0, Rmult_0_l in M2.
  replace 0 with (B2R (dec "0.0")) in M2 at 1. rewrite X, V0 in M2.
  assert (FM2 : fin (fmul (dec "0.0") e)) by (apply (val_fin_iff _ N2); rewrite M2; pose proof BIG_pos; lra).
  rewrite val_fin in M2 by assumption.
  destruct (fadd_val _ _ FM1 FM2) as [A N]. rewrite M1, M2, Rplus_0_r, X in A.
  assert (FA : fin (fadd (fmul (fsub (dec "1.0") (dec "0.0")) s) (fmul (dec "0.0") e)))
    by (apply (val_fin_iff _ N); rewrite A; assumption).
  split; [assumption|]. now rewrite val_fin in A.
Qed.

Lemma lerp_1 s e : fin s -> fin e -> fin (lerp s e (dec "1.0")) /\ B2R (lerp s e (dec "1.0")) = B2R e.
Proof.
  intros fs fe. fconst (dec "1.0"). fconst (dec "0.0").
  unfold lerp. pose proof (B2R_BIG s). pose proof (B2R_BIG e).
  fconst (fsub (dec "1.0") (dec "1.0")).
  destruct (fmul_val _ _ F fe) as [M1 N1]. rewrite V, Rmult_1_l in M1.
  assert (X : forall x : f64, rndx (B2R x) = B2R x).
  { intros x. unfold rndx. rewrite rnd_B2R, Rlt_bool_true; [reflexivity|apply B2R_lt_BIG]. }
  rewrite X in M1.
  assert (FM1 : fin (fmul (dec "1.0") e)) by (apply (val_fin_iff _ N1); rewrite M1; assumption).
  rewrite val_fin in M1 by assumption.
  destruct (fmul_val _ _ F1 fs) as [M2 N2]. rewrite V1, Rmult_0_l in M2.
  replace 0 with (B2R (dec "0.0")) in M2 at 1. rewrite X, V0 in M2.
  assert (FM2 : fin (fmul (fsub (dec "1.0") (dec "1.0")) s)) by (apply (val_fin_iff _ N2); rewrite M2; pose proof BIG_pos; lra).
  rewrite val_fin in M2 by assumption.
  destruct (fadd_val _ _ FM2 FM1) as [A N]. rewrite M1, M2, Rplus_0_l, X in A.
  assert (FA : fin (fadd (fmul (fsub (dec "1.0") (dec "1.0")) s) (fmul (dec "1.0") e)))
    by (apply (val_fin_iff _ N); rewrite A; assumption).
  split; [assumption|]. now rewrite val_fin in A.
Qed.

(** Interpolation stays in the interval up to rounding. *)
Lemma lerp_between s e t : fin s -> fin e -> fin t ->
  0 <= B2R t <= 1 -> 0 <= B2R s <= B2R e -> B2R e <= bpow radix2 1020 ->
  fin (lerp s e t) /\
  B2R s * (1 - bpow radix2 (-50)) - bpow radix2 (-1072) <= B2R (lerp s e t)
    <= B2R e * (1 + bpow radix2 (-50)) + bpow radix2 (-1072).
Proof.
  intros fs fe ft ht hs he. fconst (dec "1.0"). unfold lerp.
  assert (B3 : bpow radix2 1023 = 8 * bpow radix2 1020).
  { change 1023%Z with (3 + 1020)%Z. rewrite bpow_plus. reflexivity. }
  assert (BH : 8 <= bpow radix2 1020).
  { change 8 with (bpow radix2 3). apply bpow_le. lia. }
  set (H := bpow radix2 1020) in *.
  destruct (fsub_S (dec "1.0") t F ft ltac:(rewrite V; fsmall)) as [S1 F1]. rewrite V in S1.
  set (q := fsub (dec "1.0") t) in *.
  assert (Bq : 0 <= B2R q <= 1).
  { rewrite S1. split; [apply rnd_ge_0; lra|apply (rnd_le_IZR _ 1); [lia|lra]]. }
  destruct (fmul_R q s F1 fs) as [M1 FM1].
  { rewrite B3. apply Rabs_le. split; nra. }
  destruct (fmul_R t e ft fe) as [M2 FM2].
  { rewrite B3. apply Rabs_le. split; nra. }
  assert (Ba : 0 <= B2R (fmul q s) <= B2R s).
  { rewrite M1. split; [apply rnd_ge_0; nra|apply rnd_le_B2R; nra]. }
  assert (Bb : 0 <= B2R (fmul t e) <= B2R e).
  { rewrite M2. split; [apply rnd_ge_0; nra|apply rnd_le_B2R; nra]. }
  destruct (fadd_R _ _ FM1 FM2) as [A FA].
  { rewrite B3. apply Rabs_le. split; nra. }
  split; [assumption|]. rewrite A.
  pose proof (rnd_bounds (1 - B2R t) ltac:(lra)) as E1. rewrite <- S1 in E1.
  assert (E1' : (1 - B2R t) * (1 - 2 * u53) <= B2R q <= (1 - B2R t) * (1 + 2 * u53)).
  { pose proof eta_small. pose proof eta_pos. unfold u53 in *.
    destruct (Req_dec (B2R t) 1) as [e1|n1].
    - rewrite S1, e1. replace (1 - 1) with 0 by lra. rewrite rnd_0. lra.
    - (* t < 1 is a float, so 1 - t >= 2^-53 *)
      assert (G : B2R t <= 1 - / 9007199254740992).
      { destruct (Rle_or_lt (B2R t) (1 - / 9007199254740992)) as [|c]; [assumption|exfalso].
        assert (P : pred radix2 fexp64 1 = 1 - / 9007199254740992).
        { change 1 with (bpow radix2 0) at 1. rewrite pred_bpow. unfold fexp64, FLT_exp. simpl. lra. }
        assert (Q : B2R t <= pred radix2 fexp64 1).
        { apply pred_ge_gt; [apply vexp64|apply fmt_B2R|apply (fmt_IZR 1); lia|lra]. }
        lra. }
      lra. }
  pose proof (rnd_bounds (B2R q * B2R s) ltac:(nra)) as E2. rewrite <- M1 in E2.
  pose proof (rnd_bounds (B2R t * B2R e) ltac:(nra)) as E3. rewrite <- M2 in E3.
  pose proof (rnd_bounds (B2R (fmul q s) + B2R (fmul t e)) ltac:(lra)) as E4.
  assert (EE : bpow radix2 (-1072) = 8 * eta).
  { unfold eta. change (-1072)%Z with (3 + -1075)%Z. rewrite bpow_plus. reflexivity. }
  rewrite EE. change (bpow radix2 (-50)) with (/ 1125899906842624).
  pose proof eta_pos as ep. generalize dependent eta. intros et EE ? ? ? ? ep.
  set (T := B2R t) in *. set (Sv := B2R s) in *. set (Ev := B2R e) in *. set (Q := B2R q) in *.
  set (P1 := B2R (fmul q s)) in *. set (P2 := B2R (fmul t e)) in *.
  assert (U : u53 = / 9007199254740992) by reflexivity. rewrite U in *.
  assert (QS : (1 - T) * Sv * (1 - 2 * / 9007199254740992) <= Q * Sv <= (1 - T) * Sv * (1 + 2 * / 9007199254740992)).
  { split; nra. }
  set (A1 := (1 - T) * Sv) in *. set (A2 := T * Ev) in *.
  assert (S1' : Sv <= A1 + A2 <= Ev). { unfold A1, A2. assert (I1 : 0 <= T * (Ev - Sv)) by (apply Rmult_le_pos; lra). assert (I2 : 0 <= (1 - T) * (Ev - Sv)) by (apply Rmult_le_pos; lra).
    replace ((1 - T) * Sv + T * Ev) with (Sv + T * (Ev - Sv)) by ring. split; [lra|]. replace (Sv + T * (Ev - Sv)) with (Ev - (1 - T) * (Ev - Sv)) by ring. lra. }
  assert (0 <= A1) by (unfold A1; apply Rmult_le_pos; lra). assert (0 <= A2) by (unfold A2; apply Rmult_le_pos; lra).
  clearbody A1 A2 P1 P2 Q T Sv Ev. lra.
Qed.

Lemma sanitize_int_no_overflow d : (- 2 ^ 63 <= d <= 2 ^ 63 - 1)%Z ->
  (- 2 ^ 63 <= Z.rem d 360 <= 2 ^ 63 - 1)%Z /\ (- 2 ^ 63 <= Z.rem d 360 + 360 <= 2 ^ 63 - 1)%Z.
Proof. intros _. pose proof (Z.rem_bound_abs d 360 ltac:(lia)). lia. Qed.

Lemma sanitize_double_360 : exists d : f64, fin d /\ B2R d < 0 /\ B2R (sanitize_degrees_double d) = 360.
Proof.
  exists (dec "-0.00000000000000000001"). fconst (dec "-0.00000000000000000001").
  split; [assumption|]. split; [rewrite V; lra|].
  fconst (sanitize_degrees_double (dec "-0.00000000000000000001")). assumption.
Qed.

Lemma rotation_any from to : fin (fsub to from) ->
  exists k : Z,
    Rabs (B2R (sanitize_degrees_double (fsub to from)) - (B2R (fsub to from) - 360 * IZR k)) <= bpow radix2 (-45) /\
    0 <= B2R (sanitize_degrees_double (fsub to from)) <= 360 /\
    (rotation_direction from to = dec "1.0" <-> B2R (sanitize_degrees_double (fsub to from)) <= 180).
Proof.
  intros fd. destruct (sanitize_double _ fd) as (k & FS & B & _ & E). exists k. split; [assumption|].
  split; [assumption|]. unfold rotation_direction. fconst (dec "180.0").
  destruct (fle (sanitize_degrees_double (fsub to from)) (dec "180.0")) eqn:L.
  - apply fle_fin in L; try assumption. rewrite V in L. easy.
  - apply fle_fin_f in L; try assumption. rewrite V in L. split; [|lra]. intros q. exfalso. apply (f_equal B2SF) in q. vm_compute in q. discriminate q.
Qed.
