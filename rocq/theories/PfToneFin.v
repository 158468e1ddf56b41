(** * Finite results have finite operands; the inverse adaptation; signs of the cone values of a round.  Proof file. *)
From Coq Require Import ZArith Bool Reals Lra Lia Psatz String List.
From Flocq Require Import Core Relative IEEE754.BinarySingleNaN.
From Verif Require Import F64 Spec SpecCam FloatFacts FloatMono MathUtils HctSolver SpecTone PfMath PfLab PfTones PfNear PfRel PfLimit PfCamC PfCamTrip PfToneReal.
Open Scope string_scope.
Open Scope R_scope.

(** ** Backwards through the operations *)
Lemma rnd_fold r : round radix2 (SpecFloat.fexp 53 1024) (round_mode mode_NE) r = rnd r.
Proof. reflexivity. Qed.
Lemma overflow_not_fin (z : f64) s : B2SF z = binary_overflow 53 1024 mode_NE s -> fin z -> False.
Proof. intros E f. destruct z; cbn in E, f; discriminate. Qed.

Lemma fadd_back (x y : f64) : fin (fadd x y) -> fin x /\ fin y /\ B2R (fadd x y) = rnd (B2R x + B2R y).
Proof.
  intros f. assert (fx : fin x) by (destruct x as [s|s| |s m e p]; [reflexivity| | |reflexivity]; destruct y as [s'|s'| |s' m' e' p']; cbn in f; try discriminate f; destruct s, s'; discriminate f).
  assert (fy : fin y) by (destruct y as [s|s| |s m e p]; [reflexivity| | |reflexivity]; destruct x as [s'|s'| |s' m' e' p']; cbn in f; try discriminate f; destruct s, s'; discriminate f).
  split; [exact fx|]. split; [exact fy|]. pose proof (Bplus_correct 53 1024 _ _ mode_NE x y fx fy) as C. rewrite rnd_fold in C.
  destruct (Rlt_bool (Rabs (rnd (B2R x + B2R y))) (bpow radix2 1024)); [exact (proj1 C)|].
  exfalso. exact (overflow_not_fin _ _ (proj1 C) f).
Qed.
Lemma fsub_back (x y : f64) : fin (fsub x y) -> fin x /\ fin y /\ B2R (fsub x y) = rnd (B2R x - B2R y).
Proof.
  intros f. assert (fx : fin x) by (destruct x as [s|s| |s m e p]; [reflexivity| | |reflexivity]; destruct y as [s'|s'| |s' m' e' p']; cbn in f; try discriminate f; destruct s, s'; discriminate f).
  assert (fy : fin y) by (destruct y as [s|s| |s m e p]; [reflexivity| | |reflexivity]; destruct x as [s'|s'| |s' m' e' p']; cbn in f; try discriminate f; destruct s, s'; discriminate f).
  split; [exact fx|]. split; [exact fy|]. pose proof (Bminus_correct 53 1024 _ _ mode_NE x y fx fy) as C. rewrite rnd_fold in C.
  destruct (Rlt_bool (Rabs (rnd (B2R x - B2R y))) (bpow radix2 1024)); [exact (proj1 C)|].
  exfalso. exact (overflow_not_fin _ _ (proj1 C) f).
Qed.
Lemma fmul_back (x y : f64) : fin (fmul x y) -> fin x /\ fin y /\ B2R (fmul x y) = rnd (B2R x * B2R y).
Proof.
  intros f. pose proof (Bmult_correct 53 1024 _ _ mode_NE x y) as C. rewrite rnd_fold in C.
  destruct (Rlt_bool (Rabs (rnd (B2R x * B2R y))) (bpow radix2 1024)).
  - destruct C as (C1 & C2 & _). unfold fmul in f. rewrite C2 in f. apply andb_prop in f. split; [tauto|]. split; [tauto|exact C1].
  - exfalso. exact (overflow_not_fin _ _ C f).
Qed.
Lemma fdiv_back (x y : f64) : fin (fdiv x y) -> fin x.
Proof. intros f. destruct x as [s|s| |s m e p]; [reflexivity| | |reflexivity]; destruct y as [s'|s'| |s' m' e' p']; cbn in f; discriminate f. Qed.
Lemma fdiv_back_R (x y : f64) : fin (fdiv x y) -> B2R y <> 0 -> B2R (fdiv x y) = rnd (B2R x / B2R y).
Proof.
  intros f hy. pose proof (Bdiv_correct 53 1024 _ _ mode_NE x y hy) as C. rewrite rnd_fold in C.
  destruct (Rlt_bool (Rabs (rnd (B2R x / B2R y))) (bpow radix2 1024)); [exact (proj1 C)|].
  exfalso. exact (overflow_not_fin _ _ C f).
Qed.
(** A finite number over a zero is not finite. *)
Lemma fdiv_zero (x y : f64) : fin y -> B2R y = 0 -> fin (fdiv x y) -> False.
Proof.
  intros fy hy f. destruct y as [s|s| |s m e p]; [|discriminate fy|discriminate fy|].
  - destruct x as [s'|s'| |s' m' e' p']; cbn in f; discriminate f.
  - cbn in hy. apply eq_0_F2R in hy. destruct s; discriminate hy.
Qed.

Lemma fdiv_neg (n d : f64) : Bsign n = false -> Bsign d = true -> flt (dec "0.0") (fdiv n d) = false.
Proof.
  intros sn sd. destruct (is_finite n) eqn:fn.
  2:{ destruct n as [s|s| |s m e p]; try discriminate fn; [|reflexivity]. cbn in sn. subst s.
      destruct d as [s|s| |s m e p]; cbn in sd; try discriminate sd; try subst s; vm_compute; reflexivity. }
  destruct (Req_dec (B2R d) 0) as [z|z].
  { destruct d as [s|s| |s m e p]; cbn in sd; try discriminate sd; subst.
    - destruct n as [s|s| |s m e p]; try discriminate fn; cbn in sn; subst s; vm_compute; reflexivity.
    - destruct n as [s|s| |s m e p]; try discriminate fn; cbn in sn; subst s; vm_compute; reflexivity.
    - exfalso. cbn in z. apply eq_0_F2R in z. discriminate z. }
  pose proof (Bdiv_correct 53 1024 _ _ mode_NE n d z) as C. 
  change (round radix2 (SpecFloat.fexp 53 1024) (round_mode mode_NE) (B2R n / B2R d)) with (rnd (B2R n / B2R d)) in C.
  rewrite sn, sd in C. cbn [xorb] in C.
  destruct (Rlt_bool (Rabs (rnd (B2R n / B2R d))) (bpow radix2 1024)).
  - destruct C as (C1 & C2 & _). fold (fdiv n d) in C2. rewrite fn in C2.
    fconst (dec "0.0"). apply flt_fin_f; [exact F|exact C2|]. rewrite V.
    unfold fdiv. rewrite C1. apply rnd_le_0. 
    assert (0 <= B2R n) by (destruct n as [s|s| |s m e p]; cbn in sn; subst; cbn [B2R]; try lra; apply F2R_ge_0; cbn; lia).
    assert (B2R d <= 0) by (destruct d as [s|s| |s m e p]; cbn in sd; subst; cbn [B2R]; try lra; apply F2R_le_0; cbn; lia).
    assert (/ B2R d < 0) by (apply Rinv_lt_0_compat; lra). unfold Rdiv. nra.
  - unfold fdiv. destruct (Bdiv mode_NE n d) as [s|s| |s m e p]; cbn in C; try discriminate C. destruct s; [reflexivity|discriminate C].
Qed.

(** ** The inverse adaptation *)
Definition inv_e : f64 := fdiv (dec "1.0") (dec "0.42").
Definition Kc : R := B2R (dec "27.13").
Definition qc : R := B2R inv_e.

Lemma Kc_pos : 0 < Kc.
Proof. unfold Kc. fconst (dec "27.13"). lra. Qed.
Lemma qc_range : 2.38 <= qc <= 2.381.
Proof. unfold qc, inv_e. fconst (fdiv (dec "1.0") (dec "0.42")). lra. Qed.
Lemma inv_e_fin : fin inv_e.
Proof. unfold inv_e. fconst (fdiv (dec "1.0") (dec "0.42")). assumption. Qed.

Lemma inv_eq {lm : Libm} x : inverse_chromatic_adaptation x = fmul (of_Z (signum x)) (powf (unbase x) inv_e).
Proof. reflexivity. Qed.

Lemma signum_fin (x : f64) : fin (of_Z (signum x)) /\ (B2R (of_Z (signum x)) = -1 \/ B2R (of_Z (signum x)) = 0 \/ B2R (of_Z (signum x)) = 1).
Proof.
  unfold signum. destruct (flt x (dec "0.0")); [|destruct (feq x (dec "0.0"))].
  - destruct (of_Z_R (-1) ltac:(lia)) as [E F]. split; [exact F|]. left. exact E.
  - destruct (of_Z_R 0 ltac:(lia)) as [E F]. split; [exact F|]. right. left. exact E.
  - destruct (of_Z_R 1 ltac:(lia)) as [E F]. split; [exact F|]. right. right. exact E.
Qed.
Lemma signum_neg (x : f64) : fin x -> B2R x < 0 -> signum x = (-1)%Z.
Proof.
  intros f h. unfold signum. fconst (dec "0.0").
  replace (flt x (dec "0.0")) with true by (symmetry; apply flt_fin; [exact f|exact F|rewrite V; lra]). reflexivity.
Qed.

Lemma unbase_nonfin (x : f64) : is_finite x = false -> unbase x = dec "0.0".
Proof.
  intros h. assert (N : is_nan (fdiv (fmul (dec "27.13") (fabs x)) (fsub (dec "400.0") (fabs x))) = true).
  { destruct x as [s|s| |s m e p]; try discriminate h; [destruct s|]; vm_compute; reflexivity. }
  unfold unbase, fmax. rewrite N. assert (M : is_nan (dec "0.0") = false) by (vm_compute; reflexivity). rewrite M. reflexivity.
Qed.

Section Inv.
Context {lm : Libm} (LA : libm_accurate (1 / 10 ^ 13) lm) (PS : pow_special lm).

Lemma inv_zero_base x : zero (unbase x) -> zero (inverse_chromatic_adaptation x).
Proof using LA.
  intros z. rewrite inv_eq. pose proof qc_range. apply zero_mul_r; [exact (proj1 (signum_fin x))|].
  apply (zero_pow LA); [exact z|exact inv_e_fin|fold qc; lra].
Qed.
Lemma inv_nonfin x : is_finite x = false -> zero (inverse_chromatic_adaptation x).
Proof using LA.
  intros h. apply inv_zero_base. rewrite (unbase_nonfin x h). fconst (dec "0.0"). split; assumption.
Qed.

(** The base for a response below 400. *)
Lemma unbase_ok x : fin x -> -400 < B2R x < 400 -> fin (unbase x) /\ 0 <= B2R (unbase x) <= 10 ^ 18 /\
  (1 / 10 ^ 25 <= B2R x -> rel (B2R (unbase x)) (Kc * B2R x / (400 - B2R x)) (1 / 10 ^ 15)) /\
  (Rabs (B2R x) <= 1 / 10 ^ 25 -> B2R (unbase x) <= 1 / 10 ^ 25).
Proof using.
  intros fx b. unfold unbase. pose proof (fabs_R x) as EA. pose proof (fabs_fin x) as FA. rewrite fx in FA.
  assert (ba : 0 <= B2R (fabs x) < 400) by (rewrite EA; split; [apply Rabs_pos|apply Rabs_def1; lra]).
  set (a := fabs x) in *. fconst (dec "400.0"). fconst (dec "27.13"). fconst (dec "0.0").
  assert (gap : 400 * (5.5 / 10 ^ 17) <= 400 - B2R a) by (pose proof (distinct_gap a (dec "400.0") FA F ltac:(lra) ltac:(lra)); lra).
  destruct (fsub_S (dec "400.0") a F FA ltac:(rewrite V; fsmall)) as [E1 G1].
  destruct (sub_rel (dec "400.0") a) as (e1 & be1 & r1). rewrite <- E1 in r1. rewrite V in r1. apply Rabs_le_inv in be1.
  set (d := fsub (dec "400.0") a) in *.
  assert (D : (400 - B2R a) * (1 - 2 / 10 ^ 16) <= B2R d <= (400 - B2R a) * (1 + 2 / 10 ^ 16)).
  { rewrite r1. split; apply Rmult_le_compat_l; lra. }
  destruct (fmul_S (dec "27.13") a F0 FA ltac:(rewrite V0; fsmall)) as [E2 G2].
  set (n := fmul (dec "27.13") a) in *.
  assert (KV : Kc = B2R (dec "27.13")) by reflexivity.
  pose proof (rnd_bounds (B2R (dec "27.13") * B2R a) ltac:(apply Rmult_le_pos; rewrite ?V0; lra)) as N. rewrite <- E2 in N. rewrite <- KV in N.
  pose proof eta_small. pose proof eta_pos. assert (K1 : 27.129 <= Kc <= 27.131) by (rewrite KV, V0; lra).
  assert (Q0 : 0 <= Kc * B2R a) by (apply Rmult_le_pos; lra).
  assert (n0 : 0 <= B2R n) by (rewrite E2; apply rnd_ge_0; rewrite <- KV; exact Q0).
  assert (Q1 : Kc * B2R a <= 27.131 * 400) by (apply Rmult_le_compat; lra).
  assert (n1 : B2R n <= 10900) by (unfold u53 in N; lra).
  assert (d0 : 2.1 / 10 ^ 14 <= B2R d) by (apply Rle_trans with (2 := proj1 D); apply Rle_trans with (400 * (5.5 / 10 ^ 17) * (1 - 2 / 10 ^ 16)); [lra|apply Rmult_le_compat_r; lra]).
  assert (q0 : 0 <= B2R n / B2R d) by (apply Rmult_le_pos; [exact n0|left; apply Rinv_0_lt_compat; lra]).
  assert (q1 : B2R n / B2R d <= 9 / 10 * 10 ^ 18).
  { apply Rmult_le_reg_r with (B2R d); [lra|]. unfold Rdiv at 1. rewrite Rmult_assoc, Rinv_l, Rmult_1_r by lra. lra. }
  destruct (fdiv_S n d G2 ltac:(lra) ltac:(fsmall)) as [E3 G3].
  pose proof (rnd_bounds (B2R n / B2R d) q0) as B3. rewrite <- E3 in B3.
  assert (b0 : 0 <= B2R (fdiv n d)) by (rewrite E3; apply rnd_ge_0; exact q0).
  destruct (fmax_R (dec "0.0") _ F1 G3) as [F5 E5].
  split; [exact F5|]. rewrite E5, V1, Rmax_right by lra. split; [unfold u53 in B3; lra|]. split.
  - intros hx. assert (AX : B2R a = B2R x) by (rewrite EA; apply Rabs_pos_eq; lra). rewrite <- AX in *. clear EA AX.
    apply rel_w with (1.4 * (2 / 10 ^ 16 + 2 / 10 ^ 16) + 3 / 10 ^ 16); [|lra].
    assert (RN : rel (B2R n) (Kc * B2R a) (2 / 10 ^ 16)).
    { assert (27 / 10 ^ 25 <= Kc * B2R a) by (apply Rle_trans with (27 * (1 / 10 ^ 25)); [lra|apply Rmult_le_compat; lra]).
      split; [lra|]. unfold u53 in N. lra. }
    assert (RD : rel (B2R d) (400 - B2R a) (2 / 10 ^ 16)) by (split; [lra|exact D]).
    pose proof (rel_div _ _ _ _ _ _ RN RD ltac:(lra) ltac:(lra)) as RQ. rewrite E3.
    assert (6 / 10 ^ 27 <= Kc * B2R a / (400 - B2R a)).
    { apply Rmult_le_reg_r with (400 - B2R a); [lra|]. unfold Rdiv at 2. rewrite (Rmult_assoc (Kc * B2R a)), Rinv_l, Rmult_1_r by lra.
      apply Rle_trans with (27 / 10 ^ 25); [lra|]. destruct RN. apply Rle_trans with (27 * (1 / 10 ^ 25)); [lra|apply Rmult_le_compat; lra]. }
    destruct RQ as [rq0 rq]. split; [exact rq0|]. set (T := Kc * B2R a / (400 - B2R a)) in *.
    rewrite <- E3. unfold u53 in B3. lra.
  - intros hx. rewrite <- EA in hx.
    assert (Kc * B2R a <= 28 * (1 / 10 ^ 25)) by (apply Rmult_le_compat; lra).
    assert (399 <= B2R d) by lra. 
    assert (B2R n / B2R d <= 8 / 10 ^ 26).
    { apply Rmult_le_reg_r with (B2R d); [lra|]. unfold Rdiv at 1. rewrite Rmult_assoc, Rinv_l, Rmult_1_r by lra. unfold u53 in N. lra. }
    unfold u53 in B3. lra.
Qed.

Lemma pow_pos_small x : fin x -> -400 < B2R x < 400 -> fin (powf (unbase x) inv_e) /\ 0 <= B2R (powf (unbase x) inv_e) /\
  (1 / 10 ^ 25 <= B2R x -> rel (B2R (powf (unbase x) inv_e)) (vv Kc qc (B2R x)) (1 / 10 ^ 11)) /\
  (Rabs (B2R x) <= 1 / 10 ^ 25 -> B2R (powf (unbase x) inv_e) <= 1 / 10 ^ 40).
Proof using LA.
  intros fx b. destruct (unbase_ok x fx b) as (fb & bb & hr & hs). set (u := unbase x) in *. clearbody u.
  pose proof qc_range as Q. pose proof inv_e_fin as FE.
  destruct (Req_dec (B2R u) 0) as [z|nz].
  { destruct (zero_pow LA u inv_e (conj fb z) FE ltac:(fold qc; lra)) as [F E]. split; [exact F|]. rewrite E. split; [lra|]. split; [|lra].
    intros h. destruct (hr h) as [p0 p]. exfalso. assert (0 < Kc * B2R x / (400 - B2R x) * (1 - 1 / 10 ^ 15)) by (apply Rmult_lt_0_compat; lra). lra. }
  assert (pu : 0 < B2R u) by lra.
  assert (U : Rpower (B2R u) qc <= bpow radix2 900).
  { apply Rle_trans with (10 ^ 54); [|apply Rle_trans with (bpow radix2 200); [simpl bpow; lra|apply bpow_le; lia]].
    apply Rle_trans with (Rpower (10 ^ 18) 3).
    - apply Rle_trans with (Rpower (10 ^ 18) qc); [apply Rle_Rpower_l; lra|apply Rle_Rpower; lra].
    - replace 3 with (INR 3) by (simpl; lra). rewrite Rpower_pow by lra. lra. }
  destruct (Rle_or_lt (Rpower (B2R u) qc) (bpow radix2 (-900))) as [t|t].
  - destruct (la_tiny _ _ LA u inv_e fb FE ltac:(lra) ltac:(fold qc; lra)) as [_ T]. destruct (T pu t) as [F B].
    assert (T8 : bpow radix2 (-800) <= 1 / 10 ^ 40) by (apply Rle_trans with (bpow radix2 (-140)); [apply bpow_le; lia|simpl bpow; lra]).
    split; [exact F|]. split; [lra|]. split; [|lra]. intros h. exfalso.
    destruct (hr h) as [p0 p]. assert (L : 5 / 10 ^ 27 <= B2R u).
    { assert (6 / 10 ^ 27 <= Kc * B2R x / (400 - B2R x)); [|lra]. apply le_div; [lra|]. pose proof Kc_pos.
      unfold Kc. fconst (dec "27.13"). apply Rle_trans with (27 * (1 / 10 ^ 25)); [lra|apply Rmult_le_compat; rewrite ?V; lra]. }
    assert (LL : 1 / 10 ^ 81 <= Rpower (B2R u) qc).
    { apply Rle_trans with (Rpower (1 / 10 ^ 27) qc); [|apply Rle_Rpower_l; lra].
      apply Rle_trans with (Rpower (1 / 10 ^ 27) 3).
      - replace 3 with (INR 3) by (simpl; lra). rewrite Rpower_pow by lra. lra.
      - unfold Rpower. apply exp_le. assert (ln (1 / 10 ^ 27) < 0) by (rewrite <- ln_1; apply ln_increasing; lra). 
        assert (0 <= (3 - qc) * - ln (1 / 10 ^ 27)) by (apply Rmult_le_pos; lra). lra. }
    assert (bpow radix2 (-900) <= bpow radix2 (-300)) by (apply bpow_le; lia). assert (bpow radix2 (-300) <= 1 / 10 ^ 82) by (simpl bpow; lra). lra.
  - destruct (la_pow _ _ LA u inv_e fb FE pu ltac:(fold qc; lra)) as [F E]. fold qc in E. apply Rabs_le_inv in E.
    set (r := Rpower (B2R u) qc) in *. assert (0 < r) by apply exp_pos.
    split; [exact F|]. split; [lra|]. split.
    + intros h. pose proof (rel_pow _ _ _ qc (hr h) ltac:(lra) ltac:(lra)) as P. fold r in P. unfold vv.
      clearbody r. destruct P as [p0 p]. split; [exact p0|]. set (w := Rpower _ qc) in *.
      assert (w * (4 * qc * (1 / 10 ^ 15)) <= w * (1 / 10 ^ 13)) by (apply Rmult_le_compat_l; lra). lra.
    + intros h. specialize (hs h). assert (r <= 1 / 10 ^ 50); [|lra]. unfold r.
      apply Rle_trans with (Rpower (1 / 10 ^ 25) qc); [apply Rle_Rpower_l; lra|].
      apply Rle_trans with (Rpower (1 / 10 ^ 25) 2).
      * unfold Rpower. apply exp_le. assert (ln (1 / 10 ^ 25) < 0) by (rewrite <- ln_1; apply ln_increasing; lra).
        assert (0 <= (qc - 2) * - ln (1 / 10 ^ 25)) by (apply Rmult_le_pos; lra). lra.
      * replace 2 with (INR 2) by (simpl; lra). rewrite Rpower_pow by lra. lra.
Qed.

(** A positive finite value comes from a response strictly between 0 and 400. *)
Lemma inv_pos x : fin (inverse_chromatic_adaptation x) -> 0 < B2R (inverse_chromatic_adaptation x) ->
  fin x /\ 0 < B2R x < 400 /\
  (1 / 10 ^ 25 <= B2R x -> rel (B2R (inverse_chromatic_adaptation x)) (vv Kc qc (B2R x)) (1 / 10 ^ 11)) /\
  (B2R x <= 1 / 10 ^ 25 -> B2R (inverse_chromatic_adaptation x) <= 1 / 10 ^ 40).
Proof using LA PS.
  intros fv pv. destruct (is_finite x) eqn:fx; [|exfalso; destruct (inv_nonfin x fx); lra].
  split; [reflexivity|].
  assert (N : -400 < B2R x < 400).
  { apply Rabs_lt_inv. destruct (Rle_or_lt 400 (Rabs (B2R x))) as [h|h]; [exfalso|exact h].
    rewrite inv_eq in fv. destruct (fmul_back _ _ fv) as (_ & fp & _).
    unfold unbase in fp. pose proof (fabs_R x) as EA. pose proof (fabs_fin x) as FA. rewrite fx in FA. rewrite <- EA in h.
    destruct (Rle_lt_or_eq_dec _ _ h) as [g|g].
    - assert (Z : zero (unbase x)); [|pose proof (inv_zero_base x Z) as [_ Z']; rewrite Z' in pv; lra].
      unfold unbase. assert (SA : Bsign (fabs x) = false) by (destruct x; reflexivity). set (a := fabs x) in *. clearbody a.
      fconst (dec "400.0"). fconst (dec "27.13"). fconst (dec "0.0").
      assert (SK : Bsign (dec "27.13") = false) by (vm_compute; reflexivity). assert (S4 : Bsign (dec "400.0") = false) by (vm_compute; reflexivity).
      assert (SN : flt (dec "0.0") (fdiv (fmul (dec "27.13") a) (fsub (dec "400.0") a)) = false).
      { apply fdiv_neg.
        - pose proof (Bmult_correct 53 1024 _ _ mode_NE (dec "27.13") a) as C. rewrite rnd_fold, SK, SA in C. cbn [xorb] in C.
          destruct (Rlt_bool (Rabs (rnd (B2R (dec "27.13") * B2R a))) (bpow radix2 1024)).
          + destruct C as (C1 & C2 & C3). rewrite F0, FA in C2. unfold fmul. apply C3. apply fin_not_nan. exact C2.
          + unfold fmul. destruct (Bmult mode_NE (dec "27.13") a) as [s|s| |s m e q]; cbn in C; try discriminate C. destruct s; [discriminate C|reflexivity].
        - pose proof (Bminus_correct 53 1024 _ _ mode_NE (dec "400.0") a F FA) as C. rewrite rnd_fold, S4, SA in C.
          destruct (Rlt_bool (Rabs (rnd (B2R (dec "400.0") - B2R a))) (bpow radix2 1024)).
          + destruct C as (C1 & C2 & _). unfold fsub. rewrite sign_R; [|exact C2|]; rewrite C1.
            * apply Rlt_bool_true. destruct (Req_dec (rnd (B2R (dec "400.0") - B2R a)) 0) as [z|z]; [apply rnd_sub_0 in z; lra|].
              pose proof (rnd_le_0 (B2R (dec "400.0") - B2R a) ltac:(lra)). lra.
            * intros z. apply rnd_sub_0 in z. lra.
          + destruct C as [_ C]. discriminate C. }
      assert (M0 : fmax (dec "0.0") (fdiv (fmul (dec "27.13") a) (fsub (dec "400.0") a)) = dec "0.0").
      { unfold fmax. rewrite SN. destruct (is_nan (dec "0.0")) eqn:n0; [exfalso; vm_compute in n0; discriminate n0|].
        destruct (is_nan (fdiv (fmul (dec "27.13") a) (fsub (dec "400.0") a))); reflexivity. }
      rewrite M0. split; assumption.
    - fconst (dec "400.0"). assert (A : fabs x = dec "400.0") by (apply B2R_eq_nz; [exact FA|exact F|lra|lra]).
      rewrite A in fp.
      assert (I : fmax (dec "0.0") (fdiv (fmul (dec "27.13") (dec "400.0")) (fsub (dec "400.0") (dec "400.0"))) = B754_infinity false)
        by (apply B2SF_inj; vm_compute; reflexivity).
      rewrite I in fp. pose proof qc_range. rewrite (PS (B754_infinity false) inv_e eq_refl ltac:(discriminate) inv_e_fin ltac:(fold qc; lra)) in fp.
      discriminate fp. }
  destruct (pow_pos_small x fx N) as (fp & pp & hr & hs).
  rewrite inv_eq in *. destruct (fmul_back _ _ fv) as (fs & _ & E).
  assert (P : 0 < B2R x).
  { destruct (Rlt_or_le 0 (B2R x)) as [h|h]; [exact h|exfalso]. rewrite E in pv.
    assert (S1 : B2R (of_Z (signum x)) <= 0).
    { destruct (Rle_lt_or_eq_dec _ _ h) as [g|g].
      - rewrite (signum_neg x fx g). destruct (of_Z_R (-1) ltac:(lia)) as [E1 _]. rewrite E1. lra.
      - rewrite (signum_zero x (conj fx g)). destruct (of_Z_R 0 ltac:(lia)) as [E1 _]. rewrite E1. lra. }
    assert (B2R (of_Z (signum x)) * B2R (powf (unbase x) inv_e) <= 0) by nra.
    pose proof (rnd_le_0 _ H). lra. }
  assert (V1 : B2R (fmul (of_Z (signum x)) (powf (unbase x) inv_e)) = B2R (powf (unbase x) inv_e)).
  { rewrite E, (signum_pos x fx P). destruct (of_Z_R 1 ltac:(lia)) as [E1 _]. rewrite E1, Rmult_1_l. apply rnd_B2R. }
  rewrite V1. split; [lra|]. split; [exact hr|]. intros h. apply hs. rewrite Rabs_pos_eq; lra.
Qed.
End Inv.
