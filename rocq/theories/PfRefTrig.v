(** * The correctly rounded libm satisfies the assumptions of SpecCam.  Proof file. *)
From Coq Require Import ZArith Bool Reals Lra Lia Psatz String List.
From Flocq Require Import Core Relative IEEE754.BinarySingleNaN.
From Verif Require Import F64 Spec SpecCam FloatFacts RefLibm PfLab.
Open Scope string_scope.
Open Scope R_scope.

Lemma R2f_small r : Rabs r <= bpow radix2 1000 -> fin (R2f r) /\ B2R (R2f r) = rnd r.
Proof.
  intros h. destruct (R2f_val r) as [N E]. rewrite rndx_small in E by (apply Rle_trans with (1 := h); apply bpow_le; lia).
  assert (S : Rabs (rnd r) < BIG).
  { rewrite <- rnd_abs. apply Rle_lt_trans with (bpow radix2 1000); [|apply bpow_lt; lia].
    apply rnd_le_fmt; [apply generic_format_bpow; vm_compute; discriminate|exact h]. }
  assert (F : fin (R2f r)).
  { destruct (R2f r) as [s|s| |s m e q]; try reflexivity; try discriminate N. cbn [val] in E. exfalso.
    rewrite <- E in S. destruct s; rewrite ?Rabs_Ropp, Rabs_pos_eq in S; pose proof BIG_pos; lra. }
  split; [exact F|]. now rewrite val_fin in E by exact F.
Qed.

Lemma three600 : 3 ^ 600 <= bpow radix2 1000.
Proof.
  rewrite (pow_IZR 3 600). change (bpow radix2 1000) with (IZR (Z.pow_pos 2 1000)). apply IZR_le. vm_compute. discriminate.
Qed.
Lemma exp_big x : -600 <= x <= 600 -> bpow radix2 (-1000) <= exp x <= bpow radix2 1000.
Proof.
  intros h. assert (E : forall z, z <= 600 -> exp z <= bpow radix2 1000).
  { intros z hz. apply Rle_trans with (2 := three600). apply Rle_trans with (exp 600).
    - destruct (Req_dec z 600) as [->|]; [lra|]. left. apply exp_increasing. lra.
    - assert (X : exp 600 = exp 1 ^ 600).
      { rewrite <- Rpower_pow by apply exp_pos. unfold Rpower. rewrite ln_exp, Rmult_1_r. f_equal. rewrite INR_IZR_INZ. reflexivity. }
      rewrite X. apply pow_incr. split; [left; apply exp_pos|exact exp_le_3]. }
  split; [|apply E; lra]. replace x with (- - x) by ring. rewrite exp_Ropp. replace (-1000)%Z with (- (1000))%Z by reflexivity.
  rewrite bpow_opp. apply Rinv_le; [apply exp_pos|]. apply E. lra.
Qed.

Lemma rnd_rel r : bpow radix2 (-1000) <= Rabs r -> Rabs (rnd r - r) <= / 2 ^ 53 * Rabs r.
Proof.
  intros h. pose proof (relative_error_N_FLT radix2 (-1074) 53 ltac:(lia) (fun t => negb (Z.even t)) r) as R.
  specialize (R ltac:(apply Rle_trans with (2 := h); apply bpow_le; lia)). apply Rle_trans with (1 := R).
  apply Req_le. change (bpow radix2 (- (53) + 1)) with (/ 4503599627370496). lra.
Qed.

Lemma abs_bpow r k : - IZR k <= r <= IZR k -> (0 <= k <= 2 ^ 60)%Z -> Rabs r <= bpow radix2 1000.
Proof.
  intros h hk. apply Rle_trans with (IZR k); [apply Rabs_le; exact h|]. apply Rle_trans with (IZR (2 ^ 60)); [apply IZR_le; lia|].
  change (IZR (2 ^ 60)) with (bpow radix2 60). apply bpow_le. lia.
Qed.

Lemma rnd_abs_err r : -4 <= r <= 4 -> Rabs (rnd r - r) <= / 2 ^ 50.
Proof.
  intros h. pose proof (rnd_bounds_abs r 4 ltac:(apply Rabs_le; lra)) as E. pose proof eta_small. unfold u53 in E. apply Rabs_le. lra.
Qed.

Theorem ref_trig : trig_accurate (/ 2 ^ 50) ref_libm.
Proof.
  intros x fx _. cbn [sinf cosf ref_libm]. rewrite fx.
  pose proof (SIN_bound (B2R x)) as S. pose proof (COS_bound (B2R x)) as C.
  destruct (R2f_small (sin (B2R x)) ltac:(apply abs_bpow with 1%Z; [exact S|lia])) as [F1 E1].
  destruct (R2f_small (cos (B2R x)) ltac:(apply abs_bpow with 1%Z; [exact C|lia])) as [F2 E2].
  rewrite E1, E2. split; [exact F1|split; [|split; [exact F2|]]]; apply rnd_abs_err; lra.
Qed.

Lemma polar_real_atan2 y x : - PI <= real_atan2 y x <= PI /\
  x = sqrt (x * x + y * y) * cos (real_atan2 y x) /\ y = sqrt (x * x + y * y) * sin (real_atan2 y x).
Proof.
  pose proof PI_RGT_0 as PP. unfold real_atan2.
  assert (A : forall t, - PI / 2 < atan t < PI / 2) by (intros t; destruct (atan_bound t); lra).
  assert (Q : x <> 0 -> sqrt (x * x + y * y) = Rabs x * sqrt (1 + (y / x)²)).
  { intros n. replace (x * x + y * y) with (x * x * (1 + (y / x)²)) by (unfold Rsqr; field; exact n).
    rewrite sqrt_mult; [|apply Rle_0_sqr|pose proof (Rle_0_sqr (y / x)); lra]. f_equal. apply sqrt_Rsqr_abs. }
  assert (S : 0 < sqrt (1 + (y / x)²)) by (apply sqrt_lt_R0; pose proof (Rle_0_sqr (y / x)); lra).
  destruct (Rlt_bool_spec 0 x) as [h|h].
  - rewrite (Q ltac:(lra)), (Rabs_pos_eq x) by lra. rewrite cos_atan, sin_atan. specialize (A (y / x)). split; [lra|].
    set (w := sqrt (1 + (y / x)²)) in *. clearbody w. split; field; repeat split; lra.
  - destruct (Rlt_bool_spec x 0) as [h'|h'].
    + rewrite (Q ltac:(lra)), (Rabs_left x) by lra. specialize (A (y / x)).
      assert (W : forall a b c, b <> 0 -> c <> 0 -> - a * b * (c / b) = - a * c) by (intros; field; assumption).
      destruct (Rlt_bool_spec y 0) as [g|g].
      * assert (0 < atan (y / x)). { rewrite <- atan_0. apply atan_increasing. assert (/ x < 0) by (apply Rinv_lt_0_compat; exact h'). unfold Rdiv. nra. }
        split; [lra|]. assert (cos (atan (y / x) - PI) = - cos (atan (y / x))) as -> by (rewrite <- (cos_period _ 1); simpl INR; rewrite <- neg_cos; f_equal; lra).
        assert (sin (atan (y / x) - PI) = - sin (atan (y / x))) as -> by (rewrite <- (sin_period _ 1); simpl INR; rewrite <- neg_sin; f_equal; lra).
        rewrite cos_atan, sin_atan. set (w := sqrt (1 + (y / x)²)) in *; clearbody w; split; field; repeat split; lra.
      * assert (atan (y / x) <= 0).
        { rewrite <- atan_0. destruct (Req_dec y 0) as [->|n]; [unfold Rdiv; rewrite Rmult_0_l; lra|]. left. apply atan_increasing.
          assert (/ x < 0) by (apply Rinv_lt_0_compat; exact h'). unfold Rdiv. nra. }
        split; [lra|]. rewrite neg_cos, neg_sin, cos_atan, sin_atan. set (w := sqrt (1 + (y / x)²)) in *; clearbody w; split; field; repeat split; lra.
    + assert (x = 0) as -> by lra. replace (0 * 0 + y * y) with (Rsqr y) by (unfold Rsqr; ring). rewrite sqrt_Rsqr_abs.
      destruct (Rlt_bool_spec 0 y) as [g|g].
      * rewrite cos_PI2, sin_PI2, Rabs_pos_eq by lra. split; [lra|]. split; ring.
      * destruct (Rlt_bool_spec y 0) as [g'|g'].
        -- replace (- PI / 2) with (- (PI / 2)) by field. rewrite cos_neg, sin_neg, cos_PI2, sin_PI2, Rabs_left by lra. split; [lra|]. split; ring.
        -- assert (y = 0) as -> by lra. rewrite Rabs_R0, cos_0, sin_0. split; [lra|]. split; ring.
Qed.

Theorem ref_atan2 : atan2_accurate (/ 2 ^ 50) ref_libm.
Proof.
  intros y x fy fx. cbn [atan2f ref_libm]. rewrite (fin_not_nan x fx), (fin_not_nan y fy), (val_fin x fx), (val_fin y fy). cbn [orb].
  destruct (polar_real_atan2 (B2R y) (B2R x)) as (B & C & S). set (th := real_atan2 _ _) in *. clearbody th.
  pose proof PI_4 as P4. assert (B4 : -4 <= th <= 4) by lra.
  destruct (R2f_small th ltac:(apply abs_bpow with 4%Z; [exact B4|lia])) as [F E].
  split; [exact F|]. exists th. rewrite E. split; [exact B|]. split; [apply rnd_abs_err; exact B4|]. split; assumption.
Qed.

Theorem ref_upper : atan2_upper ref_libm.
Proof.
  intros y x fy fx sy. cbn [atan2f ref_libm]. rewrite (fin_not_nan x fx), (fin_not_nan y fy), (val_fin x fx), (val_fin y fy). cbn [orb].
  assert (Y0 : 0 <= B2R y).
  { clear - fy sy. destruct y as [s|s| |s m e b]; cbn [BinarySingleNaN.B2R Bsign] in *; try lra. rewrite sy. cbn. apply F2R_ge_0. cbn. lia. }
  pose proof PI_RGT_0 as PP. destruct (polar_real_atan2 (B2R y) (B2R x)) as (B & _ & _). pose proof PI_4 as P4.
  assert (T : 0 <= real_atan2 (B2R y) (B2R x)).
  { clear B. set (b := B2R y) in *. set (a := B2R x) in *. clearbody a b. unfold real_atan2. destruct (Rlt_bool_spec 0 a) as [h|h].
    - rewrite <- atan_0. destruct (Req_dec (b / a) 0) as [->|n]; [lra|]. left. apply atan_increasing. assert (0 <= b / a) by (apply Rmult_le_pos; [exact Y0|left; apply Rinv_0_lt_compat; exact h]). lra.
    - destruct (Rlt_bool_spec a 0) as [h'|h'].
      + destruct (Rlt_bool_spec b 0) as [g|g]; [lra|]. destruct (atan_bound (b / a)). lra.
      + destruct (Rlt_bool_spec 0 b); [lra|]. destruct (Rlt_bool_spec b 0); lra. }
  set (th := real_atan2 _ _) in *. clearbody th. destruct (R2f_small th ltac:(apply abs_bpow with 4%Z; [lra|lia])) as [_ E].
  rewrite E. now apply rnd_ge_0.
Qed.

Theorem ref_exp : exp_accurate (/ 2 ^ 50) ref_libm.
Proof.
  intros x fx bx. cbn [expf ref_libm]. rewrite (fin_not_nan x fx).
  assert (E : match x with B754_infinity s => if s then dec "0.0" else B754_infinity false | _ => R2f (exp (B2R x)) end = R2f (exp (B2R x)))
    by (destruct x; try discriminate fx; reflexivity).
  rewrite E. clear E. destruct (exp_big (B2R x) bx) as [L U]. assert (P : 0 < exp (B2R x)) by apply exp_pos.
  destruct (R2f_small (exp (B2R x)) ltac:(rewrite Rabs_pos_eq; lra)) as [F V]. rewrite V. split; [exact F|]. split.
  - pose proof (rnd_rel (exp (B2R x)) ltac:(rewrite Rabs_pos_eq; lra)) as R. rewrite (Rabs_pos_eq (exp (B2R x))) in R by lra. lra.
  - intros h. apply (rnd_ge_IZR _ 1); [lia|]. pose proof (exp_ineq1_le (B2R x)). lra.
Qed.

(** ln of a float other than 1 is not tiny. *)
Theorem ref_ln : ln_accurate (/ 2 ^ 50) ref_libm.
Proof.
  intros x fx bx. cbn [lnf ref_libm]. fconst (dec "0.0").
  assert (G : flt (dec "0.0") x = true) by (apply flt_fin; [exact F|exact fx|lra]). rewrite G. clear G.
  assert (E : match x with B754_infinity _ => B754_infinity false | _ => R2f (ln (B2R x)) end = R2f (ln (B2R x)))
    by (destruct x; try discriminate fx; reflexivity).
  rewrite E. clear E. assert (L0 : 0 <= ln (B2R x)).
  { rewrite <- ln_1. destruct (Req_dec (B2R x) 1) as [->|]; [lra|]. left. apply ln_increasing; lra. }
  assert (L1 : ln (B2R x) <= 10 ^ 6) by (pose proof (ln_le_sub (B2R x) ltac:(lra)); lra).
  destruct (R2f_small (ln (B2R x)) ltac:(apply abs_bpow with (10 ^ 6)%Z; [change (IZR (10 ^ 6)) with 1000000; lra|lia])) as [FF V1]. rewrite V1.
  split; [exact FF|]. destruct (Req_dec (B2R x) 1) as [e|n].
  - rewrite e, ln_1, rnd_0. rewrite Rminus_0_r, Rabs_R0. lra.
  - assert (T : bpow radix2 (-60) <= ln (B2R x)).
    { pose proof (ln_ge_inv (B2R x) ltac:(lra)) as Q. apply Rle_trans with (2 := Q).
      assert (X : 1 + bpow radix2 (-52) <= B2R x).
      { assert (S : 1 + bpow radix2 (-52) = succ radix2 fexp64 1).
        { rewrite succ_eq_pos by lra. f_equal. change 1 with (bpow radix2 0). rewrite ulp_bpow. f_equal. }
        rewrite S. apply succ_le_lt; [typeclasses eauto| |apply fmt_B2R|lra].
        change 1 with (bpow radix2 0). apply generic_format_bpow. vm_compute. discriminate. }
      apply Rle_trans with (1 - / (1 + bpow radix2 (-52))).
      - change (bpow radix2 (-52)) with (/ 4503599627370496). change (bpow radix2 (-60)) with (/ 1152921504606846976). lra.
      - assert (/ B2R x <= / (1 + bpow radix2 (-52))); [|lra]. apply Rinv_le; [|exact X]. pose proof (bpow_gt_0 radix2 (-52)). lra. }
    pose proof (rnd_rel (ln (B2R x))) as R. rewrite (Rabs_pos_eq (ln (B2R x))) in R by lra.
    specialize (R ltac:(apply Rle_trans with (2 := T); apply bpow_le; lia)). lra.
Qed.

Theorem ref_tiny : pow_tiny ref_libm.
Proof.
  intros x y fx fy hx hy. cbn [powf ref_libm]. split.
  - intros e. unfold ref_pow. fconst (dec "0.0").
    assert (A : flt (dec "0.0") x = false) by (apply flt_fin_f; [exact F|exact fx|lra]).
    assert (B : feq x (dec "0.0") = true) by (apply feq_fin; [exact fx|exact F|lra]).
    assert (C : flt (dec "0.0") y = true) by (apply flt_fin; [exact F|exact fy|lra]).
    rewrite A, B, C. split; [exact F|exact V].
  - intros px hp. rewrite ref_pow_fin by assumption. assert (P : 0 < Rpower (B2R x) (B2R y)) by apply exp_pos.
    set (p := Rpower _ _) in *. clearbody p.
    destruct (R2f_small p) as [F E].
    { rewrite Rabs_pos_eq by lra. apply Rle_trans with (1 := hp). apply bpow_le. lia. }
    split; [exact F|]. rewrite E. split; [apply rnd_ge_0; lra|].
    apply rnd_le_fmt; [apply generic_format_bpow; vm_compute; discriminate|]. apply Rle_trans with (1 := hp). apply bpow_le. lia.
Qed.

Lemma libm_weaken a b (lm : Libm) : a <= b -> libm_accurate a lm -> libm_accurate b lm.
Proof.
  intros h [p t tr at2 up ex l]. split.
  - exact (accurate_weaken a b lm h p).
  - exact t.
  - intros x fx bx. destruct (tr x fx bx) as (A & B & C & D). repeat split; try assumption; lra.
  - intros y x fy fx. destruct (at2 y x fy fx) as (A & th & B & C & D). split; [exact A|]. exists th. repeat split; try tauto; lra.
  - exact up.
  - intros x fx bx. destruct (ex x fx bx) as (A & B & C). repeat split; try assumption.
    apply Rle_trans with (1 := B). apply Rmult_le_compat_r; [left; apply exp_pos|exact h].
  - intros x fx bx. destruct (l x fx bx) as (A & B). split; [exact A|]. apply Rle_trans with (1 := B). apply Rmult_le_compat_r; [|exact h].
    rewrite <- ln_1. destruct (Req_dec (B2R x) 1) as [->|]; [lra|]. left. apply ln_increasing; lra.
Qed.

Theorem ref_libm_accurate : libm_accurate (/ 2 ^ 50) ref_libm.
Proof.
  split; [|exact ref_tiny|exact ref_trig|exact ref_atan2|exact ref_upper|exact ref_exp|exact ref_ln].
  apply accurate_weaken with (/ 2 ^ 53); [lra|exact ref_pow_accurate].
Qed.
