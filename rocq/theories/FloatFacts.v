(** * Facts about the binary64 model: order, rounding, literals.  Proof file. *)
From Coq Require Import ZArith Bool Reals Lra Lia Psatz String.
From Flocq Require Import Core Relative Plus_error IEEE754.BinarySingleNaN.
From Verif Require Import F64.
Open Scope R_scope.

Notation B2R := (@BinarySingleNaN.B2R 53 1024).
Notation fin x := (is_finite x = true).
Definition fexp64 : Z -> Z := FLT_exp (-1074) 53.
Definition rnd (r : R) : R := round radix2 fexp64 ZnearestE r.
Definition BIG : R := bpow radix2 1024.

#[global] Instance vexp64 : Valid_exp fexp64.
Proof. apply FLT_exp_valid. reflexivity. Qed.
#[global] Instance mexp64 : Monotone_exp fexp64.
Proof. apply FLT_exp_monotone. Qed.

Lemma BIG_pos : 0 < BIG. Proof. apply bpow_gt_0. Qed.

Lemma fin_not_nan (x : f64) : fin x -> is_nan x = false.
Proof. destruct x; easy. Qed.

(** The value of a non-NaN float, with the infinities at +-2^1024. *)
Definition val (x : f64) : R :=
  match x with
  | B754_infinity s => if s then - BIG else BIG
  | _ => B2R x
  end.

Lemma val_fin (x : f64) : fin x -> val x = B2R x.
Proof. destruct x; easy. Qed.

Lemma B2R_lt_BIG (x : f64) : Rabs (B2R x) < BIG.
Proof. apply abs_B2R_lt_emax. Qed.

Lemma B2R_BIG (x : f64) : - BIG < B2R x < BIG.
Proof. apply Rabs_lt_inv, B2R_lt_BIG. Qed.

Lemma val_BIG (x : f64) : - BIG <= val x <= BIG.
Proof.
  pose proof BIG_pos. pose proof (B2R_BIG x).
  destruct x as [s|[]| |s m e p]; cbn [val] in *; lra.
Qed.

Lemma val_fin_iff (x : f64) : is_nan x = false -> (fin x <-> - BIG < val x < BIG).
Proof.
  pose proof BIG_pos. pose proof (B2R_BIG x).
  destruct x as [s|[]| |s m e p]; cbn [val is_nan is_finite] in *; intros; try easy; split; intros; try easy; lra.
Qed.

Lemma Bcompare_val (x y : f64) : is_nan x = false -> is_nan y = false ->
  Bcompare x y = Some (Rcompare (val x) (val y)).
Proof.
  intros hx hy. pose proof BIG_pos.
  destruct (is_finite x) eqn:fx, (is_finite y) eqn:fy.
  - rewrite Bcompare_correct by assumption. rewrite !val_fin by assumption. reflexivity.
  - destruct y as [s|s| |]; try easy. rewrite (val_fin x) by assumption.
    pose proof (B2R_BIG x). simpl val.
    destruct x; try easy; destruct s; cbn [Bcompare B2SF SpecFloat.SFcompare]; f_equal; symmetry;
      try (apply Rcompare_Lt; lra); try (apply Rcompare_Gt; lra);
      try (destruct s0; (apply Rcompare_Lt; lra) || (apply Rcompare_Gt; lra)).
  - destruct x as [s|s| |]; try easy. rewrite (val_fin y) by assumption.
    pose proof (B2R_BIG y). simpl val.
    destruct y; try easy; destruct s; cbn [Bcompare B2SF SpecFloat.SFcompare]; f_equal; symmetry;
      try (apply Rcompare_Lt; lra); try (apply Rcompare_Gt; lra).
  - destruct x as [s|s| |]; try easy. destruct y as [s'|s'| |]; try easy.
    destruct s, s'; cbn [Bcompare B2SF SpecFloat.SFcompare val]; f_equal; symmetry;
      try (apply Rcompare_Lt; lra); try (apply Rcompare_Gt; lra); try (apply Rcompare_Eq; lra).
Qed.

Lemma Bltb_cmp (x y : f64) : Bltb x y = match Bcompare x y with Some Lt => true | _ => false end.
Proof. reflexivity. Qed.
Lemma Bleb_cmp (x y : f64) : Bleb x y = match Bcompare x y with Some Lt | Some Eq => true | _ => false end.
Proof. reflexivity. Qed.
Lemma Beqb_cmp (x y : f64) : Beqb x y = match Bcompare x y with Some Eq => true | _ => false end.
Proof. reflexivity. Qed.

Lemma flt_val (x y : f64) : is_nan x = false -> is_nan y = false -> (flt x y = true <-> val x < val y).
Proof.
  intros hx hy. unfold flt. rewrite Bltb_cmp, Bcompare_val by assumption.
  destruct (Rcompare_spec (val x) (val y)); split; intros; try easy; lra.
Qed.
Lemma flt_val_f (x y : f64) : is_nan x = false -> is_nan y = false -> (flt x y = false <-> val y <= val x).
Proof.
  intros hx hy. unfold flt. rewrite Bltb_cmp, Bcompare_val by assumption.
  destruct (Rcompare_spec (val x) (val y)); split; intros; try easy; lra.
Qed.
Lemma fle_val (x y : f64) : is_nan x = false -> is_nan y = false -> (fle x y = true <-> val x <= val y).
Proof.
  intros hx hy. unfold fle. rewrite Bleb_cmp, Bcompare_val by assumption.
  destruct (Rcompare_spec (val x) (val y)); split; intros; try easy; lra.
Qed.
Lemma fle_val_f (x y : f64) : is_nan x = false -> is_nan y = false -> (fle x y = false <-> val y < val x).
Proof.
  intros hx hy. unfold fle. rewrite Bleb_cmp, Bcompare_val by assumption.
  destruct (Rcompare_spec (val x) (val y)); split; intros; try easy; lra.
Qed.
Lemma feq_val (x y : f64) : is_nan x = false -> is_nan y = false -> (feq x y = true <-> val x = val y).
Proof.
  intros hx hy. unfold feq. rewrite Beqb_cmp, Bcompare_val by assumption.
  destruct (Rcompare_spec (val x) (val y)); split; intros; try easy; lra.
Qed.

Lemma flt_nan_l (x y : f64) : is_nan x = true -> flt x y = false.
Proof. destruct x; easy. Qed.
Lemma flt_nan_r (x y : f64) : is_nan y = true -> flt x y = false.
Proof. destruct y; try easy; destruct x; easy. Qed.
Lemma fle_nan_l (x y : f64) : is_nan x = true -> fle x y = false.
Proof. destruct x; easy. Qed.
Lemma fle_nan_r (x y : f64) : is_nan y = true -> fle x y = false.
Proof. destruct y; try easy; destruct x; easy. Qed.
Lemma feq_nan_l (x y : f64) : is_nan x = true -> feq x y = false.
Proof. destruct x; easy. Qed.
Lemma feq_nan_r (x y : f64) : is_nan y = true -> feq x y = false.
Proof. destruct y; try easy; destruct x; easy. Qed.

Lemma flt_not_nan (x y : f64) : flt x y = true -> is_nan x = false /\ is_nan y = false.
Proof.
  intros h. split; [destruct (is_nan x) eqn:E; [rewrite flt_nan_l in h|]|
                    destruct (is_nan y) eqn:E; [rewrite flt_nan_r in h|]]; easy.
Qed.
Lemma fle_not_nan (x y : f64) : fle x y = true -> is_nan x = false /\ is_nan y = false.
Proof.
  intros h. split; [destruct (is_nan x) eqn:E; [rewrite fle_nan_l in h|]|
                    destruct (is_nan y) eqn:E; [rewrite fle_nan_r in h|]]; easy.
Qed.
Lemma feq_not_nan (x y : f64) : feq x y = true -> is_nan x = false /\ is_nan y = false.
Proof.
  intros h. split; [destruct (is_nan x) eqn:E; [rewrite feq_nan_l in h|]|
                    destruct (is_nan y) eqn:E; [rewrite feq_nan_r in h|]]; easy.
Qed.
Lemma flt_true (x y : f64) : flt x y = true -> val x < val y.
Proof. intros h. destruct (flt_not_nan _ _ h). now apply flt_val. Qed.
Lemma fle_true (x y : f64) : fle x y = true -> val x <= val y.
Proof. intros h. destruct (fle_not_nan _ _ h). now apply fle_val. Qed.
Lemma feq_true (x y : f64) : feq x y = true -> val x = val y.
Proof. intros h. destruct (feq_not_nan _ _ h). now apply feq_val. Qed.

Lemma flt_fin (x y : f64) : fin x -> fin y -> (flt x y = true <-> B2R x < B2R y).
Proof. intros. rewrite <- !val_fin by assumption. apply flt_val; now apply fin_not_nan. Qed.
Lemma flt_fin_f (x y : f64) : fin x -> fin y -> (flt x y = false <-> B2R y <= B2R x).
Proof. intros. rewrite <- !val_fin by assumption. apply flt_val_f; now apply fin_not_nan. Qed.
Lemma fle_fin (x y : f64) : fin x -> fin y -> (fle x y = true <-> B2R x <= B2R y).
Proof. intros. rewrite <- !val_fin by assumption. apply fle_val; now apply fin_not_nan. Qed.
Lemma fle_fin_f (x y : f64) : fin x -> fin y -> (fle x y = false <-> B2R y < B2R x).
Proof. intros. rewrite <- !val_fin by assumption. apply fle_val_f; now apply fin_not_nan. Qed.
Lemma feq_fin (x y : f64) : fin x -> fin y -> (feq x y = true <-> B2R x = B2R y).
Proof. intros. rewrite <- !val_fin by assumption. apply feq_val; now apply fin_not_nan. Qed.

(** ** Rounding *)
Lemma rnd_0 : rnd 0 = 0.
Proof. apply round_0. apply valid_rnd_N. Qed.
Lemma rnd_mono x y : x <= y -> rnd x <= rnd y.
Proof. apply round_le; [apply vexp64|apply valid_rnd_N]. Qed.
Lemma fmt_B2R (x : f64) : generic_format radix2 fexp64 (B2R x).
Proof. apply (generic_format_B2R 53 1024). Qed.
Lemma rnd_B2R (x : f64) : rnd (B2R x) = B2R x.
Proof. apply round_generic; [apply valid_rnd_N|apply fmt_B2R]. Qed.
Lemma rnd_fmt r : generic_format radix2 fexp64 r -> rnd r = r.
Proof. apply round_generic. apply valid_rnd_N. Qed.
Lemma fmt_rnd r : generic_format radix2 fexp64 (rnd r).
Proof. apply generic_format_round; [apply vexp64|apply valid_rnd_N]. Qed.
Lemma rnd_opp r : rnd (- r) = - rnd r.
Proof. apply round_NE_opp. Qed.
Lemma rnd_abs r : rnd (Rabs r) = Rabs (rnd r).
Proof. apply round_NE_abs. apply vexp64. Qed.
Lemma rnd_le_fmt r f : generic_format radix2 fexp64 f -> r <= f -> rnd r <= f.
Proof. intros F h. rewrite <- (rnd_fmt f F). now apply rnd_mono. Qed.
Lemma rnd_ge_fmt r f : generic_format radix2 fexp64 f -> f <= r -> f <= rnd r.
Proof. intros F h. rewrite <- (rnd_fmt f F). now apply rnd_mono. Qed.
Lemma rnd_le_B2R r (f : f64) : r <= B2R f -> rnd r <= B2R f.
Proof. apply rnd_le_fmt, fmt_B2R. Qed.
Lemma rnd_ge_B2R r (f : f64) : B2R f <= r -> B2R f <= rnd r.
Proof. apply rnd_ge_fmt, fmt_B2R. Qed.

(** Format membership of m * 2^e with |m| <= 2^53. *)
Lemma fmt_FLT m e : (Z.abs m <= 2 ^ 53)%Z -> (-1074 <= e)%Z ->
  generic_format radix2 fexp64 (IZR m * bpow radix2 e).
Proof.
  intros hm he.
  destruct (Z.eq_dec (Z.abs m) (2 ^ 53)) as [E|E].
  - assert (m = 2 ^ 53 \/ m = - 2 ^ 53)%Z as [->| ->] by lia.
    + change (2 ^ 53)%Z with (Zpower radix2 53). rewrite IZR_Zpower by lia. rewrite <- bpow_plus.
      apply generic_format_bpow'; [apply vexp64|]. unfold fexp64, FLT_exp. lia.
    + rewrite opp_IZR. change (2 ^ 53)%Z with (Zpower radix2 53). rewrite IZR_Zpower by lia.
      rewrite Ropp_mult_distr_l_reverse, <- bpow_plus. apply generic_format_opp.
      apply generic_format_bpow'; [apply vexp64|]. unfold fexp64, FLT_exp. lia.
  - apply generic_format_FLT. exists (Float radix2 m e); [reflexivity| |assumption].
    simpl. change (Z.pow_pos 2 53) with (2 ^ 53)%Z. lia.
Qed.

Lemma fmt_IZR m : (Z.abs m <= 2 ^ 53)%Z -> generic_format radix2 fexp64 (IZR m).
Proof. intros h. rewrite <- (Rmult_1_r (IZR m)). change 1 with (bpow radix2 0). apply fmt_FLT; lia. Qed.

Lemma rnd_IZR m : (Z.abs m <= 2 ^ 53)%Z -> rnd (IZR m) = IZR m.
Proof. intros. now apply rnd_fmt, fmt_IZR. Qed.

Lemma rnd_le_IZR r m : (Z.abs m <= 2 ^ 53)%Z -> r <= IZR m -> rnd r <= IZR m.
Proof. intros. apply rnd_le_fmt; [now apply fmt_IZR|assumption]. Qed.
Lemma rnd_ge_IZR r m : (Z.abs m <= 2 ^ 53)%Z -> IZR m <= r -> IZR m <= rnd r.
Proof. intros. apply rnd_ge_fmt; [now apply fmt_IZR|assumption]. Qed.
Lemma rnd_ge_0 r : 0 <= r -> 0 <= rnd r.
Proof. apply (rnd_ge_IZR r 0). lia. Qed.
Lemma rnd_le_0 r : r <= 0 -> rnd r <= 0.
Proof. apply (rnd_le_IZR r 0). lia. Qed.

(** Error of one rounding. *)
Lemma rnd_err r : Rabs (rnd r - r) <= / 9007199254740992 * Rabs r + bpow radix2 (-1075).
Proof.
  destruct (relative_error_N_FLT'_ex radix2 (-1074) 53 ltac:(lia) (fun z => negb (Z.even z)) r)
    as (d & e & hd & he & _ & E).
  unfold rnd. change (round radix2 fexp64 ZnearestE r) with
    (round radix2 (FLT_exp (-1074) 53) (Znearest (fun z => negb (Z.even z))) r).
  rewrite E. replace (r * (1 + d) + e - r) with (r * d + e) by ring.
  eapply Rle_trans; [apply Rabs_triang|]. rewrite Rabs_mult.
  apply Rplus_le_compat.
  - rewrite Rmult_comm. apply Rmult_le_compat_r; [apply Rabs_pos|].
    refine (Rle_trans _ _ _ hd _).
    unfold u_ro. change (bpow radix2 (- (53) + 1)) with (/ 4503599627370496).
    assert (0 < / 4503599627370496) by lra.
    apply (Rle_trans _ (/ 2 * / 4503599627370496)); [|lra].
    apply Rmult_le_reg_r with (1 + / 2 * / 4503599627370496); [lra|]. unfold Rdiv.
    rewrite Rmult_assoc, Rinv_l by lra. nra.
  - refine (Rle_trans _ _ _ he _).
    change (-1075)%Z with (-1 + -1074)%Z. rewrite (bpow_plus radix2 (-1)). simpl bpow at 2. lra.
Qed.

Lemma tiny_small : bpow radix2 (-1075) <= / 1000000000000000000000000000000000000000000000000000000000000.
Proof.
  apply Rle_trans with (bpow radix2 (-200)); [apply bpow_le; lia|].
  simpl bpow. apply Rinv_le; [lra|]. change (Z.pow_pos 2 200) with (2^200)%Z. apply IZR_le. lia.
Qed.

(** ** Arithmetic: no overflow case *)
Lemma ovf_lt r : Rabs r <= bpow radix2 1023 -> Rlt_bool (Rabs (rnd r)) (bpow radix2 1024) = true.
Proof.
  intros h. apply Rlt_bool_true. rewrite <- rnd_abs.
  apply Rle_lt_trans with (bpow radix2 1023); [|apply bpow_lt; lia].
  apply rnd_le_fmt; [|assumption].
  apply generic_format_bpow'; [apply vexp64|]. unfold fexp64, FLT_exp. lia.
Qed.

Lemma fadd_R (x y : f64) : fin x -> fin y -> Rabs (B2R x + B2R y) <= bpow radix2 1023 ->
  B2R (fadd x y) = rnd (B2R x + B2R y) /\ fin (fadd x y).
Proof.
  intros hx hy hb. pose proof (Bplus_correct 53 1024 _ _ mode_NE x y hx hy) as C.
  change (round radix2 (SpecFloat.fexp 53 1024) (round_mode mode_NE) (B2R x + B2R y))
    with (rnd (B2R x + B2R y)) in C.
  rewrite ovf_lt in C by assumption. destruct C as (C1 & C2 & _). split; assumption.
Qed.
Lemma fsub_R (x y : f64) : fin x -> fin y -> Rabs (B2R x - B2R y) <= bpow radix2 1023 ->
  B2R (fsub x y) = rnd (B2R x - B2R y) /\ fin (fsub x y).
Proof.
  intros hx hy hb. pose proof (Bminus_correct 53 1024 _ _ mode_NE x y hx hy) as C.
  change (round radix2 (SpecFloat.fexp 53 1024) (round_mode mode_NE) (B2R x - B2R y))
    with (rnd (B2R x - B2R y)) in C.
  rewrite ovf_lt in C by assumption. destruct C as (C1 & C2 & _). split; assumption.
Qed.
Lemma fmul_R (x y : f64) : fin x -> fin y -> Rabs (B2R x * B2R y) <= bpow radix2 1023 ->
  B2R (fmul x y) = rnd (B2R x * B2R y) /\ fin (fmul x y).
Proof.
  intros hx hy hb. pose proof (Bmult_correct 53 1024 _ _ mode_NE x y) as C.
  change (round radix2 (SpecFloat.fexp 53 1024) (round_mode mode_NE) (B2R x * B2R y))
    with (rnd (B2R x * B2R y)) in C.
  rewrite ovf_lt in C by assumption. destruct C as (C1 & C2 & _). split; [assumption|].
  unfold fmul. rewrite C2, hx, hy. reflexivity.
Qed.
Lemma fdiv_R (x y : f64) : fin x -> B2R y <> 0 -> Rabs (B2R x / B2R y) <= bpow radix2 1023 ->
  B2R (fdiv x y) = rnd (B2R x / B2R y) /\ fin (fdiv x y).
Proof.
  intros hx hy hb. pose proof (Bdiv_correct 53 1024 _ _ mode_NE x y hy) as C.
  change (round radix2 (SpecFloat.fexp 53 1024) (round_mode mode_NE) (B2R x / B2R y))
    with (rnd (B2R x / B2R y)) in C.
  rewrite ovf_lt in C by assumption. destruct C as (C1 & C2 & _). split; [assumption|].
  unfold fdiv. rewrite C2, hx. reflexivity.
Qed.

Lemma fneg_R (x : f64) : B2R (fneg x) = - B2R x.
Proof. apply B2R_Bopp. Qed.
Lemma fneg_fin (x : f64) : is_finite (fneg x) = is_finite x.
Proof. apply is_finite_Bopp. Qed.
Lemma fneg_val (x : f64) : val (fneg x) = - val x.
Proof.
  pose proof (fneg_R x) as E. destruct x as [s|[]| |s m e p]; cbn [fneg Bopp val negb] in *; try assumption; lra.
Qed.
Lemma fneg_nan (x : f64) : is_nan (fneg x) = is_nan x.
Proof. destruct x; reflexivity. Qed.
Lemma fabs_R (x : f64) : B2R (fabs x) = Rabs (B2R x).
Proof. apply B2R_Babs. Qed.
Lemma fabs_fin (x : f64) : is_finite (fabs x) = is_finite x.
Proof. apply is_finite_Babs. Qed.

(** ** Literals and integers *)
Lemma B2R_of_SF (x : f64) sf : B2SF x = sf -> B2R x = SF2R radix2 sf.
Proof. intros <-. symmetry. apply SF2R_B2SF. Qed.
Lemma fin_of_SF (x : f64) sf : B2SF x = sf -> is_finite x = is_finite_SF sf.
Proof. intros <-. symmetry. apply is_finite_SF_B2SF. Qed.

Lemma SF2R_pos m e : SF2R radix2 (SpecFloat.S754_finite false m e) =
  match e with Z0 => IZR (Zpos m) | Zpos p => IZR (Zpos m) * IZR (Z.pow_pos 2 p)
  | Zneg p => IZR (Zpos m) / IZR (Z.pow_pos 2 p) end.
Proof. unfold SF2R, F2R. simpl Fnum. simpl Fexp. destruct e; simpl bpow; [ring|reflexivity|reflexivity]. Qed.
Lemma SF2R_neg m e : SF2R radix2 (SpecFloat.S754_finite true m e) =
  - match e with Z0 => IZR (Zpos m) | Zpos p => IZR (Zpos m) * IZR (Z.pow_pos 2 p)
  | Zneg p => IZR (Zpos m) / IZR (Z.pow_pos 2 p) end.
Proof.
  unfold SF2R, F2R. simpl Fnum. simpl Fexp.
  change (IZR (Zneg m)) with (- IZR (Zpos m)).
  destruct e; simpl bpow; unfold Rdiv; ring.
Qed.

Lemma of_Z_R z : (Z.abs z <= 2 ^ 53)%Z -> B2R (of_Z z) = IZR z /\ fin (of_Z z).
Proof.
  intros h. unfold of_Z.
  pose proof (binary_normalize_correct 53 1024 _ _ mode_NE z 0 false) as C. cbv zeta in C.
  assert (E : F2R (Float radix2 z 0) = IZR z) by (unfold F2R; simpl; ring).
  rewrite E in C.
  change (round radix2 (SpecFloat.fexp 53 1024) (round_mode mode_NE) (IZR z)) with (rnd (IZR z)) in C.
  rewrite ovf_lt in C. 2:{ rewrite <- abs_IZR. apply Rle_trans with (bpow radix2 53).
    - change (bpow radix2 53) with (IZR (2^53)). now apply IZR_le.
    - apply bpow_le. lia. }
  destruct C as (C1 & C2 & _). rewrite rnd_IZR in C1 by assumption. split; assumption.
Qed.

(** Compute the real value of a closed float term: adds
    [H : B2R c = num / den] and [F : fin c]. *)
Ltac red_frac m p :=
  let a := eval vm_compute in (Zpos m / Z.gcd (Zpos m) (Z.pow_pos 2 p))%Z in
  let b := eval vm_compute in (Z.pow_pos 2 p / Z.gcd (Zpos m) (Z.pow_pos 2 p))%Z in
  match b with
  | 1%Z => constr:(IZR a)
  | _ => constr:((IZR a / IZR b)%R)
  end.
Ltac fconst_as c H F :=
  let sf := eval vm_compute in (B2SF c) in
  let rhs :=
    match sf with
    | SpecFloat.S754_zero _ => constr:(0%R)
    | SpecFloat.S754_finite false ?m (Zneg ?p) => red_frac m p
    | SpecFloat.S754_finite false ?m Z0 => constr:(IZR (Zpos m))
    | SpecFloat.S754_finite false ?m (Zpos ?p) =>
        let d := eval vm_compute in (Zpos m * Z.pow_pos 2 p)%Z in constr:(IZR d)
    | SpecFloat.S754_finite true ?m (Zneg ?p) => let r := red_frac m p in constr:((- r)%R)
    | SpecFloat.S754_finite true ?m Z0 => constr:((- IZR (Zpos m))%R)
    | SpecFloat.S754_finite true ?m (Zpos ?p) =>
        let d := eval vm_compute in (Zpos m * Z.pow_pos 2 p)%Z in constr:((- IZR d)%R)
    end in
  assert (H : B2R c = rhs) by
    (rewrite (B2R_of_SF c sf) by (vm_compute; reflexivity);
     first [reflexivity
           | rewrite SF2R_pos; cbn [Z.pow_pos Pos.iter Z.mul Pos.mul]; (reflexivity || lra || (rewrite <- mult_IZR; reflexivity))
           | rewrite SF2R_neg; cbn [Z.pow_pos Pos.iter Z.mul Pos.mul]; (reflexivity || lra || (rewrite <- mult_IZR; reflexivity))]);
  assert (F : fin c) by (rewrite (fin_of_SF c sf) by (vm_compute; reflexivity); reflexivity).

Ltac fconst c := let H := fresh "V" in let F := fresh "F" in fconst_as c H F.

(** Integer-valued literals. *)
Lemma dec_int s z : B2SF (dec s) = B2SF (of_Z z) -> (Z.abs z <= 2 ^ 53)%Z ->
  B2R (dec s) = IZR z /\ fin (dec s).
Proof.
  intros E h. destruct (of_Z_R z h) as [V F]. rewrite (B2R_of_SF _ _ E), SF2R_B2SF. split; [assumption|].
  rewrite (fin_of_SF _ _ E), is_finite_SF_B2SF. assumption.
Qed.

(** ** Extended results: what the operations give on any finite operands. *)
Definition rndx (r : R) : R :=
  if Rlt_bool (Rabs (rnd r)) BIG then rnd r else if Rlt_bool r 0 then - BIG else BIG.

Lemma rnd_sign_pos r : 0 < rnd r -> 0 < r.
Proof. intros h. destruct (Rle_or_lt r 0) as [c|]; [|assumption]. apply rnd_le_0 in c. lra. Qed.

Lemma rndx_mono x y : x <= y -> rndx x <= rndx y.
Proof.
  intros h. pose proof (rnd_mono _ _ h) as M. unfold rndx. pose proof BIG_pos.
  destruct (Rlt_bool_spec (Rabs (rnd x)) BIG) as [a|a], (Rlt_bool_spec (Rabs (rnd y)) BIG) as [b|b].
  - assumption.
  - apply Rabs_lt_inv in a. destruct (Rlt_bool_spec y 0) as [c|c]; [|lra].
    assert (rnd y <= 0) by (apply rnd_le_0; lra). rewrite Rabs_left1 in b by assumption. lra.
  - apply Rabs_lt_inv in b. destruct (Rlt_bool_spec x 0) as [c|c]; [lra|].
    assert (0 <= rnd x) by (apply rnd_ge_0; lra). rewrite Rabs_pos_eq in a by assumption. lra.
  - destruct (Rlt_bool_spec x 0), (Rlt_bool_spec y 0); lra.
Qed.

Lemma rndx_small r : Rabs r <= bpow radix2 1023 -> rndx r = rnd r.
Proof. intros h. unfold rndx, BIG. now rewrite ovf_lt. Qed.

Lemma ovf_val (x : f64) s : B2SF x = binary_overflow 53 1024 mode_NE s -> val x = (if s then - BIG else BIG) /\ is_nan x = false.
Proof.
  change (binary_overflow 53 1024 mode_NE s) with (SpecFloat.S754_infinity s).
  destruct x as [t|t| |t m e p]; cbn [B2SF]; intros E; try discriminate E.
  injection E as ->. split; reflexivity.
Qed.

Lemma sign_R (x : f64) : fin x -> B2R x <> 0 -> Bsign x = Rlt_bool (B2R x) 0.
Proof.
  intros h n. destruct x as [s|s| |s m e p]; try easy.
  cbn [Bsign BinarySingleNaN.B2R]. unfold F2R; cbn [Fnum Fexp]. pose proof (bpow_gt_0 radix2 e).
    destruct s; cbn [cond_Zopp].
    + rewrite Rlt_bool_true; [reflexivity|]. pose proof (IZR_lt (Z.neg m) 0 ltac:(lia)).
      change (- Z.pos m)%Z with (Z.neg m). nra.
    + rewrite Rlt_bool_false; [reflexivity|]. pose proof (IZR_lt 0 (Z.pos m) ltac:(lia)). nra.
Qed.

Lemma ovf_ge r : BIG <= Rabs (rnd r) -> bpow radix2 1023 < Rabs r.
Proof.
  intros h. destruct (Rle_or_lt (Rabs r) (bpow radix2 1023)) as [c|]; [|assumption].
  apply ovf_lt in c. rewrite Rlt_bool_false in c by assumption. discriminate.
Qed.

Lemma fmul_val (x y : f64) : fin x -> fin y ->
  val (fmul x y) = rndx (B2R x * B2R y) /\ is_nan (fmul x y) = false.
Proof.
  intros hx hy. pose proof (Bmult_correct 53 1024 _ _ mode_NE x y) as C.
  change (round radix2 (SpecFloat.fexp 53 1024) (round_mode mode_NE) (B2R x * B2R y))
    with (rnd (B2R x * B2R y)) in C. unfold rndx.
  change (bpow radix2 1024) with BIG in C.
  destruct (Rlt_bool_spec (Rabs (rnd (B2R x * B2R y))) BIG) as [h|h].
  - destruct C as (C1 & C2 & _).
    change (Bmult mode_NE x y) with (fmul x y) in *.
    rewrite hx, hy in C2. cbn in C2. rewrite val_fin by assumption. split; [assumption|now apply fin_not_nan].
  - apply ovf_ge in h. pose proof (bpow_gt_0 radix2 1023).
    assert (n : B2R x * B2R y <> 0) by (intros q; rewrite q, Rabs_R0 in h; lra).
    assert (nx : B2R x <> 0) by (intros q; rewrite q in n; lra).
    assert (ny : B2R y <> 0) by (intros q; rewrite q in n; lra).
    apply ovf_val in C. change (Bmult mode_NE x y) with (fmul x y) in *.
    rewrite !sign_R in C by assumption.
    destruct C as [C N]. split; [|assumption]. rewrite C.
    destruct (Rlt_bool_spec (B2R x) 0), (Rlt_bool_spec (B2R y) 0), (Rlt_bool_spec (B2R x * B2R y) 0);
      cbn [xorb]; try reflexivity; nra.
Qed.

Lemma fadd_val (x y : f64) : fin x -> fin y ->
  val (fadd x y) = rndx (B2R x + B2R y) /\ is_nan (fadd x y) = false.
Proof.
  intros hx hy. pose proof (Bplus_correct 53 1024 _ _ mode_NE x y hx hy) as C.
  change (round radix2 (SpecFloat.fexp 53 1024) (round_mode mode_NE) (B2R x + B2R y))
    with (rnd (B2R x + B2R y)) in C. unfold rndx.
  change (bpow radix2 1024) with BIG in C.
  change (Bplus mode_NE x y) with (fadd x y) in *.
  destruct (Rlt_bool_spec (Rabs (rnd (B2R x + B2R y))) BIG) as [h|h].
  - destruct C as (C1 & C2 & _). rewrite val_fin by assumption.
    split; [assumption|now apply fin_not_nan].
  - apply ovf_ge in h. pose proof (bpow_gt_0 radix2 1023).
    destruct C as [C S]. apply ovf_val in C. destruct C as [C N]. split; [|assumption]. rewrite C.
    assert (n : B2R x <> 0 \/ B2R y <> 0).
    { destruct (Req_dec (B2R x) 0) as [q|]; [|now left]. destruct (Req_dec (B2R y) 0) as [q'|]; [|now right].
      rewrite q, q', Rplus_0_l, Rabs_R0 in h. lra. }
    pose proof (B2R_BIG x). pose proof (B2R_BIG y).
    (* the signs agree, and one of the two is nonzero, so it decides the sign of the sum *)
    assert (K : forall z : f64, fin z -> (Bsign z = true -> B2R z <= 0) /\ (Bsign z = false -> 0 <= B2R z)).
    { intros z hz. destruct (Req_dec (B2R z) 0) as [q|q]; [rewrite q; lra|].
      rewrite sign_R by assumption. destruct (Rlt_bool_spec (B2R z) 0); split; intros; try discriminate; lra. }
    destruct (K x hx) as [K1 K2], (K y hy) as [K3 K4].
    destruct (Bsign x) eqn:Sx; destruct (Bsign y) eqn:Sy; try discriminate S.
    + specialize (K1 eq_refl). specialize (K3 eq_refl).
      rewrite Rlt_bool_true; [reflexivity|]. destruct n; lra.
    + specialize (K2 eq_refl). specialize (K4 eq_refl). rewrite Rlt_bool_false; [reflexivity|lra].
Qed.

Lemma fsub_val (x y : f64) : fin x -> fin y ->
  val (fsub x y) = rndx (B2R x - B2R y) /\ is_nan (fsub x y) = false.
Proof.
  intros hx hy. pose proof (Bminus_correct 53 1024 _ _ mode_NE x y hx hy) as C.
  change (round radix2 (SpecFloat.fexp 53 1024) (round_mode mode_NE) (B2R x - B2R y))
    with (rnd (B2R x - B2R y)) in C. unfold rndx.
  change (bpow radix2 1024) with BIG in C.
  change (Bminus mode_NE x y) with (fsub x y) in *.
  destruct (Rlt_bool_spec (Rabs (rnd (B2R x - B2R y))) BIG) as [h|h].
  - destruct C as (C1 & C2 & _). rewrite val_fin by assumption.
    split; [assumption|now apply fin_not_nan].
  - apply ovf_ge in h. pose proof (bpow_gt_0 radix2 1023).
    destruct C as [C S]. apply ovf_val in C. destruct C as [C N]. split; [|assumption]. rewrite C.
    assert (n : B2R x <> 0 \/ B2R y <> 0).
    { destruct (Req_dec (B2R x) 0) as [q|]; [|now left]. destruct (Req_dec (B2R y) 0) as [q'|]; [|now right].
      rewrite q, q', Rminus_0_l, Rabs_Ropp, Rabs_R0 in h. lra. }
    assert (K : forall z : f64, fin z -> (Bsign z = true -> B2R z <= 0) /\ (Bsign z = false -> 0 <= B2R z)).
    { intros z hz. destruct (Req_dec (B2R z) 0) as [q|q]; [rewrite q; lra|].
      rewrite sign_R by assumption. destruct (Rlt_bool_spec (B2R z) 0); split; intros; try discriminate; lra. }
    destruct (K x hx) as [K1 K2], (K y hy) as [K3 K4].
    destruct (Bsign x) eqn:Sx; destruct (Bsign y) eqn:Sy; try discriminate S.
    + specialize (K1 eq_refl). specialize (K4 eq_refl).
      rewrite Rlt_bool_true; [reflexivity|]. destruct n; lra.
    + specialize (K2 eq_refl). specialize (K3 eq_refl). rewrite Rlt_bool_false; [reflexivity|lra].
Qed.

(** ** fmod *)
Lemma frem_R (x y : f64) : fin x -> fin y -> 0 < B2R y ->
  exists k : Z, fin (frem x y) /\ B2R (frem x y) = B2R x - IZR k * B2R y /\
  Rabs (B2R (frem x y)) < B2R y /\ Rabs (B2R (frem x y)) <= Rabs (B2R x) /\
  (0 <= B2R x -> 0 <= B2R (frem x y)) /\ (B2R x <= 0 -> B2R (frem x y) <= 0).
Proof.
  intros hx hy py.
  destruct y as [sy|sy| |sy my ey Hy]; try easy; try (cbn in py; lra).
  assert (sy = false) as ->.
  { destruct sy; [|reflexivity]. cbn in py. unfold F2R in py. cbn in py.
    pose proof (bpow_gt_0 radix2 ey). pose proof (IZR_lt (Z.neg my) 0 ltac:(lia)). nra. }
  destruct x as [sx|sx| |sx mx ex Hx]; try easy.
  { exists 0%Z. cbn -[IZR]. rewrite Rabs_R0. cbn in py. repeat split; lra. }
  set (e := Z.min ex ey). set (a := (Z.pos mx * 2 ^ (ex - e))%Z). set (b := (Z.pos my * 2 ^ (ey - e))%Z).
  assert (pb : (0 < b)%Z) by (unfold b; apply Z.mul_pos_pos; [lia|apply Z.pow_pos_nonneg; lia]).
  assert (pa : (0 < a)%Z) by (unfold a; apply Z.mul_pos_pos; [lia|apply Z.pow_pos_nonneg; lia]).
  set (r := (a mod b)%Z). pose proof (Z.mod_pos_bound a b pb) as Br. fold r in Br.
  assert (Ra : (r <= a)%Z) by (apply Z.mod_le; lia).
  assert (EX : forall m q, (e <= q)%Z -> IZR (m * 2 ^ (q - e)) * bpow radix2 e = IZR m * bpow radix2 q).
  { intros m q hq. rewrite mult_IZR, (IZR_Zpower radix2) by lia. rewrite Rmult_assoc, <- bpow_plus.
    f_equal. f_equal. lia. }
  assert (VY : B2R (B754_finite false my ey Hy) = IZR b * bpow radix2 e).
  { unfold b. rewrite EX by lia. reflexivity. }
  assert (VX : B2R (B754_finite sx mx ex Hx) = IZR (if sx then - a else a) * bpow radix2 e).
  { cbn [BinarySingleNaN.B2R]. unfold F2R. cbn [Fnum Fexp].
    pose proof (EX (Z.pos mx) ex ltac:(lia)) as Q. fold a in Q.
    destruct sx; cbn [cond_Zopp]; [|now rewrite Q].
    rewrite (opp_IZR a), Ropp_mult_distr_l_reverse, Q. change (- Z.pos mx)%Z with (Z.neg mx).
    change (IZR (Z.neg mx)) with (- IZR (Z.pos mx)). ring. }
  assert (BX := Hx). assert (BY := Hy).
  unfold SpecFloat.bounded in BX, BY. apply andb_prop in BX, BY. destruct BX as [BX _], BY as [BY _].
  assert (digits_ok : forall m q, SpecFloat.canonical_mantissa 53 1024 m q = true ->
     (Z.pos m < 2 ^ 53)%Z /\ (-1074 <= q)%Z).
  { intros m q h. unfold SpecFloat.canonical_mantissa in h. apply Zeq_bool_eq in h.
    unfold SpecFloat.fexp, SpecFloat.emin in h.
    rewrite Digits.Zpos_digits2_pos in h.
    split; [|lia].
    assert (D : (Digits.Zdigits radix2 (Z.pos m) <= 53)%Z) by lia.
    apply (Digits.Zpower_gt_Zdigits radix2) in D. cbn in D. lia. }
  destruct (digits_ok _ _ BX) as [DX EX'], (digits_ok _ _ BY) as [DY EY'].
  assert (r53 : (r < 2 ^ 53)%Z).
  { destruct (Z.le_ge_cases ex ey).
    - assert (Ee : e = ex) by lia. unfold a in Ra. rewrite Ee, Z.sub_diag, Z.mul_1_r in Ra. lia.
    - assert (Ee : e = ey) by lia. unfold b in Br. rewrite Ee, Z.sub_diag, Z.mul_1_r in Br. lia. }
  pose proof (bpow_gt_0 radix2 e) as pe.
  assert (RES : exists z : Z, (z = if sx then - r else r)%Z /\ fin (frem (B754_finite sx mx ex Hx) (B754_finite false my ey Hy)) /\
     B2R (frem (B754_finite sx mx ex Hx) (B754_finite false my ey Hy)) = IZR z * bpow radix2 e).
  { exists (if sx then - r else r)%Z. split; [reflexivity|].
    cbn [frem]. fold e. fold a. fold b. fold r.
    destruct (Z.eqb_spec r 0) as [E0|E0].
    - rewrite E0. split; [reflexivity|]. destruct sx; cbn; ring.
    - set (z := (if sx then - r else r)%Z).
      pose proof (binary_normalize_correct 53 1024 _ _ mode_NE z e sx) as C. cbv zeta in C.
      change (F2R (Float radix2 z e)) with (IZR z * bpow radix2 e) in C.
      change (round radix2 (SpecFloat.fexp 53 1024) (round_mode mode_NE) (IZR z * bpow radix2 e))
        with (rnd (IZR z * bpow radix2 e)) in C.
      rewrite rnd_fmt in C by (apply fmt_FLT; [unfold z; destruct sx; lia|lia]).
      rewrite Rlt_bool_true in C.
      + destruct C as (C1 & C2 & _). split; assumption.
      + apply Rle_lt_trans with (B2R (B754_finite false my ey Hy)); [|apply B2R_BIG].
        rewrite VY, Rabs_mult, (Rabs_pos_eq (bpow radix2 e)) by lra.
        apply Rmult_le_compat_r; [lra|]. rewrite <- abs_IZR. apply IZR_le. unfold z. destruct sx; lia. }
  destruct RES as (z & Ez & Fz & Vz). rewrite Vz, VX, VY in *.
  assert (DM : (a = b * (a / b) + r)%Z) by (apply Z.div_mod; lia).
  assert (az : (Z.abs z = r)%Z) by (subst z; destruct sx; lia).
  exists (if sx then - (a / b) else a / b)%Z. split; [assumption|]. split; [|split; [|split; [|split]]].
  - rewrite <- Rmult_assoc, <- Rmult_minus_distr_r, <- mult_IZR, <- minus_IZR. f_equal. f_equal.
    subst z. destruct sx; nia.
  - rewrite Rabs_mult, (Rabs_pos_eq (bpow radix2 e)) by lra.
    apply Rmult_lt_compat_r; [lra|]. rewrite <- abs_IZR. apply IZR_lt. lia.
  - rewrite !Rabs_mult, (Rabs_pos_eq (bpow radix2 e)) by lra.
    apply Rmult_le_compat_r; [lra|]. rewrite <- !abs_IZR. apply IZR_le. destruct sx; lia.
  - intros h. apply Rmult_le_pos; [|lra]. apply IZR_le. subst z. destruct sx; [|lia].
    exfalso. pose proof (IZR_lt (- a) 0 ltac:(lia)). nra.
  - intros h. pose proof (IZR_lt 0 a ltac:(lia)). assert (IZR z <= 0); [|nra].
    apply IZR_le. subst z. destruct sx; [lia|]. exfalso. nra.
Qed.

Lemma frem_not_finite (x y : f64) : is_finite x = false -> frem x y = fnan.
Proof. destruct x, y; easy. Qed.

(** ** Small-range variants, convenient with [lra]. *)
Definition HUGE : R := 1000000000000000000000000000000.
Lemma HUGE_ok r : - HUGE <= r <= HUGE -> Rabs r <= bpow radix2 1023.
Proof.
  intros h. apply Rle_trans with HUGE; [now apply Rabs_le|].
  apply Rle_trans with (bpow radix2 200); [|apply bpow_le; lia].
  unfold HUGE. simpl bpow. apply IZR_le. reflexivity || (vm_compute; discriminate).
Qed.
Lemma fadd_S (x y : f64) : fin x -> fin y -> - HUGE <= B2R x + B2R y <= HUGE ->
  B2R (fadd x y) = rnd (B2R x + B2R y) /\ fin (fadd x y).
Proof. intros. apply fadd_R; try assumption. now apply HUGE_ok. Qed.
Lemma fsub_S (x y : f64) : fin x -> fin y -> - HUGE <= B2R x - B2R y <= HUGE ->
  B2R (fsub x y) = rnd (B2R x - B2R y) /\ fin (fsub x y).
Proof. intros. apply fsub_R; try assumption. now apply HUGE_ok. Qed.
Lemma fmul_S (x y : f64) : fin x -> fin y -> - HUGE <= B2R x * B2R y <= HUGE ->
  B2R (fmul x y) = rnd (B2R x * B2R y) /\ fin (fmul x y).
Proof. intros. apply fmul_R; try assumption. now apply HUGE_ok. Qed.
Lemma fdiv_S (x y : f64) : fin x -> B2R y <> 0 -> - HUGE <= B2R x / B2R y <= HUGE ->
  B2R (fdiv x y) = rnd (B2R x / B2R y) /\ fin (fdiv x y).
Proof. intros. apply fdiv_R; try assumption. now apply HUGE_ok. Qed.

(** Rounding error as an interval, for bounded arguments. *)
Definition u53 : R := / 9007199254740992.
Definition eta : R := bpow radix2 (-1075).
Lemma eta_pos : 0 < eta. Proof. apply bpow_gt_0. Qed.
Lemma eta_small : eta <= / 1000000000000000000000000000000000000000000000000000000000000.
Proof. exact tiny_small. Qed.
Lemma rnd_bounds r : 0 <= r -> r - u53 * r - eta <= rnd r <= r + u53 * r + eta.
Proof.
  intros h. pose proof (rnd_err r) as E. rewrite (Rabs_pos_eq r h) in E.
  apply Rabs_le_inv in E. unfold u53, eta. lra.
Qed.
Lemma rnd_bounds_abs r M : Rabs r <= M -> r - u53 * M - eta <= rnd r <= r + u53 * M + eta.
Proof.
  intros h. pose proof (rnd_err r) as E. apply Rabs_le_inv in E. unfold u53, eta. lra.
Qed.

(** Equality of floats. *)
Lemma B2R_eq_nz (x y : f64) : fin x -> fin y -> B2R x = B2R y -> B2R x <> 0 -> x = y.
Proof.
  intros hx hy e n. apply B2R_Bsign_inj; try assumption.
  rewrite !sign_R; try assumption; [now rewrite e|now rewrite <- e].
Qed.
Lemma B2R_eq_abs (x y : f64) : fin x -> fin y -> B2R (fabs x) = B2R (fabs y) -> fabs x = fabs y.
Proof.
  intros hx hy e. apply B2R_Bsign_inj; rewrite ?fabs_fin; try assumption.
  destruct x, y; try discriminate; reflexivity.
Qed.

(** Addition never underflows to zero. *)
Lemma rnd_add_0 (x y : f64) : rnd (B2R x + B2R y) = 0 -> B2R x + B2R y = 0.
Proof.
  apply (round_plus_eq_0 radix2 fexp64 ZnearestE); try apply fmt_B2R.
Qed.
Lemma rnd_sub_0 (x y : f64) : rnd (B2R x - B2R y) = 0 -> B2R x - B2R y = 0.
Proof.
  replace (B2R x - B2R y) with (B2R x + B2R (fneg y)) by (rewrite fneg_R; lra). apply rnd_add_0.
Qed.

Ltac fsmall := unfold HUGE in *; lra.

(** ** Rounding to integers *)
Lemma fround_R (x : f64) : fin x -> B2R (fround x) = IZR (ZnearestA (B2R x)) /\ fin (fround x).
Proof.
  intros h. destruct (Bnearbyint_correct 53 1024 _ mode_NA x) as (A & B & _).
  unfold fround. rewrite A, B. split; [|assumption].
  unfold round, F2R, scaled_mantissa, cexp, FIX_exp. cbn [Fnum Fexp]. simpl bpow. now rewrite !Rmult_1_r.
Qed.
Lemma fround_nn (x : f64) : is_nan x = false -> is_nan (fround x) = false.
Proof.
  intros h. destruct (is_finite x) eqn:F; [now apply fin_not_nan, fround_R|].
  destruct x; try discriminate. reflexivity.
Qed.

Lemma ZnearestA_bounds r : IZR (ZnearestA r) - / 2 <= r <= IZR (ZnearestA r) + / 2.
Proof.
  pose proof (Znearest_half (Zle_bool 0) r) as H. apply Rabs_le_inv in H. lra.
Qed.
Lemma ZnearestA_tie n : (0 < n)%Z -> ZnearestA (IZR n - / 2) = n.
Proof.
  intros h. unfold Znearest.
  assert (F : Zfloor (IZR n - / 2) = (n - 1)%Z).
  { apply Zfloor_imp. rewrite plus_IZR, minus_IZR. lra. }
  rewrite F, minus_IZR. rewrite Rcompare_Eq by lra.
  destruct (Z.leb_spec 0 (n - 1)); [|lia].
  rewrite Zceil_floor_neq, F; [lia|]. rewrite F, minus_IZR. lra.
Qed.
Lemma ZnearestA_ge n r : (0 < n)%Z -> (n <= ZnearestA r)%Z <-> IZR n - / 2 <= r.
Proof.
  intros h. split; intros q.
  - apply IZR_le in q. pose proof (ZnearestA_bounds r). lra.
  - rewrite <- (ZnearestA_tie n h). apply Zrnd_le; [apply valid_rnd_N|assumption].
Qed.

(** [round(x) >= n] and [round(x) < n] for positive integers n. *)
Lemma fround_ge (x c : f64) n : is_nan x = false -> fin c -> B2R c = IZR n -> (0 < n)%Z ->
  (fle c (fround x) = true <-> IZR n - / 2 <= val x).
Proof.
  intros nx fc vc pn. pose proof (fround_nn x nx) as nr. pose proof (fin_not_nan _ fc) as ncc.
  rewrite fle_val by assumption. rewrite (val_fin c), vc by assumption.
  destruct (is_finite x) eqn:F.
  - destruct (fround_R x F) as [R FR]. rewrite !val_fin, R by assumption.
    rewrite <- ZnearestA_ge by assumption. split; [apply le_IZR|apply IZR_le].
  - pose proof BIG_pos. pose proof (B2R_BIG c). rewrite vc in *.
    assert (1 <= IZR n) by (apply (IZR_le 1); lia).
    destruct x as [|[]| |]; try discriminate; unfold fround, Bnearbyint; cbn [val]; lra.
Qed.
Lemma fround_lt (x c : f64) n : is_nan x = false -> fin c -> B2R c = IZR n -> (0 < n)%Z ->
  (flt (fround x) c = true <-> val x < IZR n - / 2).
Proof.
  intros nx fc vc pn. pose proof (fround_ge x c n nx fc vc pn) as G.
  pose proof (fround_nn x nx) as nr. pose proof (fin_not_nan _ fc) as ncc.
  rewrite flt_val by assumption. rewrite fle_val in G by assumption. lra.
Qed.
