(** * Distances between colours.  Proof file. *)
From Coq Require Import ZArith Bool Reals Lra Lia Psatz String List.
From Flocq Require Import Core Relative IEEE754.BinarySingleNaN.
From Verif Require Import F64 MathUtils ColorUtils ViewingConditions Cam16 Hct Spec SpecCam FloatFacts FloatMono PfArgb PfMath PfTones PfLab PfGamma PfNear PfVc PfRel PfCamTrip PfHct PfCamProps PfUcsB PfUcsC PfUcs SpecAttr.
Open Scope string_scope.
Open Scope R_scope.

Lemma rnd_neg r : rnd (- r) = - rnd r.
Proof. apply round_NE_opp. Qed.

Lemma square_sign (d : f64) : fin (fmul d d) -> Bsign (fmul d d) = false.
Proof.
  intros f. pose proof (Bmult_correct 53 1024 _ _ mode_NE d d) as C. fold (fmul d d) in C.
  destruct (Rlt_bool _ _) in C.
  - destruct C as (_ & _ & C). rewrite C, xorb_nilpotent; [reflexivity|]. destruct (fmul d d); try reflexivity; discriminate f.
  - exfalso. revert f. unfold is_finite. destruct (fmul d d); try discriminate; cbn in C; destruct (xorb _ _); discriminate C.
Qed.

Definition sq (x y : f64) : f64 := fmul (fsub x y) (fsub x y).
Lemma sq_sym (x y : f64) : fin x -> fin y -> -400 <= B2R x <= 400 -> -400 <= B2R y <= 400 -> sq x y = sq y x.
Proof.
  intros fx fy bx by_. unfold sq.
  destruct (fsub_S x y fx fy ltac:(unfold HUGE; lra)) as [E1 F1]. destruct (fsub_S y x fy fx ltac:(unfold HUGE; lra)) as [E2 F2].
  assert (EO : B2R (fsub y x) = - B2R (fsub x y)) by (rewrite E1, E2, <- rnd_neg; f_equal; ring).
  pose proof (rnd_bounds_abs (B2R x - B2R y) 800 ltac:(apply Rabs_le; lra)) as R1. rewrite <- E1 in R1. pose proof eta_small. unfold u53 in R1.
  assert (B1 : -801 <= B2R (fsub x y) <= 801) by lra.
  set (d := fsub x y) in *. set (e := fsub y x) in *. clearbody d e.
  pose proof (mul_bnd _ _ 801 801 B1 B1) as M.
  destruct (fmul_S d d F1 F1 ltac:(unfold HUGE; lra)) as [E3 F3]. destruct (fmul_S e e F2 F2 ltac:(rewrite EO; unfold HUGE; lra)) as [E4 F4].
  apply B2R_Bsign_inj; [exact F3|exact F4| |].
  - rewrite E3, E4, EO. f_equal. ring.
  - rewrite (square_sign d F3), (square_sign e F4). reflexivity.
Qed.

Lemma sq_near (x y : f64) : fin x -> fin y -> -400 <= B2R x <= 400 -> -400 <= B2R y <= 400 ->
  let D := B2R x - B2R y in
  fin (sq x y) /\ 0 <= B2R (sq x y) /\ D * D * (1 - 1 / 10 ^ 15) - 1 / 10 ^ 55 <= B2R (sq x y) <= D * D * (1 + 1 / 10 ^ 15) + 1 / 10 ^ 55 /\ 0 <= D * D <= 640000.
Proof.
  intros fx fy bx by_ D. unfold sq. destruct (fsub_S x y fx fy ltac:(unfold HUGE; lra)) as [E1 F1]. fold D in E1. pose proof eta_small as ETA. pose proof eta_pos as EP.
  pose proof (rnd_err D) as RE. rewrite <- E1 in RE. fold eta in RE. set (d := fsub x y) in *. clearbody d.
  assert (BD : -800 <= D <= 800) by (unfold D; lra). clearbody D.
  pose proof (mul_bnd _ _ 800 800 BD BD) as M. assert (PD : 0 <= D * D) by nra.
  assert (AD : Rabs D * Rabs D = D * D) by (rewrite <- Rabs_mult; apply Rabs_pos_eq; exact PD).
  assert (Aa : 0 <= Rabs D <= 800) by (split; [apply Rabs_pos|apply Rabs_le; lra]).
  set (A := Rabs D) in *.
  assert (DD : - (2.3 / 10 ^ 16 * (D * D) + 1 / 10 ^ 56) <= B2R d * B2R d - D * D <= 2.3 / 10 ^ 16 * (D * D) + 1 / 10 ^ 56).
  { replace (B2R d * B2R d - D * D) with ((B2R d - D) * (2 * D) + (B2R d - D) * (B2R d - D)) by ring.
    assert (T1 : Rabs ((B2R d - D) * (2 * D)) <= (/ 9007199254740992 * A + eta) * (2 * A)).
    { rewrite !Rabs_mult. rewrite (Rabs_pos_eq 2) by lra. fold A. apply Rmult_le_compat_r; [lra|exact RE]. }
    assert (T2 : Rabs ((B2R d - D) * (B2R d - D)) <= (/ 9007199254740992 * A + eta) * (/ 9007199254740992 * A + eta)).
    { rewrite Rabs_mult. apply Rmult_le_compat; try apply Rabs_pos; exact RE. }
    apply Rabs_le_inv in T1. apply Rabs_le_inv in T2.
    assert (X : 0 <= eta * A <= 800 * eta) by (split; [apply Rmult_le_pos; lra|rewrite (Rmult_comm eta); apply Rmult_le_compat_r; lra]).
    assert (Y : 0 <= eta * eta <= eta) by (split; [apply Rmult_le_pos; lra|rewrite <- (Rmult_1_r eta) at 3; apply Rmult_le_compat_l; lra]).
    replace ((/ 9007199254740992 * A + eta) * (2 * A)) with (2 * / 9007199254740992 * (A * A) + 2 * (eta * A)) in T1 by ring.
    replace ((/ 9007199254740992 * A + eta) * (/ 9007199254740992 * A + eta)) with (/ 9007199254740992 * / 9007199254740992 * (A * A) + 2 * / 9007199254740992 * (eta * A) + eta * eta) in T2 by ring.
    rewrite AD in T1, T2. lra. }
  assert (P2 : 0 <= B2R d * B2R d) by nra.
  destruct (fmul_S d d F1 F1 ltac:(unfold HUGE; lra)) as [E3 F3]. pose proof (rnd_bounds _ P2) as R3. rewrite <- E3 in R3. unfold u53 in R3.
  split; [exact F3|]. split; [rewrite E3; apply rnd_ge_0; lra|]. split; [lra|lra].
Qed.

Lemma sum_near (x y z : f64) X Y Z : fin x -> fin y -> fin z -> 0 <= B2R x -> 0 <= B2R y -> 0 <= B2R z ->
  X * (1 - 1 / 10 ^ 15) - 1 / 10 ^ 55 <= B2R x <= X * (1 + 1 / 10 ^ 15) + 1 / 10 ^ 55 ->
  Y * (1 - 1 / 10 ^ 15) - 1 / 10 ^ 55 <= B2R y <= Y * (1 + 1 / 10 ^ 15) + 1 / 10 ^ 55 ->
  Z * (1 - 1 / 10 ^ 15) - 1 / 10 ^ 55 <= B2R z <= Z * (1 + 1 / 10 ^ 15) + 1 / 10 ^ 55 ->
  0 <= X <= 640000 -> 0 <= Y <= 640000 -> 0 <= Z <= 640000 ->
  let s := fadd (fadd x y) z in let S := X + Y + Z in
  fin s /\ 0 <= B2R s /\ S * (1 - 2 / 10 ^ 15) - 1 / 10 ^ 54 <= B2R s <= S * (1 + 2 / 10 ^ 15) + 1 / 10 ^ 54.
Proof.
  intros fx fy fz px py pz hx hy hz bx by_ bz s S. pose proof eta_small as ETA.
  destruct (fadd_S x y fx fy ltac:(unfold HUGE; lra)) as [E1 F1]. pose proof (rnd_bounds (B2R x + B2R y) ltac:(lra)) as R1. rewrite <- E1 in R1. unfold u53 in R1.
  assert (P1 : 0 <= B2R (fadd x y)) by (rewrite E1; apply rnd_ge_0; lra). subst s S. set (t := fadd x y) in *. clearbody t.
  destruct (fadd_S t z F1 fz ltac:(unfold HUGE; lra)) as [E2 F2]. pose proof (rnd_bounds (B2R t + B2R z) ltac:(lra)) as R2. rewrite <- E2 in R2. unfold u53 in R2.
  split; [exact F2|]. split; [rewrite E2; apply rnd_ge_0; lra|lra].
Qed.

Lemma ln_range D : 0.9 / 10 ^ 14 <= D <= 2000 -> -45 <= ln D <= 2000.
Proof.
  intros h. split.
  - rewrite <- (ln_exp (-45)). destruct (Req_dec (exp (-45)) D) as [->|n]; [lra|]. left. apply ln_increasing; [apply exp_pos|].
    assert (exp (-45) <= 0.9 / 10 ^ 14); [|lra]. replace (-45) with (- (45)) by ring. rewrite exp_Ropp.
    assert (K : 1.5 ^ 90 <= exp 45).
    { replace (exp 45) with (exp (/ 2) ^ 90); [apply pow_incr; split; [lra|]; pose proof (exp_ineq1_le (/ 2)); lra|].
      rewrite <- Rpower_pow by apply exp_pos. unfold Rpower. rewrite ln_exp. f_equal. replace (INR 90) with 90 by (simpl; lra). lra. }
    assert (10 ^ 14 / 0.9 <= 1.5 ^ 90) by lra.
    apply Rle_trans with (/ (10 ^ 14 / 0.9)); [apply Rinv_le; lra|lra].
  - pose proof (ln_le_sub D ltac:(lra)). lra.
Qed.

Lemma xyz_mod {lm : Libm} x y : (x mod 0x1000000 = y mod 0x1000000)%Z -> xyz_from_argb x = xyz_from_argb y.
Proof.
  intros e. assert (K : forall z, red_from_argb z = ((z mod 0x1000000) / 65536)%Z /\ green_from_argb z = ((z mod 0x1000000) / 256 mod 256)%Z /\ blue_from_argb z = ((z mod 0x1000000) mod 256)%Z).
  { intros z. rewrite red_div, green_div, blue_div. change 0x1000000%Z with 16777216%Z. rewrite (mod24 z).
    assert (h1 := Z.mod_pos_bound (z / 65536) 256 ltac:(lia)). assert (h2 := Z.mod_pos_bound (z / 256) 256 ltac:(lia)). assert (h3 := Z.mod_pos_bound z 256 ltac:(lia)).
    set (r := ((z / 65536) mod 256)%Z) in *. set (g := ((z / 256) mod 256)%Z) in *. set (b := (z mod 256)%Z) in *. clearbody r g b. clear z e.
    split; [|split].
    - apply Z.div_unique with (g * 256 + b)%Z; lia.
    - assert (E : ((r * 65536 + g * 256 + b) / 256 = r * 256 + g)%Z) by (symmetry; apply Z.div_unique with b; lia). rewrite E. apply Z.mod_unique with r; lia.
    - apply Z.mod_unique with (r * 256 + g)%Z; lia. }
  destruct (K x) as (a1 & a2 & a3). destruct (K y) as (b1 & b2 & b3). unfold xyz_from_argb. cbv zeta. rewrite a1, a2, a3, b1, b2, b3, e. reflexivity.
Qed.

Section Acc.
Context {lm : Libm} (LA : libm_accurate (1 / 10 ^ 14) lm).

Lemma dist_pow (s : f64) S : fin s -> 0 <= B2R s -> 1 / 10 ^ 28 <= S <= 2000000 -> S * (1 - 2 / 10 ^ 15) - 1 / 10 ^ 54 <= B2R s <= S * (1 + 2 / 10 ^ 15) + 1 / 10 ^ 54 ->
  rel (B2R (fmul (dec "1.41") (powf (fsqrt s) (dec "0.63")))) (1.41 * Rpower (sqrt S) 0.63) (1 / 10 ^ 12).
Proof using LA.
  intros fs ps bS hs.
  assert (R0 : rel (B2R s) S (1 / 10 ^ 14)) by (split; lra).
  assert (SB : 1 / 10 ^ 14 <= sqrt S <= 1500) by (split; apply Rsqr_incr_0_var; rewrite ?Rsqr_sqrt by lra; unfold Rsqr; try lra; apply sqrt_pos).
  assert (R1 : frel (fsqrt s) (sqrt S) (1 / 10 ^ 14 + 3 / 10 ^ 16)).
  { destruct (fsqrt_R s fs ps) as [F E]. split; [exact F|]. rewrite E. apply rel_rnd; [apply rel_sqrt; [exact R0|lra]|lra|lra]. }
  set (d := fsqrt s) in *. clearbody d. set (D := sqrt S) in *. clearbody D. clear R0 hs bS ps fs s.
  pose proof (ln_range D ltac:(lra)) as LD. destruct R1 as [fd (_ & R1)].
  fconst (dec "0.63"). fconst (dec "1.41"). set (y := dec "0.63") in *.
  assert (By : - (1 / 10 ^ 16) <= B2R y - 0.63 <= 1 / 10 ^ 16) by lra.
  assert (PD : 0 < Rpower D 0.63) by apply exp_pos.
  assert (B0 : 1 / 10 ^ 14 <= Rpower D 0.63 <= 2000).
  { split.
    - destruct (Rle_or_lt D 1) as [l|l]; [apply Rle_trans with (Rpower D 1); [rewrite Rpower_1 by lra; lra|apply rpow_exp_small; lra]|].
      apply Rle_trans with (Rpower D 0); [rewrite Rpower_O by lra; lra|apply rpow_exp_big; lra].
    - destruct (Rle_or_lt D 1) as [l|l]; [apply Rle_trans with (Rpower D 0); [apply rpow_exp_small; lra|rewrite Rpower_O by lra; lra]|].
      apply Rle_trans with (Rpower D 1); [apply rpow_exp_big; lra|rewrite Rpower_1 by lra; lra]. }
  assert (RY : rel (Rpower D (B2R y)) (Rpower D 0.63) (3 / 10 ^ 13)).
  { split; [exact PD|]. replace (B2R y) with (0.63 + (B2R y - 0.63)) by ring. rewrite Rpower_plus.
    assert (K : 1 - 3 / 10 ^ 13 <= Rpower D (B2R y - 0.63) <= 1 + 3 / 10 ^ 13).
    { unfold Rpower. assert (U : - (2.1 / 10 ^ 13) <= (B2R y - 0.63) * ln D <= 2.1 / 10 ^ 13).
      { pose proof (mul_bnd (B2R y - 0.63) (ln D) (1 / 10 ^ 16) 2000 ltac:(lra) ltac:(lra)). lra. }
      set (u := (B2R y - 0.63) * ln D) in *. clearbody u. pose proof (exp_tight u ltac:(lra)) as ET.
      assert (Rabs u <= 2.1 / 10 ^ 13) by (apply Rabs_le; lra). lra. }
    set (k := Rpower D (B2R y - 0.63)) in *. clearbody k. split; apply Rmult_le_compat_l; lra. }
  assert (RP : rel (Rpower (B2R d) (B2R y)) (Rpower D (B2R y)) (3 / 10 ^ 14)).
  { assert (RD : rel (B2R d) D (1 / 10 ^ 14 + 3 / 10 ^ 16)) by (split; [lra|exact R1]).
    destruct (rel_pow (B2R d) D (1 / 10 ^ 14 + 3 / 10 ^ 16) (B2R y) RD ltac:(lra) ltac:(lra)) as [p h]. split; [exact p|].
    set (z := Rpower (B2R d) (B2R y)) in *. set (w := Rpower D (B2R y)) in *. clearbody z w.
    assert (Y3 : 0 <= 4 * B2R y * (1 / 10 ^ 14 + 3 / 10 ^ 16) <= 3 / 10 ^ 14) by (clear - By; lra).
    assert (X : 0 <= w * (4 * B2R y * (1 / 10 ^ 14 + 3 / 10 ^ 16)) <= w * (3 / 10 ^ 14)) by (clear - Y3 p; split; [apply Rmult_le_pos; lra|apply Rmult_le_compat_l; lra]).
    set (q := 4 * B2R y * (1 / 10 ^ 14 + 3 / 10 ^ 16)) in *. clearbody q. clear - X h. lra. }
  set (P0 := Rpower D 0.63) in *. set (P1 := Rpower D (B2R y)) in *. destruct RY as (_ & RY). destruct RP as (_ & RP).
  assert (R2 : 0.99 / 10 ^ 14 <= Rpower (B2R d) (B2R y) <= 2001) by (clearbody P0 P1; lra).
  destruct (la_pow _ _ LA d y fd F ltac:(lra)) as [fp ep].
  { split.
    - apply Rle_trans with (bpow radix2 (-60)); [apply bpow_le; lia|]. change (bpow radix2 (-60)) with (/ 1152921504606846976). clear - R2. lra.
    - apply Rle_trans with (bpow radix2 20); [|apply bpow_le; lia]. change (bpow radix2 20) with 1048576. clear - R2. lra. }
  apply Rabs_le_inv in ep. set (p := powf d y) in *. clearbody p. set (P2 := Rpower (B2R d) (B2R y)) in *. clearbody P0 P1 P2.
  assert (RQ : P0 * (1 - 4 / 10 ^ 13) <= B2R p <= P0 * (1 + 4 / 10 ^ 13)) by lra.
  assert (Q : 0 <= B2R (dec "1.41") * B2R p <= 3000) by (rewrite V0; lra).
  destruct (fmul_S (dec "1.41") p F0 fp ltac:(unfold HUGE; lra)) as [E4 F4]. pose proof (rnd_bounds _ (proj1 Q)) as R4. rewrite <- E4 in R4. rewrite V0 in R4. unfold u53 in R4. pose proof eta_small as ETA.
  split; [lra|]. lra.
Qed.

Lemma dist_zero (s : f64) : fin s -> B2R s = 0 -> B2R (fmul (dec "1.41") (powf (fsqrt s) (dec "0.63"))) = 0.
Proof using LA.
  intros f e. fconst (dec "0.63"). fconst (dec "1.41").
  pose proof (zero_sqrt s (conj f e)) as Z. pose proof (zero_pow (LA13 LA) _ (dec "0.63") Z F ltac:(lra)) as Z1. exact (proj2 (zero_mul_r (dec "1.41") _ F0 Z1)).
Qed.

Definition dsum (a b : cam16) : R :=
  let dj := B2R (c_jstar a) - B2R (c_jstar b) in let da := B2R (c_astar a) - B2R (c_astar b) in let db := B2R (c_bstar a) - B2R (c_bstar b) in
  dj * dj + da * da + db * db.

Lemma distance_form a b : cam16_distance a b = fmul (dec "1.41") (powf (fsqrt (fadd (fadd (sq (c_jstar a) (c_jstar b)) (sq (c_astar a) (c_astar b))) (sq (c_bstar a) (c_bstar b)))) (dec "0.63")).
Proof using. reflexivity. Qed.

Lemma distance_sym a b : ucs_range a -> ucs_range b -> cam16_distance a b = cam16_distance b a.
Proof using.
  intros ((f1 & b1) & (f2 & b2) & (f3 & b3)) ((g1 & c1) & (g2 & c2) & (g3 & c3)). rewrite !distance_form.
  rewrite (sq_sym (c_jstar a)), (sq_sym (c_astar a)), (sq_sym (c_bstar a)) by (assumption || lra). reflexivity.
Qed.

Lemma distance_near a b : ucs_range a -> ucs_range b ->
  (dsum a b = 0 -> B2R (cam16_distance a b) = 0) /\
  (1 / 10 ^ 28 <= dsum a b -> rel (B2R (cam16_distance a b)) (1.41 * Rpower (ucs_length a b) 0.63) (1 / 10 ^ 12)).
Proof using LA.
  intros ((f1 & b1) & (f2 & b2) & (f3 & b3)) ((g1 & c1) & (g2 & c2) & (g3 & c3)). rewrite distance_form.
  destruct (sq_near (c_jstar a) (c_jstar b) f1 g1 ltac:(lra) ltac:(lra)) as (h1 & p1 & n1 & m1). destruct (sq_near (c_astar a) (c_astar b) f2 g2 ltac:(lra) ltac:(lra)) as (h2 & p2 & n2 & m2).
  destruct (sq_near (c_bstar a) (c_bstar b) f3 g3 ltac:(lra) ltac:(lra)) as (h3 & p3 & n3 & m3).
  destruct (sum_near _ _ _ _ _ _ h1 h2 h3 p1 p2 p3 n1 n2 n3 m1 m2 m3) as (hs & ps & ns). cbv zeta in *.
  change (ucs_length a b) with (sqrt (dsum a b)). unfold dsum in *. cbv zeta in *.
  split.
  - intros e. apply dist_zero; [exact hs|].
    assert (Z : forall x y : f64, fin x -> fin y -> (B2R x - B2R y) * (B2R x - B2R y) = 0 -> zero (sq x y)).
    { intros x y fx fy q. assert (B2R x = B2R y) by (apply Rmult_integral in q; lra). unfold sq.
      destruct (fsub_S x y fx fy ltac:(rewrite H, Rminus_diag_eq by reflexivity; unfold HUGE; lra)) as [E1 F1]. rewrite H, Rminus_diag_eq, rnd_0 in E1 by reflexivity.
      apply zero_mul_l; [split; assumption|exact F1]. }
    apply zero_add; [apply zero_add|]; apply Z; try assumption; lra.
  - intros big. apply dist_pow; [exact hs|exact ps|lra|exact ns].
Qed.

Definition opaque (argb : Z) : Z := (0xFF000000 + argb mod 0x1000000)%Z.
Lemma close_same x y a b : cam16_from_int x = Ok a -> cam16_from_int y = Ok b -> dsum a b < 1 / 10 ^ 28 -> (x mod 0x1000000 = y mod 0x1000000)%Z.
Proof using LA.
  intros Ha Hb h. destruct (int_in_range LA x a Ha) as ((f1 & b1) & (f2 & b2) & (f3 & b3)). destruct (int_in_range LA y b Hb) as ((g1 & c1) & (g2 & c2) & (g3 & c3)).
  unfold dsum in h. cbv zeta in h.
  assert (K : forall u v w, u * u + v * v + w * w < 1 / 10 ^ 28 -> Rabs u <= 1 / 10 ^ 14).
  { intros u v w q. apply Rsqr_incr_0_var; [|lra]. rewrite <- Rsqr_abs. unfold Rsqr. assert (0 <= v * v) by nra. assert (0 <= w * w) by nra. lra. }
  set (dj := B2R (c_jstar a) - B2R (c_jstar b)) in *. set (da := B2R (c_astar a) - B2R (c_astar b)) in *. set (db := B2R (c_bstar a) - B2R (c_bstar b)) in *.
  pose proof (K dj da db h) as k1. pose proof (K da dj db ltac:(lra)) as k2. pose proof (K db dj da ltac:(lra)) as k3.
  destruct (ucs_total LA x) as (a' & Ea & Ta). rewrite Ha in Ea. apply ok_inj in Ea. subst a'.
  destruct (ucs_total LA y) as (b' & Eb & Tb). rewrite Hb in Eb. apply ok_inj in Eb. subst b'.
  assert (D : B2R (c_jstar a) <> 0 \/ (B2R (c_jstar a) = 0 /\ B2R (c_jstar b) = 0) \/ B2R (c_jstar b) <> 0).
  { destruct (Req_dec (B2R (c_jstar a)) 0); [|tauto]. destruct (Req_dec (B2R (c_jstar b)) 0); tauto. }
  assert (E : Ok (0xFF000000 + x mod 0x1000000)%Z = Ok (0xFF000000 + y mod 0x1000000)%Z).
  { destruct D as [n|[(e1 & e2)|n]].
    - rewrite <- Tb. symmetry. apply (ucs_stable LA x a); try assumption; [intros q; destruct (n q)| | |]; rewrite Rabs_minus_sym; [exact k1|apply Rle_trans with (1 := k2); lra|apply Rle_trans with (1 := k3); lra].
    - rewrite <- Tb. symmetry. apply (ucs_stable LA x a); try assumption; [intros _; exact e2| | |]; rewrite Rabs_minus_sym; [exact k1|apply Rle_trans with (1 := k2); lra|apply Rle_trans with (1 := k3); lra].
    - rewrite <- Ta. apply (ucs_stable LA y b); try assumption; [intros q; destruct (n q)|apply Rle_trans with (1 := k2); lra|apply Rle_trans with (1 := k3); lra]. }
  apply ok_inj in E. lia.
Qed.

Lemma distances x y a b : cam16_from_int x = Ok a -> cam16_from_int y = Ok b ->
  cam16_distance a b = cam16_distance b a /\
  (B2R (cam16_distance a b) = 0 <-> (x mod 0x1000000 = y mod 0x1000000)%Z) /\
  ((x mod 0x1000000)%Z <> (y mod 0x1000000)%Z -> 1 / 10 ^ 14 <= ucs_length a b /\ rel (B2R (cam16_distance a b)) (1.41 * Rpower (ucs_length a b) 0.63) (1 / 10 ^ 12)).
Proof using LA.
  intros Ha Hb. pose proof (int_in_range LA x a Ha) as Ra. pose proof (int_in_range LA y b Hb) as Rb.
  destruct (distance_near a b Ra Rb) as [Z N]. split; [exact (distance_sym a b Ra Rb)|].
  assert (FAR : (x mod 0x1000000)%Z <> (y mod 0x1000000)%Z -> 1 / 10 ^ 28 <= dsum a b).
  { intros n. apply Rnot_lt_le. intros q. exact (n (close_same x y a b Ha Hb q)). }
  split.
  - split.
    + intros e. destruct (Z.eq_dec (x mod 0x1000000) (y mod 0x1000000)) as [q|q]; [exact q|]. exfalso. destruct (N (FAR q)) as (p & n). rewrite e in n.
      assert (0 < 1.41 * Rpower (ucs_length a b) 0.63 * (1 - 1 / 10 ^ 12)) by (apply Rmult_lt_0_compat; lra). lra.
    + intros e. apply Z. assert (EQ : a = b).
      { assert (cam16_from_int x = cam16_from_int y); [|congruence]. unfold cam16_from_int. destruct s_rgb as [vc|]; [|reflexivity]. cbn [bind]. unfold cam16_from_int_in.
        assert (X : xyz_from_argb x = xyz_from_argb y); [|rewrite X; reflexivity]. apply xyz_mod. exact e. }
      subst b. unfold dsum. cbv zeta. rewrite !Rminus_diag_eq by reflexivity. ring.
  - intros n. split; [|exact (N (FAR n))]. change (ucs_length a b) with (sqrt (dsum a b)). apply Rsqr_incr_0_var; [|apply sqrt_pos]. pose proof (FAR n). rewrite Rsqr_sqrt by lra. unfold Rsqr. lra.
Qed.

Lemma distance_formula x y a b : cam16_from_int x = Ok a -> cam16_from_int y = Ok b -> (x mod 0x1000000)%Z <> (y mod 0x1000000)%Z ->
  1 / 10 ^ 14 <= ucs_length a b /\
  Rabs (B2R (cam16_distance a b) - 1.41 * Rpower (ucs_length a b) 0.63) <= 1.41 * Rpower (ucs_length a b) 0.63 / 10 ^ 12.
Proof using LA.
  intros Ha Hb n. destruct (distances x y a b Ha Hb) as (_ & _ & H). destruct (H n) as [h (p & r)]. split; [exact h|]. apply Rabs_le.
  set (t := 1.41 * Rpower (ucs_length a b) 0.63) in *. clearbody t. lra.
Qed.

Lemma two_colours x y : exists a b, cam16_from_int x = Ok a /\ cam16_from_int y = Ok b.
Proof using LA. destruct (int_ok LA x) as [a Ea]. destruct (int_ok LA y) as [b Eb]. exists a, b. split; assumption. Qed.

Lemma distance_apart x y a b : cam16_from_int x = Ok a -> cam16_from_int y = Ok b -> (B2R (cam16_distance a b) = 0 <-> (x mod 0x1000000 = y mod 0x1000000)%Z).
Proof using LA. intros Ha Hb. destruct (distances x y a b Ha Hb) as (_ & H & _). exact H. Qed.
Lemma distance_swap x y a b : cam16_from_int x = Ok a -> cam16_from_int y = Ok b -> cam16_distance a b = cam16_distance b a.
Proof using LA. intros Ha Hb. destruct (distances x y a b Ha Hb) as (H & _). exact H. Qed.
End Acc.
