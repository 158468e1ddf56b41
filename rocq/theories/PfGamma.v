(** * The sRGB transfer functions undo each other for an accurate pow.  Proof file. *)
From Coq Require Import ZArith Bool Reals Lra Lia Psatz String List.
From Flocq Require Import Core Relative IEEE754.BinarySingleNaN.
From Verif Require Import F64 MathUtils ColorUtils Contrast Spec SpecTones FloatFacts FloatMono FloatCast PfArgb PfMath PfColor PfContrast PfTones PfLab.
Open Scope string_scope.
Open Scope R_scope.

Lemma rpow_near b w y Y s : 0 < b -> 0 < w -> - s <= y * ln b - Y * ln w <= s -> 0 <= s <= / 2 ->
  Rpower w Y * (1 - s) <= Rpower b y <= Rpower w Y * (1 + 2 * s).
Proof.
  intros hb hw h hs. unfold Rpower. set (u := y * ln b - Y * ln w) in *.
  replace (y * ln b) with (Y * ln w + u) by (unfold u; ring). rewrite exp_plus.
  assert (P : 0 < exp (Y * ln w)) by apply exp_pos. clearbody u.
  destruct (exp_small u ltac:(lra)) as [E1 E2].
  assert (A : Rabs u <= s) by (apply Rabs_le; lra).
  split; apply Rmult_le_compat_l; lra.
Qed.

Lemma ln_near b w r : 0 < w -> 0 <= r <= / 2 -> w * (1 - r) <= b <= w * (1 + r) ->
  0 < b /\ - (2 * r) <= ln b - ln w <= 2 * r.
Proof.
  intros hw hr hb. assert (B : 0 < b) by nra. split; [exact B|].
  replace (ln b - ln w) with (ln (b / w)) by (unfold Rdiv; rewrite ln_mult, ln_Rinv; [ring|lra|lra|apply Rinv_0_lt_compat; lra]).
  set (q := b / w). assert (Q : 1 - r <= q <= 1 + r).
  { unfold q. split; [apply Rmult_le_reg_r with w|apply Rmult_le_reg_r with w]; try lra;
      unfold Rdiv; rewrite Rmult_assoc, Rinv_l by lra; lra. }
  clearbody q. pose proof (ln_le_sub q ltac:(lra)). pose proof (ln_ge_inv q ltac:(lra)).
  assert (/ q <= 1 + 2 * r); [|lra].
  apply Rmult_le_reg_r with q; [lra|]. rewrite Rinv_l by lra. nra.
Qed.

(** Exact linear value of a channel. *)
Definition wR (c : Z) : R := (IZR c / 255 + 0.055) / 1.055.
Definition linR (c : Z) : R := if (c <=? 10)%Z then IZR c / 255 / 12.92 else Rpower (wR c) 2.4.

Lemma rpow_lower w t : 0 < w -> 0 < t -> t ^ 5 <= w ^ 12 -> t <= Rpower w 2.4.
Proof.
  intros hw ht h. assert (P : 0 < Rpower w 2.4) by apply exp_pos.
  assert (E : Rpower w 2.4 ^ 5 = w ^ 12).
  { rewrite <- !Rpower_pow by assumption. rewrite Rpower_mult. f_equal. simpl. lra. }
  destruct (Rle_or_lt t (Rpower w 2.4)) as [|g]; [assumption|exfalso].
  assert (Rpower w 2.4 ^ 5 < t ^ 5); [|lra].
  assert (Q : forall n, (0 < n)%nat -> Rpower w 2.4 ^ n < t ^ n).
  { intros n hn. induction n as [|n IH]; [lia|]. destruct n as [|n]; [simpl; lra|].
    specialize (IH ltac:(lia)). simpl in *. apply Rmult_gt_0_lt_compat; try lra; try (apply Rmult_lt_0_compat; [lra|]); try apply pow_lt; lra. }
  apply Q. lia.
Qed.

Lemma byte_R c : (0 <= c <= 255)%Z -> 0 <= IZR c <= 255.
Proof. intros [a b]. apply IZR_le in a, b. split; assumption. Qed.
Lemma c11_R c : (11 <= c <= 255)%Z -> 11 <= IZR c <= 255.
Proof. intros [a b]. apply IZR_le in a, b. split; assumption. Qed.
Lemma c10_R c : (0 <= c <= 10)%Z -> 0 <= IZR c <= 10.
Proof. intros [a b]. apply IZR_le in a, b. split; assumption. Qed.

Lemma W_bounds c : (11 <= c <= 255)%Z -> 0.0033 <= Rpower (wR c) 2.4 <= 1 /\ 0.093 <= wR c <= 1.
Proof.
  intros hc. apply c11_R in hc. assert (B : 0.093 <= wR c <= 1) by (unfold wR; lra). split; [|exact B].
  split.
  - apply rpow_lower; [lra|lra|]. apply Rle_trans with (0.093 ^ 12); [lra|]. apply pow_incr. lra.
  - unfold Rpower. rewrite <- exp_0. assert (L : ln (wR c) <= 0) by (pose proof (ln_le_sub (wR c) ltac:(lra)); lra).
    destruct (Req_dec (2.4 * ln (wR c)) 0) as [e|n]; [rewrite e; lra|]. left. apply exp_increasing. lra.
Qed.

Lemma linR_range c : (0 <= c <= 255)%Z -> 0 <= linR c <= 1.
Proof.
  intros hc. unfold linR. destruct (Z.leb_spec c 10).
  - assert (I := c10_R c ltac:(lia)). lra.
  - destruct (W_bounds c ltac:(lia)). lra.
Qed.

Section Accurate.
Context {lm : Libm} (eps : R) (heps : 0 <= eps <= 1 / 10 ^ 5) (PA : pow_accurate eps lm).

Lemma pow_ok (x y : f64) : fin x -> fin y -> 0 < B2R x -> / 1000 <= Rpower (B2R x) (B2R y) <= 1000 ->
  fin (powf x y) /\ Rpower (B2R x) (B2R y) * (1 - eps) <= B2R (powf x y) <= Rpower (B2R x) (B2R y) * (1 + eps).
Proof.
  intros fx fy px b. destruct (PA x y fx fy px) as [F E].
  { split.
    - apply Rle_trans with (bpow radix2 (-10)); [apply bpow_le; lia|]. simpl bpow. lra.
    - apply Rle_trans with (bpow radix2 10); [simpl bpow; lra|apply bpow_le; lia]. }
  split; [exact F|]. apply Rabs_le_inv in E. lra.
Qed.

(** [linearized] of a channel is 100 times its exact linear value. *)
Lemma branch_lin : forallb (fun c => Bool.eqb (fle (fdiv (of_Z c) (dec "255.0")) (dec "0.040449936")) (c <=? 10)%Z)
  (map Z.of_nat (seq 0 256)) = true.
Proof. vm_compute. reflexivity. Qed.

Lemma linearized_R c : (0 <= c <= 255)%Z -> fin (linearized c) /\
  100 * linR c * (1 - eps - 1 / 10 ^ 10) - 1 / 10 ^ 10 <= B2R (linearized c) <= 100 * linR c * (1 + eps + 1 / 10 ^ 10) + 1 / 10 ^ 10.
Proof.
  intros hc. unfold linearized, linR. cbv zeta.
  assert (BR : fle (fdiv (of_Z c) (dec "255.0")) (dec "0.040449936") = (c <=? 10)%Z).
  { pose proof branch_lin as B. rewrite forallb_forall in B. apply Bool.eqb_prop. apply B.
    rewrite <- (Z2Nat.id c) by lia. apply in_map. apply in_seq. lia. }
  rewrite BR. destruct (of_Z_R c ltac:(lia)) as [VC FC].
  fconst (dec "255.0"). fconst (dec "12.92"). fconst (dec "100.0"). fconst (dec "0.055"). fconst (dec "1.055"). fconst (dec "2.4").
  assert (BC := byte_R c hc).
  destruct (fdiv_S (of_Z c) (dec "255.0") FC ltac:(lra) ltac:(rewrite VC, V; fsmall)) as [S1 G1]. rewrite VC, V in S1.
  pose proof (rnd_near (IZR c / 255) ltac:(lra)) as E1. rewrite <- S1 in E1. set (n := fdiv (of_Z c) (dec "255.0")) in *.
  clearbody n. clear S1.
  destruct (Z.leb_spec c 10) as [l|l].
  - assert (IC := c10_R c ltac:(lia)).
    destruct (fdiv_S n (dec "12.92") G1 ltac:(lra) ltac:(rewrite V0; fsmall)) as [S2 G2]. rewrite V0 in S2.
    pose proof (rnd_near (B2R n / B2R (dec "12.92")) ltac:(rewrite V0; lra)) as E2. rewrite V0, <- S2 in E2.
    set (m := fdiv n (dec "12.92")) in *. clearbody m. clear S2.
    destruct (fmul_S m (dec "100.0") G2 F1 ltac:(rewrite V1; fsmall)) as [S3 G3]. rewrite V1 in S3.
    pose proof (rnd_near (B2R m * 100) ltac:(lra)) as E3. rewrite <- S3 in E3.
    split; [exact G3|]. assert (0 <= IZR c * eps) by nra. lra.
  - assert (IC := c11_R c ltac:(lia)). destruct (W_bounds c ltac:(lia)) as [WB wB].
    destruct (fadd_S n (dec "0.055") G1 F2 ltac:(rewrite V2; fsmall)) as [S2 G2].
    pose proof (rnd_near (B2R n + B2R (dec "0.055")) ltac:(rewrite V2; lra)) as E2. rewrite <- S2, V2 in E2.
    set (a := fadd n (dec "0.055")) in *. clearbody a. clear S2.
    destruct (fdiv_S a (dec "1.055") G2 ltac:(lra) ltac:(rewrite V3; fsmall)) as [S3 G3].
    pose proof (rnd_near (B2R a / B2R (dec "1.055")) ltac:(rewrite V3; lra)) as E3. rewrite <- S3, V3 in E3.
    set (b := fdiv a (dec "1.055")) in *. clearbody b. clear S3.
    assert (EB : wR c - 3 / 10 ^ 13 <= B2R b <= wR c + 3 / 10 ^ 13) by (unfold wR in *; lra).
    destruct (ln_near (B2R b) (wR c) (4 / 10 ^ 12) ltac:(lra) ltac:(lra) ltac:(lra)) as [PB LB].
    assert (L1 := ln_le_sub (wR c) ltac:(lra)). assert (L2 := ln_ge_inv (wR c) ltac:(lra)).
    assert (I : / wR c <= 11) by (rewrite <- (Rinv_inv 11); apply Rinv_le; lra).
    set (y := B2R (dec "2.4")) in *.
    destruct (rpow_near (B2R b) (wR c) y 2.4 (1 / 10 ^ 10 / 4)) as [R1 R2]; [exact PB|lra| |lra|].
    { replace (y * ln (B2R b) - 2.4 * ln (wR c)) with (y * (ln (B2R b) - ln (wR c)) + (y - 2.4) * ln (wR c)) by ring.
      rewrite V4. lra. }
    set (W := Rpower (wR c) 2.4) in *. clearbody W.
    destruct (pow_ok b (dec "2.4") G3 F4 ltac:(lra) ltac:(fold y; lra)) as [FP EP]. fold y in EP.
    set (p := powf b (dec "2.4")) in *. clearbody p. set (q := Rpower (B2R b) y) in *. clearbody q.
    assert (P1 : W * (1 - eps - 1 / 10 ^ 10) <= B2R p <= W * (1 + eps + 1 / 10 ^ 10)).
    { split.
      - apply Rle_trans with (2 := proj1 EP). apply Rle_trans with (W * (1 - 1 / 10 ^ 10 / 4) * (1 - eps)); [|apply Rmult_le_compat_r; lra].
        rewrite Rmult_assoc. apply Rmult_le_compat_l; lra.
      - apply Rle_trans with (1 := proj2 EP). apply Rle_trans with (W * (1 + 2 * (1 / 10 ^ 10 / 4)) * (1 + eps)); [apply Rmult_le_compat_r; lra|].
        rewrite Rmult_assoc. apply Rmult_le_compat_l; lra. }
    clear EP R1 R2. assert (BP : 0 <= B2R p <= 1.1).
    { assert (0 <= W * (1 - eps - 1 / 10 ^ 10)) by (apply Rmult_le_pos; lra).
      assert (W * (1 + eps + 1 / 10 ^ 10) <= 1 * (1 + eps + 1 / 10 ^ 10)) by (apply Rmult_le_compat_r; lra). lra. }
    destruct (fmul_S p (dec "100.0") FP F1 ltac:(rewrite V1; fsmall)) as [S4 G4]. rewrite V1 in S4.
    pose proof (rnd_near (B2R p * 100) ltac:(lra)) as E4. rewrite <- S4 in E4.
    split; [exact G4|]. lra.
Qed.

(** [delinearized] recovers the channel from any value near 100 times its exact linear value. *)
Lemma delin_robust (x : f64) c : (0 <= c <= 255)%Z -> fin x ->
  100 * linR c * (1 - 1 / 10 ^ 4) - 1 / 10 ^ 5 <= B2R x <= 100 * linR c * (1 + 1 / 10 ^ 4) + 1 / 10 ^ 5 ->
  delinearized x = c.
Proof.
  intros hc fx hx. unfold delinearized. cbv zeta.
  change (to_i64 (fround ?a)) with (rcast a). assert (LR := linR_range c hc).
  fconst (dec "100.0"). fconst (dec "0.0031308"). fconst (dec "12.92"). fconst (dec "1.055"). fconst (dec "0.055"). fconst (dec "255.0").
  destruct (fdiv_S x (dec "100.0") fx ltac:(lra) ltac:(rewrite V; fsmall)) as [S1 G1]. rewrite V in S1.
  pose proof (rnd_near (B2R x / 100) ltac:(lra)) as E1. rewrite <- S1 in E1. set (z := fdiv x (dec "100.0")) in *. clearbody z.
  clear S1. unfold linR in *. destruct (Z.leb_spec c 10) as [l|l].
  - assert (IC := c10_R c ltac:(lia)).
    replace (fle z (dec "0.0031308")) with true by (symmetry; apply fle_fin; [exact G1|exact F0|rewrite V0; lra]).
    destruct (fmul_S z (dec "12.92") G1 F1 ltac:(rewrite V1; fsmall)) as [S2 G2].
    pose proof (rnd_near (B2R z * B2R (dec "12.92")) ltac:(rewrite V1; lra)) as E2. rewrite <- S2, V1 in E2.
    set (d := fmul z (dec "12.92")) in *. clearbody d. clear S2.
    destruct (fmul_S d (dec "255.0") G2 F4 ltac:(rewrite V4; fsmall)) as [S3 G3]. rewrite V4 in S3.
    pose proof (rnd_near (B2R d * 255) ltac:(lra)) as E3. rewrite <- S3 in E3.
    apply byte_near; [exact G3|exact hc|]. apply Rabs_def1; lra.
  - assert (IC := c11_R c ltac:(lia)). destruct (W_bounds c ltac:(lia)) as [WB wB].
    set (W := Rpower (wR c) 2.4) in *.
    replace (fle z (dec "0.0031308")) with false by (symmetry; apply fle_fin_f; [exact G1|exact F0|rewrite V0; lra]).
    set (y := fdiv (dec "1.0") (dec "2.4")) in *. assert (FY : fin y /\ / 2.4 - 1 / 10 ^ 15 <= B2R y <= / 2.4 + 1 / 10 ^ 15).
    { unfold y. fconst (fdiv (dec "1.0") (dec "2.4")). split; [exact F5|rewrite V5; lra]. }
    destruct FY as [FY BY]. clearbody y.
    destruct (ln_near (B2R z) W (1.4 / 10 ^ 4) ltac:(lra) ltac:(lra) ltac:(lra)) as [PZ LZ].
    assert (L1 := ln_le_sub W ltac:(lra)). assert (L2 := ln_ge_inv W ltac:(lra)).
    assert (I : / W <= 1000) by (rewrite <- (Rinv_inv 1000); apply Rinv_le; lra).
    assert (EW : Rpower W (/ 2.4) = wR c).
    { unfold W. rewrite Rpower_mult. replace (2.4 * / 2.4) with 1 by lra. apply Rpower_1. lra. }
    destruct (rpow_near (B2R z) W (B2R y) (/ 2.4) (1.3 / 10 ^ 4)) as [R1 R2]; [exact PZ|lra| |lra|].
    { replace (B2R y * ln (B2R z) - / 2.4 * ln W) with (B2R y * (ln (B2R z) - ln W) + (B2R y - / 2.4) * ln W) by ring.
      pose proof (mul_bnd (B2R y - / 2.4) (ln W) (1 / 10 ^ 15) 1000 ltac:(lra) ltac:(lra)).
      pose proof (mul_bnd (B2R y) (ln (B2R z) - ln W) (0.42) (2 * (1.4 / 10 ^ 4)) ltac:(lra) ltac:(lra)). lra. }
    rewrite EW in R1, R2.
    destruct (pow_ok z y G1 FY PZ ltac:(lra)) as [FP EP]. set (p := powf z y) in *. clearbody p.
    set (q := Rpower (B2R z) (B2R y)) in *. clearbody q.
    assert (P1 : wR c - 2.9 / 10 ^ 4 <= B2R p <= wR c + 2.9 / 10 ^ 4).
    { assert (0 <= q * eps <= 1.1 / 10 ^ 5) by (split; [apply Rmult_le_pos; lra|]; apply Rle_trans with (1.01 * (1 / 10 ^ 5)); [apply Rmult_le_compat; lra|lra]).
      lra. }
    clear EP R1 R2. clearbody W. unfold wR in *.
    destruct (fmul_S (dec "1.055") p F2 FP ltac:(rewrite V2; fsmall)) as [S2 G2].
    pose proof (rnd_near (B2R (dec "1.055") * B2R p) ltac:(rewrite V2; lra)) as E2. rewrite <- S2, V2 in E2.
    set (d := fmul (dec "1.055") p) in *. clearbody d. clear S2.
    destruct (fsub_S d (dec "0.055") G2 F3 ltac:(rewrite V3; fsmall)) as [S3 G3].
    pose proof (rnd_near (B2R d - B2R (dec "0.055")) ltac:(rewrite V3; lra)) as E3. rewrite <- S3, V3 in E3.
    set (f := fsub d (dec "0.055")) in *. clearbody f. clear S3.
    destruct (fmul_S f (dec "255.0") G3 F4 ltac:(rewrite V4; fsmall)) as [S4 G4]. rewrite V4 in S4.
    pose proof (rnd_bounds_abs (B2R f * 255) 300 ltac:(apply Rabs_le; lra)) as E4. rewrite <- S4 in E4. unfold u53 in E4.
    pose proof eta_small.
    apply byte_near; [exact G4|exact hc|]. apply Rabs_def1; lra.
Qed.

Lemma delin_lin c : (0 <= c <= 255)%Z -> delinearized (linearized c) = c.
Proof.
  intros hc. destruct (linearized_R c hc) as [F E]. apply delin_robust; [exact hc|exact F|].
  assert (L := linR_range c hc). set (l := linR c) in *. clearbody l.
  assert (l * eps <= l * (1 / 10 ^ 5)) by (apply Rmult_le_compat_l; lra). lra.
Qed.

Lemma linearized_range c : (0 <= c <= 255)%Z -> fin (linearized c) /\ - / 10 ^ 6 <= B2R (linearized c) <= 100.01.
Proof.
  intros hc. destruct (linearized_R c hc) as [F E]. split; [exact F|].
  assert (L := linR_range c hc). set (l := linR c) in *. clearbody l.
  assert (0 <= l * eps <= l * (1 / 10 ^ 5)) by (split; [apply Rmult_le_pos; lra|apply Rmult_le_compat_l; lra]). lra.
Qed.

(** A value close to [linearized c] is delinearised to [c]. *)
Lemma delin_near (x : f64) c : (0 <= c <= 255)%Z -> fin x ->
  B2R (linearized c) - 5 / 10 ^ 6 <= B2R x <= B2R (linearized c) + 5 / 10 ^ 6 -> delinearized x = c.
Proof.
  intros hc fx hx. destruct (linearized_R c hc) as [F E]. apply delin_robust; [exact hc|exact fx|].
  assert (L := linR_range c hc). set (l := linR c) in *. clearbody l.
  assert (l * eps <= l * (1 / 10 ^ 5)) by (apply Rmult_le_compat_l; lra). lra.
Qed.
End Accurate.

Lemma rnd_far r : -2000 <= r <= 2000 -> r - 1 / 10 ^ 12 <= rnd r <= r + 1 / 10 ^ 12.
Proof.
  intros h. pose proof (rnd_bounds_abs r 2000 ltac:(apply Rabs_le; lra)) as E. pose proof eta_small. unfold u53 in E. lra.
Qed.

Lemma dot_R (a1 a2 a3 b1 b2 b3 : f64) : fin a1 -> fin a2 -> fin a3 -> fin b1 -> fin b2 -> fin b3 ->
  -500 <= B2R a1 * B2R b1 <= 500 -> -500 <= B2R a2 * B2R b2 <= 500 -> -500 <= B2R a3 * B2R b3 <= 500 ->
  let d := fadd (fadd (fmul a1 b1) (fmul a2 b2)) (fmul a3 b3) in
  fin d /\ (B2R a1 * B2R b1 + B2R a2 * B2R b2 + B2R a3 * B2R b3) - 1 / 10 ^ 11 <= B2R d
    <= (B2R a1 * B2R b1 + B2R a2 * B2R b2 + B2R a3 * B2R b3) + 1 / 10 ^ 11.
Proof.
  intros f1 f2 f3 g1 g2 g3 h1 h2 h3. cbv zeta.
  destruct (fmul_S a1 b1 f1 g1 ltac:(unfold HUGE; lra)) as [M1 G1]. pose proof (rnd_far _ ltac:(split; [apply Rle_trans with (2 := proj1 h1)|apply Rle_trans with (1 := proj2 h1)]; lra)) as E1. rewrite <- M1 in E1.
  destruct (fmul_S a2 b2 f2 g2 ltac:(unfold HUGE; lra)) as [M2 G2]. pose proof (rnd_far _ ltac:(split; [apply Rle_trans with (2 := proj1 h2)|apply Rle_trans with (1 := proj2 h2)]; lra)) as E2. rewrite <- M2 in E2.
  destruct (fmul_S a3 b3 f3 g3 ltac:(unfold HUGE; lra)) as [M3 G3]. pose proof (rnd_far _ ltac:(split; [apply Rle_trans with (2 := proj1 h3)|apply Rle_trans with (1 := proj2 h3)]; lra)) as E3. rewrite <- M3 in E3.
  set (p1 := fmul a1 b1) in *. set (p2 := fmul a2 b2) in *. set (p3 := fmul a3 b3) in *. clearbody p1 p2 p3. clear M1 M2 M3.
  set (r1 := B2R a1 * B2R b1) in *. set (r2 := B2R a2 * B2R b2) in *. set (r3 := B2R a3 * B2R b3) in *. clearbody r1 r2 r3.
  destruct (fadd_S p1 p2 G1 G2 ltac:(unfold HUGE; lra)) as [A1 K1]. pose proof (rnd_far (B2R p1 + B2R p2) ltac:(lra)) as D1. rewrite <- A1 in D1.
  set (s := fadd p1 p2) in *. clearbody s. clear A1.
  destruct (fadd_S s p3 K1 G3 ltac:(unfold HUGE; lra)) as [A2 K2]. pose proof (rnd_far (B2R s + B2R p3) ltac:(lra)) as D2. rewrite <- A2 in D2.
  split; [exact K2|]. lra.
Qed.

Section Xyz.
Context {lm : Libm} (eps : R) (heps : 0 <= eps <= 1 / 10 ^ 5) (PA : pow_accurate eps lm).

Lemma channels_bytes argb : (0 <= red_from_argb argb <= 255)%Z /\ (0 <= green_from_argb argb <= 255)%Z /\ (0 <= blue_from_argb argb <= 255)%Z.
Proof using. pose proof (accessors_range argb) as H. clear - H. tauto. Qed.

(** Exact images of the linear channels under the two matrices. *)
Lemma xyz_R (r g b : f64) : fin r -> fin g -> fin b -> -1 <= B2R r <= 101 -> -1 <= B2R g <= 101 -> -1 <= B2R b <= 101 ->
  let '(x, y, z) := matrix_multiply (r, g, b) srgb_to_xyz in
  (fin x /\ fin y /\ fin z) /\
  (0.41233895 * B2R r + 0.35762064 * B2R g + 0.18051042 * B2R b) - 2 / 10 ^ 11 <= B2R x <= (0.41233895 * B2R r + 0.35762064 * B2R g + 0.18051042 * B2R b) + 2 / 10 ^ 11 /\
  (0.2126 * B2R r + 0.7152 * B2R g + 0.0722 * B2R b) - 2 / 10 ^ 11 <= B2R y <= (0.2126 * B2R r + 0.7152 * B2R g + 0.0722 * B2R b) + 2 / 10 ^ 11 /\
  (0.01932141 * B2R r + 0.11916382 * B2R g + 0.95034478 * B2R b) - 2 / 10 ^ 11 <= B2R z <= (0.01932141 * B2R r + 0.11916382 * B2R g + 0.95034478 * B2R b) + 2 / 10 ^ 11.
Proof.
  intros fr fg fb br bg bb. unfold matrix_multiply, srgb_to_xyz, v0, v1, v2. cbn [fst snd].
  fconst (dec "0.41233895"). fconst (dec "0.35762064"). fconst (dec "0.18051042").
  destruct (dot_R r g b _ _ _ fr fg fb F F0 F1) as [Fx Ex]; [rewrite V; lra|rewrite V0; lra|rewrite V1; lra|].
  rewrite V, V0, V1 in Ex.
  fconst (dec "0.2126"). fconst (dec "0.7152"). fconst (dec "0.0722").
  destruct (dot_R r g b _ _ _ fr fg fb F2 F3 F4) as [Fy Ey]; [rewrite V2; lra|rewrite V3; lra|rewrite V4; lra|].
  rewrite V2, V3, V4 in Ey.
  fconst (dec "0.01932141"). fconst (dec "0.11916382"). fconst (dec "0.95034478").
  destruct (dot_R r g b _ _ _ fr fg fb F5 F6 F7) as [Fz Ez]; [rewrite V5; lra|rewrite V6; lra|rewrite V7; lra|].
  rewrite V5, V6, V7 in Ez.
  split; [split; [exact Fx|split; [exact Fy|exact Fz]]|]. clear - Ex Ey Ez br bg bb. lra.
Qed.

(** [argb_from_xyz] of any triple near the exact image of the channels recovers them. *)
Lemma xyz_robust (x y z : f64) cr cg cb d : (0 <= cr <= 255)%Z -> (0 <= cg <= 255)%Z -> (0 <= cb <= 255)%Z ->
  fin x -> fin y -> fin z -> 0 <= d <= 5 / 10 ^ 7 ->
  let r := B2R (linearized cr) in let g := B2R (linearized cg) in let b := B2R (linearized cb) in
  (0.41233895 * r + 0.35762064 * g + 0.18051042 * b) - d <= B2R x <= (0.41233895 * r + 0.35762064 * g + 0.18051042 * b) + d ->
  (0.2126 * r + 0.7152 * g + 0.0722 * b) - d <= B2R y <= (0.2126 * r + 0.7152 * g + 0.0722 * b) + d ->
  (0.01932141 * r + 0.11916382 * g + 0.95034478 * b) - d <= B2R z <= (0.01932141 * r + 0.11916382 * g + 0.95034478 * b) + d ->
  argb_from_xyz x y z = argb_from_rgb cr cg cb.
Proof.
  intros hr hg hb fx fy fz hd r g b ex ey ez.
  destruct (linearized_range eps heps PA cr hr) as [_ Br]. destruct (linearized_range eps heps PA cg hg) as [_ Bg].
  destruct (linearized_range eps heps PA cb hb) as [_ Bb]. fold r in Br. fold g in Bg. fold b in Bb.
  unfold argb_from_xyz, xyz_to_srgb, v0, v1, v2. cbn [fst snd].
  assert (X : -1 <= B2R x <= 101 /\ -1 <= B2R y <= 101 /\ -1 <= B2R z <= 110) by (clearbody r g b; lra). destruct X as (bx & by_ & bz).
  fconst (dec "3.2413774792388685"). fconst (dec "-1.5376652402851851"). fconst (dec "-0.49885366846268053").
  destruct (dot_R _ _ _ x y z F F0 F1 fx fy fz) as [Fr Er]; [rewrite V; lra|rewrite V0; lra|rewrite V1; lra|].
  rewrite V, V0, V1 in Er.
  rewrite (delin_near eps heps PA _ cr hr Fr) by (fold r; clearbody r g b; clear - Er ex ey ez Br Bg Bb hd; lra).
  fconst (dec "-0.9691452513005321"). fconst (dec "1.8758853451067872"). fconst (dec "0.04156585616912061").
  destruct (dot_R _ _ _ x y z F2 F3 F4 fx fy fz) as [Fg Eg]; [rewrite V2; lra|rewrite V3; lra|rewrite V4; lra|].
  rewrite V2, V3, V4 in Eg.
  rewrite (delin_near eps heps PA _ cg hg Fg) by (fold g; clearbody r g b; clear - Eg ex ey ez Br Bg Bb hd; lra).
  fconst (dec "0.05562093689691305"). fconst (dec "-0.20395524564742123"). fconst (dec "1.0571799111220335").
  destruct (dot_R _ _ _ x y z F5 F6 F7 fx fy fz) as [Fb Eb]; [rewrite V5; lra|rewrite V6; lra|rewrite V7; lra|].
  rewrite V5, V6, V7 in Eb.
  rewrite (delin_near eps heps PA _ cb hb Fb) by (fold b; clearbody r g b; clear - Eb ex ey ez Br Bg Bb hd; lra).
  reflexivity.
Qed.

Lemma xyz_round_trip argb : let v := xyz_from_argb argb in
  argb_from_xyz (v0 v) (v1 v) (v2 v) = argb_from_rgb (red_from_argb argb) (green_from_argb argb) (blue_from_argb argb).
Proof.
  cbv zeta. unfold xyz_from_argb. destruct (channels_bytes argb) as (hr & hg & hb).
  set (cr := red_from_argb argb) in *. set (cg := green_from_argb argb) in *. set (cb := blue_from_argb argb) in *. clearbody cr cg cb.
  destruct (linearized_range eps heps PA cr hr) as [Fr Br]. destruct (linearized_range eps heps PA cg hg) as [Fg Bg].
  destruct (linearized_range eps heps PA cb hb) as [Fb Bb].
  pose proof (xyz_R _ _ _ Fr Fg Fb ltac:(lra) ltac:(lra) ltac:(lra)) as X.
  destruct (matrix_multiply _ srgb_to_xyz) as [[x y] z]. unfold v0, v1, v2. cbn [fst snd].
  destruct X as ((fx & fy & fz) & ex & ey & ez).
  apply (xyz_robust x y z cr cg cb (2 / 10 ^ 11) hr hg hb fx fy fz ltac:(lra)); assumption.
Qed.
End Xyz.
