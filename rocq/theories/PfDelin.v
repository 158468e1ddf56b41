(** * [delinearized] never decreases, and [argb_from_lstar] orders greys.  Proof file. *)
From Coq Require Import ZArith Bool Reals Lra Lia Psatz String.
From Flocq Require Import Core IEEE754.BinarySingleNaN.
From Verif Require Import F64 MathUtils ColorUtils Spec FloatFacts FloatMono FloatCast PfArgb PfMath PfColor PfContrast PfTones PfLab PfGamma PfLabTrip.
Open Scope string_scope.
Open Scope R_scope.

Section Delin.
Context {lm : Libm} (eps : R) (heps : 0 <= eps <= 1 / 10 ^ 5) (PA : pow_accurate eps lm) (PM : pow_monotone lm).

Definition inv24 : f64 := fdiv (dec "1.0") (dec "2.4").
Lemma inv24_R : fin inv24 /\ / 2.4 - 1 / 10 ^ 15 <= B2R inv24 <= / 2.4 + 1 / 10 ^ 15.
Proof. unfold inv24. fconst (fdiv (dec "1.0") (dec "2.4")). split; [exact F|rewrite V; lra]. Qed.

Lemma rpow_lower24 w t : 0 < w -> 0 < t -> t ^ 12 <= w ^ 5 -> t <= Rpower w (/ 2.4).
Proof.
  intros hw ht h. assert (P : 0 < Rpower w (/ 2.4)) by apply exp_pos.
  assert (E : Rpower w (/ 2.4) ^ 12 = w ^ 5).
  { rewrite <- !Rpower_pow by assumption. rewrite Rpower_mult. f_equal. simpl. lra. }
  destruct (Rle_or_lt t (Rpower w (/ 2.4))) as [|g]; [assumption|exfalso].
  assert (Q : Rpower w (/ 2.4) ^ 12 < t ^ 12).
  { rewrite <- !Rpower_pow by assumption. apply Rlt_Rpower_l; [simpl; lra|lra]. }
  lra.
Qed.

Lemma pow_base (x : f64) w : fin x -> B2R x = w -> 0.003 <= w <= 1 -> forall t, 0 < t -> t ^ 12 <= w ^ 5 ->
  fin (powf x inv24) /\ t * (1 - 1.1 / 10 ^ 5) <= B2R (powf x inv24) <= 10.
Proof using PA heps.
  intros fx Vx bw t ht hp. destruct inv24_R as [FY BY].
  assert (T := rpow_lower24 w t ltac:(lra) ht hp).
  assert (L1 := ln_le_sub w ltac:(lra)). assert (L2 := ln_ge_inv w ltac:(lra)).
  assert (I : / w <= 1000) by (rewrite <- (Rinv_inv 1000); apply Rinv_le; lra).
  destruct (rpow_near w w (B2R inv24) (/ 2.4) (1 / 10 ^ 8)) as [R1 R2]; [lra|lra| |lra|].
  { replace (B2R inv24 * ln w - / 2.4 * ln w) with ((B2R inv24 - / 2.4) * ln w) by ring.
    pose proof (mul_bnd (B2R inv24 - / 2.4) (ln w) (1 / 10 ^ 15) 1000 ltac:(lra) ltac:(lra)). lra. }
  assert (U : Rpower w (/ 2.4) <= 1).
  { replace 1 with (Rpower 1 (/ 2.4)) by (unfold Rpower; rewrite ln_1, Rmult_0_r; apply exp_0). apply Rle_Rpower_l; lra. }
  assert (T2 : 0.003 <= Rpower w (/ 2.4)) by (apply rpow_lower24; [lra|lra|]; apply Rle_trans with (0.003 ^ 5); [lra|apply pow_incr; lra]).
  subst w. destruct (pow_ok eps PA x inv24 fx FY ltac:(lra)) as [FP EP]; [lra|].
  split; [exact FP|]. set (q := Rpower (B2R x) (B2R inv24)) in *. set (p := Rpower (B2R x) (/ 2.4)) in *. clearbody p q.
  assert (Q : t * (1 - 1 / 10 ^ 8) <= q) by (apply Rle_trans with (p * (1 - 1 / 10 ^ 8)); [apply Rmult_le_compat_r; lra|lra]).
  assert (q * (1 - 1 / 10 ^ 5) <= q * (1 - eps)) by (apply Rmult_le_compat_l; lra).
  assert (q * (1 + eps) <= q * (1 + 1 / 10 ^ 5)) by (apply Rmult_le_compat_l; lra). lra.
Qed.

Definition pre (x : f64) : f64 :=
  let n := fdiv x (dec "100.0") in
  fmul (if fle n (dec "0.0031308") then fmul n (dec "12.92") else fsub (fmul (dec "1.055") (powf n inv24)) (dec "0.055")) (dec "255.0").
Lemma delin_pre x : delinearized x = clamp_int 0 255 (rcast (pre x)).
Proof. reflexivity. Qed.

Definition upper (p : f64) : f64 := fmul (fsub (fmul (dec "1.055") p) (dec "0.055")) (dec "255.0").
Lemma upper_mono p q : nn p -> nn q -> val p <= val q -> nn (upper p) /\ nn (upper q) /\ val (upper p) <= val (upper q).
Proof.
  intros np nq h. fconst (dec "1.055"). fconst (dec "0.055"). fconst (dec "255.0"). unfold upper.
  assert (A : forall z, nn z -> nn (fmul (dec "1.055") z)) by (intros; apply fmull_nn; [exact F|lra|assumption]).
  assert (B : forall z, nn z -> nn (fsub (fmul (dec "1.055") z) (dec "0.055"))) by (intros; apply fsub_nn; [exact F0|apply A; assumption]).
  split; [apply fmul_nn; [exact F1|lra|apply B; exact np]|]. split; [apply fmul_nn; [exact F1|lra|apply B; exact nq]|].
  apply fmul_mono; [exact F1|lra|apply B; exact np|apply B; exact nq|].
  apply fsub_mono; [exact F0|apply A; exact np|apply A; exact nq|].
  apply fmull_mono; [exact F|lra|exact np|exact nq|exact h].
Qed.

Lemma upper_ge p t : fin p -> 0 <= t <= 1 -> t <= B2R p <= 10 -> (1.055 * t - 0.055) * 255 - 1 / 10 ^ 6 <= val (upper p).
Proof.
  intros fp ht hp. unfold upper. fconst (dec "1.055"). fconst (dec "0.055"). fconst (dec "255.0").
  destruct (fmul_S (dec "1.055") p F fp ltac:(rewrite V; fsmall)) as [S2 G2].
  pose proof (rnd_near (B2R (dec "1.055") * B2R p) ltac:(rewrite V; lra)) as E2. rewrite <- S2, V in E2.
  set (d := fmul (dec "1.055") p) in *. clearbody d. clear S2.
  destruct (fsub_S d (dec "0.055") G2 F0 ltac:(rewrite V0; fsmall)) as [S3 G3].
  pose proof (rnd_near (B2R d - B2R (dec "0.055")) ltac:(rewrite V0; lra)) as E3. rewrite <- S3, V0 in E3.
  set (f := fsub d (dec "0.055")) in *. clearbody f. clear S3.
  destruct (fmul_S f (dec "255.0") G3 F1 ltac:(rewrite V1; fsmall)) as [S4 G4]. rewrite V1 in S4.
  pose proof (rnd_bounds_abs (B2R f * 255) 3000 ltac:(apply Rabs_le; lra)) as E4. rewrite <- S4 in E4. unfold u53 in E4.
  pose proof eta_small. rewrite val_fin by exact G4. lra.
Qed.

(** pow of anything at least [x0] is at least (a bit less than) t *)
Lemma pow_from (x0 n : f64) w t : fin x0 -> B2R x0 = w -> 0.003 <= w <= 1 -> 0 < t -> t ^ 12 <= w ^ 5 -> fle x0 n = true ->
  nn (powf n inv24) /\ t * (1 - 1.1 / 10 ^ 5) <= B2R (powf x0 inv24) <= 10 /\ fin (powf x0 inv24) /\ val (powf x0 inv24) <= val (powf n inv24).
Proof using PA PM heps.
  intros f0 V0 bw ht hp h. destruct (pow_base x0 w f0 V0 bw t ht hp) as [FP EP].
  assert (M : fle (powf x0 inv24) (powf n inv24) = true).
  { apply PM; [|exact h|]; fconst (dec "0.0").
    - apply flt_fin; [exact F|exact f0|lra].
    - destruct inv24_R. apply flt_fin; [exact F|exact H|lra]. }
  split; [exact (proj2 (fle_not_nan _ _ M))|]. split; [exact EP|]. split; [exact FP|]. exact (fle_true _ _ M).
Qed.

(** the upper branch from [x0] on *)
Lemma upper_from (x0 n : f64) w t : fin x0 -> B2R x0 = w -> 0.003 <= w <= 1 -> 0 < t <= 1 -> t ^ 12 <= w ^ 5 -> fle x0 n = true ->
  nn (powf n inv24) /\ nn (upper (powf n inv24)) /\ (1.055 * (t * (1 - 1.1 / 10 ^ 5)) - 0.055) * 255 - 1 / 10 ^ 6 <= val (upper (powf n inv24)).
Proof using PA PM heps.
  intros f0 V0 bw ht hp h. destruct (pow_from x0 n w t f0 V0 bw ltac:(lra) hp h) as (N & E & F & M). split; [exact N|].
  destruct (upper_mono _ _ (fin_not_nan _ F) N M) as (_ & N2 & M2). split; [exact N2|].
  apply Rle_trans with (2 := M2). apply upper_ge; [exact F|lra|exact E].
Qed.

Lemma delin_mono a b : fle a b = true -> (delinearized a <= delinearized b)%Z.
Proof using PA PM heps.
  intros h. destruct (fle_not_nan _ _ h) as [na nb]. apply fle_true in h. rewrite !delin_pre.
  fconst (dec "100.0"). fconst (dec "0.0031308"). fconst (dec "12.92"). fconst (dec "255.0").
  unfold pre. cbv zeta.
  assert (Na : nn (fdiv a (dec "100.0"))) by (apply fdiv_nn; [exact F|lra|exact na]).
  assert (Nb : nn (fdiv b (dec "100.0"))) by (apply fdiv_nn; [exact F|lra|exact nb]).
  assert (M : val (fdiv a (dec "100.0")) <= val (fdiv b (dec "100.0"))) by (apply fdiv_mono; [exact F|lra|exact na|exact nb|exact h]).
  set (x := fdiv a (dec "100.0")) in *. set (y := fdiv b (dec "100.0")) in *. clearbody x y. clear a b na nb h.
  assert (N0 : nn (dec "0.0031308")) by (apply fin_not_nan; exact F0).
  assert (LOW : forall z, nn z -> nn (fmul (fmul z (dec "12.92")) (dec "255.0"))).
  { intros z nz. apply fmul_nn; [exact F2|lra|]. apply fmul_nn; [exact F1|lra|exact nz]. }
  assert (LM : forall z z', nn z -> nn z' -> val z <= val z' -> val (fmul (fmul z (dec "12.92")) (dec "255.0")) <= val (fmul (fmul z' (dec "12.92")) (dec "255.0"))).
  { intros z z' nz nz' hz. apply fmul_mono; [exact F2|lra|apply fmul_nn; [exact F1|lra|exact nz]|apply fmul_nn; [exact F1|lra|exact nz']|].
    apply fmul_mono; [exact F1|lra|exact nz|exact nz'|exact hz]. }
  assert (T0 : 0.0904 ^ 12 <= B2R (dec "0.0031308") ^ 5) by (rewrite V0; lra).
  apply clamp_int_mono; [lia|].
  destruct (fle x (dec "0.0031308")) eqn:Cx, (fle y (dec "0.0031308")) eqn:Cy.
  - apply rcast_mono; [apply LOW; exact Na|apply LOW; exact Nb|apply LM; assumption].
  - assert (Hy : fle (dec "0.0031308") y = true) by (apply fle_val; [exact N0|exact Nb|]; apply (fle_val_f y _ Nb N0) in Cy; lra).
    destruct (upper_from (dec "0.0031308") y _ 0.0904 F0 eq_refl ltac:(rewrite V0; lra) ltac:(lra) T0 Hy) as (_ & NU & EU).
    apply fle_true in Cx. pose proof (LM x (dec "0.0031308") Na N0 Cx) as EX. change (fmul (fsub (fmul (dec "1.055") (powf y inv24)) (dec "0.055")) (dec "255.0")) with (upper (powf y inv24)).
    set (u := upper (powf y inv24)) in *. clearbody u. pose proof (LOW x Na) as NX. set (w := fmul (fmul x (dec "12.92")) (dec "255.0")) in *. clearbody w.
    fconst (fmul (fmul (dec "0.0031308") (dec "12.92")) (dec "255.0")). rewrite (val_fin _ F3), V3 in EX.
    fconst (dec "10.4"). fconst (dec "10.2").
    apply Z.le_trans with (rcast (dec "10.4")).
    + apply rcast_mono; [exact NX|apply fin_not_nan; exact F4|rewrite (val_fin _ F4), V4; lra].
    + assert (E : rcast (dec "10.4") = rcast (dec "10.2")) by (vm_compute; reflexivity). rewrite E.
      apply rcast_mono; [apply fin_not_nan; exact F5|exact NU|rewrite (val_fin _ F5), V5; lra].
  - exfalso. apply (fle_val_f x _ Na N0) in Cx. apply fle_true in Cy. lra.
  - assert (Hx : fle (dec "0.0031308") x = true) by (apply fle_val; [exact N0|exact Na|]; apply (fle_val_f x _ Na N0) in Cx; lra).
    assert (Hy : fle (dec "0.0031308") y = true) by (apply fle_val; [exact N0|exact Nb|]; apply (fle_val_f y _ Nb N0) in Cy; lra).
    destruct (upper_from (dec "0.0031308") y _ 0.0904 F0 eq_refl ltac:(rewrite V0; lra) ltac:(lra) T0 Hy) as (NPy & _).
    destruct (upper_from (dec "0.0031308") x _ 0.0904 F0 eq_refl ltac:(rewrite V0; lra) ltac:(lra) T0 Hx) as (NPx & _).
    assert (MP : fle (powf x inv24) (powf y inv24) = true).
    { apply PM; [|apply fle_val; assumption|]; fconst (dec "0.0").
      - apply flt_val; [apply fin_not_nan; exact F3|exact Na|]. apply (fle_val_f x _ Na N0) in Cx. rewrite (val_fin _ F0), V0 in Cx. rewrite (val_fin _ F3), V3. lra.
      - destruct inv24_R as [FI BI]. apply flt_fin; [exact F3|exact FI|lra]. }
    destruct (upper_mono _ _ NPx NPy (fle_true _ _ MP)) as (U1 & U2 & U3). apply rcast_mono; assumption.
Qed.

Lemma white l : fle (dec "100.0") l = true -> argb_from_lstar l = 0xFFFFFFFF%Z.
Proof using PA PM heps.
  intros h. pose proof (y_mono_fle _ _ h) as Y. rewrite y_from_lstar_100 in Y.
  unfold argb_from_lstar. set (y := y_from_lstar l) in *. clearbody y. cbv zeta.
  assert (D : delinearized y = 255%Z).
  { rewrite delin_pre. destruct (fle_not_nan _ _ Y) as [_ ny]. apply fle_true in Y.
    unfold pre. cbv zeta. fconst (dec "100.0"). fconst (dec "0.0031308"). fconst (dec "1.0").
    assert (Ny : nn (fdiv y (dec "100.0"))) by (apply fdiv_nn; [exact F|lra|exact ny]).
    assert (M : val (fdiv (dec "100.0") (dec "100.0")) <= val (fdiv y (dec "100.0"))) by (apply fdiv_mono; [exact F|lra|apply fin_not_nan; exact F|exact ny|exact Y]).
    fconst (fdiv (dec "100.0") (dec "100.0")). rewrite (val_fin _ F2), V2 in M.
    set (n := fdiv y (dec "100.0")) in *. clearbody n.
    replace (fle n (dec "0.0031308")) with false by (symmetry; apply fle_val_f; [exact Ny|apply fin_not_nan; exact F0|rewrite (val_fin _ F0), V0; lra]).
    assert (H1 : fle (dec "1.0") n = true) by (apply fle_val; [apply fin_not_nan; exact F1|exact Ny|rewrite (val_fin _ F1), V1; lra]).
    destruct (upper_from (dec "1.0") n _ 1 F1 eq_refl ltac:(rewrite V1; lra) ltac:(lra) ltac:(rewrite V1; lra) H1) as (_ & NU & EU).
    apply (byte_high (upper (powf n inv24)) NU). lra. }
  rewrite D. vm_compute. reflexivity.
Qed.

Lemma lstar_grey_mono a b : fle a b = true -> (argb_from_lstar a <= argb_from_lstar b)%Z.
Proof using PA PM heps.
  intros h. pose proof (delin_mono _ _ (y_mono_fle _ _ h)) as D. unfold argb_from_lstar. cbv zeta.
  pose proof (delinearized_byte (y_from_lstar a)) as Ba. pose proof (delinearized_byte (y_from_lstar b)) as Bb.
  rewrite !argb_from_rgb_sum. rewrite !Z.mod_small by lia. lia.
Qed.
End Delin.

(** For opaque colours the channels are all there is. *)
Lemma xyz_trip_opaque {lm : Libm} eps argb : 0 <= eps <= 1 / 10 ^ 5 -> pow_accurate eps lm -> opaque argb ->
  let '(x, y, z) := xyz_from_argb argb in argb_from_xyz x y z = argb.
Proof.
  intros he PA o. pose proof (xyz_round_trip eps he PA argb) as H. cbv zeta in H. rewrite (proj2 (repack_iff argb) o) in H.
  destruct (xyz_from_argb argb) as [[x y] z]. exact H.
Qed.
Lemma lab_trip_opaque {lm : Libm} eps argb : 0 <= eps <= 1 / 10 ^ 10 -> pow_accurate eps lm -> opaque argb ->
  let '(l, a, b) := lab_from_argb argb in argb_from_lab l a b = argb.
Proof.
  intros he PA o. pose proof (lab_round_trip eps he PA argb) as H. cbv zeta in H. rewrite (proj2 (repack_iff argb) o) in H.
  destruct (lab_from_argb argb) as [[x y] z]. exact H.
Qed.
Lemma lstar_of_black {lm : Libm} : lstar_from_argb 0xFF000000 = dec "0.0".
Proof. apply B2SF_inj. vm_compute. reflexivity. Qed.
