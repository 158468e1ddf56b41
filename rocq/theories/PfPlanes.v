(** * The critical planes of the solver and its delinearisation, for an accurate pow.  Proof file. *)
From Coq Require Import ZArith Bool Reals Lra Lia Psatz String List.
From Flocq Require Import Core IEEE754.BinarySingleNaN.
From Verif Require Import F64 MathUtils ColorUtils ViewingConditions Cam16 HctSolver Spec FloatFacts FloatMono FloatCast PfArgb PfMath PfColor PfContrast PfTones PfLab PfGamma PfDelin PfScore.
Import ListNotations.
Open Scope string_scope.
Open Scope R_scope.

(** Exact linear value (0 to 1) of the half-integer channel value m + 1/2. *)
Definition hwR (m : Z) : R := ((IZR m + / 2) / 255 + 0.055) / 1.055.
Definition planeR (m : Z) : R := if (m <=? 9)%Z then (IZR m + / 2) / 255 / 12.92 else Rpower (hwR m) 2.4.
Definition kap (m : Z) : R := if (m <=? 9)%Z then 1 / 10 ^ 13 else 2 / 10 ^ 11.

Lemma rpow_upper w t : 0 < w -> 0 < t -> w ^ 12 <= t ^ 5 -> Rpower w 2.4 <= t.
Proof.
  intros hw ht h. assert (P : 0 < Rpower w 2.4) by apply exp_pos.
  assert (E : Rpower w 2.4 ^ 5 = w ^ 12).
  { rewrite <- !Rpower_pow by assumption. rewrite Rpower_mult. f_equal. simpl. lra. }
  destruct (Rle_or_lt (Rpower w 2.4) t) as [|g]; [assumption|exfalso].
  assert (Q : t ^ 5 < Rpower w 2.4 ^ 5).
  { rewrite <- !Rpower_pow by assumption. apply Rlt_Rpower_l; [simpl; lra|lra]. }
  lra.
Qed.

Lemma frac_lower n e A D : 0 < e -> 0 < D -> A ^ 5 * e ^ 12 <= n ^ 12 * D ^ 5 -> (A / D) ^ 5 <= (n / e) ^ 12.
Proof.
  intros he hD h. assert (E : 0 < e ^ 12) by (apply pow_lt; lra). assert (F : 0 < D ^ 5) by (apply pow_lt; lra).
  unfold Rdiv. rewrite !Rpow_mult_distr, !pow_inv. set (x := A ^ 5) in *. set (y := n ^ 12) in *. set (u := e ^ 12) in *. set (v := D ^ 5) in *.
  clearbody x y u v. apply Rmult_le_reg_r with (u * v); [apply Rmult_lt_0_compat; lra|].
  replace (x * / v * (u * v)) with (x * u) by (field; lra). replace (y * / u * (u * v)) with (y * v) by (field; lra). exact h.
Qed.
Lemma frac_upper n e A D : 0 < e -> 0 < D -> n ^ 12 * D ^ 5 <= A ^ 5 * e ^ 12 -> (n / e) ^ 12 <= (A / D) ^ 5.
Proof.
  intros he hD h. assert (E : 0 < e ^ 12) by (apply pow_lt; lra). assert (F : 0 < D ^ 5) by (apply pow_lt; lra).
  unfold Rdiv. rewrite !Rpow_mult_distr, !pow_inv. set (x := A ^ 5) in *. set (y := n ^ 12) in *. set (u := e ^ 12) in *. set (v := D ^ 5) in *.
  clearbody x y u v. apply Rmult_le_reg_r with (u * v); [apply Rmult_lt_0_compat; lra|].
  replace (x * / v * (u * v)) with (x * u) by (field; lra). replace (y * / u * (u * v)) with (y * v) by (field; lra). exact h.
Qed.

(** ** The table *)
Definition plane_check (m : Z) (p : f64) : bool :=
  match B2SF p with
  | SpecFloat.S754_finite false mant (Zneg k) =>
      let d := (2 ^ Zpos k)%Z in
      let a := Zpos mant in
      if (m <=? 9)%Z then
        let lhs := (a * 658920 * 10 ^ 15)%Z in
        let rhs := ((2 * m + 1) * 10000 * d)%Z in
        (rhs * (10 ^ 15 - 1) <=? lhs)%Z && (lhs <=? rhs * (10 ^ 15 + 1))%Z
      else
        let c := Z.shiftl ((40 * m + 581) ^ 12 * 9765625) (5 * Zpos k + 10)%Z in
        let x := (2411190793574749699868207333899670437295870570721 * a ^ 5)%Z in
        let q := ((c - x) * 1000000000000000)%Z in
        (-4 * x <=? q)%Z && (q <=? 5 * x)%Z
  | _ => false
  end.

Fixpoint planes_check (m : Z) (l : list f64) : bool :=
  match l with [] => true | p :: l' => plane_check m p && planes_check (m + 1) l' end.

Lemma planes_checked : planes_check 0 critical_planes = true.
Proof. vm_compute. reflexivity. Qed.

Lemma planes_nth l : forall m0, planes_check m0 l = true -> forall i p, nth_error l i = Some p -> plane_check (m0 + Z.of_nat i) p = true.
Proof.
  induction l as [|q l IH]; intros m0 h i p hi; [destruct i; discriminate|].
  cbn [planes_check] in h. apply andb_prop in h. destruct h as [h1 h2]. destruct i as [|i]; cbn [nth_error] in hi.
  - injection hi as ->. now rewrite Z.add_0_r.
  - replace (m0 + Z.of_nat (S i))%Z with (m0 + 1 + Z.of_nat i)%Z by lia. now apply IH.
Qed.

Lemma planes_len : List.length critical_planes = 255%nat.
Proof. reflexivity. Qed.

Lemma plane_value m p : (0 <= m <= 254)%Z -> plane_check m p = true ->
  fin p /\ 100 * planeR m * (1 - 2 / 10 ^ 15) <= B2R p <= 100 * planeR m * (1 + 2 / 10 ^ 15).
Proof.
  intros hm h. unfold plane_check in h. destruct (B2SF p) as [| | |sg mant e] eqn:E; try discriminate.
  destruct sg; [discriminate|]. destruct e as [|?|k]; try discriminate.
  assert (F : fin p) by (rewrite (fin_of_SF p _ E); reflexivity). split; [exact F|].
  assert (V : B2R p = IZR (Zpos mant) / IZR (2 ^ Zpos k)).
  { rewrite (B2R_of_SF p _ E). unfold SF2R, F2R. cbn [cond_Zopp Fnum Fexp]. unfold bpow. reflexivity. }
  assert (D0 : (0 < 2 ^ Zpos k)%Z) by (apply Z.pow_pos_nonneg; lia). apply IZR_lt in D0.
  assert (A0 : 0 < IZR (Zpos mant)) by (apply IZR_lt; reflexivity).
  unfold planeR, hwR. cbv zeta in h. change (10 ^ 15 - 1)%Z with 999999999999999%Z in h. change (10 ^ 15 + 1)%Z with 1000000000000001%Z in h.
  replace (Z.shiftl ((40 * m + 581) ^ 12 * 9765625) (5 * Zpos k + 10))%Z with ((40 * m + 581) ^ 12 * (10000000000 * (2 ^ Zpos k) ^ 5))%Z in h
    by (rewrite Z.shiftl_mul_pow2, Z.pow_add_r by lia; rewrite <- Z.pow_mul_r by lia; replace (Zpos k * 5)%Z with (5 * Zpos k)%Z by lia; change (2 ^ 10)%Z with 1024%Z; ring).
  change 2411190793574749699868207333899670437295870570721%Z with (10761 ^ 12)%Z in h.
  destruct (Z.leb_spec m 9) as [l|l].
  - apply andb_prop in h. destruct h as [h1 h2]. apply Z.leb_le, IZR_le in h1, h2.
    rewrite !mult_IZR, ?plus_IZR, ?minus_IZR, ?mult_IZR in h1, h2.
    set (a := IZR (Zpos mant)) in *. set (d := IZR (2 ^ Zpos k)) in *. set (x := IZR m) in *.
    assert (X : 0 <= x) by (apply (IZR_le 0); lia). clearbody a d x.
    change (IZR (10 ^ 15)) with 1000000000000000 in h1, h2.
    set (q := B2R p) in *. assert (AD : a = q * d) by (rewrite V; field; lra). clearbody q. subst a.
    assert (Q1 : (2 * x + 1) * 10000 * (1000000000000000 - 1) <= q * 658920 * 1000000000000000).
    { apply Rmult_le_reg_r with d; [lra|]. lra. }
    assert (Q2 : q * 658920 * 1000000000000000 <= (2 * x + 1) * 10000 * (1000000000000000 + 1)).
    { apply Rmult_le_reg_r with d; [lra|]. lra. }
    clear - Q1 Q2 X. lra.
  - apply andb_prop in h. destruct h as [h1 h2]. apply Z.leb_le, IZR_le in h1, h2.
    replace (5 * (10761 ^ 12 * Zpos mant ^ 5))%Z with (10761 ^ 12 * Zpos mant ^ 5 * 5)%Z in h2 by ring.
    rewrite !mult_IZR, minus_IZR, !mult_IZR in h1, h2. change (?u ^ 5)%Z with (u ^ Z.of_nat 5)%Z in h1, h2. change 12%Z with (Z.of_nat 12) in h1, h2.
    rewrite <- !pow_IZR in h1, h2. rewrite ?plus_IZR, ?mult_IZR in h1, h2.
    set (a := IZR (Zpos mant)) in *. set (d := IZR (2 ^ Zpos k)) in *. set (x := IZR m) in *.
    assert (X : 0 <= x) by (apply (IZR_le 0); lia). clearbody a d x.
    assert (W : ((x + / 2) / 255 + 0.055) / 1.055 = (40 * x + 581) / 10761) by lra.
    rewrite W. set (n := 40 * x + 581) in *. assert (N : 0 < n) by (unfold n; lra). clearbody n.
    assert (Y0 : 0 < a ^ 5 * 10761 ^ 12) by (apply Rmult_lt_0_compat; apply pow_lt; lra).
    assert (Z0 : n ^ 12 * (10000000000 * d ^ 5) = n ^ 12 * (100 * d) ^ 5) by (rewrite (Rpow_mult_distr 100 d); lra). rewrite Z0 in h1, h2. clear Z0.
    assert (P1 : a * (1 - 1 / 10 ^ 15) / (100 * d) <= Rpower (n / 10761) 2.4).
    { apply rpow_lower; [apply Rdiv_lt_0_compat; lra|apply Rdiv_lt_0_compat; [apply Rmult_lt_0_compat; lra|lra]|].
      apply frac_lower; [lra|apply Rmult_lt_0_compat; lra|]. rewrite (Rpow_mult_distr a).
      set (u := n ^ 12 * (100 * d) ^ 5) in *. clearbody u. set (y := a ^ 5) in *. clearbody y. set (v := 10761 ^ 12) in *. clearbody v.
      apply Rle_trans with (y * v * (1 - 4 / 10 ^ 15)); [|lra]. replace (y * (1 - 1 / 10 ^ 15) ^ 5 * v) with (y * v * (1 - 1 / 10 ^ 15) ^ 5) by ring. apply Rmult_le_compat_l; lra. }
    assert (P2 : Rpower (n / 10761) 2.4 <= a * (1 + 1 / 10 ^ 15) / (100 * d)).
    { apply rpow_upper; [apply Rdiv_lt_0_compat; lra|apply Rdiv_lt_0_compat; [apply Rmult_lt_0_compat; lra|lra]|].
      apply frac_upper; [lra|apply Rmult_lt_0_compat; lra|]. rewrite (Rpow_mult_distr a).
      set (u := n ^ 12 * (100 * d) ^ 5) in *. clearbody u. set (y := a ^ 5) in *. clearbody y. set (v := 10761 ^ 12) in *. clearbody v.
      apply Rle_trans with (y * v * (1 + 5 / 10 ^ 15)); [lra|]. replace (y * (1 + 1 / 10 ^ 15) ^ 5 * v) with (y * v * (1 + 1 / 10 ^ 15) ^ 5) by ring. apply Rmult_le_compat_l; lra. }
    set (r := Rpower (n / 10761) 2.4) in *. clearbody r. clear h1 h2 Y0.
    replace (a * (1 - 1 / 10 ^ 15) / (100 * d)) with (B2R p * ((1 - 1 / 10 ^ 15) / 100)) in P1 by (rewrite V; field; lra).
    replace (a * (1 + 1 / 10 ^ 15) / (100 * d)) with (B2R p * ((1 + 1 / 10 ^ 15) / 100)) in P2 by (rewrite V; field; lra).
    assert (0 < B2R p) by (rewrite V; apply Rdiv_lt_0_compat; lra). lra.
Qed.

Lemma plane_index m : (0 <= m <= 254)%Z -> exists p, index critical_planes m = Ok p /\ fin p /\
  100 * planeR m * (1 - 2 / 10 ^ 15) <= B2R p <= 100 * planeR m * (1 + 2 / 10 ^ 15).
Proof.
  intros hm. destruct (nth_error critical_planes (Z.to_nat m)) as [p|] eqn:E.
  - exists p. split.
    + unfold index. destruct (Z.ltb_spec m 0); [lia|]. rewrite E. reflexivity.
    + apply plane_value; [exact hm|]. pose proof (planes_nth critical_planes 0 planes_checked _ _ E) as H.
      rewrite Z2Nat.id in H by lia. exact H.
  - exfalso. apply nth_error_None in E. rewrite planes_len in E. lia.
Qed.

(** ** The half-integer grid in the delinearised scale *)
Lemma hw_range m : (10 <= m <= 254)%Z -> 0.09 <= hwR m <= 1.
Proof. intros [a b]. apply IZR_le in a, b. unfold hwR. lra. Qed.

Lemma planeR_ln m : (10 <= m)%Z -> ln (planeR m) = 2.4 * ln (hwR m).
Proof.
  intros h. unfold planeR. destruct (Z.leb_spec m 9); [lia|]. unfold Rpower. apply ln_exp.
Qed.

Lemma planeR_pos m : (0 <= m)%Z -> 0 < planeR m.
Proof.
  intros h. unfold planeR. destruct (Z.leb_spec m 9); [|apply exp_pos]. apply IZR_le in h. lra.
Qed.

Lemma planeR_lin m : (0 <= m <= 9)%Z -> planeR m = (IZR m + / 2) / 255 / 12.92.
Proof. intros h. unfold planeR. destruct (Z.leb_spec m 9); [reflexivity|lia]. Qed.

Lemma hw_inc m n : (m < n)%Z -> hwR m + / 300 <= hwR n.
Proof. intros h. assert (IZR m + 1 <= IZR n) by (rewrite <- plus_IZR; apply IZR_le; lia). unfold hwR. lra. Qed.

Lemma rpow24_1 : Rpower 1 2.4 = 1.
Proof. unfold Rpower. rewrite ln_1, Rmult_0_r. apply exp_0. Qed.

Lemma plane10 : 0.0031882 <= planeR 10 <= 0.0031884.
Proof.
  unfold planeR. replace (10 <=? 9)%Z with false by reflexivity. unfold hwR. split.
  - apply rpow_lower; lra.
  - apply rpow_upper; lra.
Qed.

Lemma planeR_mono m n : (0 <= m <= n)%Z -> planeR m <= planeR n.
Proof.
  intros h. unfold planeR. destruct (Z.leb_spec m 9); destruct (Z.leb_spec n 9); try lia.
  - assert (IZR m <= IZR n) by (apply IZR_le; lia). lra.
  - pose proof plane10 as P. unfold planeR in P. replace (10 <=? 9)%Z with false in P by reflexivity.
    assert (Rpower (hwR 10) 2.4 <= Rpower (hwR n) 2.4).
    { apply Rle_Rpower_l; [lra|]. destruct (Z.eq_dec n 10) as [->|]; [unfold hwR; lra|]. pose proof (hw_inc 10 n ltac:(lia)). unfold hwR in *. lra. }
    assert (IZR m <= 9) by (apply IZR_le; lia). lra.
  - apply Rle_Rpower_l; [lra|]. destruct (Z.eq_dec n m) as [->|]; [|pose proof (hw_inc m n ltac:(lia))];
      assert (9 <= IZR m) by (apply IZR_le; lia); unfold hwR in *; lra.
Qed.

Lemma planeR_254 : planeR 254 <= 0.99555.
Proof. unfold planeR. replace (254 <=? 9)%Z with false by reflexivity. unfold hwR. apply rpow_upper; lra. Qed.

Lemma planeR_range m : (0 <= m <= 254)%Z -> 0.0001517 <= planeR m <= 0.99555.
Proof.
  intros h. split.
  - apply Rle_trans with (planeR 0); [rewrite planeR_lin by lia; lra|apply planeR_mono; lia].
  - apply Rle_trans with (2 := planeR_254). apply planeR_mono. lia.
Qed.

Fixpoint gap_check (l : list f64) : bool :=
  match l with a :: l' => match l' with b :: _ => fle (dec "0.03") (fsub b a) && gap_check l' | [] => true end | [] => true end.

Lemma gaps_checked : gap_check critical_planes = true.
Proof. vm_compute. reflexivity. Qed.

Lemma gap_nth l : gap_check l = true -> forall i a b, nth_error l i = Some a -> nth_error l (S i) = Some b -> fle (dec "0.03") (fsub b a) = true.
Proof.
  induction l as [|p l IH]; intros h i a b ha hb; [destruct i; discriminate|].
  cbn [gap_check] in h. destruct l as [|q l']; [destruct i; discriminate|]. apply andb_prop in h. destruct h as [h1 h2].
  destruct i as [|i].
  - cbn [nth_error] in ha, hb. injection ha as <-. injection hb as <-. exact h1.
  - exact (IH h2 i a b ha hb).
Qed.

Lemma index_nth {A} (l : list A) i a : index l i = Ok a -> (0 <= i)%Z /\ nth_error l (Z.to_nat i) = Some a.
Proof.
  unfold index. destruct (Z.ltb_spec i 0) as [|g]; [discriminate|]. destruct (nth_error l (Z.to_nat i)); [|discriminate].
  intros h. injection h as ->. split; [exact g|reflexivity].
Qed.

Lemma planeR_gap m n : (0 <= m < n)%Z -> (n <= 254)%Z -> planeR m + 0.000299 <= planeR n.
Proof.
  intros h hn. apply Rle_trans with (planeR (m + 1)); [|apply planeR_mono; lia].
  destruct (plane_index m ltac:(lia)) as (a & I1 & F1 & B1). destruct (plane_index (m + 1) ltac:(lia)) as (b & I2 & F2 & B2).
  apply index_nth in I1, I2. destruct I1 as [_ I1]. destruct I2 as [_ I2].
  replace (Z.to_nat (m + 1)) with (S (Z.to_nat m)) in I2 by lia.
  assert (G := gap_nth _ gaps_checked _ _ _ I1 I2). clear I1 I2.
  assert (R1 := planeR_range m ltac:(lia)). assert (R2 := planeR_range (m + 1) ltac:(lia)).
  set (x := planeR m) in *. set (y := planeR (m + 1)) in *. clearbody x y.
  destruct (fsub_S b a F2 F1 ltac:(fsmall)) as [S FS]. fconst (dec "0.03").
  apply (fle_fin _ _ F FS) in G. rewrite S, V in G.
  pose proof (rnd_bounds_abs (B2R b - B2R a) 200 ltac:(apply Rabs_le; lra)) as E. unfold u53 in E. pose proof eta_small. lra.
Qed.

Section Planes.
Context {lm : Libm} (eps : R) (heps : 0 <= eps <= 1 / 10 ^ 12) (PA : pow_accurate eps lm).

Lemma pow24_range z : 0.003 <= z <= 1.0101 -> 0.003 <= Rpower z (B2R inv24) <= 1.0203.
Proof using.
  intros h. destruct inv24_R as [_ BY]. set (y := B2R inv24) in *. clearbody y. split.
  - apply Rle_trans with (Rpower 0.003 y); [|apply Rle_Rpower_l; lra].
    assert (L := ln_le_sub 0.003 ltac:(lra)). unfold Rpower.
    replace 0.003 with (exp (ln 0.003)) at 1 by (apply exp_ln; lra).
    assert (G : ln 0.003 <= y * ln 0.003) by nra.
    destruct G as [G|G]; [apply Rlt_le, exp_increasing, G|rewrite <- G; lra].
  - apply Rle_trans with (Rpower 1.0101 y); [apply Rle_Rpower_l; lra|]. unfold Rpower.
    assert (L := ln_le_sub 1.0101 ltac:(lra)). assert (L0 := ln_ge_inv 1.0101 ltac:(lra)).
    assert (B : 0 <= y * ln 1.0101 <= 0.0101) by (split; [apply Rmult_le_pos; lra|]; apply Rle_trans with (1 * 0.0101); [apply Rmult_le_compat; lra|lra]).
    destruct (exp_small (y * ln 1.0101) ltac:(lra)) as [_ E]. rewrite Rabs_pos_eq in E by lra. lra.
Qed.

Definition norm100 (x : f64) : f64 := fdiv x (dec "100.0").

Lemma norm_R (x : f64) : fin x -> -1 <= B2R x <= 101 -> fin (norm100 x) /\
  B2R x / 100 - u53 * (Rabs (B2R x) / 100) - eta <= B2R (norm100 x) <= B2R x / 100 + u53 * (Rabs (B2R x) / 100) + eta.
Proof using.
  intros f b. unfold norm100. fconst (dec "100.0").
  destruct (fdiv_S x (dec "100.0") f ltac:(rewrite V; lra) ltac:(rewrite V; fsmall)) as [D FD]. split; [exact FD|].
  rewrite D, V. replace (Rabs (B2R x) / 100) with (Rabs (B2R x / (100 / 1))).
  - replace (B2R x / 100) with (B2R x / (100 / 1)) by field. apply rnd_bounds_abs. lra.
  - replace (B2R x / (100 / 1)) with (B2R x / 100) by field. unfold Rdiv. rewrite Rabs_mult. f_equal. apply Rabs_pos_eq. lra.
Qed.

(** The linear branch. *)
Lemma td_low (x : f64) : fin x -> -1 <= B2R x <= 101 -> fle (norm100 x) (dec "0.0031308") = true ->
  fin (true_delinearized x) /\ B2R x <= 0.313081 /\
  (forall M, Rabs (B2R x) <= M -> M <= 101 ->
     - (M * (2 / 10 ^ 14) + 1 / 10 ^ 40) <= B2R (true_delinearized x) - B2R x / 100 * 12.92 * 255 <= M * (2 / 10 ^ 14) + 1 / 10 ^ 40).
Proof using.
  intros f b c. destruct (norm_R x f b) as [FN BN]. unfold true_delinearized. fold (norm100 x). cbv zeta. rewrite c.
  fconst (dec "0.0031308"). apply (fle_fin _ _ FN F) in c. rewrite V in c. clear V F. set (z := norm100 x) in *. clearbody z.
  fconst (dec "12.92"). fconst (dec "255.0"). pose proof eta_small as ES. pose proof eta_pos as E0. 
  assert (BX : Rabs (B2R x) <= 101) by (apply Rabs_le; lra). assert (BX0 := Rabs_pos (B2R x)). unfold u53 in BN.
  assert (BZ : -0.02 <= B2R z <= 2) by lra.
  destruct (fmul_S z (dec "12.92") FN F ltac:(rewrite V; fsmall)) as [M1 F1]. rewrite V in M1.
  set (z1 := fmul z (dec "12.92")) in *. clearbody z1.
  assert (G1 : forall M, Rabs (B2R x) <= M -> M <= 101 -> Rabs (B2R z * (B2R (dec "12.92"))) <= 0.1293 * M + 20 * eta).
  { intros M hM hM2. apply Rabs_le_inv in hM. assert (Rabs (B2R x) <= M) by (apply Rabs_le; lra). rewrite V. apply Rabs_le. lra. }
  rewrite V in G1.
  assert (Z1 : forall M, Rabs (B2R x) <= M -> M <= 101 -> Rabs (B2R z1 - B2R z * 12.92) <= M * (3 / 10 ^ 17) + 2 * eta).
  { intros M hM hM2. pose proof (rnd_bounds_abs _ _ (G1 M hM hM2)) as N1. rewrite <- M1 in N1. unfold u53 in N1. specialize (G1 M hM hM2).
    apply Rabs_le_inv in G1. apply Rabs_le. lra. }
  assert (BZ1 : -3 <= B2R z1 <= 30) by (specialize (Z1 101 BX ltac:(lra)); apply Rabs_le_inv in Z1; lra).
  destruct (fmul_S z1 (dec "255.0") F1 F0 ltac:(rewrite V0; fsmall)) as [M2 F2]. rewrite V0 in M2.
  split; [exact F2|]. split.
  { destruct (Rle_or_lt (B2R x) 0.313081) as [|g]; [assumption|exfalso]. rewrite Rabs_pos_eq in BN by lra. lra. }
  intros M hM hM2. specialize (Z1 M hM hM2). specialize (G1 M hM hM2). apply Rabs_le_inv in Z1, G1.
  assert (L : - (33 * M + 6000 * eta) <= B2R z1 * 255 <= 33 * M + 6000 * eta) by lra.
  apply Rabs_le in L. pose proof (rnd_bounds_abs _ _ L) as N2. rewrite <- M2 in N2. unfold u53 in N2.
  apply Rabs_le_inv in hM. assert (hM' : Rabs (B2R x) <= M) by (apply Rabs_le; lra). 
  set (t := fmul z1 (dec "255.0")) in *. clearbody t. clear - hM hM' hM2 BN Z1 N2 ES E0. lra.
Qed.

(** The power branch. *)
Lemma td_high (x : f64) : fin x -> -1 <= B2R x <= 101 -> fle (norm100 x) (dec "0.0031308") = false ->
  let p := B2R (powf (norm100 x) inv24) in let q := Rpower (B2R (norm100 x)) (B2R inv24) in
  0.313079 <= B2R x /\ 0.00313 <= B2R (norm100 x) <= 1.0101 /\
  fin (true_delinearized x) /\ 0.003 <= q <= 1.0203 /\ q * (1 - eps) <= p <= q * (1 + eps) /\
  - (2 / 10 ^ 13) <= B2R (true_delinearized x) - 255 * (1.055 * p - 0.055) <= 2 / 10 ^ 13.
Proof using heps PA.
  intros f b c. destruct (norm_R x f b) as [FN BN]. unfold true_delinearized. fold (norm100 x). fold inv24. cbv zeta. rewrite c.
  fconst (dec "0.0031308"). apply (fle_fin_f _ _ FN F) in c. rewrite V in c. clear V F. set (z := norm100 x) in *. clearbody z.
  pose proof eta_small as ES. pose proof eta_pos as E0. unfold u53 in BN.
  assert (BX : Rabs (B2R x) <= 101) by (apply Rabs_le; lra).
  assert (BX1 : 0.313079 <= B2R x) by lra. rewrite Rabs_pos_eq in BN by lra.
  assert (BXX : B2R x <= 101) by lra.
  assert (BZ : 0.00313 <= B2R z <= 1.0100001) by lra.
  assert (Q := pow24_range (B2R z) ltac:(lra)).
  destruct (pow_ok eps PA z inv24 FN (proj1 inv24_R) ltac:(lra)) as [FP EP]; [lra|].
  split; [exact BX1|]. split; [lra|].
  set (q := Rpower (B2R z) (B2R inv24)) in *. set (p := powf z inv24) in *. clearbody q p.
  assert (P1 : q * (1 + eps) <= q * (1 + 1 / 10 ^ 12)) by (apply Rmult_le_compat_l; lra).
  assert (P0 : q * (1 - 1 / 10 ^ 12) <= q * (1 - eps)) by (apply Rmult_le_compat_l; lra).
  assert (BP : 0.0029 <= B2R p <= 1.021) by lra.
  fconst (dec "1.055"). fconst (dec "0.055"). fconst (dec "255.0").
  destruct (fmul_S (dec "1.055") p F FP ltac:(rewrite V; fsmall)) as [M1 F1']. rewrite V in M1.
  match type of M1 with _ = rnd ?e => pose proof (rnd_bounds_abs e 1.1 ltac:(apply Rabs_le; lra)) as N1 end. rewrite <- M1 in N1. unfold u53 in N1.
  set (a := fmul (dec "1.055") p) in *. clearbody a. clear M1.
  destruct (fsub_S a (dec "0.055") F1' F0 ltac:(rewrite V0; fsmall)) as [M2 F2']. rewrite V0 in M2.
  match type of M2 with _ = rnd ?e => pose proof (rnd_bounds_abs e 1.1 ltac:(apply Rabs_le; lra)) as N2 end. rewrite <- M2 in N2. unfold u53 in N2.
  set (d := fsub a (dec "0.055")) in *. clearbody d. clear M2.
  destruct (fmul_S d (dec "255.0") F2' F1 ltac:(rewrite V1; fsmall)) as [M3 F3]. rewrite V1 in M3.
  match type of M3 with _ = rnd ?e => pose proof (rnd_bounds_abs e 280 ltac:(apply Rabs_le; lra)) as N3 end. rewrite <- M3 in N3. unfold u53 in N3.
  set (t := fmul d (dec "255.0")) in *. clearbody t. clear M3.
  split; [exact F3|]. split; [exact Q|]. split; [exact EP|]. lra.
Qed.

(** What the solver takes floor and ceiling of. *)
Definition half (x : f64) : f64 := fsub (true_delinearized x) (dec "0.5").
Definition coord_ok (x : f64) : Prop := fin x /\ -0.015 <= B2R x <= 100.1.

Lemma half_fin (x : f64) : coord_ok x -> fin (true_delinearized x) /\ fin (half x) /\
  -0.495 <= B2R (true_delinearized x) <= 255.45 /\ B2R (half x) = rnd (B2R (true_delinearized x) - 0.5) /\ -1 <= B2R (half x) < 255.
Proof using heps PA.
  intros [f b]. assert (T : fin (true_delinearized x) /\ -0.495 <= B2R (true_delinearized x) <= 255.45).
  { destruct (fle (norm100 x) (dec "0.0031308")) eqn:C.
    - destruct (td_low x f ltac:(lra) C) as (F & U & E). split; [exact F|].
      specialize (E 1 ltac:(apply Rabs_le; lra) ltac:(lra)). lra.
    - destruct (td_high x f ltac:(lra) C) as (U & Z & F & Q & P & E). split; [exact F|].
      destruct (norm_R x f ltac:(lra)) as [_ BN]. rewrite Rabs_pos_eq in BN by lra. unfold u53 in BN. pose proof eta_small.
      set (z := B2R (norm100 x)) in *. assert (HZ : z <= 1.00101) by lra.
      assert (Q2 : Rpower z (B2R inv24) <= 1.001).
      { destruct inv24_R as [_ BY]. apply Rle_trans with (Rpower 1.00101 (B2R inv24)); [apply Rle_Rpower_l; lra|]. unfold Rpower.
        assert (L := ln_le_sub 1.00101 ltac:(lra)). assert (L0 := ln_ge_inv 1.00101 ltac:(lra)).
        assert (B : 0 <= B2R inv24 * ln 1.00101 <= 0.00043).
        { split; [apply Rmult_le_pos; lra|]. apply Rle_trans with (0.42 * 0.00101); [apply Rmult_le_compat; lra|lra]. }
        destruct (exp_small (B2R inv24 * ln 1.00101) ltac:(lra)) as [_ E']. rewrite Rabs_pos_eq in E' by lra. lra. }
      set (p := B2R (powf (norm100 x) inv24)) in *. set (q := Rpower z (B2R inv24)) in *.
      assert (P1 : q * (1 + eps) <= q * (1 + 1 / 10 ^ 12)) by (apply Rmult_le_compat_l; lra).
      assert (L : 0.0904 * (1 - 1 / 10 ^ 5) <= q).
      { unfold q. destruct inv24_R as [_ BY]. apply Rle_trans with (Rpower 0.00313 (B2R inv24)); [|apply Rle_Rpower_l; lra].
        assert (R := rpow_lower24 0.00313 0.0904 ltac:(lra) ltac:(lra) ltac:(lra)).
        destruct (rpow_near 0.00313 0.00313 (B2R inv24) (/ 2.4) (1 / 10 ^ 8)) as [R1 R2]; [lra|lra| |lra|].
        { replace (B2R inv24 * ln 0.00313 - / 2.4 * ln 0.00313) with ((B2R inv24 - / 2.4) * ln 0.00313) by ring.
          assert (L1 := ln_le_sub 0.00313 ltac:(lra)). assert (L2 := ln_ge_inv 0.00313 ltac:(lra)).
          pose proof (mul_bnd (B2R inv24 - / 2.4) (ln 0.00313) (1 / 10 ^ 15) 1000 ltac:(lra) ltac:(lra)). lra. }
        lra. }
      assert (P0 : q * (1 - 1 / 10 ^ 12) <= q * (1 - eps)) by (apply Rmult_le_compat_l; lra).
      clearbody p q. clear - P0 P1 P E L Q2. lra. }
  destruct T as [F T]. split; [exact F|]. unfold half. fconst (dec "0.5").
  destruct (fsub_S (true_delinearized x) (dec "0.5") F F0 ltac:(rewrite V; fsmall)) as [S FS]. split; [exact FS|]. split; [exact T|].
  rewrite V in S. replace (1 / 2) with 0.5 in S by lra. split; [exact S|]. rewrite S.
  match goal with |- _ <= rnd ?e < _ => pose proof (rnd_bounds_abs e 256 ltac:(apply Rabs_le; lra)) as N end. unfold u53 in N. pose proof eta_small. lra.
Qed.

Lemma half_above (x : f64) (m : Z) s : coord_ok x -> (0 <= m <= 254)%Z -> IZR m + / 2 + s <= B2R (true_delinearized x) ->
  (IZR m + 1) * (2 / 10 ^ 16) <= s <= / 2 -> IZR m < B2R (half x).
Proof using heps PA.
  intros ok hm h hs. destruct (half_fin x ok) as (_ & _ & _ & E & _). rewrite E. destruct hm as [h0 h1]. apply IZR_le in h0, h1.
  apply Rlt_le_trans with (rnd (IZR m + s)); [|apply rnd_mono; lra].
  pose proof (rnd_bounds_abs (IZR m + s) (IZR m + 1) ltac:(apply Rabs_le; lra)) as N. unfold u53 in N. pose proof eta_small. lra.
Qed.
Lemma half_below (x : f64) (m : Z) s : coord_ok x -> (0 <= m <= 254)%Z -> B2R (true_delinearized x) <= IZR m + / 2 - s ->
  (IZR m + 1) * (2 / 10 ^ 16) <= s <= / 2 -> B2R (half x) < IZR m.
Proof using heps PA.
  intros ok hm h hs. destruct (half_fin x ok) as (_ & _ & _ & E & _). rewrite E. destruct hm as [h0 h1]. apply IZR_le in h0, h1.
  apply Rle_lt_trans with (rnd (IZR m - s)); [apply rnd_mono; lra|].
  pose proof (rnd_bounds_abs (IZR m - s) (IZR m + 1) ltac:(apply Rabs_le; lra)) as N. unfold u53 in N. pose proof eta_small. lra.
Qed.

Lemma hw_eq m : 255 * (1.055 * hwR m - 0.055) = IZR m + / 2.
Proof using. unfold hwR. lra. Qed.

Lemma exp_le a b : a <= b -> exp a <= exp b.
Proof using. intros [h|h]; [apply Rlt_le, exp_increasing, h|rewrite h; lra]. Qed.

(** A coordinate clearly below a critical plane is seen below it. *)
Lemma plane_lo (x : f64) (m : Z) : coord_ok x -> (0 <= m <= 254)%Z -> B2R x <= 100 * planeR m * (1 - kap m) -> B2R (half x) < IZR m.
Proof using heps PA.
  intros ok hm h. destruct ok as [f b]. assert (ok : coord_ok x) by (split; [exact f|lra]). unfold kap in h.
  destruct (fle (norm100 x) (dec "0.0031308")) eqn:C.
  - destruct (td_low x f ltac:(lra) C) as (F & U & E). specialize (E 0.32 ltac:(apply Rabs_le; lra) ltac:(lra)).
    destruct (Z.leb_spec m 9) as [a|a].
    + rewrite planeR_lin in h by lia. apply (half_below x m ((IZR m + / 2) * (3 / 10 ^ 14)) ok hm); [|];
        destruct hm as [h0 h1]; apply IZR_le in h0; apply IZR_le in a; lra.
    + assert (10 <= IZR m) by (apply IZR_le; lia). assert (IZR m <= 254) by (apply IZR_le; lia). apply (half_below x m (/ 10) ok hm); lra.
  - destruct (td_high x f ltac:(lra) C) as (U & Z & F & Q & P & E). destruct (Z.leb_spec m 9) as [a|a].
    + rewrite planeR_lin in h by lia. apply IZR_le in a. exfalso. lra.
    + destruct (norm_R x f ltac:(lra)) as [_ BN]. rewrite Rabs_pos_eq in BN by lra. unfold u53 in BN. pose proof eta_small as ES.
      set (z := B2R (norm100 x)) in *. set (p := B2R (powf (norm100 x) inv24)) in *. set (q := Rpower z (B2R inv24)) in *.
      assert (W10 := planeR_mono 10 m ltac:(lia)). pose proof plane10 as W0. assert (L := planeR_ln m ltac:(lia)). assert (HW := hw_range m ltac:(lia)).
      assert (WR := planeR_range m hm). set (W := planeR m) in *. set (w := hwR m) in *.
      assert (HZ : z <= W * (1 - 1.9 / 10 ^ 11)) by lra.
      assert (LZ : ln z <= ln W - 1.9 / 10 ^ 11).
      { replace z with (W * (z / W)) by (field; lra). rewrite ln_mult; [|lra|apply Rdiv_lt_0_compat; lra].
        assert (G : z / W <= 1 - 1.9 / 10 ^ 11).
        { apply Rmult_le_reg_r with W; [lra|]. unfold Rdiv at 1. rewrite Rmult_assoc, Rinv_l, Rmult_1_r by lra. lra. }
        assert (LL := ln_le_sub (z / W) ltac:(apply Rdiv_lt_0_compat; lra)). lra. }
      destruct inv24_R as [_ BY]. set (y := B2R inv24) in *.
      assert (L1 := ln_le_sub w ltac:(lra)). assert (L2 := ln_ge_inv w ltac:(lra)).
      assert (I : / w <= 12) by (rewrite <- (Rinv_inv 12); apply Rinv_le; lra).
      assert (D1 := mul_bnd (2.4 * y - 1) (ln w) (3 / 10 ^ 15) 12 ltac:(lra) ltac:(lra)).
      assert (D2 : y * ln z <= y * (ln W - 1.9 / 10 ^ 11)) by (apply Rmult_le_compat_l; lra).
      assert (D3 : y * ln z <= ln w + - (7.8 / 10 ^ 12)) by (rewrite L in D2; lra).
      assert (D4 : q <= w * (1 - 7.7 / 10 ^ 12)).
      { unfold q, Rpower. apply Rle_trans with (exp (ln w + - (7.8 / 10 ^ 12))); [apply exp_le, D3|]. rewrite exp_plus, exp_ln by lra.
        apply Rmult_le_compat_l; [lra|]. rewrite exp_Ropp. destruct (exp_small (7.8 / 10 ^ 12) ltac:(lra)) as [X _].
        apply Rle_trans with (/ (1 + 7.8 / 10 ^ 12)); [apply Rinv_le; lra|]. lra. }
      assert (P1 : q * (1 + eps) <= q * (1 + 1 / 10 ^ 12)) by (apply Rmult_le_compat_l; lra).
      assert (HE := hw_eq m). fold w in HE.
      assert (IZR m <= 254) by (apply IZR_le; lia). assert (0 <= IZR m) by (apply IZR_le; lia).
      apply (half_below x m (1 / 10 ^ 12) ok hm); [|lra].
      set (T := B2R (true_delinearized x)) in *. clearbody T p q w. clear - E P P1 D4 HE HW. lra.
Qed.

Lemma plane_hi (x : f64) (m : Z) : coord_ok x -> (0 <= m <= 254)%Z -> 100 * planeR m * (1 + kap m) <= B2R x -> IZR m < B2R (half x).
Proof using heps PA.
  intros ok hm h. destruct ok as [f b]. assert (ok : coord_ok x) by (split; [exact f|lra]). unfold kap in h.
  assert (M0 : 0 <= IZR m) by (apply IZR_le; lia).
  destruct (fle (norm100 x) (dec "0.0031308")) eqn:C.
  - destruct (td_low x f ltac:(lra) C) as (F & U & E). specialize (E 0.32 ltac:(apply Rabs_le; lra) ltac:(lra)).
    destruct (Z.leb_spec m 9) as [a|a].
    + rewrite planeR_lin in h by lia. apply (half_above x m ((IZR m + / 2) * (3 / 10 ^ 14)) ok hm); [|];
        apply IZR_le in a; lra.
    + exfalso. assert (W10 := planeR_mono 10 m ltac:(lia)). pose proof plane10 as W0. lra.
  - destruct (td_high x f ltac:(lra) C) as (U & Z & F & Q & P & E).
    set (z := B2R (norm100 x)) in *. set (p := B2R (powf (norm100 x) inv24)) in *. set (q := Rpower z (B2R inv24)) in *.
    assert (P0 : q * (1 - 1 / 10 ^ 12) <= q * (1 - eps)) by (apply Rmult_le_compat_l; lra).
    destruct inv24_R as [_ BY]. 
    destruct (Z.leb_spec m 9) as [a|a].
    + assert (L : 0.0904 * (1 - 1 / 10 ^ 5) <= q).
      { unfold q. apply Rle_trans with (Rpower 0.00313 (B2R inv24)); [|apply Rle_Rpower_l; lra].
        assert (R := rpow_lower24 0.00313 0.0904 ltac:(lra) ltac:(lra) ltac:(lra)).
        destruct (rpow_near 0.00313 0.00313 (B2R inv24) (/ 2.4) (1 / 10 ^ 8)) as [R1 R2]; [lra|lra| |lra|].
        { replace (B2R inv24 * ln 0.00313 - / 2.4 * ln 0.00313) with ((B2R inv24 - / 2.4) * ln 0.00313) by ring.
          assert (L1 := ln_le_sub 0.00313 ltac:(lra)). assert (L2 := ln_ge_inv 0.00313 ltac:(lra)).
          pose proof (mul_bnd (B2R inv24 - / 2.4) (ln 0.00313) (1 / 10 ^ 15) 1000 ltac:(lra) ltac:(lra)). lra. }
        lra. }
      apply IZR_le in a. apply (half_above x m (/ 10) ok hm); [|lra]. clearbody p q. clear - L P P0 E a. lra.
    + destruct (norm_R x f ltac:(lra)) as [_ BN]. rewrite Rabs_pos_eq in BN by lra. unfold u53 in BN. pose proof eta_small as ES. fold z in BN.
      assert (W10 := planeR_mono 10 m ltac:(lia)). pose proof plane10 as W0. assert (L := planeR_ln m ltac:(lia)). assert (HW := hw_range m ltac:(lia)).
      assert (WR := planeR_range m hm). set (W := planeR m) in *. set (w := hwR m) in *.
      assert (HZ : W * (1 + 1.9 / 10 ^ 11) <= z) by lra.
      assert (LZ : ln W + 1.89 / 10 ^ 11 <= ln z).
      { replace z with (W * (z / W)) by (field; lra). rewrite ln_mult; [|lra|apply Rdiv_lt_0_compat; lra].
        assert (G : 1 + 1.9 / 10 ^ 11 <= z / W).
        { apply Rmult_le_reg_r with W; [lra|]. replace (z / W * W) with z by (field; lra). lra. }
        assert (LL := ln_ge_inv (z / W) ltac:(lra)).
        assert (/ (z / W) <= / (1 + 1.9 / 10 ^ 11)) by (apply Rinv_le; lra). lra. }
      set (y := B2R inv24) in *.
      assert (L1 := ln_le_sub w ltac:(lra)). assert (L2 := ln_ge_inv w ltac:(lra)).
      assert (I : / w <= 12) by (rewrite <- (Rinv_inv 12); apply Rinv_le; lra).
      assert (D1 := mul_bnd (2.4 * y - 1) (ln w) (3 / 10 ^ 15) 12 ltac:(lra) ltac:(lra)).
      assert (D2 : y * (ln W + 1.89 / 10 ^ 11) <= y * ln z) by (apply Rmult_le_compat_l; lra).
      assert (D3 : ln w + 7.7 / 10 ^ 12 <= y * ln z) by (rewrite L in D2; lra).
      assert (D4 : w * (1 + 7.7 / 10 ^ 12) <= q).
      { unfold q, Rpower. apply Rle_trans with (exp (ln w + 7.7 / 10 ^ 12)); [|apply exp_le, D3]. rewrite exp_plus, exp_ln by lra.
        apply Rmult_le_compat_l; [lra|]. destruct (exp_small (7.7 / 10 ^ 12) ltac:(lra)) as [X _]. exact X. }
      assert (HE := hw_eq m). fold w in HE. assert (IZR m <= 254) by (apply IZR_le; lia).
      apply (half_above x m (1 / 10 ^ 12) ok hm); [|lra].
      set (T := B2R (true_delinearized x)) in *. clearbody T p q w. clear - E P P0 D4 HE HW. lra.
Qed.

(** ** The plane indices *)
Lemma cast_small (x : f64) z : fin x -> B2R x = IZR z -> (-1000 <= z <= 1000)%Z -> to_i64 x = z.
Proof using. intros F E h. rewrite (to_i64_fin x F), E, Ztrunc_IZR. unfold zclamp.
  destruct (Z.ltb_spec z i64_min) as [a|a]; [unfold i64_min in a; lia|]. destruct (Z.ltb_spec i64_max z) as [c|c]; [unfold i64_max in c; lia|reflexivity]. Qed.

Lemma fceil_R (x : f64) : fin x -> B2R (fceil x) = IZR (Zceil (B2R x)) /\ fin (fceil x).
Proof using.
  intros F. destruct (Bnearbyint_correct 53 1024 prec53_lt mode_UP x) as (R & F' & _).
  split; [|now rewrite <- F]. unfold fceil. rewrite R. unfold round, F2R, scaled_mantissa, cexp, FIX_exp. cbn. now rewrite !Rmult_1_r.
Qed.

Lemma below_spec (x : f64) : coord_ok x -> critical_plane_below (true_delinearized x) = Zfloor (B2R (half x)) /\ (-1 <= Zfloor (B2R (half x)) <= 254)%Z.
Proof using heps PA.
  intros ok. destruct (half_fin x ok) as (_ & F & _ & _ & B).
  assert (R : (-1 <= Zfloor (B2R (half x)) <= 254)%Z).
  { split; [apply Zfloor_lub; lra|]. apply Z.lt_succ_r. apply lt_IZR. apply Rle_lt_trans with (B2R (half x)); [apply Zfloor_lb|]. change (Z.succ 254) with 255%Z. lra. }
  split; [|exact R]. unfold critical_plane_below. fold (half x). destruct (PfScore.ffloor_R _ F) as [E G].
  apply (cast_small _ _ G E). lia.
Qed.
Lemma above_spec (x : f64) : coord_ok x -> critical_plane_above (true_delinearized x) = Zceil (B2R (half x)) /\ (-1 <= Zceil (B2R (half x)) <= 255)%Z.
Proof using heps PA.
  intros ok. destruct (half_fin x ok) as (_ & F & _ & _ & B).
  assert (R : (-1 <= Zceil (B2R (half x)) <= 255)%Z).
  { split; [|apply Zceil_glb; lra]. apply le_IZR. apply Rle_trans with (B2R (half x)); [lra|apply Zceil_ub]. }
  split; [|exact R]. unfold critical_plane_above. fold (half x). destruct (fceil_R _ F) as [E G].
  apply (cast_small _ _ G E). lia.
Qed.

(** Planes beyond the index are beyond the coordinate, up to [kap]. *)
Lemma below_lt x m : coord_ok x -> (0 <= m <= 254)%Z -> (critical_plane_below (true_delinearized x) < m)%Z -> B2R x < 100 * planeR m * (1 + kap m).
Proof using heps PA.
  intros ok hm h. destruct (below_spec x ok) as [E _]. rewrite E in h.
  destruct (Rlt_or_le (B2R x) (100 * planeR m * (1 + kap m))) as [|g]; [assumption|exfalso].
  pose proof (plane_hi x m ok hm g) as Q. assert (m <= Zfloor (B2R (half x)))%Z by (apply Zfloor_lub; lra). lia.
Qed.
Lemma below_ge x m : coord_ok x -> (0 <= m <= 254)%Z -> (m <= critical_plane_below (true_delinearized x))%Z -> 100 * planeR m * (1 - kap m) < B2R x.
Proof using heps PA.
  intros ok hm h. destruct (below_spec x ok) as [E _]. rewrite E in h.
  destruct (Rlt_or_le (100 * planeR m * (1 - kap m)) (B2R x)) as [|g]; [assumption|exfalso].
  pose proof (plane_lo x m ok hm g) as Q. apply IZR_le in h. pose proof (Zfloor_lb (B2R (half x))). lra.
Qed.
Lemma above_gt x m : coord_ok x -> (0 <= m <= 254)%Z -> (m < critical_plane_above (true_delinearized x))%Z -> 100 * planeR m * (1 - kap m) < B2R x.
Proof using heps PA.
  intros ok hm h. destruct (above_spec x ok) as [E _]. rewrite E in h.
  destruct (Rlt_or_le (100 * planeR m * (1 - kap m)) (B2R x)) as [|g]; [assumption|exfalso].
  pose proof (plane_lo x m ok hm g) as Q. assert (Zceil (B2R (half x)) <= m)%Z by (apply Zceil_glb; lra). lia.
Qed.
Lemma above_le x m : coord_ok x -> (0 <= m <= 254)%Z -> (critical_plane_above (true_delinearized x) <= m)%Z -> B2R x < 100 * planeR m * (1 + kap m).
Proof using heps PA.
  intros ok hm h. destruct (above_spec x ok) as [E _]. rewrite E in h.
  destruct (Rlt_or_le (B2R x) (100 * planeR m * (1 + kap m))) as [|g]; [assumption|exfalso].
  pose proof (plane_hi x m ok hm g) as Q. apply IZR_le in h. pose proof (Zceil_ub (B2R (half x))). lra.
Qed.
End Planes.
