(** * L* of a colour lies between 0 and 100 exactly.  Proof file. *)
From Coq Require Import ZArith Bool Reals Lra Lia Psatz String List.
From Flocq Require Import Core Relative IEEE754.BinarySingleNaN.
From Verif Require Import F64 Spec SpecCam SpecExact FloatFacts FloatMono MathUtils ColorUtils ViewingConditions Cam16 RefLibm PfArgb PfMath PfTones PfLab PfGamma PfNear PfVc PfRel PfCamA PfCamB PfCamTrip PfToneFin PfLabTrip.
Open Scope string_scope.
Open Scope R_scope.

Lemma ref_pow_one : pow_one ref_libm.
Proof.
  intros y fy. change (powf (dec "1.0") y) with (ref_pow (dec "1.0") y). fconst (dec "1.0").
  assert (E : ref_pow (dec "1.0") y = R2f (Rpower (B2R (dec "1.0")) (B2R y))).
  { unfold ref_pow. replace (flt (dec "0.0") (dec "1.0")) with true by (symmetry; vm_compute; reflexivity).
    assert (D : exists s m e b, dec "1.0" = B754_finite s m e b).
    { destruct (dec "1.0") as [s|s| |s m e b] eqn:Q; try discriminate F; [cbn [B2R] in V; lra|]. exists s, m, e, b. reflexivity. }
    destruct D as (s & m & e & b & ->). destruct y as [sy|sy| |sy my ey by']; try discriminate fy; reflexivity. }
  rewrite E, V. replace (Rpower 1 (B2R y)) with 1 by (unfold Rpower; rewrite ln_1, Rmult_0_r, exp_0; reflexivity).
  destruct (R2f_val 1) as [N A]. assert (X : rndx 1 = 1) by (rewrite <- V; apply rndx_B2R). rewrite X in A.
  assert (FF : fin (R2f 1)) by (apply (val_fin_iff _ N); rewrite A; rewrite <- V; apply B2R_BIG).
  split; [exact FF|]. now rewrite val_fin in A.
Qed.

Section Acc.
Context {lm : Libm} (LA : libm_accurate (1 / 10 ^ 13) lm) (PM : pow_monotone lm) (P1 : pow_one lm).

Lemma pow_below_1 (x y : f64) : fin x -> 0 < B2R x <= 1 -> fin y -> 0 < B2R y -> fin (powf x y) -> B2R (powf x y) <= 1.
Proof using PM P1.
  intros fx bx fy by' fp. fconst (dec "1.0"). fconst (dec "0.0"). destruct (P1 y fy) as [f1 e1]. rewrite <- e1.
  apply (fle_fin _ _ fp f1). apply PM; [apply (flt_fin _ _ F0 fx); lra|apply (fle_fin _ _ fx F); lra|apply (flt_fin _ _ F0 fy); lra].
Qed.

Lemma lin_exact c : (0 <= c <= 255)%Z -> fin (linearized c) /\ 0 <= B2R (linearized c) <= 100.
Proof using LA PM P1.
  intros hc. assert (h13 : 0 <= 1 / 10 ^ 13 <= 1 / 10 ^ 5) by lra. destruct (linearized_R _ h13 (la_pow _ _ LA) c hc) as [FL _].
  assert (POS : (1 <= c)%Z -> 0 <= B2R (linearized c)) by (intros h; pose proof (lin_pos LA c ltac:(lia)); lra). split; [exact FL|]. revert FL POS. unfold linearized. cbv zeta.
  fconst (dec "255.0"). fconst (dec "12.92"). fconst (dec "100.0"). fconst (dec "0.055"). fconst (dec "1.055"). fconst (dec "2.4"). fconst (dec "0.040449936").
  destruct (of_Z_R c ltac:(lia)) as [VC FC]. assert (BC : 0 <= IZR c <= 255) by (split; apply IZR_le; lia).
  assert (Q : 0 <= B2R (of_Z c) / B2R (dec "255.0") <= 1) by (rewrite VC, V; split; [apply le_div|apply div_le]; lra).
  destruct (fdiv_S (of_Z c) (dec "255.0") FC ltac:(rewrite V; lra) ltac:(unfold HUGE; lra)) as [E1 G1].
  assert (Bn : 0 <= B2R (fdiv (of_Z c) (dec "255.0")) <= 1) by (rewrite E1; split; [apply rnd_ge_0; lra|apply (rnd_le_IZR _ 1); [lia|lra]]).
  assert (Z0 : c = 0%Z -> B2R (fdiv (of_Z c) (dec "255.0")) = 0) by (intros ->; rewrite E1, VC; replace (0 / _) with 0 by (field; lra); apply rnd_0).
  set (n := fdiv (of_Z c) (dec "255.0")) in *. clearbody n. clear E1 Q.
  destruct (fle n (dec "0.040449936")) eqn:L.
  - intros _ _. assert (Q : 0 <= B2R n / B2R (dec "12.92") <= 1) by (rewrite V0; split; [apply le_div|apply div_le]; lra).
    destruct (fdiv_S n (dec "12.92") G1 ltac:(rewrite V0; lra) ltac:(unfold HUGE; lra)) as [E2 G2].
    assert (B2 : 0 <= B2R (fdiv n (dec "12.92")) <= 1) by (rewrite E2; split; [apply rnd_ge_0; lra|apply (rnd_le_IZR _ 1); [lia|lra]]).
    destruct (fmul_S _ (dec "100.0") G2 F1 ltac:(rewrite V1; unfold HUGE; lra)) as [E3 G3]. rewrite V1 in E3.
    rewrite E3. split; [apply rnd_ge_0; lra|apply (rnd_le_IZR _ 100); [lia|lra]].
  - intros FL POS. assert (Ln : B2R (dec "0.040449936") < B2R n).
    { destruct (Rle_or_lt (B2R n) (B2R (dec "0.040449936"))) as [l|l]; [|exact l]. apply (fle_fin _ _ G1 F5) in l. rewrite l in L. discriminate L. }
    rewrite V5 in Ln. fconst (dec "1.0"). fconst (fadd (dec "1.0") (dec "0.055")).
    destruct (fadd_S n (dec "0.055") G1 F2 ltac:(rewrite V2; unfold HUGE; lra)) as [E2 G2].
    assert (U : B2R (fadd n (dec "0.055")) <= B2R (dec "1.055")).
    { rewrite V3, <- V7. destruct (fadd_S (dec "1.0") (dec "0.055") F6 F2 ltac:(rewrite V6, V2; unfold HUGE; lra)) as [E3 _]. rewrite E2, E3, V6. apply rnd_mono. lra. }
    assert (U0 : B2R (dec "0.055") <= B2R (fadd n (dec "0.055"))) by (rewrite E2; rewrite <- (rnd_B2R (dec "0.055")) at 1; apply rnd_mono; lra).
    rewrite V2 in U0. set (m := fadd n (dec "0.055")) in *. clearbody m. clear E2.
    rewrite V3 in U. assert (Q : 0.05 <= B2R m / B2R (dec "1.055") <= 1) by (rewrite V3; split; [apply le_div|apply div_le]; lra).
    destruct (fdiv_S m (dec "1.055") G2 ltac:(rewrite V3; lra) ltac:(unfold HUGE; lra)) as [E4 G4].
    pose proof (rnd_bounds (B2R m / B2R (dec "1.055")) ltac:(lra)) as R4. rewrite <- E4 in R4. pose proof eta_small as ETA. unfold u53 in R4.
    assert (U2 : 0.04 <= B2R (fdiv m (dec "1.055"))) by lra.
    assert (U1 : B2R (fdiv m (dec "1.055")) <= 1) by (rewrite E4; apply (rnd_le_IZR _ 1); [lia|lra]).
    set (q := fdiv m (dec "1.055")) in *. clearbody q. clear E4 Q.
    destruct (fmul_back _ _ FL) as (FP & _ & EP).
    pose proof (pow_below_1 q (dec "2.4") G4 ltac:(lra) F4 ltac:(lra) FP) as UP.
    split; [apply POS; destruct (Z.eq_dec c 0) as [e|e]; [specialize (Z0 e); lra|lia]|].
    rewrite EP, V1. apply (rnd_le_IZR _ 100); [lia|lra].
Qed.

Lemma y_exact argb : fin (v1 (xyz_from_argb argb)) /\ 0 <= B2R (v1 (xyz_from_argb argb)) <= 100.
Proof using LA PM P1.
  destruct (chan argb) as (h1 & h2 & h3). unfold xyz_from_argb. cbv zeta.
  destruct (lin_exact _ h1) as [f1 b1]. destruct (lin_exact _ h2) as [f2 b2]. destruct (lin_exact _ h3) as [f3 b3].
  set (r := linearized (red_from_argb argb)) in *. set (g := linearized (green_from_argb argb)) in *. set (b := linearized (blue_from_argb argb)) in *. clearbody r g b.
  unfold matrix_multiply, srgb_to_xyz, v0, v1, v2. cbn [fst snd].
  fconst (dec "0.2126"). fconst (dec "0.7152"). fconst (dec "0.0722"). fconst (dec "100.0").
  fconst (fmul (dec "100.0") (dec "0.2126")). fconst (fmul (dec "100.0") (dec "0.7152")). fconst (fmul (dec "100.0") (dec "0.0722")).
  fconst (fadd (fmul (dec "100.0") (dec "0.2126")) (fmul (dec "100.0") (dec "0.7152"))).
  fconst (fadd (fadd (fmul (dec "100.0") (dec "0.2126")) (fmul (dec "100.0") (dec "0.7152"))) (fmul (dec "100.0") (dec "0.0722"))).
  assert (M : forall x k w : f64, fin x -> 0 <= B2R x <= 100 -> fin k -> 0 <= B2R k <= 1 -> fin w -> w = fmul (dec "100.0") k -> fin (fmul x k) /\ 0 <= B2R (fmul x k) <= B2R w).
  { clear - V2 F2. intros x k w fx bx fk bk fw Ew.
    assert (P : 0 <= B2R x * B2R k <= 100 * B2R k) by (split; [apply Rmult_le_pos; lra|apply Rmult_le_compat_r; lra]).
    destruct (fmul_S x k fx fk ltac:(unfold HUGE; lra)) as [E1 G1]. destruct (fmul_S (dec "100.0") k F2 fk ltac:(rewrite V2; unfold HUGE; lra)) as [E2 G2].
    split; [exact G1|]. rewrite Ew, E1, E2, V2. split; [apply rnd_ge_0; lra|apply rnd_mono; lra]. }
  destruct (M r (dec "0.2126") _ f1 b1 F ltac:(lra) F3 eq_refl) as [g1 d1].
  destruct (M g (dec "0.7152") _ f2 b2 F0 ltac:(lra) F4 eq_refl) as [g2 d2].
  destruct (M b (dec "0.0722") _ f3 b3 F1 ltac:(lra) F5 eq_refl) as [g3 d3].
  assert (A : forall x y x' y' : f64, fin x -> fin y -> fin x' -> fin y' -> 0 <= B2R x <= B2R x' -> 0 <= B2R y <= B2R y' -> B2R x' <= 1000 -> B2R y' <= 1000 ->
    fin (fadd x y) /\ 0 <= B2R (fadd x y) <= B2R (fadd x' y')).
  { clear. intros x y x' y' fx fy fx' fy' b1 b2 b3 b4.
    destruct (fadd_S x y fx fy ltac:(unfold HUGE; lra)) as [E1 G1]. destruct (fadd_S x' y' fx' fy' ltac:(unfold HUGE; lra)) as [E2 G2].
    split; [exact G1|]. rewrite E1, E2. split; [apply rnd_ge_0; lra|apply rnd_mono; lra]. }
  destruct (A _ _ _ _ g1 g2 F3 F4 d1 d2 ltac:(lra) ltac:(lra)) as [g4 d4].
  destruct (A _ _ _ _ g4 g3 F6 F5 d4 d3 ltac:(lra) ltac:(lra)) as [g5 d5].
  split; [exact g5|]. lra.
Qed.

Lemma lstar_exact argb : fin (lstar_from_argb argb) /\ 0 <= B2R (lstar_from_argb argb) <= 100.
Proof using LA PM P1.
  assert (h13 : 0 <= 1 / 10 ^ 13 <= 1 / 10 ^ 10) by lra. destruct (lstar_range _ h13 (la_pow _ _ LA) argb) as [FL BL]. split; [exact FL|]. revert FL BL.
  destruct (y_exact argb) as [fy by']. unfold lstar_from_argb. cbv zeta. set (y := v1 (xyz_from_argb argb)) in *. clearbody y.
  fconst (dec "100.0"). fconst (dec "116.0"). fconst (dec "16.0").
  assert (Q : 0 <= B2R y / B2R (dec "100.0") <= 1) by (rewrite V; split; [apply le_div|apply div_le]; lra).
  destruct (fdiv_S y (dec "100.0") fy ltac:(rewrite V; lra) ltac:(unfold HUGE; lra)) as [E1 G1].
  assert (Bt : 0 <= B2R (fdiv y (dec "100.0")) <= 1) by (rewrite E1; split; [apply rnd_ge_0; lra|apply (rnd_le_IZR _ 1); [lia|lra]]).
  set (t := fdiv y (dec "100.0")) in *. clearbody t. clear E1 Q fy by'. intros FL BL.
  assert (FX : fin (fmul (dec "116.0") (lab_f t))) by exact (proj1 (fsub_back _ _ FL)). destruct (fsub_back _ _ FL) as (_ & _ & EL). destruct (fmul_back _ _ FX) as (_ & FA & EX).
  rewrite EL, EX, V0, V1. clear EL EX FX FL BL. revert FA. unfold lab_f. cbv zeta. fconst (fdiv (dec "216.0") (dec "24389.0")). fconst (fdiv (dec "24389.0") (dec "27.0")). fconst (fdiv (dec "1.0") (dec "3.0")).
  destruct (fgt t (fdiv (dec "216.0") (dec "24389.0"))) eqn:L; intros FA.
  - apply (flt_fin _ _ F2 G1) in L. rewrite V2 in L.
    pose proof (pow_below_1 t (fdiv (dec "1.0") (dec "3.0")) G1 ltac:(lra) F4 ltac:(lra) FA) as UP.
    assert (LO : 0.2 <= B2R (powf t (fdiv (dec "1.0") (dec "3.0")))).
    { destruct (cbrt (1 / 10 ^ 13) ltac:(lra) (la_pow _ _ LA) t G1 ltac:(lra)) as (_ & X0 & X1 & _). unfold third in X0, X1.
      set (x := B2R (powf _ _)) in *. clearbody x. clear - X0 X1 L. destruct (Rle_or_lt 0.2 x) as [|l]; [assumption|]. exfalso.
      assert (x ^ 3 <= 0.2 ^ 3) by (apply pow_incr; lra). assert (0.99 <= (1 - 1 / 10 ^ 13) ^ 3 * (1 - 1 / 10 ^ 13)) by lra. rewrite Rmult_assoc in X1.
      assert (B2R t * 0.99 <= B2R t * ((1 - 1 / 10 ^ 13) ^ 3 * (1 - 1 / 10 ^ 13))) by (apply Rmult_le_compat_l; lra). lra. }
    set (x := powf t _) in *. clearbody x. split.
    + apply rnd_ge_0. assert (16 <= rnd (116 * B2R x)) by (apply (rnd_ge_IZR _ 16); [lia|lra]). lra.
    + apply (rnd_le_IZR _ 100); [lia|]. assert (rnd (116 * B2R x) <= 116) by (apply (rnd_le_IZR _ 116); [lia|lra]). lra.
  - assert (Lt : B2R t <= B2R (fdiv (dec "216.0") (dec "24389.0"))).
    { destruct (Rle_or_lt (B2R t) (B2R (fdiv (dec "216.0") (dec "24389.0")))) as [l|l]; [exact l|]. apply (flt_fin _ _ F2 G1) in l. unfold fgt, flt in *. congruence. }
    rewrite V2 in Lt. clear L FA. fconst (fdiv (dec "16.0") (dec "116.0")). fconst (fmul (dec "116.0") (fdiv (dec "16.0") (dec "116.0"))).
    assert (P : 0 <= B2R (fdiv (dec "24389.0") (dec "27.0")) * B2R t <= 9) by (rewrite V3; lra).
    destruct (fmul_S _ t F3 G1 ltac:(unfold HUGE; lra)) as [E5 G5]. assert (B5 : 0 <= B2R (fmul (fdiv (dec "24389.0") (dec "27.0")) t) <= 9) by (rewrite E5; split; [apply rnd_ge_0; lra|apply (rnd_le_IZR _ 9); [lia|lra]]).
    set (k := fmul _ t) in *. clearbody k. clear E5.
    destruct (fadd_S k (dec "16.0") G5 F1 ltac:(rewrite V1; unfold HUGE; lra)) as [E6 G6]. rewrite V1 in E6.
    assert (B6 : 16 <= B2R (fadd k (dec "16.0")) <= 25) by (rewrite E6; split; [apply (rnd_ge_IZR _ 16)|apply (rnd_le_IZR _ 25)]; (lia || lra)).
    set (w := fadd k _) in *. clearbody w. clear E6.
    assert (Q : 0 <= B2R w / B2R (dec "116.0") <= 1) by (rewrite V0; split; [apply le_div|apply div_le]; lra).
    destruct (fdiv_S w (dec "116.0") G6 ltac:(rewrite V0; lra) ltac:(unfold HUGE; lra)) as [E7 G7].
    destruct (fdiv_S (dec "16.0") (dec "116.0") F1 ltac:(rewrite V0; lra) ltac:(rewrite V1, V0; unfold HUGE; lra)) as [E8 G8].
    destruct (fmul_S (dec "116.0") (fdiv (dec "16.0") (dec "116.0")) F0 F5 ltac:(rewrite V0, V5; unfold HUGE; lra)) as [E9 G9].
    assert (M : B2R (fdiv (dec "16.0") (dec "116.0")) <= B2R (fdiv w (dec "116.0"))).
    { rewrite E7, E8. apply rnd_mono. rewrite V0, V1. lra. }
    assert (U : B2R (fdiv w (dec "116.0")) <= 1) by (rewrite E7; apply (rnd_le_IZR _ 1); [lia|lra]).
    set (x := fdiv w (dec "116.0")) in *. clearbody x. clear E7.
    assert (16 <= rnd (116 * B2R x)) by (replace 16 with (B2R (fmul (dec "116.0") (fdiv (dec "16.0") (dec "116.0")))) by lra; rewrite E9, V0; apply rnd_mono; lra).
    assert (rnd (116 * B2R x) <= 116) by (apply (rnd_le_IZR _ 116); [lia|lra]).
    split; [apply rnd_ge_0; lra|apply (rnd_le_IZR _ 100); [lia|lra]].
Qed.
End Acc.
