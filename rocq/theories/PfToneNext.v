(** * After a round that passed, the next one computes a finite luminance.  Proof file. *)
From Coq Require Import ZArith Bool Reals Lra Lia Psatz String List.
From Flocq Require Import Core Relative IEEE754.BinarySingleNaN.
From Verif Require Import F64 Spec SpecCam SpecTone FloatFacts FloatMono MathUtils HctSolver PfMath PfLab PfTones PfNear PfRel PfLimit PfCamC PfLabTrip PfToneReal PfToneElast PfToneStep PfToneFin PfToneLin PfToneRound PfToneIter.
Open Scope string_scope.
Open Scope R_scope.

(** ** From one (p, t) to another with the same hue *)
Lemma next_resp p p1 t C S p' t' : 0 < p -> 0 < t -> 2000 <= p1 -> den p1 t C S <> 0 -> cone (R1 p p1 t C S) (R2 p p1 t C S) (R3 p p1 t C S) -> PP (R1 p p1 t C S) (R2 p p1 t C S) (R3 p p1 t C S) <= 13.4 ->
  0.9 <= C * C + S * S -> 0 < p' <= 40.86 -> p' + 0.305 <= 1.47 * (p + 0.305) -> 0 < t' <= 1.501 * t ->
  0 < den p1 t' C S /\ t' <= 22 * den p1 t' C S /\ Rabs (gam p' p1 t' C S) <= 250 /\
  Rabs (R1 p' p1 t' C S) <= 350 /\ Rabs (R2 p' p1 t' C S) <= 350 /\ Rabs (R3 p' p1 t' C S) <= 350.
Proof.
  intros hp ht h1 hD Cn hP hcs hp' hpp ht'. pose proof (kap_range p p1 t C S hp hD Cn) as K. set (D := den p1 t C S) in *. set (k := kap p1 t C S) in *.
  assert (KE : 23 * p1 = k * D) by (unfold k, kap; fold D; field; exact hD).
  assert (DP : 0 < D) by (destruct (Rlt_or_le 0 D) as [c|c]; [exact c|exfalso]; assert (k * - D >= 0) by (apply Rle_ge, Rmult_le_pos; lra); lra).
  set (tau := t' / t). assert (Et : t' = tau * t) by (unfold tau; field; lra).
  assert (B : 0 < tau <= 1.501) by (unfold tau; split; [apply Rdiv_lt_0_compat; lra|apply div_le; lra]).
  set (r := k + tau * (1 - k)).
  assert (ED : den p1 t' C S = r * D). { rewrite Et. unfold r, k, kap. fold D. unfold D, den in *. field. exact hD. }
  assert (Hr : 0.5 <= r).
  { unfold r. destruct (Rle_or_lt k 1) as [c|c].
    - assert (0 <= tau * (1 - k)) by (apply Rmult_le_pos; lra). lra.
    - assert (tau * (k - 1) <= 1.501 * (k - 1)) by (apply Rmult_le_compat_r; lra). lra. }
  set (G := gam p p1 t C S). assert (GE : G * D = 23 * (p + 0.305) * t) by (unfold G, gam; fold D; field; exact hD).
  (* the size of gamma *)
  destruct (cone_bounds _ _ _ _ Cn hP) as (c1 & c3 & b1 & b2 & b3 & _). pose proof (c_pos _ _ _ Cn) as c2.
  assert (Ga : - 45 <= G * C <= 45) by (unfold R1, R2, R3, X1, X2, X3 in *; fold G in c1, c2, c3, b1, b2, b3; lra).
  assert (Gb : - 13 <= G * S <= 13) by (unfold R1, R2, R3, X1, X2, X3 in *; fold G in c1, c2, c3, b1, b2, b3; lra).
  assert (GG : - 50 <= G <= 50).
  { apply Rabs_le_inv. apply Rsqr_incr_0_var; [|lra]. rewrite <- Rsqr_abs. unfold Rsqr.
    assert (T1 : (G * C) * (G * C) <= 45 * 45) by (apply Rsqr_le_abs_1; rewrite (Rabs_pos_eq 45) by lra; apply Rabs_le; lra).
    assert (T2 : (G * S) * (G * S) <= 13 * 13) by (apply Rsqr_le_abs_1; rewrite (Rabs_pos_eq 13) by lra; apply Rabs_le; lra).
    assert (T3 : G * G * 0.9 <= G * G * (C * C + S * S)) by (apply Rmult_le_compat_l; [apply Rle_0_sqr|lra]). lra. }
  assert (tD : t <= 7.2 * D).
  { assert (23 * 0.305 * t <= 23 * (p + 0.305) * t) by (apply Rmult_le_compat_r; lra). assert (G * D <= 50 * D) by (apply Rmult_le_compat_r; lra). lra. }
  assert (rD : 0.5 * D <= r * D) by (apply Rmult_le_compat_r; lra).
  split; [rewrite ED; lra|]. split; [rewrite ED; lra|].
  set (g := (p' + 0.305) / (p + 0.305) * (tau / r)).
  assert (EG : gam p' p1 t' C S = g * G).
  { unfold gam at 1. rewrite ED, Et. unfold g, G, gam. fold D. field. repeat split; lra. }
  assert (g0 : 0 <= g <= 4.42).
  { unfold g. assert (0 <= (p' + 0.305) / (p + 0.305) <= 1.47) by (split; [apply le_div; lra|apply div_le; lra]).
    assert (0 <= tau / r <= 3.002) by (split; [apply le_div; lra|apply div_le; lra]).
    split; [apply Rmult_le_pos; lra|]. apply Rle_trans with (1.47 * 3.002); [apply Rmult_le_compat; lra|lra]. }
  assert (X : forall x, - 50 <= x <= 50 -> - 221 <= g * x <= 221) by (intros x hx; pose proof (mul_bnd g x 4.42 50 ltac:(lra) ltac:(lra)); lra).
  assert (P3 : p / 3.05 <= 13.4) by (rewrite <- (PP_R p p1 t C S); exact hP).
  split; [rewrite EG; apply Rabs_le; pose proof (X G GG); lra|].
  assert (R : forall x x', x' = p' / 3.05 + g * (x - p / 3.05) -> 0 < x <= 37 -> Rabs x' <= 350).
  { intros x x' E hx. rewrite E. pose proof (X (x - p / 3.05) ltac:(lra)). apply Rabs_le. lra. }
  split; [|split].
  - apply R with (R1 p p1 t C S); [|lra]. unfold R1, X1. rewrite EG. fold G. lra.
  - apply R with (R2 p p1 t C S); [|lra]. unfold R2, X2. rewrite EG. fold G. lra.
  - apply R with (R3 p p1 t C S); [|lra]. unfold R3, X3. rewrite EG. fold G. lra.
Qed.

(** ** Bounded responses give a finite luminance *)
Lemma fx_fin_add (p a b ca cb : f64) : fin p -> fin a -> fin b -> fin ca -> fin cb -> - 300 <= B2R p <= 300 -> - 300 <= B2R a <= 300 -> - 300 <= B2R b <= 300 -> - 7000 <= B2R ca <= 7000 -> - 7000 <= B2R cb <= 7000 ->
  fin (fdiv (fadd (fadd (fmul (dec "460.0") p) (fmul ca a)) (fmul cb b)) (dec "1403.0")) /\
  fin (fdiv (fsub (fsub (fmul (dec "460.0") p) (fmul ca a)) (fmul cb b)) (dec "1403.0")).
Proof.
  intros fp fa fb fca fcb bp ba bb bca bcb. fconst (dec "1403.0"). fconst (dec "460.0").
  assert (M1 := mul_bnd (B2R ca) (B2R a) 7000 300 bca ba). assert (M2 := mul_bnd (B2R cb) (B2R b) 7000 300 bcb bb).
  destruct (fmul_S (dec "460.0") p F0 fp ltac:(rewrite V0; fsmall)) as [E1 G1]. pose proof (rnd_uu (B2R (dec "460.0") * B2R p) (10 ^ 7) ltac:(rewrite V0; lra) ltac:(lra)) as B1. rewrite <- E1, V0 in B1. unfold uu in B1.
  destruct (fmul_S ca a fca fa ltac:(fsmall)) as [E2 G2]. pose proof (rnd_uu (B2R ca * B2R a) (10 ^ 7) ltac:(lra) ltac:(lra)) as B2. rewrite <- E2 in B2. unfold uu in B2.
  destruct (fmul_S cb b fcb fb ltac:(fsmall)) as [E3 G3]. pose proof (rnd_uu (B2R cb * B2R b) (10 ^ 7) ltac:(lra) ltac:(lra)) as B3. rewrite <- E3 in B3. unfold uu in B3.
  split.
  - destruct (fadd_S _ _ G1 G2 ltac:(fsmall)) as [E4 G4]. pose proof (rnd_uu (B2R (fmul (dec "460.0") p) + B2R (fmul ca a)) (10 ^ 8) ltac:(lra) ltac:(lra)) as B4. rewrite <- E4 in B4. unfold uu in B4.
    destruct (fadd_S _ _ G4 G3 ltac:(fsmall)) as [E5 G5]. pose proof (rnd_uu (B2R (fadd (fmul (dec "460.0") p) (fmul ca a)) + B2R (fmul cb b)) (10 ^ 8) ltac:(lra) ltac:(lra)) as B5. rewrite <- E5 in B5. unfold uu in B5.
    apply (fdiv_S _ _ G5); rewrite V; fsmall.
  - destruct (fsub_S _ _ G1 G2 ltac:(fsmall)) as [E4 G4]. pose proof (rnd_uu (B2R (fmul (dec "460.0") p) - B2R (fmul ca a)) (10 ^ 8) ltac:(lra) ltac:(lra)) as B4. rewrite <- E4 in B4. unfold uu in B4.
    destruct (fsub_S _ _ G4 G3 ltac:(fsmall)) as [E5 G5]. pose proof (rnd_uu (B2R (fsub (fmul (dec "460.0") p) (fmul ca a)) - B2R (fmul cb b)) (10 ^ 8) ltac:(lra) ltac:(lra)) as B5. rewrite <- E5 in B5. unfold uu in B5.
    apply (fdiv_S _ _ G5); rewrite V; fsmall.
Qed.

(** Sizes up to 2^300, far below overflow. *)
Lemma big_ok r : Rabs r <= bpow radix2 300 -> Rabs r <= bpow radix2 1023.
Proof. intros h. apply Rle_trans with (1 := h). apply bpow_le. lia. Qed.
Lemma rnd_big r k : Rabs r <= bpow radix2 k -> (-1000 < k)%Z -> Rabs (rnd r) <= bpow radix2 k.
Proof. intros h hk. rewrite <- rnd_abs. apply rnd_le_fmt; [|exact h]. apply generic_format_bpow. unfold fexp64, FLT_exp. lia. Qed.
Lemma fmul_big (x y : f64) i j : fin x -> fin y -> Rabs (B2R x) <= bpow radix2 i -> Rabs (B2R y) <= bpow radix2 j -> (0 <= i)%Z -> (0 <= j)%Z -> (i + j <= 300)%Z ->
  fin (fmul x y) /\ Rabs (B2R (fmul x y)) <= bpow radix2 (i + j).
Proof.
  intros fx fy bx by_ hi hj h. assert (B : Rabs (B2R x * B2R y) <= bpow radix2 (i + j)).
  { rewrite Rabs_mult, bpow_plus. apply Rmult_le_compat; try apply Rabs_pos; assumption. }
  destruct (fmul_R x y fx fy) as [E F]; [apply Rle_trans with (1 := B); apply bpow_le; lia|]. split; [exact F|]. rewrite E. apply rnd_big; [exact B|lia].
Qed.
Lemma fadd_big (x y : f64) i : fin x -> fin y -> Rabs (B2R x) <= bpow radix2 i -> Rabs (B2R y) <= bpow radix2 i -> (0 <= i <= 300)%Z ->
  fin (fadd x y) /\ Rabs (B2R (fadd x y)) <= bpow radix2 (i + 1).
Proof.
  intros fx fy bx by_ hi. assert (B : Rabs (B2R x + B2R y) <= bpow radix2 (i + 1)).
  { apply Rle_trans with (1 := Rabs_triang _ _). rewrite bpow_plus. change (bpow radix2 1) with 2. lra. }
  destruct (fadd_R x y fx fy) as [E F]; [apply Rle_trans with (1 := B); apply bpow_le; lia|]. split; [exact F|]. rewrite E. apply rnd_big; [exact B|lia].
Qed.
Lemma row_big (a b c ma mb mc : f64) i : fin a -> fin b -> fin c -> fin ma -> fin mb -> fin mc -> Rabs (B2R a) <= bpow radix2 i -> Rabs (B2R b) <= bpow radix2 i -> Rabs (B2R c) <= bpow radix2 i ->
  Rabs (B2R ma) <= 2048 -> Rabs (B2R mb) <= 2048 -> Rabs (B2R mc) <= 2048 -> (0 <= i <= 250)%Z ->
  fin (fadd (fadd (fmul a ma) (fmul b mb)) (fmul c mc)) /\ Rabs (B2R (fadd (fadd (fmul a ma) (fmul b mb)) (fmul c mc))) <= bpow radix2 (i + 13).
Proof.
  intros fa fb fc fma fmb fmc ba bb bc ha hb hc hi. change 2048 with (bpow radix2 11) in ha, hb, hc.
  destruct (fmul_big a ma i 11 fa fma ba ha ltac:(lia) ltac:(lia) ltac:(lia)) as [f1 b1].
  destruct (fmul_big b mb i 11 fb fmb bb hb ltac:(lia) ltac:(lia) ltac:(lia)) as [f2 b2].
  destruct (fmul_big c mc i 11 fc fmc bc hc ltac:(lia) ltac:(lia) ltac:(lia)) as [f3 b3].
  destruct (fadd_big _ _ _ f1 f2 b1 b2 ltac:(lia)) as [f4 b4].
  assert (b3' : Rabs (B2R (fmul c mc)) <= bpow radix2 (i + 11 + 1)) by (apply Rle_trans with (1 := b3); apply bpow_le; lia).
  destruct (fadd_big _ _ _ f4 f3 b4 b3' ltac:(lia)) as [f5 b5]. replace (i + 11 + 1 + 1)%Z with (i + 13)%Z in b5 by lia. split; assumption.
Qed.

Section Next.
Context {lm : Libm} (LA : libm_accurate (1 / 10 ^ 13) lm) (PS : pow_special lm).

Lemma inv_big x : fin x -> -400 < B2R x < 400 -> fin (inverse_chromatic_adaptation x) /\ Rabs (B2R (inverse_chromatic_adaptation x)) <= bpow radix2 201.
Proof using LA.
  intros fx b. destruct (pow_pos_small LA x fx b) as (fp & pp & _). destruct (unbase_ok x fx b) as (fb & bb & _ & _). rewrite inv_eq.
  assert (PB : B2R (powf (unbase x) inv_e) <= bpow radix2 201).
  { set (u := unbase x) in *. clearbody u. pose proof qc_range as Q. pose proof inv_e_fin as FE.
    destruct (Req_dec (B2R u) 0) as [z|nz].
    { destruct (PfCamTrip.zero_pow LA u inv_e (conj fb z) FE ltac:(fold qc; lra)) as [_ E]. rewrite E. apply bpow_ge_0. }
    assert (pu : 0 < B2R u) by lra.
    assert (U : Rpower (B2R u) qc <= bpow radix2 200).
    { apply Rle_trans with (10 ^ 54); [|simpl bpow; lra].
      apply Rle_trans with (Rpower (10 ^ 18) 3).
      - apply Rle_trans with (Rpower (10 ^ 18) qc); [apply Rle_Rpower_l; lra|apply Rle_Rpower; lra].
      - replace 3 with (INR 3) by (simpl; lra). rewrite Rpower_pow by lra. lra. }
    assert (W : bpow radix2 201 = 2 * bpow radix2 200) by (replace 201%Z with (1 + 200)%Z by lia; rewrite bpow_plus; reflexivity). rewrite W.
    destruct (Rle_or_lt (Rpower (B2R u) qc) (bpow radix2 (-900))) as [t|t].
    - destruct (la_tiny _ _ LA u inv_e fb FE ltac:(lra) ltac:(fold qc; lra)) as [_ T]. destruct (T pu t) as [F B].
      assert (bpow radix2 (-800) <= bpow radix2 200) by (apply bpow_le; lia). pose proof (bpow_ge_0 radix2 200). lra.
    - assert (U9 : Rpower (B2R u) qc <= bpow radix2 900) by (apply Rle_trans with (1 := U); apply bpow_le; lia).
      destruct (la_pow _ _ LA u inv_e fb FE pu ltac:(fold qc; lra)) as [F E]. fold qc in E. apply Rabs_le_inv in E.
      assert (0 < Rpower (B2R u) qc) by apply exp_pos. lra. }
  destruct (signum_fin x) as [fs s]. 
  assert (A : Rabs (B2R (of_Z (signum x))) <= bpow radix2 0) by (change (bpow radix2 0) with 1; apply Rabs_le; lra).
  destruct (fmul_big _ _ 0 201 fs fp A ltac:(rewrite Rabs_pos_eq by exact pp; exact PB) ltac:(lia) ltac:(lia) ltac:(lia)) as [f g]. split; assumption.
Qed.

Lemma bounded_fin p p1 t hc hs : rin p p1 t hc hs ->
  let P := B2R p in let Q := B2R p1 in let T := B2R t in let C := B2R hc in let S := B2R hs in
  0 < den Q T C S -> T <= 22 * den Q T C S -> Rabs (gam P Q T C S) <= 250 ->
  Rabs (R1 P Q T C S) <= 350 -> Rabs (R2 P Q T C S) <= 350 -> Rabs (R3 P Q T C S) <= 350 -> fin (fnj_of (flin p p1 t hc hs)).
Proof using LA.
  intros [fp bp fp1 bp1 ft bt fc bc fs bs bcs] P Q T C S hD hT hG h1 h2 h3.
  destruct (fden_near p1 t hc hs fp1 bp1 ft ltac:(lra) fc bc fs bs) as [fD bD]. destruct (num_rel p t fp bp ft bt) as [fN [N0 bN]].
  fold P Q T C S in bD, bN, N0, bp, bp1, bt, bc, bs, bcs. set (D := den Q T C S) in *. set (G := gam P Q T C S) in *.
  assert (U := mul_bnd T (11 * C + 108 * S) T 119.1 ltac:(lra) ltac:(lra)).
  assert (P1 : 23 * Q <= D + 119.1 * T) by (unfold D, den; lra).
  set (Df := fden p1 t hc hs) in *. set (Nf := fmul (fmul (dec "23.0") (fadd p (dec "0.305"))) t) in *.
  assert (DR : D * (1 - 2 / 10 ^ 11) <= B2R Df <= D * (1 + 2 / 10 ^ 11)) by (apply Rabs_le_inv in bD; lra).
  assert (GE : 23 * (P + 0.305) * T = G * D) by (unfold G, gam; fold D; field; lra). rewrite GE in bN, N0.
  apply Rabs_le_inv in hG. assert (G0 : 0 < G) by (apply Rmult_lt_reg_r with D; lra).
  assert (GD : 0 < G * D) by lra.
  assert (QR : G * (1 - 1 / 10 ^ 10) <= B2R Nf / B2R Df <= G * (1 + 1 / 10 ^ 10)).
  { split; [apply le_div; [lra|]|apply div_le; [lra|]].
    - apply Rle_trans with (G * (1 - 1 / 10 ^ 10) * (D * (1 + 2 / 10 ^ 11))); [apply Rmult_le_compat_l; lra|]. lra.
    - apply Rle_trans with (G * (1 + 1 / 10 ^ 10) * (D * (1 - 2 / 10 ^ 11))); [|apply Rmult_le_compat_l; lra]. lra. }
  destruct (fdiv_S Nf Df fN ltac:(lra) ltac:(fsmall)) as [Eg fg]. pose proof (rnd_uu (B2R Nf / B2R Df) 260 ltac:(lra) ltac:(lra)) as Bg. rewrite <- Eg in Bg. unfold uu in Bg.
  change (fdiv Nf Df) with (fgam p p1 t hc hs) in *. unfold flin. cbv zeta. set (gm := fgam p p1 t hc hs) in *. clearbody gm.
  assert (gG : - (3 / 10 ^ 8) <= B2R gm - G <= 3 / 10 ^ 8) by lra.
  assert (HA := mul_bnd (B2R gm - G) C (3 / 10 ^ 8) 1.0001 gG ltac:(lra)). assert (HB := mul_bnd (B2R gm - G) S (3 / 10 ^ 8) 1.0001 gG ltac:(lra)).
  assert (GC := mul_bnd G C 250 1.0001 ltac:(lra) ltac:(lra)). assert (GS := mul_bnd G S 250 1.0001 ltac:(lra) ltac:(lra)).
  destruct (fmul_S gm hc fg fc ltac:(fold C; fsmall)) as [Ea fa]. pose proof (rnd_uu (B2R gm * B2R hc) 260 ltac:(fold C; lra) ltac:(lra)) as Ba. rewrite <- Ea in Ba. fold C in Ba. unfold uu in Ba.
  destruct (fmul_S gm hs fg fs ltac:(fold S; fsmall)) as [Eb fb]. pose proof (rnd_uu (B2R gm * B2R hs) 260 ltac:(fold S; lra) ltac:(lra)) as Bb. rewrite <- Eb in Bb. fold S in Bb. unfold uu in Bb.
  set (a := fmul gm hc) in *. set (b := fmul gm hs) in *. clearbody a b.
  fconst (dec "451.0"). fconst (dec "288.0"). fconst (dec "891.0"). fconst (dec "261.0"). fconst (dec "220.0"). fconst (dec "6300.0").
  assert (up : Rabs (B2R p) <= 300) by (fold P; apply Rabs_le; lra). assert (ua : Rabs (B2R a) <= 300) by (apply Rabs_le; lra). assert (ub : Rabs (B2R b) <= 300) by (apply Rabs_le; lra).
  pose proof (proj1 (fx_fin_add p a b _ _ fp fa fb F F0 ltac:(fold P; lra) ltac:(lra) ltac:(lra) ltac:(lra) ltac:(lra))) as k1.
  pose proof (proj2 (fx_fin_add p a b _ _ fp fa fb F1 F2 ltac:(fold P; lra) ltac:(lra) ltac:(lra) ltac:(lra) ltac:(lra))) as k2.
  pose proof (proj2 (fx_fin_add p a b _ _ fp fa fb F3 F4 ltac:(fold P; lra) ltac:(lra) ltac:(lra) ltac:(lra) ltac:(lra))) as k3.
  destruct (comb_add p a b _ _ _ _ 300 V V0 ltac:(lra) ltac:(lra) k1) as [_ C1]. specialize (C1 up ua ub ltac:(lra)). 
  destruct (comb_sub p a b _ _ _ _ 300 V1 V2 ltac:(lra) ltac:(lra) k2) as [_ C2]. specialize (C2 up ua ub ltac:(lra)).
  destruct (comb_sub p a b _ _ _ _ 300 V3 V4 ltac:(lra) ltac:(lra) k3) as [_ C3]. specialize (C3 up ua ub ltac:(lra)).
  fold (fx1 p a b) in C1, k1. fold (fx2 p a b) in C2, k2. fold (fx3 p a b) in C3, k3. apply Rabs_le_inv in C1, C2, C3, h1, h2, h3. fold P in C1, C2, C3.
  unfold R1, X1 in h1. unfold R2, X2 in h2. unfold R3, X3 in h3. fold G in h1, h2, h3.
  destruct (inv_big (fx1 p a b) k1 ltac:(lra)) as [g1 y1]. destruct (inv_big (fx2 p a b) k2 ltac:(lra)) as [g2 y2]. destruct (inv_big (fx3 p a b) k3 ltac:(lra)) as [g3 y3].
  clear - g1 y1 g2 y2 g3 y3. set (c1 := inverse_chromatic_adaptation (fx1 p a b)) in *. set (c2 := inverse_chromatic_adaptation (fx2 p a b)) in *. set (c3 := inverse_chromatic_adaptation (fx3 p a b)) in *. clearbody c1 c2 c3.
  rewrite LS_rows. fconst (dec "1373.2198709594231"). fconst (dec "-1100.4251190754821"). fconst (dec "-7.278681089101213").
  fconst (dec "-271.815969077903"). fconst (dec "559.6580465940733"). fconst (dec "-32.46047482791194").
  fconst (dec "1.9622899599665666"). fconst (dec "-57.173814538844006"). fconst (dec "308.7233197812385").
  destruct (row_big c1 c2 c3 _ _ _ 201 g1 g2 g3 F F0 F1 y1 y2 y3 ltac:(apply Rabs_le; lra) ltac:(apply Rabs_le; lra) ltac:(apply Rabs_le; lra) ltac:(lia)) as [q1 z1].
  destruct (row_big c1 c2 c3 _ _ _ 201 g1 g2 g3 F2 F3 F4 y1 y2 y3 ltac:(apply Rabs_le; lra) ltac:(apply Rabs_le; lra) ltac:(apply Rabs_le; lra) ltac:(lia)) as [q2 z2].
  destruct (row_big c1 c2 c3 _ _ _ 201 g1 g2 g3 F5 F6 F7 y1 y2 y3 ltac:(apply Rabs_le; lra) ltac:(apply Rabs_le; lra) ltac:(apply Rabs_le; lra) ltac:(lia)) as [q3 z3].
  match goal with |- fin (fnj_of (?x, ?y, ?z)) => set (r1 := x) in *; set (r2 := y) in *; set (r3 := z) in * end. clearbody r1 r2 r3. clear F F0 F1 F2 F3 F4 F5 F6 F7 V V0 V1 V2 V3 V4 V5 V6 V7.
  fconst (dec "0.2126"). fconst (dec "0.7152"). fconst (dec "0.0722").
  destruct (row_big r1 r2 r3 _ _ _ (201 + 13) q1 q2 q3 F F0 F1 z1 z2 z3 ltac:(apply Rabs_le; lra) ltac:(apply Rabs_le; lra) ltac:(apply Rabs_le; lra) ltac:(lia)) as [q4 _].
  unfold fnj_of, v0, v1, v2, Y_FROM_LINRGB. cbn [fst snd]. rewrite (fmul_comm r1), (fmul_comm r2), (fmul_comm r3) in q4. exact q4.
Qed.

Variables (aw nbb ez tic p1 hs hc chroma : f64).
Hypothesis EN : env aw nbb ez tic p1 hs hc chroma.
Notation jlin := (jlin aw nbb ez tic p1 hs hc chroma).
Notation Pj := (Pj aw nbb ez).
Notation Tj := (Tj tic chroma).

Lemma next_fin J (j' : f64) : goodJ aw nbb ez tic p1 hs hc chroma J -> 0.002 <= J <= 152 -> fin j' -> 0.002 <= B2R j' <= 152 -> 0.4999 * J <= B2R j' <= 1.65 * J -> fin (fnj_of (jlin j')).
Proof using EN LA.
  intros [gd gc gv] hJ fj hj hr. pose proof (j_rin LA _ _ _ _ _ _ _ _ EN j' fj hj) as RI.
  destruct (jp_near LA _ _ _ _ _ _ _ _ EN j' fj hj) as [_ wp]. destruct (jt_near LA _ _ _ _ _ _ _ _ EN j' fj hj) as [_ wt].
  pose proof (Pj_range _ _ _ _ _ _ _ _ EN J hJ) as PR. pose proof (Tj_range _ _ _ _ _ _ _ _ EN J hJ) as TR. pose proof e9_range as ER.
  pose proof (Pj_ratio _ _ _ _ _ _ _ _ EN J (B2R j') ltac:(lra) ltac:(lra)) as EP. pose proof (Tj_ratio _ _ _ _ _ _ _ _ EN J (B2R j') ltac:(lra) ltac:(lra)) as ET.
  pose proof RI as [_ bp _ _ _ bt _ _ _ _ _]. set (p' := B2R (jp aw nbb ez j')) in *. set (t' := B2R (jt tic chroma j')) in *.
  assert (R0 : 0.4999 <= B2R j' / J <= 1.65) by (split; [apply le_div; lra|apply div_le; lra]).
  assert (BP : exp (B2R ez * ln (B2R j' / J)) <= 1.465).
  { apply Rle_trans with (Rpower 1.65 (B2R ez)); [|apply (pow_hi_big _ _ _ 16 21); simpl; pose proof (v_E _ _ _ _ _ _ _ _ EN); lra || lia].
    unfold Rpower. apply exp_le. apply Rmult_le_compat_l; [pose proof (v_E _ _ _ _ _ _ _ _ EN); lra|]. apply ln_le'; lra. }
  assert (BT : exp (- (e9 / 2 * ln (B2R j' / J))) <= 1.5).
  { replace (- (e9 / 2 * ln (B2R j' / J))) with (e9 / 2 * ln (J / B2R j')).
    - apply Rle_trans with (Rpower 2.001 (e9 / 2)); [|apply (pow_hi_big _ _ _ 4 7); simpl; lra || lia].
      unfold Rpower. apply exp_le. apply Rmult_le_compat_l; [lra|]. apply ln_le'; [apply Rdiv_lt_0_compat; lra|apply div_le; lra].
    - replace (J / B2R j') with (/ (B2R j' / J)) by (field; lra). rewrite ln_Rinv by (apply Rdiv_lt_0_compat; lra). lra. }
  assert (p1p : Pj (B2R j') <= 1.465 * Pj J) by (rewrite EP; apply Rmult_le_compat_r; lra).
  assert (t1t : Tj (B2R j') <= 1.5 * Tj J) by (rewrite ET; apply Rmult_le_compat_r; lra).
  unfold wc in *. pose proof (PP_R (Pj J) (B2R p1) (Tj J) (B2R hc) (B2R hs)) as PE.
  destruct (next_resp (Pj J) (B2R p1) (Tj J) (B2R hc) (B2R hs) p' t' ltac:(lra) ltac:(lra) ltac:(pose proof (v_p1r _ _ _ _ _ _ _ _ EN); lra) gd gc ltac:(rewrite PE; lra) ltac:(pose proof (v_cs _ _ _ _ _ _ _ _ EN); lra) ltac:(lra) ltac:(lra) ltac:(lra)) as (d1 & d2 & d3 & d4 & d5 & d6).
  exact (bounded_fin _ _ _ _ _ RI d1 d2 d3 d4 d5 d6).
Qed.
End Next.
