(** * Pale colours are in range in every round of the search.  Proof file. *)
From Coq Require Import ZArith Bool Reals Lra Lia Psatz String List.
From Flocq Require Import Core Relative IEEE754.BinarySingleNaN.
From Verif Require Import F64 Spec SpecCam SpecTone FloatFacts FloatMono MathUtils ColorUtils ViewingConditions Cam16 HctSolver PfMath PfLab PfTones PfNear PfRel PfLimit PfCamC PfCamTrip PfLabTrip PfToneReal PfToneElast PfToneStep PfToneFin PfToneLin PfToneRound PfToneIter PfToneNext PfToneLoop PfToneInit PfSolveEnd.
Open Scope string_scope.
Open Scope R_scope.

(** ** Responses that differ little *)
Lemma vv_hi x z hi W k : 0 < x <= 14 -> 0 < z <= hi * x -> z < 400 -> 1 <= W -> 0 < hi -> hi * (400 + 14 * (W - 1)) <= 400 * W -> Rpower W qc <= k -> vv Kc qc z <= k * vv Kc qc x.
Proof.
  intros hx hz h4 hW hh HW hk. pose proof Kc_pos as HK. pose proof qc_range as HQ. rewrite (vv_ratio Kc qc HK x z) by lra. rewrite Rmult_comm. apply Rmult_le_compat_r; [left; apply vv_pos|].
  apply Rle_trans with (2 := hk). apply Rle_Rpower_l; [lra|]. split; [apply Rmult_lt_0_compat; apply Rdiv_lt_0_compat; lra|].
  replace (z / x * ((400 - x) / (400 - z))) with (z * (400 - x) / (x * (400 - z))) by (field; lra).
  apply div_le; [apply Rmult_lt_0_compat; lra|].
  assert (A : (W - 1) * x <= (W - 1) * 14) by (apply Rmult_le_compat_l; lra). assert (A0 : 0 <= (W - 1) * x) by (apply Rmult_le_pos; lra).
  assert (B : z * (400 + (W - 1) * x) <= hi * x * (400 + 14 * (W - 1))) by (apply Rmult_le_compat; lra).
  assert (C : x * (hi * (400 + 14 * (W - 1))) <= x * (400 * W)) by (apply Rmult_le_compat_l; lra).
  lra.
Qed.
Lemma vv_lo x z lo W k : 0 < x <= 14 -> 0 < z -> lo * x <= z -> z < 400 -> 0 < W <= 1 -> 0 < lo -> 400 * W <= lo * (400 - 14 * (1 - W)) -> k <= Rpower W qc -> k * vv Kc qc x <= vv Kc qc z.
Proof.
  intros hx z0 hz h4 hW hl HW hk. pose proof Kc_pos as HK. pose proof qc_range as HQ. rewrite (vv_ratio Kc qc HK x z) by lra. rewrite (Rmult_comm (vv Kc qc x)). apply Rmult_le_compat_r; [left; apply vv_pos|].
  apply Rle_trans with (1 := hk). apply Rle_Rpower_l; [lra|]. split; [lra|].
  replace (z / x * ((400 - x) / (400 - z))) with (z * (400 - x) / (x * (400 - z))) by (field; lra).
  apply le_div; [apply Rmult_lt_0_compat; lra|].
  assert (A : (1 - W) * x <= (1 - W) * 14) by (apply Rmult_le_compat_l; lra).
  assert (L0 : 0 <= lo * x) by (apply Rmult_le_pos; lra).
  assert (B : lo * x * (400 - 14 * (1 - W)) <= z * (400 - (1 - W) * x)) by (apply Rmult_le_compat; lra).
  assert (C : x * (400 * W) <= x * (lo * (400 - 14 * (1 - W)))) by (apply Rmult_le_compat_l; lra).
  lra.
Qed.

Section Pale.
Context {lm : Libm} (LA : libm_accurate (1 / 10 ^ 13) lm) (PS : pow_special lm).

Lemma inv_val x : fin x -> 1 <= B2R x < 400 -> fin (inverse_chromatic_adaptation x) /\ rel (B2R (inverse_chromatic_adaptation x)) (vv Kc qc (B2R x)) (1 / 10 ^ 11).
Proof using LA.
  intros fx b. assert (N : -400 < B2R x < 400) by lra. destruct (inv_big LA x fx N) as [fv _]. split; [exact fv|].
  destruct (pow_pos_small LA x fx N) as (fp & pp & hr & _). rewrite inv_eq in *. destruct (fmul_back _ _ fv) as (fs & _ & E).
  assert (P : 0 < B2R x) by lra.
  assert (V1 : B2R (fmul (of_Z (signum x)) (powf (unbase x) inv_e)) = B2R (powf (unbase x) inv_e)).
  { rewrite E, (signum_pos x fx P). destruct (of_Z_R 1 ltac:(lia)) as [E1 _]. rewrite E1, Rmult_1_l. apply rnd_B2R. }
  rewrite V1. apply hr. lra.
Qed.

(** The three linear channels and their luminance, from responses that are nearly equal. *)
Lemma rows_facts (c1 c2 c3 : f64) : fin c1 -> fin c2 -> fin c3 -> 1 / 10 ^ 5 <= B2R c2 <= 10 ^ 6 -> 0.8794 * B2R c2 <= B2R c1 <= 1.1381 * B2R c2 -> 0.5704 * B2R c2 <= B2R c3 <= 1.6301 * B2R c2 ->
  let l := matrix_multiply (c1, c2, c3) LS in let e := B2R c2 / 10 ^ 9 in
  round_ok l /\ - e <= B2R (v0 l) - (1373.2198709594231 * B2R c1 - 1100.4251190754821 * B2R c2 - 7.278681089101213 * B2R c3) <= e /\
  - e <= B2R (v1 l) - (559.6580465940733 * B2R c2 - 271.815969077903 * B2R c1 - 32.46047482791194 * B2R c3) <= e /\
  - e <= B2R (v2 l) - (1.9622899599665666 * B2R c1 - 57.173814538844006 * B2R c2 + 308.7233197812385 * B2R c3) <= e /\
  - e <= B2R (fnj_of l) - (0.2126 * B2R (v0 l) + 0.7152 * B2R (v1 l) + 0.0722 * B2R (v2 l)) <= e.
Proof using.
  intros g1 g2 g3 h2 h1 h3 l. cbv zeta.
  assert (Y : forall c : f64, 0 <= B2R c <= 10 ^ 8 -> Rabs (B2R c) <= bpow radix2 30) by (intros c h; rewrite Rabs_pos_eq by lra; simpl bpow; lra).
  pose proof (Y c1 ltac:(lra)) as y1. pose proof (Y c2 ltac:(lra)) as y2. pose proof (Y c3 ltac:(lra)) as y3.
  assert (FF : (fin (v0 l) /\ fin (v1 l) /\ fin (v2 l)) /\ fin (fnj_of l)).
  { unfold l. rewrite LS_rows. fconst (dec "1373.2198709594231"). fconst (dec "-1100.4251190754821"). fconst (dec "-7.278681089101213").
    fconst (dec "-271.815969077903"). fconst (dec "559.6580465940733"). fconst (dec "-32.46047482791194").
    fconst (dec "1.9622899599665666"). fconst (dec "-57.173814538844006"). fconst (dec "308.7233197812385").
    destruct (row_big c1 c2 c3 _ _ _ 30 g1 g2 g3 F F0 F1 y1 y2 y3 ltac:(apply Rabs_le; lra) ltac:(apply Rabs_le; lra) ltac:(apply Rabs_le; lra) ltac:(lia)) as [q1 z1].
    destruct (row_big c1 c2 c3 _ _ _ 30 g1 g2 g3 F2 F3 F4 y1 y2 y3 ltac:(apply Rabs_le; lra) ltac:(apply Rabs_le; lra) ltac:(apply Rabs_le; lra) ltac:(lia)) as [q2 z2].
    destruct (row_big c1 c2 c3 _ _ _ 30 g1 g2 g3 F5 F6 F7 y1 y2 y3 ltac:(apply Rabs_le; lra) ltac:(apply Rabs_le; lra) ltac:(apply Rabs_le; lra) ltac:(lia)) as [q3 z3].
    match goal with |- context [fnj_of (?x, ?y, ?z)] => set (r1 := x) in *; set (r2 := y) in *; set (r3 := z) in * end. clearbody r1 r2 r3. clear F F0 F1 F2 F3 F4 F5 F6 F7 V V0 V1 V2 V3 V4 V5 V6 V7.
    fconst (dec "0.2126"). fconst (dec "0.7152"). fconst (dec "0.0722").
    destruct (row_big r1 r2 r3 _ _ _ (30 + 13) q1 q2 q3 F F0 F1 z1 z2 z3 ltac:(apply Rabs_le; lra) ltac:(apply Rabs_le; lra) ltac:(apply Rabs_le; lra) ltac:(lia)) as [q4 _].
    unfold fnj_of, v0, v1, v2, Y_FROM_LINRGB. cbn [fst snd]. rewrite (fmul_comm r1), (fmul_comm r2), (fmul_comm r3) in q4. split; [split; [exact q1|split; [exact q2|exact q3]]|exact q4]. }
  destruct FF as [F3 FN].
  destruct (linear_rows c1 c2 c3 l eq_refl F3 ltac:(lra) ltac:(lra) ltac:(lra)) as (L0 & L1 & L2). destruct F3 as (f0 & f1 & f2).
  set (r := B2R (v0 l)) in *. set (g := B2R (v1 l)) in *. set (b := B2R (v2 l)) in *.
  assert (br : 90 * B2R c2 <= r <= 500 * B2R c2) by lra. assert (bg : 90 * B2R c2 <= g <= 500 * B2R c2) by lra. assert (bb : 90 * B2R c2 <= b <= 500 * B2R c2) by lra.
  assert (LY : - (B2R c2 / 10 ^ 10) <= B2R (fnj_of l) - (0.2126 * r + 0.7152 * g + 0.0722 * b) <= B2R c2 / 10 ^ 10).
  { unfold fnj_of, Y_FROM_LINRGB in *. change (v0 (dec "0.2126", dec "0.7152", dec "0.0722")) with (dec "0.2126") in *. change (v1 (dec "0.2126", dec "0.7152", dec "0.0722")) with (dec "0.7152") in *. change (v2 (dec "0.2126", dec "0.7152", dec "0.0722")) with (dec "0.0722") in *.
    rewrite (fmul_comm _ (v0 l)), (fmul_comm _ (v1 l)), (fmul_comm _ (v2 l)) in *.
    fconst (dec "0.2126"). fconst (dec "0.7152"). fconst (dec "0.0722").
    pose proof (row_err (v0 l) (v1 l) (v2 l) _ _ _ _ _ _ 1 (500 * B2R c2) V V0 V1 ltac:(lra) ltac:(lra) ltac:(lra) ltac:(lra) FN ltac:(apply Rabs_le; fold r; lra) ltac:(apply Rabs_le; fold g; lra) ltac:(apply Rabs_le; fold b; lra) ltac:(lra)) as RE.
    fold r g b in RE. lra. }
  split.
  - fconst (dec "0.0"). constructor; [apply (flt_fin_f _ _ f0 F)|apply (flt_fin_f _ _ f1 F)|apply (flt_fin_f _ _ f2 F)|apply (fle_fin_f _ _ FN F)|exact FN]; rewrite V; fold r g b; lra.
  - fold r g b. split; [lra|]. split; [lra|]. split; lra.
Qed.

(** ** The responses of a round in terms of the ratio [q / p] of chroma and achromatic response *)
Lemma responses p p1 t hc hs q : rin p p1 t hc hs -> 5 <= B2R p -> B2R t <= 40 -> 0.001 * B2R p <= q <= 0.0125 * B2R p ->
  23 * (B2R p + 0.305) * B2R t <= q * (23 * B2R p1 - 119.1 * B2R t) ->
  exists x1 x2 x3, flin p p1 t hc hs = matrix_multiply (inverse_chromatic_adaptation x1, inverse_chromatic_adaptation x2, inverse_chromatic_adaptation x3) LS /\ fin x1 /\ fin x2 /\ fin x3 /\
    - (743.6 * q) <= 1403 * B2R x1 - 460 * B2R p <= 743.6 * q /\ - (1159.1 * q) <= 1403 * B2R x2 - 460 * B2R p <= 1159.1 * q /\ - (6559.5 * q) <= 1403 * B2R x3 - 460 * B2R p <= 6559.5 * q.
Proof using LA.
  intros [fp bp fp1 bp1 ft bt fc bc fs bs bcs] hp ht hq NT.
  destruct (fden_near p1 t hc hs fp1 bp1 ft ltac:(lra) fc bc fs bs) as [fD bD]. destruct (num_rel p t fp bp ft bt) as [fN [N0 bN]].
  set (P := B2R p) in *. set (Q := B2R p1) in *. set (T := B2R t) in *. set (C := B2R hc) in *. set (S := B2R hs) in *. set (D := den Q T C S) in *.
  assert (U := mul_bnd T (11 * C + 108 * S) T 119.1 ltac:(lra) ltac:(lra)).
  set (W := 23 * Q - 119.1 * T) in *. assert (P1 : W <= D) by (unfold D, den, W; lra). assert (W0 : 41000 <= W) by (unfold W; lra).
  set (Df := fden p1 t hc hs) in *. set (Nf := fmul (fmul (dec "23.0") (fadd p (dec "0.305"))) t) in *.
  assert (DR : W - 1 / 10 ^ 9 <= B2R Df) by (apply Rabs_le_inv in bD; lra).
  assert (QW : q * 41000 <= q * W) by (apply Rmult_le_compat_l; lra).
  assert (GB : 0 <= B2R Nf / B2R Df <= 1.004 * q).
  { split; [apply le_div; lra|apply div_le; [lra|]]. apply Rle_trans with (1.004 * q * (W - 1 / 10 ^ 9)); [lra|apply Rmult_le_compat_l; lra]. }
  destruct (fdiv_S Nf Df fN ltac:(lra) ltac:(fsmall)) as [Eg fg]. pose proof (rnd_uu (B2R Nf / B2R Df) P ltac:(lra) ltac:(lra)) as Bg. rewrite <- Eg in Bg. unfold uu in Bg.
  change (fdiv Nf Df) with (fgam p p1 t hc hs) in *. set (gm := fgam p p1 t hc hs) in *. assert (EF : flin p p1 t hc hs = matrix_multiply (inverse_chromatic_adaptation (fx1 p (fmul gm hc) (fmul gm hs)), inverse_chromatic_adaptation (fx2 p (fmul gm hc) (fmul gm hs)), inverse_chromatic_adaptation (fx3 p (fmul gm hc) (fmul gm hs))) LS) by reflexivity. clearbody gm.
  assert (GC := mul_bnd (B2R gm) C (1.005 * q) 1.0001 ltac:(lra) ltac:(lra)). assert (GS := mul_bnd (B2R gm) S (1.005 * q) 1.0001 ltac:(lra) ltac:(lra)).
  destruct (fmul_S gm hc fg fc ltac:(fold C; fsmall)) as [Ea fa]. pose proof (rnd_uu (B2R gm * B2R hc) P ltac:(fold C; lra) ltac:(lra)) as Ba. rewrite <- Ea in Ba. fold C in Ba. unfold uu in Ba.
  destruct (fmul_S gm hs fg fs ltac:(fold S; fsmall)) as [Eb fb]. pose proof (rnd_uu (B2R gm * B2R hs) P ltac:(fold S; lra) ltac:(lra)) as Bb. rewrite <- Eb in Bb. fold S in Bb. unfold uu in Bb.
  set (a := fmul gm hc) in *. set (b := fmul gm hs) in *. clearbody a b.
  assert (ba : - (1.006 * q) <= B2R a <= 1.006 * q) by lra. assert (bb : - (1.006 * q) <= B2R b <= 1.006 * q) by lra.
  clear - LA fp fa fb bp hp hq ba bb EF.
  fconst (dec "451.0"). fconst (dec "288.0"). fconst (dec "891.0"). fconst (dec "261.0"). fconst (dec "220.0"). fconst (dec "6300.0").
  assert (up : Rabs (B2R p) <= P) by (fold P; apply Rabs_le; lra). assert (ua : Rabs (B2R a) <= P) by (apply Rabs_le; lra). assert (ub : Rabs (B2R b) <= P) by (apply Rabs_le; lra).
  pose proof (proj1 (fx_fin_add p a b _ _ fp fa fb F F0 ltac:(fold P; lra) ltac:(lra) ltac:(lra) ltac:(lra) ltac:(lra))) as k1.
  pose proof (proj2 (fx_fin_add p a b _ _ fp fa fb F1 F2 ltac:(fold P; lra) ltac:(lra) ltac:(lra) ltac:(lra) ltac:(lra))) as k2.
  pose proof (proj2 (fx_fin_add p a b _ _ fp fa fb F3 F4 ltac:(fold P; lra) ltac:(lra) ltac:(lra) ltac:(lra) ltac:(lra))) as k3.
  destruct (comb_add p a b _ _ _ _ P V V0 ltac:(lra) ltac:(lra) k1) as [_ C1]. specialize (C1 up ua ub ltac:(lra)). 
  destruct (comb_sub p a b _ _ _ _ P V1 V2 ltac:(lra) ltac:(lra) k2) as [_ C2]. specialize (C2 up ua ub ltac:(lra)).
  destruct (comb_sub p a b _ _ _ _ P V3 V4 ltac:(lra) ltac:(lra) k3) as [_ C3]. specialize (C3 up ua ub ltac:(lra)).
  fold (fx1 p a b) in C1, k1. fold (fx2 p a b) in C2, k2. fold (fx3 p a b) in C3, k3. apply Rabs_le_inv in C1, C2, C3. fold P in C1, C2, C3.
  set (x1 := fx1 p a b) in *. set (x2 := fx2 p a b) in *. set (x3 := fx3 p a b) in *. clearbody x1 x2 x3.
  exists x1, x2, x3. split; [exact EF|]. split; [exact k1|]. split; [exact k2|]. split; [exact k3|]. split; [lra|]. split; lra.
Qed.

Lemma vv_mid x : 1 <= x <= 14 -> 2 / 10 ^ 5 <= vv Kc qc x <= 100.
Proof using.
  intros hx. pose proof qc_range as HQ. unfold vv, Kc. fconst (dec "27.13").
  assert (B : 0.05 <= B2R (dec "27.13") * x / (400 - x) <= 1) by (rewrite V; split; [apply le_div; lra|apply div_le; lra]).
  split.
  - apply Rle_trans with (Rpower 0.05 qc); [apply (pow_lo_small _ _ _ 5 2); simpl; lra || lia|apply Rle_Rpower_l; lra].
  - apply Rle_trans with (Rpower 1 qc); [apply Rle_Rpower_l; lra|]. unfold Rpower. rewrite ln_1, Rmult_0_r, exp_0. lra.
Qed.

(** ** Rounds whose lightness and chroma are those of a pale colour *)
Lemma round_10 p p1 t hc hs : rin p p1 t hc hs -> 5 <= B2R p -> B2R t <= 40 -> 23 * (B2R p + 0.305) * B2R t <= 0.0125 * B2R p * (23 * B2R p1 - 119.1 * B2R t) ->
  let l := flin p p1 t hc hs in
  round_ok l /\ B2R (v0 l) <= 1.84 * B2R (fnj_of l) /\ B2R (v1 l) <= 1.84 * B2R (fnj_of l) /\ B2R (v2 l) <= 1.84 * B2R (fnj_of l).
Proof using LA.
  intros RI hp ht NT. pose proof (i_p _ _ _ _ _ RI) as bp. destruct (responses p p1 t hc hs (0.0125 * B2R p) RI hp ht ltac:(lra) NT) as (x1 & x2 & x3 & E & k1 & k2 & k3 & b1 & b2 & b3).
  cbv zeta. rewrite E. clear E RI NT. set (P := B2R p) in *.
  destruct (inv_val x1 k1 ltac:(lra)) as [g1 [v1p v1e]]. destruct (inv_val x2 k2 ltac:(lra)) as [g2 [v2p v2e]]. destruct (inv_val x3 k3 ltac:(lra)) as [g3 [v3p v3e]].
  pose proof qc_range as HQ.
  pose proof (vv_hi (B2R x2) (B2R x1) 1.0535 1.0556 1.1378 ltac:(lra) ltac:(lra) ltac:(lra) ltac:(lra) ltac:(lra) ltac:(lra) ltac:(apply (pow_hi_big _ _ _ 31 13); simpl; lra || lia)) as H1.
  pose proof (vv_lo (B2R x2) (B2R x1) 0.9498 0.9480 0.8803 ltac:(lra) ltac:(lra) ltac:(lra) ltac:(lra) ltac:(lra) ltac:(lra) ltac:(lra) ltac:(apply (pow_lo_small _ _ _ 31 13); simpl; lra || lia)) as H2.
  pose proof (vv_hi (B2R x2) (B2R x3) 1.2166 1.2263 1.6267 ltac:(lra) ltac:(lra) ltac:(lra) ltac:(lra) ltac:(lra) ltac:(lra) ltac:(apply (pow_hi_big _ _ _ 31 13); simpl; lra || lia)) as H3.
  pose proof (vv_lo (B2R x2) (B2R x3) 0.7966 0.7907 0.5711 ltac:(lra) ltac:(lra) ltac:(lra) ltac:(lra) ltac:(lra) ltac:(lra) ltac:(lra) ltac:(apply (pow_lo_small _ _ _ 31 13); simpl; lra || lia)) as H4.
  pose proof (vv_mid (B2R x2) ltac:(lra)) as V2.
  destruct (rows_facts _ _ _ g1 g2 g3 ltac:(lra) ltac:(lra) ltac:(lra)) as (RO & L0 & L1 & L2 & LY).
  split; [exact RO|]. split; [lra|]. split; lra.
Qed.

Lemma round_8 p p1 t hc hs : rin p p1 t hc hs -> 5 <= B2R p -> B2R t <= 40 -> 23 * (B2R p + 0.305) * B2R t <= 0.00641 * B2R p * (23 * B2R p1 - 119.1 * B2R t) ->
  let l := flin p p1 t hc hs in
  round_ok l /\ B2R (v0 l) <= 1.38 * B2R (fnj_of l) /\ B2R (v1 l) <= 1.38 * B2R (fnj_of l) /\ B2R (v2 l) <= 1.38 * B2R (fnj_of l).
Proof using LA.
  intros RI hp ht NT. pose proof (i_p _ _ _ _ _ RI) as bp. destruct (responses p p1 t hc hs (0.00641 * B2R p) RI hp ht ltac:(lra) NT) as (x1 & x2 & x3 & E & k1 & k2 & k3 & b1 & b2 & b3).
  cbv zeta. rewrite E. clear E RI NT. set (P := B2R p) in *.
  destruct (inv_val x1 k1 ltac:(lra)) as [g1 [v1p v1e]]. destruct (inv_val x2 k2 ltac:(lra)) as [g2 [v2p v2e]]. destruct (inv_val x3 k3 ltac:(lra)) as [g3 [v3p v3e]].
  pose proof qc_range as HQ.
  pose proof (vv_hi (B2R x2) (B2R x1) 1.0270 1.0281 1.0684 ltac:(lra) ltac:(lra) ltac:(lra) ltac:(lra) ltac:(lra) ltac:(lra) ltac:(apply (pow_hi_big _ _ _ 31 13); simpl; lra || lia)) as H1.
  pose proof (vv_lo (B2R x2) (B2R x1) 0.9738 0.9728 0.9363 ltac:(lra) ltac:(lra) ltac:(lra) ltac:(lra) ltac:(lra) ltac:(lra) ltac:(lra) ltac:(apply (pow_lo_small _ _ _ 31 13); simpl; lra || lia)) as H2.
  pose proof (vv_hi (B2R x2) (B2R x3) 1.1094 1.1139 1.2934 ltac:(lra) ltac:(lra) ltac:(lra) ltac:(lra) ltac:(lra) ltac:(lra) ltac:(apply (pow_hi_big _ _ _ 31 13); simpl; lra || lia)) as H3.
  pose proof (vv_lo (B2R x2) (B2R x3) 0.8941 0.8906 0.7585 ltac:(lra) ltac:(lra) ltac:(lra) ltac:(lra) ltac:(lra) ltac:(lra) ltac:(lra) ltac:(apply (pow_lo_small _ _ _ 31 13); simpl; lra || lia)) as H4.
  pose proof (vv_mid (B2R x2) ltac:(lra)) as V2.
  destruct (rows_facts _ _ _ g1 g2 g3 ltac:(lra) ltac:(lra) ltac:(lra)) as (RO & L0 & L1 & L2 & LY).
  split; [exact RO|]. split; [lra|]. split; lra.
Qed.

Lemma round_6 p p1 t hc hs : rin p p1 t hc hs -> 5 <= B2R p -> B2R t <= 40 -> 23 * (B2R p + 0.305) * B2R t <= 0.00461 * B2R p * (23 * B2R p1 - 119.1 * B2R t) ->
  let l := flin p p1 t hc hs in
  round_ok l /\ B2R (v0 l) <= 1.276 * B2R (fnj_of l) /\ B2R (v1 l) <= 1.276 * B2R (fnj_of l) /\ B2R (v2 l) <= 1.276 * B2R (fnj_of l).
Proof using LA.
  intros RI hp ht NT. pose proof (i_p _ _ _ _ _ RI) as bp. destruct (responses p p1 t hc hs (0.00461 * B2R p) RI hp ht ltac:(lra) NT) as (x1 & x2 & x3 & E & k1 & k2 & k3 & b1 & b2 & b3).
  cbv zeta. rewrite E. clear E RI NT. set (P := B2R p) in *.
  destruct (inv_val x1 k1 ltac:(lra)) as [g1 [v1p v1e]]. destruct (inv_val x2 k2 ltac:(lra)) as [g2 [v2p v2e]]. destruct (inv_val x3 k3 ltac:(lra)) as [g3 [v3p v3e]].
  pose proof qc_range as HQ.
  pose proof (vv_hi (B2R x2) (B2R x1) 1.0194 1.0202 1.0489 ltac:(lra) ltac:(lra) ltac:(lra) ltac:(lra) ltac:(lra) ltac:(lra) ltac:(apply (pow_hi_big _ _ _ 31 13); simpl; lra || lia)) as H1.
  pose proof (vv_lo (B2R x2) (B2R x1) 0.9811 0.9803 0.9536 ltac:(lra) ltac:(lra) ltac:(lra) ltac:(lra) ltac:(lra) ltac:(lra) ltac:(lra) ltac:(apply (pow_lo_small _ _ _ 31 13); simpl; lra || lia)) as H2.
  pose proof (vv_hi (B2R x2) (B2R x3) 1.0784 1.0816 1.2058 ltac:(lra) ltac:(lra) ltac:(lra) ltac:(lra) ltac:(lra) ltac:(lra) ltac:(apply (pow_hi_big _ _ _ 31 13); simpl; lra || lia)) as H3.
  pose proof (vv_lo (B2R x2) (B2R x3) 0.9234 0.9207 0.8211 ltac:(lra) ltac:(lra) ltac:(lra) ltac:(lra) ltac:(lra) ltac:(lra) ltac:(lra) ltac:(apply (pow_lo_small _ _ _ 31 13); simpl; lra || lia)) as H4.
  pose proof (vv_mid (B2R x2) ltac:(lra)) as V2.
  destruct (rows_facts _ _ _ g1 g2 g3 ltac:(lra) ltac:(lra) ltac:(lra)) as (RO & L0 & L1 & L2 & LY).
  split; [exact RO|]. split; [lra|]. split; lra.
Qed.

Lemma round_4 p p1 t hc hs : rin p p1 t hc hs -> 5 <= B2R p -> B2R t <= 40 -> 23 * (B2R p + 0.305) * B2R t <= 0.00292 * B2R p * (23 * B2R p1 - 119.1 * B2R t) ->
  let l := flin p p1 t hc hs in
  round_ok l /\ B2R (v0 l) <= 1.19 * B2R (fnj_of l) /\ B2R (v1 l) <= 1.19 * B2R (fnj_of l) /\ B2R (v2 l) <= 1.19 * B2R (fnj_of l).
Proof using LA.
  intros RI hp ht NT. pose proof (i_p _ _ _ _ _ RI) as bp. destruct (responses p p1 t hc hs (0.00292 * B2R p) RI hp ht ltac:(lra) NT) as (x1 & x2 & x3 & E & k1 & k2 & k3 & b1 & b2 & b3).
  cbv zeta. rewrite E. clear E RI NT. set (P := B2R p) in *.
  destruct (inv_val x1 k1 ltac:(lra)) as [g1 [v1p v1e]]. destruct (inv_val x2 k2 ltac:(lra)) as [g2 [v2p v2e]]. destruct (inv_val x3 k3 ltac:(lra)) as [g3 [v3p v3e]].
  pose proof qc_range as HQ.
  pose proof (vv_hi (B2R x2) (B2R x1) 1.0123 1.0129 1.0311 ltac:(lra) ltac:(lra) ltac:(lra) ltac:(lra) ltac:(lra) ltac:(lra) ltac:(apply (pow_hi_big _ _ _ 31 13); simpl; lra || lia)) as H1.
  pose proof (vv_lo (B2R x2) (B2R x1) 0.9879 0.9874 0.9701 ltac:(lra) ltac:(lra) ltac:(lra) ltac:(lra) ltac:(lra) ltac:(lra) ltac:(lra) ltac:(apply (pow_lo_small _ _ _ 31 13); simpl; lra || lia)) as H2.
  pose proof (vv_hi (B2R x2) (B2R x3) 1.0495 1.0515 1.1273 ltac:(lra) ltac:(lra) ltac:(lra) ltac:(lra) ltac:(lra) ltac:(lra) ltac:(apply (pow_hi_big _ _ _ 31 13); simpl; lra || lia)) as H3.
  pose proof (vv_lo (B2R x2) (B2R x3) 0.9513 0.9495 0.8837 ltac:(lra) ltac:(lra) ltac:(lra) ltac:(lra) ltac:(lra) ltac:(lra) ltac:(lra) ltac:(apply (pow_lo_small _ _ _ 31 13); simpl; lra || lia)) as H4.
  pose proof (vv_mid (B2R x2) ltac:(lra)) as V2.
  destruct (rows_facts _ _ _ g1 g2 g3 ltac:(lra) ltac:(lra) ltac:(lra)) as (RO & L0 & L1 & L2 & LY).
  split; [exact RO|]. split; [lra|]. split; lra.
Qed.
End Pale.
