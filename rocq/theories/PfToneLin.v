(** * What the sign tests of a round say about the cone values.  Proof file. *)
From Coq Require Import ZArith Bool Reals Lra Lia Psatz String List.
From Flocq Require Import Core Relative IEEE754.BinarySingleNaN.
From Verif Require Import F64 Spec SpecCam FloatFacts FloatMono MathUtils HctSolver PfMath PfLab PfTones PfNear PfRel PfLimit PfLabTrip PfToneFin PfToneReal PfToneElast.
Open Scope string_scope.
Open Scope R_scope.

Lemma eta_le (v : f64) : fin v -> B2R v <> 0 -> 2 * eta <= Rabs (B2R v).
Proof.
  intros f n. assert (S : is_finite_strict v = true).
  { destruct v as [s|s| |s m e p]; try discriminate f; [|reflexivity]. exfalso. now apply n. }
  pose proof (abs_B2R_ge_emin 53 1024 v S) as E. unfold eta.
  replace 2 with (bpow radix2 1) by (simpl; lra). rewrite <- bpow_plus. apply Rle_trans with (2 := E). apply bpow_le. vm_compute. discriminate.
Qed.

Lemma prod_err (v m : f64) M : fin (fmul v m) -> B2R m = M -> - 1400 <= M <= 1400 ->
  M * B2R v - 0.51 * Rabs (B2R v) <= B2R (fmul v m) <= M * B2R v + 0.51 * Rabs (B2R v).
Proof.
  intros f hm b. destruct (fmul_back v m f) as (fv & fm & E). rewrite E, hm.
  destruct (Req_dec (B2R v) 0) as [z|z]; [rewrite z, Rmult_0_l, rnd_0, Rabs_R0; lra|].
  pose proof (eta_le v fv z) as T. pose proof (rnd_err (B2R v * M)) as R. fold eta in R. rewrite Rabs_mult in R.
  assert (A : Rabs M <= 1400) by (apply Rabs_le; lra).
  assert (Rabs (B2R v) * Rabs M <= Rabs (B2R v) * 1400) by (apply Rmult_le_compat_l; [apply Rabs_pos|exact A]).
  apply Rabs_le_inv in R. lra.
Qed.
Lemma prod_err_abs (v m : f64) M Mx S : fin (fmul v m) -> B2R m = M -> - Mx <= M <= Mx -> 1 <= Mx -> Rabs (B2R v) <= S -> 1 / 10 ^ 40 <= S ->
  M * B2R v - S * Mx * (1.2 / 10 ^ 16) <= B2R (fmul v m) <= M * B2R v + S * Mx * (1.2 / 10 ^ 16).
Proof.
  intros f hm b h1 hv hS. destruct (fmul_back v m f) as (fv & fm & E). rewrite E, hm.
  pose proof (rnd_err (B2R v * M)) as R. fold eta in R. rewrite Rabs_mult in R. pose proof eta_small.
  assert (A : Rabs M <= Mx) by (apply Rabs_le; lra).
  assert (Rabs (B2R v) * Rabs M <= S * Mx) by (apply Rmult_le_compat; try apply Rabs_pos; lra).
  assert (1 / 10 ^ 40 * 1 <= S * Mx) by (apply Rmult_le_compat; lra).
  apply Rabs_le_inv in R. lra.
Qed.

Lemma add_rel (x y : f64) : exists e, Rabs e <= 1.2 / 10 ^ 16 /\ rnd (B2R x + B2R y) = (B2R x + B2R y) * (1 + e).
Proof. pose proof (sub_rel x (fneg y)) as Q. rewrite fneg_R in Q. replace (B2R x - - B2R y) with (B2R x + B2R y) in Q by ring. exact Q. Qed.

(** One row: a non-negative rounded row is non-negative up to a small error. *)
Lemma row_sign (a b c ma mb mc : f64) A B C : B2R ma = A -> B2R mb = B -> B2R mc = C -> - 1400 <= A <= 1400 -> - 1400 <= B <= 1400 -> - 1400 <= C <= 1400 ->
  fin (fadd (fadd (fmul a ma) (fmul b mb)) (fmul c mc)) -> 0 <= B2R (fadd (fadd (fmul a ma) (fmul b mb)) (fmul c mc)) ->
  fin a /\ fin b /\ fin c /\
  0 <= A * B2R a + B * B2R b + C * B2R c + 0.52 * (Rabs (B2R a) + Rabs (B2R b) + Rabs (B2R c)).
Proof.
  intros ha hb hc bA bB bC f h. destruct (fadd_back _ _ f) as (f1 & f2 & E). destruct (fadd_back _ _ f1) as (f3 & f4 & E1).
  destruct (fmul_back _ _ f2) as (fc & _ & _). destruct (fmul_back _ _ f3) as (fa & _ & _). destruct (fmul_back _ _ f4) as (fb & _ & _).
  split; [exact fa|]. split; [exact fb|]. split; [exact fc|].
  pose proof (prod_err a ma A f3 ha bA) as Pa. pose proof (prod_err b mb B f4 hb bB) as Pb. pose proof (prod_err c mc C f2 hc bC) as Pc.
  assert (S : 0 <= B2R (fadd (fmul a ma) (fmul b mb)) + B2R (fmul c mc)).
  { destruct (Rle_or_lt 0 (B2R (fadd (fmul a ma) (fmul b mb)) + B2R (fmul c mc))) as [k|k]; [exact k|exfalso].
    pose proof (rnd_le_0 _ (Rlt_le _ _ k)) as Q. rewrite E in h. assert (Z := Rle_antisym _ _ Q h). apply rnd_add_0 in Z. lra. }
  destruct (add_rel (fmul a ma) (fmul b mb)) as (e & be & Ee). rewrite E1, Ee in S. apply Rabs_le_inv in be.
  set (x := B2R (fmul a ma)) in *. set (y := B2R (fmul b mb)) in *. set (z := B2R (fmul c mc)) in *.
  assert (X : Rabs x <= 1401 * Rabs (B2R a)).
  { apply Rabs_le. assert (T := mul_bnd A (B2R a) 1400 (Rabs (B2R a)) bA ltac:(apply Rabs_le_inv; lra)). pose proof (Rabs_pos (B2R a)). lra. }
  assert (Y : Rabs y <= 1401 * Rabs (B2R b)).
  { apply Rabs_le. assert (T := mul_bnd B (B2R b) 1400 (Rabs (B2R b)) bB ltac:(apply Rabs_le_inv; lra)). pose proof (Rabs_pos (B2R b)). lra. }
  apply Rabs_le_inv in X, Y.
  assert (W := mul_bnd (x + y) e (1401 * (Rabs (B2R a) + Rabs (B2R b))) (1.2 / 10 ^ 16) ltac:(lra) be). 
  pose proof (Rabs_pos (B2R a)). pose proof (Rabs_pos (B2R b)). lra.
Qed.

Lemma row_zero (a b c ma mb mc : f64) : fin (fadd (fadd (fmul a ma) (fmul b mb)) (fmul c mc)) -> B2R a = 0 -> B2R b = 0 -> B2R c = 0 ->
  B2R (fadd (fadd (fmul a ma) (fmul b mb)) (fmul c mc)) = 0.
Proof.
  intros f za zb zc. destruct (fadd_back _ _ f) as (f1 & f2 & E). destruct (fadd_back _ _ f1) as (f3 & f4 & E1).
  destruct (fmul_back _ _ f2) as (_ & _ & E2). destruct (fmul_back _ _ f3) as (_ & _ & E3). destruct (fmul_back _ _ f4) as (_ & _ & E4).
  rewrite E, E1, E2, E3, E4, za, zb, zc, !Rmult_0_l, !rnd_0. replace (0 + 0) with 0 by ring. rewrite rnd_0. replace (0 + 0) with 0 by ring. apply rnd_0.
Qed.

(** The same with an absolute error, both ways. *)
Lemma row_err (a b c ma mb mc : f64) A B C Mx S : B2R ma = A -> B2R mb = B -> B2R mc = C -> - Mx <= A <= Mx -> - Mx <= B <= Mx -> - Mx <= C <= Mx -> 1 <= Mx ->
  fin (fadd (fadd (fmul a ma) (fmul b mb)) (fmul c mc)) -> Rabs (B2R a) <= S -> Rabs (B2R b) <= S -> Rabs (B2R c) <= S -> 1 / 10 ^ 40 <= S ->
  A * B2R a + B * B2R b + C * B2R c - S * Mx * (1.2 / 10 ^ 15) <= B2R (fadd (fadd (fmul a ma) (fmul b mb)) (fmul c mc)) <= A * B2R a + B * B2R b + C * B2R c + S * Mx * (1.2 / 10 ^ 15).
Proof.
  intros ha hb hc bA bB bC h1 f sa sb sc hS. destruct (fadd_back _ _ f) as (f1 & f2 & E). destruct (fadd_back _ _ f1) as (f3 & f4 & E1).
  pose proof (prod_err_abs a ma A Mx S f3 ha bA h1 sa hS) as Pa. pose proof (prod_err_abs b mb B Mx S f4 hb bB h1 sb hS) as Pb. pose proof (prod_err_abs c mc C Mx S f2 hc bC h1 sc hS) as Pc.
  rewrite E. set (x := B2R (fmul a ma)) in *. set (y := B2R (fmul b mb)) in *. set (z := B2R (fmul c mc)) in *.
  destruct (add_rel (fadd (fmul a ma) (fmul b mb)) (fmul c mc)) as (e' & be' & Ee'). fold z in Ee'.
  destruct (add_rel (fmul a ma) (fmul b mb)) as (e & be & Ee). rewrite Ee', E1. fold x y in Ee. rewrite Ee. apply Rabs_le_inv in be, be'.
  apply Rabs_le_inv in sa, sb, sc.
  assert (Ta := mul_bnd A (B2R a) Mx S bA sa). assert (Tb := mul_bnd B (B2R b) Mx S bB sb). assert (Tc := mul_bnd C (B2R c) Mx S bC sc).
  assert (0 < S * Mx) by (apply Rmult_lt_0_compat; lra). set (N := S * Mx) in *. replace (Mx * S) with N in * by (unfold N; ring).
  assert (W := mul_bnd (x + y) e (2.1 * N) (1.2 / 10 ^ 16) ltac:(lra) be).
  assert (W' := mul_bnd ((x + y) * (1 + e) + z) e' (3.2 * N) (1.2 / 10 ^ 16) ltac:(lra) be').
  lra.
Qed.

(** Exact signs: rows that are almost non-negative force positive values. *)
Lemma signs a b c : 
  0 <= 1373.2 * a - 1100.4 * b - 7.2 * c + 0.7 * (Rabs a + Rabs b + Rabs c) ->
  0 <= - 271.8 * a + 559.6 * b - 32.4 * c + 0.7 * (Rabs a + Rabs b + Rabs c) ->
  0 <= 1.9 * a - 57.1 * b + 308.7 * c + 0.7 * (Rabs a + Rabs b + Rabs c) ->
  (a = 0 /\ b = 0 /\ c = 0) \/ (0 < a /\ 0 < b /\ 0 < c).
Proof.
  intros h0 h1 h2. unfold Rabs in *.
  destruct (Rcase_abs a), (Rcase_abs b), (Rcase_abs c); try (exfalso; lra).
  destruct (Req_dec a 0), (Req_dec b 0), (Req_dec c 0); try (left; lra); try (right; lra); try (exfalso; lra).
Qed.

Definition fnj_of (lin : vec3) : f64 :=
  fadd (fadd (fmul (v0 Y_FROM_LINRGB) (v0 lin)) (fmul (v1 Y_FROM_LINRGB) (v1 lin))) (fmul (v2 Y_FROM_LINRGB) (v2 lin)).

Record round_ok (lin : vec3) : Prop := {
  ro_0 : flt (v0 lin) (dec "0.0") = false; ro_1 : flt (v1 lin) (dec "0.0") = false; ro_2 : flt (v2 lin) (dec "0.0") = false;
  ro_f : fle (fnj_of lin) (dec "0.0") = false; ro_fin : fin (fnj_of lin) }.

Lemma round_lin lin : round_ok lin -> (fin (v0 lin) /\ fin (v1 lin) /\ fin (v2 lin)) /\ (0 <= B2R (v0 lin) /\ 0 <= B2R (v1 lin) /\ 0 <= B2R (v2 lin)) /\ 0 < B2R (fnj_of lin).
Proof.
  intros [h0 h1 h2 hf ff]. unfold fnj_of in *. destruct (fadd_back _ _ ff) as (g1 & g2 & _). destruct (fadd_back _ _ g1) as (g3 & g4 & _).
  destruct (fmul_back _ _ g2) as (_ & f2 & _). destruct (fmul_back _ _ g3) as (_ & f0 & _). destruct (fmul_back _ _ g4) as (_ & f1 & _).
  fconst (dec "0.0"). apply (flt_fin_f _ _ f0 F) in h0. apply (flt_fin_f _ _ f1 F) in h1. apply (flt_fin_f _ _ f2 F) in h2. apply (fle_fin_f _ _ ff F) in hf.
  rewrite V in *. split; [split; [exact f0|split; [exact f1|exact f2]]|]. split; [split; [exact h0|split; [exact h1|exact h2]]|exact hf].
Qed.

Definition LS : mat3 := LINRGB_FROM_SCALED_DISCOUNT.
Lemma LS_rows a b c : matrix_multiply (a, b, c) LS =
  (fadd (fadd (fmul a (dec "1373.2198709594231")) (fmul b (dec "-1100.4251190754821"))) (fmul c (dec "-7.278681089101213")),
   fadd (fadd (fmul a (dec "-271.815969077903")) (fmul b (dec "559.6580465940733"))) (fmul c (dec "-32.46047482791194")),
   fadd (fadd (fmul a (dec "1.9622899599665666")) (fmul b (dec "-57.173814538844006"))) (fmul c (dec "308.7233197812385"))).
Proof. reflexivity. Qed.

Lemma good_v a b c : round_ok (matrix_multiply (a, b, c) LS) -> (fin a /\ fin b /\ fin c) /\ (0 < B2R a /\ 0 < B2R b /\ 0 < B2R c).
Proof.
  intros R. destruct (round_lin _ R) as ((f0 & f1 & f2) & (p0 & p1 & p2) & pf). pose proof (ro_fin _ R) as ff. clear R.
  rewrite LS_rows in *. set (r0 := fadd _ (fmul c (dec "-7.278681089101213"))) in *. set (r1 := fadd _ (fmul c (dec "-32.46047482791194"))) in *.
  set (r2 := fadd _ (fmul c (dec "308.7233197812385"))) in *. unfold v0, v1, v2 in f0, f1, f2, p0, p1, p2. cbn [fst snd] in f0, f1, f2, p0, p1, p2.
  fconst (dec "1373.2198709594231"). fconst (dec "-1100.4251190754821"). fconst (dec "-7.278681089101213").
  fconst (dec "-271.815969077903"). fconst (dec "559.6580465940733"). fconst (dec "-32.46047482791194").
  fconst (dec "1.9622899599665666"). fconst (dec "-57.173814538844006"). fconst (dec "308.7233197812385").
  pose proof (row_sign a b c _ _ _ _ _ _ V V0 V1 ltac:(lra) ltac:(lra) ltac:(lra) f0 p0) as (fa & fb & fc & S0).
  pose proof (row_sign a b c _ _ _ _ _ _ V2 V3 V4 ltac:(lra) ltac:(lra) ltac:(lra) f1 p1) as (_ & _ & _ & S1).
  pose proof (row_sign a b c _ _ _ _ _ _ V5 V6 V7 ltac:(lra) ltac:(lra) ltac:(lra) f2 p2) as (_ & _ & _ & S2).
  split; [split; [exact fa|split; [exact fb|exact fc]]|].
  assert (Aa := Rabs_le_inv _ _ (Rle_refl (Rabs (B2R a)))). assert (Ab := Rabs_le_inv _ _ (Rle_refl (Rabs (B2R b)))). assert (Ac := Rabs_le_inv _ _ (Rle_refl (Rabs (B2R c)))).
  destruct (signs (B2R a) (B2R b) (B2R c) ltac:(lra) ltac:(lra) ltac:(lra)) as [(za & zb & zc)|Q]; [exfalso|exact Q].
  assert (Z0 : B2R r0 = 0) by (unfold r0; pose proof (row_zero a b c _ _ _ f0 za zb zc) as Z; exact Z).
  assert (Z1 : B2R r1 = 0) by (unfold r1; pose proof (row_zero a b c _ _ _ f1 za zb zc) as Z; exact Z).
  assert (Z2 : B2R r2 = 0) by (unfold r2; pose proof (row_zero a b c _ _ _ f2 za zb zc) as Z; exact Z).
  assert (ZF : B2R (fnj_of (r0, r1, r2)) = 0); [|rewrite ZF in pf; lra].
  unfold fnj_of, v0, v1, v2, Y_FROM_LINRGB in *. cbn [fst snd] in *.
  destruct (fadd_back _ _ ff) as (g1 & g2 & E). destruct (fadd_back _ _ g1) as (g3 & g4 & E1).
  destruct (fmul_back _ _ g2) as (_ & _ & E2). destruct (fmul_back _ _ g3) as (_ & _ & E3). destruct (fmul_back _ _ g4) as (_ & _ & E4).
  rewrite E, E1, E2, E3, E4, Z0, Z1, Z2, !Rmult_0_r, !rnd_0. replace (0 + 0) with 0 by ring. rewrite rnd_0. replace (0 + 0) with 0 by ring. apply rnd_0.
Qed.

Lemma good_ratio a b c : round_ok (matrix_multiply (a, b, c) LS) -> 1 / 10 ^ 30 <= B2R a \/ 1 / 10 ^ 30 <= B2R b \/ 1 / 10 ^ 30 <= B2R c ->
  1 / 10 ^ 32 <= B2R b /\ 0.7995 * B2R b <= B2R a <= 2.045 * B2R b /\ 0.1715 * B2R b <= B2R c <= 10.15 * B2R b /\
  let W := w1 * B2R a + w2 * B2R b - w3 * B2R c in W * (1 - 1 / 10 ^ 9) <= B2R (fnj_of (matrix_multiply (a, b, c) LS)) <= W * (1 + 1 / 10 ^ 9).
Proof.
  intros R big. destruct (good_v _ _ _ R) as ((fa & fb & fc) & (pa & pb & pc)).
  destruct (round_lin _ R) as ((f0 & f1 & f2) & (p0 & p1 & p2) & pf). pose proof (ro_fin _ R) as ff. clear R.
  rewrite LS_rows in *. set (r0 := fadd _ (fmul c (dec "-7.278681089101213"))) in *. set (r1 := fadd _ (fmul c (dec "-32.46047482791194"))) in *.
  set (r2 := fadd _ (fmul c (dec "308.7233197812385"))) in *. unfold v0, v1, v2 in f0, f1, f2, p0, p1, p2. cbn [fst snd] in f0, f1, f2, p0, p1, p2.
  fconst (dec "1373.2198709594231"). fconst (dec "-1100.4251190754821"). fconst (dec "-7.278681089101213").
  fconst (dec "-271.815969077903"). fconst (dec "559.6580465940733"). fconst (dec "-32.46047482791194").
  fconst (dec "1.9622899599665666"). fconst (dec "-57.173814538844006"). fconst (dec "308.7233197812385").
  set (S := B2R a + B2R b + B2R c). assert (hS : 1 / 10 ^ 30 <= S) by (unfold S; lra).
  assert (ua : Rabs (B2R a) <= S) by (rewrite Rabs_pos_eq; unfold S; lra). assert (ub : Rabs (B2R b) <= S) by (rewrite Rabs_pos_eq; unfold S; lra).
  assert (uc : Rabs (B2R c) <= S) by (rewrite Rabs_pos_eq; unfold S; lra).
  pose proof (row_err a b c _ _ _ _ _ _ 1400 S V V0 V1 ltac:(lra) ltac:(lra) ltac:(lra) ltac:(lra) f0 ua ub uc ltac:(lra)) as S0. fold r0 in S0.
  pose proof (row_err a b c _ _ _ _ _ _ 1400 S V2 V3 V4 ltac:(lra) ltac:(lra) ltac:(lra) ltac:(lra) f1 ua ub uc ltac:(lra)) as S1. fold r1 in S1.
  pose proof (row_err a b c _ _ _ _ _ _ 1400 S V5 V6 V7 ltac:(lra) ltac:(lra) ltac:(lra) ltac:(lra) f2 ua ub uc ltac:(lra)) as S2. fold r2 in S2.
  assert (A1 : 0.7995 * B2R b <= B2R a <= 2.045 * B2R b) by (unfold S in *; lra).
  assert (A2 : 0.1715 * B2R b <= B2R c <= 10.15 * B2R b) by (unfold S in *; lra).
  split; [unfold S in *; lra|]. split; [exact A1|]. split; [exact A2|].
  clearbody r0 r1 r2. assert (SB : S <= 13.2 * B2R b) by (unfold S; lra).
  assert (FN : B2R (fnj_of (r0, r1, r2)) = B2R (fadd (fadd (fmul r0 (dec "0.2126")) (fmul r1 (dec "0.7152"))) (fmul r2 (dec "0.0722"))) /\
    fin (fadd (fadd (fmul r0 (dec "0.2126")) (fmul r1 (dec "0.7152"))) (fmul r2 (dec "0.0722")))).
  { unfold fnj_of, v0, v1, v2, Y_FROM_LINRGB in *. cbn [fst snd] in *. rewrite (fmul_comm r0), (fmul_comm r1), (fmul_comm r2). split; [reflexivity|exact ff]. }
  cbv zeta. unfold w1, w2, w3. destruct FN as [FN G]. rewrite FN.
  fconst (dec "0.2126"). fconst (dec "0.7152"). fconst (dec "0.0722").
  pose proof (row_err r0 r1 r2 _ _ _ _ _ _ 1 (2600 * S) V8 V9 V10 ltac:(lra) ltac:(lra) ltac:(lra) ltac:(lra) G ltac:(rewrite Rabs_pos_eq; unfold S in *; lra) ltac:(rewrite Rabs_pos_eq; unfold S in *; lra) ltac:(rewrite Rabs_pos_eq; unfold S in *; lra) ltac:(lra)) as SF.
  unfold S in *. lra.
Qed.
