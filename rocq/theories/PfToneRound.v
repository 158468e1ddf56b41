(** * One round of the solver's iteration: floats against the exact responses.  Proof file. *)
From Coq Require Import ZArith Bool Reals Lra Lia Psatz String List.
From Flocq Require Import Core Relative IEEE754.BinarySingleNaN.
From Verif Require Import F64 Spec SpecCam SpecTone FloatFacts FloatMono MathUtils HctSolver PfMath PfLab PfTones PfNear PfRel PfLimit PfCamC PfLabTrip PfToneReal PfToneElast PfToneStep PfToneFin PfToneLin.
Open Scope string_scope.
Open Scope R_scope.

(** The combination of p, a and b behind a response. *)
Lemma fmul_val (c x : f64) C M S : fin (fmul c x) -> B2R c = C -> 0 <= C <= M -> 1 <= M -> Rabs (B2R x) <= S -> 1 / 10 ^ 40 <= S ->
  C * B2R x - S * M * (1.2 / 10 ^ 16) <= B2R (fmul c x) <= C * B2R x + S * M * (1.2 / 10 ^ 16).
Proof. intros f h b h1 hs hS. rewrite fmul_comm in *. exact (prod_err_abs x c C M S f h ltac:(lra) h1 hs hS). Qed.

Lemma comb_add (p a b ca cb : f64) A B S : B2R ca = A -> B2R cb = B -> 0 <= A <= 6300 -> 0 <= B <= 6300 ->
  fin (fdiv (fadd (fadd (fmul (dec "460.0") p) (fmul ca a)) (fmul cb b)) (dec "1403.0")) ->
  (fin a /\ fin b) /\ (Rabs (B2R p) <= S -> Rabs (B2R a) <= S -> Rabs (B2R b) <= S -> 1 / 10 ^ 30 <= S ->
  Rabs (B2R (fdiv (fadd (fadd (fmul (dec "460.0") p) (fmul ca a)) (fmul cb b)) (dec "1403.0")) - (460 * B2R p + A * B2R a + B * B2R b) / 1403) <= S * (1 / 10 ^ 14)).
Proof.
  intros hA hB bA bB f. fconst (dec "1403.0"). fconst (dec "460.0").
  pose proof (fdiv_back_R _ _ f ltac:(lra)) as E0. pose proof (fdiv_back _ _ f) as f0.
  destruct (fadd_back _ _ f0) as (f1 & f2 & E). destruct (fadd_back _ _ f1) as (f3 & f4 & E1).
  destruct (fmul_back _ _ f4) as (_ & fa & _). destruct (fmul_back _ _ f2) as (_ & fb & _).
  split; [split; assumption|]. intros sp sa sb hS.
  pose proof (fmul_val (dec "460.0") p 460 6300 S f3 V0 ltac:(lra) ltac:(lra) sp ltac:(lra)) as Pp.
  pose proof (fmul_val ca a A 6300 S f4 hA bA ltac:(lra) sa ltac:(lra)) as Pa.
  pose proof (fmul_val cb b B 6300 S f2 hB bB ltac:(lra) sb ltac:(lra)) as Pb.
  rewrite E0, V, E. set (x := B2R (fmul (dec "460.0") p)) in *. set (y := B2R (fmul ca a)) in *. set (z := B2R (fmul cb b)) in *.
  destruct (add_rel (fadd (fmul (dec "460.0") p) (fmul ca a)) (fmul cb b)) as (e' & be' & Ee'). fold z in Ee'.
  destruct (add_rel (fmul (dec "460.0") p) (fmul ca a)) as (e & be & Ee). rewrite Ee', E1. fold x y in Ee. rewrite Ee. apply Rabs_le_inv in be, be'.
  apply Rabs_le_inv in sp, sa, sb.
  assert (Ta := mul_bnd A (B2R a) 6300 S ltac:(lra) sa). assert (Tb := mul_bnd B (B2R b) 6300 S ltac:(lra) sb).
  assert (W := mul_bnd (x + y) e (6800 * S) (1.2 / 10 ^ 16) ltac:(lra) be).
  assert (W' := mul_bnd ((x + y) * (1 + e) + z) e' (13200 * S) (1.2 / 10 ^ 16) ltac:(lra) be').
  set (n := ((x + y) * (1 + e) + z) * (1 + e')) in *.
  pose proof (rnd_uu (n / 1403) (10 * S) ltac:(unfold n; lra) ltac:(lra)) as U. unfold uu in U.
  apply Rabs_le. unfold n in *. lra.
Qed.
Lemma comb_sub (p a b ca cb : f64) A B S : B2R ca = A -> B2R cb = B -> 0 <= A <= 6300 -> 0 <= B <= 6300 ->
  fin (fdiv (fsub (fsub (fmul (dec "460.0") p) (fmul ca a)) (fmul cb b)) (dec "1403.0")) ->
  (fin a /\ fin b) /\ (Rabs (B2R p) <= S -> Rabs (B2R a) <= S -> Rabs (B2R b) <= S -> 1 / 10 ^ 30 <= S ->
  Rabs (B2R (fdiv (fsub (fsub (fmul (dec "460.0") p) (fmul ca a)) (fmul cb b)) (dec "1403.0")) - (460 * B2R p - A * B2R a - B * B2R b) / 1403) <= S * (1 / 10 ^ 14)).
Proof.
  intros hA hB bA bB f. fconst (dec "1403.0"). fconst (dec "460.0").
  pose proof (fdiv_back_R _ _ f ltac:(lra)) as E0. pose proof (fdiv_back _ _ f) as f0.
  destruct (fsub_back _ _ f0) as (f1 & f2 & E). destruct (fsub_back _ _ f1) as (f3 & f4 & E1).
  destruct (fmul_back _ _ f4) as (_ & fa & _). destruct (fmul_back _ _ f2) as (_ & fb & _).
  split; [split; assumption|]. intros sp sa sb hS.
  pose proof (fmul_val (dec "460.0") p 460 6300 S f3 V0 ltac:(lra) ltac:(lra) sp ltac:(lra)) as Pp.
  pose proof (fmul_val ca a A 6300 S f4 hA bA ltac:(lra) sa ltac:(lra)) as Pa.
  pose proof (fmul_val cb b B 6300 S f2 hB bB ltac:(lra) sb ltac:(lra)) as Pb.
  rewrite E0, V, E. set (x := B2R (fmul (dec "460.0") p)) in *. set (y := B2R (fmul ca a)) in *. set (z := B2R (fmul cb b)) in *.
  destruct (sub_rel (fsub (fmul (dec "460.0") p) (fmul ca a)) (fmul cb b)) as (e' & be' & Ee'). fold z in Ee'.
  destruct (sub_rel (fmul (dec "460.0") p) (fmul ca a)) as (e & be & Ee). rewrite Ee', E1. fold x y in Ee. rewrite Ee. apply Rabs_le_inv in be, be'.
  apply Rabs_le_inv in sp, sa, sb.
  assert (Ta := mul_bnd A (B2R a) 6300 S ltac:(lra) sa). assert (Tb := mul_bnd B (B2R b) 6300 S ltac:(lra) sb).
  assert (W := mul_bnd (x - y) e (6800 * S) (1.2 / 10 ^ 16) ltac:(lra) be).
  assert (W' := mul_bnd ((x - y) * (1 + e) - z) e' (13200 * S) (1.2 / 10 ^ 16) ltac:(lra) be').
  set (n := ((x - y) * (1 + e) - z) * (1 + e')) in *.
  pose proof (rnd_uu (n / 1403) (10 * S) ltac:(unfold n; lra) ltac:(lra)) as U. unfold uu in U.
  apply Rabs_le. unfold n in *. lra.
Qed.

(** The responses computed in a round. *)
Definition fden (p1 t hc hs : f64) : f64 :=
  fadd (fadd (fmul (dec "23.0") p1) (fmul (fmul (dec "11.0") t) hc)) (fmul (fmul (dec "108.0") t) hs).
Definition fgam (p p1 t hc hs : f64) : f64 := fdiv (fmul (fmul (dec "23.0") (fadd p (dec "0.305"))) t) (fden p1 t hc hs).
Definition fx1 (p a b : f64) : f64 := fdiv (fadd (fadd (fmul (dec "460.0") p) (fmul (dec "451.0") a)) (fmul (dec "288.0") b)) (dec "1403.0").
Definition fx2 (p a b : f64) : f64 := fdiv (fsub (fsub (fmul (dec "460.0") p) (fmul (dec "891.0") a)) (fmul (dec "261.0") b)) (dec "1403.0").
Definition fx3 (p a b : f64) : f64 := fdiv (fsub (fsub (fmul (dec "460.0") p) (fmul (dec "220.0") a)) (fmul (dec "6300.0") b)) (dec "1403.0").
Definition flin {lm : Libm} (p p1 t hc hs : f64) : vec3 :=
  let a := fmul (fgam p p1 t hc hs) hc in let b := fmul (fgam p p1 t hc hs) hs in
  matrix_multiply (inverse_chromatic_adaptation (fx1 p a b), inverse_chromatic_adaptation (fx2 p a b), inverse_chromatic_adaptation (fx3 p a b)) LS.

(** Cone conditions with a little room. *)
Record mcone (x1 x2 x3 : R) : Prop := {
  mc_pos : 0 < x2; mc_r : 0.91005 * x2 <= x1 <= 1.359 * x2; mc_b : 0.4705 * x2 <= x3 <= 2.659 * x2 }.
Record mvcone (x1 x2 x3 : R) : Prop := {
  mv_r : 0.7993 * vv Kc qc x2 <= vv Kc qc x1 <= 2.046 * vv Kc qc x2; mv_b : 0.1713 * vv Kc qc x2 <= vv Kc qc x3 <= 10.16 * vv Kc qc x2 }.

Lemma rp_lo x k p q : 0 < x <= 1 -> 0 < k -> (0 < q)%nat -> INR p / INR q <= 2.38 -> x ^ p <= k ^ q -> Rpower x qc <= k.
Proof. intros hx hk hq hy h. pose proof qc_range. apply pow_hi_small with p q; try assumption; lra. Qed.

Lemma cone_of_v x1 x2 x3 : 0 < x1 < 400 -> 0 < x2 < 400 -> 0 < x3 < 400 -> mvcone x1 x2 x3 -> mcone x1 x2 x3.
Proof.
  intros h1 h2 h3 [r b]. pose proof Kc_pos as HK. pose proof qc_range as HQ. constructor; [lra| |].
  - split.
    + pose proof (vv_ge Kc qc HK HQ x2 x1 0.7993 0.9101 h2 h1 ltac:(lra) ltac:(apply (rp_lo _ _ 69 29); simpl; lra || lia) ltac:(lra)) as Q.
      destruct (Rle_or_lt (0.9101 * x2) x1) as [k|k]; [lra|exfalso].
      assert (0.9101 * x2 * (400 - x2) <= 0.9101 * x2 * (400 - x1)) by (apply Rmult_le_compat_l; lra).
      assert (x1 * (400 - x2) < 0.9101 * x2 * (400 - x2)) by (apply Rmult_lt_compat_r; lra). lra.
    + pose proof (vv_ge Kc qc HK HQ x1 x2 (1 / 2.046) (1 / 1.359) h1 h2 ltac:(lra) ltac:(apply (rp_lo _ _ 19 8); simpl; lra || lia) ltac:(lra)) as Q.
      destruct (Rle_or_lt x1 (1.359 * x2)) as [k|k]; [lra|exfalso].
      assert (x2 * (400 - x1) <= x2 * (400 - x2)) by (apply Rmult_le_compat_l; lra).
      assert (1.359 * x2 * (400 - x2) < x1 * (400 - x2)) by (apply Rmult_lt_compat_r; lra). lra.
  - split.
    + pose proof (vv_ge Kc qc HK HQ x2 x3 0.1713 0.4705 h2 h3 ltac:(lra) ltac:(apply (rp_lo _ _ 19 8); simpl; lra || lia) ltac:(lra)) as Q.
      destruct (Rle_or_lt (0.4705 * x2) x3) as [k|k]; [lra|exfalso].
      assert (0.4705 * x2 * (400 - x2) <= 0.4705 * x2 * (400 - x3)) by (apply Rmult_le_compat_l; lra).
      assert (x3 * (400 - x2) < 0.4705 * x2 * (400 - x2)) by (apply Rmult_lt_compat_r; lra). lra.
    + pose proof (vv_ge Kc qc HK HQ x3 x2 (1 / 10.16) (1 / 2.659) h3 h2 ltac:(lra) ltac:(apply (rp_lo _ _ 19 8); simpl; lra || lia) ltac:(lra)) as Q.
      destruct (Rle_or_lt x3 (2.659 * x2)) as [k|k]; [lra|exfalso].
      assert (x2 * (400 - x3) <= x2 * (400 - x2)) by (apply Rmult_le_compat_l; lra).
      assert (2.659 * x2 * (400 - x2) < x3 * (400 - x2)) by (apply Rmult_lt_compat_r; lra). lra.
Qed.

Record rin (p p1 t hc hs : f64) : Prop := {
  i_fp : fin p; i_p : 1 / 10 ^ 3 <= B2R p <= 40.86;
  i_fp1 : fin p1; i_p1 : 2000 <= B2R p1 <= 6000;
  i_ft : fin t; i_t : 1 / 10 ^ 8 <= B2R t <= 10 ^ 14;
  i_fc : fin hc; i_c : -1.0001 <= B2R hc <= 1.0001;
  i_fs : fin hs; i_s : -1.0001 <= B2R hs <= 1.0001;
  i_cs : 0.99 <= B2R hc * B2R hc + B2R hs * B2R hs <= 1.01 }.

Lemma fden_near (p1 t hc hs : f64) : fin p1 -> 2000 <= B2R p1 <= 6000 -> fin t -> 0 <= B2R t <= 10 ^ 14 -> fin hc -> -1.0001 <= B2R hc <= 1.0001 -> fin hs -> -1.0001 <= B2R hs <= 1.0001 ->
  fin (fden p1 t hc hs) /\ Rabs (B2R (fden p1 t hc hs) - den (B2R p1) (B2R t) (B2R hc) (B2R hs)) <= (23 * B2R p1 + 250 * B2R t) * (2 / 10 ^ 15).
Proof.
  intros f1 b1 ft bt fc bc fs bs. unfold fden, den. fconst (dec "23.0"). fconst (dec "11.0"). fconst (dec "108.0").
  set (M := 23 * B2R p1 + 250 * B2R t). assert (hM : 40000 <= M <= 2.6 * 10 ^ 16) by (unfold M; lra).
  destruct (fmul_S (dec "23.0") p1 F f1 ltac:(rewrite V; fsmall)) as [E1 G1]. pose proof (rnd_uu (B2R (dec "23.0") * B2R p1) M ltac:(rewrite V; unfold M; lra) ltac:(lra)) as B1. rewrite <- E1, V in B1.
  destruct (fmul_S (dec "11.0") t F0 ft ltac:(rewrite V0; fsmall)) as [E2 G2]. pose proof (rnd_uu (B2R (dec "11.0") * B2R t) M ltac:(rewrite V0; unfold M; lra) ltac:(lra)) as B2. rewrite <- E2, V0 in B2.
  destruct (fmul_S (dec "108.0") t F1 ft ltac:(rewrite V1; fsmall)) as [E3 G3]. pose proof (rnd_uu (B2R (dec "108.0") * B2R t) M ltac:(rewrite V1; unfold M; lra) ltac:(lra)) as B3. rewrite <- E3, V1 in B3.
  set (x := fmul (dec "23.0") p1) in *. set (y := fmul (dec "11.0") t) in *. set (z := fmul (dec "108.0") t) in *. clearbody x y z. unfold uu in B1, B2, B3.
  pose proof (mul_err (B2R y) (B2R hc) (11 * B2R t) (B2R hc) (M * (2 / 10 ^ 16)) 0 (11 * B2R t) 1.0001 ltac:(lra) ltac:(lra) ltac:(lra) ltac:(lra) ltac:(lra) ltac:(lra)) as Ty.
  pose proof (mul_err (B2R z) (B2R hs) (108 * B2R t) (B2R hs) (M * (2 / 10 ^ 16)) 0 (108 * B2R t) 1.0001 ltac:(lra) ltac:(lra) ltac:(lra) ltac:(lra) ltac:(lra) ltac:(lra)) as Tz.
  assert (Uy := mul_bnd (11 * B2R t) (B2R hc) (11 * B2R t) 1.0001 ltac:(lra) ltac:(lra)). assert (Uz := mul_bnd (108 * B2R t) (B2R hs) (108 * B2R t) 1.0001 ltac:(lra) ltac:(lra)).
  assert (TM : 250 * B2R t <= M) by (unfold M; lra). assert (PM : 0 <= 23 * B2R p1 <= M) by (unfold M; lra).
  destruct (fmul_S y hc G2 fc ltac:(fsmall)) as [E4 G4]. pose proof (rnd_uu (B2R y * B2R hc) M ltac:(lra) ltac:(lra)) as B4. rewrite <- E4 in B4.
  destruct (fmul_S z hs G3 fs ltac:(fsmall)) as [E5 G5]. pose proof (rnd_uu (B2R z * B2R hs) M ltac:(lra) ltac:(lra)) as B5. rewrite <- E5 in B5.
  set (yy := fmul y hc) in *. set (zz := fmul z hs) in *. clearbody yy zz. unfold uu in B4, B5.
  destruct (fadd_S x yy G1 G4 ltac:(fsmall)) as [E6 G6]. pose proof (rnd_uu (B2R x + B2R yy) (1.2 * M) ltac:(lra) ltac:(lra)) as B6. rewrite <- E6 in B6. unfold uu in B6.
  destruct (fadd_S _ zz G6 G5 ltac:(fsmall)) as [E7 G7]. pose proof (rnd_uu (B2R (fadd x yy) + B2R zz) (1.5 * M) ltac:(unfold M in *; lra) ltac:(lra)) as B7. rewrite <- E7 in B7. unfold uu in B7.
  split; [exact G7|]. apply Rabs_le. lra.
Qed.

Lemma vv_lo x : 1 / 10 ^ 4 <= x < 400 -> 1 / 10 ^ 18 <= vv Kc qc x.
Proof.
  intros h. pose proof Kc_pos as HK. pose proof qc_range as HQ.
  apply Rle_trans with (vv Kc qc (1 / 10 ^ 4)); [|apply vv_mono; lra]. unfold vv.
  assert (KV : 27 <= Kc) by (unfold Kc; fconst (dec "27.13"); lra).
  apply Rle_trans with (Rpower (6 / 10 ^ 6) qc).
  - apply (pow_lo_small _ _ _ 3 1); simpl; lra || lia.
  - apply Rle_Rpower_l; [lra|]. split; [lra|]. apply le_div; lra.
Qed.

Lemma num_rel (p t : f64) : fin p -> 1 / 10 ^ 3 <= B2R p <= 40.86 -> fin t -> 1 / 10 ^ 8 <= B2R t <= 10 ^ 14 ->
  frel (fmul (fmul (dec "23.0") (fadd p (dec "0.305"))) t) (23 * (B2R p + 0.305) * B2R t) (2 / 10 ^ 15).
Proof.
  intros fp bp ft bt. fconst (dec "23.0"). fconst (dec "0.305").
  assert (A : frel (fadd p (dec "0.305")) (B2R p + 0.305) (2 / 10 ^ 16 + 3 / 10 ^ 16)).
  { apply frel_add; [split; [exact fp|split; lra]|split; [exact F0|split; [lra|rewrite V0; lra]]|lra|lra]. }
  assert (T : frel (dec "23.0") 23 0) by (split; [exact F|split; [lra|rewrite V; lra]]).
  pose proof (frel_mul _ _ _ _ _ _ T A ltac:(lra) ltac:(lra) ltac:(lra)) as M.
  assert (TT : frel t (B2R t) 0) by (split; [exact ft|split; lra]).
  assert (lo : 1 / 10 ^ 3 * (1 / 10 ^ 8) <= 23 * (B2R p + 0.305) * B2R t) by (apply Rmult_le_compat; lra).
  assert (hi : 23 * (B2R p + 0.305) * B2R t <= 1000 * 10 ^ 14) by (apply Rmult_le_compat; lra).
  pose proof (frel_mul _ _ _ _ _ _ M TT ltac:(lra) ltac:(lra) ltac:(lra)) as [f M2]. split; [exact f|]. apply rel_w with (1 := M2). lra.
Qed.

Lemma gam_close p p1 t C S N Df gm : 1 / 10 ^ 3 <= p <= 40.86 -> 2000 <= p1 <= 6000 -> 1 / 10 ^ 8 <= t <= 10 ^ 14 -> -1.0001 <= C <= 1.0001 -> -1.0001 <= S <= 1.0001 ->
  23 * (p + 0.305) * t * (1 - 2 / 10 ^ 15) <= N <= 23 * (p + 0.305) * t * (1 + 2 / 10 ^ 15) -> Rabs (Df - den p1 t C S) <= (23 * p1 + 250 * t) * (2 / 10 ^ 15) -> Df <> 0 ->
  gm = rnd (N / Df) -> Rabs gm <= 0.98 * p ->
  den p1 t C S <> 0 /\ Rabs (gm - gam p p1 t C S) <= 2 / 10 ^ 13 * p.
Proof.
  intros bp bp1 bt bc bs bN bD nz Eg Gm. set (D := den p1 t C S) in *. set (N0 := 23 * (p + 0.305) * t) in *.
  assert (N0p : 6 / 10 ^ 8 <= N0 <= 10 ^ 17).
  { unfold N0. split; [apply Rle_trans with (6 * (1 / 10 ^ 8)); [lra|]|apply Rle_trans with (1000 * 10 ^ 14); [|lra]]; apply Rmult_le_compat; lra. }
  assert (DD : 0 < Rabs Df) by (apply Rabs_pos_lt; exact nz). pose proof eta_small as ET. pose proof eta_pos.
  pose proof (rnd_err (N / Df)) as Re. rewrite <- Eg in Re. fold eta in Re.
  assert (Q : Rabs (N / Df) <= 0.99 * p).
  { pose proof (Rabs_triang_inv (N / Df) (N / Df - gm)) as T. replace (N / Df - (N / Df - gm)) with gm in T by ring.
    rewrite (Rabs_minus_sym (N / Df) gm) in T. lra. }
  assert (Q2 : N <= 0.99 * p * Rabs Df).
  { replace N with (Rabs (N / Df) * Rabs Df). apply Rmult_le_compat_r; lra.
    rewrite <- Rabs_mult. unfold Rdiv. rewrite Rmult_assoc, Rinv_l, Rmult_1_r by exact nz. apply Rabs_pos_eq. lra. }
  assert (Tt : t <= 0.05 * Rabs Df).
  { assert (22.9 * (p + 0.305) * t <= 0.99 * p * Rabs Df) by (unfold N0 in *; lra).
    apply Rmult_le_reg_l with (22.9 * (p + 0.305)); [lra|]. apply Rle_trans with (1 := H0).
    replace (22.9 * (p + 0.305) * (0.05 * Rabs Df)) with (1.145 * p * Rabs Df + 0.349225 * Rabs Df) by lra.
    assert (0.99 * p * Rabs Df <= 1.145 * p * Rabs Df) by (apply Rmult_le_compat_r; lra). lra. }
  assert (B : Rabs (Df - D) <= 1.2 / 10 ^ 13 * Rabs Df).
  { assert (U := mul_bnd t (11 * C + 108 * S) t 119.1 ltac:(lra) ltac:(lra)).
    assert (P1 : 23 * p1 <= Rabs D + 119.1 * t) by (pose proof (Rle_abs D); unfold D, den in *; lra).
    pose proof (Rabs_triang Df (D - Df)) as T. replace (Df + (D - Df)) with D in T by ring. rewrite (Rabs_minus_sym D Df) in T. lra. }
  (* ratios *)
  set (r2 := D / Df). assert (E2 : D = r2 * Df) by (unfold r2; field; exact nz).
  assert (b2 : 1 - 1.2 / 10 ^ 13 <= r2 <= 1 + 1.2 / 10 ^ 13).
  { replace (Df - D) with ((1 - r2) * Df) in B by (rewrite E2; ring). rewrite Rabs_mult in B.
    assert (Rabs (1 - r2) <= 1.2 / 10 ^ 13) by (apply Rmult_le_reg_r with (Rabs Df); [exact DD|exact B]). apply Rabs_le_inv in H0. lra. }
  assert (nD : D <> 0) by (rewrite E2; apply Rmult_integral_contrapositive; split; lra). split; [exact nD|].
  set (r1 := N0 / N). assert (Np : 0 < N) by lra. assert (E1 : N0 = r1 * N) by (unfold r1; field; lra).
  assert (b1 : 1 - 3 / 10 ^ 15 <= r1 <= 1 + 3 / 10 ^ 15) by (unfold r1; split; [apply le_div; lra|apply div_le; lra]).
  unfold gam. fold D N0. set (w := N / Df) in *.
  assert (EG : N0 / D = w * (r1 / r2)) by (rewrite E1, E2; unfold w; field; split; lra). rewrite EG.
  assert (b3 : 1 - 1.3 / 10 ^ 13 <= r1 / r2 <= 1 + 1.3 / 10 ^ 13) by (split; [apply le_div; lra|apply div_le; lra]).
  set (r := r1 / r2) in *. assert (X := mul_bnd w (r - 1) (0.99 * p) (1.3 / 10 ^ 13) ltac:(apply Rabs_le_inv; exact Q) ltac:(lra)).
  apply Rabs_le_inv in Re. apply Rabs_le. lra.
Qed.

Lemma ab_close gm G C a p : 1 / 10 ^ 3 <= p <= 40.86 -> -1.0001 <= C <= 1.0001 -> Rabs gm <= 0.98 * p -> Rabs (gm - G) <= 2 / 10 ^ 13 * p ->
  Rabs (a - gm * C) <= / 9007199254740992 * Rabs (gm * C) + eta -> Rabs (a - G * C) <= 4 / 10 ^ 13 * p.
Proof.
  intros bp bc Gm bG Ra. pose proof eta_small.
  assert (X := mul_bnd gm C (0.98 * p) 1.0001 ltac:(apply Rabs_le_inv; exact Gm) ltac:(lra)).
  assert (Rabs (gm * C) <= 0.98 * p * 1.0001) by (apply Rabs_le; exact X).
  assert (Y := mul_bnd (gm - G) C (2 / 10 ^ 13 * p) 1.0001 ltac:(apply Rabs_le_inv; exact bG) ltac:(lra)).
  apply Rabs_le_inv in Ra. apply Rabs_le. lra.
Qed.

Section Good.
Context {lm : Libm} (LA : libm_accurate (1 / 10 ^ 13) lm) (PS : pow_special lm).

Lemma good_round p p1 t hc hs : rin p p1 t hc hs -> round_ok (flin p p1 t hc hs) ->
  let P := B2R p in let Q := B2R p1 in let T := B2R t in let C := B2R hc in let S := B2R hs in
  exists x1 x2 x3, mcone x1 x2 x3 /\ mvcone x1 x2 x3 /\ den Q T C S <> 0 /\
    wc x1 (R1 P Q T C S) (1 / 10 ^ 10) /\ wc x2 (R2 P Q T C S) (1 / 10 ^ 10) /\ wc x3 (R3 P Q T C S) (1 / 10 ^ 10) /\
    wc (FF Kc qc x1 x2 x3) (B2R (fnj_of (flin p p1 t hc hs))) (2 / 10 ^ 9) /\
    exists y1 y2 y3, flin p p1 t hc hs = matrix_multiply (y1, y2, y3) LS /\ (1 / 10 ^ 25 <= x1 /\ 1 / 10 ^ 25 <= x2 /\ 1 / 10 ^ 25 <= x3) /\
      rel (B2R y1) (vv Kc qc x1) (1 / 10 ^ 11) /\ rel (B2R y2) (vv Kc qc x2) (1 / 10 ^ 11) /\ rel (B2R y3) (vv Kc qc x3) (1 / 10 ^ 11).
Proof using LA PS.
  intros [fp bp fp1 bp1 ft bt fc bc fs bs bcs] RO. cbv zeta. unfold flin in RO |- *. cbv zeta in RO |- *.
  destruct (good_v _ _ _ RO) as ((g1 & g2 & g3) & (q1 & q2 & q3)).
  destruct (inv_pos LA PS _ g1 q1) as (k1 & r1 & e1 & s1). destruct (inv_pos LA PS _ g2 q2) as (k2 & r2 & e2 & s2). destruct (inv_pos LA PS _ g3 q3) as (k3 & r3 & e3 & s3).
  set (gm := fgam p p1 t hc hs) in *. set (a := fmul gm hc) in *. set (b := fmul gm hs) in *.
  unfold fx1 in k1. unfold fx2 in k2. unfold fx3 in k3.
  fconst (dec "451.0"). fconst (dec "288.0"). fconst (dec "891.0"). fconst (dec "261.0"). fconst (dec "220.0"). fconst (dec "6300.0").
  set (A := Rabs (B2R a)). set (B := Rabs (B2R b)). set (SS := B2R p + A + B). pose proof (Rabs_pos (B2R a)) as A0. pose proof (Rabs_pos (B2R b)) as B0. fold A in A0. fold B in B0.
  assert (up : Rabs (B2R p) <= SS) by (rewrite Rabs_pos_eq; unfold SS; lra). assert (ua : Rabs (B2R a) <= SS) by (fold A; unfold SS; lra). assert (ub : Rabs (B2R b) <= SS) by (fold B; unfold SS; lra).
  assert (uS : 1 / 10 ^ 30 <= SS) by (unfold SS; lra).
  destruct (comb_add p a b _ _ _ _ SS V V0 ltac:(lra) ltac:(lra) k1) as [[fa fb] C1]. specialize (C1 up ua ub uS). fold (fx1 p a b) in C1.
  destruct (comb_sub p a b _ _ _ _ SS V1 V2 ltac:(lra) ltac:(lra) k2) as [_ C2]. specialize (C2 up ua ub uS). fold (fx2 p a b) in C2.
  destruct (comb_sub p a b _ _ _ _ SS V3 V4 ltac:(lra) ltac:(lra) k3) as [_ C3]. specialize (C3 up ua ub uS). fold (fx3 p a b) in C3.
  fold (fx1 p a b) in k1. fold (fx2 p a b) in k2. fold (fx3 p a b) in k3.
  set (x1 := B2R (fx1 p a b)) in *. set (x2 := B2R (fx2 p a b)) in *. set (x3 := B2R (fx3 p a b)) in *.
  apply Rabs_le_inv in C1, C2, C3.
  assert (LA' := Rabs_le_inv _ _ (Rle_refl (Rabs (B2R a)))). assert (LB' := Rabs_le_inv _ _ (Rle_refl (Rabs (B2R b)))). fold A in LA'. fold B in LB'.
  assert (cA : A = B2R a \/ A = - B2R a) by (unfold A, Rabs; destruct (Rcase_abs (B2R a)); tauto).
  assert (cB : B = B2R b \/ B = - B2R b) by (unfold B, Rabs; destruct (Rcase_abs (B2R b)); tauto).
  assert (S1 : SS <= 20000) by (unfold SS in *; destruct cA as [cA|cA], cB as [cB|cB]; lra).
  (* one response is not tiny *)
  assert (big : 1 / 10 ^ 30 <= B2R (inverse_chromatic_adaptation (fx1 p a b)) \/ 1 / 10 ^ 30 <= B2R (inverse_chromatic_adaptation (fx2 p a b)) \/ 1 / 10 ^ 30 <= B2R (inverse_chromatic_adaptation (fx3 p a b))).
  { destruct (Rle_or_lt (1 / 10 ^ 4) x1) as [h1|h1]; [left; destruct (e1 ltac:(lra)) as [_ [h _]]; pose proof (vv_lo x1 ltac:(lra)); lra|].
    destruct (Rle_or_lt (1 / 10 ^ 4) x2) as [h2|h2]; [right; left; destruct (e2 ltac:(lra)) as [_ [h _]]; pose proof (vv_lo x2 ltac:(lra)); lra|].
    destruct (Rle_or_lt (1 / 10 ^ 4) x3) as [h3|h3]; [right; right; destruct (e3 ltac:(lra)) as [_ [h _]]; pose proof (vv_lo x3 ltac:(lra)); lra|].
    exfalso. lra. }
  destruct (good_ratio _ _ _ RO big) as (m0 & m1 & m2 & m3). cbv zeta in m3.
  set (y1 := B2R (inverse_chromatic_adaptation (fx1 p a b))) in *. set (y2 := B2R (inverse_chromatic_adaptation (fx2 p a b))) in *. set (y3 := B2R (inverse_chromatic_adaptation (fx3 p a b))) in *.
  assert (n1 : 1 / 10 ^ 25 <= x1) by (destruct (Rle_or_lt (1 / 10 ^ 25) x1) as [h|h]; [exact h|]; pose proof (s1 ltac:(lra)); lra).
  assert (n2 : 1 / 10 ^ 25 <= x2) by (destruct (Rle_or_lt (1 / 10 ^ 25) x2) as [h|h]; [exact h|]; pose proof (s2 ltac:(lra)); lra).
  assert (n3 : 1 / 10 ^ 25 <= x3) by (destruct (Rle_or_lt (1 / 10 ^ 25) x3) as [h|h]; [exact h|]; pose proof (s3 ltac:(lra)); lra).
  destruct (e1 n1) as [w1p w1']. destruct (e2 n2) as [w2p w2']. destruct (e3 n3) as [w3p w3']. clear e1 e2 e3 s1 s2 s3 big g1 g2 g3 q1 q2 q3.
  assert (MV : mvcone x1 x2 x3) by (constructor; lra).
  pose proof (cone_of_v x1 x2 x3 r1 r2 r3 MV) as MC. pose proof MC as [c0 c1 c2].
  assert (HA : A <= 0.81 * B2R p) by (unfold SS in *; destruct cA as [cA|cA], cB as [cB|cB]; lra).
  assert (HB : B <= 0.51 * B2R p) by (unfold SS in *; destruct cA as [cA|cA], cB as [cB|cB]; lra).
  (* gamma *)
  destruct (fmul_back gm hc fa) as (fg & _ & Ea). destruct (fmul_back gm hs fb) as (_ & _ & Eb). fold a in Ea. fold b in Eb.
  pose proof eta_small as ET. pose proof eta_pos as EP.
  pose proof (rnd_err (B2R gm * B2R hc)) as Ra. rewrite <- Ea in Ra. fold eta in Ra. pose proof (rnd_err (B2R gm * B2R hs)) as Rb. rewrite <- Eb in Rb. fold eta in Rb.
  assert (Ga : Rabs (B2R gm * B2R hc) <= 0.82 * B2R p).
  { pose proof (Rabs_triang_inv (B2R gm * B2R hc) (B2R gm * B2R hc - B2R a)) as T. replace (B2R gm * B2R hc - (B2R gm * B2R hc - B2R a)) with (B2R a) in T by ring.
    rewrite (Rabs_minus_sym (B2R gm * B2R hc) (B2R a)) in T. fold A in T. lra. }
  assert (Gb : Rabs (B2R gm * B2R hs) <= 0.52 * B2R p).
  { pose proof (Rabs_triang_inv (B2R gm * B2R hs) (B2R gm * B2R hs - B2R b)) as T. replace (B2R gm * B2R hs - (B2R gm * B2R hs - B2R b)) with (B2R b) in T by ring.
    rewrite (Rabs_minus_sym (B2R gm * B2R hs) (B2R b)) in T. fold B in T. lra. }
  assert (Gm : Rabs (B2R gm) <= 0.98 * B2R p).
  { apply Rsqr_incr_0_var; [|lra]. rewrite <- Rsqr_abs. unfold Rsqr.
    assert (T1 : (B2R gm * B2R hc) * (B2R gm * B2R hc) <= (0.82 * B2R p) * (0.82 * B2R p)).
    { apply Rsqr_le_abs_1. rewrite (Rabs_pos_eq (0.82 * B2R p)) by lra. exact Ga. }
    assert (T2 : (B2R gm * B2R hs) * (B2R gm * B2R hs) <= (0.52 * B2R p) * (0.52 * B2R p)).
    { apply Rsqr_le_abs_1. rewrite (Rabs_pos_eq (0.52 * B2R p)) by lra. exact Gb. }
    assert (T3 : B2R gm * B2R gm * 0.99 <= B2R gm * B2R gm * (B2R hc * B2R hc + B2R hs * B2R hs)) by (apply Rmult_le_compat_l; [apply Rle_0_sqr|lra]).
    assert (0 <= B2R p * B2R p) by (apply Rle_0_sqr). lra. }
  clear Ga Gb cA cB LA' LB' V V0 V1 V2 V3 V4 F F0 F1 F2 F3 F4 up ua ub uS RO.
  (* the denominator *)
  destruct (fden_near p1 t hc hs fp1 bp1 ft ltac:(lra) fc bc fs bs) as [fD bD].
  assert (NR : frel (fmul (fmul (dec "23.0") (fadd p (dec "0.305"))) t) (23 * (B2R p + 0.305) * B2R t) (2 / 10 ^ 15)).
  { apply num_rel; assumption. }
  destruct NR as [fN [N0 bN]]. unfold fgam in gm. set (Nf := fmul (fmul (dec "23.0") (fadd p (dec "0.305"))) t) in *. set (Df := fden p1 t hc hs) in *.
  destruct (Req_dec (B2R Df) 0) as [z|nz]; [exfalso; exact (fdiv_zero _ _ fD z fg)|].
  pose proof (fdiv_back_R _ _ fg nz) as Eg. fold gm in Eg. set (Nr := 23 * (B2R p + 0.305) * B2R t) in *. set (D := den (B2R p1) (B2R t) (B2R hc) (B2R hs)) in *.
  destruct (gam_close (B2R p) (B2R p1) (B2R t) (B2R hc) (B2R hs) (B2R Nf) (B2R Df) (B2R gm) bp bp1 bt bc bs bN bD nz Eg Gm) as [nD bG].
  fold D in nD. set (G := gam (B2R p) (B2R p1) (B2R t) (B2R hc) (B2R hs)) in *.
  assert (AA : Rabs (B2R a - G * B2R hc) <= 4 / 10 ^ 13 * B2R p) by (exact (ab_close (B2R gm) G (B2R hc) (B2R a) (B2R p) bp bc Gm bG Ra)).
  assert (BB : Rabs (B2R b - G * B2R hs) <= 4 / 10 ^ 13 * B2R p) by (exact (ab_close (B2R gm) G (B2R hs) (B2R b) (B2R p) bp bs Gm bG Rb)).
  exists x1, x2, x3. split; [exact MC|]. split; [exact MV|]. split; [exact nD|].
  apply Rabs_le_inv in AA, BB. unfold R1, R2, R3. fold G. unfold X1, X2, X3, wc, SS in *.
  split; [lra|]. split; [lra|]. split; [lra|].
  split; [unfold FF, w1, w2, w3 in *; lra|].
  eexists _, _, _. split; [reflexivity|]. split; [split; [exact n1|split; [exact n2|exact n3]]|].
  split; [split; [exact w1p|exact w1']|]. split; [split; [exact w2p|exact w2']|split; [exact w3p|exact w3']].
Qed.
End Good.
