(** * The solver's iteration on the lightness, round by round.  Proof file. *)
From Coq Require Import ZArith Bool Reals Lra Lia Psatz String List.
From Flocq Require Import Core Relative IEEE754.BinarySingleNaN.
From Verif Require Import F64 Spec SpecCam SpecTone FloatFacts FloatMono MathUtils HctSolver PfMath PfLab PfTones PfNear PfRel PfLimit PfCamC PfLabTrip PfToneReal PfToneElast PfToneStep PfToneFin PfToneLin PfToneRound.
Open Scope string_scope.
Open Scope R_scope.

Definition e9f : f64 := fdiv (dec "1.0") (dec "0.9").
Definition e9 : R := B2R e9f.
Lemma e9_range : 1.11111 <= e9 <= 1.11112.
Proof. unfold e9, e9f. fconst (fdiv (dec "1.0") (dec "0.9")). lra. Qed.
Lemma e9_fin : fin e9f.
Proof. unfold e9f. fconst (fdiv (dec "1.0") (dec "0.9")). assumption. Qed.

Section Iter.
Context {lm : Libm} (LA : libm_accurate (1 / 10 ^ 13) lm) (PS : pow_special lm).
Variables (aw nbb ez tic p1 hs hc chroma : f64).

Record env : Prop := {
  v_aw : fin aw; v_nbb : fin nbb; v_nbb1 : 1 <= B2R nbb <= 1.04; v_A : 29.4 <= B2R aw / B2R nbb <= 29.56;
  v_ez : fin ez; v_E : 0.7591 <= B2R ez <= 0.7592;
  v_tic : fin tic; v_ticr : 0.99 <= B2R tic <= 1.26;
  v_ch : fin chroma; v_chr : 1 / 10 ^ 5 <= B2R chroma <= 10 ^ 9;
  v_p1 : fin p1; v_p1r : 2000 <= B2R p1 <= 6000;
  v_hc : fin hc; v_hcr : -1.0001 <= B2R hc <= 1.0001; v_hs : fin hs; v_hsr : -1.0001 <= B2R hs <= 1.0001;
  v_cs : 0.99 <= B2R hc * B2R hc + B2R hs * B2R hs <= 1.01 }.
Hypothesis EN : env.

Definition jp (j : f64) : f64 := fdiv (fmul aw (powf (fdiv j (dec "100.0")) ez)) nbb.
Definition jal (j : f64) : f64 := if (feq chroma (dec "0.0") || feq j (dec "0.0"))%bool then dec "0.0" else fdiv chroma (fsqrt (fdiv j (dec "100.0"))).
Definition jt (j : f64) : f64 := powf (fmul (jal j) tic) e9f.
Definition jlin (j : f64) : vec3 := flin (jp j) p1 (jt j) hc hs.

Notation A := (B2R aw / B2R nbb).
Notation E := (B2R ez).
Notation ct := (B2R chroma * B2R tic).
Notation Q := (B2R p1). Notation C := (B2R hc). Notation S := (B2R hs).
Definition Pj (J : R) : R := A * Rpower (J / 100) E.
Definition Tj (J : R) : R := Rpower (ct / sqrt (J / 100)) e9.
Definition G1 (J : R) := R1 (Pj J) Q (Tj J) C S.
Definition G2 (J : R) := R2 (Pj J) Q (Tj J) C S.
Definition G3 (J : R) := R3 (Pj J) Q (Tj J) C S.
Definition FJ (J : R) : R := FF Kc qc (G1 J) (G2 J) (G3 J).

Lemma rp_J J : 0.002 <= J <= 152 -> 1 / 10 ^ 4 <= Rpower (J / 100) E <= 1.376.
Proof using EN.
  intros h. destruct EN. split.
  - apply Rle_trans with (Rpower (0.002 / 100) E); [apply (pow_lo_small _ _ _ 4 5); simpl; lra || lia|apply Rle_Rpower_l; lra].
  - apply Rle_trans with (Rpower (152 / 100) E); [apply Rle_Rpower_l; lra|apply (pow_hi_big _ _ _ 76 100); simpl; lra || lia].
Qed.
Lemma Pj_range J : 0.002 <= J <= 152 -> 2 / 10 ^ 3 <= Pj J <= 40.7.
Proof using EN.
  intros h. pose proof (rp_J J h) as R. destruct EN. unfold Pj. split.
  - apply Rle_trans with (29.4 * (1 / 10 ^ 4)); [lra|apply Rmult_le_compat; lra].
  - apply Rle_trans with (29.56 * 1.376); [apply Rmult_le_compat; lra|lra].
Qed.
Lemma jp_near (j : f64) : fin j -> 0.002 <= B2R j <= 152 -> fin (jp j) /\ wc (Pj (B2R j)) (B2R (jp j)) (1 / 10 ^ 12).
Proof using EN LA.
  intros fj h. pose proof (rp_J _ h) as R. pose proof (Pj_range _ h) as PR. destruct EN. fconst (dec "100.0").
  assert (J1 : frel (fdiv j (dec "100.0")) (B2R j / 100) (1.4 * (0 + 0) + 3 / 10 ^ 16)).
  { apply frel_div; [apply frel_self; [exact fj|lra]|split; [exact F|split; [lra|rewrite V; lra]]|lra|lra|lra]. }
  pose proof (frel_pow LA _ ez _ _ J1 v_ez0 ltac:(lra) ltac:(lra) ltac:(lra)) as J2.
  assert (AP : 29 <= B2R aw <= 31).
  { assert (EA : B2R aw = A * B2R nbb) by (field; lra). rewrite EA. split; [apply Rle_trans with (29.4 * 1); [lra|]|apply Rle_trans with (29.56 * 1.04); [|lra]]; apply Rmult_le_compat; lra. }
  set (r := Rpower (B2R j / 100) E) in *.
  assert (X : 1 / 10 ^ 4 <= B2R aw * r <= 100) by (split; [apply Rle_trans with (1 * (1 / 10 ^ 4)); [lra|]|apply Rle_trans with (31 * 1.376); [|lra]]; apply Rmult_le_compat; lra).
  pose proof (frel_mul _ _ _ _ _ _ (frel_self aw v_aw0 ltac:(lra)) (frel_w _ _ _ (2 / 10 ^ 13) J2 ltac:(lra)) ltac:(lra) ltac:(lra) ltac:(lra)) as J3.
  assert (Y : B2R aw * r / B2R nbb = Pj (B2R j)) by (unfold Pj; fold r; field; lra).
  pose proof (frel_div _ _ _ _ _ _ J3 (frel_self nbb v_nbb0 ltac:(lra)) ltac:(lra) ltac:(lra) ltac:(rewrite Y; lra)) as [f J4].
  rewrite Y in J4. split; [exact f|]. destruct (rel_w _ _ _ (1 / 10 ^ 12) J4 ltac:(lra)) as [_ J5]. exact J5.
Qed.

Lemma sqJ J : 0.002 <= J <= 152 -> 0.004 <= sqrt (J / 100) <= 1.25.
Proof using.
  intros h. split.
  - rewrite <- (sqrt_square 0.004) by lra. apply sqrt_le_1_alt. lra.
  - rewrite <- (sqrt_square 1.25) by lra. apply sqrt_le_1_alt. lra.
Qed.
Lemma ct_range : 9 / 10 ^ 6 <= ct <= 1.3 * 10 ^ 9.
Proof using EN.
  destruct EN. split; [apply Rle_trans with (1 / 10 ^ 5 * 0.99); [lra|]|apply Rle_trans with (10 ^ 9 * 1.26); [|lra]]; apply Rmult_le_compat; lra.
Qed.
Lemma Tj_range J : 0.002 <= J <= 152 -> 1 / 10 ^ 6 <= Tj J <= 10 ^ 13.
Proof using EN.
  intros h. pose proof (sqJ J h) as R. pose proof ct_range as CR. pose proof e9_range. unfold Tj.
  assert (B : 7 / 10 ^ 6 <= ct / sqrt (J / 100) <= 3.3 * 10 ^ 11) by (split; [apply le_div; lra|apply div_le; lra]).
  split.
  - apply Rle_trans with (Rpower (7 / 10 ^ 6) e9); [apply (pow_lo_small _ _ _ 9 8); simpl; lra || lia|apply Rle_Rpower_l; lra].
  - apply Rle_trans with (Rpower (3.3 * 10 ^ 11) e9); [apply Rle_Rpower_l; lra|apply (pow_hi_big _ _ _ 9 8); simpl; lra || lia].
Qed.

Lemma jt_near (j : f64) : fin j -> 0.002 <= B2R j <= 152 -> fin (jt j) /\ wc (Tj (B2R j)) (B2R (jt j)) (1 / 10 ^ 12).
Proof using EN LA.
  intros fj h. pose proof (Tj_range _ h) as TR. pose proof (sqJ _ h) as R. pose proof ct_range as CR. pose proof e9_range as ER. destruct EN. fconst (dec "100.0"). fconst (dec "0.0").
  assert (Al : jal j = fdiv chroma (fsqrt (fdiv j (dec "100.0")))).
  { unfold jal. destruct (feq chroma (dec "0.0")) eqn:E1; [apply (feq_fin _ _ v_ch0 F0) in E1; lra|].
    destruct (feq j (dec "0.0")) eqn:E2; [apply (feq_fin _ _ fj F0) in E2; lra|reflexivity]. }
  unfold jt. rewrite Al.
  assert (J1 : frel (fdiv j (dec "100.0")) (B2R j / 100) (1.4 * (0 + 0) + 3 / 10 ^ 16)).
  { apply frel_div; [apply frel_self; [exact fj|lra]|split; [exact F|split; [lra|rewrite V; lra]]|lra|lra|lra]. }
  pose proof (frel_sqrt _ _ _ J1 ltac:(lra) ltac:(lra)) as J2. set (r := sqrt (B2R j / 100)) in *.
  pose proof (frel_div _ _ _ _ _ _ (frel_self chroma v_ch0 ltac:(lra)) J2 ltac:(lra) ltac:(lra) ltac:(split; [apply le_div; lra|apply div_le; lra])) as J3.
  assert (B : 7 / 10 ^ 6 <= ct / r <= 3.3 * 10 ^ 11) by (split; [apply le_div; lra|apply div_le; lra]).
  assert (EQ : B2R chroma / r * B2R tic = ct / r) by (field; lra).
  pose proof (frel_mul _ _ _ _ _ _ J3 (frel_self tic v_tic0 ltac:(lra)) ltac:(lra) ltac:(lra) ltac:(rewrite EQ; lra)) as J4. rewrite EQ in J4.
  pose proof (frel_pow LA _ e9f _ _ J4 e9_fin ltac:(lra) ltac:(fold e9; lra) ltac:(fold e9; unfold Tj in TR; fold r in TR; lra)) as [f J5].
  split; [exact f|]. fold e9 in J5. destruct (rel_w _ _ _ (1 / 10 ^ 12) J5 ltac:(lra)) as [_ J6]. exact J6.
Qed.

Lemma j_rin (j : f64) : fin j -> 0.002 <= B2R j <= 152 -> rin (jp j) p1 (jt j) hc hs.
Proof using EN LA.
  intros fj h. destruct (jp_near j fj h) as [fp bp]. destruct (jt_near j fj h) as [ft bt]. pose proof (Pj_range _ h). pose proof (Tj_range _ h). destruct EN. unfold wc in *.
  constructor; try assumption; lra.
Qed.

Record goodJ (J : R) : Prop := {
  gj_den : den Q (Tj J) C S <> 0;
  gj_cone : cone (G1 J) (G2 J) (G3 J);
  gj_v : vcone Kc qc (G1 J) (G2 J) (G3 J) }.

(** A round that passes its tests: the exact responses are those of a colour in range, and the computed luminance is theirs. *)
Lemma round_exact (j : f64) : fin j -> 0.002 <= B2R j <= 152 -> round_ok (jlin j) ->
  goodJ (B2R j) /\ 0 < FJ (B2R j) /\ wc (FJ (B2R j)) (B2R (fnj_of (jlin j))) (3 / 10 ^ 8).
Proof using EN LA PS.
  intros fj h RO. destruct (good_round LA PS _ _ _ _ _ (j_rin j fj h) RO) as (x1 & x2 & x3 & MC & MV & nD & W1 & W2 & W3 & WF & _).
  destruct (jp_near j fj h) as [fp bp]. destruct (jt_near j fj h) as [ft bt]. pose proof (Pj_range _ h) as PR. pose proof (Tj_range _ h) as TR.
  pose proof Kc_pos as HK. pose proof qc_range as HQ. fold (jlin j) in WF.
  set (p := B2R (jp j)) in *. set (t := B2R (jt j)) in *. set (J := B2R j) in *.
  assert (cs := v_cs EN).
  assert (Cn : cone (R1 p Q t C S) (R2 p Q t C S) (R3 p Q t C S)).
  { destruct MC as [c0 c1 c2]. unfold wc in W1, W2, W3. constructor; lra. }
  assert (p0 : 0 < p <= 40.86) by (unfold wc in bp; lra). assert (t0 : 0 < t) by (unfold wc in bt; lra).
  assert (wp : wc p (Pj J) (1 / 10 ^ 11)) by (unfold wc in *; lra). assert (wt : wc t (Tj J) (1 / 10 ^ 11)) by (unfold wc in *; lra).
  destruct (R_wc p Q t C S (Pj J) (Tj J) ltac:(lra) t0 nD Cn ltac:(lra) wp wt) as (U1 & U2 & U3). fold (G1 J) in U1. fold (G2 J) in U2. fold (G3 J) in U3.
  pose proof (PP_R p Q t C S) as PE. assert (PB : PP (R1 p Q t C S) (R2 p Q t C S) (R3 p Q t C S) <= 13.4) by (rewrite PE; lra).
  destruct (cone_bounds _ _ _ _ Cn PB) as (b1 & b3 & l1 & l2 & l3 & _). pose proof (c_pos _ _ _ Cn) as b2.
  set (r1 := R1 p Q t C S) in *. set (r2 := R2 p Q t C S) in *. set (r3 := R3 p Q t C S) in *.
  assert (Cx : cone x1 x2 x3) by (destruct MC; constructor; lra).
  assert (Px : PP x1 x2 x3 <= 13.4) by (unfold PP, wc in *; lra).
  destruct (cone_bounds _ _ _ _ Cx Px) as (xb1 & xb3 & xl1 & xl2 & xl3 & _). pose proof (c_pos _ _ _ Cx) as xb2.
  assert (W1' : wc x1 r1 (1 / 10 ^ 9)) by (unfold wc in *; lra). assert (W2' : wc x2 r2 (1 / 10 ^ 9)) by (unfold wc in *; lra). assert (W3' : wc x3 r3 (1 / 10 ^ 9)) by (unfold wc in *; lra).
  destruct (vv_wc Kc qc x1 r1 HK HQ ltac:(lra) W1') as [_ Y1]. destruct (vv_wc Kc qc x2 r2 HK HQ ltac:(lra) W2') as [_ Y2]. destruct (vv_wc Kc qc x3 r3 HK HQ ltac:(lra) W3') as [_ Y3].
  destruct (vv_wc Kc qc r1 (G1 J) HK HQ ltac:(lra) U1) as [_ Z1]. destruct (vv_wc Kc qc r2 (G2 J) HK HQ ltac:(lra) U2) as [_ Z2]. destruct (vv_wc Kc qc r3 (G3 J) HK HQ ltac:(lra) U3) as [_ Z3].
  pose proof (FF_wc Kc qc _ _ _ _ _ _ HK HQ Cx Px W1' W2' W3') as F1. pose proof (FF_wc Kc qc _ _ _ _ _ _ HK HQ Cn PB U1 U2 U3) as F2. fold (FJ J) in F2.
  pose proof (vv_pos Kc qc x1). pose proof (vv_pos Kc qc x2). pose proof (vv_pos Kc qc x3).
  assert (VC : vcone Kc qc (G1 J) (G2 J) (G3 J)) by (destruct MV; unfold wc in *; constructor; lra).
  assert (CG : cone (G1 J) (G2 J) (G3 J)) by (destruct MC; unfold wc in *; constructor; lra).
  destruct (rough Kc qc HK HQ x1 x2 x3 Cx Px) as [_ FX].
  split; [constructor; [|exact CG|exact VC]|].
  - (* the denominator *)
    pose proof (kap_range p Q t C S ltac:(lra) nD Cn) as KR. unfold kap in KR. assert (q1 := v_p1r EN).
    assert (DP : 0 < den Q t C S).
    { destruct (Rlt_or_le 0 (den Q t C S)) as [k|k]; [exact k|exfalso]. assert (/ den Q t C S < 0) by (apply Rinv_lt_0_compat; destruct (Rle_lt_or_eq_dec _ _ k); [assumption|contradiction]).
      assert (23 * Q / den Q t C S < 0) by (unfold Rdiv; pose proof (Rmult_lt_0_compat (23 * Q) (- / den Q t C S) ltac:(lra) ltac:(lra)); lra). lra. }
    assert (KE : 23 * Q = kap Q t C S * den Q t C S) by (unfold kap; field; lra). fold (kap Q t C S) in KR.
    assert (bk : 0.5 * den Q t C S <= 23 * Q <= 1.595 * den Q t C S) by (rewrite KE; split; apply Rmult_le_compat_r; lra).
    assert (EQ : den Q (Tj J) C S * t = 23 * Q * (t - Tj J) + Tj J * den Q t C S) by (unfold den; ring).
    assert (X := mul_bnd (23 * Q) (t - Tj J) (1.595 * den Q t C S) (t / 10 ^ 10) ltac:(lra) ltac:(unfold wc in wt; lra)).
    assert (0.9 * t * den Q t C S <= Tj J * den Q t C S) by (apply Rmult_le_compat_r; [lra|unfold wc in wt; lra]).
    assert (0 < t * den Q t C S) by (apply Rmult_lt_0_compat; assumption).
    intros z. rewrite z, Rmult_0_l in EQ. lra.
  - unfold wc in *. split; lra.
Qed.

(** ** From a round to the next *)
Lemma Pj_ratio J J' : 0 < J -> 0 < J' -> Pj J' = exp (E * ln (J' / J)) * Pj J.
Proof using EN.
  intros h h'. unfold Pj, Rpower. destruct EN.
  replace (ln (J' / 100)) with (ln (J' / J) + ln (J / 100)).
  - rewrite Rmult_plus_distr_l, exp_plus. ring.
  - rewrite <- ln_mult by (apply Rdiv_lt_0_compat; lra). f_equal. field. lra.
Qed.
Lemma Tj_ratio J J' : 0.002 <= J -> 0.002 <= J' -> Tj J' = exp (- (e9 / 2 * ln (J' / J))) * Tj J.
Proof using EN.
  intros h h'. unfold Tj, Rpower. pose proof ct_range as CR.
  assert (L : forall x, 0.002 <= x -> ln (ct / sqrt (x / 100)) = ln ct - ln (x / 100) / 2).
  { intros x hx. assert (0 < sqrt (x / 100)) by (apply sqrt_lt_R0; lra). unfold Rdiv at 1. rewrite ln_mult, ln_Rinv by (try apply Rinv_0_lt_compat; lra).
    assert (E2 : ln (x / 100) = ln (sqrt (x / 100)) + ln (sqrt (x / 100))) by (rewrite <- ln_mult by assumption; rewrite sqrt_sqrt by lra; reflexivity). lra. }
  rewrite (L J h), (L J' h'), <- exp_plus. f_equal.
  assert (LL : ln (J' / 100) = ln (J' / J) + ln (J / 100)).
  { rewrite <- ln_mult by (apply Rdiv_lt_0_compat; lra). f_equal. field. lra. }
  rewrite LL. field.
Qed.

Lemma elastJ J J' : goodJ J -> 0.002 <= J -> J <= J' -> J' <= 152 -> let L := ln (J' / J) in E * L <= 0.6 ->
  0 < FJ J /\ 0 < FJ J' /\ 1.49 * L <= ln (FJ J') - ln (FJ J) <= 2.8 * L.
Proof using EN.
  intros [gd gc gv] h0 h1 h2 L hL. pose proof Kc_pos as HK. pose proof qc_range as HQ.
  assert (L0 : 0 <= L). { unfold L. rewrite <- ln_1. apply ln_le'; [lra|]. apply le_div; lra. }
  pose proof (Pj_range J ltac:(lra)) as PR. pose proof (Pj_range J' ltac:(lra)) as PR'. pose proof (Tj_range J ltac:(lra)) as TR. pose proof e9_range as ER. assert (BE := v_E EN).
  set (l := exp (E * L)). set (tau := exp (- (e9 / 2 * L))).
  assert (El : ln l = E * L) by apply ln_exp. assert (Et : ln tau = - (e9 / 2 * L)) by apply ln_exp.
  assert (lpos : 0 < l) by apply exp_pos. assert (tpos : 0 < tau) by apply exp_pos.
  assert (EL0 : 0 <= E * L) by (apply Rmult_le_pos; lra).
  assert (R : e9 / 2 * L <= 0.732 * (E * L)).
  { replace (0.732 * (E * L)) with (0.732 * E * L) by ring. apply Rmult_le_compat_r; lra. }
  assert (R0 : 0 <= e9 / 2 * L) by (apply Rmult_le_pos; lra).
  destruct (pair (Pj J) Q (Tj J) C S l tau ltac:(lra) ltac:(lra) gd gc ltac:(lra) lpos tpos ltac:(lra)) as (_ & s & s0 & s1 & X1 & X2 & X3). 
  unfold l, tau in X1, X2, X3. fold L in X1, X2, X3. unfold L in X1, X2, X3. rewrite <- Pj_ratio, <- Tj_ratio in X1, X2, X3 by lra.
  fold (G1 J') (G1 J) in X1. fold (G2 J') (G2 J) in X2. fold (G3 J') (G3 J) in X3. fold L l in X1, X2, X3.
  pose proof (PP_R (Pj J) Q (Tj J) C S) as PE. fold (G1 J) (G2 J) (G3 J) in PE.
  assert (LP : l * PP (G1 J) (G2 J) (G3 J) <= 13.4) by (rewrite PE; pose proof (Pj_ratio J J' ltac:(lra) ltac:(lra)) as PQ; fold L l in PQ; replace (l * (Pj J / 3.05)) with (l * Pj J / 3.05) by lra; rewrite <- PQ; lra).
  assert (P1 : PP (G1 J) (G2 J) (G3 J) <= 13.4) by (rewrite PE; lra).
  destruct (rough Kc qc HK HQ _ _ _ gc P1) as [_ F0].
  destruct (elast Kc qc HK HQ _ _ _ l s gc gv ltac:(lra) lpos LP s0 s1) as [FU B]. cbv zeta in FU, B. rewrite PE in FU, B.
  rewrite <- X1, <- X2, <- X3 in FU, B. fold (FJ J) (FJ J') in *. split; [exact F0|]. split; [exact FU|].
  assert (1.49 * L <= 1.97 * (E * L)) by (replace (1.97 * (E * L)) with (1.97 * E * L) by ring; apply Rmult_le_compat_r; lra).
  assert (3.6867 * (E * L) <= 2.8 * L) by (replace (3.6867 * (E * L)) with (3.6867 * E * L) by ring; apply Rmult_le_compat_r; lra).
  lra.
Qed.
End Iter.
