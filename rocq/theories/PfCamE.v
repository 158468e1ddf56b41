(** * gamma, and the compressed responses rebuilt from it.  Proof file. *)
From Coq Require Import ZArith Bool Reals Lra Lia Psatz String List.
From Flocq Require Import Core Relative IEEE754.BinarySingleNaN.
From Verif Require Import F64 MathUtils ColorUtils ViewingConditions Cam16 Spec SpecCam FloatFacts FloatMono PfMath PfTones PfLab PfGamma PfNear PfVc PfRel PfCamA PfCamD.
Open Scope string_scope.
Open Scope R_scope.

Lemma scaled r x b m : 0 < m <= r -> - b <= r * x <= b -> 0 <= b -> - (b / m) <= x <= b / m.
Proof.
  intros hm h hb. assert (I : 0 < / m) by (apply Rinv_0_lt_compat; lra). assert (E : m * (b / m) = b) by (field; lra).
  assert (P : 0 <= b / m) by (apply Rmult_le_pos; lra). set (q := b / m) in *. clearbody q.
  assert (m * q <= r * q) by (apply Rmult_le_compat_r; lra).
  split; apply Rnot_lt_le; intros g.
  - assert (r * x < r * - q) by (apply Rmult_lt_compat_l; lra). lra.
  - assert (r * q < r * x) by (apply Rmult_lt_compat_l; lra). lra.
Qed.

(** The reference: [p0] achromatic response, [r] and [theta] polar coordinates of the opponent pair. *)
Record refpoint (P p0 r th u t0 : R) : Prop := {
  rf_P : 961 <= P <= 1001;
  rf_p1 : 2690 <= P * (cos (th + 2) + 3.8) <= 4801;
  rf_p0 : 0.06 <= p0 <= 34;
  rf_r : 0 <= r <= 42;
  rf_u : 0.059 <= u <= 34;
  rf_a : 23 * (p0 - u) = r * (11 * cos th + 108 * sin th);
  rf_t : t0 * (u + 0.305) = P * (cos (th + 2) + 3.8) * r;
  rf_t0 : 0 <= t0 <= 6000
}.

Section Gamma.
Variables P p0 r th u t0 H : R.
Hypothesis RF : refpoint P p0 r th u t0.
Hypothesis HC : - (4 / 10 ^ 11) <= r * (cos H - cos th) <= 4 / 10 ^ 11.
Hypothesis HS : - (4 / 10 ^ 11) <= r * (sin H - sin th) <= 4 / 10 ^ 11.
Variables p1 p2 t hc hs : f64.
Hypothesis N1 : frel p1 (P * (cos (H + 2) + 3.8)) (1 / 10 ^ 12).
Hypothesis N2 : near p2 p0 (2.5 / 10 ^ 10).
Hypothesis N3 : near t t0 (9.4 / 10 ^ 8).
Hypothesis T0 : 0 <= B2R t.
Hypothesis N4 : near hc (cos H) (1 / 10 ^ 13).
Hypothesis N5 : near hs (sin H) (1 / 10 ^ 13).

Let p1r := P * (cos (th + 2) + 3.8).
Let e := 11 * cos th + 108 * sin th.
Let e' := 11 * B2R hc + 108 * B2R hs.

Lemma gE : - (5.4 / 10 ^ 9) <= r * (e' - e) <= 5.4 / 10 ^ 9.
Proof using RF HC HS N4 N5.
  destruct RF. destruct N4 as [_ b4]. destruct N5 as [_ b5].
  pose proof (mul_bnd r (B2R hc - cos H) 42 (1 / 10 ^ 13) ltac:(lra) ltac:(lra)).
  pose proof (mul_bnd r (B2R hs - sin H) 42 (1 / 10 ^ 13) ltac:(lra) ltac:(lra)).
  unfold e', e. lra.
Qed.

Lemma gP : - (2.9 / 10 ^ 7) <= r * (B2R p1 - p1r) <= 2.9 / 10 ^ 7.
Proof using RF HC HS N1.
  destruct RF. destruct N1 as [_ [p b]]. unfold p1r.
  assert (E : cos (H + 2) - cos (th + 2) = cos 2 * (cos H - cos th) - sin 2 * (sin H - sin th)) by (rewrite !cos_plus; ring).
  assert (C2 := COS_bound 2). assert (S2 := SIN_bound 2).
  assert (D : - (8 / 10 ^ 11) <= r * (cos (H + 2) - cos (th + 2)) <= 8 / 10 ^ 11).
  { rewrite E. pose proof (mul_bnd (cos 2) (r * (cos H - cos th)) 1 (4 / 10 ^ 11) ltac:(lra) HC).
    pose proof (mul_bnd (sin 2) (r * (sin H - sin th)) 1 (4 / 10 ^ 11) ltac:(lra) HS). lra. }
  pose proof (mul_bnd P (r * (cos (H + 2) - cos (th + 2))) 1001 (8 / 10 ^ 11) ltac:(lra) D) as PD.
  assert (CB := COS_bound (H + 2)). set (c2 := cos (H + 2)) in *.
  assert (PB : P * (c2 + 3.8) <= 4805). { apply Rle_trans with (1001 * 4.8); [apply Rmult_le_compat; lra|lra]. }
  set (q := P * (c2 + 3.8)) in *.
  pose proof (mul_bnd r (B2R p1 - q) 42 (4805 * (1 / 10 ^ 12)) ltac:(lra) ltac:(lra)) as RQ.
  replace (r * (B2R p1 - P * (cos (th + 2) + 3.8))) with (r * (B2R p1 - q) + P * (r * (c2 - cos (th + 2)))) by (unfold q; ring). lra.
Qed.

Lemma p1_bounds : 2689 <= B2R p1 <= 4806.
Proof using RF N1.
  destruct RF. destruct N1 as [_ [p b]]. assert (CB := COS_bound (H + 2)). set (c2 := cos (H + 2)) in *.
  assert (PB : 2690 <= P * (c2 + 3.8) <= 4805). { split; [apply Rle_trans with (961 * 2.8); [lra|]|apply Rle_trans with (1001 * 4.8); [|lra]]; apply Rmult_le_compat; lra. }
  lra.
Qed.

Lemma e_bounds : -120 <= e' <= 120.
Proof using N4 N5. destruct N4 as [_ b4]. destruct N5 as [_ b5]. assert (C := COS_bound H). assert (S := SIN_bound H). unfold e'. lra. Qed.

Lemma gD : 615 <= 23 * B2R p1 + B2R t * e' <= 10 ^ 6.
Proof using RF HC HS N1 N3 N4 N5 T0.
  assert (GE := gE). assert (GP := gP). assert (PB := p1_bounds). assert (EB := e_bounds). destruct N3 as [_ b3]. clear N1 N4 N5.
  destruct RF. split.
  - destruct (Rle_or_lt r (1 / 10 ^ 6)) as [l|l].
    + assert (T : t0 <= 0.014).
      { assert (t0 * 0.364 <= t0 * (u + 0.305)) by (apply Rmult_le_compat_l; lra).
        assert (P * (cos (th + 2) + 3.8) * r <= 4801 * (1 / 10 ^ 6)) by (apply Rmult_le_compat; lra). lra. }
      pose proof (mul_bnd (B2R t) e' 0.015 120 ltac:(lra) EB). lra.
    + pose proof (scaled r _ _ (1 / 10 ^ 6) ltac:(lra) GE ltac:(lra)) as SE. pose proof (scaled r _ _ (1 / 10 ^ 6) ltac:(lra) GP ltac:(lra)) as SP.
      pose proof (gamma_denominator p0 r e p1r u t0 0.305 rf_a0 rf_t1) as GD. fold p1r in rf_p2.
      assert (D0 : 658 <= 23 * p1r + t0 * e).
      { apply Rmult_le_reg_r with (u + 0.305); [lra|]. rewrite GD. apply Rle_trans with (658 * 34.305); [apply Rmult_le_compat_l; lra|].
        apply Rle_trans with (23 * 2690 * 0.365); [lra|]. apply Rmult_le_compat; lra. }
      replace (23 * B2R p1 + B2R t * e') with ((23 * p1r + t0 * e) + 23 * (B2R p1 - p1r) + (B2R t - t0) * e' + t0 * (e' - e)) by ring.
      pose proof (mul_bnd (B2R t - t0) e' (9.4 / 10 ^ 8) 120 ltac:(lra) EB).
      pose proof (mul_bnd t0 (e' - e) 6000 (5.4 / 10 ^ 9 / (1 / 10 ^ 6)) ltac:(lra) ltac:(lra)). lra.
  - pose proof (mul_bnd (B2R t) e' 6001 120 ltac:(lra) EB). lra.
Qed.

Lemma gamma_near : near (inv_gamma p1 p2 t hc hs) r (2.5 / 10 ^ 7).
Proof using RF HC HS N1 N2 N3 N4 N5 T0.
  assert (GE := gE). assert (GP := gP). assert (PB := p1_bounds). assert (EB := e_bounds). assert (GD := gD).
  destruct N1 as [f1 _]. destruct N2 as [f2 b2]. destruct N3 as [f3 b3]. destruct N4 as [f4 b4]. destruct N5 as [f5 b5].
  assert (C := COS_bound H). assert (S := SIN_bound H). destruct RF.
  assert (Q : r - 2.45 / 10 ^ 7 <= 23 * (B2R p2 + 0.305) * B2R t / (23 * B2R p1 + B2R t * e') <= r + 2.45 / 10 ^ 7).
  { pose proof (gamma_identity p0 r e p1r u t0 (B2R p2) (B2R p1) (B2R t) e' 0.305 rf_a0 rf_t1) as GI.
    pose proof (mul_bnd (B2R t - t0) (23 * (u + 0.305)) (9.4 / 10 ^ 8) 789.1 ltac:(lra) ltac:(lra)).
    pose proof (mul_bnd (23 * (B2R p2 - p0)) (B2R t) (23 * (2.5 / 10 ^ 10)) 6001 ltac:(lra) ltac:(lra)).
    pose proof (mul_bnd (B2R t) (r * (e' - e)) 6001 (5.4 / 10 ^ 9) ltac:(lra) GE).
    set (N := 23 * (B2R p2 + 0.305) * B2R t) in *. set (D := 23 * B2R p1 + B2R t * e') in *. clearbody N D.
    assert (B : - (1.48 / 10 ^ 4) <= N - r * D <= 1.48 / 10 ^ 4) by lra. clear - B GD rf_r0.
    assert (2.45 / 10 ^ 7 * 615 <= 2.45 / 10 ^ 7 * D) by lra.
    split; [apply le_div|apply div_le]; lra. }
  unfold inv_gamma. fconst (dec "23.0"). fconst (dec "0.305"). fconst (dec "11.0"). fconst (dec "108.0").
  assert (K1 : near (dec "23.0") 23 0) by (split; [exact F|lra]).
  assert (K2 : near (dec "0.305") 0.305 (1 / 10 ^ 16)) by (split; [exact F0|rewrite V0; lra]).
  assert (K3 : near (dec "11.0") 11 0) by (split; [exact F1|lra]).
  assert (K4 : near (dec "108.0") 108 0) by (split; [exact F2|lra]).
  pose proof (near_add _ _ _ _ _ _ 35 (near_self p2 f2) K2 ltac:(lra) ltac:(lra) ltac:(lra) ltac:(lra) ltac:(lra)) as M1.
  assert (BM : -35 <= B2R (fadd p2 (dec "0.305")) <= 35) by (destruct M1; unfold uu in *; lra).
  pose proof (near_mul _ _ _ _ _ _ 23 35 K1 M1 ltac:(lra) BM ltac:(lra) ltac:(unfold uu; lra) ltac:(lra) ltac:(lra) ltac:(lra)) as M2.
  pose proof (near_mul _ _ _ _ _ _ 800 6001 M2 (near_self t f3) ltac:(lra) ltac:(lra) ltac:(unfold uu; lra) ltac:(lra) ltac:(unfold uu; lra) ltac:(lra) ltac:(lra)) as M3.
  set (nf := fmul (fmul (dec "23.0") (fadd p2 (dec "0.305"))) t) in *. clearbody nf.
  assert (M3' : near nf (23 * (B2R p2 + 0.305) * B2R t) (1 / 10 ^ 8)) by (apply near_weak with (1 := M3); unfold uu; lra). clear M1 M2 M3 BM.
  pose proof (near_mul _ _ _ _ _ _ 23 4806 K1 (near_self p1 f1) ltac:(lra) ltac:(lra) ltac:(lra) ltac:(lra) ltac:(lra) ltac:(lra) ltac:(lra)) as M4.
  pose proof (near_mul _ _ _ _ _ _ 11 6001 K3 (near_self t f3) ltac:(lra) ltac:(lra) ltac:(lra) ltac:(lra) ltac:(lra) ltac:(lra) ltac:(lra)) as M5.
  pose proof (near_mul _ _ _ _ _ _ 66011 1.01 M5 (near_self hc f4) ltac:(lra) ltac:(lra) ltac:(unfold uu; lra) ltac:(lra) ltac:(unfold uu; lra) ltac:(lra) ltac:(lra)) as M6.
  pose proof (near_mul _ _ _ _ _ _ 108 6001 K4 (near_self t f3) ltac:(lra) ltac:(lra) ltac:(lra) ltac:(lra) ltac:(lra) ltac:(lra) ltac:(lra)) as M7.
  pose proof (near_mul _ _ _ _ _ _ 648108 1.01 M7 (near_self hs f5) ltac:(lra) ltac:(lra) ltac:(unfold uu; lra) ltac:(lra) ltac:(unfold uu; lra) ltac:(lra) ltac:(lra)) as M8.
  assert (M6' : near (fmul (fmul (dec "11.0") t) hc) (11 * B2R t * B2R hc) (1 / 10 ^ 10)) by (apply near_weak with (1 := M6); unfold uu; lra).
  assert (M8' : near (fmul (fmul (dec "108.0") t) hs) (108 * B2R t * B2R hs) (8 / 10 ^ 10)) by (apply near_weak with (1 := M8); unfold uu; lra).
  assert (M4' : near (fmul (dec "23.0") p1) (23 * B2R p1) (1 / 10 ^ 10)) by (apply near_weak with (1 := M4); unfold uu; lra).
  pose proof (mul_bnd (B2R t) (B2R hc) 6001 1.01 ltac:(lra) ltac:(lra)) as B6. pose proof (mul_bnd (B2R t) (B2R hs) 6001 1.01 ltac:(lra) ltac:(lra)) as B8.
  pose proof (near_add _ _ _ _ _ _ (10 ^ 6) M4' M6' ltac:(lra) ltac:(lra) ltac:(lra) ltac:(lra) ltac:(lra)) as M9.
  pose proof (near_add _ _ _ _ _ _ (10 ^ 6) M9 M8' ltac:(lra) ltac:(unfold uu; lra) ltac:(lra) ltac:(unfold uu; lra) ltac:(lra)) as M10.
  set (df := fadd (fadd _ _) (fmul (fmul (dec "108.0") t) hs)) in *. clearbody df.
  assert (ED : 23 * B2R p1 + 11 * B2R t * B2R hc + 108 * B2R t * B2R hs = 23 * B2R p1 + B2R t * e') by (unfold e'; ring). rewrite ED in M10.
  assert (M10' : near df (23 * B2R p1 + B2R t * e') (2 / 10 ^ 9)) by (apply near_weak with (1 := M10); unfold uu; lra).
  pose proof (near_div _ _ _ _ _ _ 43 614 M3' M10' ltac:(lra) ltac:(destruct M10'; lra) ltac:(lra) ltac:(lra) ltac:(lra) ltac:(lra) ltac:(lra) ltac:(lra)) as M11.
  destruct M11 as [f11 b11]. split; [exact f11|]. unfold uu in b11. lra.
Qed.

Lemma opp_near : near (fmul (inv_gamma p1 p2 t hc hs) hc) (r * cos th) (2.53 / 10 ^ 7) /\
  near (fmul (inv_gamma p1 p2 t hc hs) hs) (r * sin th) (2.53 / 10 ^ 7).
Proof using RF HC HS N1 N2 N3 N4 N5 T0.
  assert (G := gamma_near). set (g := inv_gamma p1 p2 t hc hs) in *. clearbody g. destruct RF.
  assert (C := COS_bound H). assert (S := SIN_bound H).
  split.
  - pose proof (near_mul g hc r (cos H) _ _ 42 1.01 G N4 ltac:(lra) ltac:(destruct N4; lra) ltac:(lra) ltac:(lra) ltac:(lra) ltac:(lra) ltac:(lra)) as M.
    apply near_move with (1 := M). unfold uu. lra.
  - pose proof (near_mul g hs r (sin H) _ _ 42 1.01 G N5 ltac:(lra) ltac:(destruct N5; lra) ltac:(lra) ltac:(lra) ltac:(lra) ltac:(lra) ltac:(lra)) as M.
    apply near_move with (1 := M). unfold uu. lra.
Qed.

Lemma resp_near : let a := fmul (inv_gamma p1 p2 t hc hs) hc in let b := fmul (inv_gamma p1 p2 t hc hs) hs in
  near (inv_ra p2 a b) ((460 * p0 + 451 * (r * cos th) + 288 * (r * sin th)) / 1403) (1.2 / 10 ^ 6) /\
  near (inv_ga p2 a b) ((460 * p0 - 891 * (r * cos th) - 261 * (r * sin th)) / 1403) (1.2 / 10 ^ 6) /\
  near (inv_ba p2 a b) ((460 * p0 - 220 * (r * cos th) - 6300 * (r * sin th)) / 1403) (1.2 / 10 ^ 6).
Proof using RF HC HS N1 N2 N3 N4 N5 T0.
  destruct opp_near as [A B]. cbv zeta. set (a := fmul _ hc) in *. set (b := fmul _ hs) in *. clearbody a b. destruct RF.
  assert (CC := mul_bnd r (cos th) 42 1 ltac:(lra) ltac:(pose proof (COS_bound th); lra)).
  assert (SS := mul_bnd r (sin th) 42 1 ltac:(lra) ltac:(pose proof (SIN_bound th); lra)).
  assert (U := N2). clear - A B CC SS U rf_p3.
  set (x := r * cos th) in *. set (y := r * sin th) in *. clearbody x y.
  unfold inv_ra, inv_ga, inv_ba.
  fconst (dec "460.0"). fconst (dec "451.0"). fconst (dec "288.0"). fconst (dec "1403.0").
  fconst (dec "891.0"). fconst (dec "261.0"). fconst (dec "220.0"). fconst (dec "6300.0").
  assert (M : forall (c v : f64) k w d B, fin c -> B2R c = k -> near v w d -> 0 <= d <= 1 -> 0 <= k <= 6300 -> - B <= w <= B -> 1 <= B <= 50 -> near (fmul c v) (k * w) (k * d + 2 * 10 ^ 6 * uu)).
  { intros c v k w d B0 fc vc nv hd hk hw hB. 
    pose proof (near_mul c v k w 0 d 6300 60 ltac:(split; [exact fc|lra]) nv ltac:(lra) ltac:(destruct nv; lra) ltac:(lra) ltac:(lra) ltac:(lra) ltac:(lra) ltac:(lra)) as Q.
    destruct nv as [fv bv]. destruct (fmul_S c v fc fv ltac:(rewrite vc; pose proof (mul_bnd k (B2R v) 6300 51 ltac:(lra) ltac:(lra)); unfold HUGE; lra)) as [E F7].
    split; [exact F7|]. rewrite E, vc. pose proof (mul_bnd k (B2R v) 6300 51 ltac:(lra) ltac:(lra)).
    pose proof (rnd_uu (k * B2R v) (10 ^ 6) ltac:(lra) ltac:(lra)).
    assert (- (k * d) <= k * (B2R v - w) <= k * d) by (pose proof (mul_bnd k (B2R v - w) k d ltac:(lra) ltac:(lra)); lra).
    unfold uu in *. lra. }
  pose proof (M _ _ _ _ _ 50 F V U ltac:(lra) ltac:(lra) ltac:(lra) ltac:(lra)) as Q1.
  assert (KD : near (dec "1403.0") 1403 0) by (split; [exact F2|lra]).
  assert (DV : forall f v d, near f v d -> 0 <= d <= 0.00167 -> -10 ^ 6 <= v <= 10 ^ 6 -> near (fdiv f (dec "1403.0")) (v / 1403) (1.2 / 10 ^ 6)).
  { intros f v d nf hd hv. pose proof (near_div f _ v 1403 d 0 1000 1403 nf KD ltac:(lra) ltac:(lra) ltac:(lra) ltac:(lra) ltac:(lra) ltac:(lra) ltac:(lra) ltac:(lra)) as Q.
    apply near_weak with (1 := Q). unfold uu. lra. }
  split; [|split].
  - pose proof (M _ _ _ _ _ 50 F0 V0 A ltac:(lra) ltac:(lra) ltac:(lra) ltac:(lra)) as Q2;
    pose proof (M _ _ _ _ _ 50 F1 V1 B ltac:(lra) ltac:(lra) ltac:(lra) ltac:(lra)) as Q3;
    pose proof (near_add _ _ _ _ _ _ (10 ^ 6) Q1 Q2 ltac:(lra) ltac:(unfold uu; lra) ltac:(unfold uu; lra) ltac:(unfold uu; lra) ltac:(lra)) as Q4;
    pose proof (near_add _ _ _ _ _ _ (10 ^ 6) Q4 Q3 ltac:(lra) ltac:(unfold uu; lra) ltac:(unfold uu; lra) ltac:(unfold uu; lra) ltac:(lra)) as Q5;
    apply (DV _ _ _ Q5); [unfold uu; lra|lra].
  - pose proof (M _ _ _ _ _ 50 F3 V3 A ltac:(lra) ltac:(lra) ltac:(lra) ltac:(lra)) as Q2;
    pose proof (M _ _ _ _ _ 50 F4 V4 B ltac:(lra) ltac:(lra) ltac:(lra) ltac:(lra)) as Q3;
    pose proof (near_sub _ _ _ _ _ _ (10 ^ 6) Q1 Q2 ltac:(lra) ltac:(unfold uu; lra) ltac:(unfold uu; lra) ltac:(unfold uu; lra) ltac:(lra)) as Q4;
    pose proof (near_sub _ _ _ _ _ _ (10 ^ 6) Q4 Q3 ltac:(lra) ltac:(unfold uu; lra) ltac:(unfold uu; lra) ltac:(unfold uu; lra) ltac:(lra)) as Q5;
    apply (DV _ _ _ Q5); [unfold uu; lra|lra].
  - pose proof (M _ _ _ _ _ 50 F5 V5 A ltac:(lra) ltac:(lra) ltac:(lra) ltac:(lra)) as Q2;
    pose proof (M _ _ _ _ _ 50 F6 V6 B ltac:(lra) ltac:(lra) ltac:(lra) ltac:(lra)) as Q3;
    pose proof (near_sub _ _ _ _ _ _ (10 ^ 6) Q1 Q2 ltac:(lra) ltac:(unfold uu; lra) ltac:(unfold uu; lra) ltac:(unfold uu; lra) ltac:(lra)) as Q4;
    pose proof (near_sub _ _ _ _ _ _ (10 ^ 6) Q4 Q3 ltac:(lra) ltac:(unfold uu; lra) ltac:(unfold uu; lra) ltac:(unfold uu; lra) ltac:(lra)) as Q5;
    apply (DV _ _ _ Q5); [unfold uu; lra|lra].
Qed.
End Gamma.
