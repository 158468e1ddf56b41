(** * The yellow-blue coordinate the code computes is away from zero.  Proof file. *)
From Coq Require Import ZArith Bool Reals Lra Lia Psatz String List.
From Flocq Require Import Core Relative IEEE754.BinarySingleNaN.
From Verif Require Import F64 MathUtils ColorUtils ViewingConditions Cam16 Hct Spec SpecCam FloatFacts FloatMono PfMath PfTones PfLab PfGamma PfLabTrip PfNear PfVc PfRel
  PfCamA PfCamB PfCamC PfCamD PfCamE PfCamF PfCamG PfCamH PfHct PfCamPanic PfHueReal PfHueMono PfHueGrid PfHueTable PfHueVc PfHueCheck.
Open Scope string_scope.
Open Scope R_scope.

Lemma m_bound z : 0.0000025 <= z <= 1 -> m z * (1.2 / 10 ^ 10 * z + 9 / 10 ^ 13) <= 2 / 10 ^ 8.
Proof.
  intros h. assert (P := pc_pos z).
  assert (U : pc z / z <= 2400).
  { assert (E : pc z / z = Rpower (/ z) (29 / 50)).
    { unfold pc, Rpower. rewrite ln_Rinv by lra. rewrite <- (exp_ln z) at 2 by lra. unfold Rdiv at 1. rewrite <- exp_Ropp, <- exp_plus. f_equal. lra. }
    rewrite E. apply (pow_hi_big _ _ _ 3 5); [|lra|lia|simpl; lra|].
    - rewrite <- Rinv_1 at 1. apply Rinv_le_contravar; lra.
    - apply Rle_trans with (400000 ^ 3); [apply pow_incr; split; [left; apply Rinv_0_lt_compat; lra|]|lra]. replace 400000 with (/ 0.0000025) by lra. apply Rinv_le_contravar; lra. }
  assert (V : pc z <= 1). { unfold pc. apply (pow_hi_small _ _ _ 0 1); [lra|lra|lia|simpl; lra|simpl; lra]. }
  unfold m. set (p := pc z) in *. clearbody p.
  assert (D : / ((p + 27.13) * (p + 27.13)) <= / 736) by (apply Rinv_le_contravar; nra).
  assert (D0 : 0 < / ((p + 27.13) * (p + 27.13))) by (apply Rinv_0_lt_compat; nra).
  replace (p / (z * ((p + 27.13) * (p + 27.13)))) with (p / z * / ((p + 27.13) * (p + 27.13))) by (field; split; lra).
  set (r := / ((p + 27.13) * (p + 27.13))) in *. clearbody r. assert (Q : p / z * z = p) by (field; lra). assert (Q0 : 0 < p / z) by (apply Rdiv_lt_0_compat; lra). set (q := p / z) in *. clearbody q.
  assert (R1 : q * r <= q * / 736) by (apply Rmult_le_compat_l; lra).
  assert (R2 : q * r * z <= q * / 736 * z) by (apply Rmult_le_compat_r; lra). 
  set (qr := q * r) in *. clearbody qr. replace (4557.84 * qr * (1.2 / 10 ^ 10 * z + 9 / 10 ^ 13)) with (4557.84 * (1.2 / 10 ^ 10 * (qr * z) + 9 / 10 ^ 13 * qr)) by ring. lra.
Qed.

Lemma F_close x x' : 0.0000026 <= x <= 0.9 -> x - (1.1 / 10 ^ 10 * x + 8 / 10 ^ 13) <= x' <= x + (1.1 / 10 ^ 10 * x + 8 / 10 ^ 13) -> - (2 / 10 ^ 8) <= F x' - F x <= 2 / 10 ^ 8.
Proof.
  intros h h'. assert (B : 0.0000025 <= x' <= 1) by lra.
  pose proof (F_tangent x x' ltac:(lra) ltac:(lra)) as T1. pose proof (F_tangent x' x ltac:(lra) ltac:(lra)) as T2.
  assert (M1 := m_bound x ltac:(lra)). assert (M2 := m_bound x' ltac:(lra)). assert (P1 := m_pos x ltac:(lra)). assert (P2 := m_pos x' ltac:(lra)).
  assert (m x * (x' - x) <= m x * (1.2 / 10 ^ 10 * x + 9 / 10 ^ 13)) by (apply Rmult_le_compat_l; lra).
  assert (m x' * (x - x') <= m x' * (1.2 / 10 ^ 10 * x' + 9 / 10 ^ 13)) by (apply Rmult_le_compat_l; lra). lra.
Qed.

Section Acc.
Context {lm : Libm} (LA : libm_accurate (1 / 10 ^ 13) lm).

Lemma resp_F (fl d rc : f64) k : between fl 0.38 0.4 -> between d 0.9 1.1 -> between rc 0.0008 109.2 -> B2R fl * B2R d <= 0.4 ->
  100 * k * (1 - 1.02 / 10 ^ 10) - 1.6 / 10 ^ 10 <= B2R rc <= 100 * k * (1 + 1.02 / 10 ^ 10) + 1.6 / 10 ^ 10 ->
  near (resp fl d rc) (F (B2R fl * B2R d * k)) (2.5 / 10 ^ 8).
Proof using LA.
  intros hf hd hr hu hk. destruct (resp_fwd LA fl d rc hf hd hr) as (BX & BA & N). assert (HR := hr). destruct hr as [_ br]. set (u := B2R fl * B2R d) in *.
  assert (U : 0.342 <= u) by (unfold u; destruct hf, hd; apply Rle_trans with (0.38 * 0.9); [lra|apply Rmult_le_compat; lra]). clearbody u.
  set (X := u * B2R rc / 100) in *. assert (EX : X = u * B2R rc / 100) by reflexivity. clearbody X.
  assert (K0 : 0.0000079 <= k <= 1.1) by lra.
  assert (K1 : 0 <= u * k <= 0.45). { split; [apply Rmult_le_pos; lra|]. apply Rle_trans with (0.4 * 1.1); [apply Rmult_le_compat; lra|lra]. }
  assert (XU : u * k * (1 - 1.02 / 10 ^ 10) - 6.4 / 10 ^ 13 <= X <= u * k * (1 + 1.02 / 10 ^ 10) + 6.4 / 10 ^ 13).
  { rewrite EX. split.
    - assert (u * (100 * k * (1 - 1.02 / 10 ^ 10) - 1.6 / 10 ^ 10) <= u * B2R rc) by (apply Rmult_le_compat_l; lra). lra.
    - assert (u * B2R rc <= u * (100 * k * (1 + 1.02 / 10 ^ 10) + 1.6 / 10 ^ 10)) by (apply Rmult_le_compat_l; lra). lra. }
  assert (C := F_close (u * k) X ltac:(lra) ltac:(lra)).
  assert (Y := y42_near).
  assert (LX : -400000 <= ln X <= 0). { split; [pose proof (ln_ge_inv X ltac:(lra)) as G; assert (/ X <= 390000); [|lra]|pose proof (ln_le_sub X ltac:(lra)); lra]. apply Rle_trans with (/ 0.0000027); [apply Rinv_le_contravar; lra|lra]. }
  assert (M := mul_bnd (y42 - 21 / 50) (ln X) (1 / 10 ^ 16) 400000 ltac:(lra) ltac:(lra)).
  pose proof (rpow_near X X y42 (21 / 50) (4 / 10 ^ 11) ltac:(lra) ltac:(lra) ltac:(lra) ltac:(lra)) as RN. fold (pc X) in RN. assert (PP := pc_pos X).
  assert (HN : - (2 / 10 ^ 9) <= hyp (Rpower X y42) - F X <= 2 / 10 ^ 9).
  { unfold F, hyp. set (a := Rpower X y42) in *. set (c := pc X) in *. clearbody a c. 
    assert (E : 400 * a / (a + 27.13) - 400 * c / (c + 27.13) = 400 * 27.13 * ((a - c) / ((a + 27.13) * (c + 27.13)))).
    { set (k27 := 27.13) in *. assert (0 < k27) by (unfold k27; lra). clearbody k27. field. split; lra. }
    rewrite E. assert (D : 736 <= (a + 27.13) * (c + 27.13)) by (apply Rle_trans with (27.13 * 27.13); [lra|apply Rmult_le_compat; lra]). set (dd := (a + 27.13) * (c + 27.13)) in *. clearbody dd.
    assert (- (1 / 10 ^ 13) <= (a - c) / dd <= 1 / 10 ^ 13) by (split; [apply le_div|apply div_le]; lra). lra. }
  destruct N as [f n]. split; [exact f|]. lra.
Qed.

(** The colour's excitations. *)
Lemma opp_away cr cg cb : byte cr -> byte cg -> byte cb -> lit cr cg cb ->
  let '(x, y, z) := matrix_multiply (linearized cr, linearized cg, linearized cb) srgb_to_xyz in
  let r := resp fl0 (adapt rw0) (cone_r x y z) in
  let g := resp fl0 (adapt gw0) (cone_g x y z) in
  let b := resp fl0 (adapt bw0) (cone_b x y z) in
  fin (fw_a r g b) /\ fin (fw_b r g b) /\ -50 <= B2R (fw_a r g b) <= 50 /\ -50 <= B2R (fw_b r g b) <= 50 /\
  (B2R (fw_b r g b) <= - (1 / 10 ^ 8) \/ 1 / 10 ^ 8 <= B2R (fw_b r g b)).
Proof using LA.
  intros hr hg hb lt. pose proof (separated u1 u2 u3 (u1_near LA) (u2_near LA) (u3_near LA) cr cg cb hr hg hb lt) as SEP. unfold sep, Y, yb in SEP.
  assert (M0 : 2.7 / 10 ^ 7 <= PfHueGrid.d0). { unfold PfHueGrid.d0, HueGrid.margin. apply le_div; [apply IZR_lt; reflexivity|]. replace (IZR (2 ^ 40)) with 1099511627776 by reflexivity. lra. }
  set (dd := PfHueGrid.d0) in *. clearbody dd.
  pose proof (u1_near LA) as U1. pose proof (u2_near LA) as U2. pose proof (u3_near LA) as U3. 
  destruct (vc_std_ok LA) as (vc & Evc & VS). rewrite s_rgb_eq in Evc. apply ok_inj in Evc. subst vc.
  assert (BF := vs_fl _ VS). assert (D1 := vs_d0 _ VS). assert (D2 := vs_d1 _ VS). assert (D3 := vs_d2 _ VS). unfold v0, v1, v2 in D1, D2, D3. cbn [vc_fl vc_rgb_d fst snd] in BF, D1, D2, D3. clear VS.
  set (eps := 1 / 10 ^ 13). assert (heps : 0 <= eps <= 1 / 10 ^ 5) by (unfold eps; lra). assert (PA : pow_accurate eps lm) by exact (la_pow _ _ LA).
  destruct (linearized_R eps heps PA cr hr) as [Fr Er]. destruct (linearized_R eps heps PA cg hg) as [Fg Eg]. destruct (linearized_R eps heps PA cb hb) as [Fb Eb].
  assert (Lr := linR_range cr hr). assert (Lg := linR_range cg hg). assert (Lb := linR_range cb hb).
  pose proof (cones LA cr cg cb hr hg hb) as CN. pose proof (xyz_R _ _ _ Fr Fg Fb) as X.
  unfold eps in Er, Eg, Eb. specialize (X ltac:(lra) ltac:(lra) ltac:(lra)).
  set (mm := matrix_multiply _ srgb_to_xyz) in *. clearbody mm. destruct mm as [[x y] z]. destruct X as ((fx & fy & fz) & ex & ey & ez).
  destruct CN as (_ & (C1 & C2 & C3) & CP & _). destruct (CP lt) as (P1 & P2 & P3). clear CP.
  destruct (cone_r_near x y z fx fy fz ltac:(lra) ltac:(lra) ltac:(lra)) as [Gr Kr].
  destruct (cone_g_near x y z fx fy fz ltac:(lra) ltac:(lra) ltac:(lra)) as [Gg Kg].
  destruct (cone_b_near x y z fx fy fz ltac:(lra) ltac:(lra) ltac:(lra)) as [Gb Kb].
  assert (B1 : between (cone_r x y z) 0.0008 109.2) by (destruct C1; split; [assumption|lra]).
  assert (B2 : between (cone_g x y z) 0.0008 109.2) by (destruct C2; split; [assumption|lra]).
  assert (B3 : between (cone_b x y z) 0.0008 109.2) by (destruct C3; split; [assumption|lra]). clear C1 C2 C3 P1 P2 P3.
  set (kr := cone_r x y z) in *. set (kg := cone_g x y z) in *. set (kb := cone_b x y z) in *. clearbody kr kg kb.
  set (lr := B2R (linearized cr)) in *. set (lg := B2R (linearized cg)) in *. set (lb := B2R (linearized cb)) in *. clearbody lr lg lb.
  set (Rr := linR cr) in *. set (Rg := linR cg) in *. set (Rb := linR cb) in *. clearbody Rr Rg Rb.
  set (xx := B2R x) in *. set (yy := B2R y) in *. set (zz := B2R z) in *. clearbody xx yy zz.
  assert (N1 : near (resp fl0 (adapt rw0) kr) (F (exr u1 Rr Rg Rb)) (2.5 / 10 ^ 8)).
  { unfold exr. apply resp_F; try assumption; [fold u1; lra|]. clear SEP U1 U2 U3. lra. }
  assert (N2 : near (resp fl0 (adapt gw0) kg) (F (exg u2 Rr Rg Rb)) (2.5 / 10 ^ 8)).
  { unfold exg. apply resp_F; try assumption; [fold u2; lra|]. clear SEP U1 U2 U3. lra. }
  assert (N3 : near (resp fl0 (adapt bw0) kb) (F (exb u3 Rr Rg Rb)) (2.5 / 10 ^ 8)).
  { unfold exb. apply resp_F; try assumption; [fold u3; lra|]. clear SEP U1 U2 U3. lra. }
  destruct (resp_fwd LA _ _ kr BF D1 B1) as (_ & A1 & R1). destruct (resp_fwd LA _ _ kg BF D2 B2) as (_ & A2 & R2). destruct (resp_fwd LA _ _ kb BF D3 B3) as (_ & A3 & R3).
  assert (H1 := hyp_range _ A1). assert (H2 := hyp_range _ A2). assert (H3 := hyp_range _ A3).
  set (r := resp _ _ kr) in *. set (g := resp _ _ kg) in *. set (b := resp _ _ kb) in *. clearbody r g b.
  set (Y1 := F (exr _ _ _ _)) in *. set (Y2 := F (exg _ _ _ _)) in *. set (Y3 := F (exb _ _ _ _)) in *. clearbody Y1 Y2 Y3.
  destruct R1 as [f1 b1]. destruct R2 as [f2 b2]. destruct R3 as [f3 b3]. destruct N1 as [_ n1]. destruct N2 as [_ n2]. destruct N3 as [_ n3].
  cbv zeta. assert (T1 : between r 0.02 11) by (split; [exact f1|lra]). assert (T2 : between g 0.02 11) by (split; [exact f2|lra]). assert (T3 : between b 0.02 11) by (split; [exact f3|lra]).
  destruct (opp_forms r g b T1 T2 T3) as (_ & [Fa Na] & [Fb' Nb]). destruct T1 as [_ T1]. destruct T2 as [_ T2]. destruct T3 as [_ T3].
  clear - Fa Na Fb' Nb n1 n2 n3 SEP M0 T1 T2 T3.
  split; [exact Fa|]. split; [exact Fb'|]. split; [lra|]. split; [lra|]. destruct SEP as [SEP|SEP]; [right|left]; lra.
Qed.
End Acc.
