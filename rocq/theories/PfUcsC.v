(** * CAM16-UCS coordinates convert back to the colour.  Proof file. *)
From Coq Require Import ZArith Bool Reals Lra Lia Psatz String List.
From Flocq Require Import Core Relative IEEE754.BinarySingleNaN.
From Verif Require Import F64 MathUtils ColorUtils ViewingConditions Cam16 Spec SpecCam FloatFacts FloatMono PfMath PfTones PfLab PfGamma PfNear PfVc PfRel PfCamA PfCamB PfCamC PfCamD PfCamE PfCamF PfCamG PfCamH PfCamTrip PfHct PfRefTrig PfUcsA PfUcsB.
Open Scope string_scope.
Open Scope R_scope.

Section Acc.
Context {lm : Libm} (LA : libm_accurate (1 / 10 ^ 14) lm).

Lemma LA13 : libm_accurate (1 / 10 ^ 13) lm.
Proof using LA. apply libm_weaken with (2 := LA). lra. Qed.

Lemma ucs_in_parts js a b vc : let self := cam16_from_ucs_in js a b vc in
  c_j self = back_j js /\ c_chroma self = fdiv (back_m a b) (vc_f_lroot vc) /\ c_hue self = back_h a b.
Proof using. cbv zeta. unfold cam16_from_ucs_in, cam16_from_jch_in, back_j, back_m, back_h. cbn [c_j c_chroma c_hue]. repeat split. Qed.

(** A coordinate of the vector. *)
Lemma coordinate (ms q x : f64) C : fin ms -> 0 <= B2R ms <= 360 -> fin q -> - (1 / 10 ^ 14) <= B2R q - C <= 1 / 10 ^ 14 -> -1 <= C <= 1 ->
  - (1.5 / 10 ^ 13) <= B2R x - B2R (fmul ms q) <= 1.5 / 10 ^ 13 ->
  - (B2R ms * (1.1 / 10 ^ 14) + 1.6 / 10 ^ 13) <= B2R x - B2R ms * C <= B2R ms * (1.1 / 10 ^ 14) + 1.6 / 10 ^ 13 /\ fin (fmul ms q) /\ -370 <= B2R (fmul ms q) <= 370.
Proof using.
  intros fm bm fq hq bC hx. set (m := B2R ms) in *.
  assert (P : - (m * (1 / 10 ^ 14)) <= m * (B2R q - C) <= m * (1 / 10 ^ 14)) by (split; [rewrite Ropp_mult_distr_r|]; apply Rmult_le_compat_l; lra).
  assert (PC : - m <= m * C <= m) by (split; [replace (- m) with (m * -1) by ring|rewrite <- (Rmult_1_r m) at 2]; apply Rmult_le_compat_l; lra).
  assert (MQ : - (1.1 * m) <= m * B2R q <= 1.1 * m) by lra.
  destruct (fmul_S ms q fm fq ltac:(fold m; unfold HUGE; lra)) as [E F]. fold m in E.
  pose proof (rnd_bounds_abs (m * B2R q) (1.1 * m) ltac:(apply Rabs_le; lra)) as R. rewrite <- E in R. pose proof eta_small. unfold u53 in R.
  split; [lra|]. split; [exact F|lra].
Qed.

Lemma zero_back (js : f64) : zero js -> zero (back_j js).
Proof using.
  intros [f e]. unfold back_j. fconst (dec "100.0"). fconst (dec "1.0"). fconst (dec "0.007").
  destruct (fsub_S js (dec "100.0") f F ltac:(rewrite e, V; unfold HUGE; lra)) as [E1 G1]. rewrite e, V in E1.
  pose proof (rnd_uu (0 - 100) 100 ltac:(lra) ltac:(lra)) as R1. rewrite <- E1 in R1. unfold uu in R1. set (d := fsub js (dec "100.0")) in *. clearbody d.
  destruct (fmul_S d (dec "0.007") G1 F1 ltac:(rewrite V1; unfold HUGE; lra)) as [E2 G3]. 
  pose proof (rnd_uu (B2R d * B2R (dec "0.007")) 1 ltac:(rewrite V1; lra) ltac:(lra)) as R2. rewrite V1 in R2, E2. 
  assert (R2' : -0.8 <= B2R (fmul d (dec "0.007")) <= -0.6) by (rewrite E2; unfold uu in R2; lra). set (k := fmul d (dec "0.007")) in *. clearbody k.
  destruct (fsub_S (dec "1.0") k F0 G3 ltac:(rewrite V0; unfold HUGE; lra)) as [E4 G4]. rewrite V0 in E4.
  pose proof (rnd_uu (1 - B2R k) 2 ltac:(lra) ltac:(lra)) as R4. rewrite <- E4 in R4. unfold uu in R4.
  apply zero_div; [split; assumption|exact G4|lra].
Qed.

(** The vector of a colour with hue angle [hr] and length [ms], up to rounding. *)
Lemma vector (c flr hr a b : f64) : fin c -> 0 <= B2R c <= 3903 -> between flr 0.7 0.9 -> fin hr -> 0 <= B2R hr <= 7 -> fin a -> fin b ->
  let ms := fw_ucs_m (fmul c flr) in
  - (1.5 / 10 ^ 13) <= B2R a - B2R (fmul ms (cosf hr)) <= 1.5 / 10 ^ 13 ->
  - (1.5 / 10 ^ 13) <= B2R b - B2R (fmul ms (sinf hr)) <= 1.5 / 10 ^ 13 ->
  let c' := fdiv (back_m a b) flr in let h' := back_h a b in
  fin c' /\ 0 <= B2R c' /\ - (4 / 10 ^ 13 * (63 + B2R c)) <= B2R c' - B2R c <= 4 / 10 ^ 13 * (63 + B2R c) /\
  fin (rad h') /\ 0 <= B2R (rad h') <= 7 /\
  forall r, 2 / 10 ^ 11 <= r <= 20 -> 0.28 * r <= B2R c ->
    - (1.5 / 10 ^ 11) <= r * (cos (B2R (rad h')) - cos (B2R hr)) <= 1.5 / 10 ^ 11 /\
    - (1.5 / 10 ^ 11) <= r * (sin (B2R (rad h')) - sin (B2R hr)) <= 1.5 / 10 ^ 11.
Proof using LA.
  intros fc bc VF fh bh fa fb ms ha hb c' h'.
  destruct (la_trig _ _ LA hr fh ltac:(lra)) as (fs & es & fo & eo). apply Rabs_le_inv in es. apply Rabs_le_inv in eo.
  assert (P : 0 <= B2R c * B2R flr <= 3513) by (destruct VF; split; [apply Rmult_le_pos; lra|apply Rle_trans with (3903 * 0.9); [apply Rmult_le_compat; lra|lra]]).
  destruct (fmul_S c flr fc (proj1 VF) ltac:(unfold HUGE; lra)) as [E1 F1].
  pose proof (rnd_bounds _ (proj1 P)) as R1. rewrite <- E1 in R1. pose proof eta_small as ETA. unfold u53 in R1.
  assert (Q1 : 0 <= B2R (fmul c flr)) by (rewrite E1; apply rnd_ge_0; lra). clear E1.
  destruct (ucs_m_fwd LA (fmul c flr) F1 ltac:(lra)) as (fm & Bm & _ & small & large). fold ms in fm, Bm, small, large.
  destruct (coordinate ms (cosf hr) a (cos (B2R hr)) fm Bm fo ltac:(lra) (COS_bound _) ha) as (A1 & A2 & A3).
  destruct (coordinate ms (sinf hr) b (sin (B2R hr)) fm Bm fs ltac:(lra) (SIN_bound _) hb) as (A4 & A5 & A6).
  destruct (ucs_h_back LA a b fa fb) as (th & Ea & Eb & fh' & bh' & k & hk). fold h' in fh', bh', hk.
  assert (U : cos (B2R hr) * cos (B2R hr) + sin (B2R hr) * sin (B2R hr) = 1) by (pose proof (sin2_cos2 (B2R hr)) as W; unfold Rsqr in W; lra).
  assert (Er : exists r, r = sqrt (B2R a * B2R a + B2R b * B2R b)) by (eexists; reflexivity). destruct Er as [r Er]. rewrite <- Er in Ea, Eb.
  destruct (vec_close (B2R ms) _ _ _ _ r th (B2R ms * (1.1 / 10 ^ 14) + 1.6 / 10 ^ 13) ltac:(lra) U A1 A4 ltac:(lra) Er Ea Eb) as (W1 & W2 & W3).
  destruct (ucs_c_back LA c flr a b r fc bc VF fa fb ltac:(lra) ltac:(lra) Er ltac:(fold ms; lra)) as (G1 & G2 & G3). fold c' in G1, G2, G3.
  split; [exact G1|]. split; [exact G2|]. split; [exact G3|]. split; [exact fh'|]. split; [exact bh'|].
  intros rho br cr. destruct (cos_turns _ _ _ _ hk) as (T1 & T2 & _). clear G1 G2 G3 fh' bh' hk ha hb Ea Eb Er A1 A2 A3 A4 A5 A6.
  assert (CF : 0.7 * B2R c <= B2R c * B2R flr) by (destruct VF; rewrite (Rmult_comm 0.7); apply Rmult_le_compat_l; lra).
  assert (MR : 0.16 * rho <= B2R ms).
  { destruct (Rle_or_lt (B2R (fmul c flr)) 6) as [l|l]; [specialize (small ltac:(lra) l); lra|specialize (large ltac:(lra)); lra]. }
  clearbody ms. clear - MR br W2 W3 T1 T2 Bm.
  set (m := B2R ms) in *. clearbody m. set (ct := cos th) in *. set (st := sin th) in *. set (ch := cos (B2R hr)) in *. set (sh := sin (B2R hr)) in *.
  set (c2 := cos (B2R (rad h'))) in *. set (s2 := sin (B2R (rad h'))) in *. clearbody ct st ch sh c2 s2.
  assert (K : forall d, - (3 * (m * (1.1 / 10 ^ 14) + 1.6 / 10 ^ 13)) <= m * d <= 3 * (m * (1.1 / 10 ^ 14) + 1.6 / 10 ^ 13) -> - (4.5 / 10 ^ 12) <= rho * d <= 4.5 / 10 ^ 12).
  { intros d hd. apply Rabs_le_inv. rewrite Rabs_mult, (Rabs_pos_eq rho) by lra.
    assert (Hd : m * Rabs d <= 3 * (m * (1.1 / 10 ^ 14) + 1.6 / 10 ^ 13)) by (rewrite <- (Rabs_pos_eq m) at 1 by lra; rewrite <- Rabs_mult; apply Rabs_le; lra).
    assert (0 <= Rabs d) by apply Rabs_pos. set (x := Rabs d) in *. clearbody x.
    assert (Q : rho * x <= rho * (3.3 / 10 ^ 14) + (4.8 / 10 ^ 13) / 0.16).
    { apply Rmult_le_reg_r with m; [lra|]. replace (rho * x * m) with (rho * (m * x)) by ring.
      apply Rle_trans with (rho * (3 * (m * (1.1 / 10 ^ 14) + 1.6 / 10 ^ 13))); [apply Rmult_le_compat_l; lra|]. lra. }
    lra. }
  pose proof (K _ W2) as K1. pose proof (K _ W3) as K2.
  pose proof (mul_bnd rho (c2 - ct) 20 (5 / 10 ^ 13) ltac:(lra) T1). pose proof (mul_bnd rho (s2 - st) 20 (5 / 10 ^ 13) ltac:(lra) T2). lra.
Qed.

(** Coordinates close to those of [cam]. *)
Definition ucs_close (cam : cam16) (js a b : f64) : Prop :=
  fin js /\ fin a /\ fin b /\ (B2R (c_jstar cam) = 0 -> B2R js = 0) /\
  - (1.6 / 10 ^ 14 + 2 / 10 ^ 16 * B2R (c_jstar cam)) <= B2R js - B2R (c_jstar cam) <= 1.6 / 10 ^ 14 + 2 / 10 ^ 16 * B2R (c_jstar cam) /\
  - (1.5 / 10 ^ 13) <= B2R a - B2R (c_astar cam) <= 1.5 / 10 ^ 13 /\
  - (1.5 / 10 ^ 13) <= B2R b - B2R (c_bstar cam) <= 1.5 / 10 ^ 13.

Lemma zero_ucs_j (j : f64) : zero j -> zero (fw_ucs_j j).
Proof using.
  intros [f e]. unfold fw_ucs_j. fconst (fadd (dec "1.0") (fmul (dec "100.0") (dec "0.007"))). fconst (dec "1.0"). fconst (dec "0.007").
  assert (Z : zero (fmul (dec "0.007") j)) by (apply zero_mul_r; [exact F1|split; assumption]). destruct Z as [fz ez].
  destruct (fadd_S (dec "1.0") _ F0 fz ltac:(rewrite V0, ez; unfold HUGE; lra)) as [E2 F2]. rewrite V0, ez in E2.
  pose proof (rnd_uu (1 + 0) 1 ltac:(lra) ltac:(lra)) as R2. rewrite <- E2 in R2. unfold uu in R2.
  apply zero_div; [apply zero_mul_r; [exact F|split; assumption]|exact F2|lra].
Qed.

Lemma j_back (j js : f64) J : 0.0002 <= J <= 2 -> frel j (100 * J) (3 / 10 ^ 13) -> fin js ->
  - (1.6 / 10 ^ 14 + 2 / 10 ^ 16 * B2R (fw_ucs_j j)) <= B2R js - B2R (fw_ucs_j j) <= 1.6 / 10 ^ 14 + 2 / 10 ^ 16 * B2R (fw_ucs_j j) ->
  frel (back_j js) (100 * J) (8 / 10 ^ 13).
Proof using.
  intros JR NJ fj hj. destruct NJ as (fk & p1 & N). 
  destruct (ucs_j_back j js fk ltac:(lra) fj hj) as (F & p2 & N2). split; [exact F|]. split; [lra|]. lra.
Qed.

Lemma turn_back rho x y th k c : 0 <= rho <= 20 -> - (5 / 10 ^ 13) <= y - (th + 2 * INR k * PI) <= 5 / 10 ^ 13 -> (2 / 10 ^ 11 <= rho -> 0.28 * rho <= c) ->
  (forall r, 2 / 10 ^ 11 <= r <= 20 -> 0.28 * r <= c ->
    - (1.5 / 10 ^ 11) <= r * (cos x - cos y) <= 1.5 / 10 ^ 11 /\
    - (1.5 / 10 ^ 11) <= r * (sin x - sin y) <= 1.5 / 10 ^ 11) ->
  - (4 / 10 ^ 11) <= rho * (cos x - cos th) <= 4 / 10 ^ 11 /\ - (4 / 10 ^ 11) <= rho * (sin x - sin th) <= 4 / 10 ^ 11.
Proof using.
  intros Br Hk CB K. destruct (cos_turns _ _ _ _ Hk) as (T1 & T2 & _).
  destruct (Rle_or_lt (2 / 10 ^ 11) rho) as [l|l].
  - destruct (K rho ltac:(lra) (CB l)) as [K1 K2].
    pose proof (mul_bnd rho (cos y - cos th) 20 (5 / 10 ^ 13) ltac:(lra) T1). pose proof (mul_bnd rho (sin y - sin th) 20 (5 / 10 ^ 13) ltac:(lra) T2). lra.
  - pose proof (COS_bound x). pose proof (COS_bound th). pose proof (SIN_bound x). pose proof (SIN_bound th).
    pose proof (mul_bnd rho (cos x - cos th) (2 / 10 ^ 11) 2 ltac:(lra) ltac:(lra)). pose proof (mul_bnd rho (sin x - sin th) (2 / 10 ^ 11) 2 ltac:(lra) ltac:(lra)). lra.
Qed.

Lemma ucs_trip vc (argb : Z) cam js a b : vc_std vc -> cam16_from_int_in argb vc = Ok cam -> ucs_close cam js a b ->
  cam16_viewed (cam16_from_ucs_in js a b vc) vc = argb_from_rgb (red_from_argb argb) (green_from_argb argb) (blue_from_argb argb).
Proof using LA.
  intros VS H (fj & fa & fb & ZJ0 & hj & ha & hb). pose proof LA13 as LA'. destruct (chan argb) as (h1 & h2 & h3). unfold cam16_from_int_in, xyz_from_argb in H. cbv zeta in H.
  set (cr := red_from_argb argb) in *. set (cg := green_from_argb argb) in *. set (cb := blue_from_argb argb) in *. clearbody cr cg cb. clear argb.
  destruct (ucs_in_parts js a b vc) as (Pj & Pc & Ph). set (self := cam16_from_ucs_in js a b vc) in *. clearbody self.
  pose proof (cones LA' cr cg cb h1 h2 h3) as C. pose proof black_cones as BC.
  destruct (Z.eq_dec cr 0) as [e1|n1]; [destruct (Z.eq_dec cg 0) as [e2|n2]; [destruct (Z.eq_dec cb 0) as [e3|n3]|]|].
  { subst cr cg cb. destruct (matrix_multiply _ _) as [[x y] z]. change (v0 (x, y, z)) with x in H. change (v1 (x, y, z)) with y in H. change (v2 (x, y, z)) with z in H.
    pose proof (from_xyz_staged _ _ _ _ _ H) as S. cbv zeta in S. destruct BC as (z1 & z2 & z3).
    pose proof (resp_zero LA' _ _ _ (vs_fl _ VS) (vs_d0 _ VS) z1) as Y1. pose proof (resp_zero LA' _ _ _ (vs_fl _ VS) (vs_d1 _ VS) z2) as Y2. pose proof (resp_zero LA' _ _ _ (vs_fl _ VS) (vs_d2 _ VS) z3) as Y3.
    set (r := resp _ _ (cone_r x y z)) in *. set (g := resp _ _ (cone_g x y z)) in *. set (bb := resp _ _ (cone_b x y z)) in *. clearbody r g bb.
    destruct (fw_zero LA' vc r g bb VS Y1 Y2 Y3) as (ZA & ZB & ZJ & ZC). destruct S as (HB & Eh & Ej & Ec & Ejs & Eas & Ebs).
    destruct (hue_near LA' _ _ (proj1 ZA) (proj1 ZB) HB) as (th & _ & _ & Hh & _ & Hu & _).
    destruct (ZC _ (proj1 Hu) (proj2 Hu)) as [fc ec]. set (c := fw_c _ _ _) in *. clearbody c. set (hh := hue_of_ab _ _) in *. clearbody hh.
    rewrite Eas in ha. rewrite Ebs in hb.
    destruct (vector c (vc_f_lroot vc) (rad hh) a b fc ltac:(lra) (vs_flr _ VS) (proj1 Hh) (proj2 Hh) fa fb ha hb) as (G1 & _ & _ & G4 & G5 & _).
    apply (black_back LA' vc self VS); [rewrite Pj; apply zero_back; split; [exact fj|apply ZJ0; rewrite Ejs; apply zero_ucs_j; exact ZJ]|rewrite Pc; exact G1|rewrite Ph; exact G4|rewrite Ph; exact G5]. }
  all: assert (some : (1 <= cr \/ 1 <= cg \/ 1 <= cb)%Z) by lia; clear BC.
  all: destruct (matrix_multiply _ _) as [[x y] z] eqn:E; change (v0 (x, y, z)) with x in H; change (v1 (x, y, z)) with y in H; change (v2 (x, y, z)) with z in H;
    pose proof (from_xyz_staged _ _ _ _ _ H) as S; cbv zeta in S; destruct C as (_ & (K1 & K2 & K3) & L & _); destruct (L some) as (L1 & L2 & L3);
    destruct (resp_fwd LA' _ _ (cone_r x y z) (vs_fl _ VS) (vs_d0 _ VS) ltac:(destruct K1; split; [assumption|lra])) as (_ & A1 & R1);
    destruct (resp_fwd LA' _ _ (cone_g x y z) (vs_fl _ VS) (vs_d1 _ VS) ltac:(destruct K2; split; [assumption|lra])) as (_ & A2 & R2);
    destruct (resp_fwd LA' _ _ (cone_b x y z) (vs_fl _ VS) (vs_d2 _ VS) ltac:(destruct K3; split; [assumption|lra])) as (_ & A3 & R3);
    apply hyp_range in A1; apply hyp_range in A2; apply hyp_range in A3;
    set (r := resp _ _ (cone_r x y z)) in *; set (g := resp _ _ (cone_g x y z)) in *; set (bb := resp _ _ (cone_b x y z)) in *; clearbody r g bb;
    destruct S as (HB & Eh & Ej & Ec & Ejs & Eas & Ebs);
    pose proof (describe LA' vc r g bb _ _ _ VS ltac:(destruct R1; split; [assumption|lra]) ltac:(destruct R2; split; [assumption|lra]) ltac:(destruct R3; split; [assumption|lra])
      (near_weak _ _ _ (1 / 10 ^ 9) R1 ltac:(lra)) (near_weak _ _ _ (1 / 10 ^ 9) R2 ltac:(lra)) (near_weak _ _ _ (1 / 10 ^ 9) R3 ltac:(lra)) HB) as D;
    destruct D as (p0 & rho & th & u & t0 & w & J & JR & Bw & EJ & NJ & fc & pc & hc & Hh & (k & Hk) & _ & Br & CB & _ & _ & D);
    apply (described_back LA' vc self p0 rho th u t0 w cr cg cb x y z VS h1 h2 h3 some E); cbv zeta; apply D; clear D.
  all: set (c := fw_c _ _ _) in *; clearbody c; set (j := fw_j _ _ _ _ _) in *; clearbody j; set (hh := hue_of_ab _ _) in *; clearbody hh;
    rewrite Ejs in hj; rewrite Eas in ha; rewrite Ebs in hb; clear - LA VS Pj Pc Ph fj fa fb hj ha hb JR Bw NJ fc pc hc Hh Hk Br CB.
  all: assert (S0 : 0.014 <= sqrt J <= 1.5) by (split; [apply Rsqr_incr_0_var|apply Rsqr_incr_0_var]; rewrite ?Rsqr_sqrt by lra; unfold Rsqr; try lra; apply sqrt_pos).
  all: destruct (vs_kk _ VS) as [_ bk]; assert (KW : 0 <= B2R (kk_of (vc_n vc)) * w <= 2600) by (split; [apply Rmult_le_pos; lra|apply Rle_trans with (1 * 2600); [apply Rmult_le_compat; lra|lra]]).
  all: set (kw := B2R (kk_of (vc_n vc)) * w) in *; clearbody kw; set (s0 := sqrt J) in *; clearbody s0.
  all: assert (SK : 0 <= s0 * kw <= s0 * 2600) by (split; [apply Rmult_le_pos; lra|apply Rmult_le_compat_l; lra]).
  all: destruct (vector c (vc_f_lroot vc) (rad hh) a b fc ltac:(lra) (vs_flr _ VS) (proj1 Hh) (proj2 Hh) fa fb ha hb) as (G1 & G2 & G3 & G4 & G5 & G6).
  all: clear ha hb fa fb fc pc.
  - rewrite Pj. apply (j_back j js J JR NJ fj hj).
  - rewrite Pc. exact G1.
  - rewrite Pc. exact G2.
  - rewrite Pc. clear - G3 hc SK S0. lra.
  - rewrite Ph. exact G4.
  - rewrite Ph. exact G5.
  - rewrite Ph. apply (turn_back rho (B2R (rad (back_h a b))) (B2R (rad hh)) th k (B2R c) Br Hk CB G6).
  - rewrite Ph. apply (turn_back rho (B2R (rad (back_h a b))) (B2R (rad hh)) th k (B2R c) Br Hk CB G6).
  - rewrite Pj. apply (j_back j js J JR NJ fj hj).
  - rewrite Pc. exact G1.
  - rewrite Pc. exact G2.
  - rewrite Pc. clear - G3 hc SK S0. lra.
  - rewrite Ph. exact G4.
  - rewrite Ph. exact G5.
  - rewrite Ph. apply (turn_back rho (B2R (rad (back_h a b))) (B2R (rad hh)) th k (B2R c) Br Hk CB G6).
  - rewrite Ph. apply (turn_back rho (B2R (rad (back_h a b))) (B2R (rad hh)) th k (B2R c) Br Hk CB G6).
  - rewrite Pj. apply (j_back j js J JR NJ fj hj).
  - rewrite Pc. exact G1.
  - rewrite Pc. exact G2.
  - rewrite Pc. clear - G3 hc SK S0. lra.
  - rewrite Ph. exact G4.
  - rewrite Ph. exact G5.
  - rewrite Ph. apply (turn_back rho (B2R (rad (back_h a b))) (B2R (rad hh)) th k (B2R c) Br Hk CB G6).
  - rewrite Ph. apply (turn_back rho (B2R (rad (back_h a b))) (B2R (rad hh)) th k (B2R c) Br Hk CB G6).
Qed.
End Acc.
