(** * A colour's CAM16 description converts back to the colour.  Proof file. *)
From Coq Require Import ZArith Bool Reals Lra Lia Psatz String List.
From Flocq Require Import Core Relative IEEE754.BinarySingleNaN.
From Verif Require Import F64 MathUtils ColorUtils ViewingConditions Cam16 Spec SpecCam FloatFacts FloatMono PfMath PfTones PfLab PfGamma PfNear PfVc PfRel PfCamA PfCamB PfCamC PfCamD PfCamE PfCamF PfCamG PfCamH PfHct.
Open Scope string_scope.
Open Scope R_scope.

Section Acc.
Context {lm : Libm} (LA : libm_accurate (1 / 10 ^ 13) lm).

Definition fw_ucs_j (j : f64) : f64 := fdiv (fmul (fadd (dec "1.0") (fmul (dec "100.0") (dec "0.007"))) j) (fadd (dec "1.0") (fmul (dec "0.007") j)).
Definition fw_ucs_m (m : f64) : f64 := fdiv (lnf (fadd (dec "1.0") (fmul (dec "0.0228") m))) (dec "0.0228").

Lemma from_xyz_staged x y z vc cam : cam16_from_xyz x y z vc = Ok cam ->
  let r := resp (vc_fl vc) (v0 (vc_rgb_d vc)) (cone_r x y z) in
  let g := resp (vc_fl vc) (v1 (vc_rgb_d vc)) (cone_g x y z) in
  let b := resp (vc_fl vc) (v2 (vc_rgb_d vc)) (cone_b x y z) in
  let h := hue_of_ab (fw_a r g b) (fw_b r g b) in
  let j := fw_j (fw_p2 r g b) (vc_nbb vc) (vc_aw vc) (vc_c vc) (vc_z vc) in
  let t := fw_t (fw_p1 (vc_n_c vc) (vc_ncb vc) (up h)) (fw_a r g b) (fw_b r g b) (fw_u r g b) in
  let c := fw_c t (kk_of (vc_n vc)) j in
  let ms := fw_ucs_m (fmul c (vc_f_lroot vc)) in
  (fge h (dec "0.0") && flt h (dec "360.0"))%bool = true /\
  c_hue cam = h /\ c_j cam = j /\ c_chroma cam = c /\
  c_jstar cam = fw_ucs_j j /\ c_astar cam = fmul ms (cosf (rad h)) /\ c_bstar cam = fmul ms (sinf (rad h)).
Proof using.
  intros H. unfold cam16_from_xyz in H. cbv zeta in H.
  match type of H with (if negb ?b then _ else _) = _ => destruct b eqn:EB; cbn [negb] in H end; [|discriminate H].
  apply ok_inj in H. subst cam. cbn [c_hue c_j c_chroma c_jstar c_astar c_bstar]. cbv zeta.
  unfold xyz_responses in *. cbv zeta in *. unfold opp_a, opp_b in *.
  unfold resp, resp_arg, fw_a, fw_b, fw_u, fw_p1, fw_p2, fw_t, fw_c, fw_j, fw_ucs_j, fw_ucs_m, cone_r, cone_g, cone_b, up, rad, kk_of.
  split; [exact EB|]. repeat split; reflexivity.
Qed.

Lemma fw_t_pos (p1 a b uf : f64) p r u : frel p1 p (6 / 10 ^ 13) -> 2690 <= p <= 4801 ->
  near (fsqrt (fadd (fmul a a) (fmul b b))) r (4 / 10 ^ 14) -> 2 / 10 ^ 11 <= r <= 50 -> 0.059 <= u <= 34 -> near uf u (1 / 10 ^ 12) ->
  70 * r <= B2R (fw_t p1 a b uf).
Proof using.
  intros [f1 [_ b1]] bp [fs bs] hr hu nu. unfold fw_t. set (s := fsqrt _) in *. clearbody s. fconst (dec "0.305").
  assert (K : near (dec "0.305") 0.305 (1 / 10 ^ 16)) by (split; [exact F|rewrite V; lra]).
  pose proof (near_add _ _ _ _ _ _ 35 nu K ltac:(lra) ltac:(lra) ltac:(lra) ltac:(lra) ltac:(lra)) as N1.
  assert (N1' : near (fadd uf (dec "0.305")) (u + 0.305) (1.1 / 10 ^ 12)) by (apply near_weak with (1 := N1); unfold uu; lra). clear N1.
  destruct N1' as [fd bd]. set (d := fadd uf (dec "0.305")) in *. clearbody d.
  assert (P1 : 2689 <= B2R p1 <= 4802) by lra.
  assert (Q1 : 2689 * (0.99 * r) <= B2R p1 * B2R s <= 4802 * 51) by (split; apply Rmult_le_compat; lra).
  destruct (fmul_S p1 s f1 fs ltac:(unfold HUGE; lra)) as [E1 F1].
  pose proof (rnd_bounds (B2R p1 * B2R s) ltac:(lra)) as R1. rewrite <- E1 in R1. pose proof eta_small as ETA. unfold u53 in R1.
  set (n := fmul p1 s) in *. clearbody n.
  assert (RD : r * B2R d <= r * 34.4) by (apply Rmult_le_compat_l; lra).
  assert (Q2 : 71 * r <= B2R n / B2R d <= 10 ^ 6) by (split; [apply le_div|apply div_le]; lra).
  destruct (fdiv_S n d F1 ltac:(lra) ltac:(unfold HUGE; lra)) as [E2 _].
  pose proof (rnd_bounds (B2R n / B2R d) ltac:(lra)) as R2. rewrite <- E2 in R2. unfold u53 in R2. lra.
Qed.

Lemma fw_c_pos (t kk j : f64) J : fin t -> 0 <= B2R t <= 5800 -> between kk 0.8 1 -> frel j (100 * J) (3 / 10 ^ 13) -> 0.0002 <= J <= 2 ->
  forall r, 2 / 10 ^ 11 <= r -> 70 * r <= B2R t -> 0.28 * r <= B2R (fw_c t kk j).
Proof using LA.
  intros ft bt [fk bk] hj hJ r br big. unfold fw_c. fconst (dec "0.9"). fconst (dec "100.0").
  set (y9 := dec "0.9") in *. assert (By : 0.9 - 1 / 10 ^ 16 <= B2R y9 <= 0.9 + 1 / 10 ^ 16) by lra.
  assert (T0 : 1 / 10 ^ 9 <= B2R t) by lra.
  assert (W : B2R t * 0.37 <= Rpower (B2R t) (B2R y9) <= 10 ^ 4).
  { destruct (Rle_or_lt (B2R t) 1) as [l|l].
    - split; [apply Rle_trans with (B2R t); [lra|]; rewrite <- (Rpower_1 (B2R t)) at 1 by lra; apply rpow_exp_small; lra|].
      apply Rle_trans with (Rpower (B2R t) 0); [apply rpow_exp_small; lra|rewrite Rpower_O by lra; lra].
    - split; [|apply Rle_trans with (Rpower (B2R t) 1); [apply rpow_exp_big; lra|rewrite Rpower_1 by lra; lra]].
      assert (E : Rpower (B2R t) (B2R y9) * Rpower (B2R t) (1 - B2R y9) = B2R t) by (rewrite <- Rpower_plus; replace (B2R y9 + (1 - B2R y9)) with 1 by ring; apply Rpower_1; lra).
      assert (U : Rpower (B2R t) (1 - B2R y9) <= 2.7).
      { apply (pow_hi_big _ _ _ 1 9); [lra|lra|lia|apply Rle_trans with 0.11; [lra|clear; simpl; lra]|]. rewrite pow_1. lra. }
      assert (P : 0 < Rpower (B2R t) (B2R y9)) by apply exp_pos. set (A := Rpower (B2R t) (B2R y9)) in *. set (B := Rpower (B2R t) (1 - B2R y9)) in *. clearbody A B.
      assert (A * B <= A * 2.7) by (apply Rmult_le_compat_l; lra). lra. }
  pose proof (pow_wide LA t y9 ft F ltac:(lra) ltac:(lra)) as [fq [_ bq]]. set (q := powf t y9) in *. clearbody q.
  set (W0 := Rpower (B2R t) (B2R y9)) in *. clearbody W0.
  assert (B1 : 25.8 * r <= B2R q <= 10001) by lra.
  assert (Q1 : 25.8 * r * 0.8 <= B2R q * B2R kk <= 10001 * 1) by (split; apply Rmult_le_compat; lra).
  destruct (fmul_S q kk fq fk ltac:(unfold HUGE; lra)) as [E1 F1].
  pose proof (rnd_bounds (B2R q * B2R kk) ltac:(lra)) as R1. rewrite <- E1 in R1. pose proof eta_small as ETA. unfold u53 in R1.
  set (al := fmul q kk) in *. clearbody al. assert (Bal : (20.6 * r) <= B2R al <= 10002) by lra.
  assert (N0 : frel (dec "100.0") 100 0) by (apply frel_const with (1 := F0) (2 := V0); split; lra).
  pose proof (frel_div _ _ _ _ _ _ hj N0 ltac:(lra) ltac:(lra) ltac:(lra)) as N1. replace (100 * J / 100) with J in N1 by lra.
  pose proof (frel_sqrt _ _ _ N1 ltac:(lra) ltac:(lra)) as N2.
  assert (S : 0.014 <= sqrt J <= 1.5) by (split; [apply Rsqr_incr_0_var|apply Rsqr_incr_0_var]; rewrite ?Rsqr_sqrt by lra; unfold Rsqr; try lra; apply sqrt_pos).
  set (s := fsqrt (fdiv j (dec "100.0"))) in *. clearbody s. set (s0 := sqrt J) in *. clearbody s0. destruct N2 as [fs [_ bs]].
  assert (Ps : 0.0139 <= B2R s <= 2) by lra.
  assert (Q2 : (20.6 * r) * 0.0139 <= B2R al * B2R s <= 10002 * 2) by (split; apply Rmult_le_compat; lra).
  destruct (fmul_S al s F1 fs ltac:(unfold HUGE; lra)) as [E2 _].
  pose proof (rnd_bounds (B2R al * B2R s) ltac:(lra)) as R2. rewrite <- E2 in R2. unfold u53 in R2. lra.
Qed.

(** A description computed from the responses [r], [g], [b], whose chroma and lightness are only nearly those computed. *)
Lemma describe vc (r g b : f64) R G B : vc_std vc -> between r 0.02 11 -> between g 0.02 11 -> between b 0.02 11 ->
  near r R (1 / 10 ^ 9) -> near g G (1 / 10 ^ 9) -> near b B (1 / 10 ^ 9) ->
  let h := hue_of_ab (fw_a r g b) (fw_b r g b) in
  let j := fw_j (fw_p2 r g b) (vc_nbb vc) (vc_aw vc) (vc_c vc) (vc_z vc) in
  let t := fw_t (fw_p1 (vc_n_c vc) (vc_ncb vc) (up h)) (fw_a r g b) (fw_b r g b) (fw_u r g b) in
  let c := fw_c t (kk_of (vc_n vc)) j in
  (fge h (dec "0.0") && flt h (dec "360.0"))%bool = true ->
  exists p0 rho th u t0 w J,
    0.0002 <= J <= 2 /\ 0 <= w <= 2600 /\ J = Rpower (p0 * B2R (vc_nbb vc) / B2R (vc_aw vc)) (B2R (fmul (vc_c vc) (vc_z vc))) /\
    frel j (100 * J) (3 / 10 ^ 13) /\ fin c /\ 0 <= B2R c /\
    sqrt J * (B2R (kk_of (vc_n vc)) * w - 2 / 10 ^ 9) <= B2R c <= sqrt J * (B2R (kk_of (vc_n vc)) * w + 2 / 10 ^ 9) /\
    (fin (rad h) /\ 0 <= B2R (rad h) <= 7) /\ (exists k, - (5 / 10 ^ 13) <= B2R (rad h) - (th + 2 * INR k * PI) <= 5 / 10 ^ 13) /\
    rho * rho = B2R (fw_a r g b) * B2R (fw_a r g b) + B2R (fw_b r g b) * B2R (fw_b r g b) /\ 0 <= rho <= 20 /\ (2 / 10 ^ 11 <= rho -> 0.28 * rho <= B2R c) /\ (pw w y10 <= t0 + 3.1 / 10 ^ 8) /\ (t0 <= pw w y10 + 3.1 / 10 ^ 8) /\
    forall self,
      frel (c_j self) (100 * J) (8 / 10 ^ 13) -> fin (c_chroma self) -> 0 <= B2R (c_chroma self) ->
      sqrt J * (B2R (kk_of (vc_n vc)) * w - 5 / 10 ^ 9) <= B2R (c_chroma self) <= sqrt J * (B2R (kk_of (vc_n vc)) * w + 5 / 10 ^ 9) ->
      fin (rad (c_hue self)) -> 0 <= B2R (rad (c_hue self)) <= 7 ->
      - (4 / 10 ^ 11) <= rho * (cos (B2R (rad (c_hue self))) - cos th) <= 4 / 10 ^ 11 ->
      - (4 / 10 ^ 11) <= rho * (sin (B2R (rad (c_hue self))) - sin th) <= 4 / 10 ^ 11 ->
      described vc self R G B p0 rho th u t0 w.
Proof using LA.
  intros VS hr hg hb nr ng nb h j t c HB.
  destruct (opp_forms r g b hr hg hb) as (NU & NA & NB).
  assert (N2 := p2_rel r g b hr hg hb).
  assert (BR := proj2 hr). assert (BG := proj2 hg). assert (BB := proj2 hb).
  set (p := (40 * B2R r + 20 * B2R g + B2R b) / 20) in *.
  assert (Bp : 0.06 <= p <= 34) by (unfold p; lra).
  assert (Xr := X_range _ _ p (vs_nbb _ VS) (vs_aw _ VS) Bp).
  assert (JR := J_range _ _ Xr (proj1 (proj2 (cz_inverse _ _ (vs_c _ VS) (vs_z _ VS))))).
  pose proof (fw_j_rel LA _ _ _ _ _ p (vs_nbb _ VS) (vs_aw _ VS) (vs_c _ VS) (vs_z _ VS) Bp N2) as NJ. fold j in NJ.
  set (J := Rpower (p * B2R (vc_nbb vc) / B2R (vc_aw vc)) (B2R (fmul (vc_c vc) (vc_z vc)))) in *.
  assert (EJ : J = Rpower (p * B2R (vc_nbb vc) / B2R (vc_aw vc)) (B2R (fmul (vc_c vc) (vc_z vc)))) by reflexivity.
  destruct (hue_near LA (fw_a r g b) (fw_b r g b) (near_fin _ _ _ NA) (near_fin _ _ _ NB) HB) as (th & Ea & Eb & Hh & Hk & Hu & Hk' & fh & bh).
  fold h in Hh, Hk, Hu, Hk', fh, bh.
  pose proof (hypot_near (fw_a r g b) (fw_b r g b) (near_fin _ _ _ NA) (near_fin _ _ _ NB) ltac:(destruct NA; lra) ltac:(destruct NB; lra)) as HY.
  cbv zeta in HY. destruct HY as [NS PS].
  assert (rho2 : 0 <= B2R (fw_a r g b) * B2R (fw_a r g b) + B2R (fw_b r g b) * B2R (fw_b r g b)) by nra.
  assert (Erho := sqrt_def _ rho2). assert (Prho := sqrt_pos (B2R (fw_a r g b) * B2R (fw_a r g b) + B2R (fw_b r g b) * B2R (fw_b r g b))).
  set (rho := sqrt (B2R (fw_a r g b) * B2R (fw_a r g b) + B2R (fw_b r g b) * B2R (fw_b r g b))) in *. clearbody rho. clear rho2.
  set (u := p - (11 * B2R (fw_a r g b) + 108 * B2R (fw_b r g b)) / 23).
  assert (NU' : near (fw_u r g b) u (1 / 10 ^ 12)) by (apply near_move with (1 := NU); unfold u, p; destruct NA, NB; lra).
  assert (Bu : 0.059 <= u <= 34) by (unfold u, p; destruct NA, NB; lra).
  assert (Brho : rho <= 1.2 * (u + 0.305)).
  { apply Rnot_lt_le. intros q. assert (Ba : -1.1 * (u + 0.305) <= B2R (fw_a r g b) <= 1.1 * (u + 0.305)) by (unfold u, p; destruct NA, NB; lra).
    assert (Bb : -0.23 * (u + 0.305) <= B2R (fw_b r g b) <= 0.23 * (u + 0.305)) by (unfold u, p; destruct NA, NB; lra).
    clear - Ba Bb q Erho Bu Prho. set (M := u + 0.305) in *. assert (0.3 <= M) by (unfold M; lra). clearbody M.
    pose proof (mul_bnd (B2R (fw_a r g b)) (B2R (fw_a r g b)) (1.1 * M) (1.1 * M) ltac:(lra) ltac:(lra)) as A2.
    pose proof (mul_bnd (B2R (fw_b r g b)) (B2R (fw_b r g b)) (0.23 * M) (0.23 * M) ltac:(lra) ltac:(lra)) as B2.
    assert (1.2 * M * (1.2 * M) < rho * rho) by (apply Rmult_le_0_lt_compat; lra). assert (0 < M * M) by (apply Rmult_lt_0_compat; lra). lra. }
  destruct (p1_range _ _ (th + 2) (vs_n_c _ VS) (vs_ncb _ VS)) as [BP0 Bp1].
  destruct Hk' as [k' Hk']. destruct (cos_turns _ _ _ _ Hk') as (_ & _ & C2).
  pose proof (fw_p1_rel LA _ _ (up h) th (vs_n_c _ VS) (vs_ncb _ VS) (proj1 Hu) (proj2 Hu) C2) as NP1.
  pose proof (fw_t_near _ (fw_a r g b) (fw_b r g b) (fw_u r g b) _ rho u NP1 Bp1 NS PS ltac:(lra) Bu NU') as FT. cbv zeta in FT. fold t in FT.
  set (p1 := P0 (vc_n_c vc) (vc_ncb vc) * (cos (th + 2) + 3.8)) in *.
  destruct FT as (Bt0 & NT & PT). set (t0 := p1 * rho / (u + 0.305)) in *.
  assert (Et0 : t0 * (u + 0.305) = p1 * rho) by (unfold t0; field; lra).
  destruct (fw_c_near LA t (kk_of (vc_n vc)) j J (near_fin _ _ _ NT) ltac:(destruct NT; lra) (vs_kk _ VS) NJ JR) as (w & Bw & Ew & fc & pc & hc).
  fold c in fc, pc, hc.
  exists p, rho, th, u, t0, w, J.
  split; [exact JR|]. split; [exact Bw|]. split; [exact EJ|]. split; [exact NJ|]. split; [exact fc|]. split; [exact pc|]. split; [exact hc|].
  split; [exact Hh|]. split; [exact Hk|].
  split; [exact Erho|].
  split. { split; [lra|]. apply Rnot_lt_le. intros q. assert (Ba : -13 <= B2R (fw_a r g b) <= 13) by (destruct NA; lra). assert (Bb : -13 <= B2R (fw_b r g b) <= 13) by (destruct NB; lra).
    clear - Ba Bb q Erho. pose proof (mul_bnd _ _ 13 13 Ba Ba). pose proof (mul_bnd _ _ 13 13 Bb Bb).
    assert (20 * 20 < rho * rho) by (apply Rmult_le_0_lt_compat; lra). lra. }
  split. { intros big. apply (fw_c_pos t (kk_of (vc_n vc)) j J (near_fin _ _ _ NT) ltac:(destruct NT; lra) (vs_kk _ VS) NJ JR rho big).
    assert (big' : 2 / 10 ^ 11 <= rho <= 50) by lra. apply (fw_t_pos _ _ _ _ _ rho u NP1 Bp1 NS big' Bu NU'). }
  split; [destruct NT; lra|]. split; [destruct NT; lra|].
  intros self hj fcs pcs hcs frs brs hcos hsin.
  assert (S0 : 0 <= sqrt J) by apply sqrt_pos.
  constructor.
  - constructor; try assumption; try lra. rewrite Rmult_plus_distr_l. unfold u.
    replace (rho * (11 * cos th)) with (11 * (rho * cos th)) by ring. replace (rho * (108 * sin th)) with (108 * (rho * sin th)) by ring.
    rewrite <- Ea, <- Eb. lra.
  - rewrite <- EJ. exact hj.
  - split; assumption.
  - cbv zeta. rewrite <- EJ. exact hcs.
  - exact Bw.
  - destruct NT; lra.
  - split; assumption.
  - exact hcos.
  - exact hsin.
  - rewrite <- Ea, <- Eb. unfold p. destruct NA, NB, nr. lra.
  - rewrite <- Ea, <- Eb. unfold p. destruct NA, NB, ng. lra.
  - rewrite <- Ea, <- Eb. unfold p. destruct NA, NB, nb. lra.
Qed.

(** ** Black *)
Definition zero (x : f64) : Prop := fin x /\ B2R x = 0.
Lemma zero_mul_l (x y : f64) : zero x -> fin y -> zero (fmul x y).
Proof using. intros [f e] g. destruct (fmul_S x y f g ltac:(rewrite e, Rmult_0_l; unfold HUGE; lra)) as [E F]. split; [exact F|]. now rewrite E, e, Rmult_0_l, rnd_0. Qed.
Lemma zero_mul_r (x y : f64) : fin x -> zero y -> zero (fmul x y).
Proof using. intros f [g e]. destruct (fmul_S x y f g ltac:(rewrite e, Rmult_0_r; unfold HUGE; lra)) as [E F]. split; [exact F|]. now rewrite E, e, Rmult_0_r, rnd_0. Qed.
Lemma zero_add (x y : f64) : zero x -> zero y -> zero (fadd x y).
Proof using. intros [f e] [g k]. destruct (fadd_S x y f g ltac:(rewrite e, k; unfold HUGE; lra)) as [E F]. split; [exact F|]. rewrite E, e, k. replace (0 + 0) with 0 by ring. apply rnd_0. Qed.
Lemma zero_sub (x y : f64) : zero x -> zero y -> zero (fsub x y).
Proof using. intros [f e] [g k]. destruct (fsub_S x y f g ltac:(rewrite e, k; unfold HUGE; lra)) as [E F]. split; [exact F|]. rewrite E, e, k. replace (0 - 0) with 0 by ring. apply rnd_0. Qed.
Lemma zero_div (x y : f64) : zero x -> fin y -> B2R y <> 0 -> zero (fdiv x y).
Proof using. intros [f e] g n. destruct (fdiv_S x y f n ltac:(rewrite e; unfold Rdiv; rewrite Rmult_0_l; unfold HUGE; lra)) as [E F]. split; [exact F|]. rewrite E, e. unfold Rdiv. now rewrite Rmult_0_l, rnd_0. Qed.
Lemma zero_abs (x : f64) : zero x -> zero (fabs x).
Proof using. intros [f e]. split; [rewrite fabs_fin; exact f|]. rewrite fabs_R. rewrite e. apply Rabs_R0. Qed.
Lemma zero_pow (x y : f64) : zero x -> fin y -> 0 < B2R y -> zero (powf x y).
Proof using LA. intros [f e] g h. destruct (la_tiny _ _ LA x y f g ltac:(lra) h) as [Z _]. exact (Z e). Qed.
Lemma zero_sqrt (x : f64) : zero x -> zero (fsqrt x).
Proof using. intros [f e]. destruct (fsqrt_R x f ltac:(lra)) as [F E]. split; [exact F|]. now rewrite E, e, sqrt_0, rnd_0. Qed.

Lemma signum_zero (x : f64) : zero x -> signum x = 0%Z.
Proof using.
  intros [f e]. unfold signum. fconst (dec "0.0").
  replace (flt x (dec "0.0")) with false by (symmetry; apply flt_fin_f; [exact f|exact F|rewrite V; lra]).
  replace (feq x (dec "0.0")) with true by (symmetry; apply feq_fin; [exact f|exact F|rewrite V; lra]). reflexivity.
Qed.
Lemma zero_of_Z : zero (of_Z 0).
Proof using. fconst (of_Z 0). split; assumption. Qed.

Lemma resp_zero (fl d rc : f64) : between fl 0.38 0.4 -> between d 0.9 1.1 -> zero rc -> zero (resp fl d rc).
Proof using LA.
  intros [ff bf] [fd bd] z. unfold resp, resp_arg. cbv zeta. fconst (dec "100.0"). fconst (dec "0.42"). fconst (dec "27.13"). fconst (dec "400.0").
  pose proof (zero_mul_r d rc fd z) as Z1. rewrite (signum_zero _ Z1).
  pose proof (zero_pow _ (dec "0.42") (zero_div _ (dec "100.0") (zero_mul_r fl _ ff (zero_abs _ Z1)) F ltac:(lra)) F0 ltac:(rewrite V0; lra)) as Z2.
  set (af := powf _ _) in *. clearbody af.
  destruct Z2 as [fa ea]. destruct (fadd_S af (dec "27.13") fa F1 ltac:(rewrite ea, V1; fsmall)) as [E5 F5].
  apply zero_div; [|exact F5|].
  - apply zero_mul_l; [|exact fa]. apply zero_mul_l; [exact zero_of_Z|exact F2].
  - rewrite E5, ea. pose proof (rnd_uu (0 + B2R (dec "27.13")) 30 ltac:(rewrite V1; lra) ltac:(lra)) as Q. rewrite V1 in *. unfold uu in *. lra.
Qed.

Lemma unresp_zero (fl d ra : f64) : between fl 0.38 0.4 -> between d 0.9 1.1 -> zero ra -> zero (unresp fl d ra).
Proof using LA.
  intros [ff bf] [fd bd] z. unfold unresp, unbase. fconst (dec "100.0"). fconst (fdiv (dec "1.0") (dec "0.42")). fconst (dec "27.13"). fconst (dec "400.0"). fconst (dec "0.0").
  rewrite (signum_zero _ z). pose proof (zero_abs _ z) as Z1.
  destruct Z1 as [fa ea]. destruct (fsub_S (dec "400.0") (fabs ra) F2 fa ltac:(rewrite ea, V2; fsmall)) as [E5 F5].
  assert (E6 : B2R (fsub (dec "400.0") (fabs ra)) <> 0).
  { rewrite E5, ea, V2. pose proof (rnd_uu (400 - 0) 400 ltac:(lra) ltac:(lra)). unfold uu in *. lra. }
  pose proof (zero_div _ _ (zero_mul_r (dec "27.13") (fabs ra) F1 (conj fa ea)) F5 E6) as Z2.
  destruct (fmax_R (dec "0.0") _ F3 (proj1 Z2)) as [F6 E7].
  assert (Z3 : zero (fmax (dec "0.0") (fdiv (fmul (dec "27.13") (fabs ra)) (fsub (dec "400.0") (fabs ra))))).
  { split; [exact F6|]. rewrite E7, V3, (proj2 Z2). apply Rmax_left. lra. }
  pose proof (zero_pow _ (fdiv (dec "1.0") (dec "0.42")) Z3 F0 ltac:(rewrite V0; lra)) as Z4. set (q := powf _ _) in *. clearbody q.
  assert (B7 : 100 / B2R fl <= 300) by (apply div_le; lra). assert (B8 : 0 <= 100 / B2R fl) by (apply le_div; lra).
  destruct (fdiv_S (dec "100.0") fl F ltac:(lra) ltac:(rewrite V; unfold HUGE; lra)) as [_ F7].
  apply zero_div; [|exact fd|lra]. apply zero_mul_r; [|exact Z4]. exact (proj1 (zero_mul_l _ _ zero_of_Z F7)).
Qed.

Lemma inv_zero (p2 a b : f64) : zero p2 -> zero a -> zero b -> zero (inv_ra p2 a b) /\ zero (inv_ga p2 a b) /\ zero (inv_ba p2 a b).
Proof using.
  intros z1 z2 z3. unfold inv_ra, inv_ga, inv_ba.
  fconst (dec "460.0"). fconst (dec "451.0"). fconst (dec "288.0"). fconst (dec "1403.0").
  fconst (dec "891.0"). fconst (dec "261.0"). fconst (dec "220.0"). fconst (dec "6300.0").
  split; [|split]; (apply zero_div; [|assumption|lra]); repeat first [apply zero_add|apply zero_sub]; apply zero_mul_r; assumption.
Qed.

Lemma black_cones : let '(x, y, z) := matrix_multiply (linearized 0, linearized 0, linearized 0) srgb_to_xyz in
  zero (cone_r x y z) /\ zero (cone_g x y z) /\ zero (cone_b x y z).
Proof using.
  set (M := matrix_multiply _ _). rewrite (surjective_pairing M). rewrite (surjective_pairing (fst M)). subst M.
  set (x := fst (fst _)). set (y := snd (fst _)). set (z := snd _).
  fconst (cone_r x y z). fconst (cone_g x y z). fconst (cone_b x y z). repeat split; assumption.
Qed.

Lemma black_back vc self : vc_std vc -> zero (c_j self) -> fin (c_chroma self) -> fin (rad (c_hue self)) -> 0 <= B2R (rad (c_hue self)) <= 7 ->
  cam16_viewed self vc = argb_from_rgb 0 0 0.
Proof using LA.
  intros VS zj fc fh bh.
  pose proof black_cones as BC. pose proof (cones LA 0 0 0 ltac:(lia) ltac:(lia) ltac:(lia)) as C.
  destruct (matrix_multiply _ _) as [[x y] z]. destruct BC as (z1 & z2 & z3). destruct C as (_ & _ & _ & back).
  unfold cam16_viewed. rewrite xyz_staged. cbv zeta.
  match goal with |- argb_from_xyz (v0 (?a, ?b, ?c)) _ _ = _ => change (argb_from_xyz a b c = argb_from_rgb 0 0 0) end.
  assert (ZT : zero (inv_t (c_chroma self) (c_j self) (kk_of (vc_n vc)))).
  { unfold inv_t, inv_alpha. fconst (dec "0.0"). fconst (fdiv (dec "1.0") (dec "0.9")).
    replace (feq (c_j self) (dec "0.0")) with true by (symmetry; apply feq_fin; [exact (proj1 zj)|exact F|rewrite V; exact (proj2 zj)]).
    rewrite Bool.orb_true_r. destruct (vs_kk _ VS) as [fk bk]. apply zero_pow; [|exact F0|rewrite V0; lra]. apply zero_div; [split; assumption|exact fk|lra]. }
  assert (ZP : zero (inv_p2 (vc_aw vc) (vc_nbb vc) (vc_c vc) (vc_z vc) (c_j self))).
  { unfold inv_p2. fconst (dec "100.0"). destruct (cz_inverse _ _ (vs_c _ VS) (vs_z _ VS)) as (_ & _ & fy & by_ & _).
    destruct (vs_aw _ VS) as [fa ba]. destruct (vs_nbb _ VS) as [fn bn].
    apply zero_div; [|exact fn|lra]. apply zero_mul_r; [exact fa|]. apply zero_pow; [apply zero_div; [exact zj|exact F|lra]|exact fy|lra]. }
  pose proof (inv_p1_rel LA _ _ (rad (c_hue self)) (vs_n_c _ VS) (vs_ncb _ VS) fh bh) as N1.
  destruct (p1_range _ _ (B2R (rad (c_hue self)) + 2) (vs_n_c _ VS) (vs_ncb _ VS)) as [_ Bp1].
  destruct (la_trig _ _ LA (rad (c_hue self)) fh ltac:(lra)) as (fs & _ & fo & _).
  set (t := inv_t _ _ _) in *. clearbody t. set (p2 := inv_p2 _ _ _ _ _) in *. clearbody p2. set (p1 := inv_p1 _ _ _) in *. clearbody p1.
  set (hc := cosf (rad (c_hue self))) in *. clearbody hc. set (hs := sinf (rad (c_hue self))) in *. clearbody hs.
  assert (ZG : zero (inv_gamma p1 p2 t hc hs)).
  { unfold inv_gamma. fconst (dec "23.0"). fconst (dec "0.305"). fconst (dec "11.0"). fconst (dec "108.0").
    destruct N1 as [f1 [_ b1]]. assert (B1 : 2680 <= B2R p1 <= 4810) by lra.
    destruct (fmul_S (dec "23.0") p1 F f1 ltac:(rewrite V; unfold HUGE; lra)) as [E5 F5]. rewrite V in E5.
    pose proof (rnd_uu (23 * B2R p1) 200000 ltac:(lra) ltac:(lra)) as R5. rewrite <- E5 in R5. unfold uu in R5.
    destruct (zero_mul_l _ hc (zero_mul_r (dec "11.0") t F1 ZT) fo) as [F6 E6]. destruct (zero_mul_l _ hs (zero_mul_r (dec "108.0") t F2 ZT) fs) as [F7 E7].
    set (m5 := fmul (dec "23.0") p1) in *. set (m6 := fmul (fmul (dec "11.0") t) hc) in *. set (m7 := fmul (fmul (dec "108.0") t) hs) in *. clearbody m5 m6 m7.
    destruct (fadd_S m5 m6 F5 F6 ltac:(rewrite E6; unfold HUGE; lra)) as [E8 F8]. rewrite E6 in E8.
    pose proof (rnd_uu (B2R m5 + 0) 200000 ltac:(lra) ltac:(lra)) as R8. rewrite <- E8 in R8. unfold uu in R8.
    destruct (fadd_S (fadd m5 m6) m7 F8 F7 ltac:(rewrite E7; unfold HUGE; lra)) as [E9 F9]. rewrite E7 in E9.
    pose proof (rnd_uu (B2R (fadd m5 m6) + 0) 200000 ltac:(lra) ltac:(lra)) as R9. rewrite <- E9 in R9. unfold uu in R9.
    apply zero_div; [|exact F9|lra]. apply zero_mul_r; [|exact ZT]. destruct ZP as [fp ep].
    destruct (fadd_S p2 (dec "0.305") fp F0 ltac:(rewrite ep, V0; unfold HUGE; lra)) as [E10 F10].
    pose proof (rnd_uu (B2R p2 + B2R (dec "0.305")) 1 ltac:(rewrite ep, V0; lra) ltac:(lra)) as R10. rewrite <- E10 in R10. unfold uu in R10. rewrite ep, V0 in R10.
    destruct (fmul_S (dec "23.0") (fadd p2 (dec "0.305")) F F10 ltac:(rewrite V; unfold HUGE; lra)) as [_ F11]. exact F11. }
  pose proof (zero_mul_l _ hc ZG fo) as ZA. pose proof (zero_mul_l _ hs ZG fs) as ZB.
  destruct (inv_zero _ _ _ ZP ZA ZB) as (Y1 & Y2 & Y3).
  pose proof (unresp_zero _ _ _ (vs_fl _ VS) (vs_d0 _ VS) Y1) as X1. pose proof (unresp_zero _ _ _ (vs_fl _ VS) (vs_d1 _ VS) Y2) as X2. pose proof (unresp_zero _ _ _ (vs_fl _ VS) (vs_d2 _ VS) Y3) as X3.
  apply back; [destruct X1, z1|destruct X2, z2|destruct X3, z3]; (split; [assumption|lra]).
Qed.

Lemma fw_zero vc (r g b : f64) : vc_std vc -> zero r -> zero g -> zero b ->
  zero (fw_a r g b) /\ zero (fw_b r g b) /\ zero (fw_j (fw_p2 r g b) (vc_nbb vc) (vc_aw vc) (vc_c vc) (vc_z vc)) /\
  forall h, fin (rad h) -> 0 <= B2R (rad h) <= 7 ->
    zero (fw_c (fw_t (fw_p1 (vc_n_c vc) (vc_ncb vc) h) (fw_a r g b) (fw_b r g b) (fw_u r g b)) (kk_of (vc_n vc)) (fw_j (fw_p2 r g b) (vc_nbb vc) (vc_aw vc) (vc_c vc) (vc_z vc))).
Proof using LA.
  intros VS zr zg zb.
  assert (ZA : zero (fw_a r g b)).
  { unfold fw_a. fconst (dec "11.0"). fconst (dec "-12.0"). apply zero_div; [|assumption|lra]. repeat apply zero_add; try exact zb; apply zero_mul_r; assumption. }
  assert (ZB : zero (fw_b r g b)).
  { unfold fw_b. fconst (dec "9.0"). fconst (dec "2.0"). apply zero_div; [|assumption|lra]. apply zero_sub; [apply zero_add; assumption|apply zero_mul_r; assumption]. }
  assert (ZJ : zero (fw_j (fw_p2 r g b) (vc_nbb vc) (vc_aw vc) (vc_c vc) (vc_z vc))).
  { unfold fw_j, fw_p2. fconst (dec "20.0"). fconst (dec "40.0"). fconst (dec "100.0"). destruct (cz_inverse _ _ (vs_c _ VS) (vs_z _ VS)) as (fy & by_ & _).
    destruct (vs_aw _ VS) as [fa ba]. destruct (vs_nbb _ VS) as [fn bn].
    apply zero_mul_r; [assumption|]. apply zero_pow; [|exact fy|lra]. apply zero_div; [|exact fa|lra]. apply zero_mul_l; [|exact fn].
    apply zero_div; [|assumption|lra]. repeat apply zero_add; try exact zb; apply zero_mul_r; assumption. }
  split; [exact ZA|]. split; [exact ZB|]. split; [exact ZJ|]. intros h fh bh.
  pose proof (fw_p1_rel LA _ _ h (B2R (rad h)) (vs_n_c _ VS) (vs_ncb _ VS) fh bh ltac:(lra)) as [f1 _].
  assert (ZU : zero (fw_u r g b)).
  { unfold fw_u. fconst (dec "20.0"). fconst (dec "21.0"). apply zero_div; [|assumption|lra]. repeat apply zero_add; apply zero_mul_r; assumption. }
  assert (ZT : zero (fw_t (fw_p1 (vc_n_c vc) (vc_ncb vc) h) (fw_a r g b) (fw_b r g b) (fw_u r g b))).
  { unfold fw_t. fconst (dec "0.305"). destruct ZU as [fu eu]. 
    destruct (fadd_S (fw_u r g b) (dec "0.305") fu F ltac:(rewrite eu, V; unfold HUGE; lra)) as [E10 F10].
    pose proof (rnd_uu (B2R (fw_u r g b) + B2R (dec "0.305")) 1 ltac:(rewrite eu, V; lra) ltac:(lra)) as R10. rewrite <- E10 in R10. unfold uu in R10. rewrite eu, V in R10.
    apply zero_div; [|exact F10|lra]. apply zero_mul_r; [exact f1|]. apply zero_sqrt. apply zero_add; [apply zero_mul_l; [exact ZA|exact (proj1 ZA)]|apply zero_mul_l; [exact ZB|exact (proj1 ZB)]]. }
  unfold fw_c. fconst (dec "0.9"). fconst (dec "100.0"). destruct (vs_kk _ VS) as [fk bk].
  apply zero_mul_r; [exact (proj1 (zero_mul_l _ _ (zero_pow _ (dec "0.9") ZT F ltac:(rewrite V; lra)) fk))|].
  apply zero_sqrt. apply zero_div; [exact ZJ|assumption|lra].
Qed.

(** ** The round trip *)
Lemma chan (argb : Z) : (0 <= red_from_argb argb <= 255 /\ 0 <= green_from_argb argb <= 255 /\ 0 <= blue_from_argb argb <= 255)%Z.
Proof using. pose proof (channels_bytes argb). tauto. Qed.

Lemma int_trip vc (argb : Z) cam : vc_std vc -> cam16_from_int_in argb vc = Ok cam ->
  cam16_viewed cam vc = argb_from_rgb (red_from_argb argb) (green_from_argb argb) (blue_from_argb argb).
Proof using LA.
  intros VS H. destruct (chan argb) as (h1 & h2 & h3). unfold cam16_from_int_in, xyz_from_argb in H. cbv zeta in H.
  set (cr := red_from_argb argb) in *. set (cg := green_from_argb argb) in *. set (cb := blue_from_argb argb) in *. clearbody cr cg cb. clear argb.
  pose proof (cones LA cr cg cb h1 h2 h3) as C. pose proof black_cones as BC.
  destruct (Z.eq_dec cr 0) as [e1|n1]; [destruct (Z.eq_dec cg 0) as [e2|n2]; [destruct (Z.eq_dec cb 0) as [e3|n3]|]|].
  { subst cr cg cb. destruct (matrix_multiply _ _) as [[x y] z]. change (v0 (x, y, z)) with x in H. change (v1 (x, y, z)) with y in H. change (v2 (x, y, z)) with z in H.
    pose proof (from_xyz_staged _ _ _ _ _ H) as S. cbv zeta in S. destruct BC as (z1 & z2 & z3).
    pose proof (resp_zero _ _ _ (vs_fl _ VS) (vs_d0 _ VS) z1) as Y1. pose proof (resp_zero _ _ _ (vs_fl _ VS) (vs_d1 _ VS) z2) as Y2. pose proof (resp_zero _ _ _ (vs_fl _ VS) (vs_d2 _ VS) z3) as Y3.
    set (r := resp _ _ (cone_r x y z)) in *. set (g := resp _ _ (cone_g x y z)) in *. set (b := resp _ _ (cone_b x y z)) in *. clearbody r g b.
    destruct (fw_zero vc r g b VS Y1 Y2 Y3) as (ZA & ZB & ZJ & ZC). destruct S as (HB & Eh & Ej & Ec & _).
    destruct (hue_near LA _ _ (proj1 ZA) (proj1 ZB) HB) as (th & _ & _ & Hh & _ & Hu & _).
    apply (black_back vc cam VS); [rewrite Ej; exact ZJ|rewrite Ec; exact (proj1 (ZC _ (proj1 Hu) (proj2 Hu)))|rewrite Eh; exact (proj1 Hh)|rewrite Eh; exact (proj2 Hh)]. }
  all: assert (some : (1 <= cr \/ 1 <= cg \/ 1 <= cb)%Z) by lia; clear BC.
  all: destruct (matrix_multiply _ _) as [[x y] z] eqn:E; change (v0 (x, y, z)) with x in H; change (v1 (x, y, z)) with y in H; change (v2 (x, y, z)) with z in H;
    pose proof (from_xyz_staged _ _ _ _ _ H) as S; cbv zeta in S; destruct C as (_ & (K1 & K2 & K3) & L & _); destruct (L some) as (L1 & L2 & L3);
    destruct (resp_fwd LA _ _ (cone_r x y z) (vs_fl _ VS) (vs_d0 _ VS) ltac:(destruct K1; split; [assumption|lra])) as (_ & A1 & R1);
    destruct (resp_fwd LA _ _ (cone_g x y z) (vs_fl _ VS) (vs_d1 _ VS) ltac:(destruct K2; split; [assumption|lra])) as (_ & A2 & R2);
    destruct (resp_fwd LA _ _ (cone_b x y z) (vs_fl _ VS) (vs_d2 _ VS) ltac:(destruct K3; split; [assumption|lra])) as (_ & A3 & R3);
    apply hyp_range in A1; apply hyp_range in A2; apply hyp_range in A3;
    set (r := resp _ _ (cone_r x y z)) in *; set (g := resp _ _ (cone_g x y z)) in *; set (b := resp _ _ (cone_b x y z)) in *; clearbody r g b;
    destruct S as (HB & Eh & Ej & Ec & _);
    pose proof (describe vc r g b _ _ _ VS ltac:(destruct R1; split; [assumption|lra]) ltac:(destruct R2; split; [assumption|lra]) ltac:(destruct R3; split; [assumption|lra])
      (near_weak _ _ _ (1 / 10 ^ 9) R1 ltac:(lra)) (near_weak _ _ _ (1 / 10 ^ 9) R2 ltac:(lra)) (near_weak _ _ _ (1 / 10 ^ 9) R3 ltac:(lra)) HB) as D;
    destruct D as (p0 & rho & th & u & t0 & w & J & JR & Bw & EJ & NJ & fc & pc & hc & Hh & (k & Hk) & _ & Br & _ & _ & _ & D);
    destruct (cos_turns _ _ _ _ Hk) as (C1 & C2 & _);
    apply (described_back LA vc cam p0 rho th u t0 w cr cg cb x y z VS h1 h2 h3 some E); cbv zeta; apply D;
    [ rewrite Ej; apply frel_w with (1 := NJ); lra
    | rewrite Ec; exact fc
    | rewrite Ec; exact pc
    | rewrite Ec; assert (S0 := sqrt_pos J); lra
    | rewrite Eh; exact (proj1 Hh) | rewrite Eh; exact (proj2 Hh)
    | rewrite Eh; pose proof (mul_bnd rho _ 20 _ ltac:(lra) C1); lra
    | rewrite Eh; pose proof (mul_bnd rho _ 20 _ ltac:(lra) C2); lra ].
Qed.
End Acc.
