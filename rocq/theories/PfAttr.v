(** * The attributes of a colour in CAM16 and distances between colours.  Proof file. *)
From Coq Require Import ZArith Bool Reals Lra Lia Psatz String List.
From Flocq Require Import Core Relative IEEE754.BinarySingleNaN.
From Verif Require Import F64 MathUtils ColorUtils ViewingConditions Cam16 Hct Spec SpecCam FloatFacts FloatMono PfArgb PfMath PfTones PfLab PfGamma PfNear PfVc PfRel PfCamA PfCamB PfCamC PfCamD PfCamE PfCamF PfCamG PfCamH PfCamTrip PfHct PfCamProps PfToneVc SpecAttr.
Open Scope string_scope.
Open Scope R_scope.

Lemma fmul_fin_l (x y : f64) : fin (fmul x y) -> fin x.
Proof. intros h. destruct x as [|[]| |]; try reflexivity; destruct y as [|[]| |]; discriminate h. Qed.

Lemma agree_lo x y : - (1 / 10 ^ 10) * (1 + y) <= x - y <= 1 / 10 ^ 10 * (1 + y) -> 0 <= y -> agree x y.
Proof. intros h p. unfold agree. rewrite (Rabs_pos_eq y p). apply Rabs_le. lra. Qed.

(** ** Saturation, brightness and colourfulness *)
Definition fq (cc sj aw flr : f64) : f64 := fmul (fmul (fmul (fdiv (dec "4.0") cc) sj) (fadd aw (dec "4.0"))) flr.
Definition fs_ (al cc aw : f64) : f64 := fmul (dec "50.0") (fsqrt (fdiv (fmul al cc) (fadd aw (dec "4.0")))).

Lemma aw4_rel (aw : f64) : between aw 25 34 -> frel (fadd aw (dec "4.0")) (B2R aw + 4) (3 / 10 ^ 16) /\ 29 <= B2R aw + 4 <= 38.
Proof.
  intros [f b]. fconst (dec "4.0"). split; [|lra].
  pose proof (frel_add aw (dec "4.0") (B2R aw) 4 0 (frel_self aw f ltac:(lra)) (frel_const _ _ 4 0 F V ltac:(split; lra)) ltac:(lra) ltac:(lra)) as H.
  apply frel_w with (1 := H). lra.
Qed.

Lemma fq_rel (cc sj aw flr : f64) : between cc 0.689 0.691 -> between sj 0.014 1.5 -> between aw 25 34 -> between flr 0.7 0.9 ->
  frel (fq cc sj aw flr) (4 / B2R cc * B2R sj * (B2R aw + 4) * B2R flr) (1 / 10 ^ 14).
Proof.
  intros [fc bc] [fs bs] A [fl bl]. destruct (aw4_rel aw A) as [A4 B4]. unfold fq. fconst (dec "4.0").
  assert (Q0 : 5.7 <= 4 / B2R cc <= 6) by (split; [apply le_div|apply div_le]; lra).
  pose proof (frel_div _ _ _ _ _ _ (frel_const _ _ 4 0 F V ltac:(split; lra)) (frel_self cc fc ltac:(lra)) ltac:(lra) ltac:(lra) ltac:(lra)) as H1.
  assert (Q1 : 0.079 <= 4 / B2R cc * B2R sj <= 9) by (split; [apply Rle_trans with (5.7 * 0.014); [lra|]|apply Rle_trans with (6 * 1.5); [|lra]]; apply Rmult_le_compat; lra).
  pose proof (frel_mul _ _ _ _ _ _ H1 (frel_self sj fs ltac:(lra)) ltac:(lra) ltac:(lra) ltac:(lra)) as H2.
  set (v := 4 / B2R cc * B2R sj) in *. clearbody v.
  assert (Q2 : 2.2 <= v * (B2R aw + 4) <= 342) by (split; [apply Rle_trans with (0.079 * 29); [lra|]|apply Rle_trans with (9 * 38); [|lra]]; apply Rmult_le_compat; lra).
  pose proof (frel_mul _ _ _ _ _ _ H2 A4 ltac:(lra) ltac:(lra) ltac:(lra)) as H3.
  set (w := v * (B2R aw + 4)) in *. clearbody w.
  assert (Q3 : 1.5 <= w * B2R flr <= 310) by (split; [apply Rle_trans with (2.2 * 0.7); [lra|]|apply Rle_trans with (342 * 0.9); [|lra]]; apply Rmult_le_compat; lra).
  pose proof (frel_mul _ _ _ _ _ _ H3 (frel_self flr fl ltac:(lra)) ltac:(lra) ltac:(lra) ltac:(lra)) as H4.
  apply frel_w with (1 := H4). lra.
Qed.

Lemma fm_bounds (al sj flr : f64) : fin al -> 0 <= B2R al <= 4000 -> between sj 0.014 1.5 -> between flr 0.7 0.9 ->
  let m := fmul (fmul al sj) flr in let M := B2R al * B2R sj * B2R flr in
  fin m /\ M * (1 - 1 / 10 ^ 15) - 1 / 10 ^ 50 <= B2R m <= M * (1 + 1 / 10 ^ 15) + 1 / 10 ^ 50 /\ 0 <= M <= 5400.
Proof.
  intros fa ba [fs bs] [fl bl] m M. pose proof eta_small as ETA.
  assert (P1 : 0 <= B2R al * B2R sj <= 6000) by (split; [apply Rmult_le_pos; lra|apply Rle_trans with (4000 * 1.5); [apply Rmult_le_compat; lra|lra]]).
  destruct (fmul_S al sj fa fs ltac:(unfold HUGE; lra)) as [E1 F1]. pose proof (rnd_bounds _ (proj1 P1)) as R1. rewrite <- E1 in R1. unfold u53 in R1.
  assert (G1 : 0 <= B2R (fmul al sj)) by (rewrite E1; apply rnd_ge_0; lra).
  subst m M. set (c := fmul al sj) in *. clearbody c. set (C := B2R al * B2R sj) in *. clearbody C. clear E1.
  assert (P2 : 0 <= B2R c * B2R flr <= 5401) by (split; [apply Rmult_le_pos; lra|apply Rle_trans with (6001 * 0.9); [apply Rmult_le_compat; lra|lra]]).
  destruct (fmul_S c flr F1 fl ltac:(unfold HUGE; lra)) as [E2 F2]. pose proof (rnd_bounds _ (proj1 P2)) as R2. rewrite <- E2 in R2. unfold u53 in R2.
  assert (X : (C - / 9007199254740992 * C - eta) * B2R flr <= B2R c * B2R flr <= (C + / 9007199254740992 * C + eta) * B2R flr) by (split; apply Rmult_le_compat_r; lra).
  assert (Y : 0 <= C * B2R flr <= 5400) by (split; [apply Rmult_le_pos; lra|apply Rle_trans with (6000 * 0.9); [apply Rmult_le_compat; lra|lra]]).
  assert (Z : 0 <= eta * B2R flr <= eta) by (pose proof eta_pos; split; [apply Rmult_le_pos; lra|rewrite <- (Rmult_1_r eta) at 2; apply Rmult_le_compat_l; lra]).
  split; [exact F2|]. split; [|exact Y]. lra.
Qed.

Lemma fs_rel (al cc aw : f64) : fin al -> 1 / 10 ^ 12 <= B2R al <= 4000 -> between cc 0.689 0.691 -> between aw 25 34 ->
  frel (fs_ al cc aw) (50 * sqrt (B2R al * B2R cc / (B2R aw + 4))) (1 / 10 ^ 14).
Proof.
  intros fa ba [fc bc] A. destruct (aw4_rel aw A) as [A4 B4]. unfold fs_. fconst (dec "50.0").
  assert (Q1 : 0.6 / 10 ^ 12 <= B2R al * B2R cc <= 2800) by (split; [apply Rle_trans with (1 / 10 ^ 12 * 0.689); [lra|]|apply Rle_trans with (4000 * 0.691); [|lra]]; apply Rmult_le_compat; lra).
  pose proof (frel_mul _ _ _ _ _ _ (frel_self al fa ltac:(lra)) (frel_self cc fc ltac:(lra)) ltac:(lra) ltac:(lra) ltac:(lra)) as H1.
  set (x := B2R al * B2R cc) in *. clearbody x.
  assert (Q2 : 1 / 10 ^ 14 <= x / (B2R aw + 4) <= 100) by (split; [apply le_div|apply div_le]; lra).
  pose proof (frel_div _ _ _ _ _ _ H1 A4 ltac:(lra) ltac:(lra) ltac:(lra)) as H2.
  set (d := x / (B2R aw + 4)) in *. clearbody d.
  pose proof (frel_sqrt _ _ _ H2 ltac:(lra) ltac:(lra)) as H3.
  assert (Q3 : 1 / 10 ^ 7 <= sqrt d <= 10) by (split; apply Rsqr_incr_0_var; rewrite ?Rsqr_sqrt by lra; unfold Rsqr; try lra; apply sqrt_pos).
  pose proof (frel_mul _ _ _ _ _ _ (frel_const _ _ 50 0 F V ltac:(split; lra)) H3 ltac:(lra) ltac:(lra) ltac:(lra)) as H4.
  apply frel_w with (1 := H4). lra.
Qed.

Lemma fs_small (al cc aw : f64) : fin al -> 0 <= B2R al <= 1 / 10 ^ 12 -> between cc 0.689 0.691 -> between aw 25 34 ->
  fin (fs_ al cc aw) /\ 0 <= B2R (fs_ al cc aw) <= 5.1 / 10 ^ 5.
Proof.
  intros fa ba [fc bc] A. destruct (aw4_rel aw A) as [(f4 & _ & r4) B4]. unfold fs_. fconst (dec "50.0"). pose proof eta_small as ETA. pose proof eta_pos as EP.
  assert (P1 : 0 <= B2R al * B2R cc <= 1 / 10 ^ 12) by (split; [apply Rmult_le_pos; lra|apply Rle_trans with (1 / 10 ^ 12 * 0.691); [apply Rmult_le_compat; lra|lra]]).
  destruct (fmul_S al cc fa fc ltac:(unfold HUGE; lra)) as [E1 F1]. pose proof (rnd_bounds _ (proj1 P1)) as R1. rewrite <- E1 in R1. unfold u53 in R1.
  assert (G1 : 0 <= B2R (fmul al cc)) by (rewrite E1; apply rnd_ge_0; lra). set (x := fmul al cc) in *. clearbody x. clear E1.
  set (w := fadd aw (dec "4.0")) in *. clearbody w.
  assert (P2 : 0 <= B2R x / B2R w <= 1 / 10 ^ 12) by (split; [apply le_div; lra|apply div_le; lra]).
  destruct (fdiv_S x w F1 ltac:(lra) ltac:(unfold HUGE; lra)) as [E2 F2]. pose proof (rnd_bounds _ (proj1 P2)) as R2. rewrite <- E2 in R2. unfold u53 in R2.
  assert (G2 : 0 <= B2R (fdiv x w)) by (rewrite E2; apply rnd_ge_0; lra). set (d := fdiv x w) in *. clearbody d. clear E2.
  destruct (fsqrt_R d F2 G2) as [F3 E3].
  assert (S : 0 <= sqrt (B2R d) <= 1.001 / 10 ^ 6) by (split; [apply sqrt_pos|apply Rsqr_incr_0_var; rewrite ?Rsqr_sqrt by lra; unfold Rsqr; lra]).
  pose proof (rnd_bounds _ (proj1 S)) as R3. rewrite <- E3 in R3. unfold u53 in R3.
  assert (G3 : 0 <= B2R (fsqrt d)) by (rewrite E3; apply rnd_ge_0; lra). set (r := fsqrt d) in *. clearbody r. clear E3.
  destruct (fmul_S (dec "50.0") r F F3 ltac:(rewrite V; unfold HUGE; lra)) as [E4 F4]. rewrite V in E4. pose proof (rnd_bounds (50 * B2R r) ltac:(lra)) as R4. rewrite <- E4 in R4. unfold u53 in R4.
  split; [exact F4|]. split; [rewrite E4; apply rnd_ge_0; lra|lra].
Qed.

Lemma sat_core (al sj cc aw flr : f64) : fin al -> 0 <= B2R al <= 4000 -> between sj 0.014 1.5 -> between cc 0.689 0.691 -> between aw 25 34 -> between flr 0.7 0.9 ->
  agree (B2R (fs_ al cc aw) * B2R (fs_ al cc aw) * B2R (fq cc sj aw flr) / 10 ^ 4) (B2R (fmul (fmul al sj) flr)).
Proof.
  intros fa ba S C A L. destruct (fq_rel cc sj aw flr C S A L) as (_ & pq & rq). destruct (fm_bounds al sj flr fa ba S L) as (_ & rm & bM).
  assert (G : 0 <= B2R (fmul (fmul al sj) flr)).
  { destruct S as [fs bs]. destruct L as [fl bl].
    assert (P1 : 0 <= B2R al * B2R sj <= 6000) by (split; [apply Rmult_le_pos; lra|apply Rle_trans with (4000 * 1.5); [apply Rmult_le_compat; lra|lra]]).
    destruct (fmul_S al sj fa fs ltac:(unfold HUGE; lra)) as [E1 F1]. pose proof (rnd_bounds _ (proj1 P1)) as R1. rewrite <- E1 in R1. unfold u53 in R1. pose proof eta_small as ETA.
    assert (G1 : 0 <= B2R (fmul al sj)) by (rewrite E1; apply rnd_ge_0; lra).
    assert (P2 : 0 <= B2R (fmul al sj) * B2R flr <= 5401) by (split; [apply Rmult_le_pos; lra|apply Rle_trans with (6001 * 0.9); [apply Rmult_le_compat; lra|lra]]).
    destruct (fmul_S (fmul al sj) flr F1 fl ltac:(unfold HUGE; lra)) as [E2 F2]. rewrite E2. apply rnd_ge_0. lra. }
  set (q := B2R (fq cc sj aw flr)) in *. clearbody q. set (m := B2R (fmul (fmul al sj) flr)) in *. clearbody m.
  apply agree_lo; [|exact G]. destruct C as [fc bc]. destruct S as [fs bs]. destruct A as [fw bw]. destruct L as [fl bl].
  set (Q := 4 / B2R cc * B2R sj * (B2R aw + 4) * B2R flr) in *.
  assert (BQ : Q <= 310).
  { assert (Q0 : 5.7 <= 4 / B2R cc <= 6) by (split; [apply le_div|apply div_le]; lra). unfold Q.
    assert (Q1 : 0 <= 4 / B2R cc * B2R sj <= 9) by (split; [apply Rmult_le_pos; lra|apply Rle_trans with (6 * 1.5); [apply Rmult_le_compat; lra|lra]]).
    set (v := 4 / B2R cc * B2R sj) in *. clearbody v.
    assert (Q2 : 0 <= v * (B2R aw + 4) <= 342) by (split; [apply Rmult_le_pos; lra|apply Rle_trans with (9 * 38); [apply Rmult_le_compat; lra|lra]]).
    apply Rle_trans with (342 * 0.9); [apply Rmult_le_compat; lra|lra]. }
  destruct (Rle_dec (1 / 10 ^ 12) (B2R al)) as [big|small].
  - destruct (fs_rel al cc aw fa ltac:(lra) (conj fc bc) (conj fw bw)) as (_ & ps & rs). set (s := B2R (fs_ al cc aw)) in *. clearbody s.
    set (d := B2R al * B2R cc / (B2R aw + 4)) in *.
    assert (Pd : 0 < d) by (apply Rdiv_lt_0_compat; [apply Rmult_lt_0_compat; lra|lra]).
    set (S0 := 50 * sqrt d) in *. assert (ES : S0 * S0 = 2500 * d) by (unfold S0; pose proof (sqrt_sqrt d ltac:(lra)) as X; replace (50 * sqrt d * (50 * sqrt d)) with (2500 * (sqrt d * sqrt d)) by ring; rewrite X; reflexivity).
    assert (EM : 2500 * d * Q / 10 ^ 4 = B2R al * B2R sj * B2R flr) by (unfold d, Q; field; lra).
    set (M := B2R al * B2R sj * B2R flr) in *. clearbody M. clearbody S0 Q d.
    assert (H1 : rel (s * s) (S0 * S0) (1.1 * (1 / 10 ^ 14 + 1 / 10 ^ 14))) by (apply rel_mul; [split; assumption|split; assumption|lra|lra]).
    assert (H2 : rel (s * s * q) (S0 * S0 * Q) (1.1 * (1.1 * (1 / 10 ^ 14 + 1 / 10 ^ 14) + 1 / 10 ^ 14))) by (apply rel_mul; [exact H1|split; assumption|lra|lra]).
    destruct H2 as (_ & H2). rewrite ES in H2. assert (E10 : 2500 * d * Q = 10 ^ 4 * M) by lra. rewrite E10 in H2. lra.
  - destruct (fs_small al cc aw fa ltac:(lra) (conj fc bc) (conj fw bw)) as (_ & bs'). set (s := B2R (fs_ al cc aw)) in *. clearbody s.
    set (M := B2R al * B2R sj * B2R flr) in *.
    assert (M <= 1.4 / 10 ^ 12).
    { unfold M. assert (0 <= B2R al * B2R sj <= 1.5 / 10 ^ 12) by (split; [apply Rmult_le_pos; lra|apply Rle_trans with (1 / 10 ^ 12 * 1.5); [apply Rmult_le_compat; lra|lra]]).
      apply Rle_trans with (1.5 / 10 ^ 12 * 0.9); [apply Rmult_le_compat; lra|lra]. }
    clearbody M Q. assert (Bq : 0 <= q <= 311) by lra.
    assert (SS : 0 <= s * s <= 2.61 / 10 ^ 9) by (split; [apply Rmult_le_pos; lra|apply Rle_trans with (5.1 / 10 ^ 5 * (5.1 / 10 ^ 5)); [apply Rmult_le_compat; lra|lra]]).
    assert (SQ : 0 <= s * s * q <= 9 / 10 ^ 7) by (split; [apply Rmult_le_pos; lra|apply Rle_trans with (2.61 / 10 ^ 9 * 311); [apply Rmult_le_compat; lra|lra]]).
    lra.
Qed.

(** ** The parts of a description *)
Definition sj_of (j : f64) : f64 := fsqrt (fdiv j (dec "100.0")).
Definition parts (vc : viewing_conditions) {lm : Libm} (cam : cam16) (al : f64) : Prop :=
  let sj := sj_of (c_j cam) in let ms := fw_ucs_m (c_m cam) in
  c_chroma cam = fmul al sj /\ c_m cam = fmul (c_chroma cam) (vc_f_lroot vc) /\ c_q cam = fq (vc_c vc) sj (vc_aw vc) (vc_f_lroot vc) /\
  c_s cam = fs_ al (vc_c vc) (vc_aw vc) /\ c_jstar cam = fw_ucs_j (c_j cam) /\
  c_astar cam = fmul ms (cosf (rad (c_hue cam))) /\ c_bstar cam = fmul ms (sinf (rad (c_hue cam))).

Section Acc.
Context {lm : Libm} (LA : libm_accurate (1 / 10 ^ 13) lm).

Lemma t_range vc (r g b : f64) : vc_std vc -> between r 0.02 11 -> between g 0.02 11 -> between b 0.02 11 ->
  let h := hue_of_ab (fw_a r g b) (fw_b r g b) in
  let t := fw_t (fw_p1 (vc_n_c vc) (vc_ncb vc) (up h)) (fw_a r g b) (fw_b r g b) (fw_u r g b) in
  (fge h (dec "0.0") && flt h (dec "360.0"))%bool = true -> fin t /\ 0 <= B2R t <= 5800.
Proof using LA.
  intros VS hr hg hb h t HB.
  destruct (opp_forms r g b hr hg hb) as (NU & NA & NB).
  assert (N2 := p2_rel r g b hr hg hb).
  assert (BR := proj2 hr). assert (BG := proj2 hg). assert (BB := proj2 hb).
  set (p := (40 * B2R r + 20 * B2R g + B2R b) / 20) in *.
  assert (Bp : 0.06 <= p <= 34) by (unfold p; lra).
  destruct (hue_near LA (fw_a r g b) (fw_b r g b) (near_fin _ _ _ NA) (near_fin _ _ _ NB) HB) as (th & Ea & Eb & Hh & Hk & Hu & Hk' & fh & bh).
  fold h in Hh, Hk, Hu, Hk', fh, bh.
  pose proof (hypot_near (fw_a r g b) (fw_b r g b) (near_fin _ _ _ NA) (near_fin _ _ _ NB) ltac:(destruct NA; lra) ltac:(destruct NB; lra)) as HY.
  cbv zeta in HY. destruct HY as [NS PS].
  assert (rho2 : 0 <= B2R (fw_a r g b) * B2R (fw_a r g b) + B2R (fw_b r g b) * B2R (fw_b r g b)) by nra.
  assert (Erho := sqrt_def _ rho2). assert (Prho := sqrt_pos (B2R (fw_a r g b) * B2R (fw_a r g b) + B2R (fw_b r g b) * B2R (fw_b r g b))).
  set (rho := sqrt (B2R (fw_a r g b) * B2R (fw_a r g b) + B2R (fw_b r g b) * B2R (fw_b r g b))) in *. clearbody rho. clear rho2.
  set (u := p - (11 * B2R (fw_a r g b) + 108 * B2R (fw_b r g b)) / 23).
  assert (NU' : near (fw_u r g b) u (1 / 10 ^ 12)) by (apply near_move with (1 := NU); unfold u, p; destruct NA, NB; lra).
  assert (Bu : 0.059 <= u <= 34) by (unfold u, p; destruct NA, NB; lra).
  assert (Brho : rho <= 1.2 * (u + 0.305)).
  { apply Rnot_lt_le. intros q. assert (Ba : -1.1 * (u + 0.305) <= B2R (fw_a r g b) <= 1.1 * (u + 0.305)) by (unfold u, p; destruct NA, NB; lra).
    assert (Bb : -0.23 * (u + 0.305) <= B2R (fw_b r g b) <= 0.23 * (u + 0.305)) by (unfold u, p; destruct NA, NB; lra).
    clear - Ba Bb q Erho Bu Prho. set (M := u + 0.305) in *. assert (0.3 <= M) by (unfold M; lra). clearbody M.
    pose proof (mul_bnd (B2R (fw_a r g b)) (B2R (fw_a r g b)) (1.1 * M) (1.1 * M) ltac:(lra) ltac:(lra)) as A2.
    pose proof (mul_bnd (B2R (fw_b r g b)) (B2R (fw_b r g b)) (0.23 * M) (0.23 * M) ltac:(lra) ltac:(lra)) as B2.
    assert (1.2 * M * (1.2 * M) < rho * rho) by (apply Rmult_le_0_lt_compat; lra). assert (0 < M * M) by (apply Rmult_lt_0_compat; lra). lra. }
  destruct (p1_range _ _ (th + 2) (vs_n_c _ VS) (vs_ncb _ VS)) as [BP0 Bp1].
  destruct Hk' as [k' Hk']. destruct (cos_turns _ _ _ _ Hk') as (_ & _ & C2).
  pose proof (fw_p1_rel LA _ _ (up h) th (vs_n_c _ VS) (vs_ncb _ VS) (proj1 Hu) (proj2 Hu) C2) as NP1.
  pose proof (fw_t_near _ (fw_a r g b) (fw_b r g b) (fw_u r g b) _ rho u NP1 Bp1 NS PS ltac:(lra) Bu NU') as FT. cbv zeta in FT. fold t in FT.
  set (p1 := P0 (vc_n_c vc) (vc_ncb vc) * (cos (th + 2) + 3.8)) in *.
  destruct FT as (Bt0 & NT & PT). split; [exact (near_fin _ _ _ NT)|]. destruct NT; lra.
Qed.

Lemma al_range (t kk : f64) : fin t -> 0 <= B2R t <= 5800 -> between kk 0.8 1 -> fin (fmul (powf t (dec "0.9")) kk) /\ 0 <= B2R (fmul (powf t (dec "0.9")) kk) <= 4000.
Proof using LA.
  intros ft bt [fk bk]. fconst (dec "0.9"). set (y9 := dec "0.9") in *. assert (By : 0.9 - 1 / 10 ^ 16 <= B2R y9 <= 0.9 + 1 / 10 ^ 16) by lra.
  assert (Q : fin (powf t y9) /\ 0 <= B2R (powf t y9) <= 3000).
  { destruct (la_tiny _ _ LA t y9 ft F ltac:(lra) ltac:(lra)) as [T0 T1].
    destruct (Req_dec (B2R t) 0) as [e|n]; [destruct (T0 e) as [f0 e0]; split; [exact f0|lra]|].
    assert (PT : 0 < B2R t) by lra. specialize (T1 PT).
    assert (W1 : Rpower (B2R t) (B2R y9) <= 2600).
    { apply Rle_trans with (Rpower 5800 (B2R y9)); [apply rpower_mono; lra|].
      apply (pow_hi_big _ _ _ 19 21); [lra|lra|lia|apply Rle_trans with 0.9047; [lra|clear; simpl; lra]|lra]. }
    assert (B9 : 3000 <= bpow radix2 900) by (apply Rle_trans with (bpow radix2 20); [simpl; lra|apply bpow_le; lia]).
    assert (B8 : bpow radix2 (-800) <= 3000) by (apply Rle_trans with (bpow radix2 1); [apply bpow_le; lia|simpl; lra]).
    destruct (Rle_dec (Rpower (B2R t) (B2R y9)) (bpow radix2 (-900))) as [s|s]; [destruct (T1 s) as [f1 b1]; split; [exact f1|lra]|].
    destruct (la_pow _ _ LA t y9 ft F PT ltac:(lra)) as [f1 b1]. apply Rabs_le_inv in b1. assert (P : 0 < Rpower (B2R t) (B2R y9)) by apply exp_pos.
    split; [exact f1|lra]. }
  destruct Q as [fq bq]. set (q := powf t y9) in *. clearbody q.
  assert (Q1 : 0 <= B2R q * B2R kk <= 3000) by (split; [apply Rmult_le_pos; lra|apply Rle_trans with (3000 * 1); [apply Rmult_le_compat; lra|lra]]).
  destruct (fmul_S q kk fq fk ltac:(unfold HUGE; lra)) as [E1 F1]. pose proof (rnd_bounds _ (proj1 Q1)) as R1. rewrite <- E1 in R1. pose proof eta_small as ETA. unfold u53 in R1.
  split; [exact F1|]. split; [rewrite E1; apply rnd_ge_0; lra|lra].
Qed.

Lemma from_xyz_parts x y z vc cam : cam16_from_xyz x y z vc = Ok cam ->
  let r := resp (vc_fl vc) (v0 (vc_rgb_d vc)) (cone_r x y z) in
  let g := resp (vc_fl vc) (v1 (vc_rgb_d vc)) (cone_g x y z) in
  let b := resp (vc_fl vc) (v2 (vc_rgb_d vc)) (cone_b x y z) in
  let h := hue_of_ab (fw_a r g b) (fw_b r g b) in
  let t := fw_t (fw_p1 (vc_n_c vc) (vc_ncb vc) (up h)) (fw_a r g b) (fw_b r g b) (fw_u r g b) in
  parts vc cam (fmul (powf t (dec "0.9")) (kk_of (vc_n vc))).
Proof using.
  intros H. unfold cam16_from_xyz in H. cbv zeta in H.
  match type of H with (if negb ?b then _ else _) = _ => destruct b eqn:EB; cbn [negb] in H end; [|discriminate H].
  apply ok_inj in H. clear EB. subst cam. cbv zeta. unfold parts. cbn [c_hue c_j c_chroma c_jstar c_astar c_bstar c_m c_q c_s]. cbv zeta.
  unfold xyz_responses. cbv zeta. unfold opp_a, opp_b. unfold resp, resp_arg, fw_a, fw_b, fw_u, fw_p1, fw_t, cone_r, cone_g, cone_b, up, rad, kk_of.
  unfold sj_of, fq, fs_, fw_ucs_j, fw_ucs_m, rad. repeat split; reflexivity.
Qed.

Lemma colour_parts vc (argb : Z) cam : vc_std vc -> cam16_from_int_in argb vc = Ok cam ->
  (exists al, parts vc cam al /\
    ((zero (c_j cam) /\ zero (c_chroma cam)) \/
     (fin al /\ 0 <= B2R al <= 4000 /\ fin (c_j cam) /\ 0.019 <= B2R (c_j cam) <= 201 /\ between (sj_of (c_j cam)) 0.014 1.5))) /\
  fin (rad (c_hue cam)) /\ 0 <= B2R (rad (c_hue cam)) <= 7.
Proof using LA.
  intros VS H. destruct (chan argb) as (h1 & h2 & h3). unfold cam16_from_int_in, xyz_from_argb in H. cbv zeta in H.
  set (cr := red_from_argb argb) in *. set (cg := green_from_argb argb) in *. set (cb := blue_from_argb argb) in *. clearbody cr cg cb. clear argb.
  pose proof (cones LA cr cg cb h1 h2 h3) as C. pose proof (@black_cones lm) as BC.
  destruct (Z.eq_dec cr 0) as [e1|n1]; [destruct (Z.eq_dec cg 0) as [e2|n2]; [destruct (Z.eq_dec cb 0) as [e3|n3]|]|].
  { subst cr cg cb. destruct (matrix_multiply _ _) as [[x y] z]. change (v0 (x, y, z)) with x in H. change (v1 (x, y, z)) with y in H. change (v2 (x, y, z)) with z in H.
    pose proof (from_xyz_parts _ _ _ _ _ H) as PA; cbv zeta in PA.
    pose proof (from_xyz_staged _ _ _ _ _ H) as S. cbv zeta in S. destruct BC as (z1 & z2 & z3).
    pose proof (resp_zero LA _ _ _ (vs_fl _ VS) (vs_d0 _ VS) z1) as Y1. pose proof (resp_zero LA _ _ _ (vs_fl _ VS) (vs_d1 _ VS) z2) as Y2. pose proof (resp_zero LA _ _ _ (vs_fl _ VS) (vs_d2 _ VS) z3) as Y3.
    set (r := resp _ _ (cone_r x y z)) in *. set (g := resp _ _ (cone_g x y z)) in *. set (bb := resp _ _ (cone_b x y z)) in *. clearbody r g bb.
    destruct (fw_zero LA vc r g bb VS Y1 Y2 Y3) as (ZA & ZB & ZJ & ZC). destruct S as (HB & Eh & Ej & Ec & Ejs & Eas & Ebs).
    destruct (hue_near LA _ _ (proj1 ZA) (proj1 ZB) HB) as (th & _ & _ & Hh & _ & Hu & _).
    split; [eexists; split; [exact PA|left; split; [rewrite Ej; exact ZJ|rewrite Ec; exact (ZC _ (proj1 Hu) (proj2 Hu))]]|].
    rewrite Eh. split; [exact (proj1 Hh)|exact (proj2 Hh)]. }
  all: assert (some : (1 <= cr \/ 1 <= cg \/ 1 <= cb)%Z) by lia; clear BC.
  all: destruct (matrix_multiply _ _) as [[x y] z] eqn:E; change (v0 (x, y, z)) with x in H; change (v1 (x, y, z)) with y in H; change (v2 (x, y, z)) with z in H;
    pose proof (from_xyz_parts _ _ _ _ _ H) as PA; cbv zeta in PA;
    pose proof (from_xyz_staged _ _ _ _ _ H) as S; cbv zeta in S; destruct C as (_ & (K1 & K2 & K3) & L & _); destruct (L some) as (L1 & L2 & L3);
    destruct (resp_fwd LA _ _ (cone_r x y z) (vs_fl _ VS) (vs_d0 _ VS) ltac:(destruct K1; split; [assumption|lra])) as (_ & A1 & R1);
    destruct (resp_fwd LA _ _ (cone_g x y z) (vs_fl _ VS) (vs_d1 _ VS) ltac:(destruct K2; split; [assumption|lra])) as (_ & A2 & R2);
    destruct (resp_fwd LA _ _ (cone_b x y z) (vs_fl _ VS) (vs_d2 _ VS) ltac:(destruct K3; split; [assumption|lra])) as (_ & A3 & R3);
    apply hyp_range in A1; apply hyp_range in A2; apply hyp_range in A3;
    set (r := resp _ _ (cone_r x y z)) in *; set (g := resp _ _ (cone_g x y z)) in *; set (bb := resp _ _ (cone_b x y z)) in *; clearbody r g bb;
    destruct S as (HB & Eh & Ej & Ec & Ejs & Eas & Ebs);
    pose proof (describe LA vc r g bb _ _ _ VS ltac:(destruct R1; split; [assumption|lra]) ltac:(destruct R2; split; [assumption|lra]) ltac:(destruct R3; split; [assumption|lra])
      (near_weak _ _ _ (1 / 10 ^ 9) R1 ltac:(lra)) (near_weak _ _ _ (1 / 10 ^ 9) R2 ltac:(lra)) (near_weak _ _ _ (1 / 10 ^ 9) R3 ltac:(lra)) HB) as D;
    destruct D as (p0 & rho & th & u & t0 & w & J & JR & Bw & EJ & NJ & fc & pc & hc & Hh & _);
    pose proof (t_range vc r g bb VS ltac:(destruct R1; split; [assumption|lra]) ltac:(destruct R2; split; [assumption|lra]) ltac:(destruct R3; split; [assumption|lra]) HB) as [ft bt];
    destruct (al_range _ _ ft bt (vs_kk _ VS)) as [fa ba];
    (split; [eexists; split; [exact PA|right]|rewrite Eh; split; [exact (proj1 Hh)|exact (proj2 Hh)]]);
    rewrite <- Ej in NJ; split; [exact fa|split; [exact ba|]]; clear - JR NJ.
  all: set (j := c_j cam) in *; clearbody j; clear cam.
  all: assert (S0 : 0.0141 <= sqrt J <= 1.42) by (split; [apply Rsqr_incr_0_var|apply Rsqr_incr_0_var]; rewrite ?Rsqr_sqrt by lra; unfold Rsqr; try lra; apply sqrt_pos).
  all: fconst (dec "100.0"); assert (NS : frel (sj_of j) (sqrt (100 * J / 100)) (2 / 10 ^ 12)) by
    (unfold sj_of; pose proof (frel_div _ _ _ _ _ _ NJ (frel_const _ _ 100 0 F V ltac:(split; lra)) ltac:(lra) ltac:(lra) ltac:(lra)) as X;
     apply frel_w with (1 := frel_sqrt _ _ _ X ltac:(lra) ltac:(lra)); lra).
  all: replace (100 * J / 100) with J in NS by field; set (s0 := sqrt J) in *; clearbody s0.
  all: destruct NS as (fs & _ & rs); destruct NJ as (fj & _ & rj).
  all: split; [exact fj|split; [lra|split; [exact fs|lra]]].
Qed.


Lemma sj_zero (j : f64) : zero j -> zero (sj_of j).
Proof using. intros z. unfold sj_of. fconst (dec "100.0"). apply zero_sqrt, zero_div; [exact z|exact F|lra]. Qed.

Lemma fq_zero (cc sj aw flr : f64) : between cc 0.689 0.691 -> between aw 25 34 -> between flr 0.7 0.9 -> zero sj -> zero (fq cc sj aw flr).
Proof using.
  intros [fc bc] A [fl bl] z. unfold fq. destruct (aw4_rel aw A) as [[f4 _] _]. apply zero_mul_l; [|exact fl]. apply zero_mul_l; [|exact f4]. apply zero_mul_r; [|exact z].
  fconst (dec "4.0"). assert (Q0 : 5.7 <= 4 / B2R cc <= 6) by (split; [apply le_div|apply div_le]; lra).
  apply (fdiv_S (dec "4.0") cc F ltac:(lra) ltac:(rewrite V; unfold HUGE; lra)).
Qed.

Lemma sj_rel (j : f64) : fin j -> 0.019 <= B2R j <= 201 -> frel (sj_of j) (sqrt (B2R j / 100)) (1 / 10 ^ 15) /\ 0.013 <= sqrt (B2R j / 100) <= 1.42.
Proof using.
  intros fj bj. unfold sj_of. fconst (dec "100.0").
  pose proof (frel_div _ _ _ _ _ _ (frel_self j fj ltac:(lra)) (frel_const _ _ 100 0 F V ltac:(split; lra)) ltac:(lra) ltac:(lra) ltac:(lra)) as X.
  split; [apply frel_w with (1 := frel_sqrt _ _ _ X ltac:(lra) ltac:(lra)); lra|].
  split; apply Rsqr_incr_0_var; rewrite ?Rsqr_sqrt by lra; unfold Rsqr; try lra; apply sqrt_pos.
Qed.

Lemma agree_zero x y : x = 0 -> y = 0 -> agree x y.
Proof using. intros -> ->. unfold agree. rewrite Rminus_0_r, Rabs_R0. lra. Qed.
Lemma agree_rel x y e : rel x y e -> e <= 1 / 10 ^ 10 -> agree x y.
Proof using. intros (p & h) he. apply agree_lo; [|lra]. assert (0 <= y * (1 / 10 ^ 10 - e)) by (apply Rmult_le_pos; lra). lra. Qed.

Lemma attributes_in vc : vc_std vc -> forall argb cam, cam16_from_int_in argb vc = Ok cam ->
  agree (B2R (c_q cam)) (4 / B2R (vc_c vc) * (B2R (vc_aw vc) + 4) * B2R (vc_f_lroot vc) * sqrt (B2R (c_j cam) / 100)) /\
  agree (B2R (c_m cam)) (B2R (vc_f_lroot vc) * B2R (c_chroma cam)) /\
  agree (B2R (c_s cam) * B2R (c_s cam) * B2R (c_q cam) / 10 ^ 4) (B2R (c_m cam)).
Proof using LA.
  intros VS argb cam H. destruct (colour_parts vc argb cam VS H) as ((al & (PC & PM & PQ & PS & _) & K) & _). clear H.
  assert (C := vs_c _ VS). assert (A := vs_aw _ VS). assert (L := vs_flr _ VS).
  set (cc := vc_c vc) in *. set (aw := vc_aw vc) in *. set (flr := vc_f_lroot vc) in *. clearbody cc aw flr. clear VS.
  destruct K as [(zj & zc)|(fa & ba & fj & bj & S)].
  - destruct (fq_zero cc _ aw flr C A L (sj_zero _ zj)) as [_ q0]. rewrite <- PQ in q0.
    pose proof (zero_mul_l _ flr zc (proj1 L)) as [_ m0]. rewrite <- PM in m0. destruct zj as [_ j0]. destruct zc as [_ c0_]. rewrite q0, m0, j0, c0_.
    assert (S0 : sqrt (0 / 100) = 0) by (unfold Rdiv; rewrite Rmult_0_l; apply sqrt_0). rewrite S0. clear. repeat split; apply agree_zero; try reflexivity; lra.
  - destruct (sj_rel (c_j cam) fj bj) as [(fsj & psj & rsj) bS].
    destruct (fq_rel cc _ aw flr C S A L) as (fqq & pq & rq). destruct (fm_bounds al _ flr fa ba S L) as (fm & rm & bM).
    assert (SC := sat_core al _ cc aw flr fa ba S C A L). cbv zeta in fm, rm, bM.
    rewrite <- PC in SC, fm, rm. rewrite <- PM in SC, fm, rm. rewrite <- PS, <- PQ in SC. rewrite <- PQ in rq.
    split; [|split; [|exact SC]].
    + set (Q0 := 4 / B2R cc * B2R (sj_of (c_j cam)) * (B2R aw + 4) * B2R flr) in *.
      destruct C as [fc bc]. destruct A as [fw bw]. destruct L as [fl bl]. assert (Q1 : 5.7 <= 4 / B2R cc <= 6) by (split; [apply le_div|apply div_le]; lra).
      assert (K1 : 0 < 4 / B2R cc * (B2R aw + 4) * B2R flr) by (repeat apply Rmult_lt_0_compat; lra).
      assert (R0 : rel (4 / B2R cc * (B2R aw + 4) * B2R flr) (4 / B2R cc * (B2R aw + 4) * B2R flr) 0) by (split; lra).
      pose proof (rel_mul _ _ _ _ _ _ R0 (conj psj rsj) ltac:(lra) ltac:(lra)) as R1.
      assert (EQ : Q0 = 4 / B2R cc * (B2R aw + 4) * B2R flr * B2R (sj_of (c_j cam))) by (unfold Q0; ring).
      rewrite <- EQ in R1. clearbody Q0. set (T := 4 / B2R cc * (B2R aw + 4) * B2R flr * sqrt (B2R (c_j cam) / 100)) in *.
      apply agree_rel with (2 / 10 ^ 14); [|lra]. destruct R1 as (pT & R1). split; [exact pT|]. clearbody T. clear - R1 rq pq pT. lra.
    + destruct L as [fl bl]. rewrite PM. rewrite PM in fm. 
      assert (Cb : 0 <= B2R (c_chroma cam) <= 6001).
      { rewrite PC. destruct S as [fs bs]. assert (P1 : 0 <= B2R al * B2R (sj_of (c_j cam)) <= 6000) by (split; [apply Rmult_le_pos; lra|apply Rle_trans with (4000 * 1.5); [apply Rmult_le_compat; lra|lra]]).
        destruct (fmul_S al (sj_of (c_j cam)) fa fs ltac:(unfold HUGE; lra)) as [E1 F1]. pose proof (rnd_bounds _ (proj1 P1)) as R1. rewrite <- E1 in R1. unfold u53 in R1. pose proof eta_small as ETA.
        split; [rewrite E1; apply rnd_ge_0; lra|lra]. }
      pose proof (fmul_fin_l _ _ fm) as fch. set (c := c_chroma cam) in *. clearbody c.
      assert (P2 : 0 <= B2R c * B2R flr <= 5401) by (split; [apply Rmult_le_pos; lra|apply Rle_trans with (6001 * 0.9); [apply Rmult_le_compat; lra|lra]]).
      destruct (fmul_S c flr fch fl ltac:(unfold HUGE; lra)) as [E2 F2]. pose proof (rnd_bounds _ (proj1 P2)) as R2. rewrite <- E2 in R2. unfold u53 in R2. pose proof eta_small as ETA.
      rewrite (Rmult_comm (B2R flr)). apply agree_lo; [|lra]. lra.
Qed.

Lemma attributes : exists kq km, 151 <= kq <= 161 /\ 0.784 <= km <= 0.797 /\ forall argb cam, cam16_from_int argb = Ok cam ->
  agree (B2R (c_q cam)) (kq * sqrt (B2R (c_j cam) / 100)) /\
  agree (B2R (c_m cam)) (km * B2R (c_chroma cam)) /\
  agree (B2R (c_s cam) * B2R (c_s cam) * B2R (c_q cam) / 10 ^ 4) (B2R (c_m cam)).
Proof using LA.
  destruct (vc_std_ok LA) as (vc & E & VS). pose proof s_rgb_eq as E0. assert (EV := E). rewrite E in E0. apply ok_inj in E0.
  assert (Ea : vc_aw vc = aw0) by (rewrite E0; reflexivity). assert (Ef : vc_f_lroot vc = powf fl0 (dec "0.25")) by (rewrite E0; reflexivity). clear E0.
  assert (HA := fun argb cam (H : cam16_from_int argb = Ok cam) => attributes_in vc VS argb cam (eq_trans (eq_sym (from_int_eq argb vc E)) H)).
  assert (BA : 29.4 <= B2R (vc_aw vc) <= 30.75).
  { rewrite Ea. destruct (aw_near LA) as (_ & _ & b1 & b2). set (x := B2R aw0) in *. set (y := B2R nbb0) in *. clearbody x y.
    assert (EX : x = x / y * y) by (field; lra). rewrite EX. split; [apply Rle_trans with (29.4 * 1); [lra|]|apply Rle_trans with (29.56 * 1.04); [|lra]]; apply Rmult_le_compat; lra. }
  assert (BF : 0.784 <= B2R (vc_f_lroot vc) <= 0.797).
  { rewrite Ef. destruct (fl0_range LA) as [ff bf]. fconst (dec "0.25").
    assert (between (powf fl0 (dec "0.25")) (0.785 * (1 - 1 / 10 ^ 13)) (0.7953 * (1 + 1 / 10 ^ 13))) as [_ B].
    { apply (pow_between LA); [exact ff|exact F|lra|lra|lra|]. split.
      - apply (pow_lo_small _ _ _ 1 4); [lra|lra|lia|rewrite V; simpl; lra|lra].
      - apply (pow_hi_small _ _ _ 1 4); [lra|lra|lia|rewrite V; simpl; lra|lra]. }
    lra. }
  destruct (vs_c _ VS) as [_ bc].
  exists (4 / B2R (vc_c vc) * (B2R (vc_aw vc) + 4) * B2R (vc_f_lroot vc)), (B2R (vc_f_lroot vc)).
  split; [|split; [exact BF|exact HA]].
  assert (Q1 : 5.788 <= 4 / B2R (vc_c vc) <= 5.806) by (split; [apply le_div|apply div_le]; lra). set (v := 4 / B2R (vc_c vc)) in *. clearbody v.
  assert (Q2 : 193 <= v * (B2R (vc_aw vc) + 4) <= 201.8) by (split; [apply Rle_trans with (5.788 * 33.4); [lra|]|apply Rle_trans with (5.806 * 34.75); [|lra]]; apply Rmult_le_compat; lra).
  split; [apply Rle_trans with (193 * 0.784); [lra|]|apply Rle_trans with (201.8 * 0.797); [|lra]]; apply Rmult_le_compat; lra.
Qed.

(** ** From lightness, chroma and hue *)
Lemma sqrt_step x d : 0 <= x -> 0 <= d -> sqrt (x + d * d) <= sqrt x + d.
Proof using.
  intros hx hd. apply Rsqr_incr_0_var; [|pose proof (sqrt_pos x); lra]. assert (0 <= d * d) by (apply Rmult_le_pos; lra). rewrite Rsqr_sqrt by lra. unfold Rsqr.
  pose proof (sqrt_sqrt x hx) as X. pose proof (Rmult_le_pos _ _ (sqrt_pos x) hd). lra.
Qed.

Lemma al_back (al sj : f64) : fin al -> 0 <= B2R al <= 4000 -> between sj 0.014 1.5 -> let al' := fdiv (fmul al sj) sj in
  fin al' /\ 0 <= B2R al' /\ B2R al * (1 - 4 / 10 ^ 16) - 1 / 10 ^ 50 <= B2R al' <= B2R al * (1 + 4 / 10 ^ 16) + 1 / 10 ^ 50.
Proof using.
  intros fa ba [fs bs] al'. pose proof eta_small as ETA. pose proof eta_pos as EP.
  assert (P1 : 0 <= B2R al * B2R sj <= 6000) by (split; [apply Rmult_le_pos; lra|apply Rle_trans with (4000 * 1.5); [apply Rmult_le_compat; lra|lra]]).
  destruct (fmul_S al sj fa fs ltac:(unfold HUGE; lra)) as [E1 F1]. pose proof (rnd_bounds _ (proj1 P1)) as R1. rewrite <- E1 in R1. unfold u53 in R1.
  assert (G1 : 0 <= B2R (fmul al sj)) by (rewrite E1; apply rnd_ge_0; lra). subst al'. set (c := fmul al sj) in *. clearbody c. clear E1.
  set (X := B2R al) in *. set (S := B2R sj) in *.
  assert (D : X * (1 - / 9007199254740992) - 1 / 10 ^ 55 <= B2R c / S <= X * (1 + / 9007199254740992) + 1 / 10 ^ 55).
  { split; [apply le_div; [lra|]|apply div_le; [lra|]]; lra. }
  assert (D0 : 0 <= B2R c / S) by (apply le_div; lra).
  destruct (fdiv_S c sj F1 ltac:(fold S; lra) ltac:(fold S; unfold HUGE; lra)) as [E2 F2]. fold S in E2. pose proof (rnd_bounds _ D0) as R2. rewrite <- E2 in R2. unfold u53 in R2.
  split; [exact F2|]. split; [rewrite E2; apply rnd_ge_0; lra|lra].
Qed.

Lemma fs_close (al al' cc aw : f64) : fin al -> fin al' -> 0 <= B2R al <= 4000 -> 0 <= B2R al' -> between cc 0.689 0.691 -> between aw 25 34 ->
  B2R al * (1 - 4 / 10 ^ 16) - 1 / 10 ^ 50 <= B2R al' <= B2R al * (1 + 4 / 10 ^ 16) + 1 / 10 ^ 50 ->
  agree (B2R (fs_ al' cc aw)) (B2R (fs_ al cc aw)).
Proof using.
  intros fa fa' ba pa' C A H.
  destruct (Rle_dec (2 / 10 ^ 12) (B2R al)) as [big|small].
  - destruct (fs_rel al cc aw fa ltac:(lra) C A) as (_ & ps & rs).
    assert (X0 : 0 < B2R al * (1 - 4 / 10 ^ 16) - 1 / 10 ^ 50) by lra.
    assert (Up : B2R al' <= 4001) by lra.
    (* the bound of [fs_rel] on al' *)
    assert (rel' : frel (fs_ al' cc aw) (50 * sqrt (B2R al' * B2R cc / (B2R aw + 4))) (1 / 10 ^ 14)).
    { clear - fa' C A H big Up ba. assert (ba' : 1 / 10 ^ 12 <= B2R al' <= 4001) by lra. clear H big Up.
      destruct C as [fc bc]. destruct (aw4_rel aw A) as [A4 B4]. unfold fs_. fconst (dec "50.0").
      assert (Q1 : 0.6 / 10 ^ 12 <= B2R al' * B2R cc <= 2800) by (split; [apply Rle_trans with (1 / 10 ^ 12 * 0.689); [lra|]|apply Rle_trans with (4001 * 0.691); [|lra]]; apply Rmult_le_compat; lra).
      pose proof (frel_mul _ _ _ _ _ _ (frel_self al' fa' ltac:(lra)) (frel_self cc fc ltac:(lra)) ltac:(lra) ltac:(lra) ltac:(lra)) as H1.
      set (x := B2R al' * B2R cc) in *. clearbody x.
      assert (Q2 : 1 / 10 ^ 14 <= x / (B2R aw + 4) <= 100) by (split; [apply le_div|apply div_le]; lra).
      pose proof (frel_div _ _ _ _ _ _ H1 A4 ltac:(lra) ltac:(lra) ltac:(lra)) as H2.
      set (d := x / (B2R aw + 4)) in *. clearbody d.
      pose proof (frel_sqrt _ _ _ H2 ltac:(lra) ltac:(lra)) as H3.
      assert (Q3 : 1 / 10 ^ 7 <= sqrt d <= 10) by (split; apply Rsqr_incr_0_var; rewrite ?Rsqr_sqrt by lra; unfold Rsqr; try lra; apply sqrt_pos).
      pose proof (frel_mul _ _ _ _ _ _ (frel_const _ _ 50 0 F V ltac:(split; lra)) H3 ltac:(lra) ltac:(lra) ltac:(lra)) as H4.
      apply frel_w with (1 := H4). lra. }
    destruct rel' as (_ & ps' & rs').
    destruct C as [fc bc]. destruct A as [fw bw].
    assert (rd : rel (B2R al' * B2R cc / (B2R aw + 4)) (B2R al * B2R cc / (B2R aw + 4)) (1 / 10 ^ 14)).
    { assert (K : 0 < B2R cc / (B2R aw + 4)) by (apply Rdiv_lt_0_compat; lra).
      replace (B2R al' * B2R cc / (B2R aw + 4)) with (B2R al' * (B2R cc / (B2R aw + 4))) by (field; lra).
      replace (B2R al * B2R cc / (B2R aw + 4)) with (B2R al * (B2R cc / (B2R aw + 4))) by (field; lra).
      set (k := B2R cc / (B2R aw + 4)) in *. clearbody k. split; [apply Rmult_lt_0_compat; lra|].
      replace (B2R al * k * (1 - 1 / 10 ^ 14)) with (B2R al * (1 - 1 / 10 ^ 14) * k) by ring.
      replace (B2R al * k * (1 + 1 / 10 ^ 14)) with (B2R al * (1 + 1 / 10 ^ 14) * k) by ring.
      split; apply Rmult_le_compat_r; lra. }
    pose proof (rel_sqrt _ _ _ rd ltac:(lra)) as (pS & rS).
    set (S0 := sqrt (B2R al * B2R cc / (B2R aw + 4))) in *. set (S1 := sqrt (B2R al' * B2R cc / (B2R aw + 4))) in *. clearbody S0 S1.
    set (s := B2R (fs_ al cc aw)) in *. set (s' := B2R (fs_ al' cc aw)) in *. clearbody s s'. clear - rs rs' rS pS.
    apply agree_lo; [|lra]. lra.
  - destruct (aw4_rel aw A) as [(f4 & _ & r4) B4]. destruct C as [fc bc]. pose proof eta_small as ETA. pose proof eta_pos as EP.
    assert (ba' : 0 <= B2R al' <= 3 / 10 ^ 12) by lra. assert (ba0 : 0 <= B2R al <= 3 / 10 ^ 12) by lra.
    unfold fs_. set (w := fadd aw (dec "4.0")) in *. clearbody w.
    assert (ST : forall a : f64, fin a -> 0 <= B2R a <= 3 / 10 ^ 12 -> let d := fdiv (fmul a cc) w in
      fin d /\ 0 <= B2R d <= 1 / 10 ^ 12 /\ - (1 / 10 ^ 27) <= B2R d - B2R a * B2R cc / B2R w <= 1 / 10 ^ 27).
    { intros a f b. cbv zeta.
      assert (P1 : 0 <= B2R a * B2R cc <= 3 / 10 ^ 12) by (split; [apply Rmult_le_pos; lra|apply Rle_trans with (3 / 10 ^ 12 * 0.691); [apply Rmult_le_compat; lra|lra]]).
      destruct (fmul_S a cc f fc ltac:(unfold HUGE; lra)) as [E1 F1]. pose proof (rnd_bounds _ (proj1 P1)) as R1. rewrite <- E1 in R1. unfold u53 in R1.
      assert (G1 : 0 <= B2R (fmul a cc)) by (rewrite E1; apply rnd_ge_0; lra). set (x := fmul a cc) in *. clearbody x. clear E1. set (x0 := B2R a * B2R cc) in *. clearbody x0.
      assert (P2 : 0 <= B2R x / B2R w <= 0.2 / 10 ^ 12) by (split; [apply le_div; lra|apply div_le; lra]).
      assert (P3 : - (4 / 10 ^ 28) <= B2R x / B2R w - x0 / B2R w <= 4 / 10 ^ 28).
      { replace (B2R x / B2R w - x0 / B2R w) with ((B2R x - x0) / B2R w) by (field; lra). split; [apply le_div; lra|apply div_le; lra]. }
      destruct (fdiv_S x w F1 ltac:(lra) ltac:(unfold HUGE; lra)) as [E2 F2]. pose proof (rnd_bounds _ (proj1 P2)) as R2. rewrite <- E2 in R2. unfold u53 in R2.
      split; [exact F2|]. split; [split; [rewrite E2; apply rnd_ge_0; lra|lra]|lra]. }
    destruct (ST al fa ba0) as (f1 & b1 & n1). destruct (ST al' fa' ba') as (f2 & b2 & n2). cbv zeta in *. clear ST.
    assert (K : - (3 / 10 ^ 27) <= B2R al' * B2R cc / B2R w - B2R al * B2R cc / B2R w <= 3 / 10 ^ 27).
    { replace (B2R al' * B2R cc / B2R w - B2R al * B2R cc / B2R w) with ((B2R al' - B2R al) * B2R cc / B2R w) by (field; lra).
      assert (DD : - (2 / 10 ^ 27) <= B2R al' - B2R al <= 2 / 10 ^ 27) by lra.
      pose proof (mul_bnd (B2R al' - B2R al) (B2R cc) (2 / 10 ^ 27) 1 ltac:(lra) ltac:(lra)) as MB. set (z := (B2R al' - B2R al) * B2R cc) in *. clearbody z.
      split; [apply le_div; lra|apply div_le; lra]. }
    set (d := fdiv (fmul al cc) w) in *. set (d' := fdiv (fmul al' cc) w) in *. clearbody d d'.
    assert (KD : - (1 / 10 ^ 26) <= B2R d' - B2R d <= 1 / 10 ^ 26) by lra. clear n1 n2 K.
    assert (Q1 : sqrt (B2R d') <= sqrt (B2R d) + 1 / 10 ^ 13).
    { apply Rle_trans with (sqrt (B2R d + 1 / 10 ^ 13 * (1 / 10 ^ 13))); [apply sqrt_le_1_alt; lra|apply sqrt_step; lra]. }
    assert (Q2 : sqrt (B2R d) <= sqrt (B2R d') + 1 / 10 ^ 13).
    { apply Rle_trans with (sqrt (B2R d' + 1 / 10 ^ 13 * (1 / 10 ^ 13))); [apply sqrt_le_1_alt; lra|apply sqrt_step; lra]. }
    fconst (dec "50.0").
    assert (ST : forall x : f64, fin x -> 0 <= B2R x <= 1 / 10 ^ 12 -> 50 * sqrt (B2R x) - 1 / 10 ^ 18 <= B2R (fmul (dec "50.0") (fsqrt x)) <= 50 * sqrt (B2R x) + 1 / 10 ^ 18 /\ 0 <= B2R (fmul (dec "50.0") (fsqrt x))).
    { intros x f b. destruct (fsqrt_R x f (proj1 b)) as [F3 E3].
      assert (S : 0 <= sqrt (B2R x) <= 1.1 / 10 ^ 6) by (split; [apply sqrt_pos|apply Rsqr_incr_0_var; rewrite ?Rsqr_sqrt by lra; unfold Rsqr; lra]).
      pose proof (rnd_bounds _ (proj1 S)) as R3. rewrite <- E3 in R3. unfold u53 in R3.
      assert (G3 : 0 <= B2R (fsqrt x)) by (rewrite E3; apply rnd_ge_0; lra). set (r := fsqrt x) in *. clearbody r. clear E3.
      destruct (fmul_S (dec "50.0") r F F3 ltac:(rewrite V; unfold HUGE; lra)) as [E4 F4]. rewrite V in E4. pose proof (rnd_bounds (50 * B2R r) ltac:(lra)) as R4. rewrite <- E4 in R4. unfold u53 in R4.
      split; [lra|]. rewrite E4. apply rnd_ge_0. lra. }
    destruct (ST d f1 b1) as [s1 g1]. destruct (ST d' f2 b2) as [s2 g2]. apply agree_lo; [|exact g1]. lra.
Qed.

Lemma jch_in vc argb cam : vc_std vc -> cam16_from_int_in argb vc = Ok cam ->
  let back := cam16_from_jch_in (c_j cam) (c_chroma cam) (c_hue cam) vc in
  c_q back = c_q cam /\ c_m back = c_m cam /\ c_jstar back = c_jstar cam /\
  (B2R (c_j cam) <> 0 -> agree (B2R (c_s back)) (B2R (c_s cam))) /\ (B2R (c_j cam) = 0 -> is_nan (c_s back) = true).
Proof using LA.
  intros VS H. destruct (colour_parts vc argb cam VS H) as ((al & (PC & PM & PQ & PS & PJ & _) & K) & _). clear H. cbv zeta.
  assert (C := vs_c _ VS). assert (A := vs_aw _ VS).
  assert (EQ : c_q (cam16_from_jch_in (c_j cam) (c_chroma cam) (c_hue cam) vc) = fq (vc_c vc) (sj_of (c_j cam)) (vc_aw vc) (vc_f_lroot vc)) by reflexivity.
  assert (EM : c_m (cam16_from_jch_in (c_j cam) (c_chroma cam) (c_hue cam) vc) = fmul (c_chroma cam) (vc_f_lroot vc)) by reflexivity.
  assert (EJ : c_jstar (cam16_from_jch_in (c_j cam) (c_chroma cam) (c_hue cam) vc) = fw_ucs_j (c_j cam)) by reflexivity.
  assert (ES : c_s (cam16_from_jch_in (c_j cam) (c_chroma cam) (c_hue cam) vc) = fs_ (fdiv (c_chroma cam) (sj_of (c_j cam))) (vc_c vc) (vc_aw vc)) by reflexivity.
  rewrite EQ, EM, EJ, ES. clear EQ EM EJ ES. split; [symmetry; exact PQ|]. split; [symmetry; exact PM|]. split; [symmetry; exact PJ|].
  rewrite PS. set (cc := vc_c vc) in *. set (aw := vc_aw vc) in *. clearbody cc aw.
  destruct K as [(zj & zc)|(fa & ba & fj & bj & S)].
  - split; [intros n; destruct (n (proj2 zj))|]. intros _. pose proof (sj_zero _ zj) as [f0 e0]. destruct zc as [f1 e1].
    set (sj := sj_of (c_j cam)) in *. clearbody sj. set (c := c_chroma cam) in *. clearbody c. clear - f0 e0 f1 e1.
    assert (Z : forall x : f64, fin x -> B2R x = 0 -> exists s, x = B754_zero s).
    { intros x f e. destruct x as [s|s| |s m e' h]; try discriminate f; [exists s; reflexivity|]. exfalso. revert e. unfold B2R. intros e. apply eq_0_F2R in e. destruct s; discriminate e. }
    destruct (Z sj f0 e0) as [s0 ->]. destruct (Z c f1 e1) as [s1 ->]. unfold fs_. destruct (fadd aw (dec "4.0")) as [|[]| |]; destruct cc as [|[]| |]; reflexivity.
  - split; [intros _|intros e; exfalso; lra]. rewrite PC. destruct (al_back al _ fa ba S) as (f' & p' & b'). cbv zeta in *.
    exact (fs_close al _ cc aw fa f' ba p' C A b').
Qed.

Lemma jch_attributes argb cam : cam16_from_int argb = Ok cam -> exists back, cam16_from_jch (c_j cam) (c_chroma cam) (c_hue cam) = Ok back /\
  c_q back = c_q cam /\ c_m back = c_m cam /\ c_jstar back = c_jstar cam /\
  (B2R (c_j cam) <> 0 -> agree (B2R (c_s back)) (B2R (c_s cam))) /\ (B2R (c_j cam) = 0 -> is_nan (c_s back) = true).
Proof using LA.
  intros H. destruct (from_int_vc LA argb cam H) as (vc & E & VS & H'). exists (cam16_from_jch_in (c_j cam) (c_chroma cam) (c_hue cam) vc).
  split; [unfold cam16_from_jch; rewrite E; reflexivity|exact (jch_in vc argb cam VS H')].
Qed.
End Acc.
