(** * A request for a pale colour is always answered by the search.  Proof file. *)
From Coq Require Import ZArith Bool Reals Lra Lia Psatz String List.
From Flocq Require Import Core Relative IEEE754.BinarySingleNaN.
From Verif Require Import F64 Spec SpecCam SpecTone FloatFacts FloatMono MathUtils ColorUtils ViewingConditions Cam16 HctSolver PfMath PfLab PfTones PfNear PfRel PfLimit PfColor PfCamC PfCamTrip PfLabTrip PfToneReal PfToneElast PfToneStep PfToneFin PfToneLin PfToneRound PfToneIter PfToneNext PfToneLoop PfToneInit PfToneBudget PfPale.
Open Scope string_scope.
Open Scope R_scope.

Lemma small_ok (l : vec3) K f : fin (v0 l) /\ fin (v1 l) /\ fin (v2 l) -> B2R (v0 l) <= K * f -> B2R (v1 l) <= K * f -> B2R (v2 l) <= K * f -> K * f <= 100.0099 ->
  (fgt (v0 l) (dec "100.01") || fgt (v1 l) (dec "100.01") || fgt (v2 l) (dec "100.01"))%bool = false.
Proof.
  intros (f0 & f1 & f2) a0 a1 a2 hf. set (x := v0 l) in *. set (y := v1 l) in *. set (z := v2 l) in *. clearbody x y z. clear l. fconst (dec "100.01").
  unfold fgt. change Bltb with flt. apply orb_false_iff. split; [apply orb_false_iff; split|]; apply flt_fin_f; try assumption; rewrite V; lra.
Qed.

Section PaleLoop.
Context {lm : Libm} (LA : libm_accurate (1 / 10 ^ 13) lm) (PS : pow_special lm).
Variables (vc : viewing_conditions) (tic p1 hs hc chroma y : f64).
Hypothesis EN : env (vc_aw vc) (vc_nbb vc) (ezf vc) tic p1 hs hc chroma.
Notation lj := (lj vc tic p1 hs hc chroma).
Notation eb := (eb vc tic p1 hs hc chroma y).
Notation loop := (fun k j => j_loop k vc tic p1 hs hc chroma y j).

(** From the lightness [Jm] all channels are positive and at most [K] times the luminance. *)
Definition in_range (Jm K : R) : Prop := forall j, fin j -> Jm <= B2R j <= 152 ->
  round_ok (lj j) /\ B2R (v0 (lj j)) <= K * B2R (fnj_of (lj j)) /\ B2R (v1 (lj j)) <= K * B2R (fnj_of (lj j)) /\ B2R (v2 (lj j)) <= K * B2R (fnj_of (lj j)).

Lemma lj_flin j : lj j = flin (jp (vc_aw vc) (vc_nbb vc) (ezf vc) j) p1 (jt tic chroma j) hc hs.
Proof using. unfold PfToneLoop.lj, jlin. reflexivity. Qed.

Lemma pale_p (a l : R) (j : f64) : 0 < a <= 1 -> (forall e, 0.7591 <= e <= 0.7592 -> l <= Rpower a e) -> 100 * a <= B2R j <= 152 -> 0 <= l -> 29.4 * l <= Pj (vc_aw vc) (vc_nbb vc) (ezf vc) (B2R j).
Proof using EN.
  intros ha hl hj l0. pose proof (v_E _ _ _ _ _ _ _ _ EN) as VE. pose proof (v_A _ _ _ _ _ _ _ _ EN) as VA.
  assert (L : l <= Rpower (B2R j / 100) (B2R (ezf vc))).
  { apply Rle_trans with (Rpower a (B2R (ezf vc))); [apply hl; lra|apply Rle_Rpower_l; lra]. }
  unfold Pj. apply Rmult_le_compat; lra.
Qed.

Lemma pale_t (Jm sq r Tm : R) (j : f64) : B2R tic <= 1.14 -> 9.8 <= Jm -> 0 < sq -> 100 * (sq * sq) <= Jm -> B2R chroma * 1.14 <= r * sq -> Rpower r e9 <= Tm -> Jm <= B2R j <= 152 -> Tj tic chroma (B2R j) <= Tm.
Proof using EN.
  intros htic hJ hsq hq pale hT hj. pose proof (sqJ (B2R j) ltac:(lra)) as SJ. pose proof e9_range as E9.
  assert (S0 : sq <= sqrt (B2R j / 100)) by (rewrite <- (sqrt_square sq) by lra; apply sqrt_le_1_alt; lra).
  assert (CT : B2R chroma * B2R tic <= B2R chroma * 1.14) by (apply Rmult_le_compat_l; pose proof (v_chr _ _ _ _ _ _ _ _ EN); lra).
  pose proof (ct_range _ _ _ _ _ _ _ _ EN) as CR.
  assert (r0 : 0 <= r) by (apply Rmult_le_reg_r with sq; lra).
  assert (B : 0 < B2R chroma * B2R tic / sqrt (B2R j / 100) <= r).
  { split; [apply Rdiv_lt_0_compat; lra|apply div_le; [lra|]]. apply Rle_trans with (1 := CT). apply Rle_trans with (1 := pale). apply Rmult_le_compat_l; lra. }
  apply Rle_trans with (2 := hT). unfold Tj. apply Rle_Rpower_l; lra.
Qed.

(** Lower bounds of the achromatic response and upper bounds of the chroma response, as they are computed. *)
Lemma pale_pt (Jm sq r Tm a l : R) (j : f64) : B2R tic <= 1.14 -> 9.8 <= Jm -> 0 < sq -> 100 * (sq * sq) <= Jm -> B2R chroma * 1.14 <= r * sq -> Rpower r e9 <= Tm -> Tm <= 39 ->
  0 < a <= 1 -> 100 * a <= Jm -> (forall e, 0.7591 <= e <= 0.7592 -> l <= Rpower a e) -> 0 <= l -> fin j -> Jm <= B2R j <= 152 ->
  rin (jp (vc_aw vc) (vc_nbb vc) (ezf vc) j) p1 (jt tic chroma j) hc hs /\ 29.4 * l - 0.001 <= B2R (jp (vc_aw vc) (vc_nbb vc) (ezf vc) j) /\ 0 <= B2R (jt tic chroma j) <= Tm + 0.001.
Proof using LA EN.
  intros htic hJ hsq hq pale hT T39 ha hJa hl l0 fj hj. assert (h : 0.002 <= B2R j <= 152) by lra.
  split; [exact (j_rin LA _ _ _ _ _ _ _ _ EN j fj h)|]. destruct (jp_near LA _ _ _ _ _ _ _ _ EN j fj h) as [_ wp]. destruct (jt_near LA _ _ _ _ _ _ _ _ EN j fj h) as [_ wt].
  pose proof (pale_p a l j ha hl ltac:(lra) l0) as L. pose proof (pale_t Jm sq r Tm j htic hJ hsq hq pale hT hj) as U. pose proof (Tj_range _ _ _ _ _ _ _ _ EN _ h) as TR.
  pose proof (i_p _ _ _ _ _ (j_rin LA _ _ _ _ _ _ _ _ EN j fj h)) as PB. unfold wc in wp, wt. clear hl hT. split; lra.
Qed.

Lemma range_10 (Jm sq : R) : 2690 <= B2R p1 -> B2R tic <= 1.14 -> 9.8 <= Jm -> 0 < sq -> 100 * (sq * sq) <= Jm -> B2R chroma * 1.14 <= 20.36 * sq -> in_range Jm 1.84.
Proof using LA EN.
  intros hp1 htic hJ hsq hq pale j fj hj.
  destruct (pale_pt Jm sq 20.36 28.9 0.098 0.171 j htic hJ hsq hq pale ltac:(pose proof e9_range as E9; set (e := e9) in *; clearbody e; clear - E9; apply (pow_hi_big _ _ _ 29 26); simpl; lra || lia) ltac:(lra) ltac:(lra) ltac:(lra)
    ltac:(intros e E; clear - E; apply (pow_lo_small _ _ _ 19 25); simpl; lra || lia) ltac:(lra) fj hj) as (RI & HP & HT). rewrite lj_flin.
  set (p := jp (vc_aw vc) (vc_nbb vc) (ezf vc) j) in *. set (t := jt tic chroma j) in *. set (P := B2R p) in *. set (T := B2R t) in *.
  apply (round_10 LA _ _ _ _ _ RI); fold P T; [lra|lra|].
  assert (A1 : 23 * (P + 0.305) * T <= 23 * (1.0609 * P) * 28.901) by (apply Rmult_le_compat; lra).
  assert (A2 : P * 58427 <= P * (23 * B2R p1 - 119.1 * T)) by (apply Rmult_le_compat_l; lra). lra.
Qed.
Lemma range_4 : 2690 <= B2R p1 -> B2R tic <= 1.14 -> B2R chroma <= 4 -> in_range 55.6 1.19.
Proof using LA EN.
  intros hp1 htic pale j fj hj.
  destruct (pale_pt 55.6 0.7456 6.12 7.6 0.556 0.64 j htic ltac:(lra) ltac:(lra) ltac:(lra) ltac:(lra) ltac:(pose proof e9_range as E9; set (e := e9) in *; clearbody e; clear - E9; apply (pow_hi_big _ _ _ 29 26); simpl; lra || lia) ltac:(lra) ltac:(lra) ltac:(lra)
    ltac:(intros e E; clear - E; apply (pow_lo_small _ _ _ 19 25); simpl; lra || lia) ltac:(lra) fj hj) as (RI & HP & HT). rewrite lj_flin.
  set (p := jp (vc_aw vc) (vc_nbb vc) (ezf vc) j) in *. set (t := jt tic chroma j) in *. set (P := B2R p) in *. set (T := B2R t) in *.
  apply (round_4 LA _ _ _ _ _ RI); fold P T; [lra|lra|].
  assert (A1 : 23 * (P + 0.305) * T <= 23 * (1.0165 * P) * 7.601) by (apply Rmult_le_compat; lra).
  assert (A2 : P * 60963 <= P * (23 * B2R p1 - 119.1 * T)) by (apply Rmult_le_compat_l; lra). lra.
Qed.
Lemma range_6 : 2690 <= B2R p1 -> B2R tic <= 1.14 -> B2R chroma <= 6 -> in_range 55.6 1.276.
Proof using LA EN.
  intros hp1 htic pale j fj hj.
  destruct (pale_pt 55.6 0.7456 9.18 11.9 0.556 0.64 j htic ltac:(lra) ltac:(lra) ltac:(lra) ltac:(lra) ltac:(pose proof e9_range as E9; set (e := e9) in *; clearbody e; clear - E9; apply (pow_hi_big _ _ _ 29 26); simpl; lra || lia) ltac:(lra) ltac:(lra) ltac:(lra)
    ltac:(intros e E; clear - E; apply (pow_lo_small _ _ _ 19 25); simpl; lra || lia) ltac:(lra) fj hj) as (RI & HP & HT). rewrite lj_flin.
  set (p := jp (vc_aw vc) (vc_nbb vc) (ezf vc) j) in *. set (t := jt tic chroma j) in *. set (P := B2R p) in *. set (T := B2R t) in *.
  apply (round_6 LA _ _ _ _ _ RI); fold P T; [lra|lra|].
  assert (A1 : 23 * (P + 0.305) * T <= 23 * (1.0165 * P) * 11.901) by (apply Rmult_le_compat; lra).
  assert (A2 : P * 60451 <= P * (23 * B2R p1 - 119.1 * T)) by (apply Rmult_le_compat_l; lra). lra.
Qed.
Lemma range_8 : 2690 <= B2R p1 -> B2R tic <= 1.14 -> B2R chroma <= 8 -> in_range 55.6 1.38.
Proof using LA EN.
  intros hp1 htic pale j fj hj.
  destruct (pale_pt 55.6 0.7456 12.24 16.4 0.556 0.64 j htic ltac:(lra) ltac:(lra) ltac:(lra) ltac:(lra) ltac:(pose proof e9_range as E9; set (e := e9) in *; clearbody e; clear - E9; apply (pow_hi_big _ _ _ 29 26); simpl; lra || lia) ltac:(lra) ltac:(lra) ltac:(lra)
    ltac:(intros e E; clear - E; apply (pow_lo_small _ _ _ 19 25); simpl; lra || lia) ltac:(lra) fj hj) as (RI & HP & HT). rewrite lj_flin.
  set (p := jp (vc_aw vc) (vc_nbb vc) (ezf vc) j) in *. set (t := jt tic chroma j) in *. set (P := B2R p) in *. set (T := B2R t) in *.
  apply (round_8 LA _ _ _ _ _ RI); fold P T; [lra|lra|].
  assert (A1 : 23 * (P + 0.305) * T <= 23 * (1.0165 * P) * 16.401) by (apply Rmult_le_compat; lra).
  assert (A2 : P * 59915 <= P * (23 * B2R p1 - 119.1 * T)) by (apply Rmult_le_compat_l; lra). lra.
Qed.

Lemma some_colour l : argb_from_linrgb l <> 0%Z.
Proof using. pose proof (linrgb_opaque l) as O. unfold opaque in O. lia. Qed.

Section Chain.
Variables (Jm K mu c : R).
Hypothesis (fy : fin y) (hy : 3 <= B2R y <= 100) (hJ : 9.8 <= Jm) (IR : in_range Jm K) (hK : 1 <= K <= 2) (hmu : 0 <= mu < 0.03) (hc1 : 1 <= c * (1 - mu)) (hKc : K * (c * B2R y) <= 100.0099) (hKy : K * (B2R y + 0.0021) <= 100.0099).

Lemma exit_ok j F : fin j -> Jm <= B2R j <= 152 -> B2R (fnj_of (lj j)) <= F -> K * F <= 100.0099 ->
  (fgt (v0 (lj j)) (dec "100.01") || fgt (v1 (lj j)) (dec "100.01") || fgt (v2 (lj j)) (dec "100.01"))%bool = false.
Proof using IR hK.
  intros fj hj hf HK. destruct (IR j fj hj) as (RO & a0 & a1 & a2). destruct (round_lin _ RO) as (ff & _). apply (small_ok (lj j) K (B2R (fnj_of (lj j))) ff a0 a1 a2).
  apply Rle_trans with (2 := HK). apply Rmult_le_compat_l; lra.
Qed.

Lemma pale_step k m M j : fin j -> Jm <= B2R j <= 152 -> eb m M j -> 0 <= m <= 0.7 -> 0 <= M <= 0.77 -> (k = O -> m <= mu /\ M <= mu) ->
  loop (S k) j <> 0%Z \/
  (k <> O /\ exists j', loop (S k) j = loop k j' /\ fin j' /\ B2R j * (1 - m / 2) * (1 - 1 / 10 ^ 12) <= B2R j' <= B2R j * (2 / (2 - M)) * (1 + 1 / 10 ^ 12) /\
     (Jm <= B2R j' <= 152 -> forall m' M', 0.26 * m + 0.185 * m * m + 1 / 10 ^ 6 <= m' -> 0.4 * M + 0.35 * M * M + 1 / 10 ^ 6 <= m' -> 0.4 * m + 1 / 10 ^ 6 <= M' -> 0.26 * M + 1 / 10 ^ 6 <= M' -> eb m' M' j')).
Proof using LA PS EN fy hy hJ IR hK hmu hc1 hKc hKy.
  intros fj hj HB hm hM H0. destruct (IR j fj hj) as (RO & _). pose proof (exit_ok j) as EX. specialize (HB RO).
  cbv beta. rewrite (loop_unfold vc tic p1 hs hc chroma y k j). cbv zeta. rewrite (ro_0 _ RO), (ro_1 _ RO), (ro_2 _ RO), (ro_f _ RO). cbn [orb].
  pose proof (ro_fin _ RO) as ff. destruct (round_lin _ RO) as (_ & _ & pf).
  pose proof (f_range _ _ _ _ HB ltac:(lra) ltac:(lra) ltac:(lra) pf) as fr.
  assert (hj0 : 0.002 <= B2R j <= 152) by lra.
  destruct (round_exact LA PS _ _ _ _ _ _ _ _ EN j fj hj0 RO) as (gJ & FP & wf). fold (lj j) in wf.
  destruct ((match k with O => true | _ => false end) || flt (fabs (fsub (fnj_of (lj j)) y)) (dec "0.002"))%bool eqn:X.
  - left. apply orb_true_iff in X. destruct X as [X|Y].
    + destruct k as [|k]; [|discriminate X]. destruct (H0 eq_refl) as [h1 h2].
      assert (D1 : 0 < B2R y) by lra. assert (D2 : - mu <= ln (B2R y / B2R (fnj_of (lj j))) <= mu) by lra. assert (D3 : 0 <= mu < 1) by lra.
      destruct (log_dev (B2R y) (B2R (fnj_of (lj j))) mu c D1 pf D2 D3 hc1) as [_ U]. rewrite (EX (c * B2R y) fj hj ltac:(lra) hKc). apply some_colour.
    + rewrite (EX (B2R y + 0.0021) fj hj); [apply some_colour| |exact hKy]. clear EX hKc hKy hc1. destruct (fsub_S _ _ ff fy ltac:(fsmall)) as [E1 G1]. assert (B0 : - (2000) <= B2R (fnj_of (lj j)) - B2R y <= 2000) by lra. assert (B00 : 1 / 10 ^ 30 <= 2000) by lra. pose proof (rnd_uu (B2R (fnj_of (lj j)) - B2R y) 2000 B0 B00) as B1. rewrite <- E1 in B1. unfold uu in B1.
      pose proof (fabs_fin (fsub (fnj_of (lj j)) y)) as FA. rewrite G1 in FA. fconst (dec "0.002"). apply (flt_fin _ _ FA F) in Y. rewrite fabs_R, V in Y. apply Rabs_lt_inv in Y. lra.
  - right. clear EX hKc hKy hc1. destruct k as [|k]; [discriminate X|]. split; [discriminate|]. exists (upd (fnj_of (lj j)) y j). split; [reflexivity|].
    destruct (upd_near _ _ _ ff fy fj fr ltac:(lra) hj0) as [fj' wj]. set (j' := upd (fnj_of (lj j)) y j) in *. clearbody j'.
    split; [exact fj'|].
    assert (yf : 0 < B2R y / B2R (fnj_of (lj j))) by (apply Rdiv_lt_0_compat; lra).
    pose proof (half_up _ M (proj2 HB) ltac:(lra)) as HU. rewrite exp_ln in HU by exact yf.
    assert (HL : 1 - m <= B2R y / B2R (fnj_of (lj j))).
    { pose proof (exp_ineq1_le (ln (B2R y / B2R (fnj_of (lj j))))) as XL. rewrite exp_ln in XL by exact yf. lra. }
    set (H := (1 + B2R y / B2R (fnj_of (lj j))) / 2) in *. assert (HH : 1 - m / 2 <= H) by (unfold H; lra).
    assert (J1 : B2R j * (1 - m / 2) <= B2R j * H) by (apply Rmult_le_compat_l; lra).
    assert (J2 : B2R j * H <= B2R j * (2 / (2 - M))) by (apply Rmult_le_compat_l; lra).
    split.
    { unfold wc in wj. split; [apply Rle_trans with (2 := proj1 wj)|apply Rle_trans with (1 := proj2 wj)]; apply Rmult_le_compat_r; lra. }
    intros hj' m' M' k1 k2 k3 k4 RO'. assert (hj1 : 0.002 <= B2R j' <= 152) by lra.
    destruct (round_exact LA PS _ _ _ _ _ _ _ _ EN j' fj' hj1 RO') as (gJ' & FP' & wf'). fold (lj j') in wf'.
    apply (step_e _ _ _ _ _ _ _ _ EN (B2R j) (B2R j') (B2R (fnj_of (lj j))) (B2R (fnj_of (lj j'))) (B2R y) m M m' M' gJ gJ' hj0 hj1 ltac:(lra) wf wf' wj HB ltac:(lra) ltac:(lra) k1 k2 k3 k4).
Qed.

Lemma UP a z Z b : 0 <= a -> z <= Z -> b <= a * z * (1 + 1 / 10 ^ 12) -> b <= a * Z * (1 + 1 / 10 ^ 12).
Proof using.
  intros ha hz hb. apply Rle_trans with (1 := hb). apply Rmult_le_compat_r; [lra|]. apply Rmult_le_compat_l; lra.
Qed.

(** The chain of the five rounds from a dark, from a lighter and from a light start. *)
Lemma chain_dark j : 0.0232 <= mu -> 0.0189 <= mu -> fin j -> eb 0.69 0.285 j -> Jm <= 0.5158 * B2R j -> B2R j <= 100 -> loop 5%nat j <> 0%Z.
Proof using LA PS EN fy hy hJ IR hK hmu hc1 hKc hKy.
  intros hm1 hm2 f0 e0 JL JH.
  assert (Z0 : 2 / (2 - 0.285) <= 1.1663) by (apply div_le; lra).
  assert (Z1 : 2 / (2 - 0.2761) <= 1.1603) by (apply div_le; lra).
  assert (Z2 : 2 / (2 - 0.1072) <= 1.0568) by (apply div_le; lra).
  assert (Z3 : 2 / (2 - 0.055) <= 1.0284) by (apply div_le; lra).
  pose proof pale_step as STEP. clear hKc hKy hc1 hK IR.
  destruct (STEP 4%nat 0.69 0.285 j f0 ltac:(lra) e0 ltac:(lra) ltac:(lra) ltac:(discriminate)) as [k|(_ & j1 & E1 & f1 & (b1 & c1) & n1)]; [exact k|].
  apply (UP (B2R j) _ _ _ ltac:(lra) Z0) in c1. specialize (n1 ltac:(lra) 0.2676 0.2761 ltac:(lra) ltac:(lra) ltac:(lra) ltac:(lra)). rewrite E1. clear E1.
  destruct (STEP 3%nat 0.2676 0.2761 j1 f1 ltac:(lra) n1 ltac:(lra) ltac:(lra) ltac:(discriminate)) as [k|(_ & j2 & E2 & f2 & (b2 & c2) & n2)]; [exact k|].
  apply (UP (B2R j1) _ _ _ ltac:(lra) Z1) in c2. specialize (n2 ltac:(lra) 0.1372 0.1072 ltac:(lra) ltac:(lra) ltac:(lra) ltac:(lra)). rewrite E2. clear E2.
  destruct (STEP 2%nat 0.1372 0.1072 j2 f2 ltac:(lra) n2 ltac:(lra) ltac:(lra) ltac:(discriminate)) as [k|(_ & j3 & E3 & f3 & (b3 & c3) & n3)]; [exact k|].
  apply (UP (B2R j2) _ _ _ ltac:(lra) Z2) in c3. specialize (n3 ltac:(lra) 0.047 0.055 ltac:(lra) ltac:(lra) ltac:(lra) ltac:(lra)). rewrite E3. clear E3.
  destruct (STEP 1%nat 0.047 0.055 j3 f3 ltac:(lra) n3 ltac:(lra) ltac:(lra) ltac:(discriminate)) as [k|(_ & j4 & E4 & f4 & (b4 & c4) & n4)]; [exact k|].
  apply (UP (B2R j3) _ _ _ ltac:(lra) Z3) in c4. specialize (n4 ltac:(lra) 0.0232 0.0189 ltac:(lra) ltac:(lra) ltac:(lra) ltac:(lra)). rewrite E4. clear E4.
  destruct (STEP 0%nat _ _ j4 f4 ltac:(lra) n4 ltac:(lra) ltac:(lra) ltac:(intros _; lra)) as [k|(k & _)]; [exact k|]. exfalso. apply k. reflexivity.
Qed.
Lemma chain_light j : 0.0157 <= mu -> 0.0121 <= mu -> fin j -> eb 0.5 0.285 j -> Jm <= 0.6416 * B2R j -> B2R j <= 100 -> loop 5%nat j <> 0%Z.
Proof using LA PS EN fy hy hJ IR hK hmu hc1 hKc hKy.
  intros hm1 hm2 f0 e0 JL JH.
  assert (Z0 : 2 / (2 - 0.285) <= 1.1663) by (apply div_le; lra).
  assert (Z1 : 2 / (2 - 0.2001) <= 1.1113) by (apply div_le; lra).
  assert (Z2 : 2 / (2 - 0.0707) <= 1.0368) by (apply div_le; lra).
  assert (Z3 : 2 / (2 - 0.0378) <= 1.0194) by (apply div_le; lra).
  pose proof pale_step as STEP. clear hKc hKy hc1 hK IR.
  destruct (STEP 4%nat 0.5 0.285 j f0 ltac:(lra) e0 ltac:(lra) ltac:(lra) ltac:(discriminate)) as [k|(_ & j1 & E1 & f1 & (b1 & c1) & n1)]; [exact k|].
  apply (UP (B2R j) _ _ _ ltac:(lra) Z0) in c1. specialize (n1 ltac:(lra) 0.1764 0.2001 ltac:(lra) ltac:(lra) ltac:(lra) ltac:(lra)). rewrite E1. clear E1.
  destruct (STEP 3%nat 0.1764 0.2001 j1 f1 ltac:(lra) n1 ltac:(lra) ltac:(lra) ltac:(discriminate)) as [k|(_ & j2 & E2 & f2 & (b2 & c2) & n2)]; [exact k|].
  apply (UP (B2R j1) _ _ _ ltac:(lra) Z1) in c2. specialize (n2 ltac:(lra) 0.0942 0.0707 ltac:(lra) ltac:(lra) ltac:(lra) ltac:(lra)). rewrite E2. clear E2.
  destruct (STEP 2%nat 0.0942 0.0707 j2 f2 ltac:(lra) n2 ltac:(lra) ltac:(lra) ltac:(discriminate)) as [k|(_ & j3 & E3 & f3 & (b3 & c3) & n3)]; [exact k|].
  apply (UP (B2R j2) _ _ _ ltac:(lra) Z2) in c3. specialize (n3 ltac:(lra) 0.0301 0.0378 ltac:(lra) ltac:(lra) ltac:(lra) ltac:(lra)). rewrite E3. clear E3.
  destruct (STEP 1%nat 0.0301 0.0378 j3 f3 ltac:(lra) n3 ltac:(lra) ltac:(lra) ltac:(discriminate)) as [k|(_ & j4 & E4 & f4 & (b4 & c4) & n4)]; [exact k|].
  apply (UP (B2R j3) _ _ _ ltac:(lra) Z3) in c4. specialize (n4 ltac:(lra) 0.0157 0.0121 ltac:(lra) ltac:(lra) ltac:(lra) ltac:(lra)). rewrite E4. clear E4.
  destruct (STEP 0%nat _ _ j4 f4 ltac:(lra) n4 ltac:(lra) ltac:(lra) ltac:(intros _; lra)) as [k|(k & _)]; [exact k|]. exfalso. apply k. reflexivity.
Qed.
Lemma chain_bright j : 0.0122 <= mu -> 0.0097 <= mu -> fin j -> eb 0.402 0.285 j -> Jm <= 0.7061 * B2R j -> B2R j <= 100 -> loop 5%nat j <> 0%Z.
Proof using LA PS EN fy hy hJ IR hK hmu hc1 hKc hKy.
  intros hm1 hm2 f0 e0 JL JH.
  assert (Z0 : 2 / (2 - 0.285) <= 1.1663) by (apply div_le; lra).
  assert (Z1 : 2 / (2 - 0.1609) <= 1.0876) by (apply div_le; lra).
  assert (Z2 : 2 / (2 - 0.0571) <= 1.0295) by (apply div_le; lra).
  assert (Z3 : 2 / (2 - 0.0295) <= 1.0151) by (apply div_le; lra).
  pose proof pale_step as STEP. clear hKc hKy hc1 hK IR.
  destruct (STEP 4%nat 0.402 0.285 j f0 ltac:(lra) e0 ltac:(lra) ltac:(lra) ltac:(discriminate)) as [k|(_ & j1 & E1 & f1 & (b1 & c1) & n1)]; [exact k|].
  apply (UP (B2R j) _ _ _ ltac:(lra) Z0) in c1. specialize (n1 ltac:(lra) 0.1425 0.1609 ltac:(lra) ltac:(lra) ltac:(lra) ltac:(lra)). rewrite E1. clear E1.
  destruct (STEP 3%nat 0.1425 0.1609 j1 f1 ltac:(lra) n1 ltac:(lra) ltac:(lra) ltac:(discriminate)) as [k|(_ & j2 & E2 & f2 & (b2 & c2) & n2)]; [exact k|].
  apply (UP (B2R j1) _ _ _ ltac:(lra) Z1) in c2. specialize (n2 ltac:(lra) 0.0735 0.0571 ltac:(lra) ltac:(lra) ltac:(lra) ltac:(lra)). rewrite E2. clear E2.
  destruct (STEP 2%nat 0.0735 0.0571 j2 f2 ltac:(lra) n2 ltac:(lra) ltac:(lra) ltac:(discriminate)) as [k|(_ & j3 & E3 & f3 & (b3 & c3) & n3)]; [exact k|].
  apply (UP (B2R j2) _ _ _ ltac:(lra) Z2) in c3. specialize (n3 ltac:(lra) 0.0241 0.0295 ltac:(lra) ltac:(lra) ltac:(lra) ltac:(lra)). rewrite E3. clear E3.
  destruct (STEP 1%nat 0.0241 0.0295 j3 f3 ltac:(lra) n3 ltac:(lra) ltac:(lra) ltac:(discriminate)) as [k|(_ & j4 & E4 & f4 & (b4 & c4) & n4)]; [exact k|].
  apply (UP (B2R j3) _ _ _ ltac:(lra) Z3) in c4. specialize (n4 ltac:(lra) 0.0122 0.0097 ltac:(lra) ltac:(lra) ltac:(lra) ltac:(lra)). rewrite E4. clear E4.
  destruct (STEP 0%nat _ _ j4 f4 ltac:(lra) n4 ltac:(lra) ltac:(lra) ltac:(intros _; lra)) as [k|(k & _)]; [exact k|]. exfalso. apply k. reflexivity.
Qed.
End Chain.
End PaleLoop.

Section Answer.
Context {lm : Libm} (LA : libm_accurate (1 / 10 ^ 13) lm) (PS : pow_special lm).
Variables (vc : viewing_conditions) (tic p1 hs hc chroma y : f64).
Hypothesis EN : env (vc_aw vc) (vc_nbb vc) (ezf vc) tic p1 hs hc chroma.
Hypothesis (fy : fin y) (hp1 : 2690 <= B2R p1) (htic : B2R tic <= 1.14).

Lemma start s T m : 0 <= s -> s * s <= B2R y <= 82.5 -> 1.7 <= s -> 0 < T -> (100 / (10.999 * s)) ^ 7 <= T ^ 36 -> ln (1.4245 * T) <= m ->
  fin (j0 y) /\ 10.999 * s <= B2R (j0 y) <= 100 /\ eb vc tic p1 hs hc chroma y m 0.285 (j0 y).
Proof using LA PS EN fy.
  intros hs0 hy hs1 hT HT hm. assert (hy1 : 1.1 / 10 ^ 5 <= B2R y <= 100.01) by (assert (1.7 * 1.7 <= s * s) by (apply Rmult_le_compat; lra); lra). destruct (j0_near y fy hy1) as (f0 & _ & _).
  pose proof (j0_lo y fy hy1 s hs0 ltac:(lra)) as JL. pose proof (j0_hi y fy hy1 9.083 ltac:(lra) ltac:(lra)) as JH.
  split; [exact f0|]. split; [lra|].
  assert (Q : 1 <= 100 / B2R (j0 y)) by (apply le_div; lra).
  assert (T0 : Rpower (100 / B2R (j0 y)) 0.1944 <= T).
  { apply Rle_trans with (Rpower (100 / (10.999 * s)) 0.1944).
    - apply Rle_Rpower_l; [lra|]. split; [lra|]. unfold Rdiv. apply Rmult_le_compat_l; [lra|]. apply Rinv_le_contravar; lra.
    - apply (pow_hi_big _ _ _ 7 36); [apply le_div; lra|exact hT|lia|simpl; lra|exact HT]. }
  exact (first_eb LA PS vc tic p1 hs hc chroma y EN fy hy1 T m hT T0 (or_introl Q) hm).
Qed.

Lemma pale_dark : 3 <= B2R y <= 52 -> B2R chroma <= 5.5 -> j_loop 5 vc tic p1 hs hc chroma y (j0 y) <> 0%Z.
Proof using LA PS EN fy hp1 htic.
  intros hy hch. destruct (start 1.732 1.381 0.69 ltac:(lra) ltac:(lra) ltac:(lra) ltac:(lra) ltac:(simpl; lra) ltac:(apply (ln_up _ 1.0215625 32); simpl; lra)) as (f0 & b0 & e0).
  assert (IR : in_range vc tic p1 hs hc chroma 9.8 1.84) by (apply (range_10 LA vc tic p1 hs hc chroma EN 9.8 0.313); lra || assumption).
  apply (chain_dark LA PS vc tic p1 hs hc chroma y EN 9.8 1.84 0.0232 1.0238 fy ltac:(lra) ltac:(lra) IR ltac:(lra) ltac:(lra) ltac:(lra) ltac:(lra) ltac:(lra) (j0 y) ltac:(lra) ltac:(lra) f0 e0); lra.
Qed.
Lemma pale_mid : 4 <= B2R y <= 52 -> B2R chroma <= 6 -> j_loop 5 vc tic p1 hs hc chroma y (j0 y) <> 0%Z.
Proof using LA PS EN fy hp1 htic.
  intros hy hch. destruct (start 2 1.381 0.69 ltac:(lra) ltac:(lra) ltac:(lra) ltac:(lra) ltac:(simpl; lra) ltac:(apply (ln_up _ 1.0215625 32); simpl; lra)) as (f0 & b0 & e0).
  assert (IR : in_range vc tic p1 hs hc chroma 11.3 1.84) by (apply (range_10 LA vc tic p1 hs hc chroma EN 11.3 0.336); lra || assumption).
  apply (chain_dark LA PS vc tic p1 hs hc chroma y EN 11.3 1.84 0.0232 1.0238 fy ltac:(lra) ltac:(lra) IR ltac:(lra) ltac:(lra) ltac:(lra) ltac:(lra) ltac:(lra) (j0 y) ltac:(lra) ltac:(lra) f0 e0); lra.
Qed.
Lemma pale_light : 20 <= B2R y <= 52 -> B2R chroma <= 10 -> j_loop 5 vc tic p1 hs hc chroma y (j0 y) <> 0%Z.
Proof using LA PS EN fy hp1 htic.
  intros hy hch. destruct (start 4.472 1.1486 0.5 ltac:(lra) ltac:(lra) ltac:(lra) ltac:(lra) ltac:(simpl; lra) ltac:(apply (ln_up _ 1.015625 32); simpl; lra)) as (f0 & b0 & e0).
  assert (IR : in_range vc tic p1 hs hc chroma 31.5 1.84) by (apply (range_10 LA vc tic p1 hs hc chroma EN 31.5 0.561); lra || assumption).
  apply (chain_light LA PS vc tic p1 hs hc chroma y EN 31.5 1.84 0.0157 1.016 fy ltac:(lra) ltac:(lra) IR ltac:(lra) ltac:(lra) ltac:(lra) ltac:(lra) ltac:(lra) (j0 y) ltac:(lra) ltac:(lra) f0 e0); lra.
Qed.
Lemma bright_8 : 51.4 <= B2R y <= 71 -> B2R chroma <= 8 -> j_loop 5 vc tic p1 hs hc chroma y (j0 y) <> 0%Z.
Proof using LA PS EN fy hp1 htic.
  intros hy hch. destruct (start 7.169 1.0475 0.402 ltac:(lra) ltac:(lra) ltac:(lra) ltac:(lra) ltac:(simpl; lra) ltac:(apply (ln_up _ 1.00628125 64); simpl; lra)) as (f0 & b0 & e0).
  assert (IR : in_range vc tic p1 hs hc chroma 55.6 1.38) by (apply (range_8 LA vc tic p1 hs hc chroma EN hp1 htic hch)).
  apply (chain_bright LA PS vc tic p1 hs hc chroma y EN 55.6 1.38 0.0122 1.01236 fy ltac:(lra) ltac:(lra) IR ltac:(lra) ltac:(lra) ltac:(lra) ltac:(lra) ltac:(lra) (j0 y) ltac:(lra) ltac:(lra) f0 e0); lra.
Qed.
Lemma bright_6 : 51.4 <= B2R y <= 77 -> B2R chroma <= 6 -> j_loop 5 vc tic p1 hs hc chroma y (j0 y) <> 0%Z.
Proof using LA PS EN fy hp1 htic.
  intros hy hch. destruct (start 7.169 1.0475 0.402 ltac:(lra) ltac:(lra) ltac:(lra) ltac:(lra) ltac:(simpl; lra) ltac:(apply (ln_up _ 1.00628125 64); simpl; lra)) as (f0 & b0 & e0).
  assert (IR : in_range vc tic p1 hs hc chroma 55.6 1.276) by (apply (range_6 LA vc tic p1 hs hc chroma EN hp1 htic hch)).
  apply (chain_bright LA PS vc tic p1 hs hc chroma y EN 55.6 1.276 0.0122 1.01236 fy ltac:(lra) ltac:(lra) IR ltac:(lra) ltac:(lra) ltac:(lra) ltac:(lra) ltac:(lra) (j0 y) ltac:(lra) ltac:(lra) f0 e0); lra.
Qed.
Lemma bright_4 : 51.4 <= B2R y <= 82.5 -> B2R chroma <= 4 -> j_loop 5 vc tic p1 hs hc chroma y (j0 y) <> 0%Z.
Proof using LA PS EN fy hp1 htic.
  intros hy hch. destruct (start 7.169 1.0475 0.402 ltac:(lra) ltac:(lra) ltac:(lra) ltac:(lra) ltac:(simpl; lra) ltac:(apply (ln_up _ 1.00628125 64); simpl; lra)) as (f0 & b0 & e0).
  assert (IR : in_range vc tic p1 hs hc chroma 55.6 1.19) by (apply (range_4 LA vc tic p1 hs hc chroma EN hp1 htic hch)).
  apply (chain_bright LA PS vc tic p1 hs hc chroma y EN 55.6 1.19 0.0122 1.01236 fy ltac:(lra) ltac:(lra) IR ltac:(lra) ltac:(lra) ltac:(lra) ltac:(lra) ltac:(lra) (j0 y) ltac:(lra) ltac:(lra) f0 e0); lra.
Qed.
End Answer.
