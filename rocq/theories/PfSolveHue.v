(** * The solver's exact answer has the requested hue and chroma: the floating-point side.  Proof file. *)
From Coq Require Import ZArith Bool Reals Lra Lia Psatz String List.
From Flocq Require Import Core Relative IEEE754.BinarySingleNaN.
From Verif Require Import F64 Spec SpecCam SpecTone SpecViewing SpecAppear SpecCie SpecSolve FloatFacts FloatMono MathUtils ColorUtils ViewingConditions Cam16 HctSolver PfMath PfLab PfTones PfNear PfRel PfLimit PfGamma PfColor PfHct PfVc PfHueVc PfCamA PfCamG PfWarmth PfAppear PfAppearParts PfAppearAll PfCie PfToneReal PfToneElast PfToneStep PfToneFin PfToneLin PfToneRound PfToneIter PfToneNext PfToneLoop PfToneInit PfToneVc PfToneProps PfSolve.
Open Scope string_scope.
Open Scope R_scope.

Lemma sinZ x k : sin (x + 2 * IZR k * PI) = sin x.
Proof. rewrite <- !cos_shift. rewrite <- (cosZ (PI / 2 - x) (- k)). f_equal. rewrite opp_IZR. ring. Qed.

Definition rads (hue : f64) : f64 := fmul (fdiv (sanitize_degrees_double hue) (dec "180.0")) PI64.

Lemma hue_angle (hue : f64) : fin hue -> exists k : Z, fin (rads hue) /\ 0 <= B2R (rads hue) <= 7 /\ - (6 / 10 ^ 13) <= B2R (rads hue) - (radians (B2R hue) + 2 * IZR k * PI) <= 6 / 10 ^ 13.
Proof.
  intros fh. destruct (rad_range hue fh) as [fr br]. cbv zeta in fr, br. fold (rads hue) in fr, br. destruct (sanitize_double hue fh) as (k & fs & bs & _ & es).
  exists (- k)%Z. split; [exact fr|]. split; [exact br|]. destruct pi_float as (fp & bp & bp'). pose proof pi_lo as PL. pose proof pi_hi as PH. unfold rads, radians in *.
  set (s := sanitize_degrees_double hue) in *. clearbody s. fconst (dec "180.0"). replace (bpow radix2 (-45)) with (/ 35184372088832) in es by (cbn; lra). apply Rabs_le_inv in es.
  destruct (fdiv_S s (dec "180.0") fs ltac:(lra) ltac:(rewrite V; fsmall)) as [E1 F1]. rewrite V in E1. pose proof (rnd_uu (B2R s / 180) 2.01 ltac:(lra) ltac:(lra)) as N1. rewrite <- E1 in N1. unfold uu in N1.
  set (q := fdiv s (dec "180.0")) in *. clearbody q. set (p := PI64) in *. clearbody p.
  assert (M1 := mul_bnd (B2R q) (B2R p - PI) 2.1 (1.1 / 10 ^ 13) ltac:(lra) ltac:(lra)). assert (M2 := mul_bnd (B2R q - B2R s / 180) PI (1 / 10 ^ 15) 4 ltac:(lra) ltac:(lra)).
  assert (M3 := mul_bnd (B2R q) (B2R p) 2.1 3.2 ltac:(lra) ltac:(lra)).
  destruct (fmul_S q p F1 fp ltac:(fsmall)) as [E2 F2]. pose proof (rnd_uu (B2R q * B2R p) 7 ltac:(lra) ltac:(lra)) as N2. rewrite <- E2 in N2. unfold uu in N2. set (h := fmul q p) in *. clearbody h.
  assert (M4 := mul_bnd (B2R s - (B2R hue - 360 * IZR k)) PI (3 / 10 ^ 14) 4 ltac:(lra) ltac:(lra)). rewrite opp_IZR.
  replace (B2R h - (B2R hue * PI / 180 + 2 * - IZR k * PI)) with ((B2R h - B2R q * B2R p) + B2R q * (B2R p - PI) + (B2R q - B2R s / 180) * PI + (B2R s - (B2R hue - 360 * IZR k)) * PI / 180) by field. lra.
Qed.

Section Acc.
Context {lm : Libm} (LA : libm_accurate (1 / 10 ^ 13) lm).

Lemma hue_trig (hue : f64) : fin hue -> let h := rads hue in let th := radians (B2R hue) in
  - (8 / 10 ^ 13) <= B2R (cosf h) - cos th <= 8 / 10 ^ 13 /\ - (8 / 10 ^ 13) <= B2R (sinf h) - sin th <= 8 / 10 ^ 13 /\ - (8 / 10 ^ 13) <= cos (B2R h + 2) - cos (th + 2) <= 8 / 10 ^ 13.
Proof using LA.
  intros fh. cbv zeta. destruct (hue_angle hue fh) as (k & fr & br & e). set (h := rads hue) in *. set (th := radians (B2R hue)) in *. clearbody h th.
  destruct (la_trig _ _ LA h fr ltac:(lra)) as (fs & es & fc & ec). apply Rabs_le_inv in es. apply Rabs_le_inv in ec.
  pose proof (cos_lip (B2R h) (th + 2 * IZR k * PI)) as L1. pose proof (sin_lip (B2R h) (th + 2 * IZR k * PI)) as L2. pose proof (cos_lip (B2R h + 2) (th + 2 + 2 * IZR k * PI)) as L3. rewrite cosZ in L1. rewrite sinZ in L2. rewrite cosZ in L3.
  assert (A : Rabs (B2R h - (th + 2 * IZR k * PI)) <= 6 / 10 ^ 13) by (apply Rabs_le; lra).
  replace (B2R h + 2 - (th + 2 + 2 * IZR k * PI)) with (B2R h - (th + 2 * IZR k * PI)) in L3 by ring.
  apply Rle_trans with (2 := A) in L1. apply Rle_trans with (2 := A) in L2. apply Rle_trans with (2 := A) in L3. apply Rabs_le_inv in L1. apply Rabs_le_inv in L2. apply Rabs_le_inv in L3. lra.
Qed.

Lemma p1_frel (vc : viewing_conditions) (h : f64) th Nc Nb : frel (vc_n_c vc) Nc (1 / 10 ^ 9) -> 0.8 <= Nc <= 1 -> frel (vc_ncb vc) Nb (1 / 10 ^ 9) -> 0.3 <= Nb <= 8 -> fin h -> 0 <= B2R h <= 7 ->
  - (8 / 10 ^ 13) <= cos (B2R h + 2) - cos (th + 2) <= 8 / 10 ^ 13 ->
  frel (p1_of vc h) (50000 / 13 * Nc * Nb * ((cos (th + 2) + 3.8) / 4)) (3 / 10 ^ 9).
Proof using LA.
  intros hn bn hb bb fh bh ct. unfold p1_of. fconst (dec "2.0").
  destruct (fadd_S h (dec "2.0") fh F ltac:(rewrite V; fsmall)) as [E1 F1]. rewrite V in E1.
  pose proof (rnd_uu (B2R h + 2) 10 ltac:(lra) ltac:(lra)) as R1. rewrite <- E1 in R1. unfold uu in R1.
  destruct (la_trig _ _ LA (fadd h (dec "2.0")) F1 ltac:(lra)) as (_ & _ & fc & ec).
  set (x := fadd h (dec "2.0")) in *. clearbody x.
  pose proof (cos_lip (B2R x) (B2R h + 2)) as LC. assert (LX : Rabs (B2R x - (B2R h + 2)) <= 2 / 10 ^ 15) by (apply Rabs_le; lra).
  assert (LC' := Rabs_le_inv _ _ (Rle_trans _ _ _ LC LX)). clear LC LX.
  set (c0 := cos (th + 2)) in *. assert (B0 : -1 <= c0 <= 1) by apply COS_bound.
  assert (NC : near (cosf x) c0 (9.1 / 10 ^ 13)) by (split; [exact fc|]; apply Rabs_le_inv in ec; lra).
  set (cx := cosf x) in *. clearbody cx c0. clear ec fc.
  fconst (dec "3.8"). fconst (dec "0.25"). fconst (fdiv (dec "50000.0") (dec "13.0")).
  assert (N1 : near (dec "3.8") 3.8 (1 / 10 ^ 15)) by (split; [exact F0|rewrite V0; lra]).
  pose proof (near_add _ _ _ _ _ _ 5 NC N1 ltac:(lra) ltac:(lra) ltac:(lra) ltac:(lra) ltac:(lra)) as N2.
  pose proof (near_frel _ _ _ 2.8 N2 ltac:(lra) ltac:(unfold uu; lra)) as N3.
  assert (N4 : frel (fadd cx (dec "3.8")) (c0 + 3.8) (3.3 / 10 ^ 13)) by (apply frel_w with (1 := N3); unfold uu; lra). clear N2 N3.
  assert (N5 : frel (dec "0.25") 0.25 0) by (apply frel_const with (1 := F2) (2 := V1); split; lra).
  pose proof (frel_ms _ _ _ _ _ _ N5 N4 ltac:(lra) ltac:(lra) ltac:(lra)) as N6. apply frel_w with (e' := 4 / 10 ^ 13) in N6; [|lra].
  assert (N7 : frel (fdiv (dec "50000.0") (dec "13.0")) (50000 / 13) (1 / 10 ^ 15)) by (apply frel_const with (1 := F3) (2 := V2); split; lra).
  pose proof (frel_ms _ _ _ _ _ _ N6 N7 ltac:(lra) ltac:(lra) ltac:(lra)) as N8. apply frel_w with (e' := 5 / 10 ^ 13) in N8; [|lra].
  set (K := 0.25 * (c0 + 3.8) * (50000 / 13)) in *. assert (BK : 2690 <= K <= 4616) by (unfold K; lra).
  assert (B1 : 2690 * 0.8 <= K * Nc <= 4616 * 1) by (split; apply Rmult_le_compat; lra). assert (B2 : 2690 * 0.8 * 0.3 <= K * Nc * Nb <= 4616 * 1 * 8) by (split; apply Rmult_le_compat; lra).
  pose proof (frel_ms _ _ _ _ _ _ N8 hn ltac:(lra) ltac:(lra) ltac:(lra)) as N9. apply frel_w with (e' := 1.1 / 10 ^ 9) in N9; [|lra].
  pose proof (frel_ms _ _ _ _ _ _ N9 hb ltac:(lra) ltac:(lra) ltac:(lra)) as N10. apply frel_w with (e' := 3 / 10 ^ 9) in N10; [|lra].
  replace (50000 / 13 * Nc * Nb * ((c0 + 3.8) / 4)) with (K * Nc * Nb) by (unfold K; lra). exact N10.
Qed.

Lemma kk_pos n : 1 / 10 ^ 5 <= n -> 0 < 1.64 - Rpower 0.29 n.
Proof using.
  intros h. assert (Rpower 0.29 n <= 1); [|lra]. unfold Rpower. rewrite <- exp_0. apply exp_le. assert (ln 0.29 < 0) by (rewrite <- ln_1; apply ln_increasing; lra).
  assert (0 <= n * - ln 0.29) by (apply Rmult_le_pos; lra). lra.
Qed.

Lemma ln_frel x r e : frel x r e -> 0 <= e <= / 2 -> 0 < B2R x /\ 0 < r /\ - (2 * e) <= ln (B2R x) - ln r <= 2 * e.
Proof using. intros [_ [p b]] he. destruct (ln_near (B2R x) r e p he b) as [q l]. auto. Qed.
Lemma ln_wc x y e : 0 < x -> wc x y e -> 0 <= e <= / 2 -> 0 < y /\ - (2 * e) <= ln y - ln x <= 2 * e.
Proof using. intros p b he. exact (ln_near y x e p he b). Qed.

(** The exact responses of a round have the requested hue and chroma. *)
Lemma round_looks vc k (hue chroma_ j : f64) : settled vc k -> fin hue ->
  env (vc_aw vc) (vc_nbb vc) (ezf vc) (tic_of vc) (p1_of vc (rads hue)) (sinf (rads hue)) (cosf (rads hue)) chroma_ -> fin j -> 0.002 <= B2R j <= 152 ->
  let P := B2R (jp (vc_aw vc) (vc_nbb vc) (ezf vc) j) in let T := B2R (jt (tic_of vc) chroma_ j) in let Q := B2R (p1_of vc (rads hue)) in
  let C := B2R (cosf (rads hue)) in let S := B2R (sinf (rads hue)) in let h := B2R hue in
  den Q T C S <> 0 -> cone (R1 P Q T C S) (R2 P Q T C S) (R3 P Q T C S) ->
  let r := R1 P Q T C S in let g := R2 P Q T C S in let b := R3 P Q T C S in
  0 < opponent_length r g b /\
  Rabs (redness r g b - opponent_length r g b * cos (radians h)) <= opponent_length r g b / 10 ^ 9 /\
  Rabs (yellowness r g b - opponent_length r g b * sin (radians h)) <= opponent_length r g b / 10 ^ 9 /\
  Rabs (chroma k r g b h - B2R chroma_) <= B2R chroma_ / 10 ^ 6.
Proof using LA.
  intros ST fh EN fj hj P T Q C S h nD Cn. cbv zeta.
  destruct (jp_near LA _ _ _ _ _ _ _ _ EN j fj hj) as [fp bp]. destruct (jt_near LA _ _ _ _ _ _ _ _ EN j fj hj) as [ft bt].
  pose proof (Pj_range _ _ _ _ _ _ _ _ EN (B2R j) hj) as PR. pose proof (Tj_range _ _ _ _ _ _ _ _ EN (B2R j) hj) as TR. fold P in bp. fold T in bt.
  destruct (hue_trig hue fh) as (tc & ts & tc2). destruct (hue_angle hue fh) as (_ & fr & br & _). fold C in tc. fold S in ts. fold h in tc, ts, tc2.
  pose proof (p1_frel vc (rads hue) (radians h) (k_nc k) (k_nbb k) (sl_nc _ _ ST) (sl_nc' _ _ ST) (sl_ncb _ _ ST) (sl_nbb' _ _ ST) fr br tc2) as QR.
  change ((cos (radians h + 2) + 3.8) / 4) with (eccentricity h) in QR.
  destruct (ln_frel _ _ _ QR ltac:(lra)) as (pQ & pQk & lQ). fold Q in pQ, lQ. set (Qk := 50000 / 13 * k_nc k * k_nbb k * eccentricity h) in *.
  assert (pP : 0 < P) by (unfold wc in bp; lra). assert (pT : 0 < T) by (unfold wc in bt; lra).
  pose proof (kap_range P Q T C S pP nD Cn) as KR.
  pose proof (v_cs _ _ _ _ _ _ _ _ EN) as CS. fold C S in CS.
  destruct (exact_attributes k P Q T C S h pP pQ pT nD ltac:(lra) ltac:(lra)) as (pG & Er & Ey & EP & EL & ET). fold Qk in ET. clearbody Qk.
  set (r := R1 P Q T C S) in *. set (g := R2 P Q T C S) in *. set (b := R3 P Q T C S) in *. set (G := gam P Q T C S) in *. clearbody r g b G.
  (* the radius *)
  set (rho := sqrt (C * C + S * S)) in *. pose proof (sin2_cos2 (radians h)) as SC. unfold Rsqr in SC. pose proof (COS_bound (radians h)) as CB. pose proof (SIN_bound (radians h)) as SB.
  set (co := cos (radians h)) in *. set (si := sin (radians h)) in *.
  assert (C2 : 1 - 4 / 10 ^ 12 <= C * C + S * S <= 1 + 4 / 10 ^ 12).
  { replace (C * C + S * S) with (si * si + co * co + (C - co) * (C + co) + (S - si) * (S + si)) by ring. rewrite SC.
    pose proof (mul_bnd (C - co) (C + co) (8 / 10 ^ 13) 2.1 ltac:(lra) ltac:(lra)). pose proof (mul_bnd (S - si) (S + si) (8 / 10 ^ 13) 2.1 ltac:(lra) ltac:(lra)). lra. }
  assert (br' : 1 - 5 / 10 ^ 12 <= rho <= 1 + 5 / 10 ^ 12).
  { unfold rho. split.
    - rewrite <- (sqrt_square (1 - 5 / 10 ^ 12)) by lra. apply sqrt_le_1_alt. lra.
    - rewrite <- (sqrt_square (1 + 5 / 10 ^ 12)) by lra. apply sqrt_le_1_alt. lra. }
  assert (pL : 0 < opponent_length r g b) by (rewrite EL; apply Rmult_lt_0_compat; lra).
  split; [exact pL|].
  assert (HU : forall c f, -1 <= c <= 1 -> - (8 / 10 ^ 13) <= f - c <= 8 / 10 ^ 13 -> Rabs (G * f - opponent_length r g b * c) <= opponent_length r g b / 10 ^ 9).
  { intros c f bc hf. rewrite EL. replace (G * f - G * rho * c) with (G * (f - rho * c)) by ring. rewrite Rabs_mult, (Rabs_pos_eq G) by lra.
    replace (G * rho / 10 ^ 9) with (G * (rho / 10 ^ 9)) by field. apply Rmult_le_compat_l; [lra|]. pose proof (mul_bnd (1 - rho) c (5 / 10 ^ 12) 1 ltac:(lra) ltac:(lra)). apply Rabs_le. lra. }
  split; [rewrite Er; apply HU; assumption|]. split; [rewrite Ey; apply HU; assumption|]. clear HU.
  (* the chroma *)
  pose proof (v_chr _ _ _ _ _ _ _ _ EN) as CR. pose proof (v_ticr _ _ _ _ _ _ _ _ EN) as TCR.
  assert (W : wc (B2R chroma_) (chroma k r g b h) (6 / 10 ^ 7)); [|unfold wc in W; apply Rabs_le; lra].
  set (J := B2R j / 100). assert (bJ : 1 / 10 ^ 5 <= J <= 2) by (unfold J; lra).
  assert (lJ : -46 <= ln J <= 46).
  { split.
    - apply Rle_trans with (ln (/ 10 ^ 5)); [|apply ln_le'; lra]. rewrite ln_Rinv, ln_pow by lra. replace (INR 5) with 5 by (simpl; lra). pose proof (ln_le_sub1 10 ltac:(lra)). lra.
    - pose proof (ln_le_sub1 J ltac:(lra)). lra. }
  assert (pA : 0 < B2R (vc_aw vc) / B2R (vc_nbb vc)) by (pose proof (v_A _ _ _ _ _ _ _ _ EN); lra).
  destruct (ln_frel _ _ _ (sl_nbb _ _ ST) ltac:(lra)) as (pn & pnk & ln_n). destruct (ln_frel _ _ _ (sl_aw _ _ ST) ltac:(lra)) as (pa & pak & ln_a).
  (* the lightness *)
  match type of PR with _ <= ?x <= _ => assert (pPj : 0 < x) by lra end. match type of TR with _ <= ?x <= _ => assert (pTj : 0 < x) by lra end.
  destruct (ln_wc _ _ _ pPj bp ltac:(lra)) as [_ lP]. unfold Pj in lP. fold J in lP. rewrite ln_mult in lP by (try exact pA; apply exp_pos). assert (EA : ln (B2R (vc_aw vc) / B2R (vc_nbb vc)) = ln (B2R (vc_aw vc)) - ln (B2R (vc_nbb vc))) by (unfold Rdiv; rewrite ln_mult, ln_Rinv by (try apply Rinv_0_lt_compat; lra); ring). rewrite EA in lP.
  assert (LR : ln (Rpower J (B2R (ezf vc))) = B2R (ezf vc) * ln J) by (unfold Rpower; apply ln_exp). rewrite LR in lP.
  (* the inner coefficient *)
  destruct (kk_rel LA (vc_n vc) (k_n k) (sl_n _ _ ST) (sl_n' _ _ ST)) as [KK BK]. fconst (dec "1.0").
  pose proof (frel_ds (dec "1.0") (kk_of (vc_n vc)) 1 _ 0 _ (frel_const _ _ 1 0 F V ltac:(split; lra)) KK ltac:(lra) ltac:(lra) ltac:(split; [apply le_div|apply div_le]; lra)) as TI. fold (tic_of vc) in TI.
  destruct (ln_frel _ _ _ TI ltac:(lra)) as (pt & _ & lt). set (KR' := Rpower (1.64 - Rpower 0.29 (k_n k)) 0.73) in *. assert (EI : ln (1 / KR') = - ln KR') by (unfold Rdiv; rewrite Rmult_1_l; apply ln_Rinv; lra). rewrite EI in lt.
  (* t *)
  destruct (ln_wc _ _ _ pTj bt ltac:(lra)) as [_ lT]. unfold Tj in lT. fold J in lT.
  pose proof (sqJ (B2R j) hj) as SJ. fold J in SJ.
  assert (LS' : ln (sqrt J) = ln J / 2) by (rewrite <- Rpower_sqrt by lra; unfold Rpower; rewrite ln_exp; field).
  assert (LT : ln (Rpower (B2R chroma_ * B2R (tic_of vc) / sqrt J) PfToneIter.e9) = PfToneIter.e9 * (ln (B2R chroma_) + ln (B2R (tic_of vc)) - ln J / 2)).
  { unfold Rpower. rewrite ln_exp. f_equal. unfold Rdiv at 1. rewrite !ln_mult, ln_Rinv by (try apply Rinv_0_lt_compat; try apply Rmult_lt_0_compat; lra). rewrite LS'. ring. }
  rewrite LT in lT.
  assert (lR : - (2 / 10 ^ 11) <= ln rho <= 2 / 10 ^ 11).
  { destruct (ln_near rho 1 (5 / 10 ^ 12) ltac:(lra) ltac:(lra) ltac:(lra)) as [_ l]. rewrite ln_1 in l. lra. }
  assert (pX : 0 < Qk * rho * T / Q) by (apply Rdiv_lt_0_compat; [repeat apply Rmult_lt_0_compat; lra|exact pQ]).
  assert (lX : ln (Qk * rho * T / Q) = ln Qk + ln rho + ln T - ln Q).
  { unfold Rdiv. rewrite !ln_mult, ln_Rinv by (try apply Rinv_0_lt_compat; repeat apply Rmult_lt_0_compat; lra). ring. }
  assert (pl : 0 < (2 * r + g + b / 20) * k_nbb k / k_aw k) by (rewrite EP; apply Rdiv_lt_0_compat; [apply Rmult_lt_0_compat; lra|exact pak]).
  pose proof (ln_big (B2R chroma_) ltac:(lra)) as lc. assert (lt2 : -270 <= ln (B2R (tic_of vc)) <= 270) by (apply ln_big; lra).
  assert (HZ : 0.7 <= k_c k * k_z k <= 2.6). { pose proof (sl_c' _ _ ST). pose proof (sl_z' _ _ ST). split; [apply Rle_trans with (0.525 * 1.48); [lra|]|apply Rle_trans with (0.69 * 3.73); [|lra]]; apply Rmult_le_compat; lra. }
  assert (HE : - (5 / 10 ^ 9) <= k_c k * k_z k * B2R (ezf vc) - 1 <= 5 / 10 ^ 9).
  { pose proof (sl_c' _ _ ST) as bc. pose proof (sl_z' _ _ ST) as bz. unfold ezf.
    pose proof (frel_ds (dec "1.0") (vc_c vc) 1 _ 0 _ (frel_const _ _ 1 0 F V ltac:(split; lra)) (sl_c _ _ ST) ltac:(lra) ltac:(lra) ltac:(split; [apply le_div|apply div_le]; lra)) as N1. apply frel_w with (e' := 1.1 / 10 ^ 9) in N1; [|lra].
    assert (B1 : 1.4 <= 1 / k_c k <= 2) by (split; [apply le_div|apply div_le]; lra).
    pose proof (frel_ds _ (vc_z vc) _ _ _ _ N1 (sl_z _ _ ST) ltac:(lra) ltac:(lra) ltac:(split; [apply le_div|apply div_le]; lra)) as [_ [N2 N3]].
    set (e := B2R (fdiv (fdiv (dec "1.0") (vc_c vc)) (vc_z vc))) in *. set (Z := k_c k * k_z k) in *.
    assert (EZ : Z * (1 / k_c k / k_z k) = 1) by (unfold Z; field; lra). set (w := 1 / k_c k / k_z k) in *.
    assert (Z * (w * (1 - 3 / 10 ^ 9)) <= Z * e <= Z * (w * (1 + 3 / 10 ^ 9))) by (split; apply Rmult_le_compat_l; lra). lra. }
  apply (chroma_ln k r g b h (Qk * rho * T / Q) (B2R chroma_) (ln (B2R (tic_of vc))) (ln J) PfToneIter.e9 (B2R (ezf vc)) _ ET pX pl eq_refl).
  - rewrite lX. lra.
  - unfold PfToneIter.e9, e9f. clear. fconst (fdiv (dec "1.0") (dec "0.9")). lra.
  - lra.
  - apply kk_pos. pose proof (sl_n' _ _ ST). lra.
  - fold KR'. lra.
  - rewrite EP. unfold Rdiv. rewrite !ln_mult, ln_Rinv by (try apply Rinv_0_lt_compat; try apply Rmult_lt_0_compat; lra). lra.
  - exact HZ.
  - exact HE.
  - exact lJ.
  - lra.
Qed.
End Acc.
