(** * The solver's exact answer has the requested hue and chroma: the colour that is returned.  Proof file. *)
From Coq Require Import ZArith Bool Reals Lra Lia Psatz String List.
From Flocq Require Import Core Relative IEEE754.BinarySingleNaN.
From Verif Require Import F64 Spec SpecCam SpecTone SpecViewing SpecAppear SpecCie SpecSolve FloatFacts FloatMono MathUtils ColorUtils ViewingConditions Cam16 HctSolver Hct PfMath PfLab PfTones PfNear PfRel PfLimit PfGamma PfColor PfHct PfVc PfHueVc PfCamA PfCamG PfWarmth PfAppear PfAppearParts PfAppearAll PfCie PfToneReal PfToneElast PfToneStep PfToneFin PfToneLin PfToneRound PfToneIter PfToneNext PfToneLoop PfToneInit PfToneVc PfToneProps PfSolve PfSolveHue.
Open Scope string_scope.
Open Scope R_scope.

Lemma linear_rows (y1 y2 y3 : f64) l : l = matrix_multiply (y1, y2, y3) LS -> fin (v0 l) /\ fin (v1 l) /\ fin (v2 l) ->
  1 / 10 ^ 30 <= B2R y2 -> 0.79 * B2R y2 <= B2R y1 <= 2.06 * B2R y2 -> 0.17 * B2R y2 <= B2R y3 <= 10.2 * B2R y2 ->
  - (B2R y2 / 10 ^ 10) <= B2R (v0 l) - (1373.2198709594231 * B2R y1 - 1100.4251190754821 * B2R y2 - 7.278681089101213 * B2R y3) <= B2R y2 / 10 ^ 10 /\
  - (B2R y2 / 10 ^ 10) <= B2R (v1 l) - (- 271.815969077903 * B2R y1 + 559.6580465940733 * B2R y2 - 32.46047482791194 * B2R y3) <= B2R y2 / 10 ^ 10 /\
  - (B2R y2 / 10 ^ 10) <= B2R (v2 l) - (1.9622899599665666 * B2R y1 - 57.173814538844006 * B2R y2 + 308.7233197812385 * B2R y3) <= B2R y2 / 10 ^ 10.
Proof.
  intros -> ff hy h1 h3. rewrite LS_rows in *. unfold v0, v1, v2 in *. cbn [fst snd] in *. destruct ff as (f0 & f1 & f2).
  fconst (dec "1373.2198709594231"). fconst (dec "-1100.4251190754821"). fconst (dec "-7.278681089101213").
  fconst (dec "-271.815969077903"). fconst (dec "559.6580465940733"). fconst (dec "-32.46047482791194").
  fconst (dec "1.9622899599665666"). fconst (dec "-57.173814538844006"). fconst (dec "308.7233197812385").
  set (S := B2R y1 + B2R y2 + B2R y3). assert (hS : 1 / 10 ^ 30 <= S <= 13.3 * B2R y2) by (unfold S; lra).
  assert (ua : Rabs (B2R y1) <= S) by (rewrite Rabs_pos_eq; unfold S; lra). assert (ub : Rabs (B2R y2) <= S) by (rewrite Rabs_pos_eq; unfold S; lra). assert (uc : Rabs (B2R y3) <= S) by (rewrite Rabs_pos_eq; unfold S; lra).
  pose proof (row_err y1 y2 y3 _ _ _ _ _ _ 1400 S V V0 V1 ltac:(lra) ltac:(lra) ltac:(lra) ltac:(lra) f0 ua ub uc ltac:(lra)) as S0.
  pose proof (row_err y1 y2 y3 _ _ _ _ _ _ 1400 S V2 V3 V4 ltac:(lra) ltac:(lra) ltac:(lra) ltac:(lra) f1 ua ub uc ltac:(lra)) as S1.
  pose proof (row_err y1 y2 y3 _ _ _ _ _ _ 1400 S V5 V6 V7 ltac:(lra) ltac:(lra) ltac:(lra) ltac:(lra) f2 ua ub uc ltac:(lra)) as S2.
  clear f0 f1 f2. repeat split; lra.
Qed.

Section Acc.
Context {lm : Libm} (LA : libm_accurate (1 / 10 ^ 13) lm) (PS : pow_special lm).

Lemma channel_min (x : f64) : fin x -> 0 <= B2R x -> fgt x (dec "100.01") = false -> B2R x <= 100.011 /\ channel_of (delinearized x) (Rmin (B2R x) 100).
Proof using LA.
  intros fx h0 g. fconst (dec "100.01"). apply (flt_fin_f _ _ F fx) in g. rewrite V in g. split; [lra|]. destruct (Rle_or_lt (B2R x) 100) as [h|h].
  - rewrite Rmin_left by exact h. apply encoded; [exact LA|exact fx|lra].
  - rewrite Rmin_right by lra. assert (E : linR 255 = 1) by (unfold linR, wR; cbn [Z.leb]; change (255 <=? 10)%Z with false; cbv iota; replace ((IZR 255 / 255 + 0.055) / 1.055) with 1 by lra; unfold Rpower; rewrite ln_1, Rmult_0_r; apply exp_0).
    rewrite (delin_robust (1 / 10 ^ 13) ltac:(lra) (la_pow _ _ LA) x 255 ltac:(lia) fx) by (rewrite E; lra).
    split; [lia|]. unfold srgb_encode. destruct (Rle_dec (100 / 100) 0.0031308) as [q|q]; [lra|]. replace (100 / 100) with 1 by lra. unfold Rpower. rewrite ln_1, Rmult_0_r, exp_0. apply Rabs_le. lra.
Qed.

Lemma answer_looks vc k (hue chroma_ y : f64) c m M : s_rgb = Ok vc -> settled vc k -> fin hue ->
  env (vc_aw vc) (vc_nbb vc) (ezf vc) (tic_of vc) (p1_of vc (rads hue)) (sinf (rads hue)) (cosf (rads hue)) chroma_ ->
  out vc (tic_of vc) (p1_of vc (rads hue)) (sinf (rads hue)) (cosf (rads hue)) chroma_ y c m M ->
  exists lr lg lb, shows c lr lg lb /\ looks k lr lg lb (B2R hue) (B2R chroma_).
Proof using LA PS.
  intros ES ST fh EN (l & (j & El & fj & hj) & ro & ec & g0 & g1 & g2 & _).
  destruct (round_lin l ro) as (ff & (p0 & p1 & p2) & _). pose proof ff as (f0 & f1 & f2).
  exists (B2R (v0 l)), (B2R (v1 l)), (B2R (v2 l)). split.
  { destruct (channel_min _ f0 p0 g0) as [b0 c0]. destruct (channel_min _ f1 p1 g1) as [b1 c1]. destruct (channel_min _ f2 p2 g2) as [b2 c2].
    split; [repeat split; lra|]. rewrite ec. unfold argb_from_linrgb. cbv zeta. destruct (rgb_back _ _ _ (delinearized_byte (v0 l)) (delinearized_byte (v1 l)) (delinearized_byte (v2 l))) as (-> & -> & ->). auto. }
  clear g0 g1 g2 ec.
  pose proof (j_rin LA _ _ _ _ _ _ _ _ EN j fj hj) as RI. unfold lj, jlin in El. rewrite El in ro.
  destruct (good_round LA PS _ _ _ _ _ RI ro) as (x1 & x2 & x3 & MC & MV & nD & W1 & W2 & W3 & _ & y1 & y2 & y3 & EY & (n1 & n2 & n3) & Y1 & Y2 & Y3). rewrite <- El in EY.
  pose proof (i_p _ _ _ _ _ RI) as PR.
  assert (Cn : cone (R1 (B2R (jp (vc_aw vc) (vc_nbb vc) (ezf vc) j)) (B2R (p1_of vc (rads hue))) (B2R (jt (tic_of vc) chroma_ j)) (B2R (cosf (rads hue))) (B2R (sinf (rads hue))))
    (R2 (B2R (jp (vc_aw vc) (vc_nbb vc) (ezf vc) j)) (B2R (p1_of vc (rads hue))) (B2R (jt (tic_of vc) chroma_ j)) (B2R (cosf (rads hue))) (B2R (sinf (rads hue))))
    (R3 (B2R (jp (vc_aw vc) (vc_nbb vc) (ezf vc) j)) (B2R (p1_of vc (rads hue))) (B2R (jt (tic_of vc) chroma_ j)) (B2R (cosf (rads hue))) (B2R (sinf (rads hue))))).
  { destruct MC as [c0 c1 c2]. unfold wc in W1, W2, W3. constructor; lra. }
  pose proof (round_looks LA vc k hue chroma_ j ST fh EN fj hj nD Cn) as RL. cbv zeta in RL.
  pose proof (PP_R (B2R (jp (vc_aw vc) (vc_nbb vc) (ezf vc) j)) (B2R (p1_of vc (rads hue))) (B2R (jt (tic_of vc) chroma_ j)) (B2R (cosf (rads hue))) (B2R (sinf (rads hue)))) as PE.
  set (r := R1 _ _ _ _ _) in *. set (g := R2 _ _ _ _ _) in *. set (b := R3 _ _ _ _ _) in *. clearbody r g b. clear RI ro El nD Cn EN.
  set (P := B2R (jp (vc_aw vc) (vc_nbb vc) (ezf vc) j)) in *. clearbody P.
  destruct MC as [c0 c1 c2]. destruct MV as [d1 d2]. unfold PP in PE.
  assert (B2 : 1 / 10 ^ 4 <= x2 <= 30) by (unfold wc in *; lra). assert (B1 : 1 / 10 ^ 5 <= x1 <= 50) by lra. assert (B3 : 1 / 10 ^ 5 <= x3 <= 100) by lra.
  pose proof (vv_lo x2 ltac:(lra)) as v2lo. set (V1 := vv Kc qc x1) in *. set (V2 := vv Kc qc x2) in *. set (V3 := vv Kc qc x3) in *.
  pose proof Y1 as [q1 k1]. pose proof Y2 as [q2 k2]. pose proof Y3 as [q3 k3].
  assert (Z1 : 0.79 * B2R y2 <= B2R y1 <= 2.06 * B2R y2) by lra. assert (Z3 : 0.17 * B2R y2 <= B2R y3 <= 10.2 * B2R y2) by lra.
  destruct (linear_rows y1 y2 y3 l EY ff ltac:(lra) Z1 Z3) as (L0 & L1 & L2).
  assert (Zp : 0 < B2R y2) by lra. destruct (tables _ _ _ _ _ _ Zp Z1 Z3 L0 L1 L2) as (T1 & T2 & T3).
  assert (EV : vc_fl vc = fl0 /\ v0 (vc_rgb_d vc) = adapt rw0 /\ v1 (vc_rgb_d vc) = adapt gw0 /\ v2 (vc_rgb_d vc) = adapt bw0).
  { rewrite s_rgb_eq in ES. apply ok_inj in ES. rewrite <- ES. repeat split. }
  destruct EV as (E0 & E1 & E2 & E3).
  pose proof (u1_near LA) as U1. pose proof (u2_near LA) as U2. pose proof (u3_near LA) as U3. unfold u1, u2, u3 in U1, U2, U3. rewrite <- E0, <- E1 in U1. rewrite <- E0, <- E2 in U2. rewrite <- E0, <- E3 in U3.
  pose proof (proj2 (sl_fl _ _ ST)) as RF. pose proof (proj2 (sl_r _ _ ST)) as Rr. pose proof (proj2 (sl_g _ _ ST)) as Rg. pose proof (proj2 (sl_b _ _ ST)) as Rb.
  unfold looks. cbv zeta in T1, T2, T3 |- *. set (X := linear_x _ _ _) in *. set (Y := linear_y _ _ _) in *. set (Z := linear_z _ _ _) in *. clearbody X Y Z.
  assert (Zr : 0 < B2R y1) by lra. assert (Zb : 0 < B2R y3) by lra.
  assert (U1' : 0.3967085983 <= B2R (vc_fl vc) * B2R (v0 (vc_rgb_d vc)) <= 0.3967085983 + 5 / 10 ^ 10) by lra.
  assert (U2' : 0.3831622604 <= B2R (vc_fl vc) * B2R (v1 (vc_rgb_d vc)) <= 0.3831622604 + 5 / 10 ^ 10) by lra.
  assert (U3' : 0.3628263358 <= B2R (vc_fl vc) * B2R (v2 (vc_rgb_d vc)) <= 0.3628263358 + 5 / 10 ^ 10) by lra.
  assert (H1 : 0.36 <= 0.3967085983 <= 0.4) by lra. assert (H2 : 0.36 <= 0.3831622604 <= 0.4) by lra. assert (H3 : 0.36 <= 0.3628263358 <= 0.4) by lra.
  pose proof (scaled (B2R y1) 0.3967085983 _ _ _ _ _ _ Zr H1 T1 U1' RF Rr eq_refl) as S1.
  pose proof (scaled (B2R y2) 0.3831622604 _ _ _ _ _ _ Zp H2 T2 U2' RF Rg eq_refl) as S2.
  pose proof (scaled (B2R y3) 0.3628263358 _ _ _ _ _ _ Zb H3 T3 U3' RF Rb eq_refl) as S3.
  assert (X1' : 1 / 10 ^ 25 <= x1 <= 100) by lra. assert (X2' : 1 / 10 ^ 25 <= x2 <= 100) by lra. assert (X3' : 1 / 10 ^ 25 <= x3 <= 100) by lra.
  destruct (answer x1 _ _ X1' Y1 S1) as [_ A1]. destruct (answer x2 _ _ X2' Y2 S2) as [_ A2]. destruct (answer x3 _ _ X3' Y3 S3) as [_ A3].
  exists r, g, b. unfold red_response, green_response, blue_response, response.
  match type of A1 with wc _ ?a _ => set (a1 := a) in * end. match type of A2 with wc _ ?a _ => set (a2 := a) in * end. match type of A3 with wc _ ?a _ => set (a3 := a) in * end.
  clearbody a1 a2 a3. unfold wc in *.
  split; [apply Rabs_le; lra|]. split; [apply Rabs_le; lra|]. split; [apply Rabs_le; lra|]. exact RL.
Qed.

Notation std vc := (conditions_of (B2R (dec "95.047")) 100 (B2R (dec "108.883")) (B2R (vc_adapting_luminance vc)) 50 2 false).

Lemma gates (chroma_ t : f64) : fin chroma_ -> 0.00011 <= B2R chroma_ -> fin t -> 0.00011 <= B2R t <= 99.9998 -> (flt chroma_ (dec "0.0001") || flt t (dec "0.0001") || fgt t (dec "99.9999"))%bool = false.
Proof using.
  intros fc bc ft bt. fconst (dec "0.0001"). fconst (dec "99.9999"). unfold fgt. change Bltb with flt.
  apply orb_false_iff. split; [apply orb_false_iff; split|].
  - apply (flt_fin_f _ _ fc F). rewrite V. lra.
  - apply (flt_fin_f _ _ ft F). rewrite V. lra.
  - apply (flt_fin_f _ _ F0 ft). rewrite V0. lra.
Qed.

Lemma branch (F : res Z) (B : res vec3) c : (do a <- F; if negb (a =? 0)%Z then Ok a else do l <- B; Ok (argb_from_linrgb l)) = Ok c ->
  exists a, F = Ok a /\ ((a <> 0%Z /\ c = a) \/ (a = 0%Z /\ exists l, B = Ok l /\ c = argb_from_linrgb l)).
Proof using.
  intros H. destruct F as [a|]; [|discriminate H]. cbn [bind] in H. exists a. split; [reflexivity|].
  destruct (Z.eqb_spec a 0) as [z|z]; cbn [negb] in H.
  - right. split; [exact z|]. destruct B as [l|]; [|discriminate H]. exists l. split; [reflexivity|]. cbn [bind] in H. apply ok_inj in H. symmetry. exact H.
  - left. apply ok_inj in H. split; [exact z|symmetry; exact H].
Qed.

Lemma solve_cases (hue chroma_ t : f64) c : (flt chroma_ (dec "0.0001") || flt t (dec "0.0001") || fgt t (dec "99.9999"))%bool = false -> solve_to_int hue chroma_ t = Ok c ->
  exists a, find_result_by_j (rads hue) chroma_ (y_from_lstar t) = Ok a /\ ((a <> 0%Z /\ c = a) \/ (a = 0%Z /\ exists l, bisect_to_limit (y_from_lstar t) (rads hue) = Ok l /\ c = argb_from_linrgb l)).
Proof using.
  unfold solve_to_int. destruct (flt chroma_ (dec "0.0001") || flt t (dec "0.0001") || fgt t (dec "99.9999"))%bool; intros G H; [discriminate G|]. clear G. cbv zeta in H. exact (branch _ _ _ H).
Qed.

Lemma y_range (t : f64) : fin t -> 0.00011 <= B2R t <= 99.9998 -> fin (y_from_lstar t) /\ 1.1 / 10 ^ 5 <= B2R (y_from_lstar t) <= 99.9999.
Proof using LA.
  intros ft bt. destruct (Y_R t ft ltac:(lra)) as [fy cu]. split; [exact fy|].
  set (y := B2R (y_from_lstar t)) in *. set (w := (B2R t + 16) / 116) in *. assert (hw : 16.00009 / 116 <= w <= 115.99991 / 116) by (unfold w; lra). assert (TG : lin w <= w ^ 3) by (apply tangent; lra). assert (W1 : w ^ 3 <= (115.99991 / 116) ^ 3) by (apply cube_lt; lra).
  assert (W2 : 100 * lin w >= 1.105 / 10 ^ 5) by (unfold lin, w; lra). clearbody w y.
  destruct cu as [(u1 & u2)|(u1 & u2)]; lra.
Qed.

Lemma search_looks (hue chroma_ y : f64) a : fin hue -> fin chroma_ -> 0.0001 <= B2R chroma_ <= 10 ^ 9 -> fin y -> 1.1 / 10 ^ 5 <= B2R y <= 99.9999 -> find_result_by_j (rads hue) chroma_ y = Ok a -> a <> 0%Z ->
  exists vc, s_rgb = Ok vc /\ exists lr lg lb, shows a lr lg lb /\ looks (std vc) lr lg lb (B2R hue) (B2R chroma_).
Proof using LA PS.
  intros fh fc bc fy by_ EF z. destruct (hue_angle hue fh) as (_ & fr & br & _).
  destruct (find_out LA PS (rads hue) chroma_ _ a fr br fc ltac:(lra) fy ltac:(lra) EF z) as (vc & ES & EN & O). exists vc. split; [exact ES|].
  destruct (standard_settled LA) as (vc' & ES' & ST). assert (E : vc' = vc) by (apply ok_inj; exact (eq_trans (eq_sym ES') ES)). rewrite E in ST.
  exact (answer_looks vc _ hue chroma_ _ a _ _ ES ST fh EN O).
Qed.

Lemma solve_looks (hue chroma_ t : f64) c : fin hue -> fin chroma_ -> 0.00011 <= B2R chroma_ <= 10 ^ 9 -> fin t -> 0.00011 <= B2R t <= 99.9998 -> solve_to_int hue chroma_ t = Ok c ->
  exists vc, s_rgb = Ok vc /\
    ((exists lr lg lb, shows c lr lg lb /\ looks (std vc) lr lg lb (B2R hue) (B2R chroma_)) \/
     (find_result_by_j (rads hue) chroma_ (y_from_lstar t) = Ok 0%Z /\ exists l, bisect_to_limit (y_from_lstar t) (rads hue) = Ok l /\ c = argb_from_linrgb l)).
Proof using LA PS.
  intros fh fc bc ft bt H. destruct (solve_cases hue chroma_ t c (gates chroma_ t fc (proj1 bc) ft bt) H) as (a & EF & [[z ->]|[z L]]).
  - destruct (y_range t ft bt) as [fy by_]. assert (bc' : 0.0001 <= B2R chroma_ <= 10 ^ 9) by lra. destruct (search_looks hue chroma_ _ a fh fc bc' fy by_ EF z) as (vc & ES & R). exists vc. split; [exact ES|]. left. exact R.
  - destruct (standard_settled LA) as (vc & ES & _). exists vc. split; [exact ES|]. right. rewrite z in EF. split; [exact EF|exact L].
Qed.

Lemma new_int c h : hct_new c = Ok h -> hct_to_int h = c.
Proof using.
  unfold hct_new. destruct (cam16_from_int c) as [cam|]; cbn [bind]; intros E; [|discriminate E]. apply ok_inj in E. rewrite <- E. unfold hct_to_int. cbn [h_argb]. reflexivity.
Qed.

Lemma from_parts (hue chroma_ t : f64) h : hct_from hue chroma_ t = Ok h -> exists c, solve_to_int hue chroma_ t = Ok c /\ hct_to_int h = c.
Proof using.
  unfold hct_from. destruct (solve_to_int hue chroma_ t) as [c|]; cbn [bind]; intros E; [|discriminate E]. exists c. split; [reflexivity|exact (new_int c h E)].
Qed.

Lemma hct_looks (hue chroma_ t : f64) : fin hue -> fin chroma_ -> 0.00011 <= B2R chroma_ <= 10 ^ 9 -> fin t -> 0.00011 <= B2R t <= 99.9998 ->
  exists h vc, hct_from hue chroma_ t = Ok h /\ s_rgb = Ok vc /\ (B2R t - 1 <= B2R (h_tone h) <= B2R t + 1) /\
    ((exists lr lg lb, shows (hct_to_int h) lr lg lb /\ looks (std vc) lr lg lb (B2R hue) (B2R chroma_)) \/
     (find_result_by_j (rads hue) chroma_ (y_from_lstar t) = Ok 0%Z /\ exists l, bisect_to_limit (y_from_lstar t) (rads hue) = Ok l /\ hct_to_int h = argb_from_linrgb l)).
Proof using LA PS.
  intros fh fc bc ft bt. assert (bt' : 0 <= B2R t <= 100) by lra. destruct (from_tone LA PS hue chroma_ t fh fc (proj2 bc) ft bt') as (h & E & _ & N). exists h.
  destruct (from_parts _ _ _ _ E) as (c & ES & EA). destruct (solve_looks hue chroma_ t c fh fc bc ft bt ES) as (vc & EV & R). exists vc.
  split; [exact E|]. split; [exact EV|]. split; [exact N|]. rewrite EA. exact R.
Qed.
End Acc.

Lemma solve_case : fin (dec "120.0") /\ fin (dec "30.0") /\ 0.00011 <= B2R (dec "30.0") <= 10 ^ 9 /\ fin (dec "50.0") /\ 0.00011 <= B2R (dec "50.0") <= 99.9998.
Proof. fconst (dec "120.0"). fconst (dec "30.0"). fconst (dec "50.0"). repeat split; (assumption || lra). Qed.
