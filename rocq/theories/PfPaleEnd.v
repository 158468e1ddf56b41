(** * Pale requests, from the search to the palettes.  Proof file. *)
From Coq Require Import ZArith Bool Reals Lra Lia Psatz String List.
From Flocq Require Import Core Relative IEEE754.BinarySingleNaN.
From Verif Require Import F64 Spec SpecCam SpecTone SpecHct SpecPalette SpecViewing SpecAppear SpecCie SpecSolve SpecRender SpecPale FloatFacts FloatMono RefLibm MathUtils ColorUtils ViewingConditions Cam16 HctSolver Hct Palettes DynamicScheme DynamicColor MaterialDynamicColors Schemes SpecScheme SpecTones SpecToneRoles PfMath PfLab PfTones PfNear PfRel PfLimit PfHct PfVc PfPalettes PfScheme PfTotal PfToneCase PfCamProps PfToneRange PfGamma PfToneFin PfToneIter PfToneLoop PfToneInit PfToneVc PfToneProps PfToneHct PfSolve PfSolveHue PfSolveEnd PfToneDynamic PfRender PfRenderRoles PfPale PfPaleLoop.
Import ListNotations.
Open Scope string_scope.
Open Scope R_scope.

Section Acc.
Context {lm : Libm} (LA : libm_accurate (1 / 10 ^ 13) lm) (PS : pow_special lm).

Lemma find_env (h chroma_ : f64) vc : vc_std vc -> vc_aw vc = aw0 -> vc_nbb vc = nbb0 -> vc_c vc = c0 -> vc_z vc = fadd (dec "1.48") (fsqrt n0) -> fin h -> 0 <= B2R h <= 7 -> fin chroma_ -> 1 / 10 ^ 5 <= B2R chroma_ <= 10 ^ 9 ->
  env (vc_aw vc) (vc_nbb vc) (ezf vc) (tic_of vc) (p1_of vc h) (sinf h) (cosf h) chroma_.
Proof using LA.
  intros S A1 A2 A3 A4 fh bh fc bc.
  destruct (aw_near LA) as (g1 & g2 & g3 & g4). destruct (tic_near vc S) as [g5 g6]. destruct (p1_near LA vc h S fh bh) as [g7 g8].
  destruct (la_trig _ _ LA h fh ltac:(lra)) as (fs & es & fo & eo). apply Rabs_le_inv in es. apply Rabs_le_inv in eo.
  pose proof (COS_bound (B2R h)) as CB. pose proof (SIN_bound (B2R h)) as SB. pose proof (sin2_cos2 (B2R h)) as SC. unfold Rsqr in SC.
  destruct ez_near as [g9 g10]. assert (EZ : ezf vc = fdiv (fdiv (dec "1.0") c0) (fadd (dec "1.48") (fsqrt n0))) by (unfold ezf; rewrite A3, A4; reflexivity).
  set (s := sinf h) in *. set (o := cosf h) in *. clearbody s o. set (sr := sin (B2R h)) in *. set (cr := cos (B2R h)) in *. clearbody sr cr.
  rewrite A1, A2, EZ. constructor; try assumption; try lra.
  assert (M1 : B2R o * B2R o = cr * cr + (B2R o - cr) * (B2R o + cr)) by ring. assert (M2 : B2R s * B2R s = sr * sr + (B2R s - sr) * (B2R s + sr)) by ring.
  pose proof (mul_bnd (B2R o - cr) (B2R o + cr) (1 / 10 ^ 6) 3 ltac:(lra) ltac:(lra)). pose proof (mul_bnd (B2R s - sr) (B2R s + sr) (1 / 10 ^ 6) 3 ltac:(lra) ltac:(lra)). lra.
Qed.

Lemma p1_sharp (vc : viewing_conditions) (h : f64) : vc_std vc -> fin h -> 0 <= B2R h <= 7 -> 2690 <= B2R (p1_of vc h).
Proof using LA.
  intros S fh bh. unfold p1_of. destruct (vs_n_c _ S) as [f1 b1]. destruct (vs_ncb _ S) as [f2 b2]. set (x1 := vc_n_c vc) in *. set (x2 := vc_ncb vc) in *. clearbody x1 x2. clear S vc.
  fconst (dec "2.0"). fconst (dec "3.8"). fconst (dec "0.25"). fconst (fdiv (dec "50000.0") (dec "13.0")). set (k := fdiv (dec "50000.0") (dec "13.0")) in *. clearbody k.
  destruct (fadd_S h (dec "2.0") fh F ltac:(rewrite V; fsmall)) as [E1 G1]. rewrite V in E1. pose proof (rnd_far (B2R h + 2) ltac:(lra)) as R1. rewrite <- E1 in R1.
  destruct (la_trig _ _ LA (fadd h (dec "2.0")) G1 ltac:(lra)) as (_ & _ & fc & ec). apply Rabs_le_inv in ec.
  set (x := fadd h (dec "2.0")) in *. clearbody x. pose proof (COS_bound (B2R x)) as CB. set (c := cosf x) in *. clearbody c.
  destruct (fadd_S c (dec "3.8") fc F0 ltac:(rewrite V0; fsmall)) as [E2 G2]. rewrite V0 in E2. match type of E2 with _ = rnd ?r => pose proof (rnd_far r ltac:(lra)) as R2 end. rewrite <- E2 in R2.
  set (s := fadd c (dec "3.8")) in *. clearbody s.
  destruct (fmul_S (dec "0.25") s F1 G2 ltac:(rewrite V1; fsmall)) as [E3 G3]. rewrite V1 in E3. match type of E3 with _ = rnd ?r => pose proof (rnd_far r ltac:(lra)) as R3 end. rewrite <- E3 in R3.
  set (e := fmul (dec "0.25") s) in *. clearbody e. assert (be : 0.69999 <= B2R e <= 1.21) by lra. clear - be f1 b1 f2 b2 V2 F2 G3.
  destruct (fmul_S e k G3 F2 ltac:(rewrite V2; fsmall)) as [E1 G1]. rewrite V2 in E1. match type of E1 with _ = rnd ?r => pose proof (rnd_uu r 6000 ltac:(lra) ltac:(lra)) as R1 end. rewrite <- E1 in R1. unfold uu in R1.
  set (m := fmul e k) in *. clearbody m. assert (bm : 2692 <= B2R m <= 4700) by lra. assert (X1 : B2R x1 = 1) by lra.
  destruct (fmul_S m x1 G1 f1 ltac:(rewrite X1; fsmall)) as [E2 G2]. rewrite X1 in E2. match type of E2 with _ = rnd ?r => pose proof (rnd_uu r 6000 ltac:(lra) ltac:(lra)) as R2 end. rewrite <- E2 in R2. unfold uu in R2.
  set (n := fmul m x1) in *. clearbody n. assert (bn : 2691 <= B2R n <= 4701) by lra.
  assert (P : 2691 * 1 <= B2R n * B2R x2) by (apply Rmult_le_compat; lra). assert (P2 : B2R n * B2R x2 <= 4701 * 1.04) by (apply Rmult_le_compat; lra).
  destruct (fmul_S n x2 G2 f2 ltac:(fsmall)) as [E4 G4]. pose proof (rnd_uu (B2R n * B2R x2) 6000 ltac:(lra) ltac:(lra)) as R4. rewrite <- E4 in R4. unfold uu in R4. lra.
Qed.

Lemma kk_sharp : 0.8773 <= B2R (kk_of n0).
Proof using LA.
  fconst n0. set (n := n0) in *. clearbody n. unfold kk_of. fconst (dec "1.64"). fconst (dec "0.29"). fconst (dec "0.73").
  assert (P : between (powf (dec "0.29") n) (0.78 * (1 - 1 / 10 ^ 13)) (0.7999 * (1 + 1 / 10 ^ 13))).
  { apply (pow_between LA); [exact F1|exact F|lra|lra|lra|]. split.
    - apply (pow_lo_small _ _ _ 1 5); [lra|lra|lia|simpl; lra|]. rewrite V1. lra.
    - apply (pow_hi_small _ _ _ 11 60); [lra|lra|lia|simpl; lra|]. rewrite V1. lra. }
  destruct P as [FP BP]. set (p := powf (dec "0.29") n) in *. clearbody p.
  destruct (fsub_S (dec "1.64") p F0 FP ltac:(rewrite V0; fsmall)) as [E1 G2].
  pose proof (rnd_near (B2R (dec "1.64") - B2R p) ltac:(rewrite V0; lra)) as R1. rewrite <- E1, V0 in R1.
  set (s := fsub (dec "1.64") p) in *. clearbody s.
  assert (Q : between (powf s (dec "0.73")) (0.87735 * (1 - 1 / 10 ^ 13)) (0.95 * (1 + 1 / 10 ^ 13))).
  { apply (pow_between LA); [exact G2|exact F2|lra|lra|lra|]. split.
    - assert (S3 : 0.84 ^ 3 <= B2R s ^ 3) by (apply pow_incr; lra). apply (pow_lo_small _ _ _ 3 4); [lra|lra|lia|rewrite V2; simpl; lra|lra].
    - apply (pow_hi_small _ _ _ 1 2); [lra|lra|lia|rewrite V2; simpl; lra|]. lra. }
  destruct Q as [FQ BQ]. lra.
Qed.
Lemma tic_sharp vc : vc_std vc -> vc_n vc = n0 -> B2R (tic_of vc) <= 1.14.
Proof using LA.
  intros S N. unfold tic_of. destruct (vs_kk _ S) as [f1 b1]. rewrite N in *. pose proof kk_sharp as K. set (k := kk_of n0) in *. clearbody k. fconst (dec "1.0").
  assert (B : 1 <= 1 / B2R k) by (apply le_div; lra). assert (B' : 1 / B2R k <= 1.13987) by (apply div_le; lra).
  destruct (fdiv_S (dec "1.0") k F ltac:(lra) ltac:(rewrite V; fsmall)) as [E1 G1]. rewrite V in E1. pose proof (rnd_near (1 / B2R k) ltac:(lra)) as R1. rewrite <- E1 in R1. lra.
Qed.

Lemma pale_found (hue chroma_ y : f64) : fin hue -> fin chroma_ -> 0.0001 <= B2R chroma_ -> fin y ->
  (B2R chroma_ <= 4 /\ 3 <= B2R y <= 82.5 \/ B2R chroma_ <= 5.5 /\ 3 <= B2R y <= 77 \/ B2R chroma_ <= 6 /\ 4 <= B2R y <= 77 \/ B2R chroma_ <= 8 /\ 20 <= B2R y <= 71 \/ B2R chroma_ <= 10 /\ 20 <= B2R y <= 52) ->
  exists a, find_result_by_j (rads hue) chroma_ y = Ok a /\ a <> 0%Z.
Proof using LA PS.
  intros fh fc bc fy by_. destruct (hue_angle hue fh) as (_ & fr & br & _). set (h := rads hue) in *. clearbody h.
  destruct (find_eq LA h chroma_ y) as (vc & SR & S & A1 & A2 & A3 & A4 & E).
  assert (N : vc_n vc = n0) by (rewrite s_rgb_eq in SR; apply ok_inj in SR; rewrite <- SR; reflexivity).
  assert (bc' : 1 / 10 ^ 5 <= B2R chroma_ <= 10 ^ 9) by (destruct by_ as [[]|[[]|[[]|[[]|[]]]]]; lra). pose proof (find_env h chroma_ vc S A1 A2 A3 A4 fr br fc bc') as EN. pose proof (p1_sharp vc h S fr br) as Q. pose proof (tic_sharp vc S N) as TC.
  exists (j_loop 5 vc (tic_of vc) (p1_of vc h) (sinf h) (cosf h) chroma_ y (j0 y)). split; [exact E|].
  assert (D : 3 <= B2R y <= 52 -> B2R chroma_ <= 5.5 -> j_loop 5 vc (tic_of vc) (p1_of vc h) (sinf h) (cosf h) chroma_ y (j0 y) <> 0%Z) by exact (pale_dark LA PS vc _ _ _ _ _ y EN fy Q TC).
  assert (D6 : 4 <= B2R y <= 52 -> B2R chroma_ <= 6 -> j_loop 5 vc (tic_of vc) (p1_of vc h) (sinf h) (cosf h) chroma_ y (j0 y) <> 0%Z) by exact (pale_mid LA PS vc _ _ _ _ _ y EN fy Q TC).
  assert (L : 20 <= B2R y <= 52 -> B2R chroma_ <= 10 -> j_loop 5 vc (tic_of vc) (p1_of vc h) (sinf h) (cosf h) chroma_ y (j0 y) <> 0%Z) by exact (pale_light LA PS vc _ _ _ _ _ y EN fy Q TC).
  assert (B8 : 51.4 <= B2R y <= 71 -> B2R chroma_ <= 8 -> j_loop 5 vc (tic_of vc) (p1_of vc h) (sinf h) (cosf h) chroma_ y (j0 y) <> 0%Z) by exact (bright_8 LA PS vc _ _ _ _ _ y EN fy Q TC).
  assert (B6 : 51.4 <= B2R y <= 77 -> B2R chroma_ <= 6 -> j_loop 5 vc (tic_of vc) (p1_of vc h) (sinf h) (cosf h) chroma_ y (j0 y) <> 0%Z) by exact (bright_6 LA PS vc _ _ _ _ _ y EN fy Q TC).
  assert (B4 : 51.4 <= B2R y <= 82.5 -> B2R chroma_ <= 4 -> j_loop 5 vc (tic_of vc) (p1_of vc h) (sinf h) (cosf h) chroma_ y (j0 y) <> 0%Z) by exact (bright_4 LA PS vc _ _ _ _ _ y EN fy Q TC).
  set (X := j_loop 5 vc (tic_of vc) (p1_of vc h) (sinf h) (cosf h) chroma_ y (j0 y)) in *. clearbody X. clear - by_ D D6 L B8 B6 B4.
  destruct (Rle_lt_dec (B2R y) 52) as [Y|Y]; destruct by_ as [(b1 & b2)|[(b1 & b2)|[(b1 & b2)|[(b1 & b2)|(b1 & b2)]]]];
    first [apply D; lra|apply D6; lra|apply L; lra|apply B8; lra|apply B6; lra|apply B4; lra|lra].
Qed.

Lemma mid_y (t : f64) s u : fin t -> 21 <= s -> u <= 92 -> s <= B2R t <= u -> fin (y_from_lstar t) /\ 100 * ((s + 16) / 116) ^ 3 - 1 / 100 <= B2R (y_from_lstar t) <= 100 * ((u + 16) / 116) ^ 3 + 1 / 100.
Proof using LA.
  intros ft hs hu bt. destruct (Y_R t ft ltac:(lra)) as [fy cu]. split; [exact fy|].
  set (y := B2R (y_from_lstar t)) in *. set (w := (B2R t + 16) / 116) in *. assert (hw : (s + 16) / 116 <= w <= (u + 16) / 116) by (unfold w; lra). assert (hv : 37 / 116 <= (s + 16) / 116) by lra. assert (hx : (u + 16) / 116 <= 108 / 116) by lra.
  set (v := (s + 16) / 116) in *. set (x := (u + 16) / 116) in *. clearbody v x.
  assert (W1 : w ^ 3 <= x ^ 3) by (apply cube_lt; lra). assert (W2 : v ^ 3 <= w ^ 3) by (apply cube_lt; lra). assert (W3 : (37 / 116) ^ 3 <= w ^ 3) by (apply cube_lt; lra). assert (W4 : x ^ 3 <= (108 / 116) ^ 3) by (apply cube_lt; lra). set (c := w ^ 3) in *. set (x3 := x ^ 3) in *. set (v3 := v ^ 3) in *. clearbody c y x3 v3.
  destruct cu as [(u1 & u2)|(u1 & u2)]; [lra|]. exfalso. unfold eR in u1. lra.
Qed.

Lemma pale_y (chroma_ t : f64) : fin t -> pale (B2R chroma_) (B2R t) -> fin (y_from_lstar t) /\
  (B2R chroma_ <= 4 /\ 3 <= B2R (y_from_lstar t) <= 82.5 \/ B2R chroma_ <= 5.5 /\ 3 <= B2R (y_from_lstar t) <= 77 \/ B2R chroma_ <= 6 /\ 4 <= B2R (y_from_lstar t) <= 77 \/ B2R chroma_ <= 8 /\ 20 <= B2R (y_from_lstar t) <= 71 \/ B2R chroma_ <= 10 /\ 20 <= B2R (y_from_lstar t) <= 52).
Proof using LA.
  intros ft [(b1 & b2)|[(b1 & b2)|[(b1 & b2)|[(b1 & b2)|(b1 & b2)]]]];
    [destruct (mid_y t 21 92 ft ltac:(lra) ltac:(lra) b2) as [f y]|destruct (mid_y t 21 90 ft ltac:(lra) ltac:(lra) b2) as [f y]|destruct (mid_y t 24 90 ft ltac:(lra) ltac:(lra) b2) as [f y]|destruct (mid_y t 52 87 ft ltac:(lra) ltac:(lra) b2) as [f y]|destruct (mid_y t 52 77 ft ltac:(lra) ltac:(lra) b2) as [f y]];
    (split; [exact f|]); [left|right; left|right; right; left|right; right; right; left|right; right; right; right]; (split; [exact b1|lra]).
Qed.
Lemma pale_mid_tone c t : pale c t -> c <= 10 /\ 21 <= t <= 92.
Proof using. intros [(a & b)|[(a & b)|[(a & b)|[(a & b)|(a & b)]]]]; lra. Qed.

Lemma renders_pale (hue chroma_ t : f64) c : fin hue -> fin chroma_ -> 0.00011 <= B2R chroma_ -> fin t -> pale (B2R chroma_) (B2R t) -> renders hue chroma_ t c -> faithful hue chroma_ c.
Proof using LA PS.
  intros fh fc bc ft bt (vc & E & [R|(Z & _)]); exists vc; (split; [exact E|]); [exact R|exfalso].
  destruct (pale_y chroma_ t ft bt) as [fy by_]. destruct (pale_found hue chroma_ _ fh fc ltac:(lra) fy by_) as (a & Ea & na). unfold rads in Ea.
  assert (X : Ok a = Ok 0%Z) by (rewrite <- Ea; exact Z). apply ok_inj in X. exact (na X).
Qed.

Lemma pale_hct (hue chroma_ t : f64) : fin hue -> fin chroma_ -> 0.00011 <= B2R chroma_ -> fin t -> pale (B2R chroma_) (B2R t) ->
  exists h, hct_from hue chroma_ t = Ok h /\ (B2R t - 1 <= B2R (h_tone h) <= B2R t + 1) /\ faithful hue chroma_ (hct_to_int h).
Proof using LA PS.
  intros fh fc bc ft bt. pose proof (pale_mid_tone _ _ bt) as MT. assert (bt' : 0 <= B2R t <= 100) by lra. assert (bc' : B2R chroma_ <= 10 ^ 9) by lra. destruct (from_tone LA PS hue chroma_ t fh fc bc' ft bt') as (h & E & _ & N). exists h.
  split; [exact E|]. split; [exact N|]. apply (renders_pale hue chroma_ t _ fh fc bc ft bt). apply (from_renders LA PS hue chroma_ t h fh fc ft); [split; lra|exact E].
Qed.

Lemma pale_palette (hue chroma_ : f64) p ts p' (t : Z) : tp_of hue chroma_ = Ok p -> after_gets p ts = Ok p' -> fin hue -> fin chroma_ -> 0.00011 <= B2R chroma_ -> pale (B2R chroma_) (IZR t) ->
  exists c, rmap fst (tp_get p' t) = Ok c /\ faithful hue chroma_ c.
Proof using LA PS.
  intros E H fh fc bc bt. pose proof (pale_mid_tone _ _ bt) as MT. assert (bc' : 0.00011 <= B2R chroma_ <= 10 ^ 9) by lra.
  assert (bt' : (1 <= t <= 99)%Z) by (split; apply le_IZR; lra). destruct (of_renders LA PS hue chroma_ p ts p' t E H fh fc bc' bt') as (c & Ec & R). exists c. split; [exact Ec|].
  destruct (of_Z_R t ltac:(lia)) as [V F]. apply (renders_pale hue chroma_ (of_Z t) c fh fc bc F); [|exact R]. rewrite V. exact bt.
Qed.

Lemma pale_neutral argb c ts p' (t : Z) : cp_of argb = Ok c -> after_gets (cp_neutral c) ts = Ok p' -> (21 <= t <= 92)%Z ->
  exists h k, hct_from_int argb = Ok h /\ rmap fst (tp_get p' t) = Ok k /\ faithful (h_hue h) (dec "4.0") k.
Proof using LA PS.
  intros E H bt. destruct (cp_of_spec _ _ E) as (h & Eh & _ & _ & _ & En & _). exists h. fconst (dec "4.0").
  pose proof Eh as En'. rewrite int_new in En'. destruct (fields LA _ _ En') as ((fh & _) & _).
  assert (bt' : 21 <= IZR t <= 92) by (split; apply IZR_le; lia).
  destruct (pale_palette (h_hue h) (dec "4.0") _ ts p' t En H fh F ltac:(lra) ltac:(left; split; lra)) as (k & Ek & R). exists k. split; [exact Eh|]. split; [exact Ek|exact R].
Qed.
Lemma pale_variant argb c ts p' (t : Z) : cp_of argb = Ok c -> after_gets (cp_neutral_variant c) ts = Ok p' -> (52 <= t <= 87)%Z ->
  exists h k, hct_from_int argb = Ok h /\ rmap fst (tp_get p' t) = Ok k /\ faithful (h_hue h) (dec "8.0") k.
Proof using LA PS.
  intros E H bt. destruct (cp_of_spec _ _ E) as (h & Eh & _ & _ & _ & _ & En & _). exists h. fconst (dec "8.0").
  pose proof Eh as En'. rewrite int_new in En'. destruct (fields LA _ _ En') as ((fh & _) & _).
  assert (bt' : 52 <= IZR t <= 87) by (split; apply IZR_le; lia).
  destruct (pale_palette (h_hue h) (dec "8.0") _ ts p' t En H fh F ltac:(lra) ltac:(right; right; right; left; split; lra)) as (k & Ek & R). exists k. split; [exact Eh|]. split; [exact Ek|exact R].
Qed.
Lemma pale_role v z src dark lvl s role (t : f64) : hct_from_int z = Ok src -> construct v src dark lvl = Ok s -> In role all_roles ->
  get_tone role s = Ok t -> fin t -> 0.00011 <= B2R (tp_chroma (dc_palette role s)) -> pale (B2R (tp_chroma (dc_palette role s))) (B2R t) ->
  exists h, ds_get_hct s role = Ok h /\ faithful (tp_hue (dc_palette role s)) (tp_chroma (dc_palette role s)) (hct_to_int h).
Proof using LA PS.
  intros E C I T ft bc B. destruct (role_sound role s I (constructed LA v z src dark lvl s E C)) as (_ & f1 & f2 & f3). pose proof (pale_mid_tone _ _ B) as M.
  destruct (role_renders LA PS v z src dark lvl s role t E C I T ft ltac:(split; lra)) as (h & Eh & R). exists h. split; [exact Eh|]. exact (renders_pale _ _ t _ f1 f2 bc ft B R).
Qed.
Lemma of_fields h c p : tp_of h c = Ok p -> tp_hue p = h /\ tp_chroma p = c.
Proof using. unfold tp_of. intros E. destruct (create_key_color h c) as [k|]; [|discriminate E]. cbn [bind] in E. apply ok_inj in E. rewrite <- E. split; reflexivity. Qed.
End Acc.

Lemma pale_case : is_finite (dec "200.0") = true /\ is_finite (dec "4.0") = true /\ 0.00011 <= B2R (dec "4.0") /\ is_finite (dec "50.0") = true /\ pale (B2R (dec "4.0")) (B2R (dec "50.0")) /\ pale 6 24 /\ pale 8 (IZR 87).
Proof. fconst (dec "200.0"). fconst (dec "4.0"). fconst (dec "50.0"). split; [assumption|]. split; [assumption|]. split; [lra|]. split; [assumption|]. split; [left; split; lra|]. split; [right; right; left; split; lra|right; right; right; left; split; lra]. Qed.
Lemma neutral_case (argb : Z) : exists c, @cp_of ref_libm argb = Ok c.
Proof. exact (cp_ret ref_13 argb). Qed.
Lemma curve_end c : cc_get c (dec "1.0") = cc_high c.
Proof.
  unfold cc_get. replace (fle (dec "1.0") (fneg (dec "1.0"))) with false by (vm_compute; reflexivity). replace (flt (dec "1.0") (dec "0.0")) with false by (vm_compute; reflexivity).
  replace (flt (dec "1.0") (dec "0.5")) with false by (vm_compute; reflexivity). replace (flt (dec "1.0") (dec "1.0")) with false by (vm_compute; reflexivity). reflexivity.
Qed.
Lemma bright_tone {lm : Libm} s : ds_is_dark s = true -> ds_contrast_level s = dec "1.0" -> get_tone surface_bright s = Ok (dec "34.0").
Proof.
  intros D L. assert (E : get_tone surface_bright s = bind (rc_tone surface_bright_core s) (fun a => Ok a)) by reflexivity. rewrite E. clear E. unfold surface_bright_core. cbn [rc_tone]. rewrite D, L, curve_end. unfold cc_new. cbn [cc_high bind]. reflexivity.
Qed.
Lemma fourth {A B} (P : A -> B -> Prop) a b c d e p q r s t : Forall2 P [a; b; c; d; e] [p; q; r; s; t] -> P d s.
Proof. intros H. inversion_clear H as [|? ? ? ? _ H1]. inversion_clear H1 as [|? ? ? ? _ H2]. inversion_clear H2 as [|? ? ? ? _ H3]. inversion_clear H3. assumption. Qed.
Lemma bright_chroma {lm : Libm} src dark lvl s : construct TonalSpot src dark lvl = Ok s -> tp_chroma (dc_palette surface_bright s) = of_Z 6.
Proof.
  intros B. pose proof (documented_ok TonalSpot src dark lvl s B ltac:(discriminate) ltac:(discriminate)) as M. unfold documented, SpecScheme.five in M. apply fourth in M. destruct M as (hue & _ & N). apply of_fields in N. exact (proj2 N).
Qed.
Lemma bright_case : exists source s t, @hct_from_int ref_libm 0xFF4285F4 = Ok source /\ @construct ref_libm TonalSpot source true (dec "1.0") = Ok s /\ In surface_bright (@all_roles ref_libm) /\
  @get_tone ref_libm surface_bright s = Ok t /\ is_finite t = true /\ 0.00011 <= B2R (tp_chroma (dc_palette surface_bright s)) /\ pale (B2R (tp_chroma (dc_palette surface_bright s))) (B2R t).
Proof.
  destruct (@int_ret ref_libm ref_13 0xFF4285F4) as [h E]. destruct (@seven_ret ref_libm ref_13 TonalSpot h true (dec "1.0") ltac:(discriminate) ltac:(discriminate)) as [s B].
  destruct (construct_fields TonalSpot h true (dec "1.0") s B) as (_ & _ & _ & D & L & _). exists h, s, (dec "34.0"). rewrite (bright_chroma h true (dec "1.0") s B). fconst (dec "34.0"). destruct (of_Z_R 6 ltac:(lia)) as [V0 _]. rewrite V0.
  split; [exact E|]. split; [exact B|]. split; [cbn [all_roles In]; tauto|]. split; [exact (bright_tone s D L)|]. split; [exact F|]. split; [lra|right; right; left; split; lra].
Qed.
