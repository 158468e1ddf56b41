(** * The temperature of a colour is an ordinary number in the documented range.  Proof file. *)
From Coq Require Import ZArith Bool Reals Lra Lia Psatz String List.
From Flocq Require Import Core Relative IEEE754.BinarySingleNaN.
From Verif Require Import F64 MathUtils ColorUtils ViewingConditions Cam16 Hct Temperature Spec SpecCam FloatFacts FloatMono FloatCast PfArgb PfMath
  PfColor PfTones PfLab PfGamma PfLabTrip PfNear PfVc PfRel PfCamA PfCamD PfCamG.
Open Scope string_scope.
Open Scope R_scope.

(** ** The Lab function *)
Lemma root_ge rho x v : 0 <= rho <= 1 / 10 ^ 5 -> rootE rho x v -> - (1 / 10 ^ 4) <= v -> 0.1371 <= x.
Proof.
  intros hr [(h1 & h2 & h3)|(h1 & h2)] hv.
  - destruct (Rle_or_lt 0.1371 x) as [|g]; [assumption|]. exfalso. unfold eR in h1.
    assert (x ^ 3 <= 0.1371 ^ 3) by (apply pow_incr; lra). nra.
  - unfold lin in h2. lra.
Qed.
Lemma root_arg rho x v c : 0 <= rho <= 1 / 10 ^ 5 -> rootE rho x v -> 0.3 <= c <= x -> 0.999 * c ^ 3 <= v.
Proof.
  intros hr [(h1 & h2 & h3)|(h1 & h2)] hc.
  - assert (Q : c ^ 3 <= x ^ 3) by (apply pow_incr; lra). unfold eR in h1. set (w := x ^ 3) in *. set (d := c ^ 3) in *. clearbody w d.
    assert (v * rho <= v * (1 / 10 ^ 5)) by (apply Rmult_le_compat_l; lra). lra.
  - exfalso. unfold lin, eR in *. lra.
Qed.
Lemma root_val rho x v c : 0 <= rho <= 1 / 10 ^ 5 -> rootE rho x v -> 0.3 <= c -> 1.001 * c ^ 3 <= v -> c <= x.
Proof.
  intros hr [(h1 & h2 & h3)|(h1 & h2)] hc hv.
  - destruct (Rle_or_lt c x) as [|g]; [assumption|]. exfalso. unfold eR in h1.
    assert (Q : x ^ 3 <= c ^ 3) by (apply pow_incr; lra).
    assert (P : 0.027 <= c ^ 3) by (apply Rle_trans with (0.3 ^ 3); [lra|apply pow_incr; lra]).
    set (w := x ^ 3) in *. set (d := c ^ 3) in *. clearbody w d.
    assert (v * rho <= v * (1 / 10 ^ 5)) by (apply Rmult_le_compat_l; lra). lra.
  - exfalso. assert (0.3 ^ 3 <= c ^ 3) by (apply pow_incr; lra). unfold eR in h1. lra.
Qed.
Lemma root_le rho x v : 0 <= rho <= 1 / 10 ^ 5 -> rootE rho x v -> v <= 1.001 -> x <= 1.001.
Proof.
  intros hr h hv. destruct (Rle_or_lt x 1.001) as [|g]; [assumption|]. exfalso.
  pose proof (root_arg rho x v 1.001 hr h ltac:(lra)). lra.
Qed.
Lemma root_diff rho x y v w : 0 <= rho <= 1 / 10 ^ 5 -> rootE rho x v -> rootE rho y w ->
  - (1 / 10 ^ 4) <= w -> v <= 1.001 -> v <= 2.64 * w + 1 / 10 ^ 4 -> x - y <= 0.494.
Proof.
  intros hr hx hy h1 h2 h3.
  pose proof (root_ge _ _ _ hr hy h1). pose proof (root_le _ _ _ hr hx h2).
  destruct (Rle_or_lt x 0.63) as [|g]; [lra|]. pose proof (root_arg _ _ _ 0.63 hr hx ltac:(lra)).
  destruct (Rle_or_lt x 0.9) as [|g'].
  - pose proof (root_val _ _ _ 0.45 hr hy ltac:(lra) ltac:(lra)). lra.
  - pose proof (root_arg _ _ _ 0.9 hr hx ltac:(lra)). pose proof (root_val _ _ _ 0.64 hr hy ltac:(lra) ltac:(lra)). lra.
Qed.

(** ** The power *)
Lemma power_303 : Rpower 303 (61 / 57) <= 453.
Proof.
  assert (P : Rpower (Rpower 303 (61 / 57)) (INR 57) <= Rpower 453 (INR 57)).
  { rewrite Rpower_mult. replace (61 / 57 * INR 57) with (INR 61) by (simpl INR; field).
    rewrite !Rpower_pow by lra. rewrite !pow_IZR. apply IZR_le. apply Z.leb_le. reflexivity. }
  destruct (Rle_or_lt (Rpower 303 (61 / 57)) 453) as [|g]; [assumption|]. exfalso.
  assert (Rpower 453 (INR 57) < Rpower (Rpower 303 (61 / 57)) (INR 57)); [|lra].
  apply Rlt_Rpower_l; [simpl INR; lra|lra].
Qed.
Lemma pw_small x y : 0 <= x <= 303 -> 1 <= y <= 61 / 57 -> pw x y <= 453.
Proof.
  intros hx hy. apply Rle_trans with (pw 303 y); [apply pw_mono; lra|]. rewrite pw_pos by lra.
  apply Rle_trans with (2 := power_303). apply Rle_Rpower; lra.
Qed.

Section Acc.
Context {lm : Libm} (LA : libm_accurate (1 / 10 ^ 13) lm).

Lemma labf_in (x k : f64) K : fin x -> fin k -> B2R k = K -> 95 <= K <= 109 -> -0.001 <= B2R x <= K * 1.0005 ->
  exists v, fin (lab_f (fdiv x k)) /\ rootE (rho (1 / 10 ^ 13)) (B2R (lab_f (fdiv x k))) v /\
    B2R x / K - 1 / 10 ^ 12 <= v <= B2R x / K + 1 / 10 ^ 12 /\ - 0.00002 <= B2R x / K <= 1.0005 /\ B2R (lab_f (fdiv x k)) <= 1.2.
Proof using LA.
  intros fx fk VK bK bx.
  assert (Q : - 0.00002 <= B2R x / K <= 1.0005).
  { assert (E : B2R x = B2R x / K * K) by (field; lra). set (q := B2R x / K) in *. clearbody q. nra. }
  destruct (fdiv_S x k fx ltac:(lra) ltac:(rewrite VK; unfold HUGE; lra)) as [D G]. rewrite VK in D.
  pose proof (rnd_near (B2R x / K) ltac:(lra)) as N. rewrite <- D in N.
  destruct (labf_R (1 / 10 ^ 13) ltac:(lra) (la_pow _ _ LA) (fdiv x k) G ltac:(lra)) as (A & B & C).
  exists (B2R (fdiv x k)). split; [exact A|]. split; [exact C|]. split; [lra|]. split; [exact Q|lra].
Qed.

Lemma lab_small argb : let v := lab_from_argb argb in
  fin (v1 v) /\ fin (v2 v) /\ -247.1 <= B2R (v1 v) <= 247.1 /\ -172.8 <= B2R (v2 v) <= 172.8.
Proof using LA.
  cbv zeta. destruct (channels_bytes argb) as (hr & hg & hb).
  pose proof (fun x y z => lab_xyz argb x y z) as LX. unfold xyz_from_argb in LX.
  set (cr := red_from_argb argb) in *. set (cg := green_from_argb argb) in *. set (cb := blue_from_argb argb) in *. clearbody cr cg cb.
  assert (HE : 0 <= 1 / 10 ^ 13 <= 1 / 10 ^ 5) by lra. pose proof (la_pow _ _ LA) as PA.
  destruct (linearized_range _ HE PA cr hr) as [Fr Br]. destruct (linearized_range _ HE PA cg hg) as [Fg Bg].
  destruct (linearized_range _ HE PA cb hb) as [Fb Bb].
  pose proof (xyz_R _ _ _ Fr Fg Fb ltac:(lra) ltac:(lra) ltac:(lra)) as X.
  destruct (matrix_multiply _ srgb_to_xyz) as [[x y] z]. destruct X as ((fx & fy & fz) & ex & ey & ez).
  rewrite (LX x y z eq_refl). clear LX. cbv zeta. unfold v0, v1, v2. cbn [fst snd].
  set (r := B2R (linearized cr)) in *. set (g := B2R (linearized cg)) in *. set (b := B2R (linearized cb)) in *. clearbody r g b.
  fconst (dec "95.047"). fconst (dec "100.0"). fconst (dec "108.883").
  destruct (labf_in x (dec "95.047") (B2R (dec "95.047")) fx F eq_refl ltac:(rewrite V; lra) ltac:(rewrite V; lra)) as (vx & FX & EX & BX & QX & UX).
  destruct (labf_in y (dec "100.0") (B2R (dec "100.0")) fy F0 eq_refl ltac:(rewrite V0; lra) ltac:(rewrite V0; lra)) as (vy & FY & EY & BY & QY & UY).
  destruct (labf_in z (dec "108.883") (B2R (dec "108.883")) fz F1 eq_refl ltac:(rewrite V1; lra) ltac:(rewrite V1; lra)) as (vz & FZ & EZ & BZ & QZ & UZ).
  assert (K1 : B2R x / B2R (dec "95.047") * B2R (dec "95.047") = B2R x) by (field; rewrite V; lra).
  assert (K2 : B2R y / B2R (dec "100.0") * B2R (dec "100.0") = B2R y) by (field; rewrite V0; lra).
  set (q1 := B2R x / _) in *. set (q2 := B2R y / _) in *. set (q3 := B2R z / _) in *. clearbody q1 q2 q3. rewrite V in K1. rewrite V0 in K2.
  set (px := lab_f (fdiv x (dec "95.047"))) in *. set (py := lab_f (fdiv y (dec "100.0"))) in *. set (pz := lab_f (fdiv z (dec "108.883"))) in *.
  clearbody px py pz. set (ro := rho (1 / 10 ^ 13)) in *.
  assert (hro : 0 <= ro <= 1 / 10 ^ 5) by (unfold ro, rho; lra). clearbody ro.
  assert (D1 : B2R px - B2R py <= 0.494).
  { apply (root_diff ro _ _ _ _ hro EX EY); [lra|lra|]. clear - K1 K2 ex ey BX BY Br Bg Bb. lra. }
  assert (D2 : B2R py - B2R px <= 0.494).
  { apply (root_diff ro _ _ _ _ hro EY EX); [lra|lra|]. clear - K1 K2 ex ey BX BY Br Bg Bb. lra. }
  pose proof (root_ge ro _ _ hro EY ltac:(lra)) as G2. pose proof (root_ge ro _ _ hro EZ ltac:(lra)) as G3.
  pose proof (root_le ro _ _ hro EY ltac:(lra)) as H2. pose proof (root_le ro _ _ hro EZ ltac:(lra)) as H3.
  clear - FX FY FZ D1 D2 G2 G3 H2 H3 UX UY UZ. fconst (dec "500.0"). fconst (dec "200.0").
  destruct (fsub_S px py FX FY ltac:(unfold HUGE; lra)) as [M3 H3'].
  pose proof (rnd_near (B2R px - B2R py) ltac:(lra)) as N3. rewrite <- M3 in N3. set (a1 := fsub px py) in *. clearbody a1. clear M3.
  destruct (fmul_S (dec "500.0") a1 F H3' ltac:(rewrite V; fsmall)) as [M4 H4]. rewrite V in M4.
  pose proof (rnd_far (500 * B2R a1) ltac:(lra)) as N4. rewrite <- M4 in N4. set (a := fmul (dec "500.0") a1) in *. clearbody a. clear M4.
  destruct (fsub_S py pz FY FZ ltac:(unfold HUGE; lra)) as [M5 H5].
  pose proof (rnd_near (B2R py - B2R pz) ltac:(lra)) as N5. rewrite <- M5 in N5. set (b1 := fsub py pz) in *. clearbody b1. clear M5.
  destruct (fmul_S (dec "200.0") b1 F0 H5 ltac:(rewrite V0; fsmall)) as [M6 H6]. rewrite V0 in M6.
  pose proof (rnd_far (200 * B2R b1) ltac:(lra)) as N6. rewrite <- M6 in N6. set (b := fmul (dec "200.0") b1) in *. clearbody b. clear M6.
  split; [exact H4|]. split; [exact H6|]. lra.
Qed.

(** the rest of the formula *)
Definition warmth (a b : f64) : f64 :=
  let hue := sanitize_degrees_double (fdiv (fmul (atan2f b a) (dec "180.0")) PI64) in
  let chroma := fsqrt (fadd (fmul a a) (fmul b b)) in
  fadd (dec "-0.5") (fmul (fmul (dec "0.02") (powf chroma (dec "1.07")))
    (cosf (fdiv (fmul (sanitize_degrees_double (fsub hue (dec "50.0"))) PI64) (dec "180.0")))).

Lemma warmth_angle (a b : f64) : fin a -> fin b ->
  let c := cosf (fdiv (fmul (sanitize_degrees_double (fsub (sanitize_degrees_double (fdiv (fmul (atan2f b a) (dec "180.0")) PI64)) (dec "50.0"))) PI64) (dec "180.0")) in
  fin c /\ -1.001 <= B2R c <= 1.001.
Proof using LA.
  intros fa fb. cbv zeta. destruct (la_atan2 _ _ LA b a fb fa) as (fA & th & bth & eA & _). apply Rabs_le_inv in eA.
  set (A := atan2f b a) in *. clearbody A. pose proof pi_lo as PL. pose proof pi_hi as PH.
  destruct (deg_near A fA ltac:(lra)) as [[FD _] _]. set (deg := fdiv (fmul A (dec "180.0")) PI64) in *. clearbody deg.
  destruct (sanitize_double deg FD) as (k & FS & RS & _). set (s := sanitize_degrees_double deg) in *. clearbody s.
  fconst (dec "50.0"). destruct (fsub_S s (dec "50.0") FS F ltac:(rewrite V; fsmall)) as [_ FM]. set (m := fsub s (dec "50.0")) in *. clearbody m.
  destruct (sanitize_double m FM) as (k' & FT & RT & _). set (t := sanitize_degrees_double m) in *. clearbody t.
  destruct pi_float as (fp & _ & bp). set (p := PI64) in *. clearbody p. fconst (dec "180.0").
  pose proof (mul_bnd (B2R t) (B2R p) 360 3.1416 ltac:(lra) ltac:(lra)) as MB.
  destruct (fmul_S t p FT fp ltac:(unfold HUGE; lra)) as [E1 G1]. pose proof (rnd_far (B2R t * B2R p) ltac:(lra)) as N1. rewrite <- E1 in N1.
  set (w := fmul t p) in *. clearbody w.
  destruct (fdiv_S w (dec "180.0") G1 ltac:(lra) ltac:(rewrite V0; unfold HUGE; lra)) as [E2 G2]. rewrite V0 in E2.
  pose proof (rnd_near (B2R w / 180) ltac:(lra)) as N2. rewrite <- E2 in N2.
  destruct (la_trig _ _ LA _ G2 ltac:(lra)) as (_ & _ & FC & EC). apply Rabs_le_inv in EC.
  set (q := fdiv w (dec "180.0")) in *. pose proof (COS_bound (B2R q)). split; [exact FC|lra].
Qed.

Lemma warmth_range (a b : f64) : fin a -> fin b -> -247.1 <= B2R a <= 247.1 -> -172.8 <= B2R b <= 172.8 ->
  fin (warmth a b) /\ -9.66 <= B2R (warmth a b) <= 8.61.
Proof using LA.
  intros fa fb ba bb. unfold warmth. cbv zeta. pose proof (warmth_angle a b fa fb) as WA. cbv zeta in WA. destruct WA as [FC BC].
  set (c := cosf _) in *. clearbody c.
  assert (A2 : 0 <= B2R a * B2R a <= 61058.5) by (split; [apply Rle_0_sqr|pose proof (mul_bnd (B2R a) (B2R a) 247.1 247.1 ltac:(lra) ltac:(lra)); lra]).
  assert (B2 : 0 <= B2R b * B2R b <= 29860) by (split; [apply Rle_0_sqr|pose proof (mul_bnd (B2R b) (B2R b) 172.8 172.8 ltac:(lra) ltac:(lra)); lra]).
  destruct (fmul_S a a fa fa ltac:(unfold HUGE; lra)) as [E1 G1]. destruct (fmul_S b b fb fb ltac:(unfold HUGE; lra)) as [E2 G2].
  pose proof (rnd_uu (B2R a * B2R a) 100000 ltac:(lra) ltac:(lra)) as N1. pose proof (rnd_uu (B2R b * B2R b) 100000 ltac:(lra) ltac:(lra)) as N2.
  assert (P1 : 0 <= rnd (B2R a * B2R a)) by (apply rnd_ge_0; lra). assert (P2 : 0 <= rnd (B2R b * B2R b)) by (apply rnd_ge_0; lra).
  rewrite <- E1 in *. rewrite <- E2 in *. set (aa := fmul a a) in *. set (bb2 := fmul b b) in *. clearbody aa bb2. unfold uu in N1, N2.
  destruct (fadd_S aa bb2 G1 G2 ltac:(unfold HUGE; lra)) as [E3 G3].
  pose proof (rnd_uu (B2R aa + B2R bb2) 100000 ltac:(lra) ltac:(lra)) as N3. assert (P3 : 0 <= rnd (B2R aa + B2R bb2)) by (apply rnd_ge_0; lra).
  rewrite <- E3 in *. set (s := fadd aa bb2) in *. clearbody s. unfold uu in N3.
  destruct (fsqrt_R s G3 P3) as [FQ EQ].
  assert (SQ : 0 <= sqrt (B2R s) <= 302).
  { split; [apply sqrt_pos|]. apply Rle_trans with (sqrt (302 * 302)); [apply sqrt_le_1; lra|rewrite sqrt_square; lra]. }
  pose proof (rnd_far (sqrt (B2R s)) ltac:(lra)) as N4. assert (P4 : 0 <= rnd (sqrt (B2R s))) by (apply rnd_ge_0; lra). rewrite <- EQ in *.
  set (ch := fsqrt s) in *. clearbody ch. fconst (dec "1.07"). fconst (dec "0.02"). fconst (dec "-0.5").
  pose proof (pw_small (B2R ch) (B2R (dec "1.07")) ltac:(lra) ltac:(lra)) as PS. pose proof (pw_nonneg (B2R ch) (B2R (dec "1.07"))) as PN.
  destruct (pow_any LA ch (dec "1.07") FQ F P4 ltac:(lra) ltac:(lra)) as (FP & PP & QP).
  set (w := pw _ _) in *. clearbody w. set (po := powf ch (dec "1.07")) in *. clearbody po.
  assert (PU : 0 <= B2R po <= 453.001) by lra.
  destruct (fmul_S (dec "0.02") po F0 FP ltac:(pose proof (mul_bnd (B2R (dec "0.02")) (B2R po) 0.021 454 ltac:(lra) ltac:(lra)); unfold HUGE; lra)) as [E5 G5].
  assert (M5 : 0 <= B2R (dec "0.02") * B2R po <= 9.0601).
  { split; [apply Rmult_le_pos; lra|]. apply Rle_trans with (B2R (dec "0.02") * 453.001); [apply Rmult_le_compat_l; lra|rewrite V0; lra]. }
  pose proof (rnd_near (B2R (dec "0.02") * B2R po) ltac:(lra)) as N5. rewrite <- E5 in N5. set (m := fmul (dec "0.02") po) in *. clearbody m.
  pose proof (mul_bnd (B2R m) (B2R c) 9.0602 1.001 ltac:(lra) ltac:(lra)) as MB.
  destruct (fmul_S m c G5 FC ltac:(unfold HUGE; lra)) as [E6 G6]. pose proof (rnd_near (B2R m * B2R c) ltac:(lra)) as N6. rewrite <- E6 in N6.
  set (n := fmul m c) in *. clearbody n.
  destruct (fadd_S (dec "-0.5") n F1 G6 ltac:(rewrite V1; unfold HUGE; lra)) as [E7 G7]. rewrite V1 in E7.
  match type of E7 with _ = rnd ?r => pose proof (rnd_near r ltac:(lra)) as N7 end.
  split; [exact G7|]. rewrite E7. lra.
Qed.

Lemma temperature_range (h : hct) : fin (raw_temperature h) /\ -9.66 <= B2R (raw_temperature h) <= 8.61.
Proof using LA.
  pose proof (lab_small (h_argb h)) as L. cbv zeta in L. destruct L as (F1 & F2 & B1 & B2).
  exact (warmth_range _ _ F1 F2 B1 B2).
Qed.
End Acc.

(** ** Black *)
Lemma black_lab {lm : Libm} : let lab := lab_from_argb 0xFF000000 in
  B2SF (v1 lab) = SpecFloat.S754_zero false /\ B2SF (v2 lab) = SpecFloat.S754_zero false.
Proof. split; vm_compute; reflexivity. Qed.
Lemma zero_R (x : f64) s : B2SF x = SpecFloat.S754_zero s -> fin x /\ B2R x = 0.
Proof. destruct x; try discriminate. split; reflexivity. Qed.
Lemma warmth_zero {lm : Libm} (LA : libm_accurate (1 / 10 ^ 13) lm) (a b : f64) : fin a -> fin b -> B2R a = 0 -> B2R b = 0 -> B2R (warmth a b) = -0.5.
Proof.
  intros fa fb za zb. unfold warmth. cbv zeta. pose proof (warmth_angle LA a b fa fb) as WA. cbv zeta in WA. destruct WA as [FC BC].
  set (c := cosf _) in *. clearbody c.
  destruct (fmul_S a a fa fa ltac:(rewrite za; fsmall)) as [E1 G1]. destruct (fmul_S b b fb fb ltac:(rewrite zb; fsmall)) as [E2 G2].
  rewrite za, Rmult_0_l, rnd_0 in E1. rewrite zb, Rmult_0_l, rnd_0 in E2.
  destruct (fadd_S _ _ G1 G2 ltac:(rewrite E1, E2; fsmall)) as [E3 G3]. rewrite E1, E2, Rplus_0_l, rnd_0 in E3.
  set (s := fadd _ _) in *. clearbody s. destruct (fsqrt_R s G3 ltac:(lra)) as [FQ EQ]. rewrite E3, sqrt_0, rnd_0 in EQ.
  set (ch := fsqrt s) in *. clearbody ch. fconst (dec "1.07"). fconst (dec "0.02"). fconst (dec "-0.5").
  destruct (la_tiny _ _ LA ch (dec "1.07") FQ F ltac:(lra) ltac:(lra)) as [Z _]. destruct (Z EQ) as [FP EP].
  set (po := powf ch (dec "1.07")) in *. clearbody po.
  destruct (fmul_S (dec "0.02") po F0 FP ltac:(rewrite EP, Rmult_0_r; fsmall)) as [E5 G5]. rewrite EP, Rmult_0_r, rnd_0 in E5.
  set (m := fmul (dec "0.02") po) in *. clearbody m.
  destruct (fmul_S m c G5 FC ltac:(rewrite E5, Rmult_0_l; fsmall)) as [E6 G6]. rewrite E5, Rmult_0_l, rnd_0 in E6.
  set (n := fmul m c) in *. clearbody n.
  destruct (fadd_S (dec "-0.5") n F1 G6 ltac:(rewrite E6, V1; fsmall)) as [E7 G7]. rewrite E6, Rplus_0_r, rnd_B2R, V1 in E7. rewrite E7. lra.
Qed.
Lemma black_temperature {lm : Libm} (LA : libm_accurate (1 / 10 ^ 13) lm) (h : hct) : h_argb h = 0xFF000000%Z ->
  let lab := lab_from_argb (h_argb h) in let chroma := sqrt (B2R (v1 lab) ^ 2 + B2R (v2 lab) ^ 2) in
  chroma = 0 /\ -0.52 < B2R (raw_temperature h).
Proof.
  intros E. cbv zeta. pose proof black_lab as BL. cbv zeta in BL. rewrite <- E in BL. destruct BL as [B1 B2].
  apply zero_R in B1, B2. destruct B1 as [F1 Z1]. destruct B2 as [F2 Z2]. split.
  - rewrite Z1, Z2. replace (0 ^ 2 + 0 ^ 2) with 0 by ring. apply sqrt_0.
  - change (raw_temperature h) with (warmth (v1 (lab_from_argb (h_argb h))) (v2 (lab_from_argb (h_argb h)))).
    rewrite (warmth_zero LA _ _ F1 F2 Z1 Z2). lra.
Qed.
