(** * The bisection of the solver stays inside the table of critical planes.  Proof file. *)
From Coq Require Import ZArith Bool Reals Lra Lia Psatz String List.
From Flocq Require Import Core IEEE754.BinarySingleNaN Plus_error Relative.
From Verif Require Import F64 MathUtils ColorUtils ViewingConditions Cam16 HctSolver Spec FloatFacts FloatMono FloatCast PfArgb PfMath PfColor PfContrast PfTones PfLab PfGamma PfDelin PfScore PfPlanes.
Import ListNotations.
Open Scope string_scope.
Open Scope R_scope.

(** ** Differences of floats round with a purely relative error *)
Lemma sub_rel (x y : f64) : exists e, Rabs e <= 1.2 / 10 ^ 16 /\ rnd (B2R x - B2R y) = (B2R x - B2R y) * (1 + e).
Proof.
  destruct (@FLT_plus_error_N_ex radix2 (-1074) 53 (eq_refl : Prec_gt_0 53) (fun z => negb (Z.even z)) (B2R x) (- B2R y)) as (e & B & E).
  - exact (fmt_B2R x).
  - apply generic_format_opp. exact (fmt_B2R y).
  - exists e. split; [|exact E]. apply Rle_trans with (1 := B). unfold u_ro. simpl bpow. lra.
Qed.

Lemma distinct_gap (x y : f64) : fin x -> fin y -> B2R x < B2R y -> 0.01 <= B2R y -> 5.5 / 10 ^ 17 * B2R y <= B2R y - B2R x.
Proof.
  intros fx fy h hy. destruct (Rle_or_lt (B2R x) (B2R y / 2)) as [a|a]; [lra|].
  assert (S : succ radix2 fexp64 (B2R x) <= B2R y) by (apply succ_le_lt; [apply vexp64|apply fmt_B2R|apply fmt_B2R|exact h]).
  rewrite succ_eq_pos in S by lra.
  assert (U : Rabs (B2R x) * bpow radix2 (-53) < ulp radix2 fexp64 (B2R x)).
  { apply (ulp_FLT_gt radix2 (-1074) 53). }
  rewrite Rabs_pos_eq in U by lra. simpl bpow in U. lra.
Qed.

Definition vR (p : vec3) (j : Z) : R := B2R (vget p j).
Definition vfin (p : vec3) : Prop := forall j, fin (vget p j).

Lemma vget_lerp s t g j : vget (lerp_point s t g) j = fadd (vget s j) (fmul (fsub (vget g j) (vget s j)) t).
Proof. destruct s as [[s0 s1] s2]. destruct g as [[g0 g1] g2]. unfold lerp_point, vget, v0, v1, v2. cbn [fst snd]. destruct (j =? 0)%Z; [reflexivity|]. destruct (j =? 1)%Z; reflexivity. Qed.

Lemma set_err (s g : vec3) (P : f64) a j : fin P -> vfin s -> vfin g ->
  -1 <= vR s a <= 101 -> -1 <= vR g a <= 101 -> -1 <= vR s j <= 101 -> -1 <= vR g j <= 101 -> 0 <= B2R P <= 100 ->
  let N := B2R P - vR s a in let G := vR g a - vR s a in let Q := vR g j - vR s j in
  G <> 0 -> Rabs (N / G) <= 10 ^ 29 -> Rabs (Q * (N / G)) <= 300 ->
  fin (vget (set_coordinate s P g a) j) /\
  - (3 / 10 ^ 13) <= vR (set_coordinate s P g a) j - (vR s j + Q * (N / G)) <= 3 / 10 ^ 13.
Proof.
  intros fP fs fg bsa bga bsj bgj bP N G Q hG hT hQ. unfold vR. unfold set_coordinate, intercept. cbv zeta. rewrite vget_lerp.
  unfold vR in *. specialize (fs a) as fsa. specialize (fs j) as fsj. specialize (fg a) as fga. specialize (fg j) as fgj. clear fs fg.
  set (sa := vget s a) in *. set (sj := vget s j) in *. set (ga := vget g a) in *. set (gj := vget g j) in *. clearbody sa sj ga gj.
  destruct (fsub_S P sa fP fsa ltac:(fsmall)) as [RN FN]. destruct (fsub_S ga sa fga fsa ltac:(fsmall)) as [RG FG]. destruct (fsub_S gj sj fgj fsj ltac:(fsmall)) as [RQ FQ].
  destruct (sub_rel P sa) as (e1 & B1 & E1). destruct (sub_rel ga sa) as (e2 & B2 & E2). destruct (sub_rel gj sj) as (e4 & B4 & E4).
  fold N in RN, E1. fold G in RG, E2. fold Q in RQ, E4. rewrite E1 in RN. rewrite E2 in RG. rewrite E4 in RQ. clear E1 E2 E4.
  set (n := fsub P sa) in *. set (gg := fsub ga sa) in *. set (q := fsub gj sj) in *.
  assert (BQ : -102 <= Q <= 102) by (unfold Q; lra). clearbody N G Q n gg q.
  apply Rabs_le_inv in B1, B2, B4. set (T := N / G) in *.
  assert (TG : B2R n / B2R gg = T * ((1 + e1) / (1 + e2))) by (rewrite RN, RG; unfold T; field; split; [lra|exact hG]).
  assert (E12 : 1 - 2.5 / 10 ^ 16 <= (1 + e1) / (1 + e2) <= 1 + 2.5 / 10 ^ 16).
  { split; (apply Rmult_le_reg_r with (1 + e2); [lra|]; replace ((1 + e1) / (1 + e2) * (1 + e2)) with (1 + e1) by (field; lra); lra). }
  set (e := (1 + e1) / (1 + e2)) in *. clearbody e.
  assert (T0 := Rabs_pos T). assert (TE : Rabs (T * e) <= Rabs T * (1 + 2.5 / 10 ^ 16)).
  { rewrite Rabs_mult. apply Rmult_le_compat_l; [lra|]. rewrite Rabs_pos_eq; lra. }
  destruct (fdiv_S n gg FN) as [RT FT].
  { rewrite RG. apply Rmult_integral_contrapositive. split; [exact hG|lra]. }
  { rewrite TG. apply Rabs_le_inv. apply Rle_trans with (1 := TE). unfold HUGE. lra. }
  rewrite TG in RT. set (t := fdiv n gg) in *. clearbody t. pose proof (rnd_err (T * e)) as ET. rewrite <- RT in ET.
  fold eta in ET. pose proof eta_small as ES. pose proof eta_pos as E0.
  assert (DT : Rabs (B2R t - T) <= Rabs T * (3.7 / 10 ^ 16) + eta).
  { replace (B2R t - T) with ((B2R t - T * e) + T * (e - 1)) by ring. apply Rle_trans with (1 := Rabs_triang _ _).
    assert (Rabs (T * (e - 1)) <= Rabs T * (2.5 / 10 ^ 16)).
    { rewrite Rabs_mult. apply Rmult_le_compat_l; [lra|]. apply Rabs_le. lra. }
    lra. }
  assert (EQT : B2R q * B2R t - Q * T = Q * (B2R t - T) + Q * e4 * (T + (B2R t - T))) by (rewrite RQ; ring).
  assert (QA := Rabs_pos Q). assert (QB : Rabs Q <= 102) by (apply Rabs_le; lra).
  rewrite Rabs_mult in hQ.
  assert (DQ1 : Rabs (Q * (B2R t - T)) <= 300 * (3.7 / 10 ^ 16) + 102 * eta).
  { rewrite Rabs_mult. apply Rle_trans with (Rabs Q * (Rabs T * (3.7 / 10 ^ 16) + eta)); [apply Rmult_le_compat_l; lra|].
    replace (Rabs Q * (Rabs T * (3.7 / 10 ^ 16) + eta)) with ((Rabs Q * Rabs T) * (3.7 / 10 ^ 16) + Rabs Q * eta) by ring.
    assert (Rabs Q * eta <= 102 * eta) by (apply Rmult_le_compat_r; lra). lra. }
  assert (DQ2 : Rabs (Q * e4 * (T + (B2R t - T))) <= 301 * (1.2 / 10 ^ 16)).
  { replace (Q * e4 * (T + (B2R t - T))) with (e4 * (Q * T + Q * (B2R t - T))) by ring. rewrite Rabs_mult, Rmult_comm.
    assert (Rabs (Q * T + Q * (B2R t - T)) <= 301).
    { apply Rle_trans with (1 := Rabs_triang _ _). rewrite (Rabs_mult Q T). lra. }
    apply Rmult_le_compat; try apply Rabs_pos; [assumption|apply Rabs_le; lra]. }
  assert (DQ : Rabs (B2R q * B2R t - Q * T) <= 1.5 / 10 ^ 13).
  { rewrite EQT. apply Rle_trans with (1 := Rabs_triang _ _). lra. }
  assert (QT : Rabs (Q * T) <= 300) by (rewrite Rabs_mult; exact hQ). apply Rabs_le_inv in DQ, QT.
  destruct (fmul_S q t FQ FT ltac:(fsmall)) as [RM FM]. 
  pose proof (rnd_bounds_abs (B2R q * B2R t) 301 ltac:(apply Rabs_le; lra)) as EM. rewrite <- RM in EM. unfold u53 in EM.
  set (m := fmul q t) in *. clearbody m.
  destruct (fadd_S sj m fsj FM ltac:(fsmall)) as [RA FA]. split; [exact FA|].
  pose proof (rnd_bounds_abs (B2R sj + B2R m) 410 ltac:(apply Rabs_le; lra)) as EA. rewrite <- RA in EA. unfold u53 in EA. lra.
Qed.

(** ** The plane in the middle *)
Definition mid_check : bool :=
  forallb (fun k => let s := (Z.of_nat k - 2)%Z in (to_i64 (ffloor (fdiv (of_Z s) (dec "2.0"))) =? s / 2)%Z) (seq 0 513).
Lemma mid_checked : mid_check = true.
Proof. vm_compute. reflexivity. Qed.
Lemma mid_plane s : (-2 <= s <= 510)%Z -> to_i64 (ffloor (fdiv (of_Z s) (dec "2.0"))) = (s / 2)%Z.
Proof.
  intros h. pose proof mid_checked as M. unfold mid_check in M. rewrite forallb_forall in M.
  specialize (M (Z.to_nat (s + 2)) ltac:(apply in_seq; lia)). cbv zeta in M. replace (Z.of_nat (Z.to_nat (s + 2)) - 2)%Z with s in M by lia.
  now apply Z.eqb_eq in M.
Qed.

(** ** One step of the bisection *)
Definition cr (m : Z) : R := 100 * planeR m.

Lemma cr_gap m n : (0 <= m < n)%Z -> (n <= 254)%Z -> cr m + 0.0299 <= cr n.
Proof. intros h1 h2. unfold cr. pose proof (planeR_gap m n h1 h2). lra. Qed.
Lemma cr_range m : (0 <= m <= 254)%Z -> 0.01517 <= cr m <= 99.555 /\ 0 <= cr m * kap m <= 2 / 10 ^ 9 /\ cr m * (2 / 10 ^ 15) <= cr m * kap m.
Proof.
  intros h. pose proof (planeR_range m h) as R. unfold cr. split; [lra|]. unfold kap. destruct (m <=? 9)%Z; lra.
Qed.

Definition onl (V D : Z -> R) (sg rh : R) (p : vec3) : Prop :=
  vfin p /\ exists s, - sg <= s <= 1 + sg /\ forall j, - rh <= vR p j - (V j + s * D j) <= rh.

Record inv0 (o a : Z) (lft rgt : vec3) (l r : Z) : Prop := {
  i_l : (-1 <= l <= 255)%Z; i_r : (-1 <= r <= 255)%Z;
  i_o : (Z.abs (r - l) <= 1 \/ o * l < o * r)%Z;
  i_left : forall m, (0 <= m <= 254)%Z -> (o * l < o * m)%Z -> IZR o * (vR lft a - cr m) <= cr m * kap m;
  i_right : forall m, (0 <= m <= 254)%Z -> (o * m < o * r)%Z -> IZR o * (cr m - vR rgt a) <= cr m * kap m }.
Definition inv (o a : Z) (lft rgt : vec3) (l r : Z) : Prop := inv0 o a lft rgt l r /\
  forall m, (0 <= m <= 254)%Z -> (o * l < o * m < o * r)%Z ->
    0 < IZR o * (vR rgt a - vR lft a) /\ cr m * kap m <= 1 / 10 ^ 7 * (IZR o * (vR rgt a - vR lft a)).

Lemma inv_left o a lft rgt mid l r m : (o = 1 \/ o = -1)%Z -> inv0 o a lft rgt l r -> (0 <= m <= 254)%Z -> (o * l < o * m < o * r)%Z ->
  - (5 / 10 ^ 13) <= vR mid a - cr m <= 5 / 10 ^ 13 -> inv o a lft mid l m.
Proof.
  intros ho I hm hb hd. assert (HR : forall m', (0 <= m' <= 254)%Z -> (o * m' < o * m)%Z -> IZR o * (cr m' - vR mid a) <= -0.0298).
  { intros m' h1 h2. destruct ho as [-> | ->]; (assert (cr m + 0.0299 <= cr m') by (apply cr_gap; lia); lra) || (assert (cr m' + 0.0299 <= cr m) by (apply cr_gap; lia); lra). }
  split; [split|].
  - apply (i_l _ _ _ _ _ _ I).
  - lia.
  - right. lia.
  - apply (i_left _ _ _ _ _ _ I).
  - intros m' h1 h2. specialize (HR m' h1 h2). destruct (cr_range m' h1) as (_ & K & _). lra.
  - intros m' h1 h2. specialize (HR m' h1 ltac:(lia)). destruct (cr_range m' h1) as (_ & K & _). pose proof (i_left _ _ _ _ _ _ I m' h1 ltac:(lia)) as L.
    assert (IZR o * (vR mid a - vR lft a) = - (IZR o * (cr m' - vR mid a)) - IZR o * (vR lft a - cr m')) as -> by ring.
    split; lra.
Qed.
Lemma inv_right o a lft rgt mid l r m : (o = 1 \/ o = -1)%Z -> inv0 o a lft rgt l r -> (0 <= m <= 254)%Z -> (o * l < o * m < o * r)%Z ->
  - (5 / 10 ^ 13) <= vR mid a - cr m <= 5 / 10 ^ 13 -> inv o a mid rgt m r.
Proof.
  intros ho I hm hb hd. assert (HR : forall m', (0 <= m' <= 254)%Z -> (o * m < o * m')%Z -> IZR o * (vR mid a - cr m') <= -0.0298).
  { intros m' h1 h2. destruct ho as [-> | ->]; (assert (cr m + 0.0299 <= cr m') by (apply cr_gap; lia); lra) || (assert (cr m' + 0.0299 <= cr m) by (apply cr_gap; lia); lra). }
  split; [split|].
  - lia.
  - apply (i_r _ _ _ _ _ _ I).
  - right. lia.
  - intros m' h1 h2. specialize (HR m' h1 h2). destruct (cr_range m' h1) as (_ & K & _). lra.
  - apply (i_right _ _ _ _ _ _ I).
  - intros m' h1 h2. specialize (HR m' h1 ltac:(lia)). destruct (cr_range m' h1) as (_ & K & _). pose proof (i_right _ _ _ _ _ _ I m' h1 ltac:(lia)) as L.
    assert (IZR o * (vR rgt a - vR mid a) = - (IZR o * (vR mid a - cr m')) - IZR o * (cr m' - vR rgt a)) as -> by ring.
    split; lra.
Qed.

Lemma mix A B x y t d : A <= x <= B -> A <= y <= B -> 0 <= d -> - d <= t <= 1 + d ->
  A - (B - A) * d <= x + (y - x) * t <= B + (B - A) * d.
Proof.
  intros hx hy hd ht. destruct (Rle_or_lt t 0) as [a|a]; [|destruct (Rle_or_lt t 1) as [b|b]].
  - assert (- ((B - A) * d) <= (y - x) * t <= (B - A) * d) by (apply mul_bnd; lra). lra.
  - assert (P : 0 <= (B - A) * d) by (apply Rmult_le_pos; lra).
    assert (Q1 := Rmult_le_pos (1 - t) (x - A) ltac:(lra) ltac:(lra)). assert (Q2 := Rmult_le_pos t (y - A) ltac:(lra) ltac:(lra)).
    assert (Q3 := Rmult_le_pos (1 - t) (B - x) ltac:(lra) ltac:(lra)). assert (Q4 := Rmult_le_pos t (B - y) ltac:(lra) ltac:(lra)). lra.
  - assert (- ((B - A) * d) <= (y - x) * (t - 1) <= (B - A) * d) by (apply mul_bnd; lra). lra.
Qed.

Definition box (V D : Z -> R) (lo hi : R) : Prop := forall j, lo <= V j <= hi /\ lo <= V j + D j <= hi.

Lemma onl_range V D lo hi sg rh p : box V D lo hi -> 0 <= sg -> onl V D sg rh p ->
  forall j, lo - (hi - lo) * sg - rh <= vR p j <= hi + (hi - lo) * sg + rh.
Proof.
  intros B h0 (_ & s & hs & h) j. specialize (h j). destruct (B j) as [b1 b2].
  pose proof (mix lo hi (V j) (V j + D j) s sg b1 b2 h0 hs) as M. replace (V j + D j - V j) with (D j) in M by ring. lra.
Qed.

Lemma step_q q V D o a lft rgt l r m P sg rh : (o = 1 \/ o = -1)%Z -> box V D (-0.1) 100.1 -> inv0 o a lft rgt l r -> 0 <= q <= 1 / 10 ^ 4 ->
  0 < IZR o * (vR rgt a - vR lft a) /\ cr m * kap m <= q * (IZR o * (vR rgt a - vR lft a)) ->
  0 <= sg <= 1 / 10 ^ 3 -> 0 <= rh <= 1 / 10 ^ 11 -> onl V D sg rh lft -> onl V D sg rh rgt ->
  (0 <= m <= 254)%Z -> (o * l < o * m < o * r)%Z -> fin P -> cr m * (1 - 2 / 10 ^ 15) <= B2R P <= cr m * (1 + 2 / 10 ^ 15) ->
  let mid := set_coordinate lft P rgt a in
  onl V D (sg + 2.1 * q) (rh + 4 / 10 ^ 13) mid /\ - (5 / 10 ^ 13) <= vR mid a - cr m <= 5 / 10 ^ 13.
Proof.
  intros ho B I hq IS hsg hrh OL OR hm hb fP hP mid.
  assert (RL := onl_range V D _ _ sg rh _ B (proj1 hsg) OL). assert (RR := onl_range V D _ _ sg rh _ B (proj1 hsg) OR).
  destruct OL as (FL & s1 & S1 & L1). destruct OR as (FR & s2 & S2 & L2).
  destruct (cr_range m hm) as (C1 & C2 & C3).
  assert (IL := i_left _ _ _ _ _ _ I m hm ltac:(lia)). assert (IR := i_right _ _ _ _ _ _ I m hm ltac:(lia)).
  destruct IS as [G0 G1]. set (N := B2R P - vR lft a). set (G := vR rgt a - vR lft a) in *.
  assert (O2 : IZR o * IZR o = 1) by (destruct ho as [-> | ->]; lra).
  assert (O3 : IZR o <> 0) by (intro z; rewrite z in O2; lra).
  assert (HG : G <> 0) by (intro z; rewrite z in G0; lra).
  assert (Oab : -1 <= IZR o <= 1) by (destruct ho as [-> | ->]; lra).
  assert (PC := mul_bnd (IZR o) (B2R P - cr m) 1 (cr m * kap m) ltac:(lra) ltac:(lra)).
  assert (T : N / G = (IZR o * N) / (IZR o * G)) by (field; split; assumption).
  assert (T1 : - (2 * q) <= N / G <= 1 + 2 * q).
  { rewrite T. set (g := IZR o * G) in *. assert (N1 : - (2 * (cr m * kap m)) <= IZR o * N) by (unfold N; lra).
    assert (N2 : IZR o * N <= g + 2 * (cr m * kap m)) by (unfold N, g, G; lra). clearbody g.
    split; (apply Rmult_le_reg_r with g; [lra|]; replace (IZR o * N / g * g) with (IZR o * N) by (field; lra); lra). }
  assert (BQ : forall j, Rabs ((vR rgt j - vR lft j) * (N / G)) <= 300).
  { intros j. specialize (RL j). specialize (RR j). apply Rabs_le. pose proof (mul_bnd (vR rgt j - vR lft j) (N / G) 102 1.1 ltac:(lra) ltac:(lra)). lra. }
  assert (E : forall j, fin (vget mid j) /\ - (3 / 10 ^ 13) <= vR mid j - (vR lft j + (vR rgt j - vR lft j) * (N / G)) <= 3 / 10 ^ 13).
  { intros j. assert (a1 := RL a). assert (a2 := RR a). assert (j1 := RL j). assert (j2 := RR j).
    apply (set_err lft rgt P a j fP FL FR); try lra; [exact HG| |exact (BQ j)].
    fold N. fold G. apply Rle_trans with 2; [apply Rabs_le; lra|lra]. }
  split.
  - split; [intro j; apply (E j)|]. exists (s1 + (s2 - s1) * (N / G)). split.
    + pose proof (mix (- sg) (1 + sg) s1 s2 (N / G) (2 * q) S1 S2 ltac:(lra) T1). pose proof (Rmult_le_compat_r q sg (1 / 10 ^ 3) (proj1 hq) (proj2 hsg)). lra.
    + intros j. destruct (E j) as [_ Ej]. specialize (L1 j). specialize (L2 j).
      pose proof (mix (- rh) rh (vR lft j - (V j + s1 * D j)) (vR rgt j - (V j + s2 * D j)) (N / G) (2 * q) L1 L2 ltac:(lra) T1) as M.
      pose proof (Rmult_le_compat rh (1 / 10 ^ 11) q (1 / 10 ^ 4) ltac:(lra) ltac:(lra) ltac:(lra) ltac:(lra)). set (t := N / G) in *. clearbody t.
      replace (vR mid j - (V j + (s1 + (s2 - s1) * t) * D j)) with
        ((vR mid j - (vR lft j + (vR rgt j - vR lft j) * t)) +
         (vR lft j - (V j + s1 * D j) + (vR rgt j - (V j + s2 * D j) - (vR lft j - (V j + s1 * D j))) * t)) by ring.
      lra.
  - destruct (E a) as [_ Ea]. fold G in Ea. replace (G * (N / G)) with N in Ea by (field; exact HG). unfold N in Ea. lra.
Qed.

Lemma step V D o a lft rgt l r m P sg rh : (o = 1 \/ o = -1)%Z -> box V D (-0.1) 100.1 -> inv o a lft rgt l r ->
  0 <= sg <= 1 / 10 ^ 3 -> 0 <= rh <= 1 / 10 ^ 11 -> onl V D sg rh lft -> onl V D sg rh rgt ->
  (0 <= m <= 254)%Z -> (o * l < o * m < o * r)%Z -> fin P -> cr m * (1 - 2 / 10 ^ 15) <= B2R P <= cr m * (1 + 2 / 10 ^ 15) ->
  let mid := set_coordinate lft P rgt a in
  onl V D (sg + 3 / 10 ^ 7) (rh + 4 / 10 ^ 13) mid /\ - (5 / 10 ^ 13) <= vR mid a - cr m <= 5 / 10 ^ 13.
Proof.
  intros ho B [I IS] hsg hrh OL OR hm hb fP hP mid.
  destruct (step_q (1 / 10 ^ 7) V D o a lft rgt l r m P sg rh ho B I ltac:(lra) (IS m hm hb) hsg hrh OL OR hm hb fP hP) as [(F & s & S & L) A].
  split; [|exact A]. split; [exact F|]. exists s. split; [lra|exact L].
Qed.

Section Loops.
Context {lm : Libm}.

Lemma chk_ok z : (-1000000 <= z <= 1000000)%Z -> chk z = Ok z.
Proof using. intros h. apply PfScore.chk_ok. unfold i64_min, i64_max. lia. Qed.

Lemma between o l r : (o = 1 \/ o = -1)%Z -> (-1 <= l <= 255)%Z -> (-1 <= r <= 255)%Z -> (1 < Z.abs (r - l))%Z -> (o * l < o * r)%Z ->
  (0 <= (l + r) / 2 <= 254)%Z /\ (o * l < o * ((l + r) / 2) < o * r)%Z.
Proof using.
  intros ho hl hr ha hlt. set (m := ((l + r) / 2)%Z). assert (M1 : (2 * m <= l + r)%Z) by (unfold m; pose proof (Z.mul_div_le (l + r) 2); lia).
  assert (M2 : (l + r < 2 * m + 2)%Z) by (unfold m; pose proof (Z.mul_succ_div_gt (l + r) 2); lia). clearbody m. destruct ho as [-> | ->]; lia.
Qed.

(** The loop never leaves the table, and its two points stay on the line they started on. *)
Lemma loop_line V D o a target : (o = 1 \/ o = -1)%Z -> box V D (-0.1) 100.1 -> forall fuel lft lh rgt l r sg rh,
  inv o a lft rgt l r -> 0 <= sg -> sg + INR fuel * (3 / 10 ^ 7) <= 1 / 10 ^ 3 -> 0 <= rh -> rh + INR fuel * (4 / 10 ^ 13) <= 1 / 10 ^ 11 ->
  onl V D sg rh lft -> onl V D sg rh rgt ->
  exists lft' lh' rgt', limit_loop fuel target a lft lh rgt l r = Ok (lft', lh', rgt') /\
    onl V D (sg + INR fuel * (3 / 10 ^ 7)) (rh + INR fuel * (4 / 10 ^ 13)) lft' /\
    onl V D (sg + INR fuel * (3 / 10 ^ 7)) (rh + INR fuel * (4 / 10 ^ 13)) rgt'.
Proof using.
  intros ho B. 
  assert (W : forall sg rh sg' rh' p, sg <= sg' -> rh <= rh' -> onl V D sg rh p -> onl V D sg' rh' p).
  { intros sg rh sg' rh' p h1 h2 (F & s & S & L). split; [exact F|]. exists s. split; [lra|]. intro j. specialize (L j). lra. }
  induction fuel as [|fuel IH]; intros lft lh rgt l r sg rh I s0 hs r0 hr OL OR.
  - exists lft, lh, rgt. split; [reflexivity|]. split; (apply (W sg rh); [simpl INR; lra|simpl INR; lra|assumption]).
  - assert (FU := pos_INR fuel). rewrite S_INR in *. cbn [limit_loop].
    pose proof (i_l _ _ _ _ _ _ (proj1 I)) as hl. pose proof (i_r _ _ _ _ _ _ (proj1 I)) as hr'.
    rewrite (chk_ok (r - l)) by lia. cbn [bind]. rewrite (chk_ok (Z.abs (r - l))) by lia. cbn [bind].
    destruct (Z.leb_spec (Z.abs (r - l)) 1) as [c|c].
    + exists lft, lh, rgt. split; [reflexivity|]. split; (apply (W sg rh); [lra|lra|assumption]).
    + rewrite (chk_ok (l + r)) by lia. cbn [bind]. rewrite mid_plane by lia.
      destruct (i_o _ _ _ _ _ _ (proj1 I)) as [x|x]; [lia|]. destruct (between o l r ho hl hr' c x) as [hm hb]. set (m := ((l + r) / 2)%Z) in *. clearbody m.
      destruct (plane_index m hm) as (P & EP & FP & BP). rewrite EP. cbn [bind]. cbv zeta.
      destruct (step V D o a lft rgt l r m P sg rh ho B I ltac:(lra) ltac:(lra) OL OR hm hb FP) as [OM AM]; [unfold cr; lra|].
      set (mid := set_coordinate lft P rgt a) in *. clearbody mid.
      destruct (are_in_cyclic_order lh target (hue_of mid)).
      * destruct (IH lft lh mid l m (sg + 3 / 10 ^ 7) (rh + 4 / 10 ^ 13)) as (x1 & x2 & x3 & E & O1 & O2);
          [exact (inv_left o a lft rgt mid l r m ho (proj1 I) hm hb AM)|lra|lra|lra|lra|apply (W sg rh); [lra|lra|assumption]|exact OM|].
        exists x1, x2, x3. split; [exact E|]. split; (eapply W; [| |eassumption]; lra).
      * destruct (IH mid (hue_of mid) rgt m r (sg + 3 / 10 ^ 7) (rh + 4 / 10 ^ 13)) as (x1 & x2 & x3 & E & O1 & O2);
          [exact (inv_right o a lft rgt mid l r m ho (proj1 I) hm hb AM)|lra|lra|lra|lra|exact OM|apply (W sg rh); [lra|lra|assumption]|].
        exists x1, x2, x3. split; [exact E|]. split; (eapply W; [| |eassumption]; lra).
Qed.

(** On the last axis only the indices matter. *)
Lemma loop_last a target : forall fuel lft lh rgt l r, (-1 <= l <= 255)%Z -> (-1 <= r <= 255)%Z ->
  exists st, limit_loop fuel target a lft lh rgt l r = Ok st.
Proof using.
  induction fuel as [|fuel IH]; intros lft lh rgt l r hl hr; [eexists; reflexivity|]. cbn [limit_loop].
  rewrite (chk_ok (r - l)) by lia. cbn [bind]. rewrite (chk_ok (Z.abs (r - l))) by lia. cbn [bind].
  destruct (Z.leb_spec (Z.abs (r - l)) 1) as [c|c]; [eexists; reflexivity|].
  rewrite (chk_ok (l + r)) by lia. cbn [bind]. rewrite mid_plane by lia.
  assert (hm : (0 <= (l + r) / 2 <= 254)%Z).
  { destruct (Z_lt_ge_dec l r); [apply (between 1 l r)|apply (between (-1) l r)]; lia. }
  set (m := ((l + r) / 2)%Z) in *. clearbody m. destruct (plane_index m hm) as (P & EP & _). rewrite EP. cbn [bind]. cbv zeta.
  destruct (are_in_cyclic_order _ _ _); apply IH; lia.
Qed.
End Loops.
