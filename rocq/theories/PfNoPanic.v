(** * The solver never panics, given an accurate pow.  Proof file. *)
From Coq Require Import ZArith Bool Reals Lra Lia Psatz String List.
From Flocq Require Import Core IEEE754.BinarySingleNaN.
From Verif Require Import F64 MathUtils ColorUtils ViewingConditions Cam16 HctSolver Hct Spec FloatFacts FloatMono FloatCast PfArgb PfMath PfColor PfContrast PfTones PfLab PfGamma PfDelin PfScore PfPlanes PfLimit PfHct.
Import ListNotations.
Open Scope string_scope.
Open Scope R_scope.

Definition geo (V D : Z -> R) (a : Z) : Prop := 10 <= Rabs (D a) \/ V a = 0 \/ V a + D a = 0 \/ V a = 100 \/ V a + D a = 100.

(** How far the hull of two points on the line must extend when it reaches a critical plane. *)
Lemma geo_wide V D a (m : Z) x sg : box V D 0 100 -> geo V D a -> (0 <= m <= 254)%Z -> 0 <= sg <= 3 / 10 ^ 4 -> 0 <= x <= 1 / 10 ^ 8 -> x <= cr m / 1000 ->
  Rmin (V a) (V a + D a) - sg * Rabs (D a) - x <= cr m <= Rmax (V a) (V a + D a) + sg * Rabs (D a) + x ->
  10 <= Rabs (D a) \/ cr m <= 1.1 * Rabs (D a) \/ 0.44 <= Rabs (D a).
Proof.
  intros B G hm hs hx hx2 hc. destruct (cr_range m hm) as (C & _ & _). destruct (B a) as [b1 b2]. unfold geo in G.
  set (v := V a) in *. set (d := D a) in *. clearbody v d.
  assert (RD := Rabs_pos d). assert (S := Rmult_le_compat_r (Rabs d) sg (3 / 10 ^ 4) RD (proj2 hs)).
  unfold Rmin, Rmax in hc. destruct (Rle_dec v (v + d)) as [q|q].
  - rewrite (Rabs_pos_eq d) in * by lra. destruct G as [G|[G|[G|[G|G]]]]; lra.
  - assert (E : Rabs d = - d) by (rewrite <- Rabs_Ropp; apply Rabs_pos_eq; lra). rewrite E in *. destruct G as [G|[G|[G|[G|G]]]]; lra.
Qed.

Section NoPanic.
Context {lm : Libm} (eps : R) (heps : 0 <= eps <= 1 / 10 ^ 12) (PA : pow_accurate eps lm).

(** ** The indices an axis starts from *)
Lemma start_up (a : Z) lft rgt : coord_ok (vget lft a) -> coord_ok (vget rgt a) -> vR lft a < vR rgt a ->
  inv0 1 a lft rgt (critical_plane_below (true_delinearized (vget lft a))) (critical_plane_above (true_delinearized (vget rgt a))).
Proof using heps PA.
  intros kl kr h. destruct (below_spec eps heps PA _ kl) as [E1 R1]. destruct (above_spec eps heps PA _ kr) as [E2 R2].
  rewrite <- E1 in R1. rewrite <- E2 in R2. 
  assert (HL : forall m, (0 <= m <= 254)%Z -> (critical_plane_below (true_delinearized (vget lft a)) < m)%Z -> vR lft a <= cr m + cr m * kap m).
  { intros m hm hl. pose proof (below_lt eps heps PA _ m kl hm hl). unfold cr, vR. lra. }
  assert (HL2 : forall m, (0 <= m <= 254)%Z -> (m <= critical_plane_below (true_delinearized (vget lft a)))%Z -> cr m - cr m * kap m <= vR lft a).
  { intros m hm hl. pose proof (below_ge eps heps PA _ m kl hm hl). unfold cr, vR. lra. }
  assert (HR : forall m, (0 <= m <= 254)%Z -> (m < critical_plane_above (true_delinearized (vget rgt a)))%Z -> cr m - cr m * kap m <= vR rgt a).
  { intros m hm hl. pose proof (above_gt eps heps PA _ m kr hm hl). unfold cr, vR. lra. }
  assert (HR2 : forall m, (0 <= m <= 254)%Z -> (critical_plane_above (true_delinearized (vget rgt a)) <= m)%Z -> vR rgt a <= cr m + cr m * kap m).
  { intros m hm hl. pose proof (above_le eps heps PA _ m kr hm hl). unfold cr, vR. lra. }
  set (l := critical_plane_below _) in *. set (r := critical_plane_above _) in *. clearbody l r. clear E1 E2 kl kr.
  split; [lia|lia| | |].
  - destruct (Z_lt_ge_dec l r) as [c|c]; [right; lia|]. destruct (Z_le_gt_dec (l - r) 1) as [d|d]; [left; lia|exfalso].
    assert (A := HL2 l ltac:(lia) ltac:(lia)). assert (Bq := HR2 (l - 1)%Z ltac:(lia) ltac:(lia)).
    assert (G : cr (l - 1) + 0.0299 <= cr l) by (apply cr_gap; lia).
    destruct (cr_range l ltac:(lia)) as (_ & K1 & _). destruct (cr_range (l - 1) ltac:(lia)) as (_ & K2 & _). lra.
  - intros m hm hl. pose proof (HL m hm ltac:(lia)). lra.
  - intros m hm hl. pose proof (HR m hm ltac:(lia)). lra.
Qed.

Lemma start_down (a : Z) lft rgt : coord_ok (vget lft a) -> coord_ok (vget rgt a) -> vR rgt a < vR lft a ->
  inv0 (-1) a lft rgt (critical_plane_above (true_delinearized (vget lft a))) (critical_plane_below (true_delinearized (vget rgt a))).
Proof using heps PA.
  intros kl kr h. destruct (below_spec eps heps PA _ kr) as [E1 R1]. destruct (above_spec eps heps PA _ kl) as [E2 R2].
  rewrite <- E1 in R1. rewrite <- E2 in R2. 
  assert (HR : forall m, (0 <= m <= 254)%Z -> (critical_plane_below (true_delinearized (vget rgt a)) < m)%Z -> vR rgt a <= cr m + cr m * kap m).
  { intros m hm hl. pose proof (below_lt eps heps PA _ m kr hm hl). unfold cr, vR. lra. }
  assert (HR2 : forall m, (0 <= m <= 254)%Z -> (m <= critical_plane_below (true_delinearized (vget rgt a)))%Z -> cr m - cr m * kap m <= vR rgt a).
  { intros m hm hl. pose proof (below_ge eps heps PA _ m kr hm hl). unfold cr, vR. lra. }
  assert (HL : forall m, (0 <= m <= 254)%Z -> (m < critical_plane_above (true_delinearized (vget lft a)))%Z -> cr m - cr m * kap m <= vR lft a).
  { intros m hm hl. pose proof (above_gt eps heps PA _ m kl hm hl). unfold cr, vR. lra. }
  assert (HL2 : forall m, (0 <= m <= 254)%Z -> (critical_plane_above (true_delinearized (vget lft a)) <= m)%Z -> vR lft a <= cr m + cr m * kap m).
  { intros m hm hl. pose proof (above_le eps heps PA _ m kl hm hl). unfold cr, vR. lra. }
  set (r := critical_plane_below _) in *. set (l := critical_plane_above _) in *. clearbody l r. clear E1 E2 kl kr.
  split; [lia|lia| | |].
  - destruct (Z_lt_ge_dec r l) as [c|c]; [right; lia|]. destruct (Z_le_gt_dec (r - l) 1) as [d|d]; [left; lia|exfalso].
    assert (A := HR2 r ltac:(lia) ltac:(lia)). assert (Bq := HL2 (r - 1)%Z ltac:(lia) ltac:(lia)).
    assert (G : cr (r - 1) + 0.0299 <= cr r) by (apply cr_gap; lia).
    destruct (cr_range r ltac:(lia)) as (_ & K1 & _). destruct (cr_range (r - 1) ltac:(lia)) as (_ & K2 & _). lra.
  - intros m hm hl. pose proof (HL m hm ltac:(lia)). lra.
  - intros m hm hl. pose proof (HR m hm ltac:(lia)). lra.
Qed.

Lemma limit_axis_cases (a : Z) target lft lh rgt : coord_ok (vget lft a) -> coord_ok (vget rgt a) ->
  (vR lft a = vR rgt a /\ limit_axis target a (lft, lh, rgt) = Ok (lft, lh, rgt)) \/
  exists o l r, (o = 1 \/ o = -1)%Z /\ 0 < IZR o * (vR rgt a - vR lft a) /\ inv0 o a lft rgt l r /\
    limit_axis target a (lft, lh, rgt) = limit_loop 8 target a lft lh rgt l r.
Proof using heps PA.
  intros kl kr. pose proof (proj1 kl) as fl. pose proof (proj1 kr) as fr. unfold limit_axis.
  destruct (fne (vget lft a) (vget rgt a)) eqn:N.
  - right. destruct (flt (vget lft a) (vget rgt a)) eqn:L.
    + apply (flt_fin _ _ fl fr) in L. exists 1%Z, (critical_plane_below (true_delinearized (vget lft a))), (critical_plane_above (true_delinearized (vget rgt a))).
      split; [now left|]. split; [unfold vR; lra|]. split; [apply start_up; assumption|reflexivity].
    + apply (flt_fin_f _ _ fl fr) in L.
      assert (L2 : vR rgt a < vR lft a).
      { destruct (Req_dec (B2R (vget lft a)) (B2R (vget rgt a))) as [e|e]; [|unfold vR; lra]. exfalso.
        apply (feq_fin _ _ fl fr) in e. unfold fne in N. change Beqb with feq in N. rewrite e in N. discriminate N. }
      exists (-1)%Z, (critical_plane_above (true_delinearized (vget lft a))), (critical_plane_below (true_delinearized (vget rgt a))).
      split; [now right|]. split; [lra|]. split; [apply start_down; assumption|reflexivity].
  - left. split; [|reflexivity]. unfold fne in N. change Beqb with feq in N. apply negb_false_iff in N. apply (feq_fin _ _ fl fr) in N. exact N.
Qed.

Lemma vR_line lft rgt : vfin lft -> vfin rgt -> let V := vR lft in let D := fun j => vR rgt j - vR lft j in onl V D 0 0 lft /\ onl V D 0 0 rgt.
Proof using.
  intros fl fr V D. split; (split; [assumption|]).
  - exists 0. split; [lra|]. intro j. unfold V, D. lra.
  - exists 1. split; [lra|]. intro j. unfold V, D. lra.
Qed.

(** ** First axis *)
Lemma axis_first target lft lh rgt : vfin lft -> vfin rgt -> let V := vR lft in let D := fun j => vR rgt j - vR lft j in
  box V D 0 100 -> geo V D 0 ->
  exists lft' lh' rgt', limit_axis target 0 (lft, lh, rgt) = Ok (lft', lh', rgt') /\ onl V D (3 / 10 ^ 6) (4 / 10 ^ 12) lft' /\ onl V D (3 / 10 ^ 6) (4 / 10 ^ 12) rgt'.
Proof using heps PA.
  intros fl fr V D B G. destruct (vR_line lft rgt fl fr) as [OL OR]. fold V in OL, OR. fold D in OL, OR.
  assert (KL : coord_ok (vget lft 0)). { split; [apply fl|]. destruct (B 0%Z) as [b _]. unfold V, vR in b. lra. }
  assert (KR : coord_ok (vget rgt 0)). { split; [apply fr|]. destruct (B 0%Z) as [_ b]. unfold V, D, vR in b. lra. }
  assert (W : forall sg rh sg' rh' p, sg <= sg' -> rh <= rh' -> onl V D sg rh p -> onl V D sg' rh' p).
  { intros sg rh sg' rh' p h1 h2 (F & s & S & L). split; [exact F|]. exists s. split; [lra|]. intro j. specialize (L j). lra. }
  destruct (limit_axis_cases 0 target lft lh rgt KL KR) as [[_ E]|(o & l & r & ho & hp & I & E)]; rewrite E.
  - exists lft, lh, rgt. split; [reflexivity|]. split; (apply (W 0 0); [lra|lra|assumption]).
  - assert (B' : box V D (-0.1) 100.1) by (intro j; specialize (B j); lra).
    destruct (loop_line V D o 0 target ho B' 8 lft lh rgt l r 0 0) as (x1 & x2 & x3 & E' & O1 & O2); try assumption; try (simpl INR; lra).
    + split; [exact I|]. intros m hm hb. split; [exact hp|].
      destruct (cr_range m hm) as (C1 & C2 & C3). assert (IL := i_left _ _ _ _ _ _ I m hm ltac:(lia)). assert (IR := i_right _ _ _ _ _ _ I m hm ltac:(lia)).
      assert (KC : cr m * kap m <= cr m * (2 / 10 ^ 11)) by (apply Rmult_le_compat_l; [lra|unfold kap; destruct (m <=? 9)%Z; lra]).
      assert (AD : Rabs (D 0%Z) = IZR o * (vR rgt 0 - vR lft 0)).
      { unfold D. destruct ho as [-> | ->]; [rewrite Rabs_pos_eq; lra|]. rewrite <- Rabs_Ropp, Rabs_pos_eq; lra. }
      destruct (geo_wide V D 0 m (cr m * kap m) 0 B G hm ltac:(lra) ltac:(lra) ltac:(lra)) as [w|[w|w]].
      { unfold V, D. destruct ho as [-> | ->].
        - rewrite Rmin_left, Rmax_right by lra. lra.
        - rewrite Rmin_right, Rmax_left by lra. lra. }
      all: rewrite <- AD; lra.
    + exists x1, x2, x3. split; [exact E'|]. split; (eapply W; [| |eassumption]; simpl INR; lra).
Qed.

(** ** Second axis: its first step may divide by a very small gap *)
Lemma clamped t d : 0 <= d -> - d <= t <= 1 + d -> exists u, 0 <= u <= 1 /\ - d <= t - u <= d.
Proof using.
  intros h0 h. destruct (Rle_or_lt t 0) as [a|a]; [exists 0; lra|]. destruct (Rle_or_lt t 1) as [b|b]; [exists t|exists 1]; lra.
Qed.
Lemma wide_step o a lft rgt l r m P Bd lo hi : (o = 1 \/ o = -1)%Z -> inv0 o a lft rgt l r -> vfin lft -> vfin rgt ->
  (forall j, lo <= vR lft j <= hi /\ lo <= vR rgt j <= hi) -> -0.1 <= lo -> hi <= 100.1 ->
  (0 <= m <= 254)%Z -> (o * l < o * m < o * r)%Z -> fin P -> cr m * (1 - 2 / 10 ^ 15) <= B2R P <= cr m * (1 + 2 / 10 ^ 15) ->
  let g := IZR o * (vR rgt a - vR lft a) in 1 / 10 ^ 20 <= g ->
  0 <= Bd <= 0.01 -> (forall j, 2 * (cr m * kap m) * Rabs (vR rgt j - vR lft j) <= Bd * g) ->
  let mid := set_coordinate lft P rgt a in
  vfin mid /\ (forall j, lo - Bd - 1 / 10 ^ 12 <= vR mid j <= hi + Bd + 1 / 10 ^ 12) /\ - (5 / 10 ^ 13) <= vR mid a - cr m <= 5 / 10 ^ 13 /\
  exists u, 0 <= u <= 1 /\ forall j, - (Bd + 1 / 10 ^ 12) <= vR mid j - (vR lft j + (vR rgt j - vR lft j) * u) <= Bd + 1 / 10 ^ 12.
Proof using.
  intros ho I FL FR R hlo hhi hm hb fP hP g hg hBd HB mid.
  destruct (cr_range m hm) as (C1 & C2 & C3).
  assert (IL := i_left _ _ _ _ _ _ I m hm ltac:(lia)). assert (IR := i_right _ _ _ _ _ _ I m hm ltac:(lia)).
  set (N := B2R P - vR lft a). set (G := vR rgt a - vR lft a) in *.
  assert (O2 : IZR o * IZR o = 1) by (destruct ho as [-> | ->]; lra).
  assert (O3 : IZR o <> 0) by (intro z; rewrite z in O2; lra).
  assert (HG : G <> 0) by (intro z; unfold g in hg; rewrite z in hg; lra).
  assert (Oab : -1 <= IZR o <= 1) by (destruct ho as [-> | ->]; lra).
  assert (PC := mul_bnd (IZR o) (B2R P - cr m) 1 (cr m * kap m) ltac:(lra) ltac:(lra)).
  assert (T : N / G = (IZR o * N) / g) by (unfold g; field; split; assumption).
  set (d := 2 * (cr m * kap m) / g).
  assert (dg : d * g = 2 * (cr m * kap m)) by (unfold d; field; lra).
  assert (d0 : 0 <= d) by (unfold d; apply Rmult_le_pos; [lra|apply Rlt_le, Rinv_0_lt_compat; lra]).
  assert (T1 : - d <= N / G <= 1 + d).
  { rewrite T. assert (N1 : - (2 * (cr m * kap m)) <= IZR o * N) by (unfold N; lra).
    assert (N2 : IZR o * N <= g + 2 * (cr m * kap m)) by (unfold N, g, G; lra). rewrite <- dg in N1, N2. clearbody g d.
    split; (apply Rmult_le_reg_r with g; [lra|]; replace (IZR o * N / g * g) with (IZR o * N) by (field; lra); lra). }
  assert (D1 : d <= 10 ^ 12).
  { apply Rmult_le_reg_r with g; [lra|]. rewrite dg. apply Rle_trans with (10 ^ 12 * (1 / 10 ^ 20)); [|apply Rmult_le_compat_l; lra]. lra. }
  assert (DQ : forall j, d * Rabs (vR rgt j - vR lft j) <= Bd).
  { intros j. apply Rmult_le_reg_r with g; [lra|]. specialize (HB j). rewrite <- dg in HB. lra. }
  assert (MX : forall j, lo - Bd <= vR lft j + (vR rgt j - vR lft j) * (N / G) <= hi + Bd).
  { intros j. destruct (R j) as [r1 r2]. specialize (DQ j). set (x := vR lft j) in *. set (y := vR rgt j) in *.
    destruct (Rle_or_lt x y) as [c|c].
    - rewrite Rabs_pos_eq in DQ by lra. pose proof (mix x y x y (N / G) d ltac:(lra) ltac:(lra) d0 T1). lra.
    - rewrite <- Rabs_Ropp, Rabs_pos_eq in DQ by lra. pose proof (mix y x x y (N / G) d ltac:(lra) ltac:(lra) d0 T1). lra. }
  assert (E : forall j, fin (vget mid j) /\ - (3 / 10 ^ 13) <= vR mid j - (vR lft j + (vR rgt j - vR lft j) * (N / G)) <= 3 / 10 ^ 13).
  { intros j. assert (a1 := R a). assert (j1 := R j).
    apply (set_err lft rgt P a j fP FL FR); try lra; [exact HG| |].
    - fold N. fold G. apply Rle_trans with (10 ^ 13); [apply Rabs_le; lra|lra].
    - fold N. fold G. specialize (MX j). apply Rabs_le. lra. }
  split; [intro j; apply (E j)|]. split.
  - intro j. destruct (E j) as [_ Ej]. specialize (MX j). lra.
  - split; [destruct (E a) as [_ Ea]; fold G in Ea; replace (G * (N / G)) with N in Ea by (field; exact HG); unfold N in Ea; lra|].
    set (t := N / G) in *. destruct (clamped t d d0 T1) as (u & hu & hd). exists u. split; [exact hu|]. intro j. destruct (E j) as [_ Ej]. specialize (DQ j).
    assert (X : - Bd <= (vR rgt j - vR lft j) * (t - u) <= Bd).
    { apply Rabs_le_inv. rewrite Rabs_mult, Rmult_comm. apply Rle_trans with (d * Rabs (vR rgt j - vR lft j)); [|exact DQ].
      apply Rmult_le_compat_r; [apply Rabs_pos|]. apply Rabs_le. lra. }
    lra.
Qed.

Lemma onl_hull V D a sg rh p : 0 <= sg -> onl V D sg rh p ->
  Rmin (V a) (V a + D a) - sg * Rabs (D a) - rh <= vR p a <= Rmax (V a) (V a + D a) + sg * Rabs (D a) + rh.
Proof using.
  intros h0 (_ & s & hs & h). specialize (h a). set (v := V a) in *. set (d := D a) in *. clearbody v d.
  unfold Rmin, Rmax. destruct (Rle_dec v (v + d)) as [q|q].
  - rewrite (Rabs_pos_eq d) by lra. pose proof (mix v (v + d) v (v + d) s sg ltac:(lra) ltac:(lra) h0 hs). lra.
  - assert (E : Rabs d = - d) by (rewrite <- Rabs_Ropp; apply Rabs_pos_eq; lra). rewrite E.
    pose proof (mix (v + d) v v (v + d) s sg ltac:(lra) ltac:(lra) h0 hs). lra.
Qed.

Lemma wide_bound V D a o lft rgt l r m : box V D 0 100 -> geo V D a -> onl V D (2 / 10 ^ 4) (8 / 10 ^ 12) lft -> onl V D (2 / 10 ^ 4) (8 / 10 ^ 12) rgt ->
  (o = 1 \/ o = -1)%Z -> let g := IZR o * (vR rgt a - vR lft a) in 0 < g -> inv0 o a lft rgt l r -> (0 <= m <= 254)%Z -> (o * l < o * m < o * r)%Z ->
  1 / 10 ^ 20 <= g /\ forall j, 2 * (cr m * kap m) * Rabs (vR rgt j - vR lft j) <= 0.0095 * g.
Proof using.
  intros B G OL OR ho g hg I hm hb.
  assert (SG0 : 0 <= 2 / 10 ^ 4) by lra. assert (HL := onl_hull V D a _ _ lft SG0 OL). assert (HR := onl_hull V D a _ _ rgt SG0 OR).
  destruct OL as (FL & s1 & S1 & L1). destruct OR as (FR & s2 & S2 & L2).
  destruct (cr_range m hm) as (C1 & C2 & C3).
  assert (IL := i_left _ _ _ _ _ _ I m hm ltac:(lia)). assert (IR := i_right _ _ _ _ _ _ I m hm ltac:(lia)).
  assert (KC : cr m * kap m <= cr m * (2 / 10 ^ 11)) by (apply Rmult_le_compat_l; [lra|unfold kap; destruct (m <=? 9)%Z; lra]).
  assert (GG : 5 / 10 ^ 17 * cr m <= g).
  { unfold g. destruct ho as [-> | ->].
    - pose proof (distinct_gap (vget lft a) (vget rgt a) (FL a) (FR a)) as X. unfold g, vR in *. specialize (X ltac:(lra) ltac:(lra)). lra.
    - pose proof (distinct_gap (vget rgt a) (vget lft a) (FR a) (FL a)) as X. unfold g, vR in *. specialize (X ltac:(lra) ltac:(lra)). lra. }
  split; [lra|].
  assert (W : 10 <= Rabs (D a) \/ cr m <= 1.1 * Rabs (D a) \/ 0.44 <= Rabs (D a)).
  { apply (geo_wide V D a m (cr m * kap m + 8 / 10 ^ 12) (2 / 10 ^ 4) B G hm); [lra|lra|lra|]. destruct ho as [-> | ->]; lra. }
  assert (DB : forall j, Rabs (D j) <= 100) by (intro j; destruct (B j); apply Rabs_le; lra).
  intros j. assert (DJ := DB j). assert (D1 := DB a). assert (DP1 := Rabs_pos (D a)). assert (DPJ := Rabs_pos (D j)).
  set (d := Rabs (D a)) in *. set (u := Rabs (s2 - s1)). assert (u0 : 0 <= u) by apply Rabs_pos.
  assert (U1 : u * d <= g + 16 / 10 ^ 12).
  { unfold u, d. rewrite <- Rabs_mult. specialize (L1 a). specialize (L2 a). pose proof hg as hg'. unfold g in hg' |- *. apply Rabs_le. destruct ho as [-> | ->]; lra. }
  assert (QJ : Rabs (vR rgt j - vR lft j) <= 100 * u + 16 / 10 ^ 12).
  { specialize (L1 j). specialize (L2 j).
    replace (vR rgt j - vR lft j) with ((s2 - s1) * D j + ((vR rgt j - (V j + s2 * D j)) - (vR lft j - (V j + s1 * D j)))) by ring.
    apply Rle_trans with (1 := Rabs_triang _ _). rewrite Rabs_mult. fold u.
    assert (u * Rabs (D j) <= u * 100) by (apply Rmult_le_compat_l; lra).
    assert (Rabs (vR rgt j - (V j + s2 * D j) - (vR lft j - (V j + s1 * D j))) <= 16 / 10 ^ 12) by (apply Rabs_le; lra). lra. }
  set (q := Rabs (vR rgt j - vR lft j)) in *. assert (q0 : 0 <= q) by apply Rabs_pos.
  assert (QD : q * d <= 100 * g + 3.2 / 10 ^ 9).
  { assert (q * d <= (100 * u + 16 / 10 ^ 12) * d) by (apply Rmult_le_compat_r; lra). lra. }
  set (C := cr m) in *. set (k := kap m) in *.
  assert (k0 : 0 <= k) by (unfold k, kap; destruct (m <=? 9)%Z; lra).
  assert (QD2 : C * (q * d) <= g * (100 * C + 64000000)).
  { assert (C * (q * d) <= C * (100 * g + 3.2 / 10 ^ 9)) by (apply Rmult_le_compat_l; lra). lra. }
  assert (KD : 2 * k * (100 * C + 64000000) <= 0.0095 * d).
  { assert (CK : k = 1 / 10 ^ 13 \/ (k = 2 / 10 ^ 11 /\ 0.31 <= C)).
    { unfold k, kap, C, cr. destruct (Z.leb_spec m 9) as [z|z]; [now left|right]. split; [reflexivity|].
      pose proof (planeR_mono 10 m ltac:(lia)). pose proof plane10. lra. }
    destruct CK as [-> | [-> c]]; lra. }
  assert (d0 : 0 < d) by (destruct W as [w|[w|w]]; lra).
  apply Rmult_le_reg_r with d; [exact d0|].
  replace (2 * (C * k) * q * d) with (2 * k * (C * (q * d))) by ring.
  apply Rle_trans with (2 * k * (g * (100 * C + 64000000))); [apply Rmult_le_compat_l; lra|].
  replace (2 * k * (g * (100 * C + 64000000))) with (g * (2 * k * (100 * C + 64000000))) by ring.
  replace (0.0095 * g * d) with (g * (0.0095 * d)) by ring. apply Rmult_le_compat_l; lra.
Qed.

Lemma line_out a target o lft lh rgt l r : (o = 1 \/ o = -1)%Z -> inv o a lft rgt l r -> vfin lft -> vfin rgt ->
  (forall j, -0.0101 <= vR lft j <= 100.0101 /\ -0.0101 <= vR rgt j <= 100.0101) ->
  exists lft' lh' rgt', limit_loop 7 target a lft lh rgt l r = Ok (lft', lh', rgt') /\ vfin lft' /\ vfin rgt' /\
    forall j, -0.014 <= vR lft' j <= 100.05 /\ -0.014 <= vR rgt' j <= 100.05.
Proof using.
  intros ho I fl fr R. set (V := vR lft). set (D := fun j => vR rgt j - vR lft j).
  assert (B : box V D (-0.0101) 100.0101) by (intro j; specialize (R j); unfold V, D; lra).
  assert (B' : box V D (-0.1) 100.1) by (intro j; specialize (B j); lra).
  destruct (vR_line lft rgt fl fr) as [OL OR].
  destruct (loop_line V D o a target ho B' 7 lft lh rgt l r 0 0 I) as (x1 & x2 & x3 & E & O1 & O2); [simpl INR; lra|simpl INR; lra|lra|simpl INR; lra|exact OL|exact OR|].
  assert (S0 : 0 <= 0 + INR 7 * (3 / 10 ^ 7)) by (simpl INR; lra).
  exists x1, x2, x3. split; [exact E|]. split; [apply O1|]. split; [apply O2|]. intro j.
  pose proof (onl_range V D _ _ _ _ _ B S0 O1 j) as Z1. pose proof (onl_range V D _ _ _ _ _ B S0 O2 j) as Z2. simpl INR in Z1, Z2. lra.
Qed.

Lemma limit_S n target axis lft left_hue rgt l_plane r_plane : limit_loop (S n) target axis lft left_hue rgt l_plane r_plane =
  (do diff <- chk (r_plane - l_plane);
   do adiff <- chk (Z.abs diff);
   if (adiff <=? 1)%Z then Ok (lft, left_hue, rgt)
   else
     do sum <- chk (l_plane + r_plane);
     do mid_plane_coordinate <- index critical_planes (to_i64 (ffloor (fdiv (of_Z sum) (dec "2.0"))));
     let mid := set_coordinate lft mid_plane_coordinate rgt axis in
     if are_in_cyclic_order left_hue target (hue_of mid)
     then limit_loop n target axis lft left_hue mid l_plane (to_i64 (ffloor (fdiv (of_Z sum) (dec "2.0"))))
     else limit_loop n target axis mid (hue_of mid) rgt (to_i64 (ffloor (fdiv (of_Z sum) (dec "2.0")))) r_plane).
Proof using. reflexivity. Qed.

Lemma axis_second V D target lft lh rgt : box V D 0 100 -> geo V D 1 -> onl V D (3 / 10 ^ 6) (4 / 10 ^ 12) lft -> onl V D (3 / 10 ^ 6) (4 / 10 ^ 12) rgt ->
  exists lft' lh' rgt', limit_axis target 1 (lft, lh, rgt) = Ok (lft', lh', rgt') /\ vfin lft' /\ vfin rgt' /\
    forall j, -0.014 <= vR lft' j <= 100.05 /\ -0.014 <= vR rgt' j <= 100.05.
Proof using heps PA.
  intros B G OL OR.
  assert (RG : forall j, -0.0004 <= vR lft j <= 100.0004 /\ -0.0004 <= vR rgt j <= 100.0004).
  { intro j. assert (SG0 : 0 <= 3 / 10 ^ 6) by lra. pose proof (onl_range V D _ _ _ _ _ B SG0 OL j). pose proof (onl_range V D _ _ _ _ _ B SG0 OR j). lra. }
  assert (W : forall p, onl V D (3 / 10 ^ 6) (4 / 10 ^ 12) p -> onl V D (2 / 10 ^ 4) (8 / 10 ^ 12) p).
  { intros p (F & s & S & L). split; [exact F|]. exists s. split; [lra|]. intro j. specialize (L j). lra. }
  assert (OL' := W _ OL). assert (OR' := W _ OR). clear W.
  assert (FL := proj1 OL). assert (FR := proj1 OR).
  assert (KL : coord_ok (vget lft 1)). { split; [apply FL|]. destruct (RG 1%Z) as [b _]. unfold vR in b. lra. }
  assert (KR : coord_ok (vget rgt 1)). { split; [apply FR|]. destruct (RG 1%Z) as [_ b]. unfold vR in b. lra. }
  destruct (limit_axis_cases 1 target lft lh rgt KL KR) as [[_ E]|(o & l & r & ho & hp & I & E)]; rewrite E.
  - exists lft, lh, rgt. split; [reflexivity|]. split; [exact FL|]. split; [exact FR|]. intro j. specialize (RG j). lra.
  - pose proof (i_l _ _ _ _ _ _ I) as hl. pose proof (i_r _ _ _ _ _ _ I) as hr.
    change 8%nat with (S 7). rewrite (limit_S 7).
    rewrite (chk_ok (r - l)) by lia. cbn [bind]. rewrite (chk_ok (Z.abs (r - l))) by lia. cbn [bind].
    destruct (Z.leb_spec (Z.abs (r - l)) 1) as [c|c].
    + exists lft, lh, rgt. split; [reflexivity|]. split; [exact FL|]. split; [exact FR|]. intro j. specialize (RG j). lra.
    + rewrite (chk_ok (l + r)) by lia. cbn [bind]. rewrite mid_plane by lia.
      destruct (i_o _ _ _ _ _ _ I) as [x|x]; [lia|]. destruct (between o l r ho hl hr c x) as [hm hb]. set (m := ((l + r) / 2)%Z) in *. clearbody m.
      destruct (plane_index m hm) as (P & EP & FP & BP). rewrite EP. cbn [bind]. cbv zeta.
      destruct (wide_bound V D 1 o lft rgt l r m B G OL' OR' ho hp I hm hb) as [g1 HB].
      destruct (wide_step o 1 lft rgt l r m P 0.0095 (-0.0004) 100.0004 ho I FL FR RG ltac:(lra) ltac:(lra) hm hb FP ltac:(unfold cr; lra) g1 ltac:(lra) HB) as (FM & RM & AM & _).
      set (mid := set_coordinate lft P rgt 1) in *. clearbody mid.
      assert (RM2 : forall j, -0.0101 <= vR mid j <= 100.0101 /\ -0.0101 <= vR rgt j <= 100.0101) by (intro j; specialize (RG j); specialize (RM j); lra).
      destruct (are_in_cyclic_order lh target (hue_of mid)).
      * apply (line_out 1 target o lft lh mid l m ho (inv_left o 1 lft rgt mid l r m ho I hm hb AM) FL FM). intro j. specialize (RG j). specialize (RM j). lra.
      * pose proof (line_out 1 target o mid (hue_of mid) rgt m r ho (inv_right o 1 lft rgt mid l r m ho I hm hb AM) FM FR) as X.
        exact (X (RM2)).
Qed.

Lemma axis_last target lft lh rgt : vfin lft -> vfin rgt -> (forall j, -0.014 <= vR lft j <= 100.05 /\ -0.014 <= vR rgt j <= 100.05) ->
  exists st, limit_axis target 2 (lft, lh, rgt) = Ok st.
Proof using heps PA.
  intros FL FR RG.
  assert (KL : coord_ok (vget lft 2)). { split; [apply FL|]. destruct (RG 2%Z) as [b _]. unfold vR in b. lra. }
  assert (KR : coord_ok (vget rgt 2)). { split; [apply FR|]. destruct (RG 2%Z) as [_ b]. unfold vR in b. lra. }
  destruct (limit_axis_cases 2 target lft lh rgt KL KR) as [[_ E]|(o & l & r & ho & hp & I & E)]; rewrite E.
  - eexists; reflexivity.
  - apply loop_last; [apply (i_l _ _ _ _ _ _ I)|apply (i_r _ _ _ _ _ _ I)].
Qed.

Lemma limit_ok target lft lh rgt : vfin lft -> vfin rgt -> let V := vR lft in let D := fun j => vR rgt j - vR lft j in
  box V D 0 100 -> geo V D 0 -> geo V D 1 ->
  exists a b c, (do s0 <- limit_axis target 0 (lft, lh, rgt); do s1 <- limit_axis target 1 s0; limit_axis target 2 s1) = Ok (a, b, c).
Proof using heps PA.
  intros fl fr V D B G0 G1. destruct (axis_first target lft lh rgt fl fr B G0) as (x1 & x2 & x3 & E1 & O1 & O2). rewrite E1. cbn [bind].
  destruct (axis_second _ _ target x1 x2 x3 B G1 O1 O2) as (y1 & y2 & y3 & E2 & F1 & F2 & R). rewrite E2. cbn [bind].
  destruct (axis_last target y1 y2 y3 F1 F2 R) as [[[a b] c] E3]. exists a, b, c. exact E3.
Qed.

(** ** The vertices the bisection starts from *)
Lemma bounded_fin (x : f64) : is_bounded x = true -> fin x /\ 0 <= B2R x <= 100.
Proof using.
  unfold is_bounded. intros h. apply andb_prop in h. destruct h as [A B]. fconst (dec "0.0"). fconst (dec "100.0").
  assert (FX : fin x).
  { destruct x as [|[]| |]; try reflexivity; try (vm_compute in A; discriminate A); vm_compute in B; discriminate B. }
  split; [exact FX|]. apply (fle_fin _ _ F FX) in A. apply (fle_fin _ _ FX F0) in B. lra.
Qed.

Lemma vget_mk (x y z : f64) j : vget (x, y, z) j = if (j =? 0)%Z then x else if (j =? 1)%Z then y else z.
Proof using. reflexivity. Qed.

Lemma free_err (y A B k : f64) : fin y -> -1 <= B2R y <= 101 -> fin A -> 0 <= B2R A <= 100 -> fin B -> 0 <= B2R B <= 100 -> 0.07 <= B2R k <= 1 ->
  - (1 / 10 ^ 10) <= B2R (fdiv (fsub (fsub y A) B) k) - (B2R y - B2R A - B2R B) / B2R k <= 1 / 10 ^ 10.
Proof using.
  intros fy by' fA bA fB bB bk. pose proof eta_small as ES. pose proof eta_pos as EP.
  destruct (fsub_S y A fy fA ltac:(fsmall)) as [E1 F1]. pose proof (rnd_bounds_abs (B2R y - B2R A) 300 ltac:(apply Rabs_le; lra)) as N1. rewrite <- E1 in N1. unfold u53 in N1.
  set (u := fsub y A) in *. clearbody u.
  destruct (fsub_S u B F1 fB ltac:(fsmall)) as [E2 F2]. pose proof (rnd_bounds_abs (B2R u - B2R B) 300 ltac:(apply Rabs_le; lra)) as N2. rewrite <- E2 in N2. unfold u53 in N2.
  set (w := fsub u B) in *. clearbody w.
  set (i := / B2R k). assert (bi : 1 <= i <= 15).
  { unfold i. split; [rewrite <- Rinv_1|apply Rle_trans with (/ 0.07); [|lra]]; apply Rinv_le; lra. }
  assert (bw : - 4500 <= B2R w * i <= 4500) by (pose proof (mul_bnd (B2R w) i 300 15 ltac:(lra) ltac:(lra)); lra).
  destruct (fdiv_S w k F2 ltac:(lra)) as [E3 F3]; [unfold Rdiv; fold i; fsmall|].
  pose proof (rnd_bounds_abs (B2R w / B2R k) 5000 ltac:(unfold Rdiv; fold i; apply Rabs_le; lra)) as N3. rewrite <- E3 in N3. unfold u53 in N3.
  unfold Rdiv in *. fold i in N3. fold i.
  pose proof (mul_bnd (B2R w - (B2R y - B2R A - B2R B)) i (1 / 10 ^ 12) 15 ltac:(lra) ltac:(lra)). lra.
Qed.

Definition usable (v : vec3) : Prop := flt (v0 v) (dec "0.0") = false.

Lemma no_vertex_unusable : ~ usable no_vertex.
Proof using. unfold usable, no_vertex, v0. cbn [fst]. vm_compute. discriminate. Qed.

Definition is_edge (x : R) : Prop := x = 0 \/ x = 100.

(** The three families of vertices. *)
Lemma vertex_red (y : f64) n : (0 <= n < 4)%Z -> usable (nth_vertex y n) -> exists g b : f64,
  (g = dec "0.0" \/ g = dec "100.0") /\ (b = dec "0.0" \/ b = dec "100.0") /\
  ((g, b) = (if (Z.rem n 4 <=? 1)%Z then dec "0.0" else dec "100.0", if (Z.rem n 2 =? 0)%Z then dec "0.0" else dec "100.0")) /\
  let r := fdiv (fsub (fsub y (fmul g (dec "0.7152"))) (fmul b (dec "0.0722"))) (dec "0.2126") in
  is_bounded r = true /\ nth_vertex y n = (r, g, b).
Proof using.
  intros hn U. exists (if (Z.rem n 4 <=? 1)%Z then dec "0.0" else dec "100.0"), (if (Z.rem n 2 =? 0)%Z then dec "0.0" else dec "100.0").
  split; [destruct (_ <=? _)%Z; auto|]. split; [destruct (_ =? _)%Z; auto|]. split; [reflexivity|].
  unfold nth_vertex in *. destruct (Z.ltb_spec n 4); [|lia]. unfold Y_FROM_LINRGB, v0, v1, v2 in *. cbn [fst snd] in *. cbv zeta in *.
  destruct (is_bounded _); [split; reflexivity|]. exfalso. exact (no_vertex_unusable U).
Qed.
Lemma vertex_green (y : f64) n : (4 <= n < 8)%Z -> usable (nth_vertex y n) -> exists b r : f64,
  (b = dec "0.0" \/ b = dec "100.0") /\ (r = dec "0.0" \/ r = dec "100.0") /\
  ((b, r) = (if (Z.rem n 4 <=? 1)%Z then dec "0.0" else dec "100.0", if (Z.rem n 2 =? 0)%Z then dec "0.0" else dec "100.0")) /\
  let g := fdiv (fsub (fsub y (fmul r (dec "0.2126"))) (fmul b (dec "0.0722"))) (dec "0.7152") in
  is_bounded g = true /\ nth_vertex y n = (r, g, b).
Proof using.
  intros hn U. exists (if (Z.rem n 4 <=? 1)%Z then dec "0.0" else dec "100.0"), (if (Z.rem n 2 =? 0)%Z then dec "0.0" else dec "100.0").
  split; [destruct (_ <=? _)%Z; auto|]. split; [destruct (_ =? _)%Z; auto|]. split; [reflexivity|].
  unfold nth_vertex in *. destruct (Z.ltb_spec n 4); [lia|]. destruct (Z.ltb_spec n 8); [|lia]. unfold Y_FROM_LINRGB, v0, v1, v2 in *. cbn [fst snd] in *. cbv zeta in *.
  destruct (is_bounded _); [split; reflexivity|]. exfalso. exact (no_vertex_unusable U).
Qed.
Lemma vertex_blue (y : f64) n : (8 <= n)%Z -> usable (nth_vertex y n) -> exists r g b : f64,
  (r = dec "0.0" \/ r = dec "100.0") /\ (g = dec "0.0" \/ g = dec "100.0") /\ is_bounded b = true /\ nth_vertex y n = (r, g, b) /\
  b = fdiv (fsub (fsub y (fmul r (dec "0.2126"))) (fmul g (dec "0.7152"))) (dec "0.0722") /\
  ((r, g) = (if (Z.rem n 4 <=? 1)%Z then dec "0.0" else dec "100.0", if (Z.rem n 2 =? 0)%Z then dec "0.0" else dec "100.0")).
Proof using.
  intros hn U. unfold nth_vertex in *. destruct (Z.ltb_spec n 4); [lia|]. destruct (Z.ltb_spec n 8); [lia|]. unfold Y_FROM_LINRGB, v0, v1, v2 in *. cbn [fst snd] in *. cbv zeta in *.
  destruct (is_bounded _) eqn:E; [|exfalso; exact (no_vertex_unusable U)]. eexists _, _, _. split; [|split; [|split; [exact E|split; [reflexivity|split; reflexivity]]]].
  - destruct (_ <=? _)%Z; auto.
  - destruct (_ =? _)%Z; auto.
Qed.

Lemma edge_fin (x : f64) : x = dec "0.0" \/ x = dec "100.0" -> fin x /\ is_edge (B2R x).
Proof using. intros [-> | ->]; [fconst (dec "0.0")|fconst (dec "100.0")]; (split; [exact F|]); unfold is_edge; lra. Qed.

Lemma vertex_ok (y : f64) n : (0 <= n)%Z -> usable (nth_vertex y n) ->
  vfin (nth_vertex y n) /\ (forall j, 0 <= vR (nth_vertex y n) j <= 100) /\
  ((4 <= n)%Z -> is_edge (vR (nth_vertex y n) 0)) /\ ((n < 4)%Z \/ (8 <= n)%Z -> is_edge (vR (nth_vertex y n) 1)).
Proof using.
  intros hn U. destruct (Z_lt_ge_dec n 4) as [a|a]; [|destruct (Z_lt_ge_dec n 8) as [b|b]].
  - destruct (vertex_red y n ltac:(lia) U) as (g & b & hg & hb & _ & R & ->). apply edge_fin in hg, hb. apply bounded_fin in R. unfold is_edge in *.
    unfold vfin, vR. split; [|split; [|split]].
    + intro j. rewrite vget_mk. destruct (j =? 0)%Z; [apply R|]. destruct (j =? 1)%Z; [apply hg|apply hb].
    + intro j. rewrite vget_mk. destruct (j =? 0)%Z; [apply R|]. destruct (j =? 1)%Z; lra.
    + intro; lia.
    + intros _. exact (proj2 hg).
  - destruct (vertex_green y n ltac:(lia) U) as (b0 & r & hg & hb & _ & R & ->). apply edge_fin in hg, hb. apply bounded_fin in R. unfold is_edge in *.
    unfold vfin, vR. split; [|split; [|split]].
    + intro j. rewrite vget_mk. destruct (j =? 0)%Z; [apply hb|]. destruct (j =? 1)%Z; [apply R|apply hg].
    + intro j. rewrite vget_mk. destruct (j =? 0)%Z; [lra|]. destruct (j =? 1)%Z; [apply R|lra].
    + intros _. exact (proj2 hb).
    + intro; lia.
  - destruct (vertex_blue y n ltac:(lia) U) as (r & g & b0 & hr & hg & R & -> & _). apply edge_fin in hg, hr. apply bounded_fin in R. unfold is_edge in *.
    unfold vfin, vR. split; [|split; [|split]].
    + intro j. rewrite vget_mk. destruct (j =? 0)%Z; [apply hr|]. destruct (j =? 1)%Z; [apply hg|apply R].
    + intro j. rewrite vget_mk. destruct (j =? 0)%Z; [lra|]. destruct (j =? 1)%Z; [lra|apply R].
    + intros _. exact (proj2 hr).
    + intros _. exact (proj2 hg).
Qed.

(** Two different vertices of one family are far apart in its free coordinate. *)
Lemma red_apart (y : f64) n1 n2 : fin y -> -1 <= B2R y <= 101 -> (0 <= n1 < 4)%Z -> (0 <= n2 < 4)%Z -> n1 <> n2 ->
  usable (nth_vertex y n1) -> usable (nth_vertex y n2) -> 10 <= Rabs (vR (nth_vertex y n2) 0 - vR (nth_vertex y n1) 0).
Proof using.
  intros fy by' h1 h2 hd U1 U2.
  fconst (dec "0.2126"). fconst (fmul (dec "0.0") (dec "0.7152")). fconst (fmul (dec "100.0") (dec "0.7152")). fconst (fmul (dec "0.0") (dec "0.0722")). fconst (fmul (dec "100.0") (dec "0.0722")).
  assert (X : forall n, (0 <= n < 4)%Z -> usable (nth_vertex y n) ->
    let off := if (n =? 0)%Z then 0 else if (n =? 1)%Z then 7.22 else if (n =? 2)%Z then 71.52 else 78.74 in
    - (1 / 10 ^ 9) <= vR (nth_vertex y n) 0 - (B2R y - off) / 0.2126 <= 1 / 10 ^ 9).
  { intros n hn U off. destruct (vertex_red y n hn U) as (g & b & _ & _ & E & _ & ->). unfold vR. rewrite vget_mk. cbn [Z.eqb].
    assert (M : (n = 0 \/ n = 1 \/ n = 2 \/ n = 3)%Z) by lia. 
    destruct M as [-> | [-> | [-> | ->]]]; unfold off; cbn [Z.eqb Pos.eqb];
      change (Z.rem 0 4 <=? 1)%Z with true in E; change (Z.rem 1 4 <=? 1)%Z with true in E; change (Z.rem 2 4 <=? 1)%Z with false in E; change (Z.rem 3 4 <=? 1)%Z with false in E;
      change (Z.rem 0 2 =? 0)%Z with true in E; change (Z.rem 1 2 =? 0)%Z with false in E; change (Z.rem 2 2 =? 0)%Z with true in E; change (Z.rem 3 2 =? 0)%Z with false in E;
      cbv iota in E; apply pair_equal_spec in E; destruct E as [-> ->].
    - pose proof (free_err y _ _ (dec "0.2126") fy by' F0 ltac:(rewrite V0; lra) F2 ltac:(rewrite V2; lra) ltac:(rewrite V; lra)) as Q. rewrite V0, V2, V in Q. lra.
    - pose proof (free_err y _ _ (dec "0.2126") fy by' F0 ltac:(rewrite V0; lra) F3 ltac:(rewrite V3; lra) ltac:(rewrite V; lra)) as Q. rewrite V0, V3, V in Q. lra.
    - pose proof (free_err y _ _ (dec "0.2126") fy by' F1 ltac:(rewrite V1; lra) F2 ltac:(rewrite V2; lra) ltac:(rewrite V; lra)) as Q. rewrite V1, V2, V in Q. lra.
    - pose proof (free_err y _ _ (dec "0.2126") fy by' F1 ltac:(rewrite V1; lra) F3 ltac:(rewrite V3; lra) ltac:(rewrite V; lra)) as Q. rewrite V1, V3, V in Q. lra. }
  assert (X1 := X n1 h1 U1). assert (X2 := X n2 h2 U2). clear X. cbv zeta in X1, X2.
  set (a := vR (nth_vertex y n1) 0) in *. set (b := vR (nth_vertex y n2) 0) in *. clearbody a b. clear U1 U2.
  clear - hd X1 X2 h1 h2. assert (M1 : (n1 = 0 \/ n1 = 1 \/ n1 = 2 \/ n1 = 3)%Z) by lia. assert (M2 : (n2 = 0 \/ n2 = 1 \/ n2 = 2 \/ n2 = 3)%Z) by lia.
  destruct M1 as [-> | [-> | [-> | ->]]]; destruct M2 as [-> | [-> | [-> | ->]]]; try (exfalso; apply hd; reflexivity);
    cbn [Z.eqb Pos.eqb] in X1, X2; unfold Rabs; destruct (Rcase_abs (b - a)); lra.
Qed.
Lemma green_apart (y : f64) n1 n2 : fin y -> -1 <= B2R y <= 101 -> (4 <= n1 < 8)%Z -> (4 <= n2 < 8)%Z -> n1 <> n2 ->
  usable (nth_vertex y n1) -> usable (nth_vertex y n2) -> 10 <= Rabs (vR (nth_vertex y n2) 1 - vR (nth_vertex y n1) 1).
Proof using.
  intros fy by' h1 h2 hd U1 U2.
  fconst (dec "0.7152"). fconst (fmul (dec "0.0") (dec "0.2126")). fconst (fmul (dec "100.0") (dec "0.2126")). fconst (fmul (dec "0.0") (dec "0.0722")). fconst (fmul (dec "100.0") (dec "0.0722")).
  assert (X : forall n, (4 <= n < 8)%Z -> usable (nth_vertex y n) ->
    let off := if (n =? 4)%Z then 0 else if (n =? 5)%Z then 21.26 else if (n =? 6)%Z then 7.22 else 28.48 in
    - (1 / 10 ^ 9) <= vR (nth_vertex y n) 1 - (B2R y - off) / 0.7152 <= 1 / 10 ^ 9).
  { intros n hn U off. destruct (vertex_green y n hn U) as (g & b & _ & _ & E & _ & ->). unfold vR. rewrite vget_mk. cbn [Z.eqb].
    assert (M : (n = 4 \/ n = 5 \/ n = 6 \/ n = 7)%Z) by lia. 
    destruct M as [-> | [-> | [-> | ->]]]; unfold off; cbn [Z.eqb Pos.eqb];
      change (Z.rem 4 4 <=? 1)%Z with true in E; change (Z.rem 5 4 <=? 1)%Z with true in E; change (Z.rem 6 4 <=? 1)%Z with false in E; change (Z.rem 7 4 <=? 1)%Z with false in E;
      change (Z.rem 4 2 =? 0)%Z with true in E; change (Z.rem 5 2 =? 0)%Z with false in E; change (Z.rem 6 2 =? 0)%Z with true in E; change (Z.rem 7 2 =? 0)%Z with false in E;
      cbv iota in E; apply pair_equal_spec in E; destruct E as [-> ->].
    - pose proof (free_err y _ _ (dec "0.7152") fy by' F0 ltac:(rewrite V0; lra) F2 ltac:(rewrite V2; lra) ltac:(rewrite V; lra)) as Q. rewrite V0, V2, V in Q. lra.
    - pose proof (free_err y _ _ (dec "0.7152") fy by' F1 ltac:(rewrite V1; lra) F2 ltac:(rewrite V2; lra) ltac:(rewrite V; lra)) as Q. rewrite V1, V2, V in Q. lra.
    - pose proof (free_err y _ _ (dec "0.7152") fy by' F0 ltac:(rewrite V0; lra) F3 ltac:(rewrite V3; lra) ltac:(rewrite V; lra)) as Q. rewrite V0, V3, V in Q. lra.
    - pose proof (free_err y _ _ (dec "0.7152") fy by' F1 ltac:(rewrite V1; lra) F3 ltac:(rewrite V3; lra) ltac:(rewrite V; lra)) as Q. rewrite V1, V3, V in Q. lra. }
  assert (X1 := X n1 h1 U1). assert (X2 := X n2 h2 U2). clear X. cbv zeta in X1, X2.
  set (a := vR (nth_vertex y n1) 1) in *. set (b := vR (nth_vertex y n2) 1) in *. clearbody a b. clear U1 U2.
  clear - hd X1 X2 h1 h2. assert (M1 : (n1 = 4 \/ n1 = 5 \/ n1 = 6 \/ n1 = 7)%Z) by lia. assert (M2 : (n2 = 4 \/ n2 = 5 \/ n2 = 6 \/ n2 = 7)%Z) by lia.
  destruct M1 as [-> | [-> | [-> | ->]]]; destruct M2 as [-> | [-> | [-> | ->]]]; try (exfalso; apply hd; reflexivity);
    cbn [Z.eqb Pos.eqb] in X1, X2; unfold Rabs; destruct (Rcase_abs (b - a)); lra.
Qed.

(** ** The segment *)
Definition seg_inv (y : f64) (s : seg) : Prop :=
  (s_initialized s = false /\ s_left s = no_vertex /\ s_right s = no_vertex) \/
  (s_initialized s = true /\ exists n1 n2, (0 <= n1)%Z /\ (0 <= n2)%Z /\ s_left s = nth_vertex y n1 /\ s_right s = nth_vertex y n2 /\
     usable (s_left s) /\ usable (s_right s)).

Lemma seg_step y t s n : (0 <= n)%Z -> seg_inv y s -> seg_inv y (segment_step y t s n).
Proof using.
  intros hn I. unfold segment_step. destruct (flt (v0 (nth_vertex y n)) (dec "0.0")) eqn:C; [exact I|].
  destruct I as [(E & _ & _)|(E & n1 & n2 & h1 & h2 & L & R & UL & UR)]; rewrite E; cbn [negb].
  - right. split; [reflexivity|]. exists n, n. cbn [s_left s_right]. repeat (split; [first [exact hn|reflexivity|exact C]|]). exact C.
  - destruct (s_uncut s || _)%bool.
    + destruct (are_in_cyclic_order _ _ _); right; (split; [reflexivity|]).
      * exists n1, n. cbn [s_left s_right]. split; [exact h1|]. split; [exact hn|]. split; [exact L|]. split; [reflexivity|]. split; [exact UL|exact C].
      * exists n, n2. cbn [s_left s_right]. split; [exact hn|]. split; [exact h2|]. split; [reflexivity|]. split; [exact R|]. split; [exact C|exact UR].
    + right. split; [exact E|]. exists n1, n2. split; [exact h1|]. split; [exact h2|]. split; [exact L|]. split; [exact R|]. split; [exact UL|exact UR].
Qed.

Lemma seg_fold y t ns : Forall (fun n => (0 <= n)%Z) ns -> forall s, seg_inv y s -> seg_inv y (fold_left (segment_step y t) ns s).
Proof using. induction 1 as [|n ns h _ IH]; intros s I; [exact I|]. cbn [fold_left]. apply IH. now apply seg_step. Qed.

Lemma segment_ends y t : let '(lft, rgt) := bisect_to_segment y t in
  (lft = no_vertex /\ rgt = no_vertex) \/
  exists n1 n2, (0 <= n1)%Z /\ (0 <= n2)%Z /\ lft = nth_vertex y n1 /\ rgt = nth_vertex y n2 /\ usable lft /\ usable rgt.
Proof using.
  unfold bisect_to_segment. set (s := fold_left _ _ _).
  assert (I : seg_inv y s).
  { apply seg_fold; [repeat (constructor; [lia|]); constructor|]. left. split; [reflexivity|]. split; reflexivity. }
  destruct I as [(_ & L & R)|(_ & n1 & n2 & h1 & h2 & L & R & UL & UR)]; [left; now split|right].
  exists n1, n2. repeat (split; [assumption|]). assumption.
Qed.

Lemma equal_ends target v lh : vfin v -> forall a, limit_axis target a (v, lh, v) = Ok (v, lh, v).
Proof using.
  intros f a. unfold limit_axis. assert (E : fne (vget v a) (vget v a) = false).
  { unfold fne. change Beqb with feq. rewrite (proj2 (feq_fin _ _ (f a) (f a)) eq_refl). reflexivity. }
  rewrite E. reflexivity.
Qed.

Lemma no_vertex_fin : vfin no_vertex.
Proof using. intro j. unfold no_vertex. rewrite vget_mk. fconst (dec "-1.0"). destruct (j =? 0)%Z; [exact F|]. destruct (j =? 1)%Z; exact F. Qed.

Lemma nan_no_vertex n : ~ usable (nth_vertex fnan n).
Proof using.
  unfold nth_vertex. cbv zeta. replace (fsub fnan) with (fun _ : f64 => fnan) by reflexivity.
  assert (B : forall k : f64, is_bounded (fdiv fnan k) = false) by (intro k; reflexivity).
  unfold fsub at 1. 
  destruct (n <? 4)%Z; [|destruct (n <? 8)%Z]; change (fsub fnan) with (fun _ : f64 => fnan); cbv beta; rewrite B; exact no_vertex_unusable.
Qed.

Lemma limit_total (y target : f64) : (y = fnan \/ (fin y /\ -1 <= B2R y <= 101)) -> exists v, bisect_to_limit y target = Ok v.
Proof using heps PA.
  intros hy. unfold bisect_to_limit. pose proof (segment_ends y target) as S. destruct (bisect_to_segment y target) as [lft rgt]. cbv zeta. cbn [fst snd].
  set (lh := hue_of lft). clearbody lh.
  assert (K : exists a b c, (do s0 <- limit_axis target 0 (lft, lh, rgt); do s1 <- limit_axis target 1 s0; limit_axis target 2 s1) = Ok (a, b, c)).
  { destruct S as [[-> ->]|(n1 & n2 & h1 & h2 & EL & ER & UL & UR)].
    - rewrite equal_ends by exact no_vertex_fin. cbn [bind]. rewrite equal_ends by exact no_vertex_fin. cbn [bind]. rewrite equal_ends by exact no_vertex_fin. eexists _, _, _; reflexivity.
    - destruct hy as [-> | [fy by']]; [exfalso; rewrite EL in UL; exact (nan_no_vertex n1 UL)|].
      assert (UL' := UL). rewrite EL in UL'. assert (UR' := UR). rewrite ER in UR'.
      destruct (vertex_ok y n1 h1 UL') as (FL & BL & L0 & L1). destruct (vertex_ok y n2 h2 UR') as (FR & BR & R0 & R1).
      rewrite <- EL in FL, BL, L0, L1. rewrite <- ER in FR, BR, R0, R1.
      destruct (Z.eq_dec n1 n2) as [e|e].
      + assert (X : rgt = lft) by (rewrite EL, ER, e; reflexivity). rewrite X.
        rewrite equal_ends by exact FL. cbn [bind]. rewrite equal_ends by exact FL. cbn [bind]. rewrite equal_ends by exact FL. eexists _, _, _; reflexivity.
      + apply limit_ok; [exact FL|exact FR| | |].
        * intro j. specialize (BL j). specialize (BR j). lra.
        * unfold geo, is_edge in *. destruct (Z_lt_ge_dec n1 4) as [a|a]; [|destruct (L0 ltac:(lia)); lra].
          destruct (Z_lt_ge_dec n2 4) as [b|b]; [|destruct (R0 ltac:(lia)); lra].
          left. rewrite EL, ER. apply red_apart; (assumption || lia).
        * unfold geo, is_edge in *. destruct (Z_lt_ge_dec n1 4) as [a|a]; [destruct (L1 ltac:(lia)); lra|].
          destruct (Z_lt_ge_dec n1 8) as [a'|a']; [|destruct (L1 ltac:(lia)); lra].
          destruct (Z_lt_ge_dec n2 4) as [b|b]; [destruct (R1 ltac:(lia)); lra|].
          destruct (Z_lt_ge_dec n2 8) as [b'|b']; [|destruct (R1 ltac:(lia)); lra].
          left. rewrite EL, ER. apply green_apart; (assumption || lia). }
  destruct K as (a & b & c & K).
  destruct (limit_axis target 0 (lft, lh, rgt)) as [s0|]; [|discriminate K]. cbn [bind] in K |- *.
  destruct (limit_axis target 1 s0) as [s1|]; [|discriminate K]. cbn [bind] in K |- *.
  rewrite K. cbn [bind]. eexists; reflexivity.
Qed.

Lemma y_cases (t : f64) : flt t (dec "0.0001") = false -> flt (dec "99.9999") t = false ->
  y_from_lstar t = fnan \/ (fin (y_from_lstar t) /\ -1 <= B2R (y_from_lstar t) <= 101).
Proof using.
  intros h1 h2. destruct (is_nan t) eqn:N.
  - left. destruct t; try discriminate N. reflexivity.
  - right. assert (NT : nn t) by exact N. fconst (dec "0.0001"). fconst (dec "99.9999").
    apply (flt_val_f _ _ NT (fin_not_nan _ F)) in h1. apply (flt_val_f _ _ (fin_not_nan _ F0) NT) in h2.
    rewrite (val_fin _ F), V in h1. rewrite (val_fin _ F0), V0 in h2.
    destruct (y_from_lstar_range t NT ltac:(lra)) as [Y1 Y2]. split; [exact Y1|lra].
Qed.

Lemma solve_total (hue chroma t : f64) : exists argb, solve_to_int hue chroma t = Ok argb.
Proof using heps PA.
  unfold solve_to_int. destruct (flt chroma _ || flt t _ || fgt t _)%bool eqn:G; [eexists; reflexivity|].
  apply orb_false_iff in G. destruct G as [G G3]. apply orb_false_iff in G. destruct G as [_ G2]. unfold fgt in G3. change Bltb with flt in G3.
  cbv zeta. unfold find_result_by_j. destruct (PfHct.s_rgb_ok) as [vc ->]. cbn [bind]. cbv zeta.
  destruct (negb _); [eexists; reflexivity|].
  destruct (limit_total (y_from_lstar t) (fmul (fdiv (sanitize_degrees_double hue) (dec "180.0")) PI64) (y_cases t G2 G3)) as [v ->]. cbn [bind]. eexists; reflexivity.
Qed.

Lemma from_is_from_int (hue chroma t : f64) : exists argb, opaque argb /\ hct_from hue chroma t = hct_from_int argb.
Proof using heps PA.
  destruct (solve_total hue chroma t) as [argb E]. exists argb. split; [exact (solve_opaque _ _ _ _ E)|].
  unfold hct_from, hct_from_int. rewrite E. cbn [bind]. reflexivity.
Qed.
End NoPanic.
