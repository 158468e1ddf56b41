(** * The solver's fallback stays on the plane of the requested luminance.  Proof file. *)
From Coq Require Import ZArith Bool Reals Lra Lia Psatz String List.
From Flocq Require Import Core IEEE754.BinarySingleNaN.
From Verif Require Import F64 MathUtils ColorUtils ViewingConditions Cam16 HctSolver Hct Spec FloatFacts FloatMono FloatCast PfArgb PfMath PfColor PfContrast PfTones PfLab PfGamma PfDelin PfScore PfPlanes PfLimit PfHct PfNoPanic.
Import ListNotations.
Open Scope string_scope.
Open Scope R_scope.

Definition lum (v : Z -> R) : R := 0.2126 * v 0%Z + 0.7152 * v 1%Z + 0.0722 * v 2%Z.

Lemma lum_near (v w : Z -> R) e : (forall j, - e <= v j - w j <= e) -> - e <= lum v - lum w <= e.
Proof. intros h. pose proof (h 0%Z). pose proof (h 1%Z). pose proof (h 2%Z). unfold lum. lra. Qed.

(** A point of a line whose two ends have luminance near [y]. *)
Lemma lum_line V D sg rh p y e : 0 <= sg <= 1 / 10 ^ 3 -> - e <= lum V - y <= e -> - e <= lum (fun j => V j + D j) - y <= e -> onl V D sg rh p ->
  - (1.003 * e + rh) <= lum (vR p) - y <= 1.003 * e + rh.
Proof.
  intros h0 h1 h2 (_ & s & hs & h). pose proof (lum_near (vR p) (fun j => V j + s * D j) rh h) as N.
  assert (X : lum (fun j => V j + s * D j) - y = (lum V - y) + ((lum (fun j => V j + D j) - y) - (lum V - y)) * s) by (unfold lum; ring).
  pose proof (mix (- e) e _ _ s sg h1 h2 ltac:(lra) hs) as M. rewrite <- X in M.
  assert (e0 : 0 <= e) by lra. pose proof (Rmult_le_compat_l e sg (1 / 10 ^ 3) e0 (proj2 h0)). lra.
Qed.

Lemma onl_wider V D sg rh sg' rh' p : sg <= sg' -> rh <= rh' -> onl V D sg rh p -> onl V D sg' rh' p.
Proof. intros h1 h2 (F & s & S & L). split; [exact F|]. exists s. split; [lra|]. intro j. specialize (L j). lra. Qed.

(** Either the two points are a ten-thousandth of the line apart, or they are close together. *)
Lemma apart_or_close V D sg rh p q : box V D 0 100 -> onl V D sg rh p -> onl V D sg rh q ->
  (forall j, 1 / 10 ^ 4 * Rabs (D j) - 2 * rh <= Rabs (vR q j - vR p j)) \/ (forall j, Rabs (vR q j - vR p j) <= 1 / 10 ^ 2 + 2 * rh).
Proof.
  intros B (_ & s1 & _ & L1) (_ & s2 & _ & L2).
  assert (X : forall j, Rabs (vR q j - vR p j - (s2 - s1) * D j) <= 2 * rh) by (intro j; specialize (L1 j); specialize (L2 j); apply Rabs_le; lra).
  destruct (Rle_or_lt (1 / 10 ^ 4) (Rabs (s2 - s1))) as [c|c]; [left|right]; intro j; specialize (X j).
  - pose proof (Rmult_le_compat_r (Rabs (D j)) _ _ (Rabs_pos _) c) as Y. rewrite <- Rabs_mult in Y.
    pose proof (Rabs_triang_inv ((s2 - s1) * D j) (vR q j - vR p j)) as T. rewrite Rabs_minus_sym in T.
    assert (Rabs ((s2 - s1) * D j - (vR q j - vR p j)) <= 2 * rh) by (rewrite Rabs_minus_sym; exact X). 
    pose proof (Rabs_triang_inv ((s2 - s1) * D j) (vR q j - vR p j)). lra.
  - pose proof (Rabs_triang_inv (vR q j - vR p j) ((s2 - s1) * D j)) as T.
    assert (Rabs ((s2 - s1) * D j) <= 1 / 10 ^ 2).
    { rewrite Rabs_mult. assert (Rabs (D j) <= 100) by (destruct (B j); apply Rabs_le; lra).
      apply Rle_trans with (1 / 10 ^ 4 * 100); [apply Rmult_le_compat; try apply Rabs_pos; lra|lra]. }
    lra.
Qed.

Section Plane.
Context {lm : Libm} (eps : R) (heps : 0 <= eps <= 1 / 10 ^ 12) (PA : pow_accurate eps lm).

Definition tracked (o a : Z) (p0 p : vec3) (l : Z) : Prop := p = p0 \/ ((0 <= l <= 254)%Z /\ - (5 / 10 ^ 13) <= vR p a - cr l <= 5 / 10 ^ 13).

(** Where the loop's two points end up along its axis. *)
Lemma loop_track V D o a target L0 R0 : (o = 1 \/ o = -1)%Z -> box V D (-0.1) 100.1 -> forall fuel lft lh rgt l r sg rh,
  inv o a lft rgt l r -> 0 <= sg -> sg + INR fuel * (3 / 10 ^ 7) <= 1 / 10 ^ 3 -> 0 <= rh -> rh + INR fuel * (4 / 10 ^ 13) <= 1 / 10 ^ 11 ->
  onl V D sg rh lft -> onl V D sg rh rgt -> tracked o a L0 lft l -> tracked o a R0 rgt r ->
  (o * l < o * r)%Z \/ (lft = L0 /\ rgt = R0) ->
  exists lft' lh' rgt' l' r', limit_loop fuel target a lft lh rgt l r = Ok (lft', lh', rgt') /\
    onl V D (sg + INR fuel * (3 / 10 ^ 7)) (rh + INR fuel * (4 / 10 ^ 13)) lft' /\
    onl V D (sg + INR fuel * (3 / 10 ^ 7)) (rh + INR fuel * (4 / 10 ^ 13)) rgt' /\
    tracked o a L0 lft' l' /\ tracked o a R0 rgt' r' /\ ((o * l' < o * r')%Z \/ (lft' = L0 /\ rgt' = R0)).
Proof using.
  intros ho B. 
  induction fuel as [|fuel IH]; intros lft lh rgt l r sg rh I s0 hs r0 hr OL OR TL TR LR.
  - exists lft, lh, rgt, l, r. split; [reflexivity|]. split; [|split; [|split; [exact TL|split; [exact TR|exact LR]]]]; (apply (onl_wider V D sg rh); [simpl INR; lra|simpl INR; lra|assumption]).
  - assert (FU := pos_INR fuel). rewrite S_INR in *. cbn [limit_loop].
    pose proof (i_l _ _ _ _ _ _ (proj1 I)) as hl. pose proof (i_r _ _ _ _ _ _ (proj1 I)) as hr'.
    rewrite (chk_ok (r - l)) by lia. cbn [bind]. rewrite (chk_ok (Z.abs (r - l))) by lia. cbn [bind].
    destruct (Z.leb_spec (Z.abs (r - l)) 1) as [c|c].
    + exists lft, lh, rgt, l, r. split; [reflexivity|]. split; [|split; [|split; [exact TL|split; [exact TR|exact LR]]]]; (apply (onl_wider V D sg rh); [lra|lra|assumption]).
    + rewrite (chk_ok (l + r)) by lia. cbn [bind]. rewrite mid_plane by lia.
      destruct (i_o _ _ _ _ _ _ (proj1 I)) as [x|x]; [lia|]. destruct (between o l r ho hl hr' c x) as [hm hb]. set (m := ((l + r) / 2)%Z) in *. clearbody m.
      destruct (plane_index m hm) as (P & EP & FP & BP). rewrite EP. cbn [bind]. cbv zeta.
      destruct (step V D o a lft rgt l r m P sg rh ho B I ltac:(lra) ltac:(lra) OL OR hm hb FP) as [OM AM]; [unfold cr; lra|].
      set (mid := set_coordinate lft P rgt a) in *. clearbody mid.
      assert (TM : forall p0, tracked o a p0 mid m) by (intro p0; right; split; [exact hm|exact AM]).
      destruct (are_in_cyclic_order lh target (hue_of mid)).
      * destruct (IH lft lh mid l m (sg + 3 / 10 ^ 7) (rh + 4 / 10 ^ 13)) as (x1 & x2 & x3 & l' & r' & E & O1 & O2 & T1 & T2 & T3);
          [exact (inv_left o a lft rgt mid l r m ho (proj1 I) hm hb AM)|lra|lra|lra|lra|apply (onl_wider V D sg rh); [lra|lra|assumption]|exact OM|exact TL|apply TM|left; lia|].
        exists x1, x2, x3, l', r'. split; [exact E|]. split; [|split; [|split; [exact T1|split; [exact T2|exact T3]]]]; (eapply onl_wider; [| |eassumption]; lra).
      * destruct (IH mid (hue_of mid) rgt m r (sg + 3 / 10 ^ 7) (rh + 4 / 10 ^ 13)) as (x1 & x2 & x3 & l' & r' & E & O1 & O2 & T1 & T2 & T3);
          [exact (inv_right o a lft rgt mid l r m ho (proj1 I) hm hb AM)|lra|lra|lra|lra|exact OM|apply (onl_wider V D sg rh); [lra|lra|assumption]|apply TM|exact TR|left; lia|].
        exists x1, x2, x3, l', r'. split; [exact E|]. split; [|split; [|split; [exact T1|split; [exact T2|exact T3]]]]; (eapply onl_wider; [| |eassumption]; lra).
Qed.

Lemma edge_far e m : is_edge e -> (0 <= m <= 254)%Z -> 0.0151 <= Rabs (e - cr m).
Proof using. intros [-> | ->] hm; destruct (cr_range m hm) as (C & _); unfold Rabs; destruct (Rcase_abs _); lra. Qed.

(** First axis: afterwards the two points are well apart, or close to a vertex whose first coordinate is not on an edge. *)
Lemma axis_one target lft lh rgt : vfin lft -> vfin rgt -> let V := vR lft in let D := fun j => vR rgt j - vR lft j in
  box V D 0 100 -> geo V D 0 ->
  exists lft' lh' rgt', limit_axis target 0 (lft, lh, rgt) = Ok (lft', lh', rgt') /\ onl V D (3 / 10 ^ 6) (4 / 10 ^ 12) lft' /\ onl V D (3 / 10 ^ 6) (4 / 10 ^ 12) rgt' /\
    ((forall j, 1 / 10 ^ 4 * Rabs (D j) - 8 / 10 ^ 12 <= Rabs (vR rgt' j - vR lft' j)) \/
     exists w, (w = lft \/ w = rgt) /\ ~ is_edge (vR w 0) /\ forall j, Rabs (vR lft' j - vR w j) <= 0.0101 /\ Rabs (vR rgt' j - vR w j) <= 0.0101).
Proof using heps PA.
  intros fl fr V D B G. destruct (vR_line lft rgt fl fr) as [OL OR]. fold V in OL, OR. fold D in OL, OR.
  assert (KL : coord_ok (vget lft 0)). { split; [apply fl|]. destruct (B 0%Z) as [b _]. unfold V, vR in b. lra. }
  assert (KR : coord_ok (vget rgt 0)). { split; [apply fr|]. destruct (B 0%Z) as [_ b]. unfold V, D, vR in b. lra. }
  assert (SAME : forall j, 1 / 10 ^ 4 * Rabs (D j) - 8 / 10 ^ 12 <= Rabs (vR rgt j - vR lft j)).
  { intro j. change (vR rgt j - vR lft j) with (D j). pose proof (Rabs_pos (D j)). lra. }
  destruct (limit_axis_cases eps heps PA 0 target lft lh rgt KL KR) as [[_ E]|(o & l & r & ho & hp & I & E)]; rewrite E.
  - exists lft, lh, rgt. split; [reflexivity|]. split; [|split; [|left; exact SAME]]; (apply (onl_wider V D 0 0); [lra|lra|assumption]).
  - assert (B' : box V D (-0.1) 100.1) by (intro j; specialize (B j); lra).
    destruct (Z_lt_ge_dec (o * l) (o * r)) as [LR|LR].
    2: { pose proof (i_l _ _ _ _ _ _ I) as hl. pose proof (i_r _ _ _ _ _ _ I) as hr. 
         change 8%nat with (S 7). rewrite (limit_S 7).
         rewrite (chk_ok (r - l)) by lia. cbn [bind]. rewrite (chk_ok (Z.abs (r - l))) by lia. cbn [bind].
         destruct (Z.leb_spec (Z.abs (r - l)) 1) as [c|c]; [|destruct (i_o _ _ _ _ _ _ I); lia].
         exists lft, lh, rgt. split; [reflexivity|]. split; [|split; [|left; exact SAME]]; (apply (onl_wider V D 0 0); [lra|lra|assumption]). }
    destruct (loop_track V D o 0 target lft rgt ho B' 8 lft lh rgt l r 0 0) as (x1 & x2 & x3 & l' & r' & E' & O1 & O2 & T1 & T2 & T3); try assumption; try (simpl INR; lra); try (left; reflexivity); try (left; exact LR).
    + split; [exact I|]. intros m hm hb. split; [exact hp|].
      destruct (cr_range m hm) as (C1 & C2 & C3). assert (IL := i_left _ _ _ _ _ _ I m hm ltac:(lia)). assert (IR := i_right _ _ _ _ _ _ I m hm ltac:(lia)).
      assert (KC : cr m * kap m <= cr m * (2 / 10 ^ 11)) by (apply Rmult_le_compat_l; [lra|unfold kap; destruct (m <=? 9)%Z; lra]).
      assert (AD : Rabs (D 0%Z) = IZR o * (vR rgt 0 - vR lft 0)).
      { unfold D. destruct ho as [-> | ->]; [rewrite Rabs_pos_eq; lra|]. rewrite <- Rabs_Ropp, Rabs_pos_eq; lra. }
      destruct (geo_wide V D 0 m (cr m * kap m) 0 B G hm ltac:(lra) ltac:(lra) ltac:(lra)) as [w|[w|w]].
      { unfold V, D. destruct ho as [-> | ->].
        - rewrite Rmin_left, Rmax_right by lra. lra.
        - rewrite Rmin_right, Rmax_left by lra. lra. }
      all: rewrite <- AD; lra.
    + exists x1, x2, x3. split; [exact E'|].
      assert (O1' : onl V D (3 / 10 ^ 6) (4 / 10 ^ 12) x1) by (eapply onl_wider; [| |exact O1]; simpl INR; lra).
      assert (O2' : onl V D (3 / 10 ^ 6) (4 / 10 ^ 12) x3) by (eapply onl_wider; [| |exact O2]; simpl INR; lra).
      split; [exact O1'|]. split; [exact O2'|]. clear O1 O2.
      destruct (apart_or_close V D _ _ x1 x3 B O1' O2') as [a|a]; [left; intro j; specialize (a j); lra|].
      destruct T3 as [T3|[-> ->]]; [|left; exact SAME].
      destruct T1 as [->|[b1 b2]]; destruct T2 as [->|[c1 c2]].
      * left. exact SAME.
      * right. exists lft. split; [now left|]. split.
        { intro X. pose proof (edge_far _ r' X c1) as Y. specialize (a 0%Z). apply Rabs_le_inv in a. revert Y. unfold Rabs. destruct (Rcase_abs _); lra. }
        intro j. specialize (a j). rewrite Rminus_diag_eq by reflexivity. rewrite Rabs_R0. lra.
      * right. exists rgt. split; [now right|]. split.
        { intro X. pose proof (edge_far _ l' X b1) as Y. specialize (a 0%Z). apply Rabs_le_inv in a. revert Y. unfold Rabs. destruct (Rcase_abs _); lra. }
        intro j. specialize (a j). rewrite Rabs_minus_sym in a. rewrite (Rminus_diag_eq (vR rgt j)) by reflexivity. rewrite Rabs_R0. lra.
      * exfalso. specialize (a 0%Z). apply Rabs_le_inv in a. destruct ho as [-> | ->].
        -- pose proof (cr_gap l' r' ltac:(lia) ltac:(lia)). lra.
        -- pose proof (cr_gap r' l' ltac:(lia) ltac:(lia)). lra.
Qed.

(** An axis along which both points are close to an edge is left alone. *)
Lemma axis_idle a target lft lh rgt e : vfin lft -> vfin rgt -> is_edge e -> Rabs (vR lft a - e) <= 0.0102 -> Rabs (vR rgt a - e) <= 0.0102 ->
  limit_axis target a (lft, lh, rgt) = Ok (lft, lh, rgt).
Proof using heps PA.
  intros fl fr he h1 h2. apply Rabs_le_inv in h1, h2.
  assert (KL : coord_ok (vget lft a)). { split; [apply fl|]. unfold vR in h1. destruct he as [-> | ->]; lra. }
  assert (KR : coord_ok (vget rgt a)). { split; [apply fr|]. unfold vR in h2. destruct he as [-> | ->]; lra. }
  destruct (limit_axis_cases eps heps PA a target lft lh rgt KL KR) as [[_ E]|(o & l & r & ho & hp & I & E)]; rewrite E; [reflexivity|].
  pose proof (i_l _ _ _ _ _ _ I) as hl. pose proof (i_r _ _ _ _ _ _ I) as hr. 
  change 8%nat with (S 7). rewrite (limit_S 7).
  rewrite (chk_ok (r - l)) by lia. cbn [bind]. rewrite (chk_ok (Z.abs (r - l))) by lia. cbn [bind].
  destruct (Z.leb_spec (Z.abs (r - l)) 1) as [c|c]; [reflexivity|exfalso].
  destruct (i_o _ _ _ _ _ _ I) as [x|x]; [lia|]. destruct (between o l r ho hl hr c x) as [hm hb]. set (m := ((l + r) / 2)%Z) in *. clearbody m.
  assert (IL := i_left _ _ _ _ _ _ I m hm ltac:(lia)). assert (IR := i_right _ _ _ _ _ _ I m hm ltac:(lia)).
  destruct (cr_range m hm) as (C1 & C2 & _). pose proof (edge_far e m he hm) as Y. revert Y. unfold Rabs. destruct (Rcase_abs _); destruct ho as [-> | ->]; lra.
Qed.

(** Second axis, when the points are well apart: they stay on the line. *)
Lemma axis_two V D target lft lh rgt : box V D 0 100 -> geo V D 1 -> onl V D (3 / 10 ^ 6) (4 / 10 ^ 12) lft -> onl V D (3 / 10 ^ 6) (4 / 10 ^ 12) rgt ->
  (forall j, 1 / 10 ^ 4 * Rabs (D j) - 8 / 10 ^ 12 <= Rabs (vR rgt j - vR lft j)) ->
  exists lft' lh' rgt', limit_axis target 1 (lft, lh, rgt) = Ok (lft', lh', rgt') /\ onl V D (1.2 / 10 ^ 4) (8 / 10 ^ 12) lft' /\ onl V D (1.2 / 10 ^ 4) (8 / 10 ^ 12) rgt'.
Proof using heps PA.
  intros B G OL OR AP.
  assert (SG0 : 0 <= 3 / 10 ^ 6) by lra.
  assert (RG : forall j, -0.0004 <= vR lft j <= 100.0004 /\ -0.0004 <= vR rgt j <= 100.0004).
  { intro j. pose proof (onl_range V D _ _ _ _ _ B SG0 OL j). pose proof (onl_range V D _ _ _ _ _ B SG0 OR j). lra. }
  assert (FL := proj1 OL). assert (FR := proj1 OR).
  assert (KL : coord_ok (vget lft 1)). { split; [apply FL|]. destruct (RG 1%Z) as [b _]. unfold vR in b. lra. }
  assert (KR : coord_ok (vget rgt 1)). { split; [apply FR|]. destruct (RG 1%Z) as [_ b]. unfold vR in b. lra. }
  assert (SAME : exists lft' lh' rgt', Ok (lft, lh, rgt) = Ok (lft', lh', rgt') /\ onl V D (1.2 / 10 ^ 4) (8 / 10 ^ 12) lft' /\ onl V D (1.2 / 10 ^ 4) (8 / 10 ^ 12) rgt').
  { exists lft, lh, rgt. split; [reflexivity|]. split; (eapply onl_wider; [| |eassumption]; lra). }
  destruct (limit_axis_cases eps heps PA 1 target lft lh rgt KL KR) as [[_ E]|(o & l & r & ho & hp & I & E)]; rewrite E; [exact SAME|].
  pose proof (i_l _ _ _ _ _ _ I) as hl. pose proof (i_r _ _ _ _ _ _ I) as hr.
  change 8%nat with (S 7). rewrite (limit_S 7).
  rewrite (chk_ok (r - l)) by lia. cbn [bind]. rewrite (chk_ok (Z.abs (r - l))) by lia. cbn [bind].
  destruct (Z.leb_spec (Z.abs (r - l)) 1) as [c|c]; [exact SAME|clear SAME].
  rewrite (chk_ok (l + r)) by lia. cbn [bind]. rewrite mid_plane by lia.
  destruct (i_o _ _ _ _ _ _ I) as [x|x]; [lia|]. destruct (between o l r ho hl hr c x) as [hm hb]. set (m := ((l + r) / 2)%Z) in *. clearbody m.
  destruct (plane_index m hm) as (P & EP & FP & BP). rewrite EP. cbn [bind]. cbv zeta.
  assert (B' : box V D (-0.1) 100.1) by (intro j; specialize (B j); lra).
  assert (GQ : cr m * kap m <= 5 / 10 ^ 5 * (IZR o * (vR rgt 1 - vR lft 1))).
  { destruct (cr_range m hm) as (C1 & C2 & C3). assert (HL := onl_hull V D 1 _ _ lft SG0 OL). assert (HR := onl_hull V D 1 _ _ rgt SG0 OR).
    assert (IL := i_left _ _ _ _ _ _ I m hm ltac:(lia)). assert (IR := i_right _ _ _ _ _ _ I m hm ltac:(lia)).
    assert (KC : cr m * kap m <= cr m * (2 / 10 ^ 11)) by (apply Rmult_le_compat_l; [lra|unfold kap; destruct (m <=? 9)%Z; lra]).
    assert (AG : Rabs (vR rgt 1 - vR lft 1) = IZR o * (vR rgt 1 - vR lft 1)).
    { destruct ho as [-> | ->]; [rewrite Rabs_pos_eq; lra|]. rewrite <- Rabs_Ropp, Rabs_pos_eq; lra. }
    specialize (AP 1%Z). rewrite AG in AP.
    destruct (geo_wide V D 1 m (cr m * kap m + 4 / 10 ^ 12) (3 / 10 ^ 6) B G hm ltac:(lra) ltac:(lra) ltac:(lra)) as [w|[w|w]]; [destruct ho as [-> | ->]; lra| | |]; lra. }
  destruct (step_q (5 / 10 ^ 5) V D o 1 lft rgt l r m P (3 / 10 ^ 6) (4 / 10 ^ 12) ho B' I ltac:(lra) (conj hp GQ) ltac:(lra) ltac:(lra) OL OR hm hb FP) as [OM AM]; [unfold cr; lra|].
  set (mid := set_coordinate lft P rgt 1) in *. clearbody mid.
  assert (OL' : onl V D (3 / 10 ^ 6 + 2.1 * (5 / 10 ^ 5)) (4 / 10 ^ 12 + 4 / 10 ^ 13) lft) by (eapply onl_wider; [| |exact OL]; lra).
  assert (OR' : onl V D (3 / 10 ^ 6 + 2.1 * (5 / 10 ^ 5)) (4 / 10 ^ 12 + 4 / 10 ^ 13) rgt) by (eapply onl_wider; [| |exact OR]; lra).
  destruct (are_in_cyclic_order lh target (hue_of mid)).
  - destruct (loop_line V D o 1 target ho B' 7 lft lh mid l m (3 / 10 ^ 6 + 2.1 * (5 / 10 ^ 5)) (4 / 10 ^ 12 + 4 / 10 ^ 13) (inv_left o 1 lft rgt mid l r m ho I hm hb AM) ltac:(lra) ltac:(simpl INR; lra) ltac:(lra) ltac:(simpl INR; lra) OL' OM) as (x1 & x2 & x3 & E' & O1 & O2).
    exists x1, x2, x3. split; [exact E'|]. split; (eapply onl_wider; [| |eassumption]; simpl INR; lra).
  - destruct (loop_line V D o 1 target ho B' 7 mid (hue_of mid) rgt m r (3 / 10 ^ 6 + 2.1 * (5 / 10 ^ 5)) (4 / 10 ^ 12 + 4 / 10 ^ 13) (inv_right o 1 lft rgt mid l r m ho I hm hb AM) ltac:(lra) ltac:(simpl INR; lra) ltac:(lra) ltac:(simpl INR; lra) OM OR') as (x1 & x2 & x3 & E' & O1 & O2).
    exists x1, x2, x3. split; [exact E'|]. split; (eapply onl_wider; [| |eassumption]; simpl INR; lra).
Qed.

Definition good (y : R) (p : vec3) : Prop := vfin p /\ (forall j, -0.022 <= vR p j <= 100.022) /\ -0.0096 <= lum (vR p) - y <= 0.0096.

Lemma rest_good y a target o lft lh rgt l r : (o = 1 \/ o = -1)%Z -> inv o a lft rgt l r -> vfin lft -> vfin rgt ->
  (forall j, -0.0217 <= vR lft j <= 100.0217 /\ -0.0217 <= vR rgt j <= 100.0217) ->
  - (0.00951) <= lum (vR lft) - y <= 0.00951 -> - (0.00951) <= lum (vR rgt) - y <= 0.00951 ->
  exists lft' lh' rgt', limit_loop 7 target a lft lh rgt l r = Ok (lft', lh', rgt') /\ good y lft' /\ good y rgt'.
Proof using.
  intros ho I fl fr R L1 L2. set (V := vR lft). set (D := fun j => vR rgt j - vR lft j).
  assert (B : box V D (-0.0217) 100.0217) by (intro j; specialize (R j); unfold V, D; lra).
  assert (B' : box V D (-0.1) 100.1) by (intro j; specialize (B j); lra).
  destruct (vR_line lft rgt fl fr) as [OL OR].
  destruct (loop_line V D o a target ho B' 7 lft lh rgt l r 0 0 I) as (x1 & x2 & x3 & E & O1 & O2); [simpl INR; lra|simpl INR; lra|lra|simpl INR; lra|exact OL|exact OR|].
  assert (S0 : 0 <= 0 + INR 7 * (3 / 10 ^ 7) <= 1 / 10 ^ 3) by (simpl INR; lra).
  assert (L2' : - (0.00951) <= lum (fun j => V j + D j) - y <= 0.00951).
  { replace (lum (fun j => V j + D j)) with (lum (vR rgt)) by (unfold lum, V, D; ring). exact L2. }
  assert (K : forall x, onl V D (0 + INR 7 * (3 / 10 ^ 7)) (0 + INR 7 * (4 / 10 ^ 13)) x -> good y x).
  { intros x O. split; [apply O|]. split.
    - intro j. pose proof (onl_range V D _ _ _ _ _ B (proj1 S0) O j) as Z1. simpl INR in Z1. lra.
    - pose proof (lum_line V D _ _ x y 0.00951 S0 L1 L2' O) as Z1. simpl INR in Z1. lra. }
  exists x1, x2, x3. split; [exact E|]. split; apply K; assumption.
Qed.

(** Last axis. *)
Lemma axis_three y V D target lft lh rgt : box V D 0 100 -> geo V D 2 -> onl V D (1.2 / 10 ^ 4) (8 / 10 ^ 12) lft -> onl V D (1.2 / 10 ^ 4) (8 / 10 ^ 12) rgt ->
  - (1 / 10 ^ 8) <= lum V - y <= 1 / 10 ^ 8 -> - (1 / 10 ^ 8) <= lum (fun j => V j + D j) - y <= 1 / 10 ^ 8 ->
  exists lft' lh' rgt', limit_axis target 2 (lft, lh, rgt) = Ok (lft', lh', rgt') /\ good y lft' /\ good y rgt'.
Proof using heps PA.
  intros B G OL OR Y1 Y2.
  assert (SG0 : 0 <= 1.2 / 10 ^ 4 <= 1 / 10 ^ 3) by lra.
  assert (RG : forall j, -0.0121 <= vR lft j <= 100.0121 /\ -0.0121 <= vR rgt j <= 100.0121).
  { intro j. pose proof (onl_range V D _ _ _ _ _ B (proj1 SG0) OL j). pose proof (onl_range V D _ _ _ _ _ B (proj1 SG0) OR j). lra. }
  pose proof (lum_line V D _ _ lft y _ SG0 Y1 Y2 OL) as YL. pose proof (lum_line V D _ _ rgt y _ SG0 Y1 Y2 OR) as YR.
  assert (FL := proj1 OL). assert (FR := proj1 OR).
  assert (KL : coord_ok (vget lft 2)). { split; [apply FL|]. destruct (RG 2%Z) as [b _]. unfold vR in b. lra. }
  assert (KR : coord_ok (vget rgt 2)). { split; [apply FR|]. destruct (RG 2%Z) as [_ b]. unfold vR in b. lra. }
  assert (SAME : exists lft' lh' rgt', Ok (lft, lh, rgt) = Ok (lft', lh', rgt') /\ good y lft' /\ good y rgt').
  { exists lft, lh, rgt. split; [reflexivity|]. split; (split; [assumption|split; [intro j; specialize (RG j); lra|lra]]). }
  destruct (limit_axis_cases eps heps PA 2 target lft lh rgt KL KR) as [[_ E]|(o & l & r & ho & hp & I & E)]; rewrite E; [exact SAME|].
  pose proof (i_l _ _ _ _ _ _ I) as hl. pose proof (i_r _ _ _ _ _ _ I) as hr.
  change 8%nat with (S 7). rewrite (limit_S 7).
  rewrite (chk_ok (r - l)) by lia. cbn [bind]. rewrite (chk_ok (Z.abs (r - l))) by lia. cbn [bind].
  destruct (Z.leb_spec (Z.abs (r - l)) 1) as [c|c]; [exact SAME|clear SAME].
  rewrite (chk_ok (l + r)) by lia. cbn [bind]. rewrite mid_plane by lia.
  destruct (i_o _ _ _ _ _ _ I) as [x|x]; [lia|]. destruct (between o l r ho hl hr c x) as [hm hb]. set (m := ((l + r) / 2)%Z) in *. clearbody m.
  destruct (plane_index m hm) as (P & EP & FP & BP). rewrite EP. cbn [bind]. cbv zeta.
  assert (OL' : onl V D (2 / 10 ^ 4) (8 / 10 ^ 12) lft) by (eapply onl_wider; [| |exact OL]; lra).
  assert (OR' : onl V D (2 / 10 ^ 4) (8 / 10 ^ 12) rgt) by (eapply onl_wider; [| |exact OR]; lra).
  destruct (wide_bound V D 2 o lft rgt l r m B G OL' OR' ho hp I hm hb) as [g1 HB].
  destruct (wide_step o 2 lft rgt l r m P 0.0095 (-0.0121) 100.0121 ho I FL FR RG ltac:(lra) ltac:(lra) hm hb FP ltac:(unfold cr; lra) g1 ltac:(lra) HB) as (FM & RM & AM & u & hu & UM).
  set (mid := set_coordinate lft P rgt 2) in *. clearbody mid.
  assert (YM : - (0.00951) <= lum (vR mid) - y <= 0.00951).
  { pose proof (lum_near (vR mid) (fun j => vR lft j + (vR rgt j - vR lft j) * u) _ UM) as N.
    pose proof (mix (- (1.003 * (1 / 10 ^ 8) + 8 / 10 ^ 12)) (1.003 * (1 / 10 ^ 8) + 8 / 10 ^ 12) (lum (vR lft) - y) (lum (vR rgt) - y) u 0 YL YR ltac:(lra) ltac:(lra)) as M.
    replace (lum (fun j => vR lft j + (vR rgt j - vR lft j) * u)) with (lum (vR lft) + (lum (vR rgt) - lum (vR lft)) * u) in N by (unfold lum; ring). lra. }
  destruct (are_in_cyclic_order lh target (hue_of mid)).
  - apply (rest_good y 2 target o lft lh mid l m ho (inv_left o 2 lft rgt mid l r m ho I hm hb AM) FL FM); [|lra|lra]. intro j. specialize (RG j). specialize (RM j). lra.
  - apply (rest_good y 2 target o mid (hue_of mid) rgt m r ho (inv_right o 2 lft rgt mid l r m ho I hm hb AM) FM FR); [|lra|lra]. intro j. specialize (RG j). specialize (RM j). lra.
Qed.

(** All three axes. *)
Lemma axes_good y target lft lh rgt : vfin lft -> vfin rgt -> let V := vR lft in let D := fun j => vR rgt j - vR lft j in
  box V D 0 100 -> geo V D 0 -> geo V D 1 -> geo V D 2 ->
  (forall w, w = lft \/ w = rgt -> ~ is_edge (vR w 0) -> is_edge (vR w 1) /\ is_edge (vR w 2)) ->
  - (1 / 10 ^ 8) <= lum (vR lft) - y <= 1 / 10 ^ 8 -> - (1 / 10 ^ 8) <= lum (vR rgt) - y <= 1 / 10 ^ 8 ->
  exists a b c, (do s0 <- limit_axis target 0 (lft, lh, rgt); do s1 <- limit_axis target 1 s0; limit_axis target 2 s1) = Ok (a, b, c) /\ good y a /\ good y c.
Proof using heps PA.
  intros fl fr V D B G0 G1 G2 HV Y1 Y2.
  assert (Y2' : - (1 / 10 ^ 8) <= lum (fun j => V j + D j) - y <= 1 / 10 ^ 8).
  { replace (lum (fun j => V j + D j)) with (lum (vR rgt)) by (unfold lum, V, D; ring). exact Y2. }
  destruct (axis_one target lft lh rgt fl fr B G0) as (x1 & x2 & x3 & E1 & O1 & O2 & [AP|(w & hw & ne & CL)]); rewrite E1; cbn [bind].
  - destruct (axis_two _ _ target x1 x2 x3 B G1 O1 O2 AP) as (y1 & y2 & y3 & E2 & P1 & P2). rewrite E2. cbn [bind].
    destruct (axis_three y _ _ target y1 y2 y3 B G2 P1 P2) as (a & b & c & E3 & Ga & Gc).
    + exact Y1.
    + exact Y2'.
    + exists a, b, c. split; [exact E3|]. split; assumption.
  - destruct (HV w hw ne) as [e1 e2].
    rewrite (axis_idle 1 target x1 x2 x3 (vR w 1) (proj1 O1) (proj1 O2) e1) by (destruct (CL 1%Z); lra). cbn [bind].
    rewrite (axis_idle 2 target x1 x2 x3 (vR w 2) (proj1 O1) (proj1 O2) e2) by (destruct (CL 2%Z); lra). cbn [bind].
    exists x1, x2, x3. split; [reflexivity|].
    assert (SG0 : 0 <= 3 / 10 ^ 6 <= 1 / 10 ^ 3) by lra.
    assert (K : forall x, onl V D (3 / 10 ^ 6) (4 / 10 ^ 12) x -> good y x).
    { intros x O. split; [apply O|]. split.
      - intro j. pose proof (onl_range V D _ _ _ _ _ B (proj1 SG0) O j) as Z1. lra.
      - pose proof (lum_line V D _ _ x y _ SG0 Y1 Y2' O) as Z1. lra. }
    split; apply K; assumption.
Qed.
End Plane.
