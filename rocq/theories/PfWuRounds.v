(** * Wu's choices: which box is cut next.  Proof file. *)
From Coq Require Import ZArith Bool List Lia Lra Reals FMapPositive String Psatz Permutation.
From Flocq Require Import Core IEEE754.BinarySingleNaN.
From Verif Require Import F64 ColorUtils Assoc QuantizerMap QuantizerWu SpecWu SpecWuBest SpecQuantize FloatFacts FloatMono PfHct PfScore PfRel PfWuMoments PfWuSums PfWuBoxes PfWuBest PfWuCut PfWu.
Import ListNotations.
Open Scope string_scope.
Open Scope list_scope.
Open Scope Z_scope.

Lemma ceil_quot a q n : 0 < n -> Zceil (IZR a - IZR q / IZR n) = a - q / n.
Proof.
  intros H. pose proof (Z.div_mod q n ltac:(lia)) as D. pose proof (Z.mod_pos_bound q n H) as M.
  assert (E : (IZR q / IZR n = IZR (q / n) + IZR (q mod n) / IZR n)%R).
  { assert (IZR n <> 0)%R by (apply IZR_lt in H; lra). rewrite D at 1. rewrite plus_IZR, mult_IZR. field. assumption. }
  assert (HR := IZR_lt _ _ H). destruct M as (M0 & M1). apply IZR_le in M0. apply IZR_lt in M1.
  assert (0 <= IZR (q mod n) / IZR n < 1)%R as (x0 & x1).
  { split; [apply Rmult_le_pos; [exact M0|apply Rlt_le, Rinv_0_lt_compat, HR]|]. apply Rmult_lt_reg_r with (IZR n); [exact HR|]. unfold Rdiv. rewrite Rmult_assoc, Rinv_l by lra. lra. }
  apply Zceil_imp. rewrite E. rewrite !minus_IZR. lra.
Qed.

Lemma Forall2_set {A B} (R : A -> B -> Prop) l l' k x y : Forall2 R l l' -> R x y -> Forall2 R (list_set l k x) (list_set l' k y).
Proof. intros F H. revert k. induction F as [|a b l l' Hab F IH]; intros [|k]; cbn [list_set]; constructor; auto. Qed.
Lemma map_set {A B} (f : A -> B) l k x : map f (list_set l k x) = list_set (map f l) k (f x).
Proof. revert k. induction l as [|a l IH]; intros [|k]; cbn [list_set map]; [reflexivity..|]. now rewrite IH. Qed.
Lemma set_app {A} (s1 : list A) x s2 y : list_set (s1 ++ x :: s2) (List.length s1) y = s1 ++ y :: s2.
Proof. induction s1 as [|a s1 IH]; cbn [app List.length list_set]; [reflexivity|]. now rewrite IH. Qed.
Lemma Forall2_nth {A B} (R : A -> B -> Prop) l l' j y : Forall2 R l l' -> nth_error l' j = Some y -> exists x, nth_error l j = Some x /\ R x y.
Proof.
  intros F. revert j. induction F as [|a b l l' Hab F IH]; intros [|j] E; cbn [nth_error] in *; try discriminate E; [injection E as <-; now exists a|auto].
Qed.
Lemma Forall2_nth_l {A B} (R : A -> B -> Prop) l l' j x : Forall2 R l l' -> nth_error l j = Some x -> exists y, nth_error l' j = Some y /\ R x y.
Proof.
  intros F. revert j. induction F as [|a b l l' Hab F IH]; intros [|j] E; cbn [nth_error] in *; try discriminate E; [injection E as <-; now exists b|auto].
Qed.

Lemma F2_length {A B} (R : A -> B -> Prop) l l' : Forall2 R l l' -> List.length l = List.length l'.
Proof. induction 1; cbn [List.length]; congruence. Qed.

Section Rounds.
Variables (ps : list (Z * Z)) (w : wu).
Hypothesis (S : sums_wu ps w).
Hypothesis (FS : fsums ps (w_moments w)).
Hypothesis (FT : fits ps).
Let NN : nonneg ps := proj1 FT.

Lemma variance_val c : in_cube c -> 0 < weighted one (inside c) ps -> exists v, variance w c = Ok v /\ isz v (Zceil (spread (inside c) ps)).
Proof.
  intros I NZ. pose proof S as (Sw & Sr & Sg & Sb). unfold variance.
  pose proof (volume_case ps _ _ c chan_r Sr I) as Vr. destruct (volume c (w_moments_r w)) as [vr|]; [rewrite bind_Ok; subst vr|contradiction].
  pose proof (volume_case ps _ _ c chan_g Sg I) as Vg. destruct (volume c (w_moments_g w)) as [vg|]; [rewrite bind_Ok; subst vg|contradiction].
  pose proof (volume_case ps _ _ c chan_b Sb I) as Vb. destruct (volume c (w_moments_b w)) as [vb|]; [rewrite bind_Ok; subst vb|contradiction].
  cbv zeta. pose proof I as I'. unfold in_cube in I'. rewrite !get_ok by (apply idx_range; unfold co; lia). rewrite !bind_Ok.
  pose proof (squares_case ps _ _ _ (sel_small ps _ (inside c) chan_r) (sel_small ps _ (inside c) chan_g) (sel_small ps _ (inside c) chan_b)) as Q.
  destruct (sum_squares _ _ _) as [sq|]; [rewrite bind_Ok|contradiction].
  pose proof (volume_case ps _ _ c chan_one Sw I) as Vw. destruct (volume c (w_weights w)) as [vw|]; [rewrite bind_Ok; subst vw|contradiction].
  destruct (Z.eqb_spec (weighted one (inside c) ps) 0) as [Z0|_]; [lia|]. eexists. split; [reflexivity|].
  fold (sqs (inside c) ps) in Q. subst sq.
  rewrite (spread_eq (inside c) ps) by lia. unfold gain. rewrite ceil_quot by exact NZ.
  pose proof (sqs_range ps FT (inside c)) as SR. rewrite Z.quot_div_nonneg by lia.
  assert (QB : 0 <= sqs (inside c) ps / weighted one (inside c) ps <= weighted squares (inside c) ps).
  { split; [apply Z.div_pos; lia|]. apply le_IZR. pose proof (gain_le ps FT _ NZ) as (_ & G). apply Rle_trans with (gain (inside c) ps); [|exact G].
    unfold gain. apply IZR_lt in NZ as NR. apply Rmult_le_reg_r with (IZR (weighted one (inside c) ps)); [exact NR|]. unfold Rdiv. rewrite Rmult_assoc, Rinv_l by lra.
    rewrite Rmult_1_r, <- mult_IZR. apply IZR_le. pose proof (Z.mul_div_le (sqs (inside c) ps) _ NZ). lia. }
  pose proof (P_sel (inside c) ps NN) as PS. pose proof (P_fits ps FT) as PF.
  assert (T : forall r g b, co r -> co g -> co b -> 0 <= weighted squares (dominated r g b) ps <= 1000000000000000 /\ isz (aread (dec "0.0") (w_moments w) (get_index r g b)) (weighted squares (dominated r g b) ps)).
  { intros r g b R G B. split; [pose proof (P_sel (dominated r g b) ps NN); lia|]. now apply FS. }
  apply isz_sub; [|apply isz_of; unfold LIM; lia|unfold LIM; lia].
  rewrite (inclusion_exclusion squares ps c I) in *.
  destruct (T (b_r1 c) (b_g1 c) (b_b1 c)) as (x1 & y1); [unfold co; lia..|]. destruct (T (b_r1 c) (b_g1 c) (b_b0 c)) as (x2 & y2); [unfold co; lia..|].
  destruct (T (b_r1 c) (b_g0 c) (b_b1 c)) as (x3 & y3); [unfold co; lia..|]. destruct (T (b_r1 c) (b_g0 c) (b_b0 c)) as (x4 & y4); [unfold co; lia..|].
  destruct (T (b_r0 c) (b_g1 c) (b_b1 c)) as (x5 & y5); [unfold co; lia..|]. destruct (T (b_r0 c) (b_g1 c) (b_b0 c)) as (x6 & y6); [unfold co; lia..|].
  destruct (T (b_r0 c) (b_g0 c) (b_b1 c)) as (x7 & y7); [unfold co; lia..|]. destruct (T (b_r0 c) (b_g0 c) (b_b0 c)) as (x8 & y8); [unfold co; lia..|].
  clear T QB PS SR.
  repeat first [apply isz_sub; [|eassumption|unfold LIM; lia] | apply isz_add; [|eassumption|unfold LIM; lia]]. exact y1.
Qed.
Lemma priority_nonneg c : 0 <= priority ps c.
Proof.
  unfold priority. destruct (1 <? cell_count c); [|lia]. rewrite <- (Zceil_IZR 0). apply Zceil_le. apply spread_nonneg, NN.
Qed.
Lemma box_val c : in_cube c -> 0 < weighted one (inside c) ps -> exists v, box_variance w (set_vol c) = Ok v /\ isz v (priority ps (set_vol c)).
Proof.
  intros I NZ. unfold box_variance, priority. change (cell_count (set_vol c)) with (b_vol (set_vol c)). destruct (1 <? b_vol (set_vol c)).
  - apply variance_val; [exact I|exact NZ].
  - exists (dec "0.0"). split; [reflexivity|exact isz_0].
Qed.

(** ** The slots *)
Definition keep (e : box * Z) : bool := in_use (fst e).
Definition free : box * Z := (empty_box, 0).
Lemma strict_keep c v : strict c -> keep (c, v) = true.
Proof.
  unfold strict, keep, in_use, cell_count. cbn [fst]. intros H. destruct (Z.eqb_spec ((b_r1 c - b_r0 c) * (b_g1 c - b_g0 c) * (b_b1 c - b_b0 c)) 0) as [E|E]; [exfalso|reflexivity].
  assert (0 < (b_r1 c - b_r0 c) * (b_g1 c - b_g0 c)) by nia. nia.
Qed.
Record slots (n i : nat) (sl : list (box * Z)) (vv : list f64) : Prop := {
  s_len : List.length sl = n;
  s_val : Forall2 (fun v e => isz v (snd e)) vv sl;
  s_box : forall e, In e sl -> (strict (fst e) /\ 0 <= snd e) \/ e = free;
  s_tail : forall j e, (i <= j)%nat -> nth_error sl j = Some e -> e = free
}.
Lemma free_tail s : (forall e, In e s -> e = free) -> filter keep s = [].
Proof. induction s as [|e s IH]; intros H; [reflexivity|]. cbn [filter]. rewrite (H e (or_introl eq_refl)). cbn. apply IH. intros x X. apply H. now right. Qed.

Lemma argmax_val vv (sl : list (box * Z)) js : Forall2 (fun v e => isz v (snd e)) vv sl -> (forall j, In j js -> 0 <= j < Z.of_nat (List.length sl)) ->
  forall next temp e, 0 <= next -> nth_error sl (Z.to_nat next) = Some e -> isz temp (snd e) ->
  exists next' temp' e', argmax_loop vv js next temp = Ok (next', temp') /\ 0 <= next' /\ nth_error sl (Z.to_nat next') = Some e' /\ isz temp' (snd e') /\
    snd e <= snd e' /\ (forall j x, In j js -> nth_error sl (Z.to_nat j) = Some x -> snd x <= snd e') /\ (next' = next \/ In next' js).
Proof.
  intros F. induction js as [|j js IH]; intros R next temp e NX E T; cbn [argmax_loop].
  - exists next, temp, e. repeat split; auto; try apply T; [lia|]. intros j x [].
  - assert (Rj := R j (or_introl eq_refl)). assert (LV : List.length vv = List.length sl) by (eapply F2_length; exact F).
    destruct (index_ok vv j ltac:(lia)) as (v & -> & EV). rewrite bind_Ok. destruct (Forall2_nth_l _ _ _ _ _ F EV) as (x & EX & IX).
    specialize (IH (fun j H => R j (or_intror H))).
    unfold fgt. change (Bltb temp v) with (flt temp v). destruct (flt temp v) eqn:G.
    + apply (flt_fin temp v (proj1 T) (proj1 IX)) in G. rewrite (proj2 T), (proj2 IX) in G. apply lt_IZR in G.
      destruct (IH j v x ltac:(lia) EX IX) as (n' & t' & e' & A & B & C & D & L & M & O). exists n', t', e'. repeat (split; [assumption|]). split; [lia|]. split.
      * intros k y [<-|K] Y; [rewrite EX in Y; injection Y as <-; exact L|now apply (M k)].
      * right. destruct O as [->|O]; [now left|now right].
    + apply (flt_fin_f temp v (proj1 T) (proj1 IX)) in G. rewrite (proj2 T), (proj2 IX) in G. apply le_IZR in G.
      destruct (IH next temp e NX E T) as (n' & t' & e' & A & B & C & D & L & M & O). exists n', t', e'. repeat (split; [assumption|]). split.
      * intros k y [<-|K] Y; [rewrite EX in Y; injection Y as <-; lia|now apply (M k)].
      * destruct O as [->|O]; [now left|right; now right].
Qed.

(** The largest priority of the slots up to [i], which contain all that are in use. *)
Lemma next_val n i sl vv : (1 <= i <= n)%nat -> slots n i sl vv ->
  exists t0 next temp e, index vv 0 = Ok t0 /\ argmax_loop vv (zseq 1 (Z.of_nat i)) 0 t0 = Ok (next, temp) /\ 0 <= next /\
    nth_error sl (Z.to_nat next) = Some e /\ isz temp (snd e) /\ (forall x, In x sl -> snd x <= snd e).
Proof.
  intros I V. assert (LV : List.length vv = List.length sl) by (eapply F2_length; exact (s_val _ _ _ _ V)). rewrite (s_len _ _ _ _ V) in LV.
  destruct (index_ok vv 0 ltac:(lia)) as (t0 & I0 & E0). destruct (Forall2_nth_l _ _ _ _ _ (s_val _ _ _ _ V) E0) as (e0 & X0 & Z0).
  destruct (argmax_val vv sl (zseq 1 (Z.of_nat i)) (s_val _ _ _ _ V)) with (next := 0) (temp := t0) (e := e0) as (n' & t' & e' & A & B & C & D & L & M & _); auto; [|lia|].
  { intros j. rewrite in_zseq, (s_len _ _ _ _ V). lia. }
  exists t0, n', t', e'. repeat (split; [assumption|]). intros x X. apply In_nth_error in X. destruct X as (j & X).
  assert (P0 : forall y, In y sl -> 0 <= snd y). { intros y Y. destruct (s_box _ _ _ _ V y Y) as [(_ & H)| ->]; [exact H|cbn; lia]. }
  destruct (Nat.le_gt_cases i j) as [T|T].
  - rewrite (s_tail _ _ _ _ V j x T X). cbn [free snd]. apply P0. now apply nth_error_In in C.
  - destruct j as [|j]; [change (Z.to_nat 0) with 0%nat in X0; rewrite X0 in X; injection X as <-; exact L|].
    apply (M (Z.of_nat (Datatypes.S j)) x); [apply in_zseq; lia|]. now rewrite Nat2Z.id.
Qed.

Definition finished n (cubes : list box) (count : Z) : Prop := exists m l,
  rounds ps [(whole_cube, 0)] m l /\ m <= n - 1 /\ (m = n - 1 \/ 1 <= m /\ forall e, In e l -> snd e = 0) /\
  map fst l = filter in_use cubes.
Lemma keep_map sl : map fst (filter keep sl) = filter in_use (map fst sl).
Proof. induction sl as [|e sl IH]; [reflexivity|]. cbn [filter map]. unfold keep at 1. destruct (in_use (fst e)); cbn [map]; now rewrite IH. Qed.

Lemma boxes_rounds n : forall (i : nat) k sl vv next c v, (1 <= i)%nat -> (i + k = n)%nat ->
  slots n i sl vv -> 0 <= next -> nth_error sl (Z.to_nat next) = Some (c, v) -> strict c -> (forall e, In e sl -> snd e <= v) -> (i = 1%nat \/ 0 < v) ->
  rounds ps [(whole_cube, 0)] (Z.of_nat i - 1) (filter keep sl) ->
  exists cubes count, boxes_loop w (Z.of_nat n) (map (fun j => Z.of_nat j) (seq i k)) (map fst sl) vv next = Ok (cubes, count) /\
    finished (Z.of_nat n) cubes count.
Proof.
  intros i k. revert i. induction k as [|k IH]; intros i sl vv next c v I1 IK V NX EC SC MX PV RD; cbn [seq map boxes_loop].
  - exists (map fst sl), (Z.of_nat n). split; [reflexivity|]. exists (Z.of_nat i - 1), (filter keep sl). split; [exact RD|]. split; [lia|]. split; [left; lia|apply keep_map].
  - assert (LC := s_len _ _ _ _ V). assert (LV : List.length vv = List.length sl) by (eapply F2_length; exact (s_val _ _ _ _ V)).
    assert (LN : (Z.to_nat next < n)%nat) by (rewrite <- LC; apply nth_error_Some; congruence).
    assert (NI : (Z.to_nat next < i)%nat).
    { destruct (Nat.le_gt_cases i (Z.to_nat next)) as [X|X]; [|exact X]. pose proof (s_tail _ _ _ _ V _ _ X EC) as Q. unfold free in Q. injection Q as Qc _.
      rewrite Qc in SC. unfold strict, empty_box in SC. cbn in SC. lia. }
    destruct (index_ok (map fst sl) next) as (c' & -> & EX); [rewrite map_length; lia|]. rewrite bind_Ok.
    rewrite (map_nth_error fst _ _ EC) in EX. injection EX as <-. cbn [fst].
    pose proof EC as SP. apply nth_error_split in SP. destruct SP as (s1 & s2' & ESL & L1).
    assert (MX' : forall s2, incl (filter keep s2) sl -> forall e, In e (filter keep s1 ++ filter keep s2) -> snd e <= v).
    { intros s2 IN e He. apply MX. apply in_app_or in He. destruct He as [He|He]; [|now apply IN]. rewrite ESL. apply filter_In in He. apply in_or_app. now left. }
    assert (PR : Z.of_nat i - 1 = 0 \/ exists e, In e (filter keep sl) /\ 0 < snd e).
    { destruct PV as [->|PV]; [left; lia|right]. exists (c, v). split; [|exact PV]. apply filter_In. split; [now apply nth_error_In in EC|]. now apply strict_keep. }
    destruct (cut_best ps w S FT c (strict_cube c SC)) as [(CU & SG)|(d & kk & B & CU & BC)]; rewrite CU, bind_Ok.
    + (* the box cannot be cut *)
      set (sl' := list_set sl (Z.to_nat next) (c, 0)).
      assert (E' : sl' = s1 ++ (c, 0) :: s2') by (unfold sl'; rewrite ESL, <- L1; apply set_app).
      assert (MF : map fst sl = map fst sl') by (rewrite E', ESL, !map_app; reflexivity).
      set (vv' := list_set vv (Z.to_nat next) (dec "0.0")).
      assert (V' : slots n i sl' vv').
      { constructor.
        - unfold sl'. now rewrite list_set_length.
        - apply Forall2_set; [exact (s_val _ _ _ _ V)|exact isz_0].
        - intros e He. rewrite E' in He. apply in_app_or in He. destruct He as [He|[<-|He]].
          + apply (s_box _ _ _ _ V). rewrite ESL. apply in_or_app. now left.
          + left. split; [exact SC|cbn; lia].
          + apply (s_box _ _ _ _ V). rewrite ESL. apply in_or_app. right. now right.
        - intros j e J. unfold sl'. rewrite list_set_nth by lia. destruct (Nat.eqb_spec (Z.to_nat next) j); [lia|]. now apply (s_tail _ _ _ _ V). }
      assert (RD' : rounds ps [(whole_cube, 0)] (Z.of_nat (Datatypes.S i) - 1) (filter keep sl')).
      { replace (Z.of_nat (Datatypes.S i) - 1) with ((Z.of_nat i - 1) + 1) by lia. apply (rounds_S ps _ _ (filter keep sl)); [exact RD|exact PR|].
        rewrite E', ESL, !filter_app. cbn [filter]. rewrite !(strict_keep c _ SC). apply round_stuck; [|exact SG].
        apply MX'. intros e He. rewrite ESL. apply filter_In in He. apply in_or_app. right. now right. }
      rewrite bind_Ok. fold vv'. replace (Z.of_nat i - 1 + 1) with (Z.of_nat i) by lia.
      destruct (next_val n i sl' vv' ltac:(lia) V') as (t0 & nx & tm & e & -> & AM & NX' & EN & TV & MM). rewrite bind_Ok, AM, bind_Ok.
      destruct (fle tm (dec "0.0")) eqn:LE.
      * apply (fle_fin tm _ (proj1 TV) (proj1 isz_0)) in LE. rewrite (proj2 TV), (proj2 isz_0) in LE. apply le_IZR in LE.
        exists (map fst sl), (Z.of_nat i). split; [reflexivity|]. exists (Z.of_nat (Datatypes.S i) - 1), (filter keep sl').
        split; [exact RD'|]. split; [lia|]. split; [|rewrite MF; apply keep_map]. right. split; [lia|]. intros x X. apply filter_In in X. destruct X as (X & _).
        specialize (MM x X). destruct (s_box _ _ _ _ V' x X) as [(_ & H)| ->]; [lia|reflexivity].
      * apply (fle_fin_f tm _ (proj1 TV) (proj1 isz_0)) in LE. rewrite (proj2 TV), (proj2 isz_0) in LE. apply lt_IZR in LE.
        rewrite MF. destruct e as (c2, v2). cbn [snd] in *.
        apply (IH (Datatypes.S i) sl' vv' nx c2 v2); try lia; auto.
        -- destruct V' as [A1 A2 A3 A4]. constructor; auto. intros j e J. apply A4. lia.
        -- destruct (s_box _ _ _ _ V' (c2, v2)) as [(H & _)|H]; [now apply nth_error_In in EN|exact H|]. unfold free in H. injection H as _ ->. lia.
    + (* the box is cut *)
      destruct (lower_used ps c d kk SC B) as ((SL & _) & (SU & _)). set (a := set_vol (lower c d kk)) in *. set (b := set_vol (upper c d kk)) in *.
      destruct (balanced_sides ps FT c d kk B) as (WA & WB & _). fold a b in WA, WB.
      destruct (box_val (lower c d kk)) as (v1 & X1 & Z1); [exact (strict_cube _ SL)|exact WA|]. fold a in X1. rewrite X1, bind_Ok.
      destruct (box_val (upper c d kk)) as (v2 & X2 & Z2); [exact (strict_cube _ SU)|exact WB|]. fold b in X2. rewrite X2, bind_Ok. fold a in Z1. fold b in Z2.
      rewrite bind_Ok, Nat2Z.id.
      assert (EF : nth_error s2' (i - Z.to_nat next - 1) = Some free).
      { assert (LI : (i < List.length sl)%nat) by lia. destruct (nth_error sl i) as [x|] eqn:E; [|apply nth_error_None in E; lia].
        pose proof (s_tail _ _ _ _ V i x ltac:(lia) E) as ->. rewrite ESL in E. rewrite nth_error_app2 in E by lia. rewrite L1 in E.
        replace (i - Z.to_nat next)%nat with (Datatypes.S (i - Z.to_nat next - 1)) in E by lia. exact E. }
      apply nth_error_split in EF. destruct EF as (s2 & s3 & E2 & L2).
      set (sl' := list_set (list_set sl (Z.to_nat next) (a, priority ps a)) i (b, priority ps b)).
      assert (E' : sl' = s1 ++ (a, priority ps a) :: s2 ++ (b, priority ps b) :: s3).
      { unfold sl'. rewrite ESL, <- L1, set_app, E2.
        replace (s1 ++ (a, priority ps a) :: s2 ++ free :: s3) with ((s1 ++ (a, priority ps a) :: s2) ++ free :: s3) by (rewrite <- app_assoc; reflexivity).
        replace i with (List.length (s1 ++ (a, priority ps a) :: s2)) by (rewrite app_length; cbn [List.length]; lia). rewrite set_app, <- app_assoc. reflexivity. }
      assert (MF : list_set (list_set (map fst sl) (Z.to_nat next) a) i b = map fst sl') by (unfold sl'; rewrite !map_set; reflexivity). rewrite MF.
      set (vv' := list_set (list_set vv (Z.to_nat next) v1) i v2).
      assert (TL : forall e, In e s3 -> e = free).
      { intros e He. apply In_nth_error in He. destruct He as (j & He). apply (s_tail _ _ _ _ V (List.length s1 + 1 + List.length s2 + 1 + j)%nat); [lia|].
        rewrite ESL, E2. rewrite nth_error_app2 by lia. replace (List.length s1 + 1 + List.length s2 + 1 + j - List.length s1)%nat with (Datatypes.S (List.length s2 + (1 + j)))%nat by lia.
        cbn [nth_error]. rewrite nth_error_app2 by lia. replace (List.length s2 + (1 + j) - List.length s2)%nat with (Datatypes.S j) by lia. exact He. }
      assert (V' : slots n (Datatypes.S i) sl' vv').
      { constructor.
        - unfold sl'. now rewrite !list_set_length.
        - apply Forall2_set; [apply Forall2_set; [exact (s_val _ _ _ _ V)|exact Z1]|exact Z2].
        - intros e He. rewrite E' in He. apply in_app_or in He. destruct He as [He|[<-|He]]; [|left; split; [exact SL|apply priority_nonneg]|apply in_app_or in He; destruct He as [He|[<-|He]]].
          + apply (s_box _ _ _ _ V). rewrite ESL. apply in_or_app. now left.
          + apply (s_box _ _ _ _ V). rewrite ESL, E2. apply in_or_app. right. right. apply in_or_app. now left.
          + left. split; [exact SU|apply priority_nonneg].
          + right. now apply TL.
        - intros j e J. unfold sl'. rewrite !list_set_nth by (rewrite ?list_set_length; lia). destruct (Nat.eqb_spec i j); [lia|]. destruct (Nat.eqb_spec (Z.to_nat next) j); [lia|].
          apply (s_tail _ _ _ _ V). lia. }
      assert (RD' : rounds ps [(whole_cube, 0)] (Z.of_nat (Datatypes.S i) - 1) (filter keep sl')).
      { replace (Z.of_nat (Datatypes.S i) - 1) with ((Z.of_nat i - 1) + 1) by lia. apply (rounds_S ps _ _ (filter keep sl)); [exact RD|exact PR|].
        rewrite E', ESL, E2, !filter_app. cbn [filter]. rewrite !filter_app. cbn [filter]. rewrite (strict_keep c _ SC), (strict_keep a _ SL), (strict_keep b _ SU).
        change (keep free) with false. cbv iota. rewrite (free_tail s3 TL), app_nil_r. apply round_cut; [|exact BC].
        apply MX'. intros e He. rewrite ESL, E2. apply filter_In in He. apply in_or_app. right. right. apply in_or_app. now left. }
      replace (Z.of_nat i + 1) with (Z.of_nat (Datatypes.S i)) by lia.
      destruct (next_val n (Datatypes.S i) sl' vv' ltac:(lia) V') as (t0 & nx & tm & e & -> & AM & NX' & EN & TV & MM). rewrite bind_Ok, AM, bind_Ok.
      destruct (fle tm (dec "0.0")) eqn:LE.
      * apply (fle_fin tm _ (proj1 TV) (proj1 isz_0)) in LE. rewrite (proj2 TV), (proj2 isz_0) in LE. apply le_IZR in LE.
        exists (map fst sl'), (Z.of_nat (Datatypes.S i)). split; [reflexivity|]. exists (Z.of_nat (Datatypes.S i) - 1), (filter keep sl').
        split; [exact RD'|]. split; [lia|]. split; [|apply keep_map]. right. split; [lia|]. intros x X. apply filter_In in X. destruct X as (X & _).
        specialize (MM x X). destruct (s_box _ _ _ _ V' x X) as [(_ & H)| ->]; [lia|reflexivity].
      * apply (fle_fin_f tm _ (proj1 TV) (proj1 isz_0)) in LE. rewrite (proj2 TV), (proj2 isz_0) in LE. apply lt_IZR in LE.
        destruct e as (c2, v3). cbn [snd] in *.
        apply (IH (Datatypes.S i) sl' vv' nx c2 v3); try lia; auto.
        destruct (s_box _ _ _ _ V' (c2, v3)) as [(H & _)|H]; [now apply nth_error_In in EN|exact H|]. unfold free in H. injection H as _ ->. lia.
Qed.
Lemma create_rounds n : 1 <= n -> exists cubes count, create_boxes w n = Ok (cubes, count) /\ finished n cubes count.
Proof.
  intros N1. unfold create_boxes. destruct (Z.leb_spec n 0); [lia|].
  change {| b_r0 := 0; b_r1 := MAX_INDEX; b_g0 := 0; b_g1 := MAX_INDEX; b_b0 := 0; b_b1 := MAX_INDEX; b_vol := 0 |} with whole_cube.
  replace (zseq 1 n) with (map (fun j : nat => Z.of_nat j) (seq 1 (Z.to_nat n - 1))).
  2:{ unfold zseq. replace (Z.to_nat (n - 1)) with (Z.to_nat n - 1)%nat by lia. rewrite <- seq_shift, map_map. apply map_ext. intros j. lia. }
  set (sl := (whole_cube, 0) :: repeat free (Z.to_nat n - 1)).
  assert (E : list_set (repeat empty_box (Z.to_nat n)) 0 whole_cube = map fst sl).
  { destruct (Z.to_nat n) as [|m] eqn:EN; [lia|]. unfold sl. cbn [repeat list_set map]. f_equal. replace (Datatypes.S m - 1)%nat with m by lia.
    clear. induction m as [|m IH]; [reflexivity|]. cbn [repeat map]. now rewrite IH. }
  rewrite E. assert (LS : List.length sl = Z.to_nat n) by (unfold sl; cbn [List.length]; rewrite repeat_length; lia).
  assert (SW : strict whole_cube) by (unfold strict; cbn; lia).
  pose proof (boxes_rounds (Z.to_nat n) 1 (Z.to_nat n - 1) sl (repeat (dec "0.0") (Z.to_nat n)) 0 whole_cube 0) as B.
  rewrite Z2Nat.id in B by lia. apply B; try lia; auto.
  - constructor.
    + exact LS.
    + assert (G : forall (s : list (box * Z)), (forall e, In e s -> snd e = 0) -> Forall2 (fun v e => isz v (snd e)) (repeat (dec "0.0") (List.length s)) s).
      { induction s as [|e s IH]; intros H0; cbn [List.length repeat]; constructor; [rewrite (H0 e (or_introl eq_refl)); exact isz_0|]. apply IH. intros x X. apply H0. now right. }
      rewrite <- LS. apply G. intros e [<-|He]; [reflexivity|]. apply repeat_spec in He. now rewrite He.
    + intros e [<-|He]; [left; split; [exact SW|cbn; lia]|right; now apply repeat_spec in He].
    + intros [|j] e J; [lia|]. unfold sl. cbn [nth_error]. intros X. apply nth_error_In, repeat_spec in X. exact X.
  - intros e [<-|He]; [cbn; lia|]. apply repeat_spec in He. rewrite He. cbn. lia.
  - unfold sl. cbn [filter]. rewrite (strict_keep _ _ SW). rewrite free_tail; [constructor|]. intros e He. now apply repeat_spec in He.
Qed.
End Rounds.
