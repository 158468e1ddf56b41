(** * Wu's choices: where a box is cut.  Proof file. *)
From Coq Require Import ZArith Bool List Lia Lra Reals FMapPositive String Psatz.
From Flocq Require Import Core IEEE754.BinarySingleNaN.
From Verif Require Import F64 ColorUtils Assoc QuantizerMap QuantizerWu SpecWu SpecWuBest FloatFacts FloatMono PfHct PfScore PfRel PfWuMoments PfWuSums PfWuBoxes PfWuBest.
Import ListNotations.
Open Scope string_scope.
Open Scope list_scope.
Open Scope Z_scope.

(** ** Spreads *)
Lemma around (f : Z -> Z) (sel : Z -> bool) (ps : list (Z * Z)) (m : R) :
  fold_right Rplus 0%R (map (fun e => if sel (fst e) then (IZR (snd e) * (IZR (f (fst e)) - m) ^ 2)%R else 0%R) ps) =
  (IZR (weighted (fun p => (f p * f p)%Z) sel ps) - 2 * m * IZR (weighted f sel ps) + m ^ 2 * IZR (weighted one sel ps))%R.
Proof.
  induction ps as [|e ps IH].
  - unfold weighted. cbn [map fold_right]. lra.
  - rewrite !weighted_cons. cbn [map fold_right]. rewrite IH. destruct (sel (fst e)); rewrite !plus_IZR; [|cbn; lra].
    rewrite !mult_IZR. unfold one at 2. cbn [IZR]. ring.
Qed.
Lemma weighted_squares sel ps : weighted squares sel ps = weighted (fun p => red_from_argb p * red_from_argb p) sel ps +
  weighted (fun p => green_from_argb p * green_from_argb p) sel ps + weighted (fun p => blue_from_argb p * blue_from_argb p) sel ps.
Proof.
  induction ps as [|e ps IH]; [reflexivity|]. rewrite !weighted_cons, IH. unfold squares. destruct (sel (fst e)); lia.
Qed.
Lemma spread_split (sel : Z -> bool) (ps : list (Z * Z)) : spread sel ps =
  (let one_ f := fold_right Rplus 0%R (map (fun e => if sel (fst e) then (IZR (snd e) * (IZR (f (fst e)) - center f sel ps) ^ 2)%R else 0%R) ps) in
  one_ red_from_argb + one_ green_from_argb + one_ blue_from_argb)%R.
Proof.
  unfold spread. cbv zeta. generalize (center red_from_argb sel ps) (center green_from_argb sel ps) (center blue_from_argb sel ps). intros mr mg mb.
  induction ps as [|e ps IH]; cbn [map fold_right]; [lra|]. rewrite IH. destruct (sel (fst e)); ring.
Qed.
(** Sums of a selection. *)
Definition sqs (sel : Z -> bool) ps : Z :=
  weighted red_from_argb sel ps * weighted red_from_argb sel ps + weighted green_from_argb sel ps * weighted green_from_argb sel ps +
  weighted blue_from_argb sel ps * weighted blue_from_argb sel ps.
Definition gain (sel : Z -> bool) ps : R := (IZR (sqs sel ps) / IZR (weighted one sel ps))%R.
Lemma spread_eq sel ps : weighted one sel ps <> 0 -> spread sel ps = (IZR (weighted squares sel ps) - gain sel ps)%R.
Proof.
  intros NZ. assert (NR : IZR (weighted one sel ps) <> 0%R) by (intros E; apply eq_IZR in E; contradiction).
  rewrite spread_split. cbv zeta beta. rewrite !around, weighted_squares. unfold center, gain, sqs. rewrite !plus_IZR, !mult_IZR. field. exact NR.
Qed.
Lemma spread_ext sel sel' ps : (forall p, sel p = sel' p) -> spread sel ps = spread sel' ps.
Proof.
  intros E. unfold spread, center. cbv zeta. rewrite !(weighted_ext _ sel sel' ps E). f_equal. apply map_ext. intros e. now rewrite E.
Qed.
Lemma spread_nonneg sel ps : nonneg ps -> (0 <= spread sel ps)%R.
Proof.
  intros N. unfold spread. cbv zeta. generalize (center red_from_argb sel ps) (center green_from_argb sel ps) (center blue_from_argb sel ps). intros mr mg mb.
  induction N as [|e ps H N IH]; cbn [map fold_right]; [lra|]. destruct (sel (fst e)); [|lra].
  apply IZR_le in H. pose proof (pow2_ge_0 (IZR (red_from_argb (fst e)) - mr)). pose proof (pow2_ge_0 (IZR (green_from_argb (fst e)) - mg)). pose proof (pow2_ge_0 (IZR (blue_from_argb (fst e)) - mb)).
  pose proof (Rmult_le_pos (IZR (snd e)) ((IZR (red_from_argb (fst e)) - mr) ^ 2 + (IZR (green_from_argb (fst e)) - mg) ^ 2 + (IZR (blue_from_argb (fst e)) - mb) ^ 2) ltac:(lra) ltac:(lra)). lra.
Qed.

(** ** Sides *)
Lemma lower_below c d k p : k <= hi c d -> inside (lower c d k) p = below c d k p.
Proof.
  intros H. apply eq_true_iff_eq. unfold below, coord, channel_of, hi, inside in *. destruct d; cbn [lower b_r0 b_r1 b_g0 b_g1 b_b0 b_b1];
  rewrite !andb_true_iff, !Z.leb_le, !Z.ltb_lt; lia.
Qed.
Lemma upper_above c d k p : lo c d <= k -> inside (upper c d k) p = above c d k p.
Proof.
  intros H. apply eq_true_iff_eq. unfold above, coord, channel_of, lo, inside in *. destruct d; cbn [upper b_r0 b_r1 b_g0 b_g1 b_b0 b_b1];
  rewrite !andb_true_iff, !Z.leb_le, !Z.ltb_lt; lia.
Qed.
Lemma weighted_pos f sel ps : (forall p, 0 <= f p) -> nonneg ps -> 0 < weighted f sel ps -> exists e, In e ps /\ sel (fst e) = true /\ 0 < f (fst e) * snd e.
Proof.
  intros F N. induction N as [|e ps H N IH]; intros W; [cbn in W; lia|]. rewrite weighted_cons in W.
  specialize (F (fst e)). destruct (sel (fst e)) eqn:E.
  - destruct (Z.le_gt_cases (f (fst e) * snd e) 0) as [L|L]; [|exists e; split; [now left|split; [exact E|exact L]]].
    destruct IH as (e' & I & R); [nia|]. exists e'. split; [now right|exact R].
  - destruct IH as (e' & I & R); [lia|]. exists e'. split; [now right|exact R].
Qed.
Lemma weighted_pos_sel sel ps : nonneg ps -> 0 < weighted one sel ps -> exists p, sel p = true.
Proof. intros N W. destruct (weighted_pos one sel ps ltac:(unfold one; lia) N W) as (e & _ & S & _). now exists (fst e). Qed.
(** A plane with pixels on both sides is strictly inside the box. *)
Lemma plane_inside c d k ps : nonneg ps -> 0 < weighted one (below c d k) ps -> 0 < weighted one (above c d k) ps -> lo c d < k < hi c d.
Proof.
  intros N B A. apply weighted_pos_sel in B; [|exact N]. apply weighted_pos_sel in A; [|exact N]. destruct B as (p & B), A as (q & A).
  unfold below, above, coord, channel_of, inside, lo, hi in *.
  destruct d; rewrite !andb_true_iff, !Z.leb_le, !Z.ltb_lt in *; lia.
Qed.

(** ** Conversion of large integers *)
Lemma of_Z_rnd z : Z.abs z <= 2 ^ 63 -> B2R (of_Z z) = rnd (IZR z) /\ fin (of_Z z).
Proof.
  intros h. unfold of_Z.
  pose proof (binary_normalize_correct 53 1024 _ _ mode_NE z 0 false) as C. cbv zeta in C.
  assert (E : F2R (Float radix2 z 0) = IZR z) by (unfold F2R; simpl; ring). rewrite E in C.
  change (Generic_fmt.round radix2 (SpecFloat.fexp 53 1024) (round_mode mode_NE) (IZR z)) with (rnd (IZR z)) in C.
  rewrite ovf_lt in C. 2:{ rewrite <- abs_IZR. apply Rle_trans with (bpow radix2 63).
    - change (bpow radix2 63) with (IZR (2^63)). now apply IZR_le.
    - apply bpow_le. lia. }
  destruct C as (C1 & C2 & _). split; assumption.
Qed.
Lemma of_Z_frel z : 1 <= z <= 2 ^ 63 -> frel (of_Z z) (IZR z) (3 / 10 ^ 16).
Proof.
  intros H. destruct (of_Z_rnd z ltac:(lia)) as [V F]. split; [exact F|]. rewrite V. destruct H as (A & _). apply IZR_le in A.
  assert (R0 : rel (IZR z) (IZR z) 0) by (split; lra). pose proof (rel_rnd _ _ 0 R0 ltac:(lra) ltac:(lra)) as Q. rewrite Rplus_0_l in Q. exact Q.
Qed.

(** ** The score of a plane *)
Lemma weighted_ge f g sel ps : (forall p, sel p = true -> f p <= g p) -> nonneg ps -> weighted f sel ps <= weighted g sel ps.
Proof.
  intros L N. induction N as [|e ps H N IH]; [cbn; lia|]. rewrite !weighted_cons. destruct (sel (fst e)) eqn:E; [|lia].
  specialize (L _ E). nia.
Qed.
Section Scores.
Variables (ps : list (Z * Z)) (w : wu).
Hypothesis (S : sums_wu ps w).
Hypothesis (FT : fits ps).
Let NN : nonneg ps := proj1 FT.
Definition quot (sel : Z -> bool) : f64 := fdiv (of_Z (sqs sel ps)) (of_Z (weighted one sel ps)).
Definition score (c : box) (d : direction) (k : Z) : f64 := fadd (quot (inside (lower c d k))) (quot (inside (upper c d k))).

Lemma n_range sel : 0 <= weighted one sel ps <= 10000000.
Proof.
  pose proof (weight_range ps _ sel chan_one FT) as (A & _). split; [exact A|].
  pose proof (weighted_le one 1 sel ps ltac:(unfold one; lia) NN) as B. pose proof (proj2 FT) as F. fold (N ps) in B.
  unfold i64_max in F. change (2 ^ 63 - 1) with 9223372036854775807 in F. nia.
Qed.
Lemma sqs_range sel : 0 <= sqs sel ps <= 2 ^ 63 - 1.
Proof.
  pose proof (weight_range ps _ sel chan_r FT). pose proof (weight_range ps _ sel chan_g FT). pose proof (weight_range ps _ sel chan_b FT).
  pose proof (proj2 FT) as F. unfold i64_max in F. unfold sqs. split; [nia|]. nia.
Qed.
Lemma gain_le sel : 0 < weighted one sel ps -> (0 <= gain sel ps <= IZR (weighted squares sel ps))%R.
Proof.
  intros H. pose proof (spread_eq sel ps ltac:(lia)) as E. pose proof (spread_nonneg sel ps NN) as P0. split; [|lra].
  unfold gain. pose proof (sqs_range sel) as (A & _). apply IZR_le in A. apply IZR_lt in H. apply Rmult_le_pos; [exact A|].
  apply Rlt_le, Rinv_0_lt_compat, H.
Qed.
Lemma quot_near sel : 0 < weighted one sel ps ->
  fin (quot sel) /\ (gain sel ps * (1 - 12 / 10 ^ 16) <= B2R (quot sel) <= gain sel ps * (1 + 12 / 10 ^ 16))%R.
Proof.
  intros H. pose proof (n_range sel) as NR. pose proof (sqs_range sel) as (A & B).
  pose proof (of_Z_frel (weighted one sel ps) ltac:(lia)) as Fn.
  destruct (Z.eq_dec (sqs sel ps) 0) as [E|E].
  - unfold quot, gain. rewrite E. destruct Fn as (fn & rn). pose proof (rel_pos _ _ _ rn ltac:(lra)) as Pn.
    destruct (isz_of 0 ltac:(unfold LIM; lia)) as (f0 & v0).
    destruct (fdiv_S (of_Z 0) (of_Z (weighted one sel ps)) f0 ltac:(lra)) as (V & Fd).
    { rewrite v0. unfold Rdiv. rewrite Rmult_0_l. unfold HUGE. lra. }
    split; [exact Fd|]. rewrite V, v0. unfold Rdiv. rewrite !Rmult_0_l. rewrite (rnd_IZR 0) by (cbn; lia). lra.
  - pose proof (of_Z_frel (sqs sel ps) ltac:(lia)) as Fs.
    assert (Q : (1 / 10 ^ 15 <= IZR (sqs sel ps) / IZR (weighted one sel ps) <= 10 ^ 20)%R).
    { assert (1 <= IZR (sqs sel ps) <= 10 ^ 20)%R as (s1 & s2).
      { split; [apply IZR_le; lia|]. apply Rle_trans with (IZR (2 ^ 63)); [apply IZR_le; lia|]. cbn -[pow]. lra. }
      assert (1 <= IZR (weighted one sel ps) <= 10000000)%R as (n1 & n2) by (split; apply IZR_le; lia).
      split.
      - apply Rmult_le_reg_r with (IZR (weighted one sel ps)); [lra|]. unfold Rdiv at 2. rewrite Rmult_assoc, Rinv_l by lra. lra.
      - apply Rmult_le_reg_r with (IZR (weighted one sel ps)); [lra|]. unfold Rdiv. rewrite Rmult_assoc, Rinv_l by lra.
        apply Rle_trans with (10 ^ 20 * 1)%R; [lra|]. apply Rmult_le_compat_l; lra. }
    pose proof (frel_div _ _ _ _ _ _ Fs Fn ltac:(lra) ltac:(lra) Q) as (fd & rd). split; [exact fd|].
    destruct (rel_w _ _ _ (12 / 10 ^ 16) rd ltac:(lra)) as (_ & b). exact b.
Qed.
Lemma upper_gain c d k : in_cube c -> lo c d < k -> 0 < weighted one (inside (upper c d k)) ps -> (1 / 10 ^ 8 <= gain (inside (upper c d k)) ps)%R.
Proof.
  intros I K H. pose proof (n_range (inside (upper c d k))) as (_ & B).
  assert (Q : 1 <= sqs (inside (upper c d k)) ps).
  { pose proof (weight_range ps _ (inside (upper c d k)) chan_r FT) as (r0 & _). pose proof (weight_range ps _ (inside (upper c d k)) chan_g FT) as (g0 & _).
    pose proof (weight_range ps _ (inside (upper c d k)) chan_b FT) as (b0 & _).
    assert (W1 : weighted one (inside (upper c d k)) ps <= weighted (channel_of d) (inside (upper c d k)) ps).
    { apply weighted_ge; [|exact NN]. intros p Ip. unfold inside, in_cube, lo in *. unfold one, channel_of.
      destruct d; cbn [upper b_r0 b_r1 b_g0 b_g1 b_b0 b_b1] in *; rewrite !andb_true_iff, !Z.leb_le, !Z.ltb_lt in Ip;
      [pose proof (Z.mul_div_le (red_from_argb p) 8)|pose proof (Z.mul_div_le (green_from_argb p) 8)|pose proof (Z.mul_div_le (blue_from_argb p) 8)]; lia. }
    unfold sqs. destruct d; [change (channel_of DRed) with red_from_argb in W1|change (channel_of DGreen) with green_from_argb in W1|change (channel_of DBlue) with blue_from_argb in W1]; nia. }
  unfold gain. apply IZR_le in Q. apply IZR_le in B. apply IZR_lt in H.
  apply Rmult_le_reg_r with (IZR (weighted one (inside (upper c d k)) ps)); [lra|]. unfold Rdiv at 2. rewrite Rmult_assoc, Rinv_l by lra. lra.
Qed.
(** What a plane gains, and how close its score is. *)
Definition gains c d k : R := (gain (inside (lower c d k)) ps + gain (inside (upper c d k)) ps)%R.
Lemma score_near c d k : in_cube c -> balanced ps c d k ->
  fin (score c d k) /\ (0 < B2R (score c d k))%R /\ (0 < gains c d k <= IZR (weighted squares (inside c) ps))%R /\
  (gains c d k * (1 - 2 / 10 ^ 15) <= B2R (score c d k) <= gains c d k * (1 + 2 / 10 ^ 15))%R.
Proof.
  intros I (K & A & B). pose proof (n_range (inside (lower c d k))) as (a0 & _). pose proof (n_range (inside (upper c d k))) as (b0 & _).
  assert (A' : 0 < weighted one (inside (lower c d k)) ps) by lia. assert (B' : 0 < weighted one (inside (upper c d k)) ps) by lia. clear A B a0 b0.
  pose proof (quot_near _ A') as (fa & va). pose proof (quot_near _ B') as (fb & vb).
  pose proof (gain_le _ A') as ga. pose proof (gain_le _ B') as gb. pose proof (upper_gain c d k I ltac:(lia) B') as gu.
  assert (PW : (IZR (weighted squares (inside c) ps) = IZR (weighted squares (inside (lower c d k)) ps) + IZR (weighted squares (inside (upper c d k)) ps))%R).
  { rewrite <- plus_IZR, <- split_weighted by lia. reflexivity. }
  assert (PB : (IZR (weighted squares (inside c) ps) <= 1000000000000000)%R) by (apply IZR_le; pose proof (P_sel (inside c) ps NN); pose proof (P_fits ps FT); lia).
  unfold score, gains. set (x := quot (inside (lower c d k))) in *. set (y := quot (inside (upper c d k))) in *.
  set (g := gain (inside (lower c d k)) ps) in *. set (h := gain (inside (upper c d k)) ps) in *. clearbody x y g h.
  assert (R0 : rel (B2R x + B2R y) (g + h) (12 / 10 ^ 16)) by (split; lra).
  destruct (fadd_S x y fa fb) as (V & Fs). { unfold HUGE. destruct R0 as (_ & r). lra. }
  pose proof (rel_rnd _ _ _ R0 ltac:(lra) ltac:(lra)) as R1. rewrite <- V in R1. destruct R1 as (r0 & r1).
  split; [exact Fs|]. repeat split; lra.
Qed.
(** ** The best plane of a direction *)
Definition best c d (done : list Z) (k : Z) (mx : f64) : Prop :=
  (k = -1 /\ mx = dec "0.0" /\ forall i, In i done -> ~ balanced ps c d i) \/
  (balanced ps c d k /\ mx = score c d k /\ forall i, In i done -> balanced ps c d i -> (B2R (score c d i) <= B2R mx)%R).
Lemma best_val c d done k mx : in_cube c -> best c d done k mx -> fin mx /\ (0 <= B2R mx)%R.
Proof.
  intros I [(_ & -> & _)|(B & -> & _)].
  - destruct isz_0 as (f & v). split; [exact f|lra].
  - destruct (score_near c d k I B) as (f & p & _). split; [exact f|lra].
Qed.
Lemma best_skip c d done k mx i : best c d done k mx -> ~ balanced ps c d i -> best c d (done ++ [i]) k mx.
Proof.
  intros [(A & B & C)|(A & B & C)] Nb; [left|right]; (split; [exact A|split; [exact B|]]); intros j J; apply in_app_or in J; destruct J as [J|[<-|[]]]; auto; intros; contradiction.
Qed.
Lemma best_step c d done k mx i : in_cube c -> best c d done k mx -> balanced ps c d i ->
  best c d (done ++ [i]) (if fgt (score c d i) mx then i else k) (if fgt (score c d i) mx then score c d i else mx).
Proof.
  intros I B Bi. destruct (best_val c d done k mx I B) as (fm & m0). destruct (score_near c d i I Bi) as (fi & pi & _).
  unfold fgt. change (Bltb mx (score c d i)) with (flt mx (score c d i)). destruct (flt mx (score c d i)) eqn:G.
  - apply (flt_fin mx _ fm fi) in G. right. split; [exact Bi|split; [reflexivity|]]. intros j J Bj. apply in_app_or in J. destruct J as [J|[<-|[]]]; [|lra].
    destruct B as [(_ & _ & C)|(_ & _ & C)]; [now destruct (C j J)|]. specialize (C j J Bj). lra.
  - apply (flt_fin_f mx _ fm fi) in G. destruct B as [(_ & -> & _)|(A & B & C)].
    + destruct isz_0 as (_ & v). lra.
    + right. split; [exact A|split; [exact B|]]. intros j J Bj. apply in_app_or in J. destruct J as [J|[<-|[]]]; [auto|exact G].
Qed.
Lemma chk_fits x : 0 <= x <= 255 * N ps -> chk x = Ok x.
Proof. intros H. apply chk_ok. pose proof (bound ps FT). unfold i64_min. lia. Qed.
Lemma maximize_best c d is br bg bb bw : in_cube c ->
  bottom c d (w_moments_r w) = Ok br -> bottom c d (w_moments_g w) = Ok bg ->
  bottom c d (w_moments_b w) = Ok bb -> bottom c d (w_weights w) = Ok bw ->
  Forall (fun k => lo c d < k < hi c d) is ->
  forall done mx k0, best c d done k0 mx -> exists k mx',
  maximize_loop w c d is br bg bb bw (weighted red_from_argb (inside c) ps) (weighted green_from_argb (inside c) ps)
     (weighted blue_from_argb (inside c) ps) (weighted one (inside c) ps) mx k0 = Ok (k, mx') /\ best c d (done ++ is) k mx'.
Proof.
  destruct S as (Sw & Sr & Sg & Sb). intros I Br Bg Bb Bw. induction is as [|i is IH]; intros L done mx k0 Fd; cbn [maximize_loop].
  { exists k0, mx. rewrite app_nil_r. now split. }
  inversion L as [|? ? Li L']; subst. specialize (IH L').
  assert (K : lo c d <= i <= hi c d) by lia.
  pose proof (top_case ps _ _ c d i br chan_r Sr I K Br) as Tr. pose proof (top_case ps _ _ c d i bg chan_g Sg I K Bg) as Tg.
  pose proof (top_case ps _ _ c d i bb chan_b Sb I K Bb) as Tb. pose proof (top_case ps _ _ c d i bw chan_one Sw I K Bw) as Tw.
  rewrite <- bind_assoc. destruct (do t <- top c d i (w_moments_r w); zadd br t) as [hr|]; [rewrite bind_Ok|contradiction].
  rewrite <- bind_assoc. destruct (do t <- top c d i (w_moments_g w); zadd bg t) as [hg|]; [rewrite bind_Ok|contradiction].
  rewrite <- bind_assoc. destruct (do t <- top c d i (w_moments_b w); zadd bb t) as [hb|]; [rewrite bind_Ok|contradiction].
  rewrite <- bind_assoc. destruct (do t <- top c d i (w_weights w); zadd bw t) as [hw|]; [rewrite bind_Ok|contradiction].
  subst hr hg hb hw. replace (done ++ i :: is) with ((done ++ [i]) ++ is) by (rewrite <- app_assoc; reflexivity).
  destruct (Z.eqb_spec (half_of ps one c d i) 0) as [Z1|Z1].
  { apply IH. apply best_skip; [exact Fd|]. intros (_ & Q & _). exact (Q Z1). }
  pose proof (squares_case ps (half_of ps red_from_argb c d i) (half_of ps green_from_argb c d i) (half_of ps blue_from_argb c d i)
    (sel_small ps _ _ chan_r) (sel_small ps _ _ chan_g) (sel_small ps _ _ chan_b)) as Q.
  destruct (sum_squares _ _ _) as [sq|]; [rewrite bind_Ok|contradiction].
  assert (U : forall f, weighted f (inside c) ps - half_of ps f c d i = weighted f (inside (upper c d i)) ps).
  { intros f. unfold half_of. rewrite (split_weighted f ps c d i K). lia. }
  unfold zsub. rewrite !U.
  rewrite (chk_fits _ (sel_small ps _ (inside (upper c d i)) chan_r FT)), (chk_fits _ (sel_small ps _ (inside (upper c d i)) chan_g FT)),
    (chk_fits _ (sel_small ps _ (inside (upper c d i)) chan_b FT)), (chk_fits _ (sel_small ps _ (inside (upper c d i)) chan_one FT)), !bind_Ok.
  destruct (Z.eqb_spec (weighted one (inside (upper c d i)) ps) 0) as [Z2|Z2].
  { apply IH. apply best_skip; [exact Fd|]. intros (_ & _ & Q2). exact (Q2 Z2). }
  pose proof (squares_case ps _ _ _ (sel_small ps _ (inside (upper c d i)) chan_r) (sel_small ps _ (inside (upper c d i)) chan_g) (sel_small ps _ (inside (upper c d i)) chan_b)) as Q2.
  destruct (sum_squares (weighted red_from_argb (inside (upper c d i)) ps) _ _) as [sq2|]; [rewrite bind_Ok|contradiction].
  cbv zeta. match goal with |- context [fgt ?t mx] => assert (E : t = score c d i) by (subst sq sq2; unfold score, quot, sqs, half_of; reflexivity) end.
  rewrite E. clear E Q Q2 sq sq2 U. assert (Bi : balanced ps c d i) by (split; [exact Li|split; assumption]).
  pose proof (best_step c d done k0 mx i I Fd Bi) as NB. destruct (fgt (score c d i) mx); now apply IH.
Qed.
Lemma max_best c d : in_cube c -> exists k mx,
  maximize w c d (lo c d + 1) (hi c d) (weighted red_from_argb (inside c) ps) (weighted green_from_argb (inside c) ps)
     (weighted blue_from_argb (inside c) ps) (weighted one (inside c) ps) = Ok (k, mx) /\ best c d (zseq (lo c d + 1) (hi c d)) k mx.
Proof.
  intros I. pose proof S as (Sw & Sr & Sg & Sb). unfold maximize.
  pose proof (bottom_case ps _ _ c d chan_r Sr I) as Br. destruct (bottom c d (w_moments_r w)) as [br|] eqn:Er; [rewrite bind_Ok|contradiction].
  pose proof (bottom_case ps _ _ c d chan_g Sg I) as Bg. destruct (bottom c d (w_moments_g w)) as [bg|] eqn:Eg; [rewrite bind_Ok|contradiction].
  pose proof (bottom_case ps _ _ c d chan_b Sb I) as Bb. destruct (bottom c d (w_moments_b w)) as [bb|] eqn:Eb; [rewrite bind_Ok|contradiction].
  pose proof (bottom_case ps _ _ c d chan_one Sw I) as Bw. destruct (bottom c d (w_weights w)) as [bw|] eqn:Ew; [rewrite bind_Ok|contradiction].
  apply (maximize_best c d _ br bg bb bw I Er Eg Eb Ew) with (done := []).
  - rewrite Forall_forall. intros k. rewrite in_zseq. lia.
  - left. repeat split. intros i [].
Qed.
(** Every plane with pixels on both sides is a candidate. *)
Lemma candidate c d k : 0 < weighted one (below c d k) ps -> 0 < weighted one (above c d k) ps ->
  balanced ps c d k /\ In k (zseq (lo c d + 1) (hi c d)) /\
  (spread (below c d k) ps + spread (above c d k) ps = IZR (weighted squares (inside c) ps) - gains c d k)%R.
Proof.
  intros B A. pose proof (plane_inside c d k ps NN B A) as K.
  assert (EB : forall p, inside (lower c d k) p = below c d k p) by (intros p; apply lower_below; lia).
  assert (EA : forall p, inside (upper c d k) p = above c d k p) by (intros p; apply upper_above; lia).
  rewrite <- (weighted_ext one _ _ ps EB) in B. rewrite <- (weighted_ext one _ _ ps EA) in A.
  split; [split; [exact K|split; lia]|]. split; [apply in_zseq; lia|].
  rewrite <- (spread_ext _ _ ps EB), <- (spread_ext _ _ ps EA), !spread_eq by lia. unfold gains.
  rewrite (split_weighted squares ps c d k) by lia. rewrite plus_IZR. lra.
Qed.
Lemma balanced_sides c d k : balanced ps c d k ->
  0 < weighted one (inside (set_vol (lower c d k))) ps /\ 0 < weighted one (inside (set_vol (upper c d k))) ps /\
  (forall p, inside (set_vol (lower c d k)) p = below c d k p) /\ (forall p, inside (set_vol (upper c d k)) p = above c d k p) /\
  (spread (inside (set_vol (lower c d k))) ps + spread (inside (set_vol (upper c d k))) ps = IZR (weighted squares (inside c) ps) - gains c d k)%R.
Proof.
  intros (K & A & B).
  rewrite (weighted_ext one _ _ ps (set_vol_inside (lower c d k))), (weighted_ext one _ _ ps (set_vol_inside (upper c d k))).
  pose proof (n_range (inside (lower c d k))). pose proof (n_range (inside (upper c d k))).
  split; [lia|split; [lia|split; [|split]]].
  - intros p. rewrite set_vol_inside. apply lower_below. lia.
  - intros p. rewrite set_vol_inside. apply upper_above. lia.
  - rewrite (spread_ext _ _ ps (set_vol_inside (lower c d k))), (spread_ext _ _ ps (set_vol_inside (upper c d k))), !spread_eq by lia.
    unfold gains. rewrite (split_weighted squares ps c d k) by lia. rewrite plus_IZR. lra.
Qed.
Lemma not_less x y : fin x -> fin y -> fge x y = false -> (B2R x < B2R y)%R.
Proof. intros fx fy H. apply (fle_fin_f y x fy fx). exact H. Qed.
Lemma at_least x y : fin x -> fin y -> fge x y = true -> (B2R y <= B2R x)%R.
Proof. intros fx fy H. apply (fle_fin y x fy fx). exact H. Qed.
(** A plane whose score is the largest of its direction, and at least as large as those of the other directions. *)
Lemma chosen_best c d k : in_cube c -> balanced ps c d k ->
  (forall d' k', balanced ps c d' k' -> (B2R (score c d' k') <= B2R (score c d k))%R) ->
  best_cut ps c (set_vol (lower c d k)) (set_vol (upper c d k)).
Proof.
  intros I B M. exists d, k. destruct (balanced_sides c d k B) as (pa & pb & ea & eb & sp).
  repeat (split; [assumption|]). intros d' k' A' B'. destruct (candidate c d' k' A' B') as (Bk & _ & sp').
  rewrite sp, sp'. unfold tolerance. specialize (M d' k' Bk).
  destruct (score_near c d k I B) as (_ & _ & r1 & v1). destruct (score_near c d' k' I Bk) as (_ & _ & r2 & v2).
  set (X := IZR (weighted squares (inside c) ps)) in *. lra.
Qed.
Lemma cut_best c : in_cube c ->
  (cut w c = Ok None /\ single_cell ps c) \/
  (exists d k, balanced ps c d k /\ cut w c = Ok (Some (set_vol (lower c d k), set_vol (upper c d k))) /\
     best_cut ps c (set_vol (lower c d k)) (set_vol (upper c d k))).
Proof.
  intros I. pose proof S as (Sw & Sr & Sg & Sb). unfold cut.
  pose proof (volume_case ps _ _ c chan_r Sr I) as Vr. destruct (volume c (w_moments_r w)) as [vr|]; [rewrite bind_Ok; subst vr|contradiction].
  pose proof (volume_case ps _ _ c chan_g Sg I) as Vg. destruct (volume c (w_moments_g w)) as [vg|]; [rewrite bind_Ok; subst vg|contradiction].
  pose proof (volume_case ps _ _ c chan_b Sb I) as Vb. destruct (volume c (w_moments_b w)) as [vb|]; [rewrite bind_Ok; subst vb|contradiction].
  pose proof (volume_case ps _ _ c chan_one Sw I) as Vw. destruct (volume c (w_weights w)) as [vw|]; [rewrite bind_Ok; subst vw|contradiction].
  destruct (max_best c DRed I) as (kr & xr & Er & Mr). cbn [lo hi] in Er. rewrite Er, bind_Ok.
  destruct (max_best c DGreen I) as (kg & xg & Eg & Mg). cbn [lo hi] in Eg. rewrite Eg, bind_Ok.
  destruct (max_best c DBlue I) as (kb & xb & Eb & Mb). cbn [lo hi] in Eb. rewrite Eb, bind_Ok.
  cbv zeta. cbn [fst snd]. clear Er Eg Eb.
  destruct (best_val _ _ _ _ _ I Mr) as (fr & r0). destruct (best_val _ _ _ _ _ I Mg) as (fg & g0). destruct (best_val _ _ _ _ _ I Mb) as (fb & b0).
  assert (DIR : forall d k x, best c d (zseq (lo c d + 1) (hi c d)) k x -> (forall k', balanced ps c d k' -> (B2R (score c d k') <= B2R x)%R) /\ ((0 < B2R x)%R -> balanced ps c d k /\ x = score c d k)).
  { intros d k x Bx. destruct (Bx) as [(_ & Ex & C)|(A & B & C)].
    - split; [intros k' B'; exfalso; apply (C k'); [apply in_zseq; destruct B'; lia|exact B']|]. rewrite Ex. destruct isz_0 as (_ & v). lra.
    - split; [|now split]. intros k' B'. apply C; [apply in_zseq; destruct B'; lia|exact B']. }
  destruct (DIR _ _ _ Mr) as (Dr & Pr). destruct (DIR _ _ _ Mg) as (Dg & Pg). destruct (DIR _ _ _ Mb) as (Db & Pb).
  destruct (fge xr xg && fge xr xb) eqn:E1.
  - apply andb_true_iff in E1. destruct E1 as (e1 & e2). apply (at_least _ _ fr fg) in e1. apply (at_least _ _ fr fb) in e2.
    destruct (Z.ltb_spec kr 0) as [Kn|Kn].
    + left. split; [reflexivity|]. destruct Mr as [(_ & Ex & _)|(Bk & _)].
      2:{ exfalso. destruct Bk as (Bk & _). unfold lo, in_cube in *. lia. }
      rewrite Ex in *. destruct isz_0 as (_ & v). intros d k.
      pose proof (n_range (below c d k)) as na. pose proof (n_range (above c d k)) as nb.
      destruct (Z.eq_dec (weighted one (below c d k) ps) 0) as [za|za]; [now left|]. destruct (Z.eq_dec (weighted one (above c d k) ps) 0) as [zb|zb]; [now right|exfalso].
      destruct (candidate c d k ltac:(lia) ltac:(lia)) as (Bk & _). destruct (score_near c d k I Bk) as (_ & pk & _).
      destruct d; [specialize (Dr k Bk)|specialize (Dg k Bk)|specialize (Db k Bk)]; lra.
    + right. exists DRed, kr. assert (Bk : balanced ps c DRed kr /\ xr = score c DRed kr) by (destruct Mr as [(? & _)|(Bk & Ex & _)]; [lia|now split]).
      destruct Bk as (Bk & Ex). split; [exact Bk|]. split; [reflexivity|]. apply chosen_best; [exact I|exact Bk|]. rewrite <- Ex.
      intros [| |] k' B'; [now apply Dr|specialize (Dg k' B'); lra|specialize (Db k' B'); lra].
  - right. destruct (fge xg xr && fge xg xb) eqn:E2.
    + apply andb_true_iff in E2. destruct E2 as (e1 & e2). apply (at_least _ _ fg fr) in e1. apply (at_least _ _ fg fb) in e2.
      assert (Pos : (0 < B2R xg)%R).
      { destruct (fge xr xg) eqn:q; [|apply (not_less _ _ fr fg) in q; lra]. cbn [andb] in E1. apply (not_less _ _ fr fb) in E1. lra. }
      destruct (Pg Pos) as (Bk & Ex). exists DGreen, kg. split; [exact Bk|]. split; [reflexivity|]. apply chosen_best; [exact I|exact Bk|]. rewrite <- Ex.
      intros [| |] k' B'; [specialize (Dr k' B'); lra|now apply Dg|specialize (Db k' B'); lra].
    + assert (Mx : (B2R xr < B2R xb /\ B2R xg < B2R xb)%R).
      { destruct (fge xr xg) eqn:q1, (fge xg xr) eqn:q2; cbn [andb] in E1, E2;
        try (apply (at_least _ _ fr fg) in q1); try (apply (not_less _ _ fr fg) in q1); try (apply (at_least _ _ fg fr) in q2); try (apply (not_less _ _ fg fr) in q2);
        try (apply (not_less _ _ fr fb) in E1); try (apply (not_less _ _ fg fb) in E2); lra. }
      destruct (Pb ltac:(lra)) as (Bk & Ex). exists DBlue, kb. split; [exact Bk|]. split; [reflexivity|]. apply chosen_best; [exact I|exact Bk|]. rewrite <- Ex.
      intros [| |] k' B'; [specialize (Dr k' B'); lra|specialize (Dg k' B'); lra|now apply Db].
Qed.
End Scores.
