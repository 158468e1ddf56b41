(** * Wu's choices, from the image to the colours.  Proof file. *)
From Coq Require Import ZArith Bool List Lia Lra Reals FMapPositive String Psatz Permutation.
From Flocq Require Import Core IEEE754.BinarySingleNaN.
From Verif Require Import F64 ColorUtils Assoc QuantizerMap QuantizerWu SpecWu SpecWuBest SpecQuantize FloatFacts FloatMono AssocFacts PfArgb PfQuantizeMap PfHct PfScore PfRel PfWuMoments PfWuSums PfWuBoxes PfWuBest PfWuCut PfWu PfWuRounds.
Import ListNotations.
Open Scope string_scope.
Open Scope list_scope.
Open Scope Z_scope.

(** ** Only the weighted sums matter *)
Section Same.
Variables (ps qs : list (Z * Z)).
Hypothesis (NP : nonneg ps) (NQ : nonneg qs).
Hypothesis (E : forall f sel, weighted f sel ps = weighted f sel qs).
Lemma nothing_spread sel rs : nonneg rs -> weighted one sel rs = 0 -> spread sel rs = 0%R.
Proof.
  intros N. unfold spread. cbv zeta. generalize (center red_from_argb sel rs) (center green_from_argb sel rs) (center blue_from_argb sel rs). intros mr mg mb.
  induction N as [|e rs H N IH]; intros W; [reflexivity|]. cbn [map fold_right]. rewrite weighted_cons in W.
  assert (W0 : 0 <= weighted one sel rs) by (apply weighted_nonneg; [unfold one; lia|exact N]).
  destruct (sel (fst e)).
  - unfold one at 1 in W. rewrite IH by lia. replace (snd e) with 0 by lia. lra.
  - rewrite IH by lia. lra.
Qed.
Lemma same_spread sel : spread sel ps = spread sel qs.
Proof.
  destruct (Z.eq_dec (weighted one sel ps) 0) as [Z0|Z0].
  - rewrite (nothing_spread sel ps NP Z0). symmetry. apply nothing_spread; [exact NQ|]. now rewrite <- E.
  - rewrite !spread_eq; [|rewrite <- E; exact Z0|exact Z0]. unfold gain, sqs. now rewrite !E.
Qed.
Lemma same_priority c : priority ps c = priority qs c.
Proof. unfold priority. now rewrite same_spread. Qed.
Lemma same_best c a b : best_cut ps c a b -> best_cut qs c a b.
Proof.
  intros (d & k & A & B & PA & PB & M). exists d, k. split; [exact A|]. split; [exact B|]. rewrite <- !E. split; [exact PA|]. split; [exact PB|].
  intros d' k'. rewrite <- !E. intros QA QB. specialize (M d' k' QA QB). unfold tolerance in *. rewrite <- E, <- !same_spread. exact M.
Qed.
Lemma same_cell c : single_cell ps c -> single_cell qs c.
Proof. intros H d k. rewrite <- !E. apply H. Qed.
Lemma same_round l l' : round ps l l' -> round qs l l'.
Proof.
  intros [l1 c v l2 a b M B|l1 c v l2 M B].
  - rewrite !same_priority. apply round_cut; [exact M|now apply same_best].
  - apply round_stuck; [exact M|now apply same_cell].
Qed.
Lemma same_rounds l0 m l : rounds ps l0 m l -> rounds qs l0 m l.
Proof. induction 1 as [|m l l' R IH P Q]; [constructor|]. apply (rounds_S qs l0 m l); [exact IH|exact P|now apply same_round]. Qed.
End Same.

Lemma opaque_weighted f sel pixels : weighted f sel (opaque_pixels pixels) = sum_of f (filter (fun p => opaque_b p && sel p) pixels).
Proof.
  unfold opaque_pixels, sum_of. induction pixels as [|p l IH]; [reflexivity|]. cbn [filter]. destruct (opaque_b p); cbn [andb]; [|exact IH].
  cbn [map]. rewrite weighted_cons. cbn [fst snd]. rewrite IH. destruct (sel p); cbn [map fold_right]; lia.
Qed.
Lemma opaque_nonneg pixels : nonneg (opaque_pixels pixels).
Proof. unfold nonneg, opaque_pixels. rewrite Forall_forall. intros e He. apply in_map_iff in He. destruct He as (p & <- & _). cbn. lia. Qed.

Lemma used_pixels c pixels : pixels_in c pixels <> [] -> in_use c = true.
Proof.
  intros H. destruct (pixels_in c pixels) as [|p l] eqn:Q; [congruence|]. assert (I : In p (pixels_in c pixels)) by (rewrite Q; now left).
  unfold pixels_in in I. apply filter_In in I. destruct I as (_ & I). apply andb_true_iff in I. destruct I as (_ & I). unfold inside in I.
  rewrite !andb_true_iff, !Z.leb_le, !Z.ltb_lt in I. unfold in_use, cell_count.
  destruct (Z.eqb_spec ((b_r1 c - b_r0 c) * (b_g1 c - b_g0 c) * (b_b1 c - b_b0 c)) 0) as [E|E]; [exfalso|reflexivity].
  assert (0 < (b_r1 c - b_r0 c) * (b_g1 c - b_g0 c)) by nia. nia.
Qed.

Lemma wu_greedy order pixels n :
  Permutation (order (qr_color_to_count (map_quantize pixels))) (qr_color_to_count (map_quantize pixels)) ->
  1 <= n -> image_fits pixels ->
  exists r m l, wu_quantize order pixels n = Ok r /\ rounds (opaque_pixels pixels) [(whole_cube, 0)] m l /\ m <= n - 1 /\
    (m = n - 1 \/ 1 <= m /\ forall e, In e l -> snd e = 0) /\
    forall z, In z (map fst (qr_color_to_count r)) <-> exists c v, In (c, v) l /\ pixels_in c pixels <> [] /\ z = mean_color c pixels.
Proof.
  intros OP N1 IF. unfold wu_quantize. set (ps := order (qr_color_to_count (map_quantize pixels))) in *.
  assert (FT : fits ps) by (apply (fits_image order pixels OP IF)). pose proof (tables_case order pixels) as T. fold ps in T.
  destruct (construct_histogram ps) as [w0|] eqn:H0; [rewrite bind_Ok in T; rewrite bind_Ok|destruct (T FT)].
  destruct (compute_moments w0) as [w|] eqn:H1; [rewrite bind_Ok|destruct (T FT)].
  assert (FS : fsums ps (w_moments w)) by (apply (ftables ps w0 w (proj1 FT)); [pose proof (P_fits ps FT); unfold LIM; lia|exact H0|exact H1]).
  destruct (create_rounds ps w T FS FT n N1) as (cubes & count & CB & m & l & RD & ML & ST & KM).
  pose proof (create_case ps w T n) as C. rewrite CB in *. rewrite bind_Ok. cbn [fst snd]. destruct C as (LC & CN & P & B & TL). unfold create_result.
  destruct (result_case ps w T cubes (zseq 0 count)) as (R & _).
  { exact (proj1 FT). } { intros i. rewrite in_zseq. lia. } { exact B. }
  destruct (result_loop w cubes (zseq 0 count)) as [rs|]; [rewrite bind_Ok|destruct (R FT)].
  eexists. exists m, l. split; [reflexivity|]. split.
  { apply (same_rounds ps); [exact (proj1 FT)|apply opaque_nonneg| |exact RD]. intros f sel. rewrite opaque_weighted. apply (ps_weighted order pixels OP). }
  split; [exact ML|]. split; [exact ST|]. cbn [qr_color_to_count]. destruct (keys_fold rs []) as (_ & K2 & _).
  intros z. rewrite K2, R. assert (PI : forall c, 0 < weighted one (inside c) ps <-> pixels_in c pixels <> []).
  { intros c. unfold ps. rewrite (ps_in order pixels OP), sum_one. destruct (pixels_in c pixels); cbn [List.length]; split; intros; try lia; try congruence. }
  assert (IC : forall c, in_use c = true -> (In c cubes <-> exists v, In (c, v) l)).
  { intros c U. assert (Q : In c (filter in_use cubes) <-> In c cubes) by (rewrite filter_In; tauto). rewrite <- Q, <- KM. rewrite in_map_iff. split.
    - intros ((c', v) & <- & H). now exists v.
    - intros (v & H). now exists (c, v). }
  split.
  - intros [[]|(i & c & I & E & W & ->)]. apply PI in W. destruct (proj1 (IC c (used_pixels c pixels W)) (nth_error_In _ _ E)) as (v & V).
    exists c, v. split; [exact V|]. split; [exact W|]. apply (ps_color order pixels OP).
  - intros (c & v & V & NE & ->). right. assert (I : In c cubes) by (apply (IC c (used_pixels c pixels NE)); now exists v).
    apply In_nth_error in I. destruct I as (j & E). exists (Z.of_nat j), c. rewrite Nat2Z.id.
    split; [|split; [exact E|split; [now apply PI|symmetry; apply (ps_color order pixels OP)]]]. apply in_zseq. split; [lia|].
    destruct (Z.le_gt_cases count (Z.of_nat j)) as [L|L]; [exfalso|exact L].
    apply (TL j c L) in E. subst c. apply NE. unfold pixels_in. clear. induction pixels as [|p rest IH]; [reflexivity|].
    cbn [filter]. rewrite empty_inside, andb_false_r. exact IH.
Qed.

(** ** Two colours *)
Lemma rounds_nonneg ps l0 m l : rounds ps l0 m l -> 0 <= m.
Proof. induction 1; lia. Qed.
Lemma lone {A} (l1 : list A) x l2 y : l1 ++ x :: l2 = [y] -> l1 = [] /\ x = y /\ l2 = [].
Proof. destruct l1 as [|a l1]; cbn [app]; [intros [= -> ->]; auto|]. intros [= _ E]. destruct l1; discriminate E. Qed.
Lemma first_round ps l : rounds ps [(whole_cube, 0)] 1 l ->
  (single_cell ps whole_cube /\ l = [(whole_cube, 0)]) \/ (exists a b, best_cut ps whole_cube a b /\ l = [(a, priority ps a); (b, priority ps b)]).
Proof.
  intros R. remember 1 as m eqn:M1. destruct R as [|m l l' R P Q]; [discriminate|]. assert (m = 0) as -> by lia. clear M1 P.
  assert (l = [(whole_cube, 0)]) as ->. { clear Q. remember 0 as m0 eqn:M0 in R at 2. destruct R as [|m1 l1 l2 R1 P1 Q1]; [reflexivity|]. apply rounds_nonneg in R1. lia. }
  remember [(whole_cube, 0)] as l0 eqn:L0. destruct Q as [l1 c v l2 a b M B|l1 c v l2 M B]; apply lone in L0; destruct L0 as (-> & [= -> ->] & ->); cbn [app].
  - right. now exists a, b.
  - left. now split.
Qed.
Lemma wu_two order pixels :
  Permutation (order (qr_color_to_count (map_quantize pixels))) (qr_color_to_count (map_quantize pixels)) -> image_fits pixels ->
  exists r, wu_quantize order pixels 2 = Ok r /\
    ((single_cell (opaque_pixels pixels) whole_cube /\
      forall z, In z (map fst (qr_color_to_count r)) <-> pixels_in whole_cube pixels <> [] /\ z = mean_color whole_cube pixels) \/
     (exists a b, best_cut (opaque_pixels pixels) whole_cube a b /\
      forall z, In z (map fst (qr_color_to_count r)) <-> z = mean_color a pixels \/ z = mean_color b pixels)).
Proof.
  intros OP IF. destruct (wu_greedy order pixels 2 OP ltac:(lia) IF) as (r & m & l & E & R & ML & ST & K). exists r. split; [exact E|].
  assert (m = 1) as -> by lia. destruct (first_round _ _ R) as [(SC & ->)|(a & b & BC & ->)].
  - left. split; [exact SC|]. intros z. rewrite K. split.
    + intros (c & v & [Q|[]] & W). injection Q as <- _. exact W.
    + intros H. exists whole_cube, 0. split; [now left|exact H].
  - right. exists a, b. split; [exact BC|]. destruct BC as (d & k & _ & _ & PA & PB & _).
    assert (PI : forall c, 0 < weighted one (inside c) (opaque_pixels pixels) -> pixels_in c pixels <> []).
    { intros c. rewrite opaque_weighted, sum_one. change (filter (fun p => opaque_b p && inside c p) pixels) with (pixels_in c pixels). destruct (pixels_in c pixels); cbn [List.length]; [lia|discriminate]. }
    apply PI in PA. apply PI in PB. intros z. rewrite K. split.
    + intros (c & v & [Q|[Q|[]]] & _ & ->); injection Q as <- _; auto.
    + intros [-> | ->]; [exists a, (priority (opaque_pixels pixels) a)|exists b, (priority (opaque_pixels pixels) b)]; cbn [In]; auto.
Qed.

(** ** A wasted slot *)
Definition crowded : list Z := [0xFF000000; 0xFF070707; 0xFFF7F7F7; 0xFFF8F8F8].
Definition crowded_result : quantizer_result := {| qr_color_to_count := [(0xFF030303, 0); (0xFFF7F7F7, 0)]; qr_input_pixel_to_cluster_pixel := [] |}.
Lemma crowded_two : wu_quantize (fun m => m) crowded 3 = Ok crowded_result.
Proof. vm_compute. reflexivity. Qed.
Lemma crowded_refuted : exists pixels chosen n r, image_fits pixels /\ NoDup (map cell_of chosen) /\ incl chosen pixels /\ Forall opaque chosen /\ Z.of_nat (List.length chosen) = n /\ wu_quantize (fun m => m) pixels n = Ok r /\ Z.of_nat (List.length (qr_color_to_count r)) < n.
Proof.
  exists crowded, [0xFF000000; 0xFFF7F7F7; 0xFFF8F8F8], 3, crowded_result.
  split; [vm_compute; discriminate|]. split; [vm_compute; repeat constructor; cbn; intuition discriminate|].
  split; [intros z; cbn; intuition|]. split; [repeat constructor; vm_compute; intuition discriminate|]. split; [reflexivity|]. split; [exact crowded_two|reflexivity].
Qed.
