(** * Wu: the partition and the result. Proof file. *)
From Coq Require Import ZArith Bool List Lia Lra Reals FMapPositive String Permutation.
From Flocq Require Import Core IEEE754.BinarySingleNaN.
From Verif Require Import F64 ColorUtils Assoc QuantizerMap QuantizerWu SpecWu SpecQuantize FloatFacts AssocFacts PfArgb PfQuantizeMap PfHct PfScore PfWuMoments PfWuSums PfWuBoxes.
Import ListNotations.
Open Scope string_scope.
Open Scope list_scope.
Open Scope Z_scope.

Definition strict (c : box) : Prop :=
  0 <= b_r0 c < b_r1 c /\ b_r1 c <= 32 /\ 0 <= b_g0 c < b_g1 c /\ b_g1 c <= 32 /\ 0 <= b_b0 c < b_b1 c /\ b_b1 c <= 32.
Lemma strict_cube c : strict c -> in_cube c. Proof. unfold strict, in_cube. lia. Qed.
Lemma empty_inside p : inside empty_box p = false.
Proof. unfold inside. cbn [empty_box b_r0 b_r1 b_g0 b_g1 b_b0 b_b1]. destruct (Z.leb_spec 0 (red_from_argb p / 8)), (Z.ltb_spec (red_from_argb p / 8) 0); cbn [andb]; try reflexivity; lia. Qed.
Definition whole : box := {| b_r0 := 0; b_r1 := 32; b_g0 := 0; b_g1 := 32; b_b0 := 0; b_b1 := 32; b_vol := 0 |}.
Lemma whole_inside p : inside whole p = true.
Proof.
  unfold inside. cbn [whole b_r0 b_r1 b_g0 b_g1 b_b0 b_b1].
  pose proof (eighth _ (red_byte p)). pose proof (eighth _ (green_byte p)). pose proof (eighth _ (blue_byte p)).
  rewrite !andb_true_iff, !Z.leb_le, !Z.ltb_lt. lia.
Qed.

Section Tables.
Variables (ps : list (Z * Z)) (w : wu).
Hypothesis (S : sums_wu ps w).
Notation fits := (fits ps). Notation N := (N ps).
Definition used (c : box) : Prop := strict c /\ (N <> 0 -> weighted one (inside c) ps <> 0).

Record inv (n i : nat) (cubes : list box) (vv : list f64) : Prop := {
  i_len : List.length cubes = n; i_vlen : List.length vv = n;
  i_boxes : forall j c, nth_error cubes j = Some c -> used c \/ c = empty_box /\ nth_error vv j = Some (dec "0.0");
  i_part : partition cubes;
  i_tail : forall j c, (i <= j)%nat -> nth_error cubes j = Some c -> c = empty_box
}.
(** What create_boxes returns. *)
Definition good (n : Z) (cubes : list box) (count : Z) : Prop :=
  Z.of_nat (List.length cubes) = n /\ 1 <= count <= n /\ partition cubes /\
  (forall j c, nth_error cubes j = Some c -> used c \/ c = empty_box) /\
  (forall j c, count <= Z.of_nat j -> nth_error cubes j = Some c -> c = empty_box).

Lemma split_partition cubes next i0 c d k : partition cubes -> nth_error cubes next = Some c -> nth_error cubes i0 = Some empty_box ->
  next <> i0 -> lo c d <= k <= hi c d ->
  partition (list_set (list_set cubes next (set_vol (lower c d k))) i0 (set_vol (upper c d k))).
Proof.
  intros P EN EI D K p.
  assert (LN : (next < List.length cubes)%nat) by (apply nth_error_Some; congruence).
  assert (LI : (i0 < List.length cubes)%nat) by (apply nth_error_Some; congruence).
  assert (NTH : forall j, nth_error (list_set (list_set cubes next (set_vol (lower c d k))) i0 (set_vol (upper c d k))) j =
     if Nat.eqb i0 j then Some (set_vol (upper c d k)) else if Nat.eqb next j then Some (set_vol (lower c d k)) else nth_error cubes j).
  { intros j. rewrite list_set_nth by (rewrite list_set_length; lia). rewrite list_set_nth by lia. reflexivity. }
  destruct (split_inside c d k p K) as (SI & SN).
  destruct (P p) as (j & (cj & Ej & Ij) & U).
  destruct (Nat.eq_dec j next) as [->|JN].
  - rewrite EN in Ej. injection Ej as <-. apply SI in Ij. destruct Ij as [Il|Iu].
    + exists next. split.
      * exists (set_vol (lower c d k)). rewrite NTH. destruct (Nat.eqb_spec i0 next); [congruence|]. rewrite Nat.eqb_refl. split; [reflexivity|exact Il].
      * intros j' (c' & E' & I'). rewrite NTH in E'. destruct (Nat.eqb_spec i0 j') as [<-|].
        { injection E' as <-. rewrite set_vol_inside in I'. tauto. }
        destruct (Nat.eqb_spec next j') as [<-|]; [reflexivity|]. apply U. now exists c'.
    + exists i0. split.
      * exists (set_vol (upper c d k)). rewrite NTH, Nat.eqb_refl. split; [reflexivity|exact Iu].
      * intros j' (c' & E' & I'). rewrite NTH in E'. destruct (Nat.eqb_spec i0 j') as [<-|]; [reflexivity|].
        destruct (Nat.eqb_spec next j') as [<-|NE].
        { injection E' as <-. rewrite set_vol_inside in I'. tauto. }
        elim NE. apply U. now exists c'.
  - assert (JI : j <> i0). { intros ->. rewrite EI in Ej. injection Ej as <-. rewrite empty_inside in Ij. discriminate. }
    exists j. split.
    + exists cj. rewrite NTH. destruct (Nat.eqb_spec i0 j); [congruence|]. destruct (Nat.eqb_spec next j); [congruence|]. easy.
    + intros j' (c' & E' & I'). rewrite NTH in E'. destruct (Nat.eqb_spec i0 j') as [<-|].
      { injection E' as <-. rewrite set_vol_inside in I'. elim JN. apply U. exists c. split; [exact EN|]. apply SI. now right. }
      destruct (Nat.eqb_spec next j') as [<-|].
      { injection E' as <-. rewrite set_vol_inside in I'. elim JN. apply U. exists c. split; [exact EN|]. apply SI. now left. }
      apply U. now exists c'.
Qed.

Lemma argmax_spec vv js : Forall (fun j => 0 <= j < Z.of_nat (List.length vv)) js -> forall next temp, 0 <= next ->
  nth_error vv (Z.to_nat next) = Some temp ->
  exists next' temp', argmax_loop vv js next temp = Ok (next', temp') /\ 0 <= next' /\ nth_error vv (Z.to_nat next') = Some temp'.
Proof.
  induction 1 as [|j js H F IH]; intros next temp P E; cbn [argmax_loop]; [eauto|].
  destruct (index_ok vv j H) as (v & IV & EV). rewrite IV, bind_Ok. destruct (fgt v temp); apply IH; auto; lia.
Qed.

Lemma lower_used c d k : strict c -> balanced ps c d k -> used (set_vol (lower c d k)) /\ used (set_vol (upper c d k)).
Proof.
  intros I (K & L & U). unfold used. split; (split; [|intros _; assumption]); unfold strict, lo, hi in *;
  destruct d; cbn [set_vol lower upper b_r0 b_r1 b_g0 b_g1 b_b0 b_b1] in *; lia.
Qed.

Lemma boxes_case n : forall (i : nat) k cubes vv next, (1 <= i)%nat -> (i + k = n)%nat ->
  inv n i cubes vv -> 0 <= next -> (exists c, nth_error cubes (Z.to_nat next) = Some c /\ used c) ->
  match boxes_loop w (Z.of_nat n) (map (fun j => Z.of_nat j) (seq i k)) cubes vv next with
  | Ok (cubes', count) => good (Z.of_nat n) cubes' count
  | Panic => ~ fits
  end.
Proof.
  intros i k. revert i. induction k as [|k IH]; intros i cubes vv next I1 IK V NX (c & EC & UC); cbn [seq map boxes_loop].
  - split; [now rewrite (i_len _ _ _ _ V)|]. split; [lia|]. split; [exact (i_part _ _ _ _ V)|]. split.
    + intros j cj E. destruct (i_boxes _ _ _ _ V j cj E) as [U|(X & _)]; auto.
    + intros j cj L E. apply (i_tail _ _ _ _ V j cj); [lia|exact E].
  - assert (LC := i_len _ _ _ _ V). assert (LV := i_vlen _ _ _ _ V).
    assert (LN : (Z.to_nat next < n)%nat) by (rewrite <- LC; apply nth_error_Some; congruence).
    destruct (index_ok cubes next) as (c' & IX & EX); [lia|]. rewrite IX, bind_Ok. rewrite EC in EX. injection EX as <-.
    assert (EI : nth_error cubes i = Some empty_box).
    { destruct (nth_error cubes i) as [x|] eqn:E; [|apply nth_error_None in E; lia]. f_equal. now apply (i_tail _ _ _ _ V i x). }
    assert (NI : Z.to_nat next <> i). { intros X. rewrite X, EI in EC. injection EC as <-. destruct UC as (UC & _). unfold strict, empty_box in UC. cbn in UC. lia. }
    pose proof (cut_case ps w S c (strict_cube c (proj1 UC))) as CC. destruct (cut w c) as [[(a, b)|]|]; [..|exact CC]; rewrite bind_Ok.
    + destruct CC as (d & kk & B & -> & ->). destruct (lower_used c d kk (proj1 UC) B) as (UL & UU).
      pose proof (box_variance_case ps w S (set_vol (lower c d kk)) (strict_cube _ (proj1 UL)) (proj1 (proj2 B))) as V1.
      destruct (box_variance w (set_vol (lower c d kk))) as [v1|]; [rewrite bind_Ok|exact V1].
      pose proof (box_variance_case ps w S (set_vol (upper c d kk)) (strict_cube _ (proj1 UU)) (proj2 (proj2 B))) as V2.
      destruct (box_variance w (set_vol (upper c d kk))) as [v2|]; [rewrite bind_Ok|exact V2].
      rewrite bind_Ok. rewrite Nat2Z.id. clear V1 V2.
      set (cubes' := list_set (list_set cubes (Z.to_nat next) (set_vol (lower c d kk))) i (set_vol (upper c d kk))).
      set (vv' := list_set (list_set vv (Z.to_nat next) v1) i v2).
      assert (NTH : forall j, nth_error cubes' j = if Nat.eqb i j then Some (set_vol (upper c d kk)) else if Nat.eqb (Z.to_nat next) j then Some (set_vol (lower c d kk)) else nth_error cubes j).
      { intros j. unfold cubes'. rewrite list_set_nth by (rewrite list_set_length; lia). rewrite list_set_nth by lia. reflexivity. }
      assert (NTV : forall j, nth_error vv' j = if Nat.eqb i j then Some v2 else if Nat.eqb (Z.to_nat next) j then Some v1 else nth_error vv j).
      { intros j. unfold vv'. rewrite list_set_nth by (rewrite list_set_length; lia). rewrite list_set_nth by lia. reflexivity. }
      assert (V' : inv n (Datatypes.S i) cubes' vv').
      { constructor.
        - unfold cubes'. now rewrite !list_set_length.
        - unfold vv'. now rewrite !list_set_length.
        - intros j cj. rewrite NTH, NTV. destruct (Nat.eqb i j); [intros [= <-]; now left|].
          destruct (Nat.eqb (Z.to_nat next) j); [intros [= <-]; now left|]. apply (i_boxes _ _ _ _ V).
        - unfold cubes'. apply split_partition; auto; [exact (i_part _ _ _ _ V)|]. destruct B as (B & _). lia.
        - intros j cj L. rewrite NTH. destruct (Nat.eqb_spec i j); [lia|]. destruct (Nat.eqb_spec (Z.to_nat next) j) as [E|].
          + intros _. exfalso. pose proof (i_tail _ _ _ _ V j c ltac:(lia)) as T. rewrite <- E in T. specialize (T EC). subst c.
            destruct UC as (UC & _). unfold strict, empty_box in UC. cbn in UC. lia.
          + apply (i_tail _ _ _ _ V). lia. }
      destruct (nth_error vv' 0) as [t0|] eqn:E0; [|apply nth_error_None in E0; rewrite (i_vlen _ _ _ _ V') in E0; lia].
      destruct (index_ok vv' 0) as (t0' & -> & E0'); [rewrite (i_vlen _ _ _ _ V'); lia|]. rewrite bind_Ok.
      destruct (argmax_spec vv' (zseq 1 (Z.of_nat i + 1))) with (next := 0) (temp := t0') as (nx & tm & -> & NX' & EN); [|lia|exact E0'|].
      { rewrite Forall_forall. intros j. rewrite in_zseq, (i_vlen _ _ _ _ V'). lia. }
      rewrite bind_Ok. destruct (fle tm (dec "0.0")) eqn:LE.
      * split; [now rewrite (i_len _ _ _ _ V')|]. split; [lia|]. split; [exact (i_part _ _ _ _ V')|]. split.
        -- intros j cj E. destruct (i_boxes _ _ _ _ V' j cj E) as [U|(X & _)]; auto.
        -- intros j cj L E. apply (i_tail _ _ _ _ V' j cj); [lia|exact E].
      * apply IH; [lia|lia|exact V'|exact NX'|].
        destruct (nth_error cubes' (Z.to_nat nx)) as [cn|] eqn:ECN.
        2:{ apply nth_error_None in ECN. assert (Z.to_nat nx < List.length vv')%nat by (apply nth_error_Some; congruence).
            rewrite (i_len _ _ _ _ V') in ECN. rewrite (i_vlen _ _ _ _ V') in H. lia. }
        exists cn. split; [reflexivity|]. destruct (i_boxes _ _ _ _ V' _ _ ECN) as [U|(_ & Z0)]; [exact U|].
        rewrite EN in Z0. injection Z0 as ->. vm_compute in LE. discriminate LE.
    + set (vv' := list_set vv (Z.to_nat next) (dec "0.0")).
      assert (NTV : forall j, nth_error vv' j = if Nat.eqb (Z.to_nat next) j then Some (dec "0.0") else nth_error vv j).
      { intros j. unfold vv'. rewrite list_set_nth by lia. reflexivity. }
      assert (V' : inv n i cubes vv').
      { constructor.
        - exact LC.
        - unfold vv'. now rewrite !list_set_length.
        - intros j cj E. rewrite NTV. destruct (i_boxes _ _ _ _ V j cj E) as [U|(X & Y)]; [now left|right]. split; [exact X|].
          destruct (Nat.eqb (Z.to_nat next) j); [reflexivity|exact Y].
        - exact (i_part _ _ _ _ V).
        - exact (i_tail _ _ _ _ V). }
      rewrite bind_Ok. fold vv'.
      destruct (index_ok vv' 0) as (t0' & -> & E0'); [rewrite (i_vlen _ _ _ _ V'); lia|]. rewrite bind_Ok.
      destruct (argmax_spec vv' (zseq 1 (Z.of_nat i - 1 + 1))) with (next := 0) (temp := t0') as (nx & tm & -> & NX' & EN); [|lia|exact E0'|].
      { rewrite Forall_forall. intros j. rewrite in_zseq, (i_vlen _ _ _ _ V'). lia. }
      rewrite bind_Ok. destruct (fle tm (dec "0.0")) eqn:LE.
      * split; [now rewrite (i_len _ _ _ _ V')|]. split; [lia|]. split; [exact (i_part _ _ _ _ V')|]. split.
        -- intros j cj E. destruct (i_boxes _ _ _ _ V' j cj E) as [U|(X & _)]; auto.
        -- intros j cj L E. apply (i_tail _ _ _ _ V' j cj); [lia|exact E].
      * apply IH; [lia|lia| |exact NX'|].
        { destruct V' as [A1 A2 A3 A4 A5]. constructor; auto. intros j cj L. apply A5. lia. }
        destruct (nth_error cubes (Z.to_nat nx)) as [cn|] eqn:ECN.
        2:{ apply nth_error_None in ECN. assert (Z.to_nat nx < List.length vv')%nat by (apply nth_error_Some; congruence).
            rewrite (i_len _ _ _ _ V') in ECN. rewrite (i_vlen _ _ _ _ V') in H. lia. }
        exists cn. split; [reflexivity|]. destruct (i_boxes _ _ _ _ V' _ _ ECN) as [U|(_ & Z0)]; [exact U|].
        rewrite EN in Z0. injection Z0 as ->. vm_compute in LE. discriminate LE.
Qed.

Lemma create_case n : match create_boxes w n with
  | Ok (cubes, count) => good n cubes count
  | Panic => n <= 0 \/ ~ fits
  end.
Proof.
  unfold create_boxes. destruct (Z.leb_spec n 0); [now left|].
  pose proof (boxes_case (Z.to_nat n) 1 (Z.to_nat n - 1) (list_set (repeat empty_box (Z.to_nat n)) 0 whole) (repeat (dec "0.0") (Z.to_nat n)) 0) as B.
  assert (RN : forall j, (j < Z.to_nat n)%nat -> nth_error (repeat empty_box (Z.to_nat n)) j = Some empty_box).
  { intros j L. rewrite (nth_error_nth' _ empty_box) by (now rewrite repeat_length). now rewrite nth_repeat. }
  assert (RV : forall j, (j < Z.to_nat n)%nat -> nth_error (repeat (dec "0.0") (Z.to_nat n)) j = Some (dec "0.0")).
  { intros j L. rewrite (nth_error_nth' _ (dec "0.0")) by (now rewrite repeat_length). now rewrite nth_repeat. }
  assert (NTH : forall j, nth_error (list_set (repeat empty_box (Z.to_nat n)) 0 whole) j = if Nat.eqb 0 j then Some whole else nth_error (repeat empty_box (Z.to_nat n)) j).
  { intros j. rewrite list_set_nth; [reflexivity|]. rewrite repeat_length. lia. }
  assert (TL : forall j c, (1 <= j)%nat -> nth_error (list_set (repeat empty_box (Z.to_nat n)) 0 whole) j = Some c -> c = empty_box).
  { intros j c L. rewrite NTH. destruct (Nat.eqb_spec 0 j); [lia|]. intros E. apply nth_error_In, repeat_spec in E. exact E. }
  assert (U : used whole).
  { split; [unfold strict; cbn; lia|]. intros X. unfold PfWuBoxes.N in X. rewrite (weighted_ext one (inside whole) everywhere); [exact X|]. exact whole_inside. }
  assert (V : inv (Z.to_nat n) 1 (list_set (repeat empty_box (Z.to_nat n)) 0 whole) (repeat (dec "0.0") (Z.to_nat n))).
  { constructor.
    - now rewrite list_set_length, repeat_length.
    - apply repeat_length.
    - intros j c E. destruct j as [|j]; [rewrite NTH in E; injection E as <-; now left|]. right. split; [now apply (TL (Datatypes.S j)); [lia|]|].
      apply RV. assert (Datatypes.S j < List.length (list_set (repeat empty_box (Z.to_nat n)) 0 whole))%nat by (apply nth_error_Some; congruence).
      now rewrite list_set_length, repeat_length in H0.
    - intros p. exists 0%nat. split; [exists whole; split; [now rewrite NTH|apply whole_inside]|].
      intros j (c & E & I). destruct j as [|j]; [reflexivity|]. apply TL in E; [|lia]. subst c. rewrite empty_inside in I. discriminate.
    - exact TL. }
  specialize (B ltac:(lia) ltac:(lia) V ltac:(lia)). 
  assert (X : exists c, nth_error (list_set (repeat empty_box (Z.to_nat n)) 0 whole) (Z.to_nat 0) = Some c /\ used c) by (exists whole; split; [apply (NTH 0%nat)|exact U]).
  specialize (B X). rewrite Z2Nat.id in B by lia.
  replace (zseq 1 n) with (map (fun j : nat => Z.of_nat j) (seq 1 (Z.to_nat n - 1))).
  2:{ unfold zseq. replace (Z.to_nat (n - 1)) with (Z.to_nat n - 1)%nat by lia. rewrite <- seq_shift, map_map. apply map_ext. intros j. lia. }
  change {| b_r0 := 0; b_r1 := MAX_INDEX; b_g0 := 0; b_g1 := MAX_INDEX; b_b0 := 0; b_b1 := MAX_INDEX; b_vol := 0 |} with whole.
  destruct (boxes_loop _ _ _ _ _ _) as [(cubes, count)|]; [exact B|now right].
Qed.

Definition box_color (c : box) : Z :=
  let q f := weighted f (inside c) ps / weighted one (inside c) ps in argb_from_rgb (q red_from_argb) (q green_from_argb) (q blue_from_argb).

Lemma byte_round k : 0 <= k <= 255 -> to_i64 (fround (of_Z k)) = k.
Proof.
  intros K. assert (F : forallb (fun k => to_i64 (fround (of_Z k)) =? k) (zrange 256) = true) by (vm_compute; reflexivity).
  rewrite forallb_forall in F. apply Z.eqb_eq, F. unfold zrange. apply in_map_iff. exists (Z.to_nat k). split; [lia|]. apply in_seq. lia.
Qed.
Lemma mean_case f m c : channel f -> sums f ps m -> in_cube c -> nonneg ps -> 0 < weighted one (inside c) ps ->
  match mean_channel c m (weighted one (inside c) ps) with
  | Ok v => v = weighted f (inside c) ps / weighted one (inside c) ps
  | Panic => ~ fits
  end.
Proof.
  intros C T I NN P. unfold mean_channel. pose proof (volume_case ps f m c C T I) as V.
  destruct (volume c m) as [v|]; [rewrite bind_Ok; subst v|exact V].
  assert (0 <= weighted f (inside c) ps) by (apply weighted_nonneg; [intros p; apply C|exact NN]).
  assert (weighted f (inside c) ps <= 255 * weighted one (inside c) ps) by (apply weighted_le_sel; [exact C|exact NN]).
  rewrite Z.quot_div_nonneg by lia. apply byte_round. split; [apply Z.div_pos; lia|]. apply Z.div_le_upper_bound; lia.
Qed.
Lemma result_case cubes is : nonneg ps -> (forall i, In i is -> 0 <= i < Z.of_nat (List.length cubes)) ->
  (forall j c, nth_error cubes j = Some c -> used c \/ c = empty_box) ->
  match result_loop w cubes is with
  | Ok l => forall z, In z l <-> exists i c, In i is /\ nth_error cubes (Z.to_nat i) = Some c /\ 0 < weighted one (inside c) ps /\ z = box_color c
  | Panic => ~ fits
  end /\
  match result_loop w cubes is with Ok l => (List.length l <= List.length is)%nat | Panic => True end.
Proof.
  intros NN R B. pose proof S as (Sw & Sr & Sg & Sb). induction is as [|i is IH]; cbn [result_loop].
  - split; [|reflexivity]. intros z. split; [easy|]. now intros (i & c & [] & _).
  - destruct (index_ok cubes i (R i (or_introl eq_refl))) as (c & IX & EX). rewrite IX, bind_Ok.
    assert (I : in_cube c). { destruct (B _ _ EX) as [(U & _)| ->]; [now apply strict_cube|unfold in_cube; cbn; lia]. }
    pose proof (volume_case ps one _ c (chan_one) Sw I) as V. destruct (volume c (w_weights w)) as [v|]; [rewrite bind_Ok; subst v|split; [exact V|exact Logic.I]].
    specialize (IH (fun j H => R j (or_intror H))).
    destruct (Z.ltb_spec 0 (weighted one (inside c) ps)) as [P|P].
    + pose proof (mean_case _ _ c chan_r Sr I NN P) as Mr. destruct (mean_channel c (w_moments_r w) _) as [r|]; [rewrite bind_Ok; subst r|split; [exact Mr|exact Logic.I]].
      pose proof (mean_case _ _ c chan_g Sg I NN P) as Mg. destruct (mean_channel c (w_moments_g w) _) as [g|]; [rewrite bind_Ok; subst g|split; [exact Mg|exact Logic.I]].
      pose proof (mean_case _ _ c chan_b Sb I NN P) as Mb. destruct (mean_channel c (w_moments_b w) _) as [b|]; [rewrite bind_Ok; subst b|split; [exact Mb|exact Logic.I]].
      destruct (result_loop w cubes is) as [l|]; [rewrite bind_Ok|split; [exact (proj1 IH)|exact Logic.I]]. destruct IH as (IH & L). split; [|cbn [List.length]; lia].
      intros z. cbn [In]. rewrite IH. split.
      * intros [<-|(j & cj & J & E & P' & ->)]; [exists i, c; split; [now left|]; split; [exact EX|]; split; [exact P|reflexivity]|].
        exists j, cj. split; [now right|]. auto.
      * intros (j & cj & [<-|J] & E & P' & ->); [left; rewrite EX in E; injection E as <-; reflexivity|]. right. exists j, cj. auto.
    + destruct (result_loop w cubes is) as [l|]; [|split; [exact (proj1 IH)|exact Logic.I]]. destruct IH as (IH & L). split; [|cbn [List.length]; lia].
      intros z. rewrite IH. split.
      * intros (j & cj & J & E). exists j, cj. split; [now right|]. exact E.
      * intros (j & cj & [<-|J] & E & P' & ->); [rewrite EX in E; injection E as <-; lia|]. exists j, cj. auto.
Qed.
End Tables.

(** ** No overflow when the image fits *)
Lemma term_le f n k : (forall j, 0 <= f j) -> 1 <= k <= n -> f k <= zs f n.
Proof.
  intros F K. pose proof (zs_mono f k n F ltac:(lia)) as M. rewrite (zs_step f k) in M by lia.
  pose proof (zs_nonneg f (k - 1) F). lia.
Qed.
Lemma fits_cells ps f r g b : channel f -> fits ps -> 0 <= cells f ps r g b <= 255 * N ps.
Proof. intros C F. now apply weight_range. Qed.
Lemma fits_nooverflow ps f : channel f -> fits ps -> ~ overflow (cells f ps).
Proof.
  intros C F (r & g & b & R & G & B & O). destruct (bound ps F) as (B1 & B2).
  assert (C0 : forall r g b, 0 <= cells f ps r g b) by (intros; apply fits_cells; assumption).
  assert (L0 : forall r g b, 0 <= pL (cells f ps) r g b) by (intros; apply zs_nonneg; auto).
  assert (A0 : forall r g b, 0 <= pA (cells f ps) r g b) by (intros; apply zs_nonneg; auto).
  assert (LA : pL (cells f ps) r g b <= pA (cells f ps) r g b) by exact (term_le (fun g' => pL (cells f ps) r g' b) g g (fun j => L0 r j b) ltac:(lia)).
  assert (AS : pA (cells f ps) r g b <= pS (cells f ps) r g b) by exact (term_le (fun r' => pA (cells f ps) r' g b) r r (fun j => A0 j g b) ltac:(lia)).
  assert (SB : pS (cells f ps) r g b <= 255 * N ps) by (rewrite prefix_weighted; now apply weight_range).
  specialize (L0 r g b). specialize (A0 r g b).
  destruct O as [O|[O|O]]; refine (nofit ps _ _ O F); intros _; unfold i64_min; lia.
Qed.
Lemma weighted_app f sel a b : weighted f sel (a ++ b) = weighted f sel a + weighted f sel b.
Proof. unfold weighted. now rewrite map_app, fold_add_app. Qed.
Lemma fits_nohist ps : fits ps -> ~ hist_overflow ps.
Proof.
  intros F (p & c & bf & af & -> & O). pose proof F as (NN & SQ). destruct (bound _ F) as (B1 & B2).
  assert (NE : 0 <= c /\ nonneg bf /\ nonneg af).
  { unfold nonneg in *. apply Forall_app in NN. destruct NN as (A & B). inversion B; subst. auto. }
  destruct NE as (C0 & N1 & N2).
  assert (E : N (bf ++ (p, c) :: af) = weighted one everywhere bf + c + weighted one everywhere af).
  { unfold N. rewrite weighted_app, weighted_cons. cbn [everywhere fst snd]. unfold one at 2. lia. }
  assert (0 <= weighted one everywhere bf) by (apply weighted_nonneg; [unfold one; lia|exact N1]).
  assert (0 <= weighted one everywhere af) by (apply weighted_nonneg; [unfold one; lia|exact N2]).
  assert (CN : c <= N (bf ++ (p, c) :: af)) by lia.
  pose proof (red_byte p) as R. pose proof (green_byte p) as G. pose proof (blue_byte p) as B. unfold byte in *.
  set (NT := N (bf ++ (p, c) :: af)) in *.
  assert (P1 : forall x, 0 <= x <= 255 -> i64_min <= x * c <= i64_max) by (intros x X; unfold i64_min; nia).
  destruct O as [O|[O|[O|[O|(f & r & g & b & I & O)]]]].
  - rewrite (chk_ok _ (P1 _ R)) in O. discriminate.
  - rewrite (chk_ok _ (P1 _ G)) in O. discriminate.
  - rewrite (chk_ok _ (P1 _ B)) in O. discriminate.
  - rewrite chk_ok in O; [discriminate|].
    assert (Q : 0 <= red_from_argb p * red_from_argb p + green_from_argb p * green_from_argb p + blue_from_argb p * blue_from_argb p <= 195075) by nia.
    destruct (Z.eq_dec NT 0) as [Z0|Z0]; [replace c with 0 by lia; unfold i64_min, i64_max; lia|].
    assert (c * 195075 <= 3 * (255 * NT) * (255 * NT)) by nia.
    split; [unfold i64_min; nia|nia].
  - assert (C : channel f). { destruct I as [<-|[<-|[<-|[<-|[]]]]]; [exact chan_one|exact chan_r|exact chan_g|exact chan_b]. }
    refine (nofit (bf ++ (p, c) :: af) _ _ O F). intros _.
    assert (W : weighted f (at_cell r g b) (bf ++ [(p, c)]) <= 255 * weighted one everywhere (bf ++ [(p, c)])).
    { apply weighted_le; [exact C|]. unfold nonneg. apply Forall_app. split; [exact N1|]. now repeat constructor. }
    assert (W0 : 0 <= weighted f (at_cell r g b) (bf ++ [(p, c)])).
    { apply weighted_nonneg; [intros q; apply C|]. unfold nonneg. apply Forall_app. split; [exact N1|]. now repeat constructor. }
    rewrite (weighted_app one), (weighted_cons one everywhere (p, c) []) in W. cbn [everywhere fst snd] in W.
    change (weighted one everywhere []) with 0 in W. change (one p) with 1 in W. unfold cells. unfold i64_min. lia.
Qed.

(** ** From the map of colours back to the pixels *)
Lemma weighted_perm f sel a b : Permutation a b -> weighted f sel a = weighted f sel b.
Proof. induction 1; rewrite ?weighted_cons in *; lia. Qed.
Lemma weighted_ainsert f sel m k v : NoDup (map fst m) -> weighted f sel (ainsert Z.eqb m k v) = weighted f sel m + (if sel k then f k * (v - get0 m k) else 0).
Proof.
  unfold get0. induction m as [|(a, b) m IH]; intros ND; cbn [ainsert afind].
  - rewrite weighted_cons. unfold weighted. cbn [map fold_right fst snd]. destruct (sel k); lia.
  - cbn [map fst] in ND. inversion ND as [|? ? NI N']; subst. destruct (Z.eqb_spec a k) as [->|D]; rewrite !weighted_cons; cbn [fst snd].
    + destruct (sel k); lia.
    + rewrite (IH N'). lia.
Qed.
Lemma weighted_fold f sel pixels : forall m, NoDup (map fst m) ->
  weighted f sel (fold_left map_step pixels m) = weighted f sel m + sum_of f (filter (fun p => opaque_b p && sel p) pixels).
Proof.
  induction pixels as [|p l IH]; intros m ND; cbn [fold_left filter].
  - unfold sum_of. cbn. lia.
  - rewrite step_eq. destruct (opaque_b p); cbn [andb]; [|now apply IH].
    rewrite IH by (now apply nodup_ainsert). rewrite weighted_ainsert by exact ND.
    destruct (sel p); [|lia]. unfold sum_of. cbn [map fold_right]. lia.
Qed.
Lemma weighted_map f sel pixels : weighted f sel (qr_color_to_count (map_quantize pixels)) = sum_of f (filter (fun p => opaque_b p && sel p) pixels).
Proof. unfold map_quantize. cbn [qr_color_to_count]. rewrite weighted_fold by constructor. unfold weighted at 1. cbn [map fold_right]. lia. Qed.
Lemma sum_one l : sum_of one l = Z.of_nat (List.length l).
Proof. unfold sum_of. induction l as [|x l IH]; [reflexivity|]. cbn [map fold_right List.length]. rewrite IH. unfold one. lia. Qed.
Lemma map_nonneg pixels : nonneg (qr_color_to_count (map_quantize pixels)).
Proof. unfold nonneg. rewrite Forall_forall. intros (p, n) I. apply map_counts in I. cbn [snd]. lia. Qed.

Section Quantize.
Variables (order : list (Z * Z) -> list (Z * Z)) (pixels : list Z).
Hypothesis (OP : Permutation (order (qr_color_to_count (map_quantize pixels))) (qr_color_to_count (map_quantize pixels))).
Let ps := order (qr_color_to_count (map_quantize pixels)).
Lemma ps_nonneg : nonneg ps.
Proof. unfold nonneg. rewrite Forall_forall. intros e I. apply (Permutation_in _ OP) in I. pose proof (map_nonneg pixels) as M. unfold nonneg in M. rewrite Forall_forall in M. now apply M. Qed.
Lemma ps_weighted f sel : weighted f sel ps = sum_of f (filter (fun p => opaque_b p && sel p) pixels).
Proof. unfold ps. rewrite (weighted_perm f sel _ _ OP). apply weighted_map. Qed.
Lemma ps_in f c : weighted f (inside c) ps = sum_of f (pixels_in c pixels).
Proof. apply ps_weighted. Qed.
Lemma ps_N : N ps = opaque_count pixels.
Proof.
  unfold N, opaque_count. rewrite ps_weighted, sum_one. do 2 f_equal. apply filter_ext. intros p. now rewrite andb_true_r.
Qed.
Lemma ps_color c : box_color ps c = mean_color c pixels.
Proof. unfold box_color, mean_color, mean. now rewrite !ps_in, sum_one. Qed.

Lemma tables_case : match (do w <- construct_histogram ps; compute_moments w) with Ok w => sums_wu ps w | Panic => ~ fits ps end.
Proof.
  pose proof (hist_spec ps) as H. destruct (construct_histogram ps) as [w|]; [rewrite bind_Ok|intros F; exact (fits_nohist ps F H)].
  pose proof (moments_spec ps w H) as M. destruct (compute_moments w) as [w'|]; [exact M|]. intros F. destruct M as (f & I & O).
  revert O. apply fits_nooverflow; [|exact F]. destruct I as [<-|[<-|[<-|[<-|[]]]]]; [exact chan_one|exact chan_r|exact chan_g|exact chan_b].
Qed.

Notation image_fits := (image_fits pixels).
Lemma fits_image : image_fits -> fits ps.
Proof. intros F. split; [exact ps_nonneg|]. rewrite ps_N. exact F. Qed.

(** One colour per box of a partition. *)
Lemma keys_fold l : forall m, let r := fold_left (fun m e => ainsert Z.eqb m e 0) l m in
  (NoDup (map fst m) -> NoDup (map fst r)) /\ (forall z, In z (map fst r) <-> In z (map fst m) \/ In z l) /\
  (List.length r <= List.length m + List.length l)%nat /\ ((forall e, In e m -> snd e = 0) -> forall e, In e r -> snd e = 0).
Proof.
  induction l as [|x l IH]; intros m r; unfold r; cbn [fold_left].
  - split; [auto|]. split; [intros z; cbn; tauto|]. split; [lia|auto].
  - destruct (IH (ainsert Z.eqb m x 0)) as (A & B & C & D).
    assert (LI : forall m : list (Z * Z), (List.length (ainsert Z.eqb m x 0%Z) <= List.length m + 1)%nat).
    { induction m0 as [|(a, b) m0 IHm]; cbn [ainsert List.length]; [lia|]. destruct (a =? x); cbn [List.length]; lia. }
    split; [intros N0; apply A; now apply nodup_ainsert|]. split.
    { intros z. rewrite B, keys_ainsert. cbn [In]. intuition. }
    split; [specialize (LI m); cbn [List.length]; lia|].
    intros Z0. apply D. clear - Z0. induction m as [|(a, b) m IHm]; cbn [ainsert].
    { intros e [<-|[]]. reflexivity. }
    destruct (a =? x).
    + intros e [<-|I]; [reflexivity|]. apply Z0. now right.
    + intros e [<-|I]; [apply Z0; now left|]. apply IHm; [|exact I]. intros e' I'. apply Z0. now right.
Qed.

Lemma wu_case n :
  match wu_quantize order pixels n with
  | Ok r => exists boxes, Z.of_nat (List.length boxes) <= n /\ 1 <= n /\
      Forall in_cube boxes /\ partition boxes /\
      NoDup (map fst (qr_color_to_count r)) /\
      (forall z, In z (map fst (qr_color_to_count r)) <-> exists c, In c boxes /\ pixels_in c pixels <> [] /\ z = mean_color c pixels) /\
      Z.of_nat (List.length (qr_color_to_count r)) <= n /\
      (forall e, In e (qr_color_to_count r) -> snd e = 0) /\ qr_input_pixel_to_cluster_pixel r = []
  | Panic => n <= 0 \/ ~ image_fits
  end.
Proof.
  unfold wu_quantize. rewrite <- bind_assoc. fold ps. pose proof tables_case as T.
  destruct (do w <- construct_histogram ps; compute_moments w) as [w|]; [rewrite bind_Ok|right; intros F; apply T; now apply fits_image].
  pose proof (create_case ps w T n) as C. destruct (create_boxes w n) as [(cubes, count)|].
  2:{ cbn [bind]. destruct C as [C|C]; [now left|right]. intros F. apply C. now apply fits_image. }
  rewrite bind_Ok. cbn [fst snd]. destruct C as (LC & CN & P & B & TL). unfold create_result.
  destruct (result_case ps w T cubes (zseq 0 count)) as (R & RL).
  { exact ps_nonneg. } { intros i. rewrite in_zseq. lia. } { exact B. }
  destruct (result_loop w cubes (zseq 0 count)) as [l|].
  2:{ cbn [bind]. right. intros F. apply R. now apply fits_image. }
  rewrite bind_Ok. cbn [qr_color_to_count qr_input_pixel_to_cluster_pixel]. exists cubes.
  destruct (keys_fold l []) as (K1 & K2 & K3 & K4).
  split; [lia|]. split; [lia|]. split.
  { rewrite Forall_forall. intros c I. apply In_nth_error in I. destruct I as (j & E). destruct (B j c E) as [(U & _)| ->]; [now apply strict_cube|unfold in_cube; cbn; lia]. }
  split; [exact P|]. split; [apply K1; constructor|]. split.
  { intros z. rewrite K2, R. assert (PI : forall c, 0 < weighted one (inside c) ps <-> pixels_in c pixels <> []).
    { intros c. rewrite ps_in, sum_one. destruct (pixels_in c pixels); cbn [List.length]; split; intros; try lia; try congruence. }
    split.
    - intros [[]|(i & c & I & E & W & ->)]. exists c. split; [now apply nth_error_In in E|]. split; [now apply PI|apply ps_color].
    - intros (c & I & NE & ->). right. apply In_nth_error in I. destruct I as (j & E). exists (Z.of_nat j), c. rewrite Nat2Z.id.
      split; [|split; [exact E|split; [now apply PI|symmetry; apply ps_color]]]. apply in_zseq. split; [lia|].
      destruct (Z.le_gt_cases count (Z.of_nat j)) as [L|L]; [exfalso|exact L].
      apply (TL j c L) in E. subst c. apply NE. unfold pixels_in. clear. induction pixels as [|p l IH]; [reflexivity|].
      cbn [filter]. rewrite empty_inside, andb_false_r. exact IH. }
  split; [|split; [apply K4; intros e []|reflexivity]].
  cbn [List.length] in K3. unfold zseq in RL. rewrite map_length, seq_length in RL. lia.
Qed.
End Quantize.

(** ** Overflow on large images *)
Section Overflow.
Variables (ps : list (Z * Z)) (w : wu).
Hypothesis (S : sums_wu ps w).
Lemma squares_panic x y z : i64_max < x * x + y * y + z * z -> sum_squares x y z = Panic.
Proof.
  intros H. destruct (sum_squares x y z) as [s|] eqn:E; [exfalso|reflexivity]. unfold sum_squares, zmul, zadd in E.
  inv_bind E xx Ex. inv_bind E yy Ey. inv_bind E s2 Es. inv_bind E zz Ez.
  apply chk_inv in Ex, Ey, Es, Ez, E. lia.
Qed.
Lemma maximize_each c d is br bg bb bw wr wg wb ww i : in_cube c -> lo c d <= i <= hi c d -> In i is ->
  bottom c d (w_moments_r w) = Ok br -> bottom c d (w_moments_g w) = Ok bg ->
  bottom c d (w_moments_b w) = Ok bb -> bottom c d (w_weights w) = Ok bw ->
  half_of ps one c d i <> 0 ->
  i64_max < half_of ps red_from_argb c d i * half_of ps red_from_argb c d i + half_of ps green_from_argb c d i * half_of ps green_from_argb c d i
    + half_of ps blue_from_argb c d i * half_of ps blue_from_argb c d i ->
  forall mx k0, maximize_loop w c d is br bg bb bw wr wg wb ww mx k0 = Panic.
Proof.
  destruct S as (Sw & Sr & Sg & Sb). intros I K J Br Bg Bb Bw NZ OV. induction is as [|a is IH]; intros mx k0; [easy|].
  destruct (maximize_loop w c d (a :: is) br bg bb bw wr wg wb ww mx k0) as [r|] eqn:E; [exfalso|reflexivity].
  cbn [maximize_loop] in E. destruct J as [->|J].
  - rewrite <- bind_assoc in E. pose proof (top_case ps _ _ c d i br chan_r Sr I K Br) as Tr.
    destruct (do t <- top c d i (w_moments_r w); zadd br t) as [hr|]; [rewrite bind_Ok in E|discriminate E].
    rewrite <- bind_assoc in E. pose proof (top_case ps _ _ c d i bg chan_g Sg I K Bg) as Tg.
    destruct (do t <- top c d i (w_moments_g w); zadd bg t) as [hg|]; [rewrite bind_Ok in E|discriminate E].
    rewrite <- bind_assoc in E. pose proof (top_case ps _ _ c d i bb chan_b Sb I K Bb) as Tb.
    destruct (do t <- top c d i (w_moments_b w); zadd bb t) as [hb|]; [rewrite bind_Ok in E|discriminate E].
    rewrite <- bind_assoc in E. pose proof (top_case ps _ _ c d i bw chan_one Sw I K Bw) as Tw.
    destruct (do t <- top c d i (w_weights w); zadd bw t) as [hw|]; [rewrite bind_Ok in E|discriminate E].
    subst hr hg hb hw. destruct (Z.eqb_spec (half_of ps one c d i) 0); [contradiction|].
    rewrite (squares_panic _ _ _ OV) in E. discriminate E.
  - specialize (IH J).
    inv_bind E tr E1. inv_bind E hr E2. inv_bind E tg E3. inv_bind E hg E4. inv_bind E tb E5. inv_bind E hb E6. inv_bind E tw E7. inv_bind E hw E8.
    destruct (hw =? 0); [rewrite IH in E; discriminate E|].
    inv_bind E sq E9. inv_bind E ur E10. inv_bind E ug E11. inv_bind E ub E12. inv_bind E uw E13.
    destruct (uw =? 0); [rewrite IH in E; discriminate E|]. inv_bind E sq2 E14. cbv zeta in E.
    destruct (fgt _ _) in E; rewrite IH in E; discriminate E.
Qed.
Lemma boxes_panic n : 2 <= n ->
  (forall e, In e ps -> red_from_argb (fst e) < 248) -> N ps <> 0 ->
  i64_max < weighted red_from_argb everywhere ps * weighted red_from_argb everywhere ps +
            weighted green_from_argb everywhere ps * weighted green_from_argb everywhere ps +
            weighted blue_from_argb everywhere ps * weighted blue_from_argb everywhere ps ->
  create_boxes w n = Panic.
Proof.
  intros N2 RB NZ OV. unfold create_boxes. destruct (Z.leb_spec n 0); [lia|].
  change {| b_r0 := 0; b_r1 := MAX_INDEX; b_g0 := 0; b_g1 := MAX_INDEX; b_b0 := 0; b_b1 := MAX_INDEX; b_vol := 0 |} with whole.
  assert (Z1 : zseq 1 n = 1 :: zseq 2 n).
  { unfold zseq. replace (Z.to_nat (n - 1)) with (Datatypes.S (Z.to_nat (n - 2))) by lia. cbn [seq map]. f_equal.
    rewrite <- seq_shift, map_map. apply map_ext. intros k. lia. }
  rewrite Z1. cbn [boxes_loop].
  destruct (index_ok (list_set (repeat empty_box (Z.to_nat n)) 0 whole) 0) as (c & IX & EX).
  { rewrite list_set_length, repeat_length. lia. }
  rewrite IX, bind_Ok. change (Z.to_nat 0) with 0%nat in EX. rewrite list_set_nth in EX by (rewrite repeat_length; lia). injection EX as <-.
  assert (CP : cut w whole = Panic); [|now rewrite CP].
  destruct (cut w whole) as [o|] eqn:E; [exfalso|reflexivity]. unfold cut in E.
  inv_bind E vr E1. inv_bind E vg E2. inv_bind E vb E3. inv_bind E vw E4. inv_bind E m E5. clear E.
  unfold maximize in E5. inv_bind E5 br F1. inv_bind E5 bg F2. inv_bind E5 bb F3. inv_bind E5 bw F4.
  assert (I : in_cube whole) by (unfold in_cube; cbn; lia).
  assert (HO : forall f, half_of ps f whole DRed 31 = weighted f everywhere ps).
  { intros f. unfold half_of, weighted. f_equal. apply map_ext_in. intros e Ie.
    replace (inside (lower whole DRed 31) (fst e)) with true; [reflexivity|]. symmetry. unfold inside. cbn [lower whole b_r0 b_r1 b_g0 b_g1 b_b0 b_b1].
    pose proof (eighth _ (red_byte (fst e))). pose proof (eighth _ (green_byte (fst e))). pose proof (eighth _ (blue_byte (fst e))).
    assert (red_from_argb (fst e) / 8 < 31) by (apply Z.div_lt_upper_bound; [lia|]; specialize (RB e Ie); lia).
    rewrite !andb_true_iff, !Z.leb_le, !Z.ltb_lt. lia. }
  rewrite (maximize_each whole DRed (zseq (b_r0 whole + 1) (b_r1 whole)) br bg bb bw vr vg vb vw 31 I) in E5; auto.
  - discriminate E5.
  - cbn. lia.
  - apply in_zseq. cbn. lia.
  - rewrite HO. exact NZ.
  - rewrite !HO. exact OV.
Qed.
End Overflow.

Lemma wu_overflow order pixels n :
  Permutation (order (qr_color_to_count (map_quantize pixels))) (qr_color_to_count (map_quantize pixels)) ->
  2 <= n -> (forall p, In p pixels -> opaque p -> red_from_argb p < 248) ->
  (let total f := sum_of f (filter opaque_b pixels) in
   i64_max < total red_from_argb * total red_from_argb + total green_from_argb * total green_from_argb + total blue_from_argb * total blue_from_argb) ->
  wu_quantize order pixels n = Panic.
Proof.
  intros OP N2 RB OV. cbv zeta in OV. unfold wu_quantize. rewrite <- bind_assoc. set (ps := order (qr_color_to_count (map_quantize pixels))) in *.
  pose proof (tables_case order pixels) as T. fold ps in T.
  destruct (do w <- construct_histogram ps; compute_moments w) as [w|]; [rewrite bind_Ok|reflexivity].
  assert (EV : forall f, weighted f everywhere ps = sum_of f (filter opaque_b pixels)).
  { intros f. unfold ps. rewrite (ps_weighted order pixels OP). f_equal. apply filter_ext. intros p. now rewrite andb_true_r. }
  rewrite (boxes_panic ps w T n N2); [reflexivity|..].
  - intros (p, k) I. apply (Permutation_in _ OP) in I. apply map_counts in I. cbn [fst]. destruct I as (O & -> & P). apply RB; [|exact O].
    unfold occurrences in P. apply (count_occ_In Z.eq_dec). lia.
  - unfold N. rewrite EV. intros Z0. rewrite sum_one in Z0. destruct (filter opaque_b pixels); [|cbn [List.length] in Z0; lia].
    cbn in OV. unfold i64_max in OV. lia.
  - rewrite !EV. exact OV.
Qed.
Lemma sum_repeat f p n : sum_of f (repeat p n) = f p * Z.of_nat n.
Proof. unfold sum_of. induction n as [|n IH]; [cbn; lia|]. cbn [repeat map fold_right]. rewrite IH. lia. Qed.
Lemma filter_repeat {A} (f : A -> bool) p n : f p = true -> filter f (repeat p n) = repeat p n.
Proof. intros H. induction n as [|n IH]; [reflexivity|]. cbn [repeat filter]. now rewrite H, IH. Qed.

(** ** Means lie between the channels *)
Lemma sum_cons f x l : sum_of f (x :: l) = f x + sum_of f l. Proof. reflexivity. Qed.
Lemma extremes f (l : list Z) : l <> [] -> exists p q, In p l /\ In q l /\ f p * Z.of_nat (List.length l) <= sum_of f l <= f q * Z.of_nat (List.length l).
Proof.
  induction l as [|x l IH]; [contradiction|]. intros _. destruct l as [|y l].
  - exists x, x. cbn. split; [now left|]. split; [now left|]. lia.
  - destruct IH as (p & q & P & Q & B); [discriminate|]. set (l' := y :: l) in *. rewrite sum_cons.
    change (List.length (x :: l')) with (Datatypes.S (List.length l')). rewrite Nat2Z.inj_succ.
    assert (0 < Z.of_nat (List.length l')) by (unfold l'; cbn [List.length]; lia).
    exists (if f x <=? f p then x else p), (if f x <=? f q then q else x).
    split; [destruct (f x <=? f p); [now left|now right]|]. split; [destruct (f x <=? f q); [now right|now left]|].
    destruct (Z.leb_spec (f x) (f p)), (Z.leb_spec (f x) (f q)); nia.
Qed.
Lemma mean_between f l : l <> [] -> exists p q, In p l /\ In q l /\ f p <= mean f l <= f q.
Proof.
  intros NE. destruct (extremes f l NE) as (p & q & P & Q & B). exists p, q. split; [exact P|]. split; [exact Q|]. unfold mean.
  assert (0 < Z.of_nat (List.length l)) by (destruct l; [contradiction|cbn [List.length]; lia]).
  split; [apply Z.div_le_lower_bound; lia|]. apply Z.div_le_upper_bound; lia.
Qed.
Lemma mean_byte f l : channel f -> l <> [] -> 0 <= mean f l <= 255.
Proof. intros C NE. destruct (mean_between f l NE) as (p & q & _ & _ & B). pose proof (C p). pose proof (C q). unfold byte in *. lia. Qed.
Lemma mean_within c pixels : pixels_in c pixels <> [] -> within (mean_color c pixels) (pixels_in c pixels).
Proof.
  intros NE. set (l := pixels_in c pixels) in *. unfold mean_color. fold l.
  pose proof (mean_byte _ l chan_r NE). pose proof (mean_byte _ l chan_g NE). pose proof (mean_byte _ l chan_b NE).
  destruct (pack_channels (mean red_from_argb l) (mean green_from_argb l) (mean blue_from_argb l)) as (_ & R & G & B & A).
  rewrite Z.mod_small in R, G, B by lia. unfold within, between. rewrite R, G, B. 
  split; [exact A|]. split; [now apply mean_between|]. split; now apply mean_between.
Qed.

(** ** The statements *)
Lemma tables_exact ps w0 w : construct_histogram ps = Ok w0 -> compute_moments w0 = Ok w ->
  (forall r g b, 0 <= r <= 32 -> 0 <= g <= 32 -> 0 <= b <= 32 ->
    aget 0 (w_weights w) (get_index r g b) = Ok (weighted one (dominated r g b) ps) /\
    aget 0 (w_moments_r w) (get_index r g b) = Ok (weighted red_from_argb (dominated r g b) ps) /\
    aget 0 (w_moments_g w) (get_index r g b) = Ok (weighted green_from_argb (dominated r g b) ps) /\
    aget 0 (w_moments_b w) (get_index r g b) = Ok (weighted blue_from_argb (dominated r g b) ps)) /\
  (forall c, in_cube c ->
    (forall v, volume c (w_weights w) = Ok v -> v = weighted one (inside c) ps) /\
    (forall v, volume c (w_moments_r w) = Ok v -> v = weighted red_from_argb (inside c) ps) /\
    (forall v, volume c (w_moments_g w) = Ok v -> v = weighted green_from_argb (inside c) ps) /\
    (forall v, volume c (w_moments_b w) = Ok v -> v = weighted blue_from_argb (inside c) ps)).
Proof.
  intros H M. pose proof (hist_spec ps) as HS. rewrite H in HS. pose proof (moments_spec ps w0 HS) as MS. rewrite M in MS.
  destruct MS as (Sw & Sr & Sg & Sb). split.
  - intros r g b R G B. rewrite !get_ok by (now apply idx_range). now rewrite (Sw r g b R G B), (Sr r g b R G B), (Sg r g b R G B), (Sb r g b R G B).
  - intros c I.
    pose proof (volume_case ps _ _ c chan_one Sw I) as Vw. pose proof (volume_case ps _ _ c chan_r Sr I) as Vr.
    pose proof (volume_case ps _ _ c chan_g Sg I) as Vg. pose proof (volume_case ps _ _ c chan_b Sb I) as Vb.
    split; [intros v E; rewrite E in Vw; exact Vw|]. split; [intros v E; rewrite E in Vr; exact Vr|].
    split; [intros v E; rewrite E in Vg; exact Vg|]. intros v E; rewrite E in Vb; exact Vb.
Qed.
Lemma tables_total ps : Forall (fun e => 0 <= snd e) ps -> 3 * (255 * weighted one everywhere ps) * (255 * weighted one everywhere ps) <= i64_max ->
  exists w0 w, construct_histogram ps = Ok w0 /\ compute_moments w0 = Ok w /\
    forall c, in_cube c -> volume c (w_weights w) = Ok (weighted one (inside c) ps).
Proof.
  intros NN F. assert (FT : fits ps) by (split; [exact NN|exact F]).
  pose proof (hist_spec ps) as H. destruct (construct_histogram ps) as [w0|]; [|destruct (fits_nohist ps FT H)].
  pose proof (moments_spec ps w0 H) as M. destruct (compute_moments w0) as [w|] eqn:EM.
  - exists w0, w. split; [reflexivity|]. split; [exact EM|]. intros c I. destruct M as (Sw & _).
    pose proof (volume_case ps _ _ c chan_one Sw I) as V. destruct (volume c (w_weights w)) as [v|]; [now subst v|destruct (V FT)].
  - exfalso. destruct M as (f & I & O). revert O. apply fits_nooverflow; [|exact FT].
    destruct I as [<-|[<-|[<-|[<-|[]]]]]; [exact chan_one|exact chan_r|exact chan_g|exact chan_b].
Qed.
Lemma boxes_exact ps w0 w n cubes count :
  construct_histogram ps = Ok w0 -> compute_moments w0 = Ok w -> create_boxes w n = Ok (cubes, count) ->
  Z.of_nat (List.length cubes) = n /\ 1 <= count <= n /\ Forall in_cube cubes /\ partition cubes /\
  (forall j c, count <= Z.of_nat j -> nth_error cubes j = Some c -> forall p, inside c p = false).
Proof.
  intros H M C. pose proof (hist_spec ps) as HS. rewrite H in HS. pose proof (moments_spec ps w0 HS) as MS. rewrite M in MS.
  pose proof (create_case ps w MS n) as CC. rewrite C in CC. destruct CC as (L & CN & P & B & TL).
  split; [exact L|]. split; [exact CN|]. split.
  { rewrite Forall_forall. intros c I. apply In_nth_error in I. destruct I as (j & E). destruct (B j c E) as [(U & _)| ->]; [now apply strict_cube|unfold in_cube; cbn; lia]. }
  split; [exact P|]. intros j c J E p. rewrite (TL j c J E). apply empty_inside.
Qed.
Lemma wu_result order pixels n r :
  Permutation (order (qr_color_to_count (map_quantize pixels))) (qr_color_to_count (map_quantize pixels)) ->
  wu_quantize order pixels n = Ok r ->
  exists boxes, Z.of_nat (List.length boxes) <= n /\ Forall in_cube boxes /\ partition boxes /\
    (forall z, In z (map fst (qr_color_to_count r)) <-> exists c, In c boxes /\ pixels_in c pixels <> [] /\ z = mean_color c pixels) /\
    (forall c, In c boxes -> pixels_in c pixels <> [] -> within (mean_color c pixels) (pixels_in c pixels)) /\
    NoDup (map fst (qr_color_to_count r)) /\ Z.of_nat (List.length (qr_color_to_count r)) <= n.
Proof.
  intros OP E. pose proof (wu_case order pixels OP n) as W. rewrite E in W.
  destruct W as (bs & L & _ & C & P & ND & K & LN & _). exists bs. repeat (split; [assumption|]).
  split; [intros c _ NE; now apply mean_within|]. now split.
Qed.
Lemma wu_total order pixels n :
  Permutation (order (qr_color_to_count (map_quantize pixels))) (qr_color_to_count (map_quantize pixels)) ->
  1 <= n -> image_fits pixels -> exists r, wu_quantize order pixels n = Ok r.
Proof.
  intros OP N1 F. pose proof (wu_case order pixels OP n) as W. destruct (wu_quantize order pixels n) as [r|]; [now exists r|].
  destruct W as [W|W]; [lia|contradiction].
Qed.
Lemma wu_nonpositive order pixels n : n <= 0 -> wu_quantize order pixels n = Panic.
Proof.
  intros N0. unfold wu_quantize. destruct (construct_histogram _) as [w|]; [rewrite bind_Ok|reflexivity].
  destruct (compute_moments w) as [w'|]; [rewrite bind_Ok|reflexivity]. unfold create_boxes. destruct (Z.leb_spec n 0); [reflexivity|lia].
Qed.
Lemma fits_count pixels : image_fits pixels <-> opaque_count pixels <= 6876129.
Proof. unfold image_fits, i64_max. assert (0 <= opaque_count pixels) by (unfold opaque_count; lia). split; intros; [|nia]. destruct (Z.le_gt_cases (opaque_count pixels) 6876129); [assumption|nia]. Qed.
Lemma wu_small order pixels n :
  Permutation (order (qr_color_to_count (map_quantize pixels))) (qr_color_to_count (map_quantize pixels)) ->
  1 <= n -> opaque_count pixels <= 6876129 -> wu_quantize order pixels n <> Panic.
Proof. intros OP N1 C. destruct (wu_total order pixels n OP N1) as (r & ->); [now apply fits_count|discriminate]. Qed.
Lemma cyan_overflow : wu_quantize (fun m => m) (repeat 0xFFF7FFFF (Z.to_nat 7000000)) 2 = Panic.
Proof.
  apply wu_overflow; [apply Permutation_refl|lia|..].
  - intros p I _. apply repeat_spec in I. subst p. reflexivity.
  - cbv zeta. rewrite filter_repeat by reflexivity. rewrite !sum_repeat, Z2Nat.id by lia. vm_compute. reflexivity.
Qed.
Lemma boxes_total ps n : Forall (fun e => 0 <= snd e) ps -> 3 * (255 * weighted one everywhere ps) * (255 * weighted one everywhere ps) <= i64_max -> 1 <= n ->
  exists w0 w cubes count, construct_histogram ps = Ok w0 /\ compute_moments w0 = Ok w /\ create_boxes w n = Ok (cubes, count).
Proof.
  intros NN F N1. assert (FT : fits ps) by (split; [exact NN|exact F]).
  destruct (tables_total ps NN F) as (w0 & w & H & M & _). exists w0, w.
  pose proof (hist_spec ps) as HS. rewrite H in HS. pose proof (moments_spec ps w0 HS) as MS. rewrite M in MS.
  pose proof (create_case ps w MS n) as C. destruct (create_boxes w n) as [(cubes, count)|] eqn:E.
  - exists cubes, count. split; [exact H|]. split; [exact M|reflexivity].
  - destruct C as [C|C]; [lia|contradiction].
Qed.
