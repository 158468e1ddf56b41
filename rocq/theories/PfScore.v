(** * Proofs about Score. Proof file. *)
From Coq Require Import ZArith Bool Reals Lia Lra String List Permutation Sorted.
From Flocq Require Import Core IEEE754.BinarySingleNaN.
From Verif Require Import F64 MathUtils ColorUtils ViewingConditions Cam16 HctSolver Hct Assoc Score Spec SpecScore
  FloatFacts FloatMono FloatCast PfMath PfContrast PfHct PfPalettes SampleLibm.
Import ListNotations.
Open Scope Z_scope.

(** ** Lists *)
Lemma list_set_length {A} (l : list A) n x : List.length (list_set l n x) = List.length l.
Proof. revert n. induction l as [|y l IH]; intros [|n]; cbn; auto. Qed.
Lemma list_set_nth {A} (l : list A) n x m : (n < List.length l)%nat ->
  nth_error (list_set l n x) m = if Nat.eqb n m then Some x else nth_error l m.
Proof.
  revert n m. induction l as [|y l IH]; intros [|n] [|m] L; cbn [list_set nth_error Nat.eqb List.length] in *; try lia; try reflexivity.
  apply IH. lia.
Qed.
Lemma index_ok {A} (l : list A) i : 0 <= i < Z.of_nat (List.length l) ->
  exists a, index l i = Ok a /\ nth_error l (Z.to_nat i) = Some a.
Proof.
  intros H. unfold index. destruct (Z.ltb_spec i 0); [lia|].
  destruct (nth_error l (Z.to_nat i)) as [a|] eqn:E; [exists a; easy|].
  apply nth_error_None in E. lia.
Qed.
Lemma index_inv {A} (l : list A) i a : index l i = Ok a -> 0 <= i /\ nth_error l (Z.to_nat i) = Some a.
Proof.
  unfold index. destruct (Z.ltb_spec i 0); [discriminate|].
  destruct (nth_error l (Z.to_nat i)); [|discriminate]. intros E. apply ok_inj in E. subst. split; [lia|reflexivity].
Qed.

(** ** Sorting *)
Section Sort.
Context {A : Type} (lt : A -> A -> bool).
Lemma insert_perm x l : Permutation (insert_sorted lt x l) (x :: l).
Proof.
  induction l as [|y l IH]; cbn [insert_sorted]; [constructor; constructor|].
  destruct (lt y x); [|reflexivity]. rewrite IH. apply perm_swap.
Qed.
Lemma sort_perm l : Permutation (stable_sort lt l) l.
Proof.
  induction l as [|x l IH]; [constructor|]. cbn [stable_sort fold_right]. rewrite insert_perm. now constructor.
Qed.
Context (P : A -> Prop)
  (trans : forall x y z, P x -> P y -> P z -> lt y x = false -> lt z y = false -> lt z x = false)
  (asym : forall x y, P x -> P y -> lt x y = true -> lt y x = false).
Lemma insert_sorted_ok x l : P x -> Forall P l -> StronglySorted (fun a b => lt b a = false) l ->
  StronglySorted (fun a b => lt b a = false) (insert_sorted lt x l).
Proof.
  intros Px F S. induction S as [|y l S IH H]; cbn [insert_sorted]; [constructor; constructor|].
  inversion F as [|? ? Py F']; subst. destruct (lt y x) eqn:L.
  - constructor; [now apply IH|]. rewrite Forall_forall. intros z Hz.
    apply (Permutation_in _ (insert_perm x l)) in Hz. destruct Hz as [<-|Hz].
    + now apply asym.
    + rewrite Forall_forall in H. now apply H.
  - constructor; [constructor; assumption|]. constructor; [assumption|].
    rewrite Forall_forall in H |- *. intros z Hz. apply (trans x y z); auto. rewrite Forall_forall in F'. auto.
Qed.
Lemma sort_sorted l : Forall P l -> StronglySorted (fun a b => lt b a = false) (stable_sort lt l).
Proof.
  induction l as [|x l IH]; intros F; [constructor|]. inversion F; subst. cbn [stable_sort fold_right].
  apply insert_sorted_ok; auto. rewrite Forall_forall in *. intros z Hz.
  apply (Permutation_in _ (sort_perm l)) in Hz. auto.
Qed.
End Sort.
Lemma sorted_unique {A} (R : A -> A -> Prop) l : forall l',
  StronglySorted R l -> StronglySorted R l' -> Permutation l l' ->
  (forall a b, In a l -> In b l -> R a b -> R b a -> a = b) -> l = l'.
Proof.
  induction l as [|x l IH]; intros l' S S' Q U.
  - now apply Permutation_nil in Q.
  - destruct l' as [|y l']; [symmetry in Q; apply Permutation_nil in Q; discriminate|].
    assert (x = y).
    { inversion S as [|? ? _ H]; inversion S' as [|? ? _ H']; subst. rewrite Forall_forall in H, H'.
      assert (I : In x (y :: l')) by (apply (Permutation_in _ Q); now left).
      assert (J : In y (x :: l)) by (apply (Permutation_in _ (Permutation_sym Q)); now left).
      destruct I as [->|I]; [reflexivity|]. destruct J as [->|J]; [reflexivity|].
      apply U; [now left|now right|now apply H|now apply H']. }
    subst y. f_equal. apply IH.
    + now inversion S.
    + now inversion S'.
    + now apply Permutation_cons_inv in Q.
    + intros a b Ha Hb. apply U; now right.
Qed.

(** ** Choosing *)
Definition apart (d : Z) (a b : hct) : Prop := flt (difference_degrees (h_hue a) (h_hue b)) (of_Z d) = false.
Lemma apart_sym d a b : apart d a b -> apart d b a.
Proof. unfold apart. now rewrite difference_sym. Qed.

(** [sub l l']: [l] is a subsequence of [l']. *)
Inductive sub {A} : list A -> list A -> Prop :=
| sub_nil l : sub [] l
| sub_take x l l' : sub l l' -> sub (x :: l) (x :: l')
| sub_skip x l l' : sub l l' -> sub l (x :: l').
Lemma sub_in {A} (l l' : list A) x : sub l l' -> In x l -> In x l'.
Proof. induction 1; cbn; intuition. Qed.
Lemma sub_nodup {A} (l l' : list A) : sub l l' -> NoDup l' -> NoDup l.
Proof.
  induction 1; intros N; [constructor|..]; inversion N; subst; auto.
  constructor; auto. intros I. eapply sub_in in I; eauto.
Qed.
Lemma sub_sorted {A} (R : A -> A -> Prop) (l l' : list A) : sub l l' -> StronglySorted R l' -> StronglySorted R l.
Proof.
  induction 1; intros N; [constructor|..]; inversion N as [|? ? S F]; subst; auto.
  constructor; auto. rewrite Forall_forall in *. intros y I. apply F. eapply sub_in; eauto.
Qed.
Lemma sub_map {A B} (f : A -> B) l l' : sub l l' -> sub (map f l) (map f l').
Proof. induction 1; cbn; constructor; assumption. Qed.
Lemma sub_refl {A} (l : list A) : sub l l.
Proof. induction l; constructor; assumption. Qed.

Lemma pass_spec entries d desired : forall chosen,
  (ForallOrdPairs (fun a b => apart d b a) chosen) -> (Z.of_nat (List.length chosen) <= Z.max 1 desired - 1) ->
  exists more, choose_pass entries d desired chosen = chosen ++ more /\
    sub more (map sh_hct entries) /\ ForallOrdPairs (fun a b => apart d b a) (chosen ++ more) /\
    (Z.of_nat (List.length (chosen ++ more)) <= Z.max 1 desired) /\
    (chosen = [] -> entries <> [] -> more <> []).
Proof.
  induction entries as [|e entries IH]; intros chosen F L; cbn [choose_pass].
  - exists []. rewrite app_nil_r. split; [reflexivity|]. split; [constructor|]. split; [exact F|]. split; [lia|]. easy.
  - destruct (existsb _ chosen) eqn:X.
    + assert (C : chosen <> []) by (intros ->; discriminate).
      destruct (desired <=? Z.of_nat (List.length chosen)).
      * exists []. rewrite app_nil_r. split; [reflexivity|]. split; [constructor|]. split; [exact F|]. split; [lia|easy].
      * destruct (IH chosen F L) as (m & E & S & F' & L' & _). exists m. split; [exact E|].
        split; [now constructor|]. split; [exact F'|]. split; [exact L'|]. easy.
    + assert (F1 : ForallOrdPairs (fun a b => apart d b a) (chosen ++ [sh_hct e])).
      { clear - F X. induction F as [|c cs H F IH]; cbn [app].
        - constructor; constructor.
        - cbn [existsb] in X. apply orb_false_iff in X. destruct X as (X & X'). constructor; [|now apply IH].
          rewrite Forall_app. split; [assumption|]. constructor; [exact X|constructor]. }
      destruct (Z.leb_spec desired (Z.of_nat (List.length (chosen ++ [sh_hct e])))) as [D|D].
      * exists [sh_hct e]. split; [reflexivity|]. split; [constructor; constructor|]. split; [exact F1|].
        rewrite app_length in *. cbn [List.length] in *. split; [lia|discriminate].
      * destruct (IH (chosen ++ [sh_hct e]) F1) as (m & E & S & F' & L' & _).
        { rewrite app_length in *. cbn [List.length] in *. lia. }
        exists (sh_hct e :: m). rewrite <- app_assoc in E, F', L'. cbn [app] in E, F', L'.
        split; [exact E|]. split; [now constructor|]. split; [exact F'|]. split; [exact L'|discriminate].
Qed.

Lemma loop_spec entries desired diffs : forall prev, diffs <> [] -> 
  exists d, In d diffs /\ choose_loop diffs entries desired prev = choose_pass entries d desired [].
Proof.
  induction diffs as [|d ds IH]; intros prev N; [congruence|]. cbn [choose_loop].
  destruct (desired <=? _); [exists d; split; [now left|reflexivity]|].
  destruct ds as [|d' ds]; [exists d; split; [now left|reflexivity]|].
  destruct (IH (choose_pass entries d desired [])) as (x & I & E); [discriminate|]. exists x. split; [now right|exact E].
Qed.
Lemma diffs_range d : In d score_diffs -> 15 <= d <= 90.
Proof.
  unfold score_diffs, zrange. rewrite map_map, in_map_iff. intros (k & <- & I). apply in_seq in I. lia.
Qed.
Lemma choose_spec entries desired : exists d chosen,
  15 <= d <= 90 /\ choose_loop score_diffs entries desired [] = chosen /\ sub chosen (map sh_hct entries) /\
  ForallOrdPairs (fun a b => apart d b a) chosen /\ (Z.of_nat (List.length chosen) <= Z.max 1 desired) /\
  (entries <> [] -> chosen <> []).
Proof.
  destruct (loop_spec entries desired score_diffs []) as (d & I & E); [discriminate|].
  destruct (pass_spec entries d desired []) as (m & E' & S & F & L & N); [constructor|cbn; lia|].
  cbn [app] in *. exists d, m. split; [now apply diffs_range|]. rewrite E, E'. repeat split; auto.
Qed.

(** ** Excited proportions *)
Lemma iter_shift {B} (g : B -> B) n a : Nat.iter n g (g a) = Nat.iter (S n) g a.
Proof. induction n as [|n IH]; [reflexivity|]. change (g (Nat.iter n g (g a)) = g (Nat.iter (S n) g a)). now rewrite IH. Qed.
Lemma fold_if_count {A B} (f : A -> bool) (g : B -> B) l : forall a,
  fold_left (fun acc j => if f j then g acc else acc) l a = Nat.iter (List.length (filter f l)) g a.
Proof.
  induction l as [|x l IH]; intros a; [reflexivity|]. cbn [fold_left filter]. rewrite IH.
  destruct (f x); [|reflexivity]. cbn [List.length]. apply iter_shift.
Qed.
Definition window_hues (hue : Z) : list Z := map (fun k => hue - 14 + k)%Z (zrange 30).
Lemma in_zrange i n : In i (zrange n) <-> 0 <= i < Z.of_nat n.
Proof.
  unfold zrange. rewrite in_map_iff. split.
  - intros (k & <- & I). apply in_seq in I. lia.
  - intros H. exists (Z.to_nat i). split; [lia|]. apply in_seq. lia.
Qed.
Lemma offset_check : forallb (fun d => Nat.eqb (List.length (filter (fun k => k =? d) (zrange 30))) (if d <? 30 then 1 else 0))
  (zrange 360) = true.
Proof. vm_compute. reflexivity. Qed.
Lemma filter_map_length {A B} (f : A -> B) (p : B -> bool) l : List.length (filter p (map f l)) = List.length (filter (fun a => p (f a)) l).
Proof. induction l as [|x l IH]; [reflexivity|]. cbn [map filter]. destruct (p (f x)); cbn [List.length]; now rewrite IH. Qed.
Lemma window_count hue i : 0 <= hue < 360 -> 0 <= i < 360 ->
  List.length (filter (fun j => sanitize_degrees_int j =? i) (window_hues hue)) = if in_window hue i then 1%nat else 0%nat.
Proof.
  intros H I. unfold window_hues. rewrite filter_map_length. unfold in_window.
  pose proof (Z.mod_pos_bound (i - hue + 14) 360 ltac:(lia)) as D.
  pose proof (Z.div_mod (i - hue + 14) 360 ltac:(lia)) as DM. set (d := (i - hue + 14) mod 360) in *.
  pose proof offset_check as W. rewrite forallb_forall in W. specialize (W d). rewrite in_zrange in W.
  specialize (W ltac:(lia)). apply Nat.eqb_eq in W. rewrite <- W. f_equal. apply filter_ext_in.
  intros k K. apply in_zrange in K. destruct (sanitize_int (hue - 14 + k)) as (R & q & Q).
  destruct (Z.eqb_spec (sanitize_degrees_int (hue - 14 + k)) i), (Z.eqb_spec k d); trivial; exfalso; lia.
Qed.

Section Float.
Local Opaque fadd fdiv of_Z dec fmul fsub.
Lemma spread_ok is p : forall ex, List.length ex = 360%nat ->
  exists ex', spread_loop is p ex = Ok ex' /\ List.length ex' = 360%nat /\
    forall i x, nth_error ex (Z.to_nat i) = Some x -> 0 <= i ->
      nth_error ex' (Z.to_nat i) = Some (fold_left (fun acc j => if sanitize_degrees_int j =? i then fadd acc p else acc) is x).
Proof.
  induction is as [|j is IH]; intros ex L; cbn [spread_loop].
  - exists ex. split; [reflexivity|]. split; [exact L|]. intros i x H _. exact H.
  - unfold add_at_f64. destruct (sanitize_int j) as (R & _).
    destruct (index_ok ex (sanitize_degrees_int j)) as (o & O & N); [lia|]. rewrite O, !bind_Ok.
    destruct (IH (list_set ex (Z.to_nat (sanitize_degrees_int j)) (fadd o p))) as (ex' & E & L' & H).
    { now rewrite list_set_length. }
    exists ex'. split; [exact E|]. split; [exact L'|]. intros i x X I. cbn [fold_left].
    destruct (Z.eqb_spec (sanitize_degrees_int j) i) as [Q|Q].
    + apply H; [|exact I]. rewrite list_set_nth by lia. rewrite Q, Nat.eqb_refl. rewrite Q in N. congruence.
    + apply H; [|exact I]. rewrite list_set_nth by lia.
      destruct (Nat.eqb_spec (Z.to_nat (sanitize_degrees_int j)) (Z.to_nat i)); [lia|exact X].
Qed.
Lemma excite_ok hp ps hues : forall ex, List.length hp = 360%nat -> List.length ex = 360%nat -> Forall (fun h => 0 <= h < 360) hues ->
  exists ex', excite_loop hues hp ps ex = Ok ex' /\ List.length ex' = 360%nat /\
    forall i x, 0 <= i < 360 -> nth_error ex (Z.to_nat i) = Some x ->
      nth_error ex' (Z.to_nat i) = Some (fold_left (fun acc k => if in_window k i then
         fadd acc (fdiv (of_Z (nth (Z.to_nat k) hp 0)) (of_Z ps)) else acc) hues x).
Proof.
  induction hues as [|h hues IH]; intros ex LH L F; cbn [excite_loop].
  - exists ex. split; [reflexivity|]. split; [exact L|]. intros i x _ H. exact H.
  - inversion F as [|? ? Hh F']; subst. destruct (index_ok hp h) as (p & P & NP); [lia|]. rewrite P, bind_Ok.
    change (map (fun k => (h - 14 + k)%Z) (zrange 30)) with (window_hues h).
    destruct (spread_ok (window_hues h) (fdiv (of_Z p) (of_Z ps)) ex L) as (ex1 & E1 & L1 & H1).
    rewrite E1, bind_Ok. destruct (IH ex1 LH L1 F') as (ex' & E & L' & H). exists ex'.
    split; [exact E|]. split; [exact L'|]. intros i x I X. cbn [fold_left].
    rewrite (nth_error_nth hp (Z.to_nat h) 0 NP). apply H; [exact I|].
    rewrite (H1 i x X ltac:(lia)). f_equal.
    rewrite (fold_if_count (fun j => sanitize_degrees_int j =? i) (fun a => fadd a (fdiv (of_Z p) (of_Z ps)))).
    rewrite (window_count h i Hh I). destruct (in_window h i); reflexivity.
Qed.
End Float.
Lemma fold_left_ext {A B} (f g : A -> B -> A) l : (forall a b, In b l -> f a b = g a b) -> forall a, fold_left f l a = fold_left g l a.
Proof.
  induction l as [|x l IH]; intros H a; [reflexivity|]. cbn [fold_left]. rewrite (H a x) by now left.
  apply IH. intros b y I. apply H. now right.
Qed.

(** ** Counting *)
Lemma hue_fin (x : f64) : fle (dec "0.0") x = true -> flt x (dec "360.0") = true ->
  is_finite x = true /\ (0 <= B2R x < 360)%R.
Proof.
  intros A B. fconst (dec "0.0"). fconst (dec "360.0").
  assert (FX : is_finite x = true).
  { destruct x as [|[]| |]; try reflexivity; try (vm_compute in A; discriminate A); vm_compute in B; discriminate B. }
  split; [exact FX|]. apply (fle_fin _ _ F FX) in A. apply (flt_fin _ _ FX F0) in B. lra.
Qed.
Lemma ffloor_R (x : f64) : is_finite x = true -> B2R (ffloor x) = IZR (Zfloor (B2R x)) /\ is_finite (ffloor x) = true.
Proof.
  intros F. destruct (Bnearbyint_correct 53 1024 prec53_lt mode_DN x) as (R & F' & _).
  split; [|now rewrite <- F]. unfold ffloor. rewrite R. unfold round, F2R, scaled_mantissa, cexp, FIX_exp. cbn. now rewrite !Rmult_1_r.
Qed.
Lemma to_usize_fin (x : f64) : is_finite x = true -> to_usize x = zclamp 0 u64_max (Ztrunc (B2R x)).
Proof.
  intros f. destruct x; try discriminate; unfold to_usize.
  - change (B2R (B754_zero s)) with 0%R. rewrite (Ztrunc_IZR 0). reflexivity.
  - now rewrite Btrunc_Z.
Qed.
Lemma floor_bucket (x : f64) : fle (dec "0.0") x = true -> flt x (dec "360.0") = true ->
  to_usize (ffloor x) = to_i64 x /\ 0 <= to_i64 x < 360 /\ 0 <= to_i64 (fround x) <= 360.
Proof.
  intros A B. destruct (hue_fin x A B) as (FX & R).
  assert (T0 : Ztrunc (B2R x) = Zfloor (B2R x)) by (apply Ztrunc_floor; lra).
  assert (Z0 : 0 <= Zfloor (B2R x) < 360).
  { split; [apply Zfloor_lub; lra|]. apply lt_IZR. apply Rle_lt_trans with (B2R x); [apply Zfloor_lb|lra]. }
  assert (T1 : to_i64 x = Zfloor (B2R x)) by (rewrite (to_i64_fin x FX), T0; zcl).
  assert (Q : 0 <= ZnearestA (B2R x) <= 360).
  { pose proof (ZnearestA_mono 0 (B2R x)) as H1. pose proof (ZnearestA_mono (B2R x) 360) as H2.
    rewrite (@Zrnd_IZR (Znearest (Z.leb 0)) _) in H1, H2. split; [apply H1|apply H2]; lra. }
  split; [|split].
  - destruct (ffloor_R x FX) as (V & F). rewrite (to_usize_fin _ F), V, Ztrunc_IZR, T1. unfold u64_max. zcl.
  - rewrite T1. exact Z0.
  - change (to_i64 (fround x)) with (rcast x). rewrite (rcast_fin x FX). revert Q. zcl.
Qed.

Section AnyLibm.
Context {lm : Libm}.
Local Opaque hct_new.
Lemma from_int_range z h : hct_from_int z = Ok h -> fle (dec "0.0") (h_hue h) = true /\ flt (h_hue h) (dec "360.0") = true.
Proof. intros E. unfold hct_from_int in E. exact (new_hue_range z h E). Qed.
Local Opaque hct_from hct_from_int hct_new of_Z dec fround fsub fadd fmul fdiv ffloor.
Lemma from_int_bucket z h : hct_from_int z = Ok h ->
  to_usize (ffloor (h_hue h)) = to_i64 (h_hue h) /\ 0 <= to_i64 (h_hue h) < 360 /\ 0 <= to_i64 (fround (h_hue h)) <= 360.
Proof. intros E. destruct (from_int_range z h E) as (A & B). exact (floor_bucket (h_hue h) A B). Qed.

Lemma total_cons c cs : total (c :: cs) = snd c + total cs. Proof. reflexivity. Qed.
Lemma count_cons c cs k : hue_count (c :: cs) k = (if to_i64 (h_hue (fst c)) =? k then snd c else 0) + hue_count cs k.
Proof. unfold hue_count. cbn [filter]. destruct (_ =? k); [apply total_cons|reflexivity]. Qed.

Lemma chk_inv z y : chk z = Ok y -> y = z /\ i64_min <= z <= i64_max.
Proof.
  unfold chk, in_i64. destruct (_ && _)%bool eqn:E; [|discriminate]. intros H. apply ok_inj in H.
  apply andb_prop in E. split; [easy|lia].
Qed.
Lemma chk_ok z : i64_min <= z <= i64_max -> chk z = Ok z.
Proof.
  intros H. unfold chk, in_i64. destruct (Z.leb_spec i64_min z); [|lia]. destruct (Z.leb_spec z i64_max); [reflexivity|lia].
Qed.

Lemma count_inv entries : forall cs hp ps cs' hp' ps', count_loop entries cs hp ps = Ok (cs', hp', ps') ->
  List.length hp = 360%nat ->
  exists pop, resolves entries pop /\ cs' = cs ++ map fst pop /\ List.length hp' = 360%nat /\ ps' = ps + total pop /\
    (entries <> [] -> i64_min <= ps' <= i64_max) /\
    forall k, 0 <= k < 360 -> nth (Z.to_nat k) hp' 0 = nth (Z.to_nat k) hp 0 + hue_count pop k.
Proof.
  induction entries as [|(argb, n) entries IH]; intros cs hp ps cs' hp' ps' E L; cbn [count_loop] in E.
  - apply ok_inj in E. injection E as <- <- <-. exists []. split; [constructor|]. rewrite app_nil_r.
    split; [reflexivity|]. split; [exact L|]. split; [cbn; lia|]. split; [easy|]. intros k _. cbn. lia.
  - inv_bind E h H. destruct (from_int_bucket _ _ H) as (B1 & B2 & _). rewrite B1 in E.
    unfold add_at_i64 in E. destruct (index_ok hp (to_i64 (h_hue h))) as (o & O & NO); [lia|].
    rewrite O, !bind_Ok in E. apply bind_ok in E. destruct E as (hp1 & E1 & E).
    apply bind_ok in E1. destruct E1 as (o' & C1 & E1). apply ok_inj in E1. subst hp1. apply chk_inv in C1. destruct C1 as (-> & _).
    apply bind_ok in E. destruct E as (ps1 & C2 & E). apply chk_inv in C2. destruct C2 as (-> & C2).
    apply IH in E; [|now rewrite list_set_length].
    destruct E as (pop & R & -> & L' & -> & I & K). exists ((h, n) :: pop).
    split; [constructor; [easy|exact R]|]. split; [now rewrite <- app_assoc|]. split; [exact L'|].
    rewrite total_cons. cbn [snd]. split; [lia|]. split.
    + intros _. destruct entries as [|e es]; [inversion R; subst; change (total []) with 0 in *; lia|].
      apply I. discriminate.
    + intros k Hk. rewrite (K k Hk), count_cons. cbn [fst snd].
      rewrite <- !nth_default_eq. unfold nth_default. rewrite list_set_nth by lia.
      destruct (Nat.eqb_spec (Z.to_nat (to_i64 (h_hue h))) (Z.to_nat k)) as [Q|Q].
      * rewrite Q in NO. rewrite NO. destruct (Z.eqb_spec (to_i64 (h_hue h)) k); lia.
      * destruct (Z.eqb_spec (to_i64 (h_hue h)) k); [congruence|]. lia.
Qed.

(** Nothing overflows as long as the total does not. *)
Lemma count_ok entries pop : resolves entries pop -> Forall (fun e => 0 <= snd e) entries ->
  forall cs hp ps, List.length hp = 360%nat -> (forall k, 0 <= k < 360 -> 0 <= nth (Z.to_nat k) hp 0 <= ps) ->
  0 <= ps -> ps + total pop <= i64_max -> exists r, count_loop entries cs hp ps = Ok r.
Proof.
  intros R. induction R as [|(argb, n) (h, n') entries pop (H & Q) R IH]; intros F cs hp ps L K P T; cbn [count_loop].
  - eexists. reflexivity.
  - cbn [fst snd] in H, Q. subst n'. inversion F as [|? ? F1 F2]; subst. cbn [snd] in F1. rewrite total_cons in T. cbn [snd] in T.
    assert (T0 : 0 <= total pop).
    { clear - R F2. induction R as [|e c es cs (_ & Q) R IH]; [easy|]. inversion F2; subst. rewrite total_cons, Q. specialize (IH H2). lia. }
    rewrite H, bind_Ok. destruct (from_int_bucket _ _ H) as (B1 & B2 & _). rewrite B1.
    unfold add_at_i64. destruct (index_ok hp (to_i64 (h_hue h))) as (o & O & NO); [lia|]. rewrite O, !bind_Ok.
    pose proof (K _ B2) as Ko. rewrite (nth_error_nth _ _ 0 NO) in Ko.
    rewrite (chk_ok (o + n)) by (unfold i64_min in *; lia). rewrite !bind_Ok.
    rewrite (chk_ok (ps + n)) by (unfold i64_min in *; lia). rewrite !bind_Ok.
    apply IH; [exact F2|now rewrite list_set_length| |lia|lia].
    intros k Hk. rewrite <- nth_default_eq. unfold nth_default. rewrite list_set_nth by lia.
    pose proof (K k Hk) as Kk. rewrite <- nth_default_eq in Kk. unfold nth_default in Kk.
    destruct (Nat.eqb _ _); [lia|]. destruct (nth_error hp (Z.to_nat k)); lia.
Qed.

(** ** The scored list *)
Definition kept (cs : population) (filter : bool) (h : hct) : bool :=
  negb (filter && (flt (h_chroma h) (dec "5.0") || fle (proportion_of cs h) (dec "0.01")))%bool.
Definition scored_of (cs : population) (h : hct) : scored_hct := {| sh_hct := h; sh_score := rank_score cs h |}.

Lemma round_bucket x : 0 <= x <= 360 -> sanitize_degrees_int x = x mod 360 /\ 0 <= x mod 360 < 360.
Proof.
  intros H. destruct (sanitize_int x) as (R & k & K). split; [|apply Z.mod_pos_bound; lia].
  apply (Z.mod_unique_pos x 360 k); [exact R|lia].
Qed.
Lemma score_eq cs h : scored_of cs h =
  {| sh_hct := h; sh_score := score_of (excited cs (to_i64 (fround (h_hue h)) mod 360)) (h_chroma h) |}.
Proof. unfold scored_of, rank_score, proportion_of, score_of. cbv zeta. reflexivity. Qed.
Lemma score_loop_ok cs ex filter hs : (forall i, 0 <= i < 360 -> index ex i = Ok (excited cs i)) ->
  Forall (fun h => 0 <= to_i64 (fround (h_hue h)) <= 360) hs ->
  score_loop hs ex filter = Ok (map (scored_of cs) (List.filter (kept cs filter) hs)).
Proof.
  intros X. induction 1 as [|h hs B F IH]; cbn [score_loop]; [reflexivity|].
  destruct (round_bucket _ B) as (B1 & B2). rewrite B1, (X _ B2), bind_Ok, IH, bind_Ok. cbn [List.filter].
  assert (KE : kept cs filter h = negb (filter && (flt (h_chroma h) (dec "5.0") ||
     fle (excited cs (to_i64 (fround (h_hue h)) mod 360)) (dec "0.01")))%bool) by reflexivity.
  rewrite KE. destruct (filter && _)%bool; cbn [negb]; [reflexivity|]. cbn [map]. rewrite score_eq. reflexivity.
Qed.

Lemma resolves_bucket entries pop : resolves entries pop -> Forall (fun h => 0 <= to_i64 (fround (h_hue h)) <= 360) (map fst pop).
Proof.
  induction 1 as [|e c es cs (H & _) R IH]; cbn [map]; constructor; [|exact IH].
  now apply from_int_bucket in H.
Qed.

(** The whole function. *)
Definition outcome (pop : population) (desired fallback : Z) (filter : bool) : list Z :=
  let chosen := choose_loop score_diffs (stable_sort scored_lt (map (scored_of pop) (List.filter (kept pop filter) (map fst pop)))) desired [] in
  match chosen with [] => [fallback] | _ => map h_argb chosen end.

Lemma excited_ok pop hp ps ex : (forall k, 0 <= k < 360 -> nth (Z.to_nat k) hp 0 = hue_count pop k) -> ps = total pop ->
  List.length hp = 360%nat -> excite_loop (zrange 360) hp ps (repeat (dec "0.0") 360) = Ok ex ->
  forall i, 0 <= i < 360 -> index ex i = Ok (excited pop i).
Proof.
  intros K -> L E i I.
  destruct (excite_ok hp (total pop) (zrange 360) (repeat (dec "0.0") 360)) as (ex' & E' & L' & H).
  { exact L. } { apply repeat_length. } { rewrite Forall_forall. intros k. now rewrite in_zrange. }
  rewrite E in E'. apply ok_inj in E'. subst ex'.
  specialize (H i (dec "0.0") I). unfold index. destruct (Z.ltb_spec i 0); [lia|].
  rewrite H.
  - unfold excited. f_equal. apply fold_left_ext. intros a k Ik. apply in_zrange in Ik. now rewrite (K k Ik).
  - apply nth_error_repeat. lia.
Qed.
Lemma score_inv entries desired fallback filter l : score entries desired fallback filter = Ok l ->
  exists pop, resolves entries pop /\
    l = outcome pop (unwrap_or desired 4) (unwrap_or fallback 0xff4285f4) (unwrap_or filter true) /\
    (entries <> [] -> i64_min <= total pop <= i64_max).
Proof.
  unfold score. intros E. apply bind_ok in E. destruct E as (((cs & hp) & ps) & C & E).
  apply count_inv in C; [|apply repeat_length]. destruct C as (pop & R & -> & L & -> & I & K).
  cbn [app] in E. apply bind_ok in E. destruct E as (ex & X & E).
  apply bind_ok in E. destruct E as (sc & S & E).
  pose proof (excited_ok pop hp (0 + total pop) ex) as Q.
  specialize (Q ltac:(intros k Hk; rewrite (K k Hk); rewrite nth_repeat; lia) ltac:(lia) L X).
  rewrite (score_loop_ok pop ex _ _ Q (resolves_bucket _ _ R)) in S. apply ok_inj in S. subst sc.
  exists pop. split; [exact R|]. split; [|exact I]. apply ok_inj in E. subst l. unfold outcome.
  destruct (choose_loop _ _ _ _); reflexivity.
Qed.

(** ** Consequences *)
Lemma from_int_argb z h : hct_from_int z = Ok h -> h_argb h = z.
Proof. Local Transparent hct_from_int. intros E. unfold hct_from_int in E. exact (new_argb z h E). Qed.
Local Opaque hct_from_int.
Lemma resolves_argb entries pop : resolves entries pop -> map h_argb (map fst pop) = map fst entries.
Proof.
  induction 1 as [|e c es cs (H & _) R IH]; [reflexivity|]. cbn [map]. now rewrite IH, (from_int_argb _ _ H).
Qed.
Lemma resolves_in entries pop h : resolves entries pop -> In h (map fst pop) -> hct_from_int (h_argb h) = Ok h /\ In (h_argb h) (map fst entries).
Proof.
  intros R I. split.
  - induction R as [|e c es cs (H & _) R IH]; [easy|]. cbn [map] in I. destruct I as [<-|I]; [|now apply IH].
    now rewrite (from_int_argb _ _ H).
  - rewrite <- (resolves_argb entries pop R). now apply in_map.
Qed.
Lemma resolves_fun entries pop pop' : resolves entries pop -> resolves entries pop' -> pop = pop'.
Proof.
  intros R. revert pop'. induction R as [|e c es cs (H & Q) R IH]; intros pop' R'; inversion R' as [|? c' ? cs' (H' & Q') R'']; subst; [reflexivity|].
  rewrite H in H'. apply ok_inj in H'. rewrite (IH cs' R''). f_equal. destruct c, c'; cbn [fst snd] in *; congruence.
Qed.
Definition candidates (pop : population) (filter : bool) : list scored_hct :=
  stable_sort scored_lt (map (scored_of pop) (List.filter (kept pop filter) (map fst pop))).
Lemma candidates_perm pop filter : Permutation (map sh_hct (candidates pop filter)) (List.filter (kept pop filter) (map fst pop)).
Proof.
  unfold candidates. rewrite (Permutation_map sh_hct (sort_perm scored_lt _)). rewrite map_map. cbn [sh_hct scored_of].
  now rewrite map_id.
Qed.
Lemma sub_filter {A} (f : A -> bool) l : sub (List.filter f l) l.
Proof. induction l as [|x l IH]; cbn [List.filter]; [constructor|]. destruct (f x); now constructor. Qed.

(** C42, C43 and the filter part of C44 *)
Lemma outcome_spec entries pop desired fallback filter : resolves entries pop -> NoDup (map fst entries) ->
  let l := outcome pop desired fallback filter in
  l <> [] /\ Z.of_nat (List.length l) <= Z.max 1 desired /\
  (l = [fallback] \/
   exists hs, l = map h_argb hs /\ hs <> [] /\ NoDup l /\ sub hs (map sh_hct (candidates pop filter)) /\
     (exists d, 15 <= d <= 90 /\ ForallOrdPairs (fun a b => apart d b a) hs) /\
     Forall (fun h => In (h_argb h) (map fst entries) /\ hct_from_int (h_argb h) = Ok h /\ kept pop filter h = true) hs) /\
  (candidates pop filter = [] -> l = [fallback]) /\
  (candidates pop filter <> [] -> exists hs, l = map h_argb hs /\ incl hs (map fst pop)).
Proof.
  intros R N l. unfold l, outcome. fold (candidates pop filter).
  destruct (choose_spec (candidates pop filter) desired) as (d & chosen & D & E & S & F & L & NE). rewrite E.
  assert (FK : Forall (fun h => In h (map fst pop) /\ In (h_argb h) (map fst entries) /\ hct_from_int (h_argb h) = Ok h /\ kept pop filter h = true) chosen).
  { rewrite Forall_forall. intros h I. apply (sub_in _ _ h S) in I. apply (Permutation_in _ (candidates_perm pop filter)) in I.
    apply filter_In in I. destruct I as (I & K). split; [exact I|]. destruct (resolves_in _ _ _ R I). auto. }
  destruct chosen as [|h hs].
  - split; [discriminate|]. split; [cbn; lia|]. split; [now left|]. split; [reflexivity|]. intros X. now destruct (NE X).
  - split; [discriminate|]. split; [rewrite map_length; exact L|]. split; [right|split].
    + exists (h :: hs). split; [reflexivity|]. split; [discriminate|]. split.
      * assert (N' : NoDup (map h_argb (map sh_hct (candidates pop filter)))).
        { apply (Permutation_NoDup (Permutation_sym (Permutation_map h_argb (candidates_perm pop filter)))).
          apply (sub_nodup _ _ (sub_map h_argb _ _ (sub_filter (kept pop filter) (map fst pop)))).
          now rewrite (resolves_argb entries pop R). }
        exact (sub_nodup _ _ (sub_map h_argb _ _ S) N').
      * split; [exact S|]. split; [exists d; split; [exact D|exact F]|]. revert FK. apply Forall_impl. tauto.
    + intros X. rewrite X in S. inversion S.
    + intros _. exists (h :: hs). split; [reflexivity|]. intros x I. rewrite Forall_forall in FK. now apply FK.
Qed.

Lemma score_range entries desired fallback filter l : NoDup (map fst entries) ->
  score entries desired fallback filter = Ok l ->
  l <> [] /\ Z.of_nat (List.length l) <= Z.max 1 (unwrap_or desired 4) /\
  (l = [unwrap_or fallback 0xff4285f4] \/ (NoDup l /\ incl l (map fst entries))).
Proof.
  intros N E. apply score_inv in E. destruct E as (pop & R & -> & _).
  destruct (outcome_spec entries pop (unwrap_or desired 4) (unwrap_or fallback 0xff4285f4) (unwrap_or filter true) R N)
    as (O1 & O2 & O3 & _). split; [exact O1|]. split; [exact O2|].
  destruct O3 as [O3|(hs & O3 & _ & D & _ & _ & F)]; [now left|right]. split; [exact D|].
  rewrite O3. intros z I. apply in_map_iff in I. destruct I as (h & <- & I). rewrite Forall_forall in F. now apply F.
Qed.

Lemma fop_nth {A} (P : A -> A -> Prop) l : (forall a b, P a b -> P b a) -> ForallOrdPairs P l ->
  forall i j a b, i <> j -> nth_error l i = Some a -> nth_error l j = Some b -> P a b.
Proof.
  intros S F. induction F as [|x l H F IH]; intros i j a b N EA EB; [destruct i; discriminate|].
  rewrite Forall_forall in H. destruct i as [|i], j as [|j]; [congruence|..]; cbn [nth_error] in EA, EB.
  - injection EA as <-. apply H. eapply nth_error_In; eassumption.
  - injection EB as <-. apply S, H. eapply nth_error_In; eassumption.
  - apply (IH i j); congruence.
Qed.
Lemma score_hues entries desired fallback filter l i j a b ha hb : NoDup (map fst entries) ->
  score entries desired fallback filter = Ok l -> i <> j ->
  nth_error l i = Some a -> nth_error l j = Some b -> hct_from_int a = Ok ha -> hct_from_int b = Ok hb ->
  fle (dec "15.0") (difference_degrees (h_hue ha) (h_hue hb)) = true.
Proof.
  intros N E IJ A B HA HB. apply score_inv in E. destruct E as (pop & R & -> & _).
  destruct (outcome_spec entries pop (unwrap_or desired 4) (unwrap_or fallback 0xff4285f4) (unwrap_or filter true) R N)
    as (_ & _ & O3 & _).
  destruct O3 as [O3|(hs & O3 & _ & _ & _ & (d & D & F) & K)]; rewrite O3 in A, B.
  - assert (forall k (z x : Z), nth_error [z] k = Some x -> k = 0%nat) as K1.
    { intros k z x Q. destruct k as [|[|]]; [reflexivity|discriminate Q|discriminate Q]. }
    rewrite (K1 _ _ _ A), (K1 _ _ _ B) in IJ. now elim IJ.
  - assert (G : forall i a h, nth_error (map h_argb hs) i = Some a -> hct_from_int a = Ok h -> nth_error hs i = Some h).
    { intros i0 a0 h0 Q H. rewrite nth_error_map in Q. destruct (nth_error hs i0) as [x|] eqn:X; [|discriminate].
      injection Q as <-. rewrite Forall_forall in K. destruct (K x (nth_error_In _ _ X)) as (_ & H' & _).
      rewrite H in H'. apply ok_inj in H'. now subst. }
    apply (fop_nth (fun a b => apart d b a) hs) with (i := i) (j := j) (a := ha) (b := hb) in F; [|intros x y; apply apart_sym|exact IJ|exact (G _ _ _ A HA)|exact (G _ _ _ B HB)].
    apply apart_sym in F. unfold apart in F.
    destruct (from_int_range _ _ HA) as (A1 & A2), (from_int_range _ _ HB) as (B1 & B2).
    destruct (hue_fin _ A1 A2) as (FA & RA), (hue_fin _ B1 B2) as (FB & RB).
    destruct (difference_range (h_hue ha) (h_hue hb) FA FB) as (FD & _); [lra|lra|].
    fconst (dec "15.0"). destruct (of_Z_R d) as (VD & FZ); [lia|].
    apply (flt_fin_f _ _ FD FZ) in F. apply (fle_fin _ _ F0 FD). rewrite V. rewrite VD in F.
    assert (15 <= IZR d)%R by (apply IZR_le; lia). lra.
Qed.

(** Ranking *)
Lemma scored_lt_spec a b : scored_lt a b = flt (sh_score b) (sh_score a).
Proof.
  unfold scored_lt, compare_to, fgt. change Bltb with flt. destruct (flt (sh_score b) (sh_score a)); [reflexivity|].
  destruct (feq _ _); reflexivity.
Qed.
Definition num (x : scored_hct) : Prop := is_nan (sh_score x) = false.
Lemma lt_false_le x y : num x -> num y -> (scored_lt y x = false <-> (val (sh_score y) <= val (sh_score x))%R).
Proof. intros X Y. rewrite scored_lt_spec. apply (flt_val_f (sh_score x) (sh_score y) X Y). Qed.
Lemma cand_sorted pop filter : (forall h, In h (map fst pop) -> is_nan (rank_score pop h) = false) ->
  StronglySorted (fun a b => scored_lt b a = false) (candidates pop filter).
Proof.
  intros H. apply (sort_sorted scored_lt num).
  - intros x y z X Y Z. rewrite (lt_false_le x y X Y), (lt_false_le y z Y Z), (lt_false_le x z X Z). intros; lra.
  - intros x y X Y. rewrite (lt_false_le x y X Y). rewrite scored_lt_spec. intros Q. apply flt_true in Q. lra.
  - rewrite Forall_forall. intros x I. apply in_map_iff in I. destruct I as (h & <- & I). apply filter_In in I.
    destruct I as (I & _). exact (H h I).
Qed.
Lemma cand_scored pop filter x : In x (candidates pop filter) -> x = scored_of pop (sh_hct x).
Proof.
  intros I. apply (Permutation_in _ (sort_perm _ _)) in I. apply in_map_iff in I. destruct I as (h & <- & _). reflexivity.
Qed.
Lemma sorted_map {A B} (f : A -> B) (R : A -> A -> Prop) (R' : B -> B -> Prop) l :
  (forall a b, In a l -> In b l -> R a b -> R' (f a) (f b)) -> StronglySorted R l -> StronglySorted R' (map f l).
Proof.
  intros H S. induction S as [|x l S IH F]; cbn [map]; [constructor|]. constructor.
  - apply IH. intros a b Ia Ib. apply H; now right.
  - rewrite Forall_forall in *. intros y I. apply in_map_iff in I. destruct I as (z & <- & I).
    apply H; [now left|now right|now apply F].
Qed.
Lemma ss_nth {A} (R : A -> A -> Prop) l : StronglySorted R l -> forall i j a b, (i < j)%nat ->
  nth_error l i = Some a -> nth_error l j = Some b -> R a b.
Proof.
  induction 1 as [|x l S IH F]; intros i j a b L EA EB; [destruct i; discriminate|].
  rewrite Forall_forall in F. destruct j as [|j]; [lia|]. destruct i as [|i]; cbn [nth_error] in EA, EB.
  - injection EA as <-. apply F. eapply nth_error_In; eassumption.
  - apply (IH i j); auto; lia.
Qed.
Lemma score_ranked entries desired fallback filter l pop : NoDup (map fst entries) -> resolves entries pop ->
  (forall c, In c pop -> is_nan (rank_score pop (fst c)) = false) ->
  score entries desired fallback filter = Ok l ->
  l = [unwrap_or fallback 0xff4285f4] \/
  (forall i j a b ha hb, (i < j)%nat -> nth_error l i = Some a -> nth_error l j = Some b ->
    hct_from_int a = Ok ha -> hct_from_int b = Ok hb -> fle (rank_score pop hb) (rank_score pop ha) = true) /\
  (unwrap_or filter true = true -> forall a ha, In a l -> hct_from_int a = Ok ha ->
    flt (h_chroma ha) (dec "5.0") = false /\ fle (proportion_of pop ha) (dec "0.01") = false).
Proof.
  intros N R0 NN E. apply score_inv in E. destruct E as (pop' & R & -> & _).
  rewrite <- (resolves_fun _ _ _ R0 R) in *. clear pop' R. rename R0 into R.
  destruct (outcome_spec entries pop (unwrap_or desired 4) (unwrap_or fallback 0xff4285f4) (unwrap_or filter true) R N)
    as (_ & _ & O3 & _).
  destruct O3 as [O3|(hs & O3 & _ & _ & S & _ & K)]; [now left|right]. rewrite O3.
  assert (NN' : forall h, In h (map fst pop) -> is_nan (rank_score pop h) = false).
  { intros h I. apply in_map_iff in I. destruct I as (c & <- & I). now apply NN. }
  assert (G : forall i a h, nth_error (map h_argb hs) i = Some a -> hct_from_int a = Ok h -> nth_error hs i = Some h).
  { intros i0 a0 h0 Q H. rewrite nth_error_map in Q. destruct (nth_error hs i0) as [x|] eqn:X; [|discriminate].
    injection Q as <-. rewrite Forall_forall in K. destruct (K x (nth_error_In _ _ X)) as (_ & H' & _).
    rewrite H in H'. apply ok_inj in H'. now subst. }
  split.
  - intros i j a b ha hb L A B HA HB. apply (G _ _ _ A) in HA. apply (G _ _ _ B) in HB.
    assert (IA : In ha (map fst pop)).
    { apply nth_error_In, (sub_in _ _ ha S) in HA. apply (Permutation_in _ (candidates_perm _ _)) in HA. now apply filter_In in HA. }
    assert (IB : In hb (map fst pop)).
    { apply nth_error_In, (sub_in _ _ hb S) in HB. apply (Permutation_in _ (candidates_perm _ _)) in HB. now apply filter_In in HB. }
    apply (fle_val _ _ (NN' _ IB) (NN' _ IA)).
    assert (SS : StronglySorted (fun x y => (val (rank_score pop y) <= val (rank_score pop x))%R) hs).
    { apply (sub_sorted _ _ _ S). apply (sorted_map sh_hct (fun a b => scored_lt b a = false)); [|now apply cand_sorted].
      intros x y Ix Iy. rewrite (cand_scored _ _ _ Ix), (cand_scored _ _ _ Iy). cbn [sh_hct scored_of].
      assert (Q : forall z, In z (candidates pop (unwrap_or filter true)) -> In (sh_hct z) (map fst pop)).
      { intros z Iz. apply (in_map sh_hct) in Iz. apply (Permutation_in _ (candidates_perm _ _)) in Iz. now apply filter_In in Iz. }
      rewrite (lt_false_le (scored_of pop (sh_hct x)) (scored_of pop (sh_hct y)) (NN' _ (Q x Ix)) (NN' _ (Q y Iy))).
      cbn [sh_score scored_of]. trivial. }
    exact (ss_nth _ hs SS i j ha hb L HA HB).
  - intros FT a ha I HA. apply In_nth_error in I. destruct I as (i & I). apply (G _ _ _ I) in HA.
    apply nth_error_In in HA. rewrite Forall_forall in K. destruct (K ha HA) as (_ & _ & Q). rewrite FT in Q.
    unfold kept in Q. cbn [andb] in Q. apply negb_true_iff, orb_false_iff in Q. exact Q.
Qed.

(** Determinism *)
Lemma total_perm a b : Permutation a b -> total a = total b.
Proof. induction 1; rewrite ?total_cons in *; try lia. Qed.
Lemma filter_perm {A} (f : A -> bool) a b : Permutation a b -> Permutation (List.filter f a) (List.filter f b).
Proof.
  induction 1; cbn [List.filter]; [constructor|..].
  - destruct (f x); [now constructor|assumption].
  - destruct (f y), (f x); try constructor; reflexivity.
  - now transitivity (List.filter f l').
Qed.
Lemma excited_perm a b i : Permutation a b -> excited a i = excited b i.
Proof.
  intros P. unfold excited. apply fold_left_ext. intros x k _. unfold hue_count.
  now rewrite (total_perm _ _ P), (total_perm _ _ (filter_perm _ _ _ P)).
Qed.
Lemma rank_perm a b h : Permutation a b -> rank_score a h = rank_score b h.
Proof. intros P. unfold rank_score, proportion_of. now rewrite (excited_perm a b _ P). Qed.
Lemma kept_perm a b f h : Permutation a b -> kept a f h = kept b f h.
Proof. intros P. unfold kept, proportion_of. now rewrite (excited_perm a b _ P). Qed.
Lemma candidates_order a b f : Permutation a b ->
  (forall c, In c a -> is_nan (rank_score a (fst c)) = false) -> distinct_scores a ->
  candidates a f = candidates b f.
Proof.
  intros P NN D.
  assert (NNa : forall h, In h (map fst a) -> is_nan (rank_score a h) = false).
  { intros h I. apply in_map_iff in I. destruct I as (c & <- & I). now apply NN. }
  assert (NNb : forall h, In h (map fst b) -> is_nan (rank_score b h) = false).
  { intros h I. rewrite <- (rank_perm a b h P). apply NNa. apply (Permutation_in _ (Permutation_map fst (Permutation_sym P)) I). }
  apply (sorted_unique (fun a b => scored_lt b a = false)).
  - now apply cand_sorted.
  - now apply cand_sorted.
  - unfold candidates. rewrite !sort_perm.
    rewrite (map_ext (scored_of b) (scored_of a)).
    + apply Permutation_map. rewrite (filter_ext (kept b f) (kept a f)); [|intros h; symmetry; now apply kept_perm].
      apply filter_perm. now apply Permutation_map.
    + intros h. unfold scored_of. now rewrite (rank_perm a b h P).
  - intros x y Ix Iy.
    assert (Q : forall z, In z (candidates a f) -> exists c, In c a /\ sh_hct z = fst c).
    { intros z Iz. apply (in_map sh_hct) in Iz. apply (Permutation_in _ (candidates_perm _ _)) in Iz. apply filter_In in Iz.
      destruct Iz as (Iz & _). apply in_map_iff in Iz. destruct Iz as (c & Q & I). now exists c. }
    destruct (Q x Ix) as (cx & Icx & Ex), (Q y Iy) as (cy & Icy & Ey).
    rewrite (cand_scored _ _ _ Ix), (cand_scored _ _ _ Iy), Ex, Ey.
    rewrite (lt_false_le (scored_of a (fst cx)) (scored_of a (fst cy)) (NN _ Icx) (NN _ Icy)).
    rewrite (lt_false_le (scored_of a (fst cy)) (scored_of a (fst cx)) (NN _ Icy) (NN _ Icx)).
    cbn [sh_score scored_of]. intros L1 L2. rewrite (D cx cy Icx Icy); [reflexivity|]. apply (feq_val _ _ (NN _ Icx) (NN _ Icy)). lra.
Qed.
Lemma resolves_perm entries entries' pop : Permutation entries entries' -> resolves entries pop ->
  exists pop', resolves entries' pop' /\ Permutation pop pop'.
Proof.
  intros P. revert pop. induction P; intros pop R.
  - inversion R; subst. exists []. split; constructor.
  - inversion R as [|? c ? cs H R']; subst. destruct (IHP cs R') as (pop' & Q & Q'). exists (c :: pop'). split; [now constructor|now constructor].
  - inversion R as [|? c ? cs H R']; subst. inversion R' as [|? c' ? cs' H' R'']; subst.
    exists (c' :: c :: cs'). split; [constructor; [exact H'|constructor; [exact H|exact R'']]|apply perm_swap].
  - destruct (IHP1 pop R) as (p1 & Q1 & Q1'). destruct (IHP2 p1 Q1) as (p2 & Q2 & Q2'). exists p2. split; [exact Q2|now transitivity p1].
Qed.
Lemma score_total entries pop desired fallback filter : resolves entries pop -> Forall (fun e => 0 <= snd e) entries ->
  total pop <= i64_max -> exists l, score entries desired fallback filter = Ok l.
Proof.
  intros R F T. unfold score.
  destruct (count_ok entries pop R F [] (repeat 0 360) 0) as (((cs & hp) & ps) & C).
  { apply repeat_length. } { intros k _. rewrite nth_repeat. lia. } { lia. } { lia. }
  rewrite C, bind_Ok. apply count_inv in C; [|apply repeat_length]. destruct C as (pop' & R' & -> & L & -> & _ & K).
  destruct (excite_ok hp (0 + total pop') (zrange 360) (repeat (dec "0.0") 360)) as (ex & X & _).
  { exact L. } { apply repeat_length. } { rewrite Forall_forall. intros k. now rewrite in_zrange. }
  rewrite X, bind_Ok. cbn [app].
  pose proof (excited_ok pop' hp (0 + total pop') ex) as Q.
  specialize (Q ltac:(intros k Hk; rewrite (K k Hk); rewrite nth_repeat; lia) ltac:(lia) L X).
  rewrite (score_loop_ok pop' ex _ _ Q (resolves_bucket _ _ R')), bind_Ok. eexists. reflexivity.
Qed.
Lemma score_order entries entries' desired fallback filter l pop : Permutation entries entries' ->
  Forall (fun e => 0 <= snd e) entries -> resolves entries pop ->
  (forall c, In c pop -> is_nan (rank_score pop (fst c)) = false) -> distinct_scores pop ->
  score entries desired fallback filter = Ok l -> score entries' desired fallback filter = Ok l.
Proof.
  intros P F R NN D E. apply score_inv in E. destruct E as (pop0 & R0 & -> & I).
  rewrite <- (resolves_fun _ _ _ R R0) in *. clear pop0 R0.
  destruct (resolves_perm _ _ _ P R) as (pop' & R' & P').
  assert (T : total pop <= i64_max).
  { destruct entries; [inversion R; subst; cbn; unfold i64_max; lia|]. apply I. discriminate. }
  destruct (score_total entries' pop' desired fallback filter R') as (l & E).
  { rewrite Forall_forall in *. intros e Ie. apply F. apply (Permutation_in _ (Permutation_sym P) Ie). }
  { now rewrite <- (total_perm _ _ P'). }
  rewrite E. f_equal. apply score_inv in E. destruct E as (pop0 & R0 & -> & _).
  rewrite <- (resolves_fun _ _ _ R' R0). unfold outcome. fold (candidates pop' (unwrap_or filter true)).
  fold (candidates pop (unwrap_or filter true)). now rewrite (candidates_order pop pop' (unwrap_or filter true) P' NN D).
Qed.

(** Completeness of the choice *)
Lemma pass_extends entries d desired : forall chosen, exists more, choose_pass entries d desired chosen = chosen ++ more.
Proof.
  induction entries as [|e es IH]; intros chosen; cbn [choose_pass]; [exists []; now rewrite app_nil_r|].
  set (ch := if existsb _ chosen then chosen else chosen ++ [sh_hct e]).
  assert (exists m, ch = chosen ++ m) as (m & M).
  { unfold ch. destruct (existsb _ chosen); [exists []; now rewrite app_nil_r|now eexists]. }
  destruct (desired <=? _); [now exists m|]. destruct (IH ch) as (m' & ->). exists (m ++ m'). now rewrite M, app_assoc.
Qed.
Lemma pass_complete entries d desired : forall chosen,
  let r := choose_pass entries d desired chosen in
  Z.of_nat (List.length r) < desired ->
  forall h, In h (map sh_hct entries) -> In h r \/ exists c, In c r /\ flt (difference_degrees (h_hue h) (h_hue c)) (of_Z d) = true.
Proof.
  induction entries as [|e es IH]; intros chosen r L h I; [easy|]. unfold r in *. clear r. cbn [choose_pass] in *.
  destruct (existsb (fun c => flt (difference_degrees (h_hue (sh_hct e)) (h_hue c)) (of_Z d)) chosen) eqn:X.
  - destruct (desired <=? Z.of_nat (List.length chosen)) eqn:Y; [apply Z.leb_le in Y; lia|].
    cbn [map] in I. destruct I as [<-|I]; [|exact (IH chosen L h I)]. right.
    apply existsb_exists in X. destruct X as (c & Ic & X). exists c. split; [|exact X].
    destruct (pass_extends es d desired chosen) as (m & ->). apply in_or_app. now left.
  - destruct (desired <=? Z.of_nat (List.length (chosen ++ [sh_hct e]))) eqn:Y; [apply Z.leb_le in Y; lia|].
    cbn [map] in I. destruct I as [<-|I]; [|exact (IH _ L h I)]. left.
    destruct (pass_extends es d desired (chosen ++ [sh_hct e])) as (m & ->). apply in_or_app. left. apply in_or_app. right. now left.
Qed.
Lemma loop_last entries desired diffs : forall prev, diffs <> [] ->
  Z.of_nat (List.length (choose_loop diffs entries desired prev)) < desired ->
  choose_loop diffs entries desired prev = choose_pass entries (last diffs 0) desired [].
Proof.
  induction diffs as [|d ds IH]; intros prev N; [congruence|]. cbn [choose_loop].
  destruct (desired <=? Z.of_nat (List.length (choose_pass entries d desired []))) eqn:X; [apply Z.leb_le in X; lia|].
  destruct ds as [|d' ds]; [reflexivity|]. intros L. apply IH; [discriminate|exact L].
Qed.
Lemma choose_complete entries desired : let r := choose_loop score_diffs entries desired [] in
  Z.of_nat (List.length r) < desired ->
  forall h, In h (map sh_hct entries) -> In h r \/ exists c, In c r /\ flt (difference_degrees (h_hue h) (h_hue c)) (of_Z 15) = true.
Proof.
  intros r L. unfold r in *. clear r. assert (E : score_diffs <> []) by discriminate.
  pose proof (loop_last entries desired score_diffs [] E L) as X. rewrite X in *.
  exact (pass_complete entries _ desired [] L).
Qed.
Lemma choose_head e es desired : exists t, choose_loop score_diffs (e :: es) desired [] = sh_hct e :: t.
Proof.
  destruct (loop_spec (e :: es) desired score_diffs []) as (d & I & E); [discriminate|]. rewrite E. cbn [choose_pass existsb app].
  destruct (desired <=? _); [now exists []|]. destruct (pass_extends es d desired [sh_hct e]) as (m & ->). now exists m.
Qed.
Lemma score_best entries desired fallback filter l pop c : resolves entries pop ->
  (forall c, In c pop -> is_nan (rank_score pop (fst c)) = false) ->
  score entries desired fallback filter = Ok l -> In c pop ->
  (unwrap_or filter true = true -> flt (h_chroma (fst c)) (dec "5.0") = false /\ fle (proportion_of pop (fst c)) (dec "0.01") = false) ->
  (exists a ha t, l = a :: t /\ In a (map fst entries) /\ hct_from_int a = Ok ha /\ fle (rank_score pop (fst c)) (rank_score pop ha) = true) /\
  (Z.of_nat (List.length l) < unwrap_or desired 4 ->
   In (h_argb (fst c)) l \/
   exists a ha, In a l /\ hct_from_int a = Ok ha /\ flt (difference_degrees (h_hue (fst c)) (h_hue ha)) (dec "15.0") = true).
Proof.
  intros R0 NN E I K. apply score_inv in E. destruct E as (pop' & R & -> & _).
  rewrite <- (resolves_fun _ _ _ R0 R) in *. clear pop' R. rename R0 into R.
  assert (Q : In (fst c) (map sh_hct (candidates pop (unwrap_or filter true)))).
  { apply (Permutation_in _ (Permutation_sym (candidates_perm _ _))). apply filter_In. split; [now apply in_map|].
    unfold kept. destruct (unwrap_or filter true); [|reflexivity]. destruct (K eq_refl) as (-> & ->). reflexivity. }
  assert (NN' : forall h, In h (map fst pop) -> is_nan (rank_score pop h) = false).
  { intros h J. apply in_map_iff in J. destruct J as (x & <- & J). now apply NN. }
  assert (QQ : forall z, In z (candidates pop (unwrap_or filter true)) -> In (sh_hct z) (map fst pop)).
  { intros z Iz. apply (in_map sh_hct) in Iz. apply (Permutation_in _ (candidates_perm _ _)) in Iz. now apply filter_In in Iz. }
  pose proof (cand_sorted pop (unwrap_or filter true) NN') as SS.
  pose proof (cand_scored pop (unwrap_or filter true)) as CS.
  unfold outcome. fold (candidates pop (unwrap_or filter true)).
  pose proof (choose_complete (candidates pop (unwrap_or filter true)) (unwrap_or desired 4)) as CC. cbv zeta in CC.
  destruct (candidates pop (unwrap_or filter true)) as [|e es]; [easy|].
  destruct (choose_head e es (unwrap_or desired 4)) as (t & T). 
  assert (SUB : forall h, In h (sh_hct e :: t) -> In h (map sh_hct (e :: es))).
  { intros h J. destruct (choose_spec (e :: es) (unwrap_or desired 4)) as (d & ch & _ & E & S & _). rewrite T in E. subst ch.
    exact (sub_in _ _ h S J). }
  rewrite T in *. split.
  - assert (Ie : In (sh_hct e) (map fst pop)) by (apply QQ; now left).
    destruct (resolves_in _ _ _ R Ie) as (H1 & H2). exists (h_argb (sh_hct e)), (sh_hct e), (map h_argb t).
    split; [reflexivity|]. split; [exact H2|]. split; [exact H1|].
    apply in_map_iff in Q. destruct Q as (x & Qx & Ix).
    apply (fle_val _ _ (NN _ I) (NN' _ Ie)). destruct Ix as [->|Ix]; [rewrite Qx; lra|].
    apply StronglySorted_inv in SS. destruct SS as (_ & FF). rewrite Forall_forall in FF. pose proof (FF x Ix) as Z.
    rewrite (CS e (or_introl eq_refl)), (CS x (or_intror Ix)) in Z.
    apply lt_false_le in Z; [|exact (NN' _ Ie)|apply NN'; apply QQ; now right].
    cbn [sh_score scored_of] in Z. rewrite Qx in Z. exact Z.
  - intros L. change (map h_argb (sh_hct e :: t)) with (map h_argb (sh_hct e :: t)) in *.
    rewrite map_length in L. destruct (CC L _ Q) as [J|(x & J & D)]; [left; now apply in_map|right].
    exists (h_argb x), x. split; [now apply in_map|]. split; [|exact D].
    apply SUB in J. apply in_map_iff in J. destruct J as (y & <- & J). now destruct (resolves_in _ _ _ R (QQ y J)).
Qed.
Lemma score_no_candidate entries desired fallback filter l pop : resolves entries pop ->
  score entries desired fallback filter = Ok l ->
  (forall c, In c pop -> unwrap_or filter true = true /\ (flt (h_chroma (fst c)) (dec "5.0") = true \/ fle (proportion_of pop (fst c)) (dec "0.01") = true)) ->
  l = [unwrap_or fallback 0xff4285f4].
Proof.
  intros R0 E K. apply score_inv in E. destruct E as (pop' & R & -> & _).
  rewrite <- (resolves_fun _ _ _ R0 R) in *. clear pop' R. unfold outcome. fold (candidates pop (unwrap_or filter true)).
  destruct (candidates pop (unwrap_or filter true)) as [|e es] eqn:C.
  { destruct (choose_spec [] (unwrap_or desired 4)) as (d & ch & _ & E & S & _). rewrite E. cbn [map] in S. now inversion S. }
  exfalso. assert (Q : In (sh_hct e) (map sh_hct (candidates pop (unwrap_or filter true)))) by (rewrite C; now left).
  apply (Permutation_in _ (candidates_perm _ _)) in Q. apply filter_In in Q. destruct Q as (Q & K').
  apply in_map_iff in Q. destruct Q as (c & EQ & I). rewrite <- EQ in K'. destruct (K c I) as (FT & D). rewrite FT in K'. unfold kept in K'. 
  destruct D as [D|D]; rewrite D, ?orb_true_r in K'; discriminate K'.
Qed.
End AnyLibm.

(** Black and transparent black tie. *)
Definition one_differs (r r' : res (list Z)) : bool :=
  match r, r' with Ok [a], Ok [b] => negb (a =? b) | _, _ => false end.
Lemma differs_ne r r' : one_differs r r' = true -> r <> r'.
Proof.
  intros D <-. destruct r as [[|a [|]]|]; try discriminate D. cbn in D. rewrite Z.eqb_refl in D. discriminate D.
Qed.
Lemma score_ties : exists (lm : Libm) (entries entries' : list (Z * Z)) (desired : option Z) (filter : option bool),
  Permutation entries entries' /\ NoDup (map fst entries) /\
  score entries desired None filter <> score entries' desired None filter.
Proof.
  exists sample_libm, [(0xFF000000, 1); (0, 1)], [(0, 1); (0xFF000000, 1)], (Some 1), (Some false).
  split; [apply perm_swap|]. split.
  { repeat constructor; cbn [map fst In]; intuition discriminate. }
  apply differs_ne. vm_compute. reflexivity.
Qed.
