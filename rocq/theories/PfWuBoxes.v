(** * Wu's boxes. Proof file. *)
From Coq Require Import ZArith Bool List Lia Lra Reals FMapPositive String.
From Flocq Require Import Core IEEE754.BinarySingleNaN.
From Verif Require Import F64 ColorUtils Assoc QuantizerMap QuantizerWu SpecWu FloatFacts PfHct PfScore PfWuMoments PfWuSums.
Import ListNotations.
Open Scope string_scope.
Open Scope list_scope.
Open Scope Z_scope.

Lemma inclusion_exclusion f ps c : in_cube c ->
  weighted f (inside c) ps =
    weighted f (dominated (b_r1 c) (b_g1 c) (b_b1 c)) ps - weighted f (dominated (b_r1 c) (b_g1 c) (b_b0 c)) ps
  - weighted f (dominated (b_r1 c) (b_g0 c) (b_b1 c)) ps + weighted f (dominated (b_r1 c) (b_g0 c) (b_b0 c)) ps
  - weighted f (dominated (b_r0 c) (b_g1 c) (b_b1 c)) ps + weighted f (dominated (b_r0 c) (b_g1 c) (b_b0 c)) ps
  + weighted f (dominated (b_r0 c) (b_g0 c) (b_b1 c)) ps - weighted f (dominated (b_r0 c) (b_g0 c) (b_b0 c)) ps.
Proof.
  intros (R & _ & G & _ & B & _). induction ps as [|e ps IH]; [reflexivity|]. rewrite !weighted_cons, IH.
  set (v := f (fst e) * snd e). unfold inside, dominated.
  set (x := red_from_argb (fst e) / 8). set (y := green_from_argb (fst e) / 8). set (z := blue_from_argb (fst e) / 8).
  destruct (Z.leb_spec (b_r0 c) x), (Z.ltb_spec x (b_r0 c)); try lia; destruct (Z.ltb_spec x (b_r1 c)); try lia; cbn [andb]; try lia;
  destruct (Z.leb_spec (b_g0 c) y), (Z.ltb_spec y (b_g0 c)); try lia; destruct (Z.ltb_spec y (b_g1 c)); try lia; cbn [andb]; try lia;
  destruct (Z.leb_spec (b_b0 c) z), (Z.ltb_spec z (b_b0 c)); try lia; destruct (Z.ltb_spec z (b_b1 c)); try lia; cbn [andb]; lia.
Qed.

(** The two sides of a cut. *)
Definition lower (c : box) (d : direction) (k : Z) : box :=
  match d with
  | DRed => {| b_r0 := b_r0 c; b_r1 := k; b_g0 := b_g0 c; b_g1 := b_g1 c; b_b0 := b_b0 c; b_b1 := b_b1 c; b_vol := 0 |}
  | DGreen => {| b_r0 := b_r0 c; b_r1 := b_r1 c; b_g0 := b_g0 c; b_g1 := k; b_b0 := b_b0 c; b_b1 := b_b1 c; b_vol := 0 |}
  | DBlue => {| b_r0 := b_r0 c; b_r1 := b_r1 c; b_g0 := b_g0 c; b_g1 := b_g1 c; b_b0 := b_b0 c; b_b1 := k; b_vol := 0 |}
  end.
Definition upper (c : box) (d : direction) (k : Z) : box :=
  match d with
  | DRed => {| b_r0 := k; b_r1 := b_r1 c; b_g0 := b_g0 c; b_g1 := b_g1 c; b_b0 := b_b0 c; b_b1 := b_b1 c; b_vol := 0 |}
  | DGreen => {| b_r0 := b_r0 c; b_r1 := b_r1 c; b_g0 := k; b_g1 := b_g1 c; b_b0 := b_b0 c; b_b1 := b_b1 c; b_vol := 0 |}
  | DBlue => {| b_r0 := b_r0 c; b_r1 := b_r1 c; b_g0 := b_g0 c; b_g1 := b_g1 c; b_b0 := k; b_b1 := b_b1 c; b_vol := 0 |}
  end.
Definition lo (c : box) (d : direction) : Z := match d with DRed => b_r0 c | DGreen => b_g0 c | DBlue => b_b0 c end.
Definition hi (c : box) (d : direction) : Z := match d with DRed => b_r1 c | DGreen => b_g1 c | DBlue => b_b1 c end.

Lemma split_inside c d k p : lo c d <= k <= hi c d ->
  (inside c p = true <-> inside (lower c d k) p = true \/ inside (upper c d k) p = true) /\
  ~ (inside (lower c d k) p = true /\ inside (upper c d k) p = true).
Proof.
  unfold lo, hi, inside. destruct d; cbn [lower upper b_r0 b_r1 b_g0 b_g1 b_b0 b_b1];
  rewrite !andb_true_iff, !Z.leb_le, !Z.ltb_lt; lia.
Qed.
Lemma split_weighted f ps c d k : lo c d <= k <= hi c d ->
  weighted f (inside c) ps = weighted f (inside (lower c d k)) ps + weighted f (inside (upper c d k)) ps.
Proof.
  intros H. induction ps as [|e ps IH]; [reflexivity|]. rewrite !weighted_cons, IH.
  destruct (split_inside c d k (fst e) H) as (A & B).
  destruct (inside c (fst e)), (inside (lower c d k) (fst e)), (inside (upper c d k) (fst e)); try lia;
    exfalso; intuition congruence.
Qed.
Lemma set_vol_inside c p : inside (set_vol c) p = inside c p. Proof. reflexivity. Qed.

Section Tables.
Variables (ps : list (Z * Z)) (w : wu).
Hypothesis (S : sums_wu ps w).
Definition N : Z := weighted one everywhere ps.
Definition fits : Prop := nonneg ps /\ 3 * (255 * N) * (255 * N) <= i64_max.
Definition channel (f : Z -> Z) : Prop := forall p, byte (f p).

Lemma nofit x : (fits -> i64_min <= x <= i64_max) -> chk x = Panic -> ~ fits.
Proof. intros H C F. rewrite (chk_ok x (H F)) in C. discriminate C. Qed.
Lemma bound : fits -> 0 <= 255 * N /\ 8 * (255 * N) <= i64_max.
Proof.
  intros (NN & F). assert (0 <= N) by (apply weighted_nonneg; [unfold one; lia|exact NN]).
  split; [lia|]. unfold i64_max in *. change (2 ^ 63 - 1) with 9223372036854775807 in *.
  destruct (Z.le_gt_cases (255 * N) 4294967296); [lia|]. nia.
Qed.
Lemma weight_range f sel : channel f -> fits -> 0 <= weighted f sel ps <= 255 * N.
Proof.
  intros C (NN & _). split; [apply weighted_nonneg; [|exact NN]; intros p; apply C|]. apply weighted_le; [|exact NN]. intros p; apply C.
Qed.
Definition W f r g b := weighted f (dominated r g b) ps.
Lemma W_range f r g b : channel f -> fits -> 0 <= W f r g b <= 255 * N.
Proof. intros C F. now apply weight_range. Qed.

(** A value that is in range whenever the image fits. *)
Definition small (x : Z) : Prop := fits -> 0 <= x <= 255 * N.
Lemma W_small f r g b : channel f -> small (W f r g b).
Proof. intros C F. now apply weight_range. Qed.
Ltac in_range := match goal with CH : chk _ = Panic |- _ => change (~ fits);
  revert CH; apply nofit; let F := fresh "F" in intros F; pose proof (bound F);
  repeat match goal with Hs : small _ |- _ => let q := fresh "q" in pose proof (Hs F : 0 <= _ <= 255 * N) as q; clear Hs end; unfold i64_min, i64_max in *; lia end.
Ltac chks := repeat (rewrite ?bind_Ok; cbv iota beta; match goal with |- context [chk ?x] =>
  let CH := fresh "CH" in destruct (chk_val x) as [CH|CH]; rewrite CH; [clear CH|in_range] end); rewrite ?bind_Ok; cbv iota beta.

Lemma table_get f m r g b : sums f ps m -> co r -> co g -> co b -> aget 0 m (get_index r g b) = Ok (W f r g b).
Proof. intros T R G B. rewrite (get_ok 0 m _ (idx_range r g b R G B)). now rewrite (T r g b R G B). Qed.

Lemma volume_case f m c : channel f -> sums f ps m -> in_cube c ->
  match volume c m with Ok v => v = weighted f (inside c) ps | Panic => ~ fits end.
Proof.
  intros C T I. rewrite (inclusion_exclusion f ps c I). unfold volume. unfold in_cube in I.
  rewrite !(table_get f m) by (try exact T; unfold co; lia).
  fold (W f (b_r1 c) (b_g1 c) (b_b1 c)) (W f (b_r1 c) (b_g1 c) (b_b0 c)) (W f (b_r1 c) (b_g0 c) (b_b1 c)) (W f (b_r1 c) (b_g0 c) (b_b0 c))
       (W f (b_r0 c) (b_g1 c) (b_b1 c)) (W f (b_r0 c) (b_g1 c) (b_b0 c)) (W f (b_r0 c) (b_g0 c) (b_b1 c)) (W f (b_r0 c) (b_g0 c) (b_b0 c)).
  pose proof (fun r g b => W_small f r g b C) as WS.
  pose proof (WS (b_r1 c) (b_g1 c) (b_b1 c)) as X1. pose proof (WS (b_r1 c) (b_g1 c) (b_b0 c)) as X2.
  pose proof (WS (b_r1 c) (b_g0 c) (b_b1 c)) as X3. pose proof (WS (b_r1 c) (b_g0 c) (b_b0 c)) as X4.
  pose proof (WS (b_r0 c) (b_g1 c) (b_b1 c)) as X5. pose proof (WS (b_r0 c) (b_g1 c) (b_b0 c)) as X6.
  pose proof (WS (b_r0 c) (b_g0 c) (b_b1 c)) as X7. pose proof (WS (b_r0 c) (b_g0 c) (b_b0 c)) as X8. clear WS.
  revert X1 X2 X3 X4 X5 X6 X7 X8.
  generalize (W f (b_r1 c) (b_g1 c) (b_b1 c)) (W f (b_r1 c) (b_g1 c) (b_b0 c)) (W f (b_r1 c) (b_g0 c) (b_b1 c)) (W f (b_r1 c) (b_g0 c) (b_b0 c))
       (W f (b_r0 c) (b_g1 c) (b_b1 c)) (W f (b_r0 c) (b_g1 c) (b_b0 c)) (W f (b_r0 c) (b_g0 c) (b_b1 c)) (W f (b_r0 c) (b_g0 c) (b_b0 c)).
  intros x1 x2 x3 x4 x5 x6 x7 x8 X1 X2 X3 X4 X5 X6 X7 X8. clear T I C c m.
  unfold zadd, zsub. chks. reflexivity.
Qed.

Lemma half_case f m c d k : channel f -> sums f ps m -> in_cube c -> lo c d <= k <= hi c d ->
  match bottom c d m with
  | Ok bt => match top c d k m with
             | Ok tp => bt + tp = weighted f (inside (lower c d k)) ps
             | Panic => ~ fits
             end
  | Panic => ~ fits
  end.
Proof.
  intros C T I K.
  assert (I' : in_cube (lower c d k)) by (unfold in_cube, lo, hi in *; destruct d; cbn [lower b_r0 b_r1 b_g0 b_g1 b_b0 b_b1]; lia).
  rewrite (inclusion_exclusion f ps _ I'). unfold bottom, top, neg_sum, pos_sum, lo, hi in *. unfold in_cube in I.
  pose proof (fun r g b => W_small f r g b C) as WS.
  destruct d; cbn [lower b_r0 b_r1 b_g0 b_g1 b_b0 b_b1]; rewrite !(table_get f m) by (try exact T; unfold co; lia);
  repeat match goal with |- context [weighted f (dominated ?r ?g ?b) ps] => change (weighted f (dominated r g b) ps) with (W f r g b) end;
  repeat match goal with |- context [W f ?r ?g ?b] => pose proof (WS r g b); generalize dependent (W f r g b); intros ? ? end;
  clear WS; unfold zadd, zsub; chks; lia.
Qed.

Lemma squares_case x y z : small x -> small y -> small z ->
  match sum_squares x y z with Ok s => s = x * x + y * y + z * z | Panic => ~ fits end.
Proof.
  intros X Y Z.
  assert (B : fits -> 0 <= x * x /\ 0 <= y * y /\ 0 <= z * z /\ x * x + y * y + z * z <= i64_max).
  { intros F. specialize (X F). specialize (Y F). specialize (Z F). destruct F as (_ & F). repeat split; nia. }
  clear X Y Z. unfold sum_squares, zmul, zadd. revert B. generalize (x * x) (y * y) (z * z). intros a b c B.
  repeat (rewrite ?bind_Ok; cbv iota beta; match goal with |- context [chk ?e] =>
    let CH := fresh "CH" in destruct (chk_val e) as [CH|CH]; rewrite CH; [clear CH|change (~ fits); revert CH; apply nofit; intros F; specialize (B F); unfold i64_min; lia] end).
  cbv iota beta. reflexivity.
Qed.

Lemma chan_one : channel one. Proof. exact one_byte. Qed.
Lemma chan_r : channel red_from_argb. Proof. exact red_byte. Qed.
Lemma chan_g : channel green_from_argb. Proof. exact green_byte. Qed.
Lemma chan_b : channel blue_from_argb. Proof. exact blue_byte. Qed.
Lemma sel_small f sel : channel f -> small (weighted f sel ps).
Proof. intros C F. now apply weight_range. Qed.

(** [bottom] of a table, given that it returns. *)
Definition half_of f (c : box) (d : direction) (k : Z) : Z := weighted f (inside (lower c d k)) ps.
Lemma top_case f m c d k bt : channel f -> sums f ps m -> in_cube c -> lo c d <= k <= hi c d -> bottom c d m = Ok bt ->
  match (do t <- top c d k m; zadd bt t) with Ok v => v = half_of f c d k | Panic => ~ fits end.
Proof.
  intros C T I K B. pose proof (half_case f m c d k C T I K) as H. rewrite B in H.
  destruct (top c d k m) as [t|]; [|exact H]. rewrite bind_Ok. unfold zadd. rewrite H.
  fold (half_of f c d k). pose proof (sel_small f (inside (lower c d k)) C) as X. fold (half_of f c d k) in X.
  chks. reflexivity.
Qed.
Lemma bind_assoc {A B C} (x : res A) (f : A -> res B) (g : B -> res C) : bind (bind x f) g = bind x (fun a => bind (f a) g).
Proof. now destruct x. Qed.

Definition balanced (c : box) (d : direction) (k : Z) : Prop :=
  lo c d < k < hi c d /\ weighted one (inside (lower c d k)) ps <> 0 /\ weighted one (inside (upper c d k)) ps <> 0.
Definition found (c : box) (d : direction) (k : Z) (mx : f64) : Prop :=
  (k = -1 /\ mx = dec "0.0") \/ (balanced c d k /\ flt (dec "0.0") mx = true).

Lemma zero_or_more mx temp : mx = dec "0.0" \/ flt (dec "0.0") mx = true -> flt mx temp = true -> flt (dec "0.0") temp = true.
Proof.
  intros [->|H] L; [exact L|]. pose proof (flt_not_nan _ _ H) as (N0 & _). pose proof (flt_not_nan _ _ L) as (_ & N1).
  apply (flt_val _ _ N0 N1). pose proof (flt_true _ _ H). pose proof (flt_true _ _ L). lra.
Qed.

Lemma maximize_case c d is br bg bb bw : in_cube c ->
  bottom c d (w_moments_r w) = Ok br -> bottom c d (w_moments_g w) = Ok bg ->
  bottom c d (w_moments_b w) = Ok bb -> bottom c d (w_weights w) = Ok bw ->
  Forall (fun k => lo c d < k < hi c d) is ->
  forall mx k0, found c d k0 mx ->
  match maximize_loop w c d is br bg bb bw (weighted red_from_argb (inside c) ps) (weighted green_from_argb (inside c) ps)
     (weighted blue_from_argb (inside c) ps) (weighted one (inside c) ps) mx k0 with
  | Ok (k, mx') => found c d k mx'
  | Panic => ~ fits
  end.
Proof.
  destruct S as (Sw & Sr & Sg & Sb). intros I Br Bg Bb Bw. induction is as [|i is IH]; intros L mx k0 Fd; cbn [maximize_loop]; [exact Fd|].
  inversion L as [|? ? Li L']; subst. specialize (IH L').
  assert (K : lo c d <= i <= hi c d) by lia.
  pose proof (top_case _ _ c d i br chan_r Sr I K Br) as Tr. pose proof (top_case _ _ c d i bg chan_g Sg I K Bg) as Tg.
  pose proof (top_case _ _ c d i bb chan_b Sb I K Bb) as Tb. pose proof (top_case _ _ c d i bw chan_one Sw I K Bw) as Tw.
  rewrite <- bind_assoc. destruct (do t <- top c d i (w_moments_r w); zadd br t) as [hr|]; [rewrite bind_Ok|exact Tr].
  rewrite <- bind_assoc. destruct (do t <- top c d i (w_moments_g w); zadd bg t) as [hg|]; [rewrite bind_Ok|exact Tg].
  rewrite <- bind_assoc. destruct (do t <- top c d i (w_moments_b w); zadd bb t) as [hb|]; [rewrite bind_Ok|exact Tb].
  rewrite <- bind_assoc. destruct (do t <- top c d i (w_weights w); zadd bw t) as [hw|]; [rewrite bind_Ok|exact Tw].
  subst hr hg hb hw. destruct (Z.eqb_spec (half_of one c d i) 0) as [Z1|Z1]; [now apply IH|].
  pose proof (squares_case (half_of red_from_argb c d i) (half_of green_from_argb c d i) (half_of blue_from_argb c d i)
    (sel_small _ _ chan_r) (sel_small _ _ chan_g) (sel_small _ _ chan_b)) as Q.
  destruct (sum_squares _ _ _) as [sq|]; [rewrite bind_Ok; clear Q|exact Q].
  assert (U : forall f, weighted f (inside c) ps - half_of f c d i = weighted f (inside (upper c d i)) ps).
  { intros f. unfold half_of. rewrite (split_weighted f ps c d i K). lia. }
  unfold zsub. rewrite !U.
  pose proof (sel_small _ (inside (upper c d i)) chan_r) as X1. pose proof (sel_small _ (inside (upper c d i)) chan_g) as X2.
  pose proof (sel_small _ (inside (upper c d i)) chan_b) as X3. pose proof (sel_small _ (inside (upper c d i)) chan_one) as X4.
  do 4 (match goal with |- context [chk ?x] =>
     let CH := fresh "CH" in destruct (chk_val x) as [CH|CH]; rewrite CH; [rewrite bind_Ok; clear CH|in_range] end).
  destruct (Z.eqb_spec (weighted one (inside (upper c d i)) ps) 0) as [Z2|Z2]; [now apply IH|].
  pose proof (squares_case _ _ _ X1 X2 X3) as Q.
  destruct (sum_squares (weighted red_from_argb (inside (upper c d i)) ps) _ _) as [sq2|]; [rewrite bind_Ok; clear Q|exact Q].
  cbv zeta. match goal with |- context [fgt ?t mx] => set (temp := t) end.
  destruct (fgt temp mx) eqn:G; [|now apply IH]. apply IH. right. split; [repeat split; [lia|lia|exact Z1|exact Z2]|].
  apply (zero_or_more mx); [destruct Fd as [(_ & ->)|(_ & H)]; auto|exact G].
Qed.
Lemma in_zseq a b k : In k (zseq a b) <-> a <= k < b.
Proof.
  unfold zseq. rewrite in_map_iff. split.
  - intros (n & <- & H). apply in_seq in H. lia.
  - intros H. exists (Z.to_nat (k - a)). split; [lia|]. apply in_seq. lia.
Qed.
Lemma bottom_case f m c d : channel f -> sums f ps m -> in_cube c -> match bottom c d m with Ok _ => True | Panic => ~ fits end.
Proof.
  intros C T I. assert (K : lo c d <= lo c d <= hi c d) by (unfold lo, hi, in_cube in *; destruct d; lia).
  pose proof (half_case f m c d (lo c d) C T I K) as H. destruct (bottom c d m); [trivial|exact H].
Qed.
Lemma max_case c d : in_cube c ->
  match maximize w c d (lo c d + 1) (hi c d) (weighted red_from_argb (inside c) ps) (weighted green_from_argb (inside c) ps)
     (weighted blue_from_argb (inside c) ps) (weighted one (inside c) ps) with
  | Ok (k, mx) => found c d k mx
  | Panic => ~ fits
  end.
Proof.
  intros I. pose proof S as (Sw & Sr & Sg & Sb). unfold maximize.
  pose proof (bottom_case _ _ c d chan_r Sr I) as Br. destruct (bottom c d (w_moments_r w)) as [br|] eqn:Er; [rewrite bind_Ok|exact Br].
  pose proof (bottom_case _ _ c d chan_g Sg I) as Bg. destruct (bottom c d (w_moments_g w)) as [bg|] eqn:Eg; [rewrite bind_Ok|exact Bg].
  pose proof (bottom_case _ _ c d chan_b Sb I) as Bb. destruct (bottom c d (w_moments_b w)) as [bb|] eqn:Eb; [rewrite bind_Ok|exact Bb].
  pose proof (bottom_case _ _ c d chan_one Sw I) as Bw. destruct (bottom c d (w_weights w)) as [bw|] eqn:Ew; [rewrite bind_Ok|exact Bw].
  apply maximize_case; auto.
  - rewrite Forall_forall. intros k. rewrite in_zseq. lia.
  - left. easy.
Qed.

Lemma flt_not_le x y : flt x y = true -> fle y x = true -> False.
Proof.
  intros H L. pose proof (flt_not_nan _ _ H) as (A & B). pose proof (flt_true _ _ H). apply (fle_val _ _ B A) in L. lra.
Qed.
Lemma cut_case c : in_cube c ->
  match cut w c with
  | Ok None => True
  | Ok (Some (a, b)) => exists d k, balanced c d k /\ a = set_vol (lower c d k) /\ b = set_vol (upper c d k)
  | Panic => ~ fits
  end.
Proof.
  intros I. pose proof S as (Sw & Sr & Sg & Sb). unfold cut.
  pose proof (volume_case _ _ c chan_r Sr I) as Vr. destruct (volume c (w_moments_r w)) as [vr|]; [rewrite bind_Ok; subst vr|exact Vr].
  pose proof (volume_case _ _ c chan_g Sg I) as Vg. destruct (volume c (w_moments_g w)) as [vg|]; [rewrite bind_Ok; subst vg|exact Vg].
  pose proof (volume_case _ _ c chan_b Sb I) as Vb. destruct (volume c (w_moments_b w)) as [vb|]; [rewrite bind_Ok; subst vb|exact Vb].
  pose proof (volume_case _ _ c chan_one Sw I) as Vw. destruct (volume c (w_weights w)) as [vw|]; [rewrite bind_Ok; subst vw|exact Vw].
  pose proof (max_case c DRed I) as Mr. cbn [lo hi] in Mr.
  destruct (maximize w c DRed _ _ _ _ _ _) as [[kr xr]|]; [rewrite bind_Ok|exact Mr].
  pose proof (max_case c DGreen I) as Mg. cbn [lo hi] in Mg.
  destruct (maximize w c DGreen _ _ _ _ _ _) as [[kg xg]|]; [rewrite bind_Ok|exact Mg].
  pose proof (max_case c DBlue I) as Mb. cbn [lo hi] in Mb.
  destruct (maximize w c DBlue _ _ _ _ _ _) as [[kb xb]|]; [rewrite bind_Ok|exact Mb].
  cbv zeta. cbn [fst snd].
  destruct (fge xr xg && fge xr xb) eqn:E1.
  - destruct (Z.ltb_spec kr 0); [trivial|]. exists DRed, kr. split; [|easy]. destruct Mr as [(-> & _)|(M & _)]; [lia|exact M].
  - destruct (fge xg xr && fge xg xb) eqn:E2.
    + exists DGreen, kg. split; [|easy]. destruct Mg as [(-> & ->)|(M & _)]; [exfalso|exact M].
      apply andb_true_iff in E2. destruct E2 as (E2 & E3).
      assert (xr = dec "0.0") as ->. { destruct Mr as [(_ & ->)|(_ & M)]; [reflexivity|]. exfalso. unfold fge in E2. exact (flt_not_le _ _ M E2). }
      assert (xb = dec "0.0") as ->. { destruct Mb as [(_ & ->)|(_ & M)]; [reflexivity|]. exfalso. exact (flt_not_le _ _ M E3). }
      vm_compute in E1. discriminate E1.
    + exists DBlue, kb. split; [|easy]. destruct Mb as [(-> & ->)|(M & _)]; [exfalso|exact M].
      assert (G0 : forall x k d, found c d k x -> is_nan x = false /\ (val (dec "0.0") <= val x)%R).
      { intros x k d [(_ & ->)|(_ & M)]; [split; [reflexivity|lra]|]. split; [now apply flt_not_nan in M|]. apply flt_true in M. lra. }
      destruct (G0 _ _ _ Mr) as (Nr & Lr), (G0 _ _ _ Mg) as (Ng & Lg).
      assert (N0 : is_nan (dec "0.0") = false) by reflexivity.
      assert (A : fge xr (dec "0.0") = true) by (apply (fle_val _ _ N0 Nr); exact Lr).
      assert (B : fge xg (dec "0.0") = true) by (apply (fle_val _ _ N0 Ng); exact Lg).
      rewrite A, andb_true_r in E1. rewrite B, andb_true_r in E2.
      apply (fle_val_f _ _ Ng Nr) in E1. apply (fle_val_f _ _ Nr Ng) in E2. lra.
Qed.

Lemma variance_case c : in_cube c -> weighted one (inside c) ps <> 0 ->
  match variance w c with Ok _ => True | Panic => ~ fits end.
Proof.
  intros I NZ. pose proof S as (Sw & Sr & Sg & Sb). unfold variance.
  pose proof (volume_case _ _ c chan_r Sr I) as Vr. destruct (volume c (w_moments_r w)) as [vr|]; [rewrite bind_Ok; subst vr|exact Vr].
  pose proof (volume_case _ _ c chan_g Sg I) as Vg. destruct (volume c (w_moments_g w)) as [vg|]; [rewrite bind_Ok; subst vg|exact Vg].
  pose proof (volume_case _ _ c chan_b Sb I) as Vb. destruct (volume c (w_moments_b w)) as [vb|]; [rewrite bind_Ok; subst vb|exact Vb].
  cbv zeta. unfold in_cube in I. rewrite !get_ok by (apply idx_range; unfold co; lia). rewrite !bind_Ok.
  pose proof (squares_case _ _ _ (sel_small _ (inside c) chan_r) (sel_small _ (inside c) chan_g) (sel_small _ (inside c) chan_b)) as Q.
  destruct (sum_squares _ _ _) as [sq|]; [rewrite bind_Ok; clear Q|exact Q].
  pose proof (volume_case _ _ c chan_one Sw I) as Vw. destruct (volume c (w_weights w)) as [vw|]; [rewrite bind_Ok; subst vw|exact Vw].
  destruct (Z.eqb_spec (weighted one (inside c) ps) 0); [contradiction|trivial].
Qed.
Lemma box_variance_case c : in_cube c -> weighted one (inside c) ps <> 0 ->
  match box_variance w c with Ok _ => True | Panic => ~ fits end.
Proof. intros I NZ. unfold box_variance. destruct (1 <? b_vol c); [now apply variance_case|trivial]. Qed.
End Tables.
