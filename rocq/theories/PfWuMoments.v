(** * Wu's histogram and its prefix sums. Proof file. *)
From Coq Require Import ZArith Bool List Lia FMapPositive FMapFacts.
From Verif Require Import F64 ColorUtils Assoc QuantizerMap QuantizerWu PfHct PfScore.
Import ListNotations.
Open Scope Z_scope.

(** ** Arrays *)
Lemma idx_eq r g b : get_index r g b = 1089 * r + 33 * g + b.
Proof. unfold get_index. rewrite !Z.shiftl_mul_pow2 by lia. change (2 ^ (5 * 2)) with 1024. change (2 ^ (5 + 1)) with 64. change (2^5) with 32. lia. Qed.
Definition co (x : Z) : Prop := 0 <= x <= 32.
Lemma idx_range r g b : co r -> co g -> co b -> 0 <= get_index r g b < TOTAL_SIZE.
Proof. unfold co, TOTAL_SIZE. rewrite idx_eq. lia. Qed.
Lemma idx_inj r g b r' g' b' : co r -> co g -> co b -> co r' -> co g' -> co b' ->
  get_index r g b = get_index r' g' b' -> r = r' /\ g = g' /\ b = b'.
Proof. unfold co. rewrite !idx_eq. lia. Qed.
Lemma read_add {A} (z : A) m i j x : 0 <= i -> 0 <= j ->
  aread z (PositiveMap.add (akey i) x m) j = if i =? j then x else aread z m j.
Proof.
  intros I J. unfold aread, akey. destruct (Z.eqb_spec i j) as [->|D].
  - now rewrite PositiveMap.gss.
  - rewrite PositiveMap.gso; [reflexivity|]. intros E. apply D. apply (f_equal Zpos) in E.
    rewrite !Z2Pos.id in E by lia. lia.
Qed.
Lemma get_ok {A} (z : A) m i : 0 <= i < TOTAL_SIZE -> aget z m i = Ok (aread z m i).
Proof. intros H. unfold aget. destruct (Z.leb_spec 0 i), (Z.ltb_spec i TOTAL_SIZE); try lia. reflexivity. Qed.
Lemma set_ok {A} (m : arr A) i x : 0 <= i < TOTAL_SIZE -> aset m i x = Ok (PositiveMap.add (akey i) x m).
Proof. intros H. unfold aset. destruct (Z.leb_spec 0 i), (Z.ltb_spec i TOTAL_SIZE); try lia. reflexivity. Qed.
Lemma read_empty {A} (z : A) i : aread z (PositiveMap.empty A) i = z.
Proof. unfold aread. now rewrite PositiveMap.gempty. Qed.

(** ** Finite sums over 1..n *)
Definition zs (f : Z -> Z) (n : Z) : Z := fold_right Z.add 0 (map f (map Z.of_nat (seq 1 (Z.to_nat n)))).
Lemma zs_0 f n : n <= 0 -> zs f n = 0.
Proof. intros H. unfold zs. now replace (Z.to_nat n) with 0%nat by lia. Qed.
Lemma fold_add_app l l' : fold_right Z.add 0 (l ++ l') = fold_right Z.add 0 l + fold_right Z.add 0 l'.
Proof. induction l; cbn [app fold_right]; lia. Qed.
Lemma zs_step f n : 1 <= n -> zs f n = zs f (n - 1) + f n.
Proof.
  intros H. unfold zs. replace (Z.to_nat n) with (S (Z.to_nat (n - 1))) by lia. rewrite seq_S, !map_app, fold_add_app.
  cbn [map fold_right]. replace (Z.of_nat (1 + Z.to_nat (n - 1))) with n by lia. lia.
Qed.
Lemma zs_ind (P : Z -> Prop) : (forall n, n <= 0 -> P n) -> (forall n, 1 <= n -> P (n - 1) -> P n) -> forall n, P n.
Proof.
  intros P0 PS n. destruct (Z.le_gt_cases n 0) as [|H]; [now apply P0|].
  assert (G : forall k : nat, P (Z.of_nat k)).
  { induction k as [|k IH]; [apply P0; lia|]. apply PS; [lia|]. now replace (Z.of_nat (S k) - 1) with (Z.of_nat k) by lia. }
  rewrite <- (Z2Nat.id n) by lia. apply G.
Qed.
Lemma zs_ext f g n : (forall k, 1 <= k <= n -> f k = g k) -> zs f n = zs g n.
Proof.
  revert n. apply (zs_ind (fun n => (forall k, 1 <= k <= n -> f k = g k) -> zs f n = zs g n)).
  - intros n H _. now rewrite !zs_0.
  - intros n H IH E. rewrite (zs_step f n), (zs_step g n) by lia. f_equal; [apply IH; intros k Hk; apply E; lia|apply E; lia].
Qed.
Lemma zs_add f g n : zs (fun k => f k + g k) n = zs f n + zs g n.
Proof.
  revert n. apply zs_ind; intros n H; [now rewrite !zs_0|]. intros IH. rewrite (zs_step _ n) by lia. rewrite IH, (zs_step f n), (zs_step g n) by lia. lia.
Qed.
Lemma zs_zero n : zs (fun _ => 0) n = 0.
Proof. revert n. apply zs_ind; intros n H; [now rewrite !zs_0|]. intros IH. rewrite zs_step by lia. rewrite IH. lia. Qed.
Lemma zs_delta k c n : zs (fun x => if x =? k then c else 0) n = if (1 <=? k) && (k <=? n) then c else 0.
Proof.
  revert n. apply zs_ind; intros n H.
  - rewrite zs_0 by lia. destruct (Z.leb_spec 1 k), (Z.leb_spec k n); try reflexivity; lia.
  - intros IH. rewrite zs_step, IH by lia. 
    destruct (Z.leb_spec 1 k), (Z.leb_spec k n), (Z.leb_spec k (n - 1)), (Z.eqb_spec n k); cbn [andb]; lia.
Qed.
Lemma zs_mono f n m : (forall k, 0 <= f k) -> n <= m -> zs f n <= zs f m.
Proof.
  intros F. revert m. apply (zs_ind (fun m => n <= m -> zs f n <= zs f m)); intros m H.
  - intros L. rewrite !zs_0; lia.
  - intros IH L. destruct (Z.eq_dec n m) as [->|]; [lia|]. rewrite (zs_step f m) by lia. specialize (F m). lia.
Qed.
Lemma zs_nonneg f n : (forall k, 0 <= f k) -> 0 <= zs f n.
Proof. intros F. revert n. apply zs_ind; intros n H; [rewrite zs_0; lia|]. intros IH. rewrite zs_step by lia. specialize (F n). lia. Qed.

(** ** The prefix sums *)
Section Prefix.
Variable h : Z -> Z -> Z -> Z.
Definition pL r g b := zs (h r g) b.
Definition pA r g b := zs (fun g' => pL r g' b) g.
Definition pS r g b := zs (fun r' => pA r' g b) r.
Definition before (r g b r' g' b' : Z) : bool :=
  (r <? r') || (r =? r') && ((g <? g') || (g =? g') && (b <? b')).
(** The table when the cell (r0,g0,b0) is about to be processed. *)
Definition table (r0 g0 b0 : Z) (m : arr Z) : Prop := forall r g b, co r -> co g -> co b ->
  aread 0 m (get_index r g b) =
    if (r =? 0) || (g =? 0) || (b =? 0) then 0 else if before r g b r0 g0 b0 then pS r g b else h r g b.
Definition overflow : Prop := exists r g b, 1 <= r <= 32 /\ 1 <= g <= 32 /\ 1 <= b <= 32 /\
  (chk (pL r g b) = Panic \/ chk (pA r g b) = Panic \/ chk (pS r g b) = Panic).
Definition area_at (r g b : Z) (area : list Z) : Prop := List.length area = 33%nat /\
  forall k, 1 <= k <= 32 -> nth_error area (Z.to_nat k) = Some (if k <? b then pA r g k else pA r (g - 1) k).

Lemma chk_val x : chk x = Ok x \/ chk x = Panic.
Proof. unfold chk. destruct (in_i64 x); auto. Qed.

Lemma line_loop r g n : forall b line area m, 1 <= r <= 32 -> 1 <= g <= 32 -> 1 <= b -> b + Z.of_nat n = 33 ->
  line = pL r g (b - 1) -> area_at r g b area -> table r g b m ->
  match moment_b 0 zadd r g (map Z.of_nat (seq (Z.to_nat b) n)) line area m with
  | Ok (area', m') => area_at r (g + 1) 1 area' /\ table r (g + 1) 1 m'
  | Panic => overflow
  end.
Proof.
  induction n as [|n IH]; intros b line area m R G B N -> (AL & AV) T; cbn [seq map moment_b].
  - split.
    + split; [exact AL|]. intros k Hk. rewrite (AV k Hk). destruct (Z.ltb_spec k b); [|lia]. destruct (Z.ltb_spec k 1); [lia|].
      now replace (g + 1 - 1) with g by lia.
    + intros r' g' b' R' G' B'. rewrite (T r' g' b' R' G' B'). destruct ((r' =? 0) || (g' =? 0) || (b' =? 0)) eqn:Z0; [reflexivity|].
      rewrite !orb_false_iff, !Z.eqb_neq in Z0. unfold co in *.
      replace (before r' g' b' r (g + 1) 1) with (before r' g' b' r g b); [reflexivity|].
      unfold before. destruct (Z.ltb_spec r' r), (Z.eqb_spec r' r), (Z.ltb_spec g' g), (Z.eqb_spec g' g), (Z.ltb_spec b' b),
        (Z.ltb_spec g' (g + 1)), (Z.eqb_spec g' (g + 1)), (Z.ltb_spec b' 1); cbn [andb orb]; try reflexivity; lia.
  - rewrite Z2Nat.id by lia.
    assert (Cr : co r) by (unfold co; lia). assert (Cg : co g) by (unfold co; lia). assert (Cb : co b) by (unfold co; lia).
    assert (Cr' : co (r - 1)) by (unfold co; lia).
    rewrite (get_ok 0 m _ (idx_range r g b Cr Cg Cb)), bind_Ok.
    rewrite (T r g b Cr Cg Cb).
    replace ((r =? 0) || (g =? 0) || (b =? 0)) with false by (destruct (Z.eqb_spec r 0), (Z.eqb_spec g 0), (Z.eqb_spec b 0); try lia; reflexivity).
    replace (before r g b r g b) with false by (unfold before; rewrite !Z.ltb_irrefl, !andb_false_r; reflexivity).
    assert (EL : pL r g (b - 1) + h r g b = pL r g b) by (unfold pL; rewrite (zs_step (h r g) b) by lia; reflexivity).
    unfold zadd. rewrite EL. destruct (chk_val (pL r g b)) as [CH|CH]; rewrite CH; [rewrite bind_Ok; clear CH|exists r, g, b; repeat (split; [lia|]); tauto].
    destruct (index_ok area b) as (a & IA & IN); [lia|]. rewrite IA, bind_Ok.
    rewrite (AV b) in IN by lia. rewrite Z.ltb_irrefl in IN. injection IN as <-.
    assert (EA : pA r (g - 1) b + pL r g b = pA r g b) by (unfold pA; rewrite (zs_step (fun g' => pL r g' b) g) by lia; reflexivity).
    rewrite EA. destruct (chk_val (pA r g b)) as [CH|CH]; rewrite CH; [rewrite bind_Ok; clear CH|exists r, g, b; repeat (split; [lia|]); tauto].
    rewrite (get_ok 0 m _ (idx_range (r - 1) g b Cr' Cg Cb)), bind_Ok, (T (r - 1) g b Cr' Cg Cb).
    replace (if (r - 1 =? 0) || (g =? 0) || (b =? 0) then 0 else if before (r - 1) g b r g b then pS (r - 1) g b else h (r - 1) g b)
      with (pS (r - 1) g b).
    2:{ destruct (Z.eqb_spec (r - 1) 0) as [E|E]; [cbn [orb]; rewrite E; unfold pS; now rewrite zs_0 by lia|].
        destruct (Z.eqb_spec g 0), (Z.eqb_spec b 0); try lia. unfold before. destruct (Z.ltb_spec (r - 1) r); [reflexivity|lia]. }
    assert (ES : pS (r - 1) g b + pA r g b = pS r g b) by (unfold pS; rewrite (zs_step (fun r' => pA r' g b) r) by lia; reflexivity).
    rewrite ES. destruct (chk_val (pS r g b)) as [CH|CH]; rewrite CH; [rewrite bind_Ok; clear CH|exists r, g, b; repeat (split; [lia|]); tauto].
    rewrite (set_ok m _ _ (idx_range r g b Cr Cg Cb)), bind_Ok.
    replace (S (Z.to_nat b)) with (Z.to_nat (b + 1)) by lia.
    apply IH; try lia.
    + now replace (b + 1 - 1) with b by lia.
    + split; [now rewrite list_set_length|]. intros k Hk. rewrite list_set_nth by lia.
      destruct (Nat.eqb_spec (Z.to_nat b) (Z.to_nat k)) as [E|E].
      * assert (k = b) by lia. subst k. destruct (Z.ltb_spec b (b + 1)); [reflexivity|lia].
      * rewrite (AV k Hk). destruct (Z.ltb_spec k b), (Z.ltb_spec k (b + 1)); try reflexivity; lia.
    + intros r' g' b' R' G' B'. pose proof (idx_range r g b Cr Cg Cb) as X. pose proof (idx_range r' g' b' R' G' B') as X'.
      rewrite read_add by lia. destruct (Z.eqb_spec (get_index r g b) (get_index r' g' b')) as [E|E].
      * apply idx_inj in E; auto. destruct E as (<- & <- & <-).
        replace ((r =? 0) || (g =? 0) || (b =? 0)) with false by (destruct (Z.eqb_spec r 0), (Z.eqb_spec g 0), (Z.eqb_spec b 0); try lia; reflexivity).
        unfold before. rewrite !Z.eqb_refl. destruct (Z.ltb_spec b (b + 1)); [|lia]. now rewrite !orb_true_r.
      * rewrite (T r' g' b' R' G' B'). destruct ((r' =? 0) || (g' =? 0) || (b' =? 0)); [reflexivity|].
        replace (before r' g' b' r g (b + 1)) with (before r' g' b' r g b); [reflexivity|].
        unfold before. destruct (Z.eqb_spec r' r) as [->|], (Z.eqb_spec g' g) as [->|], (Z.ltb_spec b' b), (Z.ltb_spec b' (b + 1)); cbn [andb orb];
          rewrite ?andb_false_r; try reflexivity; try lia. assert (b' = b) by lia. congruence.
Qed.

Lemma range_cons g n : 0 <= g -> map Z.of_nat (seq (Z.to_nat g) (S n)) = g :: map Z.of_nat (seq (Z.to_nat (g + 1)) n).
Proof. intros H. cbn [seq map]. rewrite Z2Nat.id by lia. now replace (S (Z.to_nat g)) with (Z.to_nat (g + 1)) by lia. Qed.
Lemma moment_g_cons r g gs area (m : arr Z) : moment_g 0 zadd r (g :: gs) area m =
  bind (moment_b 0 zadd r g (map Z.of_nat (seq (Z.to_nat 1) 32)) 0 area m) (fun am => let '(area, m) := am in moment_g 0 zadd r gs area m).
Proof. reflexivity. Qed.
Lemma moment_r_cons r rs (m : arr Z) : moment_r 0 zadd (r :: rs) m =
  bind (moment_g 0 zadd r (map Z.of_nat (seq (Z.to_nat 1) 32)) (repeat 0 SIDE_LENGTH) m) (fun am => moment_r 0 zadd rs (snd am)).
Proof. reflexivity. Qed.

Lemma area_loop r n : forall g area m, 1 <= r <= 32 -> 1 <= g -> g + Z.of_nat n = 33 ->
  area_at r g 1 area -> table r g 1 m ->
  match moment_g 0 zadd r (map Z.of_nat (seq (Z.to_nat g) n)) area m with
  | Ok (_, m') => table (r + 1) 1 1 m'
  | Panic => overflow
  end.
Proof.
  induction n as [|n IH]; intros g area m R G N A T.
  - cbn [seq map moment_g]. intros r' g' b' R' G' B'. rewrite (T r' g' b' R' G' B'). destruct ((r' =? 0) || (g' =? 0) || (b' =? 0)) eqn:Z0; [reflexivity|].
    rewrite !orb_false_iff, !Z.eqb_neq in Z0. unfold co in *.
    replace (before r' g' b' (r + 1) 1 1) with (before r' g' b' r g 1); [reflexivity|].
    unfold before. destruct (Z.ltb_spec r' r), (Z.eqb_spec r' r), (Z.ltb_spec g' g), (Z.ltb_spec r' (r + 1)), (Z.eqb_spec r' (r + 1)), (Z.eqb_spec g' g), (Z.ltb_spec b' 1),
        (Z.ltb_spec g' 1), (Z.eqb_spec g' 1); cbn [andb orb]; try reflexivity; lia.
  - rewrite range_cons, moment_g_cons by lia.
    pose proof (line_loop r g 32 1 0 area m R ltac:(lia) ltac:(lia) ltac:(lia)) as LL.
    assert (E : 0 = pL r g (1 - 1)) by (unfold pL; now rewrite zs_0 by lia). specialize (LL E A T).
    destruct (moment_b 0 zadd r g (map Z.of_nat (seq (Z.to_nat 1) 32)) 0 area m) as [[area' m']|]; [|exact LL].
    destruct LL as (A' & T'). rewrite bind_Ok.
    apply IH; auto; lia.
Qed.

Lemma volume_loop n : forall r m, 1 <= r -> r + Z.of_nat n = 33 -> table r 1 1 m ->
  match moment_r 0 zadd (map Z.of_nat (seq (Z.to_nat r) n)) m with
  | Ok m' => table 33 1 1 m'
  | Panic => overflow
  end.
Proof.
  induction n as [|n IH]; intros r m R N T.
  - cbn [seq map moment_r]. now replace 33 with r by lia.
  - rewrite range_cons, moment_r_cons by lia.
    pose proof (area_loop r 32 1 (repeat 0 SIDE_LENGTH) m ltac:(lia) ltac:(lia) ltac:(lia)) as AL.
    assert (A : area_at r 1 1 (repeat 0 SIDE_LENGTH)).
    { split; [reflexivity|]. intros k Hk. destruct (Z.ltb_spec k 1); [lia|].
      replace (pA r (1 - 1) k) with 0 by (unfold pA; now rewrite zs_0 by lia).
      rewrite (nth_error_nth' _ 0) by (rewrite repeat_length; unfold SIDE_LENGTH; lia). now rewrite nth_repeat. }
    specialize (AL A T). destruct (moment_g _ _ _ _ _ _) as [[area' m']|]; [|exact AL].
    rewrite bind_Ok. cbn [snd]. apply IH; auto; lia.
Qed.

Lemma prefix_spec m : (forall r g b, co r -> co g -> co b -> aread 0 m (get_index r g b) =
    if (r =? 0) || (g =? 0) || (b =? 0) then 0 else h r g b) ->
  match prefix_moments 0 zadd m with
  | Ok m' => forall r g b, co r -> co g -> co b -> aread 0 m' (get_index r g b) = pS r g b
  | Panic => overflow
  end.
Proof.
  intros H. unfold prefix_moments. change (map Z.of_nat (seq 1 32)) with (map Z.of_nat (seq (Z.to_nat 1) 32)).
  pose proof (volume_loop 32 1 m ltac:(lia) ltac:(lia)) as V.
  assert (T : table 1 1 1 m).
  { intros r g b R G B. rewrite (H r g b R G B). destruct ((r =? 0) || (g =? 0) || (b =? 0)) eqn:Z0; [reflexivity|].
    rewrite !orb_false_iff, !Z.eqb_neq in Z0. unfold co in *. unfold before.
    destruct (Z.ltb_spec r 1), (Z.ltb_spec g 1), (Z.ltb_spec b 1); try lia. cbn [orb]. now rewrite ?andb_false_r. }
  specialize (V T). destruct (moment_r _ _ _ _) as [m'|]; [|exact V].
  intros r g b R G B. rewrite (V r g b R G B). unfold co in *.
  destruct (Z.eqb_spec r 0) as [->|]; [unfold pS; now rewrite zs_0 by lia|].
  destruct (Z.eqb_spec g 0) as [->|].
  { cbn [orb]. unfold pS. symmetry. rewrite (zs_ext _ (fun _ => 0)); [apply zs_zero|]. intros k _. unfold pA. now rewrite zs_0 by lia. }
  destruct (Z.eqb_spec b 0) as [->|].
  { cbn [orb]. unfold pS. symmetry. rewrite (zs_ext _ (fun _ => 0)); [apply zs_zero|]. intros k _. unfold pA.
    rewrite (zs_ext _ (fun _ => 0)); [apply zs_zero|]. intros j _. unfold pL. now rewrite zs_0 by lia. }
  cbn [orb]. unfold before. destruct (Z.ltb_spec r 33); [reflexivity|lia].
Qed.
End Prefix.
