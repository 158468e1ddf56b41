(** * Wu's choices: float sums of squares, best cuts.  Proof file. *)
From Coq Require Import ZArith Bool List Lia Lra Reals FMapPositive String Psatz.
From Flocq Require Import Core IEEE754.BinarySingleNaN.
From Verif Require Import F64 ColorUtils Assoc QuantizerMap QuantizerWu SpecWu SpecWuBest FloatFacts FloatMono PfHct PfScore PfRel PfWuMoments PfWuSums PfWuBoxes.
Import ListNotations.
Open Scope string_scope.
Open Scope list_scope.
Open Scope Z_scope.
Notation B2R := (@BinarySingleNaN.B2R 53 1024).

(** ** A float that holds an integer *)
Definition isz (x : f64) (z : Z) : Prop := fin x /\ B2R x = IZR z.
Definition LIM : Z := 9007199254740992.
Lemma isz_of z : Z.abs z <= LIM -> isz (of_Z z) z.
Proof. intros H. destruct (of_Z_R z H). now split. Qed.
Lemma isz_0 : isz (dec "0.0") 0.
Proof. fconst (dec "0.0"). split; [exact F|lra]. Qed.
Lemma lim_huge a : Z.abs a <= LIM -> (- HUGE <= IZR a <= HUGE)%R.
Proof.
  intros H. unfold LIM in H. assert (- 9007199254740992 <= a <= 9007199254740992) as (A & B) by lia.
  apply IZR_le in A, B. unfold HUGE. lra.
Qed.
Lemma isz_add x y a b : isz x a -> isz y b -> Z.abs (a + b) <= LIM -> isz (fadd x y) (a + b).
Proof.
  intros [fx vx] [fy vy] H. pose proof (lim_huge _ H) as G. rewrite plus_IZR in G.
  destruct (fadd_S x y fx fy) as [V F]; [rewrite vx, vy; exact G|]. split; [exact F|].
  rewrite V, vx, vy, <- plus_IZR. apply rnd_IZR. exact H.
Qed.
Lemma isz_sub x y a b : isz x a -> isz y b -> Z.abs (a - b) <= LIM -> isz (fsub x y) (a - b).
Proof.
  intros [fx vx] [fy vy] H. pose proof (lim_huge _ H) as G. rewrite minus_IZR in G.
  destruct (fsub_S x y fx fy) as [V F]; [rewrite vx, vy; exact G|]. split; [exact F|].
  rewrite V, vx, vy, <- minus_IZR. apply rnd_IZR. exact H.
Qed.

(** ** Float prefix sums are exact *)
Section Prefix.
Variable h : Z -> Z -> Z -> Z.
Hypothesis H0 : forall r g b, 0 <= h r g b.
Hypothesis HL : forall r g b, 0 <= r <= 32 -> 0 <= g <= 32 -> 0 <= b <= 32 -> 0 <= pS h r g b <= LIM.
Definition ftable (r0 g0 b0 : Z) (m : arr f64) : Prop := forall r g b, co r -> co g -> co b ->
  isz (aread (dec "0.0") m (get_index r g b))
    (if (r =? 0) || (g =? 0) || (b =? 0) then 0 else if before r g b r0 g0 b0 then pS h r g b else h r g b).
Definition farea_at (r g b : Z) (area : list f64) : Prop := List.length area = 33%nat /\
  forall k, 1 <= k <= 32 -> exists x, nth_error area (Z.to_nat k) = Some x /\ isz x (if k <? b then pA h r g k else pA h r (g - 1) k).
Lemma pL_nonneg r g b : 0 <= pL h r g b. Proof. apply zs_nonneg. intros; apply H0. Qed.
Lemma pA_nonneg r g b : 0 <= pA h r g b. Proof. apply zs_nonneg. intros; apply pL_nonneg. Qed.
Lemma pS_nonneg r g b : 0 <= pS h r g b. Proof. apply zs_nonneg. intros; apply pA_nonneg. Qed.
Lemma lims r g b : 1 <= r <= 32 -> 1 <= g <= 32 -> 1 <= b <= 32 ->
  Z.abs (pL h r g b) <= LIM /\ Z.abs (pA h r g b) <= LIM /\ Z.abs (pS h r g b) <= LIM.
Proof.
  intros R G B. pose proof (HL r g b ltac:(lia) ltac:(lia) ltac:(lia)) as S.
  assert (ES : pS h r g b = pS h (r - 1) g b + pA h r g b) by (unfold pS; rewrite (zs_step (fun r' => pA h r' g b) r) by lia; reflexivity).
  assert (EA : pA h r g b = pA h r (g - 1) b + pL h r g b) by (unfold pA; rewrite (zs_step (fun g' => pL h r g' b) g) by lia; reflexivity).
  pose proof (pL_nonneg r g b). pose proof (pA_nonneg r g b). pose proof (pA_nonneg r (g - 1) b). pose proof (pS_nonneg (r - 1) g b). lia.
Qed.

Lemma fline_loop r g n : forall b line area m, 1 <= r <= 32 -> 1 <= g <= 32 -> 1 <= b -> b + Z.of_nat n = 33 ->
  isz line (pL h r g (b - 1)) -> farea_at r g b area -> ftable r g b m ->
  exists area' m', moment_b (dec "0.0") fadd_res r g (map Z.of_nat (seq (Z.to_nat b) n)) line area m = Ok (area', m') /\
    farea_at r (g + 1) 1 area' /\ ftable r (g + 1) 1 m'.
Proof.
  induction n as [|n IH]; intros b line area m R G B N LN (AL & AV) T; cbn [seq map moment_b].
  - exists area, m. split; [reflexivity|]. split.
    + split; [exact AL|]. intros k Hk. destruct (AV k Hk) as (x & X1 & X2). exists x. split; [exact X1|]. destruct (Z.ltb_spec k b); [|lia]. destruct (Z.ltb_spec k 1); [lia|].
      now replace (g + 1 - 1) with g by lia.
    + intros r' g' b' R' G' B'. specialize (T r' g' b' R' G' B'). destruct ((r' =? 0) || (g' =? 0) || (b' =? 0)) eqn:Z0; [exact T|].
      rewrite !orb_false_iff, !Z.eqb_neq in Z0. unfold co in *.
      replace (before r' g' b' r (g + 1) 1) with (before r' g' b' r g b); [exact T|].
      unfold before. destruct (Z.ltb_spec r' r), (Z.eqb_spec r' r), (Z.ltb_spec g' g), (Z.eqb_spec g' g), (Z.ltb_spec b' b),
        (Z.ltb_spec g' (g + 1)), (Z.eqb_spec g' (g + 1)), (Z.ltb_spec b' 1); cbn [andb orb]; try reflexivity; lia.
  - rewrite Z2Nat.id by lia.
    assert (Cr : co r) by (unfold co; lia). assert (Cg : co g) by (unfold co; lia). assert (Cb : co b) by (unfold co; lia).
    assert (Cr' : co (r - 1)) by (unfold co; lia).
    destruct (lims r g b R G ltac:(lia)) as (L1 & L2 & L3).
    rewrite (get_ok (dec "0.0") m _ (idx_range r g b Cr Cg Cb)), bind_Ok.
    pose proof (T r g b Cr Cg Cb) as X.
    replace ((r =? 0) || (g =? 0) || (b =? 0)) with false in X by (destruct (Z.eqb_spec r 0), (Z.eqb_spec g 0), (Z.eqb_spec b 0); try lia; reflexivity).
    replace (before r g b r g b) with false in X by (unfold before; rewrite !Z.ltb_irrefl, !andb_false_r; reflexivity).
    assert (EL : pL h r g (b - 1) + h r g b = pL h r g b) by (unfold pL; rewrite (zs_step (h r g) b) by lia; reflexivity).
    unfold fadd_res at 1. rewrite bind_Ok.
    pose proof (isz_add _ _ _ _ LN X ltac:(rewrite EL; exact L1)) as L'. rewrite EL in L'.
    set (line' := fadd line _) in *.
    destruct (index_ok area b) as (a & IA & IN); [lia|]. rewrite IA, bind_Ok.
    destruct (AV b) as (a' & A1 & A2); [lia|]. rewrite A1 in IN. injection IN as ->. rewrite Z.ltb_irrefl in A2.
    assert (EA : pA h r (g - 1) b + pL h r g b = pA h r g b) by (unfold pA; rewrite (zs_step (fun g' => pL h r g' b) g) by lia; reflexivity).
    unfold fadd_res at 1. rewrite bind_Ok.
    pose proof (isz_add _ _ _ _ A2 L' ltac:(rewrite EA; exact L2)) as A'. rewrite EA in A'. set (a1 := fadd a line') in *.
    rewrite (get_ok (dec "0.0") m _ (idx_range (r - 1) g b Cr' Cg Cb)), bind_Ok.
    pose proof (T (r - 1) g b Cr' Cg Cb) as P.
    replace (if (r - 1 =? 0) || (g =? 0) || (b =? 0) then 0 else if before (r - 1) g b r g b then pS h (r - 1) g b else h (r - 1) g b)
      with (pS h (r - 1) g b) in P.
    2:{ destruct (Z.eqb_spec (r - 1) 0) as [E|E]; [cbn [orb]; rewrite E; unfold pS; now rewrite zs_0 by lia|].
        destruct (Z.eqb_spec g 0), (Z.eqb_spec b 0); try lia. unfold before. destruct (Z.ltb_spec (r - 1) r); [reflexivity|lia]. }
    assert (ES : pS h (r - 1) g b + pA h r g b = pS h r g b) by (unfold pS; rewrite (zs_step (fun r' => pA h r' g b) r) by lia; reflexivity).
    unfold fadd_res at 1. rewrite bind_Ok.
    pose proof (isz_add _ _ _ _ P A' ltac:(rewrite ES; exact L3)) as S'. rewrite ES in S'. set (v := fadd _ a1) in *.
    rewrite (set_ok m _ _ (idx_range r g b Cr Cg Cb)), bind_Ok.
    replace (S (Z.to_nat b)) with (Z.to_nat (b + 1)) by lia.
    apply IH; try lia.
    + now replace (b + 1 - 1) with b by lia.
    + split; [now rewrite list_set_length|]. intros k Hk. rewrite list_set_nth by lia.
      destruct (Nat.eqb_spec (Z.to_nat b) (Z.to_nat k)) as [E|E].
      * assert (k = b) by lia. subst k. exists a1. split; [reflexivity|]. destruct (Z.ltb_spec b (b + 1)); [exact A'|lia].
      * destruct (AV k Hk) as (x & X1 & X2). exists x. split; [exact X1|]. destruct (Z.ltb_spec k b), (Z.ltb_spec k (b + 1)); try exact X2; lia.
    + intros r' g' b' R' G' B'. pose proof (idx_range r g b Cr Cg Cb) as Y. pose proof (idx_range r' g' b' R' G' B') as Y'.
      rewrite read_add by lia. destruct (Z.eqb_spec (get_index r g b) (get_index r' g' b')) as [E|E].
      * apply idx_inj in E; auto. destruct E as (<- & <- & <-).
        replace ((r =? 0) || (g =? 0) || (b =? 0)) with false by (destruct (Z.eqb_spec r 0), (Z.eqb_spec g 0), (Z.eqb_spec b 0); try lia; reflexivity).
        unfold before. rewrite !Z.eqb_refl. destruct (Z.ltb_spec b (b + 1)); [|lia]. rewrite !orb_true_r. exact S'.
      * specialize (T r' g' b' R' G' B'). destruct ((r' =? 0) || (g' =? 0) || (b' =? 0)); [exact T|].
        replace (before r' g' b' r g (b + 1)) with (before r' g' b' r g b); [exact T|].
        unfold before. destruct (Z.eqb_spec r' r) as [->|], (Z.eqb_spec g' g) as [->|], (Z.ltb_spec b' b), (Z.ltb_spec b' (b + 1)); cbn [andb orb];
          rewrite ?andb_false_r; try reflexivity; try lia. assert (b' = b) by lia. congruence.
Qed.
Lemma fmoment_g_cons r g gs area (m : arr f64) : moment_g (dec "0.0") fadd_res r (g :: gs) area m =
  bind (moment_b (dec "0.0") fadd_res r g (map Z.of_nat (seq (Z.to_nat 1) 32)) (dec "0.0") area m) (fun am => let '(area, m) := am in moment_g (dec "0.0") fadd_res r gs area m).
Proof. reflexivity. Qed.
Lemma fmoment_r_cons r rs (m : arr f64) : moment_r (dec "0.0") fadd_res (r :: rs) m =
  bind (moment_g (dec "0.0") fadd_res r (map Z.of_nat (seq (Z.to_nat 1) 32)) (repeat (dec "0.0") SIDE_LENGTH) m) (fun am => moment_r (dec "0.0") fadd_res rs (snd am)).
Proof. reflexivity. Qed.
Lemma farea_loop r n : forall g area m, 1 <= r <= 32 -> 1 <= g -> g + Z.of_nat n = 33 ->
  farea_at r g 1 area -> ftable r g 1 m ->
  exists area' m', moment_g (dec "0.0") fadd_res r (map Z.of_nat (seq (Z.to_nat g) n)) area m = Ok (area', m') /\ ftable (r + 1) 1 1 m'.
Proof.
  induction n as [|n IH]; intros g area m R G N A T.
  - cbn [seq map moment_g]. exists area, m. split; [reflexivity|]. intros r' g' b' R' G' B'. specialize (T r' g' b' R' G' B'). destruct ((r' =? 0) || (g' =? 0) || (b' =? 0)) eqn:Z0; [exact T|].
    rewrite !orb_false_iff, !Z.eqb_neq in Z0. unfold co in *.
    replace (before r' g' b' (r + 1) 1 1) with (before r' g' b' r g 1); [exact T|].
    unfold before. destruct (Z.ltb_spec r' r), (Z.eqb_spec r' r), (Z.ltb_spec g' g), (Z.ltb_spec r' (r + 1)), (Z.eqb_spec r' (r + 1)), (Z.eqb_spec g' g), (Z.ltb_spec b' 1),
        (Z.ltb_spec g' 1), (Z.eqb_spec g' 1); cbn [andb orb]; try reflexivity; lia.
  - rewrite range_cons, fmoment_g_cons by lia.
    destruct (fline_loop r g 32 1 (dec "0.0") area m R ltac:(lia) ltac:(lia) ltac:(lia)) as (area' & m' & E & A' & T'); [|exact A|exact T|].
    { replace (pL h r g (1 - 1)) with 0 by (unfold pL; now rewrite zs_0 by lia). exact isz_0. }
    rewrite E, bind_Ok. apply IH; auto; lia.
Qed.
Lemma fvolume_loop n : forall r m, 1 <= r -> r + Z.of_nat n = 33 -> ftable r 1 1 m ->
  exists m', moment_r (dec "0.0") fadd_res (map Z.of_nat (seq (Z.to_nat r) n)) m = Ok m' /\ ftable 33 1 1 m'.
Proof.
  induction n as [|n IH]; intros r m R N T.
  - cbn [seq map moment_r]. exists m. split; [reflexivity|]. now replace 33 with r by lia.
  - rewrite range_cons, fmoment_r_cons by lia.
    destruct (farea_loop r 32 1 (repeat (dec "0.0") SIDE_LENGTH) m ltac:(lia) ltac:(lia) ltac:(lia)) as (area' & m' & E & T'); [|exact T|].
    { split; [reflexivity|]. intros k Hk. exists (dec "0.0"). split.
      - rewrite (nth_error_nth' _ (dec "0.0")) by (rewrite repeat_length; unfold SIDE_LENGTH; lia). now rewrite nth_repeat.
      - destruct (Z.ltb_spec k 1); [lia|]. replace (pA h r (1 - 1) k) with 0 by (unfold pA; now rewrite zs_0 by lia). exact isz_0. }
    rewrite E, bind_Ok. cbn [snd]. apply IH; auto; lia.
Qed.
Lemma fprefix_spec m : (forall r g b, co r -> co g -> co b -> isz (aread (dec "0.0") m (get_index r g b))
    (if (r =? 0) || (g =? 0) || (b =? 0) then 0 else h r g b)) ->
  exists m', prefix_moments (dec "0.0") fadd_res m = Ok m' /\
    forall r g b, co r -> co g -> co b -> isz (aread (dec "0.0") m' (get_index r g b)) (pS h r g b).
Proof.
  intros H. unfold prefix_moments. change (map Z.of_nat (seq 1 32)) with (map Z.of_nat (seq (Z.to_nat 1) 32)).
  destruct (fvolume_loop 32 1 m ltac:(lia) ltac:(lia)) as (m' & E & V).
  { intros r g b R G B. specialize (H r g b R G B). destruct ((r =? 0) || (g =? 0) || (b =? 0)) eqn:Z0; [exact H|].
    rewrite !orb_false_iff, !Z.eqb_neq in Z0. unfold co in *. unfold before.
    destruct (Z.ltb_spec r 1), (Z.ltb_spec g 1), (Z.ltb_spec b 1); try lia. cbn [orb]. now rewrite ?andb_false_r. }
  exists m'. split; [exact E|].
  intros r g b R G B. specialize (V r g b R G B). unfold co in *.
  destruct (Z.eqb_spec r 0) as [Er|]; [subst r; unfold pS; now rewrite zs_0 by lia|].
  destruct (Z.eqb_spec g 0) as [Eg|].
  { try subst g; try subst b; cbn [orb] in V. unfold pS. rewrite (zs_ext _ (fun _ => 0)); [rewrite zs_zero; exact V|]. intros k _. unfold pA. now rewrite zs_0 by lia. }
  destruct (Z.eqb_spec b 0) as [Eb|].
  { try subst g; try subst b; cbn [orb] in V. unfold pS. rewrite (zs_ext _ (fun _ => 0)); [rewrite zs_zero; exact V|]. intros k _. unfold pA.
    rewrite (zs_ext _ (fun _ => 0)); [apply zs_zero|]. intros j _. unfold pL. now rewrite zs_0 by lia. }
  cbn [orb] in V. unfold before in V. destruct (Z.ltb_spec r 33); [exact V|lia].
Qed.
End Prefix.

(** ** The float table of Wu *)
Lemma squares_range p : 0 <= squares p <= 195075.
Proof. unfold squares. pose proof (red_byte p). pose proof (green_byte p). pose proof (blue_byte p). unfold byte in *. nia. Qed.
Definition P (ps : list (Z * Z)) : Z := weighted squares everywhere ps.
Lemma weighted_mono f sel sel' ps : (forall p, 0 <= f p) -> nonneg ps -> (forall p, sel p = true -> sel' p = true) -> weighted f sel ps <= weighted f sel' ps.
Proof.
  intros F N I. induction N as [|e ps H N IH]; [cbn; lia|]. rewrite !weighted_cons.
  specialize (F (fst e)). specialize (I (fst e)). destruct (sel (fst e)); [rewrite I by reflexivity; lia|]. destruct (sel' (fst e)); nia.
Qed.
Lemma P_sel sel ps : nonneg ps -> 0 <= weighted squares sel ps <= P ps.
Proof.
  intros N. split; [apply weighted_nonneg; [intros p; apply squares_range|exact N]|].
  apply weighted_mono; [intros p; apply squares_range|exact N|reflexivity].
Qed.
Lemma P_fits ps : fits ps -> 0 <= P ps <= 1000000000000000.
Proof.
  intros F. pose proof (bound ps F) as (B0 & _). destruct F as (NN & F). fold (N ps) in *. split; [apply (P_sel everywhere ps NN)|].
  apply Z.le_trans with (195075 * N ps); [apply weighted_le; [exact squares_range|exact NN]|].
  unfold i64_max in F. change (2 ^ 63 - 1) with 9223372036854775807 in F.
  destruct (Z.le_gt_cases (255 * N ps) 1800000000); [lia|]. nia.
Qed.
Definition fhist ps (m : arr f64) : Prop := forall r g b, co r -> co g -> co b -> isz (aread (dec "0.0") m (get_index r g b)) (cells squares ps r g b).
Lemma nonneg_app a b : nonneg (a ++ b) -> nonneg a /\ nonneg b.
Proof. intros H. unfold nonneg in *. rewrite !Forall_forall in *. split; intros x I; apply H, in_or_app; auto. Qed.
Lemma P_app a b : P (a ++ b) = P a + P b.
Proof. unfold P, weighted. rewrite map_app, fold_add_app. reflexivity. Qed.
Lemma fhist_step ps p c w w' : nonneg (ps ++ [(p, c)]) -> P (ps ++ [(p, c)]) <= LIM -> fhist ps (w_moments w) -> histogram_step w p c = Ok w' ->
  fhist (ps ++ [(p, c)]) (w_moments w').
Proof.
  intros NN PL H E. unfold histogram_step in E. cbv zeta in E. destruct (pixel_index p) as (I & R & G & B). rewrite I in E.
  set (r := red_from_argb p / 8 + 1) in *. set (g := green_from_argb p / 8 + 1) in *. set (b := blue_from_argb p / 8 + 1) in *.
  inv_bind E a1 E1. inv_bind E a2 E2. inv_bind E a3 E3. inv_bind E a4 E4. inv_bind E a5 E5. inv_bind E a6 E6. inv_bind E a7 E7. inv_bind E sq ES.
  inv_bind E m EM. apply ok_inj in E. subst w'. cbn [w_moments]. clear E1 E2 E3 E4 E5 E6 E7.
  unfold zmul in ES. destruct (chk_val (c * (red_from_argb p * red_from_argb p + green_from_argb p * green_from_argb p + blue_from_argb p * blue_from_argb p))) as [CH|CH]; rewrite CH in ES; [|discriminate ES].
  apply ok_inj in ES. assert (SQ : sq = squares p * c) by (rewrite <- ES; unfold squares; ring). clear ES CH.
  unfold abump in EM. rewrite (get_ok _ _ _ (idx_range r g b R G B)), bind_Ok in EM. unfold fadd_res in EM. rewrite bind_Ok in EM.
  rewrite (set_ok _ _ _ (idx_range r g b R G B)) in EM. apply ok_inj in EM. subst m.
  assert (EC : cells squares ps r g b + sq = cells squares (ps ++ [(p, c)]) r g b).
  { unfold cells. rewrite weighted_snoc. cbn [fst snd]. unfold at_cell at 3. fold r g b. now rewrite !Z.eqb_refl, SQ. }
  destruct (nonneg_app _ _ NN) as (N1 & N2). inversion N2 as [|? ? N3 _]; subst. cbn [snd] in N3.
  assert (PC : forall l x y z, nonneg l -> 0 <= cells squares l x y z <= P l) by (intros; now apply P_sel).
  rewrite P_app in PL. assert (P1 : P [(p, c)] = squares p * c) by (unfold P, weighted; cbn [map fold_right fst snd everywhere]; lia).
  pose proof (squares_range p). pose proof (PC ps r g b N1). assert (0 <= squares p * c) by nia.
  pose proof (isz_add _ _ _ _ (H r g b R G B) (isz_of (squares p * c) ltac:(lia)) ltac:(lia)) as AD. rewrite EC in AD.
  intros r' g' b' R' G' B'. pose proof (idx_range r g b R G B). pose proof (idx_range r' g' b' R' G' B').
  rewrite read_add by lia. destruct (Z.eqb_spec (get_index r g b) (get_index r' g' b')) as [J|J].
  - apply idx_inj in J; auto. destruct J as (<- & <- & <-). exact AD.
  - replace (cells squares (ps ++ [(p, c)]) r' g' b') with (cells squares ps r' g' b'); [exact (H r' g' b' R' G' B')|].
    unfold cells. rewrite weighted_snoc. cbn [fst snd]. unfold at_cell at 3. fold r g b.
    destruct (Z.eqb_spec r' r) as [->|], (Z.eqb_spec g' g) as [->|], (Z.eqb_spec b' b) as [->|]; cbn [andb]; try lia.
Qed.
Lemma fhist_loop ps : forall done w w', nonneg (done ++ ps) -> P (done ++ ps) <= LIM -> fhist done (w_moments w) -> histogram_loop w ps = Ok w' ->
  fhist (done ++ ps) (w_moments w').
Proof.
  induction ps as [|(p, c) ps IH]; intros done w w' NN PL H E; cbn [histogram_loop] in E.
  - apply ok_inj in E. subst. now rewrite app_nil_r.
  - inv_bind E w1 E1. replace (done ++ (p, c) :: ps) with ((done ++ [(p, c)]) ++ ps) in * by (now rewrite <- app_assoc).
    apply (IH _ w1); auto. destruct (nonneg_app _ _ NN) as (N1 & N2).
    apply (fhist_step done p c w w1 N1); auto. rewrite P_app in PL. pose proof (P_sel everywhere ps N2). unfold P in *. lia.
Qed.
Definition fsums ps (m : arr f64) : Prop := forall r g b, co r -> co g -> co b -> isz (aread (dec "0.0") m (get_index r g b)) (weighted squares (dominated r g b) ps).
Lemma ftables ps w0 w : nonneg ps -> P ps <= LIM -> construct_histogram ps = Ok w0 -> compute_moments w0 = Ok w -> fsums ps (w_moments w).
Proof.
  intros NN PL H M.
  assert (FH : fhist ps (w_moments w0)).
  { apply (fhist_loop ps [] wu_zero w0 NN PL); [|exact H]. intros r g b _ _ _. cbn [w_moments wu_zero]. rewrite read_empty. exact isz_0. }
  unfold compute_moments in M. inv_bind M a1 E1. inv_bind M a2 E2. inv_bind M a3 E3. inv_bind M a4 E4. inv_bind M m E5. apply ok_inj in M. subst w.
  cbn [w_moments]. clear E1 E2 E3 E4.
  destruct (fprefix_spec (cells squares ps)) with (m := w_moments w0) as (m' & E & V).
  - intros r g b. apply (P_sel (at_cell r g b) ps NN).
  - intros r g b _ _ _. rewrite prefix_weighted. pose proof (P_sel (dominated r g b) ps NN). lia.
  - intros r g b R G B. specialize (FH r g b R G B). destruct ((r =? 0) || (g =? 0) || (b =? 0)) eqn:Z0; [|exact FH]. now rewrite (cells_zero _ _ _ _ _ Z0) in FH.
  - rewrite E in E5. apply ok_inj in E5. subst m'. intros r g b R G B. rewrite <- prefix_weighted. now apply V.
Qed.
