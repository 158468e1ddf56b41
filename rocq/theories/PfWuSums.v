(** * Box sums from Wu's tables. Proof file. *)
From Coq Require Import ZArith Bool List Lia FMapPositive String.
From Verif Require Import F64 ColorUtils Assoc QuantizerMap QuantizerWu SpecWu PfHct PfScore PfWuMoments PfArgb.
Import ListNotations.
Open Scope string_scope.
Open Scope list_scope.
Open Scope Z_scope.

Lemma weighted_cons f sel e ps : weighted f sel (e :: ps) = (if sel (fst e) then f (fst e) * snd e else 0) + weighted f sel ps.
Proof. reflexivity. Qed.
Lemma weighted_ext f sel sel' ps : (forall p, sel p = sel' p) -> weighted f sel ps = weighted f sel' ps.
Proof. intros E. unfold weighted. f_equal. apply map_ext. intros e. now rewrite E. Qed.
Definition nonneg (ps : list (Z * Z)) : Prop := Forall (fun e => 0 <= snd e) ps.
Lemma weighted_nonneg f sel ps : (forall p, 0 <= f p) -> nonneg ps -> 0 <= weighted f sel ps.
Proof.
  intros F N. induction N as [|e ps H N IH]; [cbn; lia|]. rewrite weighted_cons.
  destruct (sel (fst e)); [|lia]. specialize (F (fst e)). nia.
Qed.
Lemma weighted_le f k sel ps : (forall p, 0 <= f p <= k) -> nonneg ps -> weighted f sel ps <= k * weighted one everywhere ps.
Proof.
  intros F N. induction N as [|e ps H N IH]; [cbn; lia|]. rewrite !weighted_cons. cbn [everywhere]. unfold one at 1.
  specialize (F (fst e)). destruct (sel (fst e)); nia.
Qed.
Lemma weighted_le_sel f k sel ps : (forall p, 0 <= f p <= k) -> nonneg ps -> weighted f sel ps <= k * weighted one sel ps.
Proof.
  intros F N. induction N as [|e ps H N IH]; [cbn; lia|]. rewrite !weighted_cons. unfold one at 1.
  specialize (F (fst e)). destruct (sel (fst e)); nia.
Qed.

Definition byte (x : Z) : Prop := 0 <= x <= 255.
Lemma land_byte x : byte (Z.land x 255).
Proof. change 255 with (Z.ones 8) at 1. rewrite Z.land_ones by lia. pose proof (Z.mod_pos_bound x (2^8)). unfold byte. lia. Qed.
Lemma red_byte p : byte (red_from_argb p). Proof. apply land_byte. Qed.
Lemma green_byte p : byte (green_from_argb p). Proof. apply land_byte. Qed.
Lemma blue_byte p : byte (blue_from_argb p). Proof. apply land_byte. Qed.
Lemma one_byte p : byte (one p). Proof. unfold byte, one. lia. Qed.
Lemma eighth x : byte x -> 0 <= x / 8 <= 31.
Proof. unfold byte. intros H. pose proof (Z.div_mod x 8 ltac:(lia)). pose proof (Z.mod_pos_bound x 8 ltac:(lia)). lia. Qed.

(** ** Histogram *)
Definition cell p : Z * Z * Z := (red_from_argb p / 8 + 1, green_from_argb p / 8 + 1, blue_from_argb p / 8 + 1).
Definition at_cell (r g b p : Z) : bool := 
  (r =? red_from_argb p / 8 + 1) && (g =? green_from_argb p / 8 + 1) && (b =? blue_from_argb p / 8 + 1).
Definition cells f ps r g b := weighted f (at_cell r g b) ps.

Definition hist f (ps : list (Z * Z)) (m : arr Z) : Prop := forall r g b, co r -> co g -> co b -> aread 0 m (get_index r g b) = cells f ps r g b.

Lemma pixel_index p : let r := red_from_argb p / 8 + 1 in let g := green_from_argb p / 8 + 1 in let b := blue_from_argb p / 8 + 1 in
  get_index (Z.shiftr (red_from_argb p) (8 - 5) + 1) (Z.shiftr (green_from_argb p) (8 - 5) + 1) (Z.shiftr (blue_from_argb p) (8 - 5) + 1)
    = get_index r g b /\ co r /\ co g /\ co b.
Proof.
  cbv zeta. rewrite !Z.shiftr_div_pow2 by lia. change (2 ^ (8 - 5)) with 8. split; [reflexivity|]. unfold co.
  pose proof (eighth _ (red_byte p)). pose proof (eighth _ (green_byte p)). pose proof (eighth _ (blue_byte p)). lia.
Qed.
Lemma weighted_snoc f sel ps e : weighted f sel (ps ++ [e]) = weighted f sel ps + (if sel (fst e) then f (fst e) * snd e else 0).
Proof. unfold weighted. rewrite map_app, fold_add_app. cbn [map fold_right]. lia. Qed.

Lemma bump_spec f ps p c m r g b :
  r = red_from_argb p / 8 + 1 -> g = green_from_argb p / 8 + 1 -> b = blue_from_argb p / 8 + 1 ->
  co r -> co g -> co b -> hist f ps m ->
  match abump 0 zadd m (get_index r g b) (f p * c) with
  | Ok m' => hist f (ps ++ [(p, c)]) m'
  | Panic => chk (cells f (ps ++ [(p, c)]) r g b) = Panic
  end.
Proof.
  intros Er Eg Eb R G B H. unfold abump.
  rewrite (get_ok 0 m _ (idx_range r g b R G B)), bind_Ok. rewrite (H r g b R G B). unfold zadd.
  assert (E : cells f ps r g b + f p * c = cells f (ps ++ [(p, c)]) r g b).
  { unfold cells. rewrite weighted_snoc. cbn [fst snd]. unfold at_cell at 3. now rewrite Er, Eg, Eb, !Z.eqb_refl. }
  rewrite E. destruct (chk_val (cells f (ps ++ [(p, c)]) r g b)) as [CH|CH]; rewrite CH; [|reflexivity].
  rewrite bind_Ok, (set_ok m _ _ (idx_range r g b R G B)).
  intros r' g' b' R' G' B'. pose proof (idx_range r g b R G B). pose proof (idx_range r' g' b' R' G' B').
  rewrite read_add by lia. destruct (Z.eqb_spec (get_index r g b) (get_index r' g' b')) as [I|I].
  - apply idx_inj in I; auto. destruct I as (<- & <- & <-). reflexivity.
  - rewrite (H r' g' b' R' G' B'). unfold cells. rewrite weighted_snoc. cbn [fst snd]. unfold at_cell at 3.
    rewrite <- Er, <- Eg, <- Eb.
    destruct (Z.eqb_spec r' r) as [->|], (Z.eqb_spec g' g) as [->|], (Z.eqb_spec b' b) as [->|]; cbn [andb]; try lia.
Qed.

Definition hist_wu ps (w : wu) : Prop :=
  hist one ps (w_weights w) /\ hist red_from_argb ps (w_moments_r w) /\ hist green_from_argb ps (w_moments_g w) /\ hist blue_from_argb ps (w_moments_b w).

(** The histogram, or an overflow. *)
Definition hist_overflow (ps : list (Z * Z)) : Prop := exists p c before after, ps = before ++ (p, c) :: after /\
  (chk (red_from_argb p * c) = Panic \/ chk (green_from_argb p * c) = Panic \/ chk (blue_from_argb p * c) = Panic \/
   chk (c * (red_from_argb p * red_from_argb p + green_from_argb p * green_from_argb p + blue_from_argb p * blue_from_argb p)) = Panic \/
   exists f r g b, In f [one; red_from_argb; green_from_argb; blue_from_argb] /\ chk (cells f (before ++ [(p, c)]) r g b) = Panic).

Lemma step_spec ps p c w after : hist_wu ps w ->
  match histogram_step w p c with
  | Ok w' => hist_wu (ps ++ [(p, c)]) w'
  | Panic => hist_overflow (ps ++ (p, c) :: after)
  end.
Proof.
  intros (Hw & Hr & Hg & Hb). unfold histogram_step. destruct (pixel_index p) as (-> & R & G & B).
  set (r := red_from_argb p / 8 + 1) in *. set (g := green_from_argb p / 8 + 1) in *. set (b := blue_from_argb p / 8 + 1) in *.
  assert (O : forall P, (P -> hist_overflow (ps ++ (p, c) :: after)) -> P -> hist_overflow (ps ++ (p, c) :: after)) by auto.
  pose proof (bump_spec one ps p c (w_weights w) r g b eq_refl eq_refl eq_refl R G B Hw) as Bw.
  unfold one in Bw at 1. rewrite Z.mul_1_l in Bw.
  destruct (abump 0 zadd (w_weights w) (get_index r g b) c) as [ws|].
  2:{ exists p, c, ps, after. split; [reflexivity|]. do 4 right. exists one, r, g, b. split; [now left|exact Bw]. }
  rewrite bind_Ok. unfold zmul at 1. destruct (chk_val (red_from_argb p * c)) as [CH|CH]; rewrite CH; [rewrite bind_Ok|].
  2:{ exists p, c, ps, after. split; [reflexivity|]. now left. }
  pose proof (bump_spec red_from_argb ps p c (w_moments_r w) r g b eq_refl eq_refl eq_refl R G B Hr) as Br.
  destruct (abump 0 zadd (w_moments_r w) (get_index r g b) (red_from_argb p * c)) as [mr|].
  2:{ exists p, c, ps, after. split; [reflexivity|]. do 4 right. exists red_from_argb, r, g, b. split; [right; now left|exact Br]. }
  rewrite bind_Ok. unfold zmul at 1. destruct (chk_val (green_from_argb p * c)) as [CH2|CH2]; rewrite CH2; [rewrite bind_Ok|].
  2:{ exists p, c, ps, after. split; [reflexivity|]. right; now left. }
  pose proof (bump_spec green_from_argb ps p c (w_moments_g w) r g b eq_refl eq_refl eq_refl R G B Hg) as Bg.
  destruct (abump 0 zadd (w_moments_g w) (get_index r g b) (green_from_argb p * c)) as [mg|].
  2:{ exists p, c, ps, after. split; [reflexivity|]. do 4 right. exists green_from_argb, r, g, b. split; [right; right; now left|exact Bg]. }
  rewrite bind_Ok. unfold zmul at 1. destruct (chk_val (blue_from_argb p * c)) as [CH3|CH3]; rewrite CH3; [rewrite bind_Ok|].
  2:{ exists p, c, ps, after. split; [reflexivity|]. right; right; now left. }
  pose proof (bump_spec blue_from_argb ps p c (w_moments_b w) r g b eq_refl eq_refl eq_refl R G B Hb) as Bb.
  destruct (abump 0 zadd (w_moments_b w) (get_index r g b) (blue_from_argb p * c)) as [mb|].
  2:{ exists p, c, ps, after. split; [reflexivity|]. do 4 right. exists blue_from_argb, r, g, b. split; [right; right; right; now left|exact Bb]. }
  rewrite bind_Ok. unfold zmul.
  destruct (chk_val (c * (red_from_argb p * red_from_argb p + green_from_argb p * green_from_argb p + blue_from_argb p * blue_from_argb p))) as [CH4|CH4]; rewrite CH4; [rewrite bind_Ok|].
  2:{ exists p, c, ps, after. split; [reflexivity|]. do 3 right; now left. }
  unfold abump, fadd_res. rewrite get_ok by (apply idx_range; assumption). rewrite !bind_Ok.
  rewrite set_ok by (apply idx_range; assumption). rewrite bind_Ok. now repeat split.
Qed.

Lemma loop_hist ps : forall done w, hist_wu done w ->
  match histogram_loop w ps with
  | Ok w' => hist_wu (done ++ ps) w'
  | Panic => hist_overflow (done ++ ps)
  end.
Proof.
  induction ps as [|(p, c) ps IH]; intros done w H; cbn [histogram_loop]; [now rewrite app_nil_r|].
  pose proof (step_spec done p c w ps H) as S. destruct (histogram_step w p c) as [w'|]; [|exact S].
  rewrite bind_Ok. specialize (IH (done ++ [(p, c)]) w' S). rewrite <- app_assoc in IH. exact IH.
Qed.
Lemma hist_spec ps : match construct_histogram ps with Ok w => hist_wu ps w | Panic => hist_overflow ps end.
Proof.
  unfold construct_histogram. apply (loop_hist ps [] wu_zero).
  repeat split; intros r g b _ _ _; apply read_empty.
Qed.

(** ** Prefix sums of the histogram *)
Lemma cells_zero f ps r g b : (r =? 0) || (g =? 0) || (b =? 0) = true -> cells f ps r g b = 0.
Proof.
  intros Z0. unfold cells, weighted. induction ps as [|e ps IH]; [reflexivity|]. cbn [map fold_right]. rewrite IH.
  replace (at_cell r g b (fst e)) with false; [lia|]. unfold at_cell.
  pose proof (eighth _ (red_byte (fst e))). pose proof (eighth _ (green_byte (fst e))). pose proof (eighth _ (blue_byte (fst e))).
  rewrite !orb_true_iff, !Z.eqb_eq in Z0.
  destruct (Z.eqb_spec r (red_from_argb (fst e) / 8 + 1)), (Z.eqb_spec g (green_from_argb (fst e) / 8 + 1)), (Z.eqb_spec b (blue_from_argb (fst e) / 8 + 1)); try reflexivity. lia.
Qed.
Lemma prefix_weighted f ps r g b : pS (cells f ps) r g b = weighted f (dominated r g b) ps.
Proof.
  induction ps as [|e ps IH].
  - unfold pS, pA, pL, cells, weighted. cbn [map fold_right].
    rewrite (zs_ext _ (fun _ => 0)); [apply zs_zero|]. intros k _. rewrite (zs_ext _ (fun _ => 0)); [apply zs_zero|]. intros j _. apply zs_zero.
  - rewrite weighted_cons, <- IH. set (v := f (fst e) * snd e).
    pose proof (eighth _ (red_byte (fst e))). pose proof (eighth _ (green_byte (fst e))). pose proof (eighth _ (blue_byte (fst e))).
    set (x := red_from_argb (fst e) / 8 + 1) in *. set (y := green_from_argb (fst e) / 8 + 1) in *. set (z := blue_from_argb (fst e) / 8 + 1) in *.
    assert (L : forall r g b, pL (cells f (e :: ps)) r g b = (if (r =? x) && (g =? y) then (if (1 <=? z) && (z <=? b) then v else 0) else 0) + pL (cells f ps) r g b).
    { intros r' g' b'. unfold pL. rewrite (zs_ext _ (fun k => (if (r' =? x) && (g' =? y) then (if k =? z then v else 0) else 0) + cells f ps r' g' k)).
      - rewrite zs_add. f_equal. destruct ((r' =? x) && (g' =? y)); [apply zs_delta|apply zs_zero].
      - intros k _. unfold cells at 1. rewrite weighted_cons. f_equal. unfold at_cell. fold x y z v.
        destruct (r' =? x), (g' =? y), (k =? z); reflexivity. }
    assert (A : forall r g b, pA (cells f (e :: ps)) r g b = (if r =? x then (if (1 <=? y) && (y <=? g) then (if (1 <=? z) && (z <=? b) then v else 0) else 0) else 0) + pA (cells f ps) r g b).
    { intros r' g' b'. unfold pA. rewrite (zs_ext _ _ _ (fun k _ => L r' k b')), zs_add. f_equal.
      destruct (r' =? x); cbn [andb]; [apply zs_delta|apply zs_zero]. }
    unfold pS at 1. rewrite (zs_ext _ _ _ (fun k _ => A k g b)), zs_add. fold (pS (cells f ps) r g b). f_equal.
    rewrite zs_delta. unfold dominated. fold x y z.
    destruct (Z.leb_spec 1 x), (Z.leb_spec 1 y), (Z.leb_spec 1 z); try lia. cbn [andb].
    unfold x, y, z in *.
    destruct (Z.leb_spec (red_from_argb (fst e) / 8 + 1) r), (Z.ltb_spec (red_from_argb (fst e) / 8) r); try lia; cbn [andb]; [|reflexivity].
    destruct (Z.leb_spec (green_from_argb (fst e) / 8 + 1) g), (Z.ltb_spec (green_from_argb (fst e) / 8) g); try lia; cbn [andb]; [|reflexivity].
    destruct (Z.leb_spec (blue_from_argb (fst e) / 8 + 1) b), (Z.ltb_spec (blue_from_argb (fst e) / 8) b); try lia; reflexivity.
Qed.

(** The table holds the prefix sums of [f]. *)
Definition sums f ps (m : arr Z) : Prop := forall r g b, co r -> co g -> co b -> aread 0 m (get_index r g b) = weighted f (dominated r g b) ps.
Definition sums_wu ps (w : wu) : Prop :=
  sums one ps (w_weights w) /\ sums red_from_argb ps (w_moments_r w) /\ sums green_from_argb ps (w_moments_g w) /\ sums blue_from_argb ps (w_moments_b w).
Lemma prefix_hist f ps m : hist f ps m ->
  match prefix_moments 0 zadd m with Ok m' => sums f ps m' | Panic => overflow (cells f ps) end.
Proof.
  intros H. pose proof (prefix_spec (cells f ps) m) as P.
  assert (T : forall r g b, co r -> co g -> co b -> aread 0 m (get_index r g b) = if (r =? 0) || (g =? 0) || (b =? 0) then 0 else cells f ps r g b).
  { intros r g b R G B. rewrite (H r g b R G B). destruct ((r =? 0) || (g =? 0) || (b =? 0)) eqn:Z0; [|reflexivity]. now apply cells_zero. }
  specialize (P T). destruct (prefix_moments 0 zadd m) as [m'|]; [|exact P].
  intros r g b R G B. rewrite (P r g b R G B). apply prefix_weighted.
Qed.

(** The f64 table never panics. *)
Lemma moment_b_total r g n : forall b line area (m : arr f64), 1 <= r <= 32 -> 1 <= g <= 32 -> 1 <= b -> b + Z.of_nat n = 33 -> List.length area = 33%nat ->
  exists area' m', moment_b (dec "0.0") fadd_res r g (map Z.of_nat (seq (Z.to_nat b) n)) line area m = Ok (area', m') /\ List.length area' = 33%nat.
Proof.
  induction n as [|n IH]; intros b line area m R G B N L; cbn [seq map moment_b]; [eauto|].
  rewrite Z2Nat.id by lia. 
  rewrite get_ok by (apply idx_range; unfold co; lia). rewrite bind_Ok. unfold fadd_res at 1. rewrite bind_Ok.
  destruct (index_ok area b) as (a & IA & _); [lia|]. rewrite IA, bind_Ok. unfold fadd_res at 1. rewrite bind_Ok.
  rewrite get_ok by (apply idx_range; unfold co; lia). rewrite bind_Ok. unfold fadd_res at 1. rewrite bind_Ok.
  rewrite set_ok by (apply idx_range; unfold co; lia). rewrite bind_Ok. replace (S (Z.to_nat b)) with (Z.to_nat (b + 1)) by lia.
  apply IH; try lia. now rewrite list_set_length.
Qed.
Lemma moment_g_total r n : forall g area (m : arr f64), 1 <= r <= 32 -> 1 <= g -> g + Z.of_nat n = 33 -> List.length area = 33%nat ->
  exists am, moment_g (dec "0.0") fadd_res r (map Z.of_nat (seq (Z.to_nat g) n)) area m = Ok am.
Proof.
  induction n as [|n IH]; intros g area m R G N L; [cbn [seq map moment_g]; eauto|].
  rewrite range_cons by lia.
  change (moment_g (dec "0.0") fadd_res r (g :: ?gs) area m) with (bind (moment_b (dec "0.0") fadd_res r g (map Z.of_nat (seq (Z.to_nat 1) 32)) (dec "0.0") area m) (fun am => let '(area, m) := am in moment_g (dec "0.0") fadd_res r gs area m)).
  destruct (moment_b_total r g 32 1 (dec "0.0") area m) as (a' & m' & E & L'); try lia. rewrite E, bind_Ok. apply IH; lia.
Qed.
Lemma moment_r_total n : forall r (m : arr f64), 1 <= r -> r + Z.of_nat n = 33 -> exists m', moment_r (dec "0.0") fadd_res (map Z.of_nat (seq (Z.to_nat r) n)) m = Ok m'.
Proof.
  induction n as [|n IH]; intros r m R N; [cbn [seq map moment_r]; eauto|]. rewrite range_cons by lia.
  change (moment_r (dec "0.0") fadd_res (r :: ?rs) m) with (bind (moment_g (dec "0.0") fadd_res r (map Z.of_nat (seq (Z.to_nat 1) 32)) (repeat (dec "0.0") SIDE_LENGTH) m) (fun am => moment_r (dec "0.0") fadd_res rs (snd am))).
  destruct (moment_g_total r 32 1 (repeat (dec "0.0") SIDE_LENGTH) m) as (am & E); try lia; [apply repeat_length|]. rewrite E, bind_Ok. apply IH; lia.
Qed.

Lemma moments_spec ps w : hist_wu ps w ->
  match compute_moments w with
  | Ok w' => sums_wu ps w'
  | Panic => exists f, In f [one; red_from_argb; green_from_argb; blue_from_argb] /\ overflow (cells f ps)
  end.
Proof.
  intros (Hw & Hr & Hg & Hb). unfold compute_moments.
  pose proof (prefix_hist _ _ _ Hw) as Pw. destruct (prefix_moments 0 zadd (w_weights w)) as [ws|]; [rewrite bind_Ok|exists one; split; [now left|exact Pw]].
  pose proof (prefix_hist _ _ _ Hr) as Pr. destruct (prefix_moments 0 zadd (w_moments_r w)) as [mr|]; [rewrite bind_Ok|exists red_from_argb; split; [right; now left|exact Pr]].
  pose proof (prefix_hist _ _ _ Hg) as Pg. destruct (prefix_moments 0 zadd (w_moments_g w)) as [mg|]; [rewrite bind_Ok|exists green_from_argb; split; [right; right; now left|exact Pg]].
  pose proof (prefix_hist _ _ _ Hb) as Pb. destruct (prefix_moments 0 zadd (w_moments_b w)) as [mb|]; [rewrite bind_Ok|exists blue_from_argb; split; [right; right; right; now left|exact Pb]].
  unfold prefix_moments at 1. change (map Z.of_nat (seq 1 32)) with (map Z.of_nat (seq (Z.to_nat 1) 32)).
  destruct (moment_r_total 32 1 (w_moments w)) as (m & E); try lia. rewrite E, bind_Ok. now repeat split.
Qed.
