(** * Proofs about TemperatureCache. Proof file. *)
From Coq Require Import ZArith Bool Reals Lia Lra String List Permutation Sorted.
From Flocq Require Import Core IEEE754.BinarySingleNaN.
From Verif Require Import F64 MathUtils ColorUtils ViewingConditions Cam16 HctSolver Hct Assoc Temperature Spec SpecTemperature
  FloatFacts FloatMono FloatCast PfMath PfContrast PfHct PfPalettes PfScore.
Import ListNotations.
Open Scope string_scope.
Open Scope list_scope.
Open Scope Z_scope.

(** ** is_between *)
Lemma between_spec (x a b : f64) :
  fle (dec "0.0") x = true -> flt x (dec "360.0") = true ->
  fle (dec "0.0") a = true -> flt a (dec "360.0") = true ->
  fle (dec "0.0") b = true -> flt b (dec "360.0") = true ->
  is_between x a b = true <-> (B2R a = B2R b \/ clockwise (B2R a) (B2R x) <= clockwise (B2R a) (B2R b))%R.
Proof.
  intros X1 X2 A1 A2 B1 B2.
  destruct (hue_fin x X1 X2) as (FX & RX). destruct (hue_fin a A1 A2) as (FA & RA). destruct (hue_fin b B1 B2) as (FB & RB).
  unfold is_between, clockwise. destruct (flt a b) eqn:L.
  - apply (flt_fin a b FA FB) in L. rewrite andb_true_iff, (fle_fin a x FA FX), (fle_fin x b FX FB).
    destruct (Rle_dec (B2R a) (B2R x)), (Rle_dec (B2R a) (B2R b)); split; intros; lra.
  - apply (flt_fin_f a b FA FB) in L. rewrite orb_true_iff, (fle_fin a x FA FX), (fle_fin x b FX FB).
    destruct (Rle_dec (B2R a) (B2R x)), (Rle_dec (B2R a) (B2R b)); split; intros; lra.
Qed.

(** ** The map of temperatures *)
Section AnyLibm.
Context {lm : Libm}.
Local Opaque hct_from hct_from_int hct_new raw_temperature.

Lemma raw_eqb a b : hct_eqb a b = true -> raw_temperature a = raw_temperature b.
Proof.
  unfold hct_eqb. intros E. apply Z.eqb_eq in E. Local Transparent raw_temperature.
  unfold raw_temperature. rewrite E. reflexivity.
Qed.
Local Opaque raw_temperature.
Lemma eqb_sym a b : hct_eqb a b = hct_eqb b a.
Proof. unfold hct_eqb. apply Z.eqb_sym. Qed.
Lemma eqb_refl a : hct_eqb a a = true.
Proof. unfold hct_eqb. apply Z.eqb_refl. Qed.
Lemma eqb_trans a b c : hct_eqb a b = true -> hct_eqb b c = true -> hct_eqb a c = true.
Proof. unfold hct_eqb. rewrite !Z.eqb_eq. congruence. Qed.

Definition temps_of (l : list hct) : list (hct * f64) :=
  fold_left (fun m e => ainsert hct_eqb m e (raw_temperature e)) l [].


(** The value found under a key: the last inserted equal key, whose temperature is the key's own. *)
Lemma insert_raw m e x :
  afind hct_eqb (ainsert hct_eqb m e (raw_temperature e)) x =
  if hct_eqb e x then Some (raw_temperature x) else afind hct_eqb m x.
Proof.
  induction m as [|(k, v) m IH]; cbn [ainsert afind].
  - destruct (hct_eqb e x) eqn:E; [|reflexivity]. now rewrite (raw_eqb _ _ E).
  - destruct (hct_eqb k e) eqn:K; cbn [afind].
    + destruct (hct_eqb k x) eqn:KX.
      * assert (E : hct_eqb e x = true) by (apply (eqb_trans e k x); [now rewrite eqb_sym|assumption]).
        rewrite E. f_equal. now apply raw_eqb.
      * destruct (hct_eqb e x) eqn:EX; [|reflexivity]. now rewrite (eqb_trans k e x K EX) in KX.
    + destruct (hct_eqb k x) eqn:KX; [|exact IH].
      destruct (hct_eqb e x) eqn:EX; [|reflexivity].
      rewrite (eqb_trans k x e) in K; [discriminate|assumption|now rewrite eqb_sym].
Qed.
Lemma temps_find_gen l x : forall m,
  afind hct_eqb (fold_left (fun m e => ainsert hct_eqb m e (raw_temperature e)) l m) x =
  if existsb (fun e => hct_eqb e x) l then Some (raw_temperature x) else afind hct_eqb m x.
Proof.
  induction l as [|e l IH]; intros m; cbn [fold_left existsb]; [reflexivity|].
  rewrite IH, insert_raw. destruct (hct_eqb e x), (existsb _ l); reflexivity.
Qed.
Lemma temps_find l x : afind hct_eqb (temps_of l) x = if existsb (fun e => hct_eqb e x) l then Some (raw_temperature x) else None.
Proof. apply temps_find_gen. Qed.
Lemma temps_in l x : In x l -> afind hct_eqb (temps_of l) x = Some (raw_temperature x).
Proof.
  intros I. rewrite temps_find. replace (existsb _ l) with true; [reflexivity|]. symmetry. apply existsb_exists.
  exists x. split; [exact I|apply eqb_refl].
Qed.
Lemma temps_nonempty l : l <> [] -> temps_of l <> [].
Proof.
  intros N E. destruct l as [|x l]; [easy|]. pose proof (temps_in (x :: l) x (or_introl eq_refl)) as H. rewrite E in H. discriminate.
Qed.

(** ** The states of a cache *)
Section Input.
Variables (h : hct) (W : list hct).
Hypothesis HW : wheel (zrange 360) (h_chroma h) (h_tone h) = Ok W.

Lemma wheel_length l c t : forall w, wheel l c t = Ok w -> List.length w = List.length l.
Proof.
  induction l as [|k l IH]; cbn [wheel]; intros w E; [inj E; reflexivity|].
  inv_bind E a Q. inv_bind E b Q'. inj E. cbn [List.length]. f_equal. now apply IH.
Qed.
Lemma W_length : List.length W = 360%nat.
Proof. apply wheel_length in HW. rewrite HW. reflexivity. Qed.
Lemma W_nonempty : W <> [].
Proof. intros E. pose proof W_length as L. rewrite E in L. discriminate. Qed.

Definition all : list hct := W ++ [h].
Definition T : list (hct * f64) := temps_of all.
Definition S : list hct := stable_sort (temp_lt T) all.
Lemma all_nonempty : all <> [].
Proof. unfold all. destruct W; discriminate. Qed.
Lemma T_nonempty : T <> []. Proof. apply temps_nonempty, all_nonempty. Qed.
Lemma S_perm : Permutation S all. Proof. apply sort_perm. Qed.
Lemma S_nonempty : S <> [].
Proof. intros E. pose proof S_perm as P. rewrite E in P. apply Permutation_nil in P. now apply all_nonempty. Qed.
Lemma T_in x : In x all -> temp_at T x = Ok (raw_temperature x).
Proof. intros I. unfold temp_at, T. now rewrite temps_in. Qed.

Lemma T_find x : temp_at T x = if existsb (fun e => hct_eqb e x) all then Ok (raw_temperature x) else Panic.
Proof. unfold temp_at, T. rewrite temps_find. now destruct (existsb _ all). Qed.

(** The four fill levels of the first three caches. *)
Definition mk (l : nat) (i : f64) (k : option hct) : temp_cache :=
  {| t_input := h;
     t_hcts_by_temp := if Nat.leb 3 l then S else [];
     t_hcts_by_hue := if Nat.leb 1 l then W else [];
     t_temps_by_hct := if Nat.leb 2 l then T else [];
     t_input_relative_temperature := i; t_complement := k |}.
Local Opaque T S.
Lemma match_cons {A B} (l : list A) (x : B) (y : B) : l <> [] -> match l with [] => y | _ :: _ => x end = x.
Proof. now destruct l. Qed.
Lemma by_hue_mk l i k : (l <= 3)%nat -> get_hcts_by_hue (mk l i k) = Ok (W, mk (Nat.max l 1) i k).
Proof.
  intros L. destruct l as [|l].
  - unfold get_hcts_by_hue. cbn [mk t_hcts_by_hue Nat.leb t_input]. rewrite HW, bind_Ok. reflexivity.
  - replace (Nat.max (Datatypes.S l) 1) with (Datatypes.S l) by lia.
    unfold get_hcts_by_hue. cbn [mk t_hcts_by_hue Nat.leb]. apply match_cons, W_nonempty.
Qed.
Lemma temps_mk l i k : (l <= 3)%nat -> get_temps_by_hct (mk l i k) = Ok (T, mk (Nat.max l 2) i k).
Proof.
  intros L. destruct l as [|[|l]].
  1, 2: unfold get_temps_by_hct; cbn [mk t_temps_by_hct Nat.leb]; rewrite by_hue_mk by lia; rewrite bind_Ok; reflexivity.
  replace (Nat.max (Datatypes.S (Datatypes.S l)) 2) with (Datatypes.S (Datatypes.S l)) by lia.
  unfold get_temps_by_hct. cbn [mk t_temps_by_hct Nat.leb]. apply match_cons, T_nonempty.
Qed.
Lemma by_temp_mk l i k : (l <= 3)%nat -> get_hcts_by_temp (mk l i k) = Ok (S, mk 3 i k).
Proof.
  intros L. destruct (Nat.eq_dec l 3) as [->|N].
  - unfold get_hcts_by_temp. cbn [mk t_hcts_by_temp Nat.leb]. apply match_cons, S_nonempty.
  - unfold get_hcts_by_temp. replace (t_hcts_by_temp (mk l i k)) with (@nil hct) by
      (cbn [mk t_hcts_by_temp]; destruct (Nat.leb_spec 3 l); [lia|reflexivity]).
    rewrite by_hue_mk by lia. rewrite bind_Ok. rewrite temps_mk by lia. rewrite bind_Ok.
    replace (Nat.max (Nat.max l 1) 2) with 2%nat by lia. reflexivity.
Qed.
Definition hot : hct := last S h.
Definition cold : hct := hd h S.
Lemma last_rev {A} (l : list A) d : l <> [] -> nth_error (rev l) 0 = Some (last l d).
Proof.
  intros N. destruct (exists_last N) as (l' & x & ->). rewrite rev_app_distr, last_last. reflexivity.
Qed.
Lemma warmest_mk l i k : (l <= 3)%nat -> get_warmest (mk l i k) = Ok (hot, mk 3 i k).
Proof.
  intros L. unfold get_warmest. rewrite by_temp_mk by assumption. rewrite bind_Ok. cbn [fst snd].
  rewrite (last_rev S h S_nonempty). reflexivity.
Qed.
Lemma coldest_mk l i k : (l <= 3)%nat -> get_coldest (mk l i k) = Ok (cold, mk 3 i k).
Proof.
  intros L. unfold get_coldest. rewrite by_temp_mk by assumption. rewrite bind_Ok. cbn [fst snd].
  unfold cold. pose proof S_nonempty. destruct S; [easy|reflexivity].
Qed.
Lemma hot_in : In hot all.
Proof.
  apply (Permutation_in _ S_perm). unfold hot. destruct (exists_last S_nonempty) as (l' & x & E). rewrite E, last_last.
  apply in_or_app. right. now left.
Qed.
Lemma cold_in : In cold all.
Proof. apply (Permutation_in _ S_perm). unfold cold. pose proof S_nonempty. destruct S; [easy|now left]. Qed.

Definition span : f64 := fsub (raw_temperature hot) (raw_temperature cold).
Definition relative (x : hct) : f64 :=
  if feq span (dec "0.0") then dec "0.5" else fdiv (fsub (raw_temperature x) (raw_temperature cold)) span.
Lemma relative_mk l i k x : (l <= 3)%nat -> relative_temperature (mk l i k) x =
  do _ <- temp_at T x; Ok (relative x, mk 3 i k).
Proof.
  intros L. unfold relative_temperature. rewrite temps_mk by lia. rewrite bind_Ok.
  rewrite warmest_mk by lia. rewrite bind_Ok. rewrite (T_in hot hot_in), bind_Ok.
  rewrite temps_mk by lia. rewrite bind_Ok. cbn [Nat.max]. rewrite coldest_mk by lia. rewrite bind_Ok.
  rewrite (T_in cold cold_in), bind_Ok. cbv zeta. rewrite temps_mk by lia. rewrite bind_Ok. cbn [Nat.max].
  rewrite T_find. destruct (existsb _ all); [|reflexivity].
  rewrite !bind_Ok. rewrite temps_mk by lia. rewrite bind_Ok. cbn [Nat.max]. rewrite coldest_mk by lia. rewrite bind_Ok.
  rewrite (T_in cold cold_in). rewrite bind_Ok. unfold relative, span.
  destruct (feq _ _); reflexivity.
Qed.

Lemma irt_mk l i k : (l <= 3)%nat -> i = dec "-1.0" \/ i = relative h ->
  get_input_relative_temperature (mk l i k) = Ok (relative h, mk (if fge i (dec "0.0") then l else 3%nat) (relative h) k).
Proof.
  intros L D. unfold get_input_relative_temperature. cbn [mk t_input_relative_temperature].
  destruct (fge i (dec "0.0")) eqn:G.
  - assert (E : i = relative h).
    { destruct D as [D|D]; [|exact D]. rewrite D in G. vm_compute in G. discriminate G. }
    rewrite <- E. reflexivity.
  - change ({| t_input := h;
     t_hcts_by_temp := if Nat.leb 3 l then S else [];
     t_hcts_by_hue := if Nat.leb 1 l then W else [];
     t_temps_by_hct := if Nat.leb 2 l then T else [];
     t_input_relative_temperature := i; t_complement := k |}) with (mk l i k).
    rewrite temps_mk by lia. rewrite bind_Ok. rewrite coldest_mk by lia. rewrite bind_Ok.
    rewrite (T_in cold cold_in), bind_Ok. rewrite temps_mk by lia. rewrite bind_Ok. cbn [Nat.max].
    rewrite warmest_mk by lia. rewrite bind_Ok. rewrite (T_in hot hot_in), bind_Ok. cbv zeta.
    rewrite temps_mk by lia. rewrite bind_Ok. cbn [Nat.max].
    change (t_input (mk 3 i k)) with h. rewrite T_in by (unfold all; apply in_or_app; right; now left).
    rewrite bind_Ok. reflexivity.
Qed.

(** [get_complement] without its caches. *)
Definition arc : f64 * f64 :=
  if is_between (h_hue h) (h_hue cold) (h_hue hot) then (h_hue hot, h_hue cold) else (h_hue cold, h_hue hot).
Definition complement : res hct :=
  do a <- index W (to_usize (fround (h_hue h)));
  complement_loop (zrange 360) W T (fst arc) (snd arc) (raw_temperature cold) span
    (fsub (dec "1.0") (relative h)) (dec "1000.0") a.
Lemma complement_mk l i : (l <= 3)%nat -> i = dec "-1.0" \/ i = relative h ->
  get_complement (mk l i None) = do a <- complement; Ok (a, mk 3 (relative h) (Some a)).
Proof.
  intros L D. unfold get_complement. cbn [mk t_complement].
  change ({| t_input := h;
     t_hcts_by_temp := if Nat.leb 3 l then S else [];
     t_hcts_by_hue := if Nat.leb 1 l then W else [];
     t_temps_by_hct := if Nat.leb 2 l then T else [];
     t_input_relative_temperature := i; t_complement := None |}) with (mk l i None).
  rewrite coldest_mk by lia. rewrite bind_Ok. cbv zeta. rewrite temps_mk by lia. rewrite bind_Ok. cbn [Nat.max].
  rewrite coldest_mk by lia. rewrite bind_Ok. rewrite (T_in cold cold_in), bind_Ok.
  rewrite warmest_mk by lia. rewrite bind_Ok. rewrite temps_mk by lia. rewrite bind_Ok. cbn [Nat.max].
  rewrite warmest_mk by lia. rewrite bind_Ok. rewrite (T_in hot hot_in), bind_Ok.
  change (t_input (mk 3 i None)) with h. change (t_hcts_by_hue (mk 3 i None)) with W.
  unfold complement, arc. destruct (index W _) as [a|]; [|reflexivity]. rewrite !bind_Ok.
  rewrite irt_mk by (assumption || lia). rewrite bind_Ok.
  replace (if fge i (dec "0.0") then 3%nat else 3%nat) with 3%nat by (destruct (fge _ _); reflexivity).
  cbn [mk t_hcts_by_hue t_temps_by_hct Nat.leb t_input t_hcts_by_temp t_input_relative_temperature].
  destruct (is_between _ _ _); reflexivity.
Qed.

(** [analogous] without its caches. *)
Fixpoint total_delta (start : Z) (is : list Z) (last total : f64) : res f64 :=
  match is with
  | [] => Ok total
  | i :: is' => do x <- index W (sanitize_degrees_int (start + i));
      total_delta start is' (relative x) (fadd total (fabs (fsub (relative x) last)))
  end.
Lemma index_in {A} (l : list A) i a : index l i = Ok a -> In a l.
Proof. intros E. apply index_inv in E. destruct E as (_ & E). now apply nth_error_In in E. Qed.
Lemma W_all x : In x W -> In x all.
Proof. intros I. apply in_or_app. now left. Qed.
Lemma total_mk i k start is : forall last total, total_delta_loop (mk 3 i k) start is last total =
  rmap (fun a => (a, mk 3 i k)) (total_delta start is last total).
Proof.
  induction is as [|n is IH]; intros last total; cbn [total_delta_loop total_delta]; [reflexivity|].
  rewrite by_hue_mk by lia. rewrite bind_Ok. cbn [Nat.max]. destruct (index W _) as [x|] eqn:E; [|reflexivity].
  rewrite !bind_Ok. rewrite relative_mk by lia. rewrite (T_in x) by (apply W_all; eapply index_in; eassumption).
  rewrite !bind_Ok. apply IH.
Qed.
Fixpoint steps (start divisions : Z) (temp_step : f64) (addends : list Z) (total last : f64) (acc : list hct) : res (list hct) :=
  if negb (Z.of_nat (List.length acc) <? divisions) then Ok acc else
  match addends with
  | [] => Ok acc
  | k :: ks =>
      do x <- index W (sanitize_degrees_int (start + k));
      let total := fadd total (fabs (fsub (relative x) last)) in
      let acc := push_loop (room divisions acc) x total temp_step
                   (fge total (fmul (of_Z (Z.of_nat (List.length acc))) temp_step)) 1 acc in
      if 360 <? k + 1 then Ok (acc ++ repeat x (room divisions acc))
      else steps start divisions temp_step ks total (relative x) acc
  end.
Lemma steps_mk i k start divisions temp_step addends : forall total last acc,
  analogous_loop (mk 3 i k) start divisions temp_step addends total last acc =
  rmap (fun a => (a, mk 3 i k)) (steps start divisions temp_step addends total last acc).
Proof.
  induction addends as [|n ns IH]; intros total last acc; cbn [analogous_loop steps]; destruct (negb _); try reflexivity.
  rewrite by_hue_mk by lia. rewrite bind_Ok. cbn [Nat.max]. destruct (index W _) as [x|] eqn:E; [|reflexivity].
  rewrite !bind_Ok. rewrite relative_mk by lia. rewrite (T_in x) by (apply W_all; eapply index_in; eassumption).
  rewrite !bind_Ok. cbv zeta. destruct (360 <? n + 1); [reflexivity|]. apply IH.
Qed.
Definition wheel_colors (start divisions : Z) : res (list hct) :=
  do x <- index W start;
  do total <- total_delta start (zrange 360) (relative x) (dec "0.0");
  steps start divisions (fdiv total (of_Z divisions)) (map Z.of_nat (seq 1 360)) (dec "0.0") (relative x) [x].
Definition around (count : Z) (colors : list hct) : res (list hct) :=
  do cm1 <- chk (count - 1);
  let inc := to_i64 (ffloor (fdiv (of_Z cm1) (dec "2.0"))) in
  do answers <- ccw_loop (map Z.of_nat (seq 1 (Z.to_nat inc))) colors [h];
  do d1 <- chk (count - inc);
  do dec <- chk (d1 - 1);
  cw_loop (map Z.of_nat (seq 1 (Z.to_nat dec))) colors answers.
Definition analogues (count divisions : option Z) : res (list hct) :=
  do colors <- wheel_colors (to_i64 (fround (h_hue h))) (unwrap_or divisions 12);
  around (unwrap_or count 5) colors.
Lemma analogous_mk l i k count divisions : (l <= 3)%nat ->
  match analogous (mk l i k) count divisions with
  | Ok (a, c) => analogues count divisions = Ok a /\ c = mk 3 i k
  | Panic => analogues count divisions = Panic
  end.
Proof.
  intros L. unfold analogous, analogues, wheel_colors, around. cbv zeta. change (t_input (mk l i k)) with h.
  rewrite by_hue_mk by lia. rewrite bind_Ok. destruct (index W _) as [x|] eqn:E; [|reflexivity]. rewrite !bind_Ok.
  pose proof (T_in x (W_all x (index_in _ _ _ E))) as TX.
  rewrite relative_mk by lia. rewrite TX, !bind_Ok.
  rewrite total_mk. destruct (total_delta _ _ _ _) as [t|]; [|reflexivity]. cbn [rmap]. rewrite !bind_Ok.
  rewrite relative_mk by lia. rewrite TX, !bind_Ok. rewrite steps_mk.
  destruct (steps _ _ _ _ _ _ _) as [cs|]; [|reflexivity]. cbn [rmap]. rewrite !bind_Ok.
  change (t_input (mk 3 i k)) with h.
  destruct (chk _) as [c1|]; [|reflexivity]. rewrite !bind_Ok.
  destruct (ccw_loop _ _ _) as [a1|]; [|reflexivity]. rewrite !bind_Ok.
  destruct (chk (_ - to_i64 _)) as [d1|]; [|reflexivity]. rewrite !bind_Ok.
  destruct (chk (d1 - 1)) as [d2|]; [|reflexivity]. rewrite !bind_Ok.
  destruct (cw_loop _ _ _) as [a2|]; [|reflexivity]. rewrite bind_Ok. split; reflexivity.
Qed.

(** ** Transparency *)
Definition good (c : temp_cache) : Prop := exists l i k, (l <= 3)%nat /\ c = mk l i k /\
  (i = dec "-1.0" \/ i = relative h) /\ (k = None \/ exists a, k = Some a /\ complement = Ok a).
Definition pure (k : call) : res answer :=
  match k with
  | Warmest => Ok (AColor hot)
  | Coldest => Ok (AColor cold)
  | HctsByTemp => Ok (AColors S)
  | HctsByHue => Ok (AColors W)
  | TempsByHct => Ok (ATemps T)
  | RelativeTemperature x => do _ <- temp_at T x; Ok (ANumber (relative x))
  | InputRelativeTemperature => Ok (ANumber (relative h))
  | Complement => rmap AColor complement
  | Analogous n d => rmap AColors (analogues n d)
  end.
Lemma new_good : good (tc_new h).
Proof. exists 0%nat, (dec "-1.0"), None. repeat split; auto. Qed.
Lemma perform_good c q : good c ->
  match perform c q with Ok (a, c') => pure q = Ok a /\ good c' | Panic => pure q = Panic end.
Proof.
  intros (l & i & k & L & -> & D & K). destruct q; cbn [perform pure].
  - rewrite warmest_mk by lia. cbn [answered rmap fst snd]. split; [reflexivity|]. exists 3%nat, i, k. auto.
  - rewrite coldest_mk by lia. cbn [answered rmap fst snd]. split; [reflexivity|]. exists 3%nat, i, k. auto.
  - rewrite by_temp_mk by lia. cbn [answered rmap fst snd]. split; [reflexivity|]. exists 3%nat, i, k. auto.
  - rewrite by_hue_mk by lia. cbn [answered rmap fst snd]. split; [reflexivity|]. exists (Nat.max l 1), i, k. repeat split; auto. lia.
  - rewrite temps_mk by lia. cbn [answered rmap fst snd]. split; [reflexivity|]. exists (Nat.max l 2), i, k. repeat split; auto. lia.
  - rewrite relative_mk by lia. destruct (temp_at T h0) as [t|]; [|reflexivity]. rewrite !bind_Ok.
    cbn [answered rmap fst snd]. split; [reflexivity|]. exists 3%nat, i, k. auto.
  - rewrite irt_mk by (assumption || lia). cbn [answered rmap fst snd]. split; [reflexivity|].
    exists (if fge i (dec "0.0") then l else 3%nat), (relative h), k. repeat split; auto. destruct (fge _ _); lia.
  - destruct K as [->|(a & -> & C)].
    + rewrite complement_mk by (assumption || lia). destruct complement as [a|] eqn:C; [|reflexivity].
      rewrite bind_Ok. cbn [answered rmap fst snd]. split; [reflexivity|]. exists 3%nat, (relative h), (Some a).
      repeat split; auto. right. exists a. auto.
    + unfold get_complement. cbn [mk t_complement answered rmap fst snd]. rewrite C. split; [reflexivity|].
      exists l, i, (Some a). repeat split; auto. right. exists a. auto.
  - pose proof (analogous_mk l i k count divisions L) as A. destruct (analogous _ _ _) as [(a, c)|].
    + destruct A as (A & ->). cbn [answered rmap fst snd]. rewrite A. split; [reflexivity|]. exists 3%nat, i, k. auto.
    + cbn [answered rmap]. rewrite A. reflexivity.
Qed.
Lemma after_good qs : forall c c', good c -> after_calls c qs = Ok c' -> good c'.
Proof.
  induction qs as [|q qs IH]; intros c c' G E; cbn [after_calls] in E; [inj E; exact G|].
  inv_bind E r Q. destruct r as (a, c1). pose proof (perform_good c q G) as H. rewrite Q in H.
  apply (IH c1 c'); [apply H|exact E].
Qed.
Lemma good_same c c' q : good c -> good c' -> rmap fst (perform c q) = rmap fst (perform c' q).
Proof.
  intros G G'. pose proof (perform_good c q G) as A. pose proof (perform_good c' q G') as A'.
  destruct (perform c q) as [(a, d)|], (perform c' q) as [(a', d')|]; cbn [rmap fst]; try destruct A as (A & _); try destruct A' as (A' & _); congruence.
Qed.
End Input.

(** Without a wheel nothing answers. *)
Lemma no_wheel h q : wheel (zrange 360) (h_chroma h) (h_tone h) = Panic -> perform (tc_new h) q = Panic.
Proof.
  intros E. assert (H : get_hcts_by_hue (tc_new h) = Panic).
  { unfold get_hcts_by_hue. cbn [tc_new t_hcts_by_hue t_input]. now rewrite E. }
  assert (H2 : get_temps_by_hct (tc_new h) = Panic).
  { unfold get_temps_by_hct. cbn [tc_new t_temps_by_hct]. change (get_hcts_by_hue _) with (get_hcts_by_hue (tc_new h)). now rewrite H. }
  assert (H3 : get_hcts_by_temp (tc_new h) = Panic).
  { unfold get_hcts_by_temp. cbn [tc_new t_hcts_by_temp]. change (get_hcts_by_hue _) with (get_hcts_by_hue (tc_new h)). now rewrite H. }
  destruct q; cbn [perform].
  - unfold get_warmest. now rewrite H3.
  - unfold get_coldest. now rewrite H3.
  - now rewrite H3.
  - now rewrite H.
  - now rewrite H2.
  - unfold relative_temperature. now rewrite H2.
  - unfold get_input_relative_temperature. replace (fge _ _) with false by (vm_compute; reflexivity). now rewrite H2.
  - unfold get_complement. cbn [tc_new t_complement]. unfold get_coldest at 1. change (get_hcts_by_temp _) with (get_hcts_by_temp (tc_new h)). now rewrite H3.
  - unfold analogous. cbv zeta. now rewrite H.
Qed.
Lemma cache_transparent h qs c q : after_calls (tc_new h) qs = Ok c ->
  rmap fst (perform c q) = rmap fst (perform (tc_new h) q).
Proof.
  intros E. destruct (wheel (zrange 360) (h_chroma h) (h_tone h)) as [W|] eqn:HW.
  - apply (good_same h W HW); [|apply new_good]. apply (after_good h W HW qs (tc_new h)); [apply new_good|exact E].
  - destruct qs as [|q' qs]; cbn [after_calls] in E; [inj E; reflexivity|]. rewrite no_wheel in E by exact HW. discriminate.
Qed.

(** ** The wheel *)
Lemma wheel_nth c t l : forall w, wheel l c t = Ok w -> forall i k, nth_error l i = Some k ->
  exists x, nth_error w i = Some x /\ hct_from (of_Z k) c t = Ok x.
Proof.
  induction l as [|k0 l IH]; cbn [wheel]; intros w E i k N; [destruct i; discriminate|].
  inv_bind E a Q. inv_bind E b Q'. inj E. destruct i as [|i]; cbn [nth_error] in *.
  - injection N as <-. exists a. auto.
  - apply (IH b Q' i k N).
Qed.
Lemma nth_zrange n i : (i < n)%nat -> nth_error (zrange n) i = Some (Z.of_nat i).
Proof.
  intros L. unfold zrange. rewrite nth_error_map. rewrite (nth_error_nth' _ 0%nat) by (rewrite seq_length; lia).
  rewrite seq_nth by lia. reflexivity.
Qed.
Lemma wheel_exists h : has_wheel h -> exists W, wheel (zrange 360) (h_chroma h) (h_tone h) = Ok W.
Proof.
  intros H. assert (G : forall k, In k (zrange 360) -> exists w, on_wheel h k w).
  { intros k I. apply H. apply in_zrange in I. lia. }
  clear H. induction (zrange 360) as [|k l IH]; cbn [wheel]; [eexists; reflexivity|].
  destruct (G k (or_introl eq_refl)) as (w & E). unfold on_wheel in E. rewrite E, bind_Ok.
  destruct IH as (W & E'); [intros; apply G; now right|]. rewrite E', bind_Ok. eexists; reflexivity.
Qed.
Section Wheel.
Variables (h : hct) (W : list hct).
Hypothesis HW : wheel (zrange 360) (h_chroma h) (h_tone h) = Ok W.
Lemma W_index k : 0 <= k < 360 -> exists x, index W k = Ok x /\ on_wheel h k x.
Proof.
  intros R. destruct (index_ok W k) as (x & E & N); [rewrite (W_length h W HW); lia|]. exists x. split; [exact E|].
  destruct (wheel_nth _ _ _ _ HW (Z.to_nat k) k) as (y & N' & Q).
  { rewrite nth_zrange by lia. f_equal. lia. }
  rewrite N in N'. injection N' as <-. exact Q.
Qed.
Lemma W_out k : k < 0 \/ 360 <= k -> index W k = Panic.
Proof.
  intros R. unfold index. destruct (Z.ltb_spec k 0); [reflexivity|].
  destruct (nth_error W (Z.to_nat k)) eqn:E; [|reflexivity].
  assert (L : (Z.to_nat k < List.length W)%nat) by (apply nth_error_Some; congruence). rewrite (W_length h W HW) in L. lia.
Qed.
Lemma wheel_range k x : on_wheel h k x -> fle (dec "0.0") (h_hue x) = true /\ flt (h_hue x) (dec "360.0") = true.
Proof.
  unfold on_wheel. Local Transparent hct_from. unfold hct_from. intros E. inv_bind E z Q. exact (new_hue_range z x E).
Qed.
Local Opaque hct_from.
Lemma W_range x : In x W -> fle (dec "0.0") (h_hue x) = true /\ flt (h_hue x) (dec "360.0") = true.
Proof.
  intros I. apply In_nth_error in I. destruct I as (i & N).
  assert (L : (i < List.length W)%nat) by (apply nth_error_Some; congruence). rewrite (W_length h W HW) in L.
  destruct (W_index (Z.of_nat i)) as (y & E & Q); [lia|]. apply index_inv in E. destruct E as (_ & E). rewrite Nat2Z.id in E.
  rewrite N in E. injection E as <-. exact (wheel_range _ _ Q).
Qed.

(** ** Rounding a hue to a wheel index *)
Lemma half_hue (x : f64) : fle (dec "0.0") x = true -> is_finite x = true -> (B2R x <= 360)%R ->
  to_usize (fround x) = to_i64 (fround x) /\ 0 <= to_i64 (fround x) <= 360 /\
  (to_i64 (fround x) = 360 <-> fle (dec "359.5") x = true).
Proof.
  intros A FX B. fconst (dec "0.0"). fconst (dec "359.5").
  apply (fle_fin _ _ F FX) in A. rewrite V in A.
  destruct (fround_R x FX) as (RV & RF).
  assert (Q : 0 <= ZnearestA (B2R x) <= 360).
  { pose proof (ZnearestA_mono 0 (B2R x)) as H1. pose proof (ZnearestA_mono (B2R x) 360) as H2.
    rewrite (@Zrnd_IZR (Znearest (Z.leb 0)) _) in H1, H2. split; [apply H1|apply H2]; lra. }
  rewrite (to_usize_fin _ RF), (to_i64_fin _ RF), RV, Ztrunc_IZR.
  assert (E : zclamp 0 u64_max (ZnearestA (B2R x)) = ZnearestA (B2R x)) by (unfold u64_max; zcl).
  assert (E' : zclamp i64_min i64_max (ZnearestA (B2R x)) = ZnearestA (B2R x)) by zcl.
  rewrite E, E'. split; [reflexivity|]. split; [exact Q|].
  rewrite (fle_fin _ _ F0 FX), V0. pose proof (ZnearestA_ge 360 (B2R x) ltac:(lia)) as G. split; intros H.
  - assert (360 <= ZnearestA (B2R x)) by lia. apply G in H0. lra.
  - assert (360 <= ZnearestA (B2R x)) by (apply G; lra). lia.
Qed.

(** ** The search loop of [get_complement] *)
Lemma loop_panic ks by_hue temps a b ct range target : forall se ans,
  (forall k x, In k ks -> is_between (sanitize_degrees_double (fadd a (fmul (dec "1.0") (of_Z k)))) a b = true ->
    index by_hue (to_usize (fround (sanitize_degrees_double (fadd a (fmul (dec "1.0") (of_Z k)))))) = Ok x ->
    exists t, temp_at temps x = Ok t) ->
  (complement_loop ks by_hue temps a b ct range target se ans = Panic <->
   exists k, In k ks /\ is_between (sanitize_degrees_double (fadd a (fmul (dec "1.0") (of_Z k)))) a b = true /\
     index by_hue (to_usize (fround (sanitize_degrees_double (fadd a (fmul (dec "1.0") (of_Z k)))))) = Panic).
Proof.
  induction ks as [|k ks IH]; intros se ans H.
  - cbn [complement_loop]. split; [discriminate|]. intros (k & [] & _).
  - assert (H' : forall se ans, (complement_loop ks by_hue temps a b ct range target se ans = Panic <->
      exists k, In k ks /\ is_between (sanitize_degrees_double (fadd a (fmul (dec "1.0") (of_Z k)))) a b = true /\
      index by_hue (to_usize (fround (sanitize_degrees_double (fadd a (fmul (dec "1.0") (of_Z k)))))) = Panic)).
    { intros. apply IH. intros k' x I. apply H. now right. }
    cbn [complement_loop]. cbv zeta. set (x := sanitize_degrees_double _) in *.
    destruct (is_between x a b) eqn:B; cbn [negb].
    + destruct (index by_hue (to_usize (fround x))) as [y|] eqn:E.
      * rewrite bind_Ok. destruct (H k y (or_introl eq_refl) B E) as (t & ET). rewrite ET, bind_Ok.
        destruct (flt _ se); rewrite H'; (split; [intros (k' & I & Q); exists k'; split; [now right|exact Q]|]);
          intros (k' & [<-|I] & Q1 & Q2); [fold x in Q2; congruence|exists k'; auto|fold x in Q2; congruence|exists k'; auto].
      * cbn [bind]. split; [intros _|reflexivity]. exists k. split; [now left|]. split; [exact B|exact E].
    + rewrite H'. split; [intros (k' & I & Q); exists k'; split; [now right|exact Q]|].
      intros (k' & [<-|I] & Q1 & Q2); [|exists k'; auto]. fold x in Q1. congruence.
Qed.

Lemma one_times k : 0 <= k < 360 -> fmul (dec "1.0") (of_Z k) = of_Z k.
Proof.
  intros R. destruct (Z.eq_dec k 0) as [->|N].
  - assert (E : B2SF (fmul (dec "1.0") (of_Z 0)) = B2SF (of_Z 0)) by (vm_compute; reflexivity).
    exact (B2SF_inj _ _ _ _ E).
  - fconst (dec "1.0"). destruct (of_Z_R k ltac:(lia)) as (VK & FK).
    assert (HK : (0 < IZR k < 360)%R) by (split; [apply IZR_lt; lia|apply (IZR_lt k 360); lia]).
    destruct (fmul_S (dec "1.0") (of_Z k) F FK) as (VM & FM); [unfold HUGE; rewrite V, VK; lra|].
    apply B2R_eq_nz; try assumption.
    + rewrite VM, V, VK. rewrite <- VK, Rmult_1_l. apply rnd_B2R.
    + rewrite VM, V, Rmult_1_l, rnd_B2R, VK. lra.
Qed.
Lemma turn_range (a : f64) k : fle (dec "0.0") a = true -> flt a (dec "360.0") = true -> 0 <= k < 360 ->
  is_finite (sanitize_degrees_double (fadd a (of_Z k))) = true /\
  fle (dec "0.0") (sanitize_degrees_double (fadd a (of_Z k))) = true /\
  (B2R (sanitize_degrees_double (fadd a (of_Z k))) <= 360)%R.
Proof.
  intros A B R. destruct (hue_fin a A B) as (FA & RA). destruct (of_Z_R k ltac:(lia)) as (VK & FK).
  assert (HK : (0 <= IZR k < 360)%R) by (split; [apply (IZR_le 0); lia|apply (IZR_lt k 360); lia]).
  destruct (fadd_S a (of_Z k) FA FK) as (VS & FS); [unfold HUGE; rewrite VK; lra|].
  destruct (sanitize_double _ FS) as (m & F & RS & _). split; [exact F|]. fconst (dec "0.0").
  split; [|apply RS]. apply (fle_fin _ _ F0 F). rewrite V. apply RS.
Qed.
Lemma cold_range : hct_from_int (h_argb h) = Ok h ->
  fle (dec "0.0") (h_hue (cold h W)) = true /\ flt (h_hue (cold h W)) (dec "360.0") = true.
Proof.
  intros E. pose proof (cold_in h W HW) as I. apply in_app_or in I. destruct I as [I|[I|[]]]; [now apply W_range|].
  rewrite <- I. exact (from_int_range _ _ E).
Qed.
Lemma hot_range : hct_from_int (h_argb h) = Ok h ->
  fle (dec "0.0") (h_hue (hot h W)) = true /\ flt (h_hue (hot h W)) (dec "360.0") = true.
Proof.
  intros E. pose proof (hot_in h W HW) as I. apply in_app_or in I. destruct I as [I|[I|[]]]; [now apply W_range|].
  rewrite <- I. exact (from_int_range _ _ E).
Qed.
Lemma hue_index (x : f64) : fle (dec "0.0") x = true -> is_finite x = true -> (B2R x <= 360)%R ->
  index W (to_usize (fround x)) = Panic <-> fle (dec "359.5") x = true.
Proof.
  intros A F B. destruct (half_hue x A F B) as (E & R & Q). rewrite E. split; intros H.
  - apply Q. destruct (Z.eq_dec (to_i64 (fround x)) 360) as [e|n]; [exact e|].
    destruct (W_index (to_i64 (fround x))) as (y & Y & _); [lia|]. congruence.
  - apply Q in H. rewrite H. apply W_out. lia.
Qed.
Lemma complement_panics : hct_from_int (h_argb h) = Ok h ->
  complement h W = Panic <-> (fle (dec "359.5") (h_hue h) = true \/
    exists k, 0 <= k < 360 /\
      is_between (sanitize_degrees_double (fadd (fst (arc h W)) (of_Z k))) (fst (arc h W)) (snd (arc h W)) = true /\
      fle (dec "359.5") (sanitize_degrees_double (fadd (fst (arc h W)) (of_Z k))) = true).
Proof.
  intros EH. destruct (from_int_range _ _ EH) as (H1 & H2). destruct (hue_fin _ H1 H2) as (HF & HR).
  assert (AR : fle (dec "0.0") (fst (arc h W)) = true /\ flt (fst (arc h W)) (dec "360.0") = true).
  { unfold arc. destruct (is_between _ _ _); cbn [fst]; [apply hot_range|apply cold_range]; exact EH. }
  destruct AR as (A1 & A2).
  unfold complement. pose proof (hue_index (h_hue h) H1 HF ltac:(lra)) as HI.
  destruct (index W (to_usize (fround (h_hue h)))) as [a|] eqn:E.
  - rewrite bind_Ok. rewrite loop_panic.
    + split.
      * intros (k & I & B & P). right. exists k. apply in_zrange in I. assert (R : 0 <= k < 360) by lia. rewrite one_times in B, P by exact R.
        split; [exact R|]. split; [exact B|]. destruct (turn_range _ k A1 A2 R) as (F & L & U). now apply hue_index in P.
      * intros [H|(k & R & B & P)]; [apply HI in H; discriminate|]. exists k. split; [apply in_zrange; lia|]. rewrite one_times by exact R.
        split; [exact B|]. destruct (turn_range _ k A1 A2 R) as (F & L & U). now apply hue_index.
    + intros k x _ _ X. exists (raw_temperature x). apply T_in, W_all. eapply index_in; exact X.
  - cbn [bind]. split; [intros _; left; now apply HI|reflexivity].
Qed.

(** ** The colours collected around the wheel *)


Lemma push_shape n x total step : forall sat add acc, exists m, (m <= n)%nat /\
  push_loop n x total step sat add acc = acc ++ repeat x m.
Proof.
  induction n as [|n IH]; intros sat add acc; cbn [push_loop].
  - exists 0%nat. cbn [repeat]. rewrite app_nil_r. auto.
  - destruct sat.
    + cbv zeta. destruct (IH (fge total (fmul (of_Z (Z.of_nat (List.length (acc ++ [x])) + add)) step)) (add + 1) (acc ++ [x])) as (m & L & E).
      exists (Datatypes.S m). split; [lia|]. rewrite E. cbn [repeat]. rewrite <- app_assoc. reflexivity.
    + exists 0%nat. cbn [repeat]. rewrite app_nil_r. split; [lia|reflexivity].
Qed.
Lemma nondecreasing_weaken a b l : a <= b -> nondecreasing b l -> nondecreasing a l.
Proof. destruct l as [|x l]; cbn [nondecreasing]; [easy|]. intros H (R & N). split; [lia|exact N]. Qed.
Lemma nondecreasing_repeat k n l : k <= 360 -> nondecreasing k l -> nondecreasing k (repeat k n ++ l).
Proof. intros K N. induction n as [|n IH]; cbn [repeat app nondecreasing]; [exact N|]. split; [lia|exact IH]. Qed.
Definition at_offset (start o : Z) (x : hct) : Prop := index W (sanitize_degrees_int (start + o)) = Ok x.
Lemma offset_repeat start k x n : at_offset start k x -> Forall2 (at_offset start) (repeat k n) (repeat x n).
Proof. intros A. induction n; cbn [repeat]; constructor; assumption. Qed.
Lemma steps_shape start divisions step n : forall k total last acc, (1 <= n)%nat -> Z.of_nat k + Z.of_nat n = 361 ->
  exists offs more, steps h W start divisions step (map Z.of_nat (seq k n)) total last acc = Ok (acc ++ more) /\
    nondecreasing (Z.of_nat k) offs /\ Forall2 (at_offset start) offs more /\
    Z.of_nat (List.length (acc ++ more)) = Z.max (Z.of_nat (List.length acc)) divisions.
Proof.
  induction n as [|n IH]; intros k total last acc N K; [lia|]. cbn [seq map steps].
  destruct (Z.ltb_spec (Z.of_nat (List.length acc)) divisions) as [L|L]; cbn [negb].
  2:{ exists [], []. rewrite app_nil_r. repeat split; try constructor. lia. }
  destruct (sanitize_int (start + Z.of_nat k)) as (R & _).
  destruct (W_index _ R) as (x & X & _). rewrite X, bind_Ok. cbv zeta.
  set (total' := fadd total _).
  destruct (push_shape (room divisions acc) x total' step (fge total' (fmul (of_Z (Z.of_nat (List.length acc))) step)) 1 acc) as (m & M & E).
  rewrite E. unfold room in M. destruct (Z.ltb_spec 360 (Z.of_nat k + 1)) as [B|B].
  - exists (repeat (Z.of_nat k) (m + room divisions (acc ++ repeat x m))), (repeat x (m + room divisions (acc ++ repeat x m))).
    split; [rewrite repeat_app, app_assoc; reflexivity|]. split; [|split].
    + rewrite <- (app_nil_r (repeat _ _)). apply nondecreasing_repeat; [lia|exact Logic.I].
    + now apply offset_repeat.
    + unfold room. rewrite !app_length, !repeat_length. lia.
  - destruct (IH (Datatypes.S k) total' (relative h W x) (acc ++ repeat x m)) as (offs & more & ES & ND & F2 & LE); [lia|lia|].
    rewrite ES. exists (repeat (Z.of_nat k) m ++ offs), (repeat x m ++ more). split; [now rewrite app_assoc|]. split; [|split].
    + apply nondecreasing_repeat; [lia|]. apply (nondecreasing_weaken _ (Z.of_nat (Datatypes.S k))); [lia|exact ND].
    + apply Forall2_app; [now apply offset_repeat|exact F2].
    + rewrite <- app_assoc in LE. rewrite LE. rewrite !app_length, repeat_length. lia.
Qed.
Lemma total_ok start is : forall last total, exists t, total_delta h W start is last total = Ok t.
Proof.
  induction is as [|i is IH]; intros last total; cbn [total_delta]; [eexists; reflexivity|].
  destruct (sanitize_int (start + i)) as (R & _). destruct (W_index _ R) as (x & X & _). rewrite X, bind_Ok. apply IH.
Qed.
Lemma colors_shape start divisions : 0 <= start < 360 ->
  exists offs colors, wheel_colors h W start divisions = Ok colors /\ nondecreasing 0 (0 :: offs) /\
    Forall2 (at_offset start) (0 :: offs) colors /\ Z.of_nat (List.length colors) = Z.max 1 divisions.
Proof.
  intros R. unfold wheel_colors. destruct (W_index start R) as (x & X & _). rewrite X, bind_Ok.
  destruct (total_ok start (zrange 360) (relative h W x) (dec "0.0")) as (t & E). rewrite E, bind_Ok.
  destruct (steps_shape start divisions (fdiv t (of_Z divisions)) 360 1 (dec "0.0") (relative h W x) [x]) as (offs & more & ES & ND & F2 & LE); [lia|lia|].
  rewrite ES. exists offs, ([x] ++ more). split; [reflexivity|]. split; [|split; [|exact LE]].
  - cbn [nondecreasing]. split; [lia|]. apply (nondecreasing_weaken _ 1); [lia|exact ND].
  - constructor; [|exact F2]. unfold at_offset. rewrite Z.add_0_r. destruct (sanitize_int start) as (R' & q & Q).
    replace (sanitize_degrees_int start) with start by lia. exact X.
Qed.

(** ** The result list *)
Definition pick (colors : list hct) (i : Z) : hct := nth (Z.to_nat (i mod Z.of_nat (List.length colors))) colors h.
Lemma pick_ok colors i : colors <> [] -> index colors (wrap_index i (Z.of_nat (List.length colors))) = Ok (pick colors i).
Proof.
  intros N. unfold wrap_index, pick. assert (P : 0 < Z.of_nat (List.length colors)) by (destruct colors; [easy|cbn [List.length]; lia]).
  pose proof (Z.mod_pos_bound i _ P) as B. destruct (index_ok colors _ B) as (a & E & Q). rewrite E. f_equal.
  symmetry. apply nth_error_nth. exact Q.
Qed.
Lemma ccw_ok colors is : colors <> [] -> forall ans,
  ccw_loop is colors ans = Ok (rev (map (fun i => pick colors (0 - i)) is) ++ ans).
Proof.
  intros N. induction is as [|i is IH]; intros ans; cbn [ccw_loop map rev]; [reflexivity|].
  rewrite pick_ok by exact N. rewrite bind_Ok, IH, <- app_assoc. reflexivity.
Qed.
Lemma cw_ok colors is : colors <> [] -> forall ans,
  cw_loop is colors ans = Ok (ans ++ map (pick colors) is).
Proof.
  intros N. induction is as [|i is IH]; intros ans; cbn [cw_loop map]; [now rewrite app_nil_r|].
  rewrite pick_ok by exact N. rewrite bind_Ok, IH, <- app_assoc. reflexivity.
Qed.
Lemma half_count c : - 2 ^ 53 <= c <= 2 ^ 53 -> to_i64 (ffloor (fdiv (of_Z c) (dec "2.0"))) = c / 2.
Proof.
  intros R. destruct (of_Z_R c ltac:(lia)) as (V & F). fconst (dec "2.0").
  assert (B : (- 9007199254740992 <= IZR c <= 9007199254740992)%R) by (split; apply IZR_le; lia).
  destruct (fdiv_S (of_Z c) (dec "2.0") F) as (VD & FD); [rewrite V0; lra|unfold HUGE; rewrite V0, V; lra|].
  rewrite V0, V in VD. rewrite (rnd_fmt (IZR c / 2)) in VD.
  2:{ change (IZR c / 2)%R with (IZR c * / 2)%R. apply (fmt_FLT c (-1)); lia. }
  destruct (ffloor_R _ FD) as (VF & FF). rewrite (to_i64_fin _ FF), VF, Ztrunc_IZR, VD.
  assert (E : Zfloor (IZR c / 2) = c / 2).
  { change 2%R with (IZR 2). rewrite Zfloor_div by lia. reflexivity. }
  rewrite E. pose proof (Z.div_mod c 2). pose proof (Z.mod_pos_bound c 2). 
  unfold zclamp, i64_min, i64_max. destruct (Z.ltb_spec (c / 2) (- 2 ^ 63)); [lia|]. destruct (Z.ltb_spec (2 ^ 63 - 1) (c / 2)); lia.
Qed.
Definition before (count : Z) : Z := Z.max 0 ((count - 1) / 2).
Lemma nth_map_seq {A} (f : Z -> A) a n j : (j < n)%nat -> nth_error (map f (map Z.of_nat (seq a n))) j = Some (f (Z.of_nat (a + j))).
Proof.
  intros L. rewrite !nth_error_map, (nth_error_nth' _ 0%nat) by (rewrite seq_length; lia). rewrite seq_nth by lia. reflexivity.
Qed.
Lemma around_shape count colors : colors <> [] -> - 2 ^ 53 < count <= 2 ^ 53 ->
  exists l, around h count colors = Ok l /\ Z.of_nat (List.length l) = Z.max 1 count /\
    nth_error l (Z.to_nat (before count)) = Some h /\
    forall j, 0 <= j < Z.max 1 count -> j <> before count ->
      nth_error l (Z.to_nat j) = nth_error colors (Z.to_nat ((j - before count) mod Z.of_nat (List.length colors))).
Proof.
  intros N R. unfold around. rewrite chk_ok by (unfold i64_min, i64_max; lia). rewrite bind_Ok. cbv zeta.
  rewrite half_count by lia. set (inc := (count - 1) / 2).
  assert (D : 2 * inc <= count - 1 < 2 * inc + 2) by (unfold inc; pose proof (Z.div_mod (count - 1) 2); pose proof (Z.mod_pos_bound (count - 1) 2); lia).
  rewrite ccw_ok by exact N. rewrite bind_Ok. rewrite (chk_ok (count - inc)) by (unfold i64_min, i64_max; lia). rewrite bind_Ok.
  rewrite chk_ok by (unfold i64_min, i64_max; lia). rewrite bind_Ok. rewrite cw_ok by exact N.
  eexists. split; [reflexivity|].
  set (a := rev _). set (b := map (pick colors) _).
  assert (LA : List.length a = Z.to_nat inc) by (unfold a; rewrite rev_length, !map_length, seq_length; reflexivity).
  assert (LB : List.length b = Z.to_nat (count - inc - 1)) by (unfold b; rewrite !map_length, seq_length; reflexivity).
  assert (BI : before count = Z.max 0 inc) by reflexivity.
  assert (P : 0 < Z.of_nat (List.length colors)) by (destruct colors; [easy|cbn [List.length]; lia]).
  assert (PK : forall i, Some (pick colors i) = nth_error colors (Z.to_nat (i mod Z.of_nat (List.length colors)))).
  { intros i. unfold pick. pose proof (Z.mod_pos_bound i _ P). symmetry. apply nth_error_nth'. lia. }
  split; [|split].
  - rewrite !app_length, LA, LB. cbn [List.length]. lia.
  - rewrite BI. rewrite <- app_assoc. rewrite nth_error_app2 by lia. rewrite LA.
    replace (Z.to_nat (Z.max 0 inc) - Z.to_nat inc)%nat with 0%nat by lia. reflexivity.
  - intros j J NJ. rewrite <- PK. rewrite BI in *. rewrite <- app_assoc. destruct (Z.ltb_spec j (Z.max 0 inc)) as [L|L].
    + rewrite nth_error_app1 by lia. unfold a.
      set (q := map _ _). assert (LQ : List.length q = Z.to_nat inc) by (unfold q; rewrite !map_length, seq_length; reflexivity).
      rewrite (nth_error_nth' _ h) by (rewrite rev_length; lia). rewrite rev_nth by lia. rewrite LQ.
      f_equal. apply nth_error_nth. unfold q. rewrite nth_map_seq by lia. do 2 f_equal. lia.
    + rewrite nth_error_app2 by lia. rewrite LA. cbn [app].
      replace (Z.to_nat j - Z.to_nat inc)%nat with (Datatypes.S (Z.to_nat (j - Z.max 0 inc - 1))) by lia. cbn [nth_error].
      unfold b. rewrite nth_map_seq by lia. do 2 f_equal. lia.
Qed.

(** ** Sorting by temperature *)
Lemma temp_lt_raw x y : In x (all h W) -> In y (all h W) -> temp_lt (T h W) x y = flt (raw_temperature x) (raw_temperature y).
Proof.
  intros X Y. unfold temp_lt. pose proof (T_in h W x X) as A. pose proof (T_in h W y Y) as B. unfold temp_at in A, B.
  destruct (afind hct_eqb (T h W) x); [|discriminate]. destruct (afind hct_eqb (T h W) y); [|discriminate].
  cbn [ok_or_panic] in A, B. inj A. inj B. reflexivity.
Qed.
Definition cooler (a b : hct) : Prop := fle (raw_temperature a) (raw_temperature b) = true.
Lemma S_sorted : (forall x, In x (all h W) -> is_nan (raw_temperature x) = false) ->
  StronglySorted cooler (S h W).
Proof.
  intros N. assert (Q : StronglySorted (fun a b => temp_lt (T h W) b a = false) (S h W)).
  { apply (sort_sorted (temp_lt (T h W)) (fun x => In x (all h W))).
    - intros x y z X Y Z. rewrite !temp_lt_raw by assumption.
      rewrite !flt_val_f by (apply N; assumption). lra.
    - intros x y X Y. rewrite !temp_lt_raw by assumption. rewrite flt_val, flt_val_f by (apply N; assumption). lra.
    - apply Forall_forall. auto. }
  assert (I : forall x, In x (S h W) -> In x (all h W)) by (intros x; apply Permutation_in, S_perm).
  revert I Q. generalize (S h W) as l. induction l as [|x l IH]; intros I Q; [constructor|].
  inversion Q as [|? ? Q1 Q2]; subst. constructor; [apply IH; [intros; apply I; now right|exact Q1]|].
  rewrite Forall_forall in Q2 |- *. intros y Y. specialize (Q2 y Y). cbv beta in Q2.
  assert (In x (all h W)) by (apply I; now left). assert (In y (all h W)) by (apply I; now right).
  rewrite temp_lt_raw in Q2 by assumption. unfold cooler. apply fle_val; try (apply N; assumption).
  apply flt_val_f in Q2; try (apply N; assumption). exact Q2.
Qed.
Lemma last_max {A} (R : A -> A -> Prop) (l : list A) d x : (forall a, In a l -> R a a) -> StronglySorted R l -> In x l -> R x (last l d).
Proof.
  intros RF Q. revert RF. induction Q as [|y l Q IH F]; intros RF I; [easy|]. destruct l as [|z l].
  - destruct I as [<-|[]]. apply RF. now left.
  - change (last (y :: z :: l) d) with (last (z :: l) d). destruct I as [<-|I].
    + rewrite Forall_forall in F. apply F. destruct (@exists_last _ (z :: l) ltac:(discriminate)) as (l' & w & E). rewrite E, last_last.
      apply in_or_app. right. now left.
    + apply IH; [|exact I]. intros a A'. apply RF. now right.
Qed.
Lemma extremes : (forall x, In x (all h W) -> is_nan (raw_temperature x) = false) -> forall x, In x (all h W) ->
  cooler (cold h W) x /\ cooler x (hot h W).
Proof.
  intros N x I. pose proof (S_sorted N) as Q. assert (IS : In x (S h W)) by (apply (Permutation_in _ (Permutation_sym (S_perm h W))); exact I).
  assert (RF : forall a, In a (S h W) -> cooler a a).
  { intros a A. assert (A' : In a (all h W)) by (apply (Permutation_in _ (S_perm h W)); exact A).
    unfold cooler. apply fle_val; try (apply N; exact A'). lra. }
  split.
  - unfold cold. destruct (S h W) as [|y l]; [easy|]. cbn [hd]. destruct IS as [<-|IS].
    + apply RF. now left.
    + inversion Q as [|? ? _ F]; subst. rewrite Forall_forall in F. now apply F.
  - unfold hot. apply last_max; assumption.
Qed.

(** ** Relative temperatures *)
Definition tame (x : hct) : Prop := is_finite (raw_temperature x) = true /\ (Rabs (B2R (raw_temperature x)) <= 1000000)%R.
Lemma tame_nn x : tame x -> is_nan (raw_temperature x) = false.
Proof. intros (F & _). now apply fin_not_nan. Qed.
Lemma diff_R x y : tame x -> tame y ->
  B2R (fsub (raw_temperature x) (raw_temperature y)) = rnd (B2R (raw_temperature x) - B2R (raw_temperature y)) /\
  is_finite (fsub (raw_temperature x) (raw_temperature y)) = true.
Proof.
  intros (FX & BX) (FY & BY). apply Rabs_le_inv in BX, BY. apply fsub_S; try assumption. unfold HUGE. lra.
Qed.
Lemma relative_range : (forall x, In x (all h W) -> tame x) -> forall x, In x (all h W) ->
  (feq (raw_temperature (cold h W)) (raw_temperature (hot h W)) = true -> relative h W x = dec "0.5") /\
  (feq (raw_temperature (cold h W)) (raw_temperature (hot h W)) = false ->
     is_finite (relative h W x) = true /\ (0 <= B2R (relative h W x) <= 1)%R /\
     (feq (raw_temperature x) (raw_temperature (cold h W)) = true -> B2R (relative h W x) = 0%R) /\
     (feq (raw_temperature x) (raw_temperature (hot h W)) = true -> B2R (relative h W x) = 1%R)).
Proof.
  intros TM x I. set (c := cold h W). set (w := hot h W).
  assert (TC : tame c) by (apply TM, cold_in, HW). assert (TW : tame w) by (apply TM, hot_in, HW). assert (TX : tame x) by (apply TM, I).
  destruct (extremes (fun y Y => tame_nn y (TM y Y)) x I) as (L1 & L2). fold c in L1. fold w in L2. unfold cooler in L1, L2.
  pose proof (proj1 TC) as FC. pose proof (proj1 TW) as FW. pose proof (proj1 TX) as FX.
  rewrite (fle_fin _ _ FC FX) in L1. rewrite (fle_fin _ _ FX FW) in L2.
  destruct (diff_R w c TW TC) as (VS & FS). destruct (diff_R x c TX TC) as (VD & FD).
  unfold relative, span. fold c w. fconst (dec "0.0"). split.
  - intros E. rewrite (feq_fin _ _ FC FW) in E.
    replace (feq (fsub (raw_temperature w) (raw_temperature c)) (dec "0.0")) with true; [reflexivity|].
    symmetry. apply (feq_fin _ _ FS F). rewrite VS, V, E, Rminus_diag_eq by reflexivity. apply rnd_0.
  - intros E. assert (NE : B2R (raw_temperature c) <> B2R (raw_temperature w)).
    { intros Q. apply (feq_fin _ _ FC FW) in Q. congruence. }
    assert (SP : (0 < rnd (B2R (raw_temperature w) - B2R (raw_temperature c)))%R).
    { assert (P : (0 <= B2R (raw_temperature w) - B2R (raw_temperature c))%R) by lra.
      apply rnd_ge_0 in P. destruct P as [P|P]; [exact P|].
      symmetry in P. apply rnd_sub_0 in P. lra. }
    replace (feq (fsub (raw_temperature w) (raw_temperature c)) (dec "0.0")) with false.
    2:{ clear E. destruct (feq (fsub _ _) _) eqn:Q; [|reflexivity]. apply (feq_fin _ _ FS F) in Q. rewrite VS, V in Q. lra. }
    assert (DP : (0 <= rnd (B2R (raw_temperature x) - B2R (raw_temperature c)) <= rnd (B2R (raw_temperature w) - B2R (raw_temperature c)))%R).
    { split; [apply rnd_ge_0; lra|apply rnd_mono; lra]. }
    set (d := fsub (raw_temperature x) (raw_temperature c)) in *. set (r := fsub (raw_temperature w) (raw_temperature c)) in *.
    rewrite <- VS in *. rewrite <- VD in *.
    assert (QR : (0 <= B2R d / B2R r <= 1)%R).
    { split; [apply Rmult_le_pos; [lra|left; apply Rinv_0_lt_compat; lra]|].
      apply Rmult_le_reg_r with (B2R r); [lra|]. unfold Rdiv. rewrite Rmult_assoc, Rinv_l by lra. lra. }
    destruct (fdiv_S d r FD ltac:(lra)) as (VQ & FQ); [unfold HUGE; lra|].
    split; [exact FQ|]. rewrite VQ. split; [|split].
    + split; [apply rnd_ge_0; exact (proj1 QR)|]. apply (rnd_le_IZR _ 1); [lia|exact (proj2 QR)].
    + intros Q. apply (feq_fin _ _ FX FC) in Q. replace (B2R d) with 0%R.
      * unfold Rdiv. rewrite Rmult_0_l. apply rnd_0.
      * rewrite VD, Q, Rminus_diag_eq by reflexivity. symmetry. apply rnd_0.
    + intros Q. apply (feq_fin _ _ FX FW) in Q. replace (B2R d) with (B2R r).
      * unfold Rdiv. rewrite Rinv_r by lra. apply (rnd_IZR 1). lia.
      * rewrite VD, VS, Q. reflexivity.
Qed.
End Wheel.

(** ** The public operations on a fresh cache *)
Lemma coherent_int z h : hct_from_int z = Ok h -> hct_from_int (h_argb h) = Ok h.
Proof. intros E. now rewrite (from_int_argb _ _ E). Qed.
Lemma fresh h : tc_new h = mk h [] 0 (dec "-1.0") None. Proof. reflexivity. Qed.
Lemma start_range z h : hct_from_int z = Ok h ->
  to_usize (fround (h_hue h)) = to_i64 (fround (h_hue h)) /\ 0 <= to_i64 (fround (h_hue h)) <= 360 /\
  (to_i64 (fround (h_hue h)) = 360 <-> fle (dec "359.5") (h_hue h) = true).
Proof.
  intros E. destruct (from_int_range _ _ E) as (A & B). destruct (hue_fin _ A B) as (F & R). apply half_hue; [exact A|exact F|lra].
Qed.
Lemma new_fresh h W : tc_new h = mk h W 0 (dec "-1.0") None.
Proof. reflexivity. Qed.
Lemma not_late (x : f64) : is_finite x = true -> flt x (dec "359.5") = true -> fle (dec "359.5") x = false.
Proof. intros F L. fconst (dec "359.5"). apply (flt_fin _ _ F F0) in L. apply (fle_fin_f _ _ F0 F). exact L. Qed.
Lemma analogous_late z h count divisions : hct_from_int z = Ok h -> fle (dec "359.5") (h_hue h) = true ->
  analogous (tc_new h) count divisions = Panic.
Proof.
  intros E L. destruct (wheel (zrange 360) (h_chroma h) (h_tone h)) as [W|] eqn:HW.
  - pose proof (analogous_mk h W HW 0 (dec "-1.0") None count divisions ltac:(lia)) as A. rewrite <- new_fresh in A.
    destruct (analogous _ _ _) as [(a, c)|]; [|reflexivity]. destruct A as (A & _). exfalso. revert A.
    unfold analogues, wheel_colors. destruct (start_range z h E) as (_ & _ & Q). apply Q in L. rewrite L.
    rewrite (W_out h W HW) by lia. discriminate.
  - pose proof (no_wheel h (Analogous count divisions) HW) as N. cbn [perform] in N.
    destruct (analogous _ _ _) as [(a, c)|]; [discriminate|reflexivity].
Qed.
Lemma complement_late z h : hct_from_int z = Ok h -> fle (dec "359.5") (h_hue h) = true ->
  get_complement (tc_new h) = Panic.
Proof.
  intros E L. destruct (wheel (zrange 360) (h_chroma h) (h_tone h)) as [W|] eqn:HW.
  - rewrite (new_fresh h W). rewrite (complement_mk h W HW) by (auto; lia).
    replace (complement h W) with (@Panic hct); [reflexivity|]. symmetry. apply (complement_panics h W HW); [eapply coherent_int; eassumption|].
    now left.
  - pose proof (no_wheel h Complement HW) as N. cbn [perform] in N. destruct (get_complement _) as [(a, c)|]; [discriminate|reflexivity].
Qed.
Lemma analogues_shape h W count divisions : wheel (zrange 360) (h_chroma h) (h_tone h) = Ok W ->
  0 <= to_i64 (fround (h_hue h)) < 360 -> count_fits count ->
  exists l, analogues h W count divisions = Ok l /\ analogous_shape h (unwrap_or count 5) (unwrap_or divisions 12) l.
Proof.
  intros HW R CF. unfold analogues.
  destruct (colors_shape h W HW (to_i64 (fround (h_hue h))) (unwrap_or divisions 12) R) as (offs & colors & E & ND & F2 & LE).
  rewrite E, bind_Ok.
  destruct (around_shape h (unwrap_or count 5) colors) as (l & EL & L1 & L2 & L3).
  - intros ->. cbn [List.length] in LE. lia.
  - exact CF.
  - exists l. split; [exact EL|]. exists offs, colors. split; [exact ND|]. split.
    { clear - F2 HW. revert F2. generalize (0 :: offs) as os. induction 1 as [|o x os xs A F IH]; constructor; [|exact IH].
      unfold at_offset in A. destruct (sanitize_int (to_i64 (fround (h_hue h)) + o)) as (RS & q & Q).
      assert (ES : sanitize_degrees_int (to_i64 (fround (h_hue h)) + o) = (to_i64 (fround (h_hue h)) + o) mod 360).
      { apply (Z.mod_unique_pos _ 360 q); lia. }
      rewrite <- ES. destruct (W_index h W HW _ RS) as (y & Y & OY). rewrite A in Y. inj Y. exact OY. }
    split; [exact LE|]. split; [exact L1|]. split; [exact L2|exact L3].
Qed.
Lemma analogous_returns z h count divisions : hct_from_int z = Ok h -> has_wheel h -> flt (h_hue h) (dec "359.5") = true ->
  count_fits count -> exists l c, analogous (tc_new h) count divisions = Ok (l, c).
Proof.
  intros E HH L CF. destruct (wheel_exists h HH) as (W & HW).
  destruct (from_int_range _ _ E) as (A & B). destruct (hue_fin _ A B) as (F & _).
  destruct (start_range z h E) as (_ & R & Q).
  destruct (analogues_shape h W count divisions HW) as (l & EL & _).
  - assert (N : to_i64 (fround (h_hue h)) <> 360) by (intros N; apply Q in N; rewrite (not_late _ F L) in N; discriminate). lia.
  - exact CF.
  - pose proof (analogous_mk h W HW 0 (dec "-1.0") None count divisions ltac:(lia)) as M. rewrite <- new_fresh in M.
    destruct (analogous _ _ _) as [(a, c)|]; [exists a, c; reflexivity|congruence].
Qed.
Lemma analogous_result z h count divisions l c : hct_from_int z = Ok h -> count_fits count ->
  analogous (tc_new h) count divisions = Ok (l, c) -> analogous_shape h (unwrap_or count 5) (unwrap_or divisions 12) l.
Proof.
  intros E CF EA. destruct (start_range z h E) as (_ & R & Q).
  assert (N : to_i64 (fround (h_hue h)) <> 360).
  { intros N. apply Q in N. rewrite (analogous_late z h count divisions E N) in EA. discriminate. }
  destruct (wheel (zrange 360) (h_chroma h) (h_tone h)) as [W|] eqn:HW.
  - destruct (analogues_shape h W count divisions HW) as (l' & EL & SH); [lia|exact CF|].
    pose proof (analogous_mk h W HW 0 (dec "-1.0") None count divisions ltac:(lia)) as M. rewrite <- new_fresh, EA in M.
    destruct M as (M & _). rewrite M in EL. inj EL. exact SH.
  - pose proof (no_wheel h (Analogous count divisions) HW) as NW. cbn [perform] in NW. rewrite EA in NW. discriminate.
Qed.
Lemma bind_panic {A B} (a : res A) (f : A -> B) : bind a (fun x => Ok (f x)) = Panic <-> a = Panic.
Proof. destruct a; cbn [bind]; split; congruence. Qed.
Lemma complement_iff z h cld wrm c1 c2 : hct_from_int z = Ok h ->
  get_coldest (tc_new h) = Ok (cld, c1) -> get_warmest (tc_new h) = Ok (wrm, c2) ->
  let warm_side := is_between (h_hue h) (h_hue cld) (h_hue wrm) in
  let start := h_hue (if warm_side then wrm else cld) in
  let stop := h_hue (if warm_side then cld else wrm) in
  get_complement (tc_new h) = Panic <->
    (fle (dec "359.5") (h_hue h) = true \/
     exists k, 0 <= k < 360 /\
       is_between (sanitize_degrees_double (fadd start (of_Z k))) start stop = true /\
       fle (dec "359.5") (sanitize_degrees_double (fadd start (of_Z k))) = true).
Proof.
  intros E EC EW. destruct (wheel (zrange 360) (h_chroma h) (h_tone h)) as [W|] eqn:HW.
  2:{ pose proof (no_wheel h Coldest HW) as N. cbn [perform] in N. rewrite EC in N. discriminate. }
  rewrite (new_fresh h W) in EC, EW. rewrite (coldest_mk h W HW) in EC by lia. rewrite (warmest_mk h W HW) in EW by lia.
  apply ok_inj in EC, EW. injection EC as EC _. injection EW as EW _. subst cld wrm. cbv zeta.
  rewrite (new_fresh h W). rewrite (complement_mk h W HW) by (auto; lia).
  rewrite (bind_panic (complement h W) (fun a => (a, mk h W 3 (relative h W h) (Some a)))). rewrite (complement_panics h W HW) by (eapply coherent_int; eassumption).
  unfold arc. destruct (is_between (h_hue h) _ _); reflexivity.
Qed.
Lemma in_all h W x : wheel (zrange 360) (h_chroma h) (h_tone h) = Ok W ->
  In x (all h W) <-> (x = h \/ exists k, 0 <= k < 360 /\ on_wheel h k x).
Proof.
  intros HW. unfold all. rewrite in_app_iff. split.
  - intros [I|[->|[]]]; [right|now left]. apply In_nth_error in I. destruct I as (i & N).
    assert (L : (i < List.length W)%nat) by (apply nth_error_Some; congruence). rewrite (W_length h W HW) in L.
    destruct (W_index h W HW (Z.of_nat i)) as (y & Y & Q); [lia|]. apply index_inv in Y. destruct Y as (_ & Y). rewrite Nat2Z.id, N in Y.
    injection Y as ->. exists (Z.of_nat i). split; [lia|exact Q].
  - intros [->|(k & R & Q)]; [right; now left|]. left. destruct (W_index h W HW k R) as (y & Y & QY).
    unfold on_wheel in Q, QY. rewrite Q in QY. inj QY. eapply index_in; exact Y.
Qed.
Lemma by_temp_result h l c : get_hcts_by_temp (tc_new h) = Ok (l, c) ->
  (forall x, x = h \/ (exists k, 0 <= k < 360 /\ on_wheel h k x) -> is_nan (raw_temperature x) = false) ->
  List.length l = 361%nat /\ StronglySorted (fun a b => fle (raw_temperature a) (raw_temperature b) = true) l /\
  forall x, In x l <-> (x = h \/ exists k, 0 <= k < 360 /\ on_wheel h k x).
Proof.
  intros E N. destruct (wheel (zrange 360) (h_chroma h) (h_tone h)) as [W|] eqn:HW.
  2:{ pose proof (no_wheel h HctsByTemp HW) as Q. cbn [perform] in Q. rewrite E in Q. discriminate. }
  rewrite (new_fresh h W) in E. rewrite (by_temp_mk h W HW) in E by lia. apply ok_inj in E. injection E as E _. subst l.
  split; [|split].
  - rewrite (Permutation_length (S_perm h W)). unfold all. rewrite app_length, (W_length h W HW). reflexivity.
  - apply (S_sorted h W). intros x I. apply N. now apply (in_all h W x HW).
  - intros x. rewrite <- (in_all h W x HW). split; apply Permutation_in; [|apply Permutation_sym]; apply S_perm.
Qed.
Lemma relative_result h x : has_wheel h ->
  (forall y, y = h \/ (exists k, 0 <= k < 360 /\ on_wheel h k y) ->
    is_finite (raw_temperature y) = true /\ (Rabs (B2R (raw_temperature y)) <= 1000000)%R) ->
  x = h \/ (exists k, 0 <= k < 360 /\ on_wheel h k x) ->
  exists cld wrm r c1 c2 c3,
    get_coldest (tc_new h) = Ok (cld, c1) /\ get_warmest (tc_new h) = Ok (wrm, c2) /\
    relative_temperature (tc_new h) x = Ok (r, c3) /\
    fle (raw_temperature cld) (raw_temperature x) = true /\ fle (raw_temperature x) (raw_temperature wrm) = true /\
    (feq (raw_temperature cld) (raw_temperature wrm) = true -> r = dec "0.5") /\
    (feq (raw_temperature cld) (raw_temperature wrm) = false ->
      is_finite r = true /\ (0 <= B2R r <= 1)%R /\
      (feq (raw_temperature x) (raw_temperature cld) = true -> B2R r = 0%R) /\
      (feq (raw_temperature x) (raw_temperature wrm) = true -> B2R r = 1%R)).
Proof.
  intros HH TM I. destruct (wheel_exists h HH) as (W & HW).
  assert (TM' : forall y, In y (all h W) -> tame y) by (intros y Y; apply TM; now apply (in_all h W y HW)).
  apply (in_all h W x HW) in I.
  exists (cold h W), (hot h W), (relative h W x), (mk h W 3 (dec "-1.0") None), (mk h W 3 (dec "-1.0") None), (mk h W 3 (dec "-1.0") None).
  rewrite (new_fresh h W). split; [apply (coldest_mk h W HW); lia|]. split; [apply (warmest_mk h W HW); lia|].
  split; [rewrite (relative_mk h W HW) by lia; rewrite (T_in h W x I); reflexivity|].
  destruct (extremes h W (fun y Y => tame_nn y (TM' y Y)) x I) as (L1 & L2). split; [exact L1|]. split; [exact L2|].
  exact (relative_range h W HW TM' x I).
Qed.
Lemma input_relative h : rmap fst (get_input_relative_temperature (tc_new h)) = rmap fst (relative_temperature (tc_new h) h).
Proof.
  destruct (wheel (zrange 360) (h_chroma h) (h_tone h)) as [W|] eqn:HW.
  - rewrite (new_fresh h W). rewrite (irt_mk h W HW) by (auto; lia). rewrite (relative_mk h W HW) by lia.
    rewrite T_in by (apply in_or_app; right; now left). reflexivity.
  - pose proof (no_wheel h InputRelativeTemperature HW) as N. pose proof (no_wheel h (RelativeTemperature h) HW) as N'.
    cbn [perform] in N, N'. destruct (get_input_relative_temperature _); [discriminate|]. destruct (relative_temperature _ _); [discriminate|]. reflexivity.
Qed.
(** A degenerate wheel: one colour repeated. *)
Lemma wheel_degenerate h w : (flt (h_chroma h) (dec "0.0001") || flt (h_tone h) (dec "0.0001") || flt (dec "99.9999") (h_tone h))%bool = true ->
  hct_from_int (argb_from_lstar (h_tone h)) = Ok w -> forall k, on_wheel h k w.
Proof.
  intros D E k. unfold on_wheel. rewrite (from_degenerate _ _ _ D). exact E.
Qed.
Lemma checked {A} (e : res A) (b : A -> bool) : match e with Ok x => b x | Panic => false end = true -> exists x, e = Ok x /\ b x = true.
Proof. destruct e as [x|]; [|discriminate]. intros H. exists x. split; [reflexivity|exact H]. Qed.
Lemma white_like (z : Z) (ok : match hct_from_int z with
    | Ok h => flt (dec "99.9999") (h_tone h) && flt (h_hue h) (dec "359.5") && (argb_from_lstar (h_tone h) =? z)
        && is_finite (raw_temperature h) && fle (fabs (raw_temperature h)) (dec "1000.0")
    | Panic => false end = true) :
  exists h, hct_from_int z = Ok h /\ flt (h_hue h) (dec "359.5") = true /\ (forall k, on_wheel h k h) /\
    is_finite (raw_temperature h) = true /\ (Rabs (B2R (raw_temperature h)) <= 1000000)%R.
Proof.
  apply checked in ok. destruct ok as (h & E & H). rewrite !andb_true_iff in H. destruct H as ((((A & B) & C) & D) & G).
  apply Z.eqb_eq in C. exists h. split; [exact E|]. split; [exact B|]. split.
  - apply wheel_degenerate; [rewrite A; apply orb_true_r|]. rewrite C. exact E.
  - split; [exact D|]. fconst (dec "1000.0"). assert (FA : is_finite (fabs (raw_temperature h)) = true) by (rewrite fabs_fin; exact D).
    apply (fle_fin _ _ FA F) in G. rewrite fabs_R, V in G. lra.
Qed.
Lemma some_history h : has_wheel h ->
  exists c, after_calls (tc_new h) [Coldest; InputRelativeTemperature; HctsByHue; RelativeTemperature h] = Ok c.
Proof.
  intros HH. destruct (wheel_exists h HH) as (W & HW). eexists. rewrite (new_fresh h W). cbn [after_calls perform].
  rewrite (coldest_mk h W HW) by lia. cbn [answered rmap fst snd]. rewrite bind_Ok. cbn [snd].
  rewrite (irt_mk h W HW) by (auto; lia). cbn [answered rmap fst snd]. rewrite bind_Ok. cbn [snd].
  replace (if fge (dec "-1.0") (dec "0.0") then 3%nat else 3%nat) with 3%nat by (destruct (fge _ _); reflexivity).
  rewrite (by_hue_mk h W HW) by lia. cbn [answered rmap fst snd Nat.max]. rewrite bind_Ok. cbn [snd].
  rewrite (relative_mk h W HW) by lia. rewrite T_in by (apply in_or_app; right; now left). rewrite bind_Ok.
  cbn [answered rmap fst snd]. rewrite bind_Ok. cbn [snd]. reflexivity.
Qed.
End AnyLibm.
