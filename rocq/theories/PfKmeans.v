(** * Proofs about the k-means iterations: cluster means and reassignment.  Proof file. *)
From Coq Require Import ZArith Bool List Lia Permutation String.
From Verif Require Import F64 MathUtils ColorUtils Assoc ViewingConditions QuantizerMap QuantizerWu QuantizerWsmeans SpecQuantize SpecWsmeans
  AssocFacts PfArgb PfQuantizeMap PfHct PfScore SpecWu PfWuBoxes PfWu PfPalettes PfWsmeans SampleLibm.
Import ListNotations.
Open Scope string_scope.
Open Scope list_scope.
Open Scope Z_scope.

(** ** Sums *)
Definition addw (s point : vec3) (count : Z) : vec3 :=
  let n := of_Z count in (fadd (v0 s) (fmul (v0 point) n), fadd (v1 s) (fmul (v1 point) n), fadd (v2 s) (fmul (v2 point) n)).
Fixpoint msum (i : Z) (points : list vec3) (counts cis : list Z) (s : vec3) : vec3 :=
  match points, counts, cis with
  | p :: points', n :: counts', c :: cis' => msum i points' counts' cis' (if c =? i then addw s p n else s)
  | _, _, _ => s
  end.
Lemma sums_means k points : forall counts cis pcs sums pcs' sums', valid k cis -> List.length sums = k ->
  sums_loop points counts cis pcs sums = Ok (pcs', sums') ->
  forall i s, nth_error sums i = Some s -> nth_error sums' i = Some (msum (Z.of_nat i) points counts cis s).
Proof.
  induction points as [|p points IH]; intros [|c counts] [|ci cis] pcs sums pcs' sums' V L E i s N; cbn [sums_loop msum] in *;
    try (apply ok_inj in E; injection E as _ <-; exact N).
  inversion V as [|? ? Vc V']; subst. apply bind_ok in E. destruct E as (old & _ & E). apply bind_ok in E. destruct E as (new & _ & E). cbv zeta in E.
  apply bind_ok in E. destruct E as (sums1 & U & E).
  match type of U with lupd sums ci ?f = _ => destruct (lupd_ok sums ci f) as (x & X & U'); [lia|] end. rewrite U' in U. apply ok_inj in U. subst sums1.
  assert (Z.to_nat ci < List.length sums)%nat by (apply nth_error_Some; congruence).
  apply (IH counts cis _ _ _ _ V' (list_set_length _ _ _)) with (i := i) (s := if ci =? Z.of_nat i then addw s p c else s) in E.
  - exact E.
  - rewrite list_set_nth by assumption. destruct (Nat.eqb_spec (Z.to_nat ci) i) as [<-|D].
    + rewrite X in N. injection N as ->. rewrite Z2Nat.id by lia. rewrite Z.eqb_refl. reflexivity.
    + destruct (Z.eqb_spec ci (Z.of_nat i)); [lia|exact N].
Qed.

(** ** Centroids *)
Definition centroid (pcs : list Z) (sums : list vec3) (i : Z) : vec3 :=
  let count := nth (Z.to_nat i) pcs 0 in let s := nth (Z.to_nat i) sums vzero in
  if count =? 0 then vzero else (fdiv (v0 s) (of_Z count), fdiv (v1 s) (of_Z count), fdiv (v2 s) (of_Z count)).
Lemma centroid_means k is pcs sums : (forall i, In i is -> 0 <= i < Z.of_nat k) -> List.length pcs = k -> List.length sums = k ->
  forall clusters clusters', (k <= List.length clusters)%nat -> centroid_loop is pcs sums clusters = Ok clusters' ->
  (forall i, In i is -> nth_error clusters' (Z.to_nat i) = Some (centroid pcs sums i)) /\
  (forall i, 0 <= i < Z.of_nat k -> ~ In i is -> nth_error clusters' (Z.to_nat i) = nth_error clusters (Z.to_nat i)).
Proof.
  intros I LP LS. induction is as [|i is IH]; intros clusters cl' C E; cbn [centroid_loop] in E.
  - apply ok_inj in E. subst cl'. split; [intros i []|reflexivity].
  - pose proof (I i (or_introl eq_refl)) as Ii. specialize (IH (fun j P => I j (or_intror P))).
    rewrite (index_nth pcs i 0) in E by lia. rewrite bind_Ok in E. rewrite (index_nth sums i vzero) in E by lia. rewrite bind_Ok in E.
    apply bind_ok in E. destruct E as (cl1 & U & E).
    match type of U with lupd clusters i ?f = _ => destruct (lupd_ok clusters i f) as (x & X & U'); [lia|] end. rewrite U' in U. apply ok_inj in U. subst cl1.
    assert (Z.to_nat i < List.length clusters)%nat by (apply nth_error_Some; congruence).
    change (if nth (Z.to_nat i) pcs 0 =? 0 then vzero else _) with (centroid pcs sums i) in E.
    destruct (IH (list_set clusters (Z.to_nat i) (centroid pcs sums i)) cl') as (A & B); [now rewrite list_set_length|exact E|]. split.
    + intros j [<-|J]; [|now apply A]. destruct (in_dec Z.eq_dec i is) as [Y|Y]; [now apply A|]. rewrite (B i Ii Y), list_set_nth by assumption. now rewrite Nat.eqb_refl.
    + intros j Jr J. rewrite (B j Jr) by (intros X'; apply J; now right). rewrite list_set_nth by assumption.
      destruct (Nat.eqb_spec (Z.to_nat i) (Z.to_nat j)) as [EQ|]; [|reflexivity]. elim J. left. lia.
Qed.

(** ** Iterations *)
(** Every cluster below [k] is the mean of the points assigned to it. *)
Definition means (k : nat) (points : list vec3) (counts : list Z) (clusters : list vec3) (cis : list Z) : Prop :=
  forall i, 0 <= i < Z.of_nat k -> tally i cis counts <> 0 -> let s := msum i points counts cis vzero in let n := of_Z (tally i cis counts) in
    nth_error clusters (Z.to_nat i) = Some (fdiv (v0 s) n, fdiv (v1 s) n, fdiv (v2 s) n).
Lemma kmeans_means k points counts : List.length counts = List.length points -> Forall (fun n => 0 <= n) counts -> zsum counts <= i64_max ->
  forall fuel first clusters dm cis pcs clusters' cis' pcs', (k <= List.length clusters)%nat -> square k dm -> List.length cis = List.length points -> valid k cis -> List.length pcs = k ->
  (first = false -> means k points counts clusters cis) ->
  kmeans_loop fuel first (Z.of_nat k) points counts clusters dm cis pcs = Ok (clusters', cis', pcs') ->
  (fuel <> O \/ first = false) -> means k points counts clusters' cis'.
Proof.
  intros LC NC BC. induction fuel as [|fuel IH]; intros first clusters dm cis pcs cl2 cis2 pcs2 C S LI V LP CO E NZ; cbn [kmeans_loop] in E.
  - apply ok_inj in E. injection E as <- <- <-. destruct NZ as [NZ|NZ]; [contradiction|]. now apply CO.
  - destruct (rows_ok clusters k (zseq 0 (Z.of_nat k)) dm S C) as (dm' & ED & S'). { intros i. rewrite in_zseq. lia. }
    rewrite ED, bind_Ok in E. destruct (assign_ok clusters dm' k points C S' cis LI V) as (cis' & moved & EA & L' & V' & M & Q). rewrite EA, bind_Ok in E.
    destruct ((moved =? 0) && negb first) eqn:ST.
    + apply andb_prop in ST. destruct ST as (Z0 & NF). apply Z.eqb_eq in Z0. rewrite (Q Z0) in *. apply negb_true_iff in NF.
      apply ok_inj in E. injection E as <- <- <-. now apply CO.
    + cbv zeta in E. rewrite Nat2Z.id in E.
      destruct (sums_ok k points counts cis' (repeat 0 k) (repeat vzero k) LC L' V') as (pcs' & sums & ES & LP' & LS & T); try apply repeat_length; try assumption.
      { rewrite Forall_forall. intros x I. apply repeat_spec in I. lia. }
      { intros i n X. apply nth_repeat_some in X. lia. }
      rewrite ES, bind_Ok in E. destruct (centroid_ok k (zseq 0 (Z.of_nat k)) pcs' sums) with (clusters := clusters) as (cl' & EC & LCl); try assumption.
      { intros i. rewrite in_zseq. lia. }
      rewrite EC, bind_Ok in E.
      assert (CO' : means k points counts cl' cis').
      { intros i I NT. destruct (centroid_means k (zseq 0 (Z.of_nat k)) pcs' sums ltac:(intros j; rewrite in_zseq; lia) LP' LS clusters cl' C EC) as (A & _).
        cbv zeta. rewrite (A i) by (apply in_zseq; lia). f_equal. unfold centroid. cbv zeta.
        assert (E0 : nth_error (repeat 0 k) (Z.to_nat i) = Some 0) by (rewrite (nth_error_nth' _ 0) by (rewrite repeat_length; lia); now rewrite nth_repeat).
        pose proof (T _ _ E0) as T'. rewrite Z2Nat.id in T' by lia. rewrite (nth_error_nth _ _ 0 T').
        assert (E1 : nth_error (repeat vzero k) (Z.to_nat i) = Some vzero) by (rewrite (nth_error_nth' _ vzero) by (rewrite repeat_length; lia); now rewrite nth_repeat).
        pose proof (sums_means k points counts cis' _ _ _ _ V' (repeat_length _ _) ES _ _ E1) as T2. rewrite Z2Nat.id in T2 by lia. rewrite (nth_error_nth _ _ vzero T2).
        rewrite Z.add_0_l. destruct (Z.eqb_spec (tally i cis' counts) 0); [contradiction|reflexivity]. }
      apply (IH false cl' dm' cis' pcs' cl2 cis2 pcs2); try assumption; [lia|intros _; exact CO'|now right].
Qed.

(** ** From positions to pixels *)
Section Pixels.
Context {lm : Libm}.
Lemma msum_filter pixels cl i ps : forall s,
  msum i (map lab_from_int ps) (map (fun p => occurrences p pixels) ps) (map cl ps) s =
  fold_left (fun s p => let l := lab_from_argb p in let n := of_Z (occurrences p pixels) in
    (fadd (v0 s) (fmul (v0 l) n), fadd (v1 s) (fmul (v1 l) n), fadd (v2 s) (fmul (v2 l) n))) (filter (fun p => cl p =? i) ps) s.
Proof.
  induction ps as [|p ps IH]; intros s; cbn [map msum filter]; [reflexivity|].
  rewrite IH. destruct (cl p =? i); reflexivity.
Qed.
Lemma tally_filter pixels cl i ps : tally i (map cl ps) (map (fun p => occurrences p pixels) ps) = population pixels (filter (fun p => cl p =? i) ps).
Proof.
  unfold population. induction ps as [|p ps IH]; [reflexivity|]. cbn [map filter]. rewrite tally_cons, IH. destruct (cl p =? i); cbn [map fold_right]; lia.
Qed.
Lemma lookup_map ps : forall cis, NoDup ps -> List.length cis = List.length ps -> cis = map (fun p => unwrap_or (afind Z.eqb (combine ps cis) p) 0) ps.
Proof.
  induction ps as [|p ps IH]; intros [|c cis] N L; try discriminate L; [reflexivity|]. inversion N as [|? ? NI N']; subst.
  cbn [combine map afind]. rewrite Z.eqb_refl. cbn [unwrap_or]. f_equal. rewrite (IH cis N') at 1 by now injection L.
  apply map_ext_in. intros q Q. destruct (Z.eqb_spec p q) as [->|]; [contradiction|reflexivity].
Qed.
Lemma lab_triple (v : vec3) : lab_to_int v = argb_from_lab (v0 v) (v1 v) (v2 v). Proof. reflexivity. Qed.
Local Opaque lab_to_int lab_from_int.

Lemma ws_means rng pixels max start iters ret r : Z.of_nat (List.length pixels) <= i64_max -> 1 <= unwrap_or iters 5 ->
  ws_quantize rng pixels max start iters ret = Ok r ->
  exists (ps : list Z) (cluster : Z -> Z), NoDup ps /\ (forall p, In p ps <-> In p pixels) /\
    (forall p, In p pixels -> 0 <= cluster p < Z.min max (distinct pixels)) /\
    let members i := filter (fun p => cluster p =? i) ps in
    let colour i := let m := lab_mean pixels (members i) in argb_from_lab (v0 m) (v1 m) (v2 m) in
    (forall c n, In (c, n) (qr_color_to_count r) -> exists i, members i <> [] /\ c = colour i /\ n = population pixels (members i)) /\
    (forall p c, In (p, c) (qr_input_pixel_to_cluster_pixel r) -> In p pixels /\ c = colour (cluster p)).
Proof.
  intros BL IT R. unfold ws_quantize in R. cbv zeta in R.
  pose proof (ws_count_eq pixels) as WC. destruct (ws_count pixels [] []) as (p2c, ps). cbn [fst snd] in WC. destruct WC as (ND & IN & EQC). rewrite EQC in R. clear EQC.
  assert (DI : Z.of_nat (List.length ps) = distinct pixels).
  { unfold distinct. f_equal. apply Permutation_length, NoDup_Permutation; [exact ND|apply NoDup_nodup|]. intros p. rewrite IN. symmetry. apply nodup_In. }
  rewrite DI in R. set (D := distinct pixels) in *. set (cc := Z.min max D) in *.
  set (cl0 := map lab_from_int (unwrap_or start [])) in *.
  apply bind_ok in R. destruct R as (cl & ST & R).
  assert (CL : cc <= Z.of_nat (List.length cl)).
  { destruct (Z.ltb_spec 0 (cc - Z.of_nat (List.length cl0))) as [P|P]; [|apply ok_inj in ST; subst cl; lia].
    apply bind_ok in ST. destruct ST as (is & PK & ST). apply ok_inj in ST. subst cl. apply pick_length in PK. rewrite app_length, map_length, PK. cbn [List.length]. lia. }
  clear ST. destruct ((cc =? 0) && negb (D =? 0)) eqn:ZD; [discriminate R|].
  assert (CD : cc = 0 -> D = 0). { intros E. destruct (Z.eqb_spec D 0); [assumption|]. rewrite E in ZD. discriminate ZD. }
  clear ZD. destruct (Z.ltb_spec cc 0) as [CN|CN]; [discriminate R|].
  set (k := Z.to_nat cc) in *. assert (KE : cc = Z.of_nat k) by (unfold k; lia).
  set (counts := map (fun p => occurrences p pixels) ps) in *.
  assert (LC : List.length counts = List.length (map lab_from_int ps)) by (unfold counts; now rewrite !map_length).
  assert (NC : Forall (fun n => 0 <= n) counts) by (unfold counts; rewrite Forall_map, Forall_forall; intros; apply occ_len).
  assert (TC : zsum counts = Z.of_nat (List.length pixels)).
  { unfold counts. pose proof (distinct_sum (fun _ => 1) ps ND pixels (fun p I => proj2 (IN p) I)) as DS.
    rewrite (map_ext _ (fun p => occurrences p pixels)) in DS by (intros; lia). rewrite DS.
    clear. induction pixels as [|p l IH]; [reflexivity|]. cbn [map List.length]. change (zsum (?a :: ?b)) with (a + zsum b). lia. }
  rewrite KE in R.
  set (cis := map (fun i => Z.rem (Z.of_nat i) (Z.of_nat k)) (seq 0 (List.length ps))) in *.
  assert (Vcis : valid k cis).
  { unfold valid, cis. rewrite Forall_map, Forall_forall. intros i I. apply in_seq in I. rewrite Z.rem_mod_nonneg by lia. apply Z.mod_pos_bound. lia. }
  assert (Lcis : List.length cis = List.length (map lab_from_int ps)) by (unfold cis; rewrite !map_length; apply seq_length).
  set (dm := repeat _ k) in R.
  assert (SQ : square k dm).
  { split; [apply repeat_length|]. rewrite Forall_forall. intros x I. apply repeat_spec in I. subst x. unfold zseq. rewrite !map_length, seq_length. lia. }
  destruct (kmeans_ok k (map lab_from_int ps) counts LC NC ltac:(lia) (Z.to_nat (unwrap_or iters 5)) true cl dm cis (repeat 0 k)) as (cl' & cis' & pcs' & E & L1 & L2 & V & L3 & _ & K1).
  { lia. } { exact SQ. } { exact Lcis. } { exact Vcis. } { apply repeat_length. } { discriminate. }
  pose proof (kmeans_means k (map lab_from_int ps) counts LC NC ltac:(lia) (Z.to_nat (unwrap_or iters 5)) true cl dm cis (repeat 0 k) cl' cis' pcs'
    ltac:(lia) SQ Lcis Vcis (repeat_length _ _) ltac:(discriminate) E ltac:(left; lia)) as ME.
  specialize (K1 ltac:(lia)). rewrite E, bind_Ok in R. clear E. rewrite map_length in L2.
  set (cluster := fun p => unwrap_or (afind Z.eqb (combine ps cis') p) 0).
  assert (CE : cis' = map cluster ps) by (apply lookup_map; assumption). clearbody cluster.
  assert (CV : forall p, In p ps -> 0 <= cluster p < Z.of_nat k).
  { intros p P. unfold valid in V. rewrite CE, Forall_map, Forall_forall in V. exact (V p P). }
  assert (NP : Forall (fun n => 0 <= n) pcs').
  { rewrite Forall_forall. intros n I. apply (In_nth _ _ 0) in I. destruct I as (j & J & <-). rewrite (K1 j _ (nth_error_nth' pcs' 0 J)). apply tally_range. exact NC. }
  destruct (collect_ok k (zseq 0 (Z.of_nat k)) pcs' cl' ltac:(lia) L3 NP) with (argbs := @nil Z) (pops := @nil Z) as (argbs & pops & EC & A1 & _ & A3 & A4 & A5 & A6 & A7 & A8).
  { intros i. rewrite in_zseq. lia. } { reflexivity. }
  rewrite EC, bind_Ok in R. clear EC. apply bind_ok in R. destruct R as (m & PM & R). apply ok_inj in R. subst r. cbn [qr_color_to_count qr_input_pixel_to_cluster_pixel].
  exists ps, cluster. split; [exact ND|]. split; [exact IN|]. split; [intros p P; rewrite KE; apply CV; now apply IN|].
  set (members := fun i => filter (fun p => cluster p =? i) ps).
  set (colour' := fun i => argb_from_lab (v0 (lab_mean pixels (members i))) (v1 (lab_mean pixels (members i))) (v2 (lab_mean pixels (members i)))).
  assert (COL : forall i, 0 <= i < Z.of_nat k -> tally i cis' counts <> 0 -> colour cl' i = colour' i).
  { intros i I NZ. unfold colour. specialize (ME i I NZ). cbv zeta in ME. rewrite (nth_error_nth _ _ vzero ME). rewrite lab_triple.
    unfold colour', members. rewrite CE. unfold counts. rewrite msum_filter, tally_filter. reflexivity. }
  split.
  - intros c n I. destruct (A6 (c, n) I) as [[]|(i & J & NZ & EQ)]. apply in_zseq in J.
    assert (PT : pop pcs' i = tally i cis' counts).
    { unfold pop. rewrite <- (Z2Nat.id i) at 2 by lia. apply K1. apply nth_error_nth'. lia. }
    rewrite PT in *. assert (EC : c = colour cl' i) by exact (f_equal fst EQ). assert (EN : n = tally i cis' counts) by exact (f_equal snd EQ).
    exists i. rewrite EC, EN. split; [|split; [now apply COL|unfold members; rewrite CE; apply tally_filter]].
    intros Z0. apply NZ. rewrite CE. unfold counts. rewrite tally_filter. exact (f_equal (population pixels) Z0).
  - intros p c I. destruct (unwrap_or ret false); [|apply ok_inj in PM; subst m; destruct I].
    destruct (pixel_map_ok k cl' ps ltac:(lia) cis' [] L2 V ND) as (m' & EM & M1 & M2 & M3 & _). rewrite PM in EM. apply ok_inj in EM. subst m'.
    assert (IP : In p ps). { apply (in_map fst) in I. apply M2 in I. destruct I as [[]|I]; exact I. }
    split; [now apply IN|]. apply (find_in m p c (M1 (NoDup_nil _))) in I.
    assert (PC : In (p, cluster p) (combine ps cis')).
    { rewrite CE. clear - IP. induction ps as [|q l IH]; [destruct IP|]. cbn [map combine In]. destruct IP as [->|IP]; [now left|right; now apply IH]. }
    rewrite (M3 _ _ PC) in I. assert (EQ : colour cl' (cluster p) = c) by (apply (f_equal (fun o => unwrap_or o 0)) in I; exact I). rewrite <- EQ.
    apply COL; [now apply CV|]. rewrite CE. unfold counts. rewrite tally_filter. unfold population.
    assert (IPF : In p (filter (fun q => cluster q =? cluster p) ps)) by (apply filter_In; split; [exact IP|apply Z.eqb_refl]).
    assert (OP : 0 < occurrences p pixels). { unfold occurrences. apply IN in IP. apply (count_occ_In Z.eq_dec) in IP. lia. }
    clear - IPF OP. induction (filter _ ps) as [|q l IH]; [destruct IPF|]. cbn [map fold_right].
    assert (NN : 0 <= fold_right Z.add 0 (map (fun p => occurrences p pixels) l)).
    { clear. induction l as [|q l IH]; cbn [map fold_right]; [lia|]. pose proof (occ_len q pixels). lia. }
    pose proof (occ_len q pixels). destruct IPF as [->|IPF]; [lia|specialize (IH IPF); lia].
Qed.
End Pixels.

(** ** One reassignment *)
Lemma nearest_spec clusters row point pd js : forall md nc v, nearest_loop clusters row point pd js md nc = Ok v ->
  (v = nc /\ (forall j e cj, In j js -> index row j = Ok e -> index clusters j = Ok cj ->
      flt (lab_distance point cj) md = true -> fle (fmul (dec "4.0") pd) (di_distance e) = true)) \/
  (In v js /\ exists cv, index clusters v = Ok cv /\ flt (lab_distance point cv) md = true /\
    (forall j e cj, In j js -> index row j = Ok e -> index clusters j = Ok cj ->
      flt (lab_distance point cj) (lab_distance point cv) = true -> fle (fmul (dec "4.0") pd) (di_distance e) = true)).
Proof.
  induction js as [|j js IH]; intros md nc v E; cbn [nearest_loop] in E.
  - apply ok_inj in E. left. split; [now symmetry|]. intros j e cj [].
  - apply bind_ok in E. destruct E as (e & Ee & E). unfold fge in E. change Flocq.IEEE754.BinarySingleNaN.Bleb with fle in E.
    destruct (fle (fmul (dec "4.0") pd) (di_distance e)) eqn:SK.
    + destruct (IH _ _ _ E) as [(-> & A)|(I & cv & Ec & L & A)]; [left; split; [reflexivity|]|right; split; [now right|]; exists cv; split; [exact Ec|]; split; [exact L|]];
        (intros j' e' cj' [<-|J] Re Rc F; [rewrite Ee in Re; apply ok_inj in Re; subst e'; exact SK|exact (A _ _ _ J Re Rc F)]).
    + apply bind_ok in E. destruct E as (cj & Ecj & E). cbv zeta in E. destruct (flt (lab_distance point cj) md) eqn:LT.
      * right. destruct (IH _ _ _ E) as [(-> & A)|(I & cv & Ec & L & A)].
        -- split; [now left|]. exists cj. split; [exact Ecj|]. split; [exact LT|]. intros j' e' cj' [<-|J] Re Rc F; [|exact (A _ _ _ J Re Rc F)].
           rewrite Ecj in Rc. apply ok_inj in Rc. subst cj'. rewrite flt_irrefl in F. discriminate F.
        -- split; [now right|]. exists cv. split; [exact Ec|]. split; [exact (flt_trans' _ _ _ L LT)|].
           intros j' e' cj' [<-|J] Re Rc F; [|exact (A _ _ _ J Re Rc F)]. rewrite Ecj in Rc. apply ok_inj in Rc. subst cj'.
           pose proof (flt_trans' _ _ _ F L) as X. rewrite flt_irrefl in X. discriminate X.
      * destruct (IH _ _ _ E) as [(-> & A)|(I & cv & Ec & L & A)].
        -- left. split; [reflexivity|]. intros j' e' cj' [<-|J] Re Rc F; [|exact (A _ _ _ J Re Rc F)]. rewrite Ecj in Rc. apply ok_inj in Rc. subst cj'. congruence.
        -- right. split; [now right|]. exists cv. split; [exact Ec|]. split; [exact L|].
           intros j' e' cj' [<-|J] Re Rc F; [|exact (A _ _ _ J Re Rc F)]. rewrite Ecj in Rc. apply ok_inj in Rc. subst cj'.
           pose proof (flt_trans' _ _ _ F L) as X. congruence.
Qed.
Lemma assign_spec clusters dm k points : forall cis cis' moved, assign_loop clusters dm k points cis = Ok (cis', moved) ->
  forall i p c c', nth_error points i = Some p -> nth_error cis i = Some c -> nth_error cis' i = Some c' ->
  exists old new, index clusters c = Ok old /\ index clusters c' = Ok new /\
    (c' = c \/ flt (lab_distance p new) (lab_distance p old) = true) /\
    forall j row e other, 0 <= j < k -> index dm c = Ok row -> index row j = Ok e -> index clusters j = Ok other ->
      flt (lab_distance p other) (lab_distance p new) = true -> fle (fmul (dec "4.0") (lab_distance p old)) (di_distance e) = true.
Proof.
  induction points as [|q points IH]; intros [|d cis] cis' moved E i p c c' Np Nc Nc'; try (destruct i; discriminate Np); try (destruct i; discriminate Nc).
  cbn [assign_loop] in E. apply bind_ok in E. destruct E as (old & Eo & E). cbv zeta in E. apply bind_ok in E. destruct E as (row & Er & E).
  apply bind_ok in E. destruct E as (v & Ev & E). apply bind_ok in E. destruct E as ((rest & mv) & Erest & E).
  assert (H : exists h moved', Ok (h :: rest, moved') = @Ok (list Z * Z) (cis', moved) /\ h = if v =? -1 then d else v).
  { destruct (v =? -1); cbn [negb] in E; eauto. }
  destruct H as (h & moved' & E' & EH). apply ok_inj in E'. injection E' as <- _.
  destruct i as [|i]; cbn [nth_error] in *; [|exact (IH _ _ _ Erest i p c c' Np Nc Nc')].
  injection Np as <-. injection Nc as <-. injection Nc' as <-. exists old.
  destruct (nearest_spec _ _ _ _ _ _ _ _ Ev) as [(-> & A)|(I & cv & Ec & L & A)].
  - cbn in EH. subst h. exists old. split; [exact Eo|]. split; [exact Eo|]. split; [now left|].
    intros j row' e other J Rr Re Ro F. rewrite Er in Rr. apply ok_inj in Rr. subst row'. refine (A j e other _ Re Ro F). apply in_zseq. exact J.
  - apply in_zseq in I. destruct (Z.eqb_spec v (-1)); [lia|]. subst h. exists cv. split; [exact Eo|]. split; [exact Ec|]. split; [now right|].
    intros j row' e other J Rr Re Ro F. rewrite Er in Rr. apply ok_inj in Rr. subst row'. refine (A j e other _ Re Ro F). apply in_zseq. exact J.
Qed.

(** ** A pixel that stays with the wrong cluster *)
Definition far_grey : list Z := [0xFFFDFDFD; 0xFFB1B1B1; 0xFF050505; 0xFF999999].
Definition far_start : list Z := [0xFF8B8B8B; 0xFFDBDBDB; 0xFFAFAFAF].
Definition far_result : quantizer_result :=
  {| qr_color_to_count := [(0xFF4C4C4C, 2); (0xFFFDFDFD, 1); (0xFFB1B1B1, 1)];
     qr_input_pixel_to_cluster_pixel := [(0xFFFDFDFD, 0xFFFDFDFD); (0xFFB1B1B1, 0xFFB1B1B1); (0xFF050505, 0xFF4C4C4C); (0xFF999999, 0xFF4C4C4C)] |}.
Lemma far_stays : forall n, 2 <= n -> @ws_quantize sample_libm [] far_grey 3 (Some far_start) (Some n) (Some true) = Ok far_result.
Proof.
  intros n N. unfold ws_quantize. change (unwrap_or (Some n) 5) with n.
  replace (Z.to_nat n) with (S (S (Z.to_nat (n - 2)))) by lia. set (m := Z.to_nat (n - 2)). clearbody m. vm_compute. reflexivity.
Qed.
Lemma ws_not_nearest : exists (lm : Libm) pixels max_colors starting r p c c',
  (forall n, 2 <= n -> ws_quantize [] pixels max_colors (Some starting) (Some n) (Some true) = Ok r) /\
  In (p, c) (qr_input_pixel_to_cluster_pixel r) /\ In c' (map fst (qr_color_to_count r)) /\
  flt (fmul (dec "4.0") (lab_distance (lab_from_argb p) (lab_from_argb c'))) (lab_distance (lab_from_argb p) (lab_from_argb c)) = true.
Proof.
  exists sample_libm, far_grey, 3, far_start, far_result, 0xFF999999, 0xFF4C4C4C, 0xFFB1B1B1.
  split; [exact far_stays|]. split; [cbn; auto|]. split; [cbn; auto|]. vm_compute. reflexivity.
Qed.
