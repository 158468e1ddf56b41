(** * Wsmeans and Celebi. Proof file. *)
From Coq Require Import ZArith Bool List Lia Permutation String.
From Verif Require Import F64 MathUtils ColorUtils Assoc ViewingConditions QuantizerMap QuantizerWu QuantizerWsmeans SpecQuantize SpecWsmeans AssocFacts PfArgb PfQuantizeMap PfHct PfScore SpecWu PfWuBoxes PfWu SampleLibm.
Import ListNotations.
Open Scope string_scope.
Open Scope list_scope.
Open Scope Z_scope.

Definition zsum (l : list Z) : Z := fold_right Z.add 0 l.

(** ** Counting the pixels *)
Lemma count_spec input : forall counts, NoDup (map fst counts) ->
  let r := ws_count input counts (map fst counts) in
  NoDup (map fst (fst r)) /\ snd r = map fst (fst r) /\
  (forall p, In p (map fst (fst r)) <-> In p (map fst counts) \/ In p input) /\
  (forall p, get0 (fst r) p = get0 counts p + occurrences p input).
Proof.
  induction input as [|q input IH]; intros counts N r; unfold r; cbn [ws_count].
  - cbn [fst snd]. split; [exact N|]. split; [reflexivity|]. split; [cbn; tauto|]. intros p. unfold occurrences. cbn. lia.
  - assert (INS : forall v, v = get0 counts q + 1 -> forall p, get0 (ainsert Z.eqb counts q v) p + occurrences p input = get0 counts p + occurrences p (q :: input)).
    { intros v -> p. rewrite occ_cons. unfold get0. rewrite find_ainsert. destruct (Z.eqb_spec q p) as [->|]; lia. }
    destruct (afind Z.eqb counts q) as [c|] eqn:E.
    + assert (K : map fst (ainsert Z.eqb counts q (c + 1)) = map fst counts).
      { clear - E. induction counts as [|(a, b) m IHm]; cbn [afind ainsert map fst] in *; [discriminate|].
        destruct (a =? q); cbn [map fst]; [reflexivity|]. now rewrite (IHm E). }
      specialize (IH (ainsert Z.eqb counts q (c + 1))). rewrite K in IH. destruct (IH N) as (A & B & C & D).
      split; [exact A|]. split; [exact B|]. split.
      * intros p. rewrite C. cbn [In]. assert (In q (map fst counts)) by (destruct (in_dec Z.eq_dec q (map fst counts)) as [I|I]; [exact I|apply find_none in I; congruence]).
        intuition congruence.
      * intros p. rewrite D. apply INS. unfold get0. now rewrite E.
    + assert (K : map fst (ainsert Z.eqb counts q 1) = map fst counts ++ [q]).
      { clear - E. induction counts as [|(a, b) m IHm]; cbn [afind ainsert map fst app] in *; [reflexivity|].
        destruct (a =? q); cbn [map fst app]; [discriminate|]. now rewrite (IHm E). }
      rewrite <- K. destruct (IH (ainsert Z.eqb counts q 1)) as (A & B & C & D); [now apply nodup_ainsert|].
      split; [exact A|]. split; [exact B|]. split.
      * intros p. rewrite C, keys_ainsert. cbn [In]. intuition.
      * intros p. rewrite D. apply INS. unfold get0. now rewrite E.
Qed.
Lemma ws_count_eq input : let r := ws_count input [] [] in
  NoDup (snd r) /\ (forall p, In p (snd r) <-> In p input) /\
  map (fun p => unwrap_or (afind Z.eqb (fst r) p) 0) (snd r) = map (fun p => occurrences p input) (snd r).
Proof.
  intros r. destruct (count_spec input [] (NoDup_nil _)) as (A & B & C & D). cbn [map] in *. fold r in A, B, C, D. rewrite B.
  split; [exact A|]. split; [intros p; rewrite C; cbn; tauto|]. apply map_ext. intros p. exact (D p).
Qed.
(** Weighted sums over the distinct pixels are sums over the image. *)
Lemma zsum_add {A} (f g : A -> Z) l : zsum (map (fun x => f x + g x) l) = zsum (map f l) + zsum (map g l).
Proof. induction l as [|x l IH]; cbn; [lia|]. unfold zsum in *. lia. Qed.
Lemma zsum_delta (g : Z -> Z) q l : NoDup l -> In q l -> zsum (map (fun p => g p * (if q =? p then 1 else 0)) l) = g q.
Proof.
  induction l as [|x l IH]; intros N I; [easy|]. inversion N as [|? ? NI N']; subst. cbn [map]. change (zsum (?a :: ?b)) with (a + zsum b).
  destruct I as [->|I].
  - rewrite Z.eqb_refl. assert (Z0 : zsum (map (fun p => g p * (if q =? p then 1 else 0)) l) = 0); [|lia].
    clear - NI. induction l as [|y l IH]; [reflexivity|]. cbn [map]. change (zsum (?a :: ?b)) with (a + zsum b). rewrite IH by (intros I; apply NI; now right).
    destruct (Z.eqb_spec q y) as [->|]; [elim NI; now left|lia].
  - rewrite (IH N' I). destruct (Z.eqb_spec q x) as [->|]; [contradiction|lia].
Qed.
Lemma distinct_sum (g : Z -> Z) ps : NoDup ps -> forall input, (forall p, In p input -> In p ps) ->
  zsum (map (fun p => g p * occurrences p input) ps) = zsum (map g input).
Proof.
  intros N. induction input as [|q input IH]; intros I.
  - clear. change (zsum (map g [])) with 0. induction ps as [|p ps IH]; [reflexivity|]. cbn [map]. change (zsum (?a :: ?b)) with (a + zsum b). rewrite IH. change (occurrences p []) with 0. lia.
  - cbn [map]. change (zsum (?a :: ?b)) with (a + zsum b). rewrite <- IH by (intros p P; apply I; now right).
    rewrite <- (zsum_delta g q ps N (I q (or_introl eq_refl))), <- zsum_add. f_equal. apply map_ext. intros p. rewrite occ_cons. lia.
Qed.
Lemma zsum_filter (g : Z -> bool) l : zsum (map (fun p => if g p then 1 else 0) l) = Z.of_nat (List.length (filter g l)).
Proof. induction l as [|x l IH]; [reflexivity|]. cbn [map filter]. change (zsum (?a :: ?b)) with (a + zsum b). rewrite IH. destruct (g x); cbn [List.length]; lia. Qed.

(** ** Lists *)
Lemma lupd_ok {A} (l : list A) i f : 0 <= i < Z.of_nat (List.length l) -> exists x, nth_error l (Z.to_nat i) = Some x /\ lupd l i f = Ok (list_set l (Z.to_nat i) (f x)).
Proof. intros I. destruct (index_ok l i I) as (x & E & N). exists x. split; [exact N|]. unfold lupd. now rewrite E. Qed.
Definition square (k : nat) (dm : list (list dist_idx)) : Prop := List.length dm = k /\ Forall (fun r => List.length r = k) dm.
Lemma forall_set {A} (P : A -> Prop) l n x : Forall P l -> P x -> Forall P (list_set l n x).
Proof.
  intros F X. revert n. induction F as [|y l Y F IH]; intros n; cbn [list_set]; [constructor|]. destruct n; constructor; auto.
Qed.
Lemma nth_forall {A} (P : A -> Prop) l n x : Forall P l -> nth_error l n = Some x -> P x.
Proof. intros F E. rewrite Forall_forall in F. apply F. now apply nth_error_In in E. Qed.

(** ** The distance matrix *)
Lemma row_ok clusters k i js : forall dm, square k dm -> (k <= List.length clusters)%nat -> 0 <= i < Z.of_nat k ->
  (forall j, In j js -> 0 <= j < Z.of_nat k) -> exists dm', matrix_row clusters i js dm = Ok dm' /\ square k dm'.
Proof.
  induction js as [|j js IH]; intros dm (L & R) C I J; cbn [matrix_row]; [exists dm; repeat split; assumption|].
  pose proof (J j (or_introl eq_refl)) as Jj.
  destruct (index_ok clusters i) as (ci & -> & _); [lia|]. rewrite bind_Ok. destruct (index_ok clusters j) as (cj & -> & _); [lia|]. rewrite bind_Ok. cbv zeta.
  destruct (index_ok dm j) as (rj & -> & Nj); [lia|]. rewrite bind_Ok. pose proof (nth_forall _ _ _ _ R Nj) as Lj. cbv beta in Lj.
  destruct (lupd_ok rj i (fun _ => {| di_distance := lab_distance ci cj; di_index := i |})) as (? & _ & ->); [lia|]. rewrite bind_Ok.
  match goal with |- context [lupd dm j (fun _ => ?row)] => destruct (lupd_ok dm j (fun _ => row)) as (? & _ & ->); [lia|]; set (rj' := row) in * end. rewrite bind_Ok.
  assert (R1 : Forall (fun r => List.length r = k) (list_set dm (Z.to_nat j) rj')) by (apply forall_set; [exact R|]; unfold rj'; now rewrite list_set_length).
  assert (L1 : List.length (list_set dm (Z.to_nat j) rj') = k) by now rewrite list_set_length.
  set (dm1 := list_set dm (Z.to_nat j) rj') in *.
  destruct (index_ok dm1 i) as (ri & -> & Ni); [lia|]. rewrite bind_Ok. pose proof (nth_forall _ _ _ _ R1 Ni) as Li. cbv beta in Li.
  destruct (lupd_ok ri j (fun _ => {| di_distance := lab_distance ci cj; di_index := j |})) as (? & _ & ->); [lia|]. rewrite bind_Ok.
  match goal with |- context [lupd dm1 i (fun _ => ?row)] => destruct (lupd_ok dm1 i (fun _ => row)) as (? & _ & ->); [lia|]; set (ri' := row) in * end. rewrite bind_Ok.
  apply IH; [|exact C|exact I|intros j' J'; apply J; now right]. split; [now rewrite list_set_length|].
  apply forall_set; [exact R1|]. unfold ri'. now rewrite list_set_length.
Qed.
Lemma rows_ok clusters k is : forall dm, square k dm -> (k <= List.length clusters)%nat -> (forall i, In i is -> 0 <= i < Z.of_nat k) ->
  exists dm', matrix_rows clusters (Z.of_nat k) is dm = Ok dm' /\ square k dm'.
Proof.
  induction is as [|i is IH]; intros dm S C I; cbn [matrix_rows]; [exists dm; now split|].
  pose proof (I i (or_introl eq_refl)) as Ii. destruct (row_ok clusters k i (zseq (i + 1) (Z.of_nat k)) dm S C Ii) as (dm1 & -> & (L1 & R1)).
  { intros j. rewrite in_zseq. lia. }
  rewrite bind_Ok. destruct (index_ok dm1 i) as (ri & -> & Ni); [lia|]. rewrite bind_Ok. pose proof (nth_forall _ _ _ _ R1 Ni) as Li. cbv beta in Li.
  destruct (lupd_ok dm1 i (fun _ => stable_sort di_lt ri)) as (? & _ & ->); [lia|]. rewrite bind_Ok.
  apply IH; [|exact C|intros j J; apply I; now right]. split; [now rewrite list_set_length|]. apply forall_set; [exact R1|].
  rewrite (Permutation_length (sort_perm di_lt ri)). exact Li.
Qed.

(** ** Assignment *)
Lemma nearest_ok clusters row point pd k js : (k <= List.length clusters)%nat -> List.length row = k -> (forall j, In j js -> 0 <= j < Z.of_nat k) ->
  forall mn nc, exists v, nearest_loop clusters row point pd js mn nc = Ok v /\ (v = nc \/ In v js).
Proof.
  intros C L. induction js as [|j js IH]; intros J mn nc; cbn [nearest_loop]; [exists nc; split; [reflexivity|now left]|].
  pose proof (J j (or_introl eq_refl)) as Jj. specialize (IH (fun j' P => J j' (or_intror P))).
  destruct (index_ok row j) as (e & -> & _); [lia|]. rewrite bind_Ok.
  assert (G : forall mn nc, nc = j \/ nc = nc -> forall a, exists v, nearest_loop clusters row point pd js mn a = Ok v /\ (v = a \/ In v (j :: js))).
  { intros m0 _ _ a. destruct (IH m0 a) as (v & E & [->|I]); [exists a|exists v]; (split; [exact E|]); [now left|right; now right]. }
  destruct (fge _ _); [apply (G mn nc); now right|].
  destruct (index_ok clusters j) as (cj & -> & _); [lia|]. rewrite bind_Ok. cbv zeta. destruct (flt _ _).
  - destruct (IH (lab_distance point cj) j) as (v & E & [->|I]); [exists j|exists v]; (split; [exact E|]); right; [now left|now right].
  - apply (G mn nc). now right.
Qed.
Definition valid (k : nat) (cis : list Z) : Prop := Forall (fun c => 0 <= c < Z.of_nat k) cis.
Lemma assign_ok clusters dm k points : (k <= List.length clusters)%nat -> square k dm -> forall cis, List.length cis = List.length points -> valid k cis ->
  exists cis' moved, assign_loop clusters dm (Z.of_nat k) points cis = Ok (cis', moved) /\
    List.length cis' = List.length points /\ valid k cis' /\ 0 <= moved /\ (moved = 0 -> cis' = cis).
Proof.
  intros C (L & R). induction points as [|p points IH]; intros [|ci cis] LC V; try discriminate LC; cbn [assign_loop].
  - exists [], 0. repeat split; try lia. constructor.
  - inversion V as [|? ? Vc V']; subst. destruct (index_ok clusters ci) as (pc & -> & _); [lia|]. rewrite bind_Ok. cbv zeta.
    destruct (index_ok dm ci) as (row & -> & NR); [lia|]. rewrite bind_Ok. pose proof (nth_forall _ _ _ _ R NR) as LR. cbv beta in LR.
    destruct (nearest_ok clusters row p (lab_distance p pc) (List.length dm) (zseq 0 (Z.of_nat (List.length dm))) C LR) with (mn := lab_distance p pc) (nc := -1) as (v & E & B).
    { intros j. rewrite in_zseq. lia. }
    rewrite E, bind_Ok. destruct (IH cis) as (cis' & moved & E' & L' & V'' & M & Q); [now injection LC|exact V'|]. rewrite E', bind_Ok.
    destruct (Z.eqb_spec v (-1)) as [->|D]; cbn [negb].
    + exists (ci :: cis'), moved. split; [reflexivity|]. split; [cbn [List.length]; now rewrite L'|]. split; [now constructor|]. split; [exact M|]. intros Z0. now rewrite (Q Z0).
    + exists (v :: cis'), (moved + 1). split; [reflexivity|]. split; [cbn [List.length]; now rewrite L'|]. split.
      { constructor; [|exact V'']. destruct B as [B|B]; [contradiction|]. apply in_zseq in B. exact B. }
      split; [lia|]. lia.
Qed.

(** ** Sums *)
(** The total count of the points assigned to cluster [i]. *)
Definition tally (i : Z) (cis counts : list Z) : Z := zsum (map (fun e => if fst e =? i then snd e else 0) (combine cis counts)).
Lemma tally_cons i c cis n counts : tally i (c :: cis) (n :: counts) = (if c =? i then n else 0) + tally i cis counts.
Proof. reflexivity. Qed.
Lemma tally_range i cis counts : Forall (fun n => 0 <= n) counts -> 0 <= tally i cis counts <= zsum counts.
Proof.
  intros F. revert cis. induction F as [|n counts N F IH]; intros [|c cis]; try (cbn; lia).
  - unfold tally. cbn [combine map]. change (zsum []) with 0. change (zsum (n :: counts)) with (n + zsum counts). specialize (IH []). unfold tally in IH. cbn in IH. lia.
  - rewrite tally_cons. change (zsum (n :: counts)) with (n + zsum counts). specialize (IH cis). destruct (c =? i); lia.
Qed.
Lemma sums_ok k points : forall counts cis pcs sums, List.length counts = List.length points -> List.length cis = List.length points ->
  valid k cis -> List.length pcs = k -> List.length sums = k -> Forall (fun n => 0 <= n) counts -> Forall (fun n => 0 <= n) pcs ->
  (forall i n, nth_error pcs i = Some n -> n + zsum counts <= i64_max) ->
  exists pcs' sums', sums_loop points counts cis pcs sums = Ok (pcs', sums') /\ List.length pcs' = k /\ List.length sums' = k /\
    (forall i n, nth_error pcs i = Some n -> nth_error pcs' i = Some (n + tally (Z.of_nat i) cis counts)).
Proof.
  induction points as [|p points IH]; intros [|c counts] [|ci cis] pcs sums LC LI V LP LS NC NP B; try discriminate LC; try discriminate LI; cbn [sums_loop].
  - exists pcs, sums. split; [reflexivity|]. split; [exact LP|]. split; [exact LS|]. intros i n E. rewrite E. f_equal. unfold tally. cbn. lia.
  - inversion V as [|? ? Vc V']; subst. inversion NC as [|? ? Hc NC']; subst.
    destruct (index_ok pcs ci) as (old & -> & EO); [lia|]. rewrite bind_Ok. pose proof (nth_forall _ _ _ _ NP EO) as HO. cbv beta in HO.
    pose proof (B _ _ EO) as BO. change (zsum (c :: counts)) with (c + zsum counts) in *.
    assert (0 <= zsum counts) by (pose proof (tally_range 0 [] counts NC'); unfold tally in *; cbn in *; lia).
    rewrite chk_ok by (unfold i64_min; lia). rewrite bind_Ok. cbv zeta.
    match goal with |- context [lupd sums ci ?f] => destruct (lupd_ok sums ci f) as (? & _ & ->); [lia|] end. rewrite bind_Ok.
    match goal with |- context [sums_loop points counts cis ?a ?b] => destruct (IH counts cis a b) as (pcs' & sums' & E & L1 & L2 & T) end.
    { now injection LC. } { now injection LI. } { exact V'. } { now rewrite list_set_length. } { rewrite list_set_length. exact LS. } { exact NC'. }
    { apply forall_set; [exact NP|lia]. }
    { intros i n. rewrite list_set_nth by (apply nth_error_Some; congruence). destruct (Nat.eqb_spec (Z.to_nat ci) i); [intros [= <-]; lia|].
      intros E. pose proof (B _ _ E). lia. }
    exists pcs', sums'. split; [exact E|]. split; [exact L1|]. split; [exact L2|]. intros i n EN. rewrite tally_cons.
    specialize (T i). rewrite list_set_nth in T by (apply nth_error_Some; congruence).
    destruct (Nat.eqb_spec (Z.to_nat ci) i) as [E1|D].
    + rewrite E1, EN in EO. injection EO as ->. rewrite (T _ eq_refl). destruct (Z.eqb_spec ci (Z.of_nat i)); [|lia]. f_equal. lia.
    + rewrite (T n EN). destruct (Z.eqb_spec ci (Z.of_nat i)); [lia|]. f_equal.
Qed.
Lemma centroid_ok k is pcs sums : (forall i, In i is -> 0 <= i < Z.of_nat k) -> List.length pcs = k -> List.length sums = k -> forall clusters, (k <= List.length clusters)%nat ->
  exists clusters', centroid_loop is pcs sums clusters = Ok clusters' /\ List.length clusters' = List.length clusters.
Proof.
  intros I LP LS. induction is as [|i is IH]; intros clusters C; cbn [centroid_loop]; [exists clusters; now split|].
  pose proof (I i (or_introl eq_refl)). specialize (IH (fun j P => I j (or_intror P))).
  destruct (index_ok pcs i) as (n & -> & _); [lia|]. rewrite bind_Ok. destruct (index_ok sums i) as (s & -> & _); [lia|]. rewrite bind_Ok.
  match goal with |- context [lupd clusters i ?f] => destruct (lupd_ok clusters i f) as (? & _ & ->); [lia|] end. rewrite bind_Ok.
  match goal with |- context [centroid_loop is pcs sums ?c] => destruct (IH c) as (c' & E & L) end; [now rewrite list_set_length|].
  exists c'. split; [exact E|]. rewrite L. apply list_set_length.
Qed.

(** ** Iterations *)
Definition consistent (pcs cis counts : list Z) : Prop := forall i n, nth_error pcs i = Some n -> n = tally (Z.of_nat i) cis counts.
Lemma nth_repeat_some {A} (x : A) n i y : nth_error (repeat x n) i = Some y -> y = x.
Proof. intros E. apply nth_error_In, repeat_spec in E. exact E. Qed.
Lemma kmeans_ok k points counts : List.length counts = List.length points -> Forall (fun n => 0 <= n) counts -> zsum counts <= i64_max ->
  forall fuel first clusters dm cis pcs, (k <= List.length clusters)%nat -> square k dm -> List.length cis = List.length points -> valid k cis -> List.length pcs = k ->
  (first = false -> consistent pcs cis counts) ->
  exists clusters' cis' pcs', kmeans_loop fuel first (Z.of_nat k) points counts clusters dm cis pcs = Ok (clusters', cis', pcs') /\
    List.length clusters' = List.length clusters /\ List.length cis' = List.length points /\ valid k cis' /\ List.length pcs' = k /\
    (fuel = O -> cis' = cis /\ pcs' = pcs) /\ (fuel <> O -> consistent pcs' cis' counts).
Proof.
  intros LC NC BC. induction fuel as [|fuel IH]; intros first clusters dm cis pcs C S LI V LP CO; cbn [kmeans_loop].
  - exists clusters, cis, pcs. repeat (split; [first [reflexivity|assumption]|]). split; [intros _; now split|easy].
  - destruct (rows_ok clusters k (zseq 0 (Z.of_nat k)) dm S C) as (dm' & -> & S'). { intros i. rewrite in_zseq. lia. }
    rewrite bind_Ok. destruct (assign_ok clusters dm' k points C S' cis LI V) as (cis' & moved & -> & L' & V' & M & Q). rewrite bind_Ok.
    destruct ((moved =? 0) && negb first) eqn:ST.
    + apply andb_prop in ST. destruct ST as (Z0 & NF). apply Z.eqb_eq in Z0. rewrite (Q Z0) in *. apply negb_true_iff in NF.
      exists clusters, cis, pcs. repeat (split; [first [reflexivity|assumption]|]). split; [easy|]. intros _. now apply CO.
    + cbv zeta. rewrite Nat2Z.id.
      destruct (sums_ok k points counts cis' (repeat 0 k) (repeat vzero k) LC L' V') as (pcs' & sums & -> & LP' & LS & T); try apply repeat_length; try assumption.
      { rewrite Forall_forall. intros x I. apply repeat_spec in I. lia. }
      { intros i n E. apply nth_repeat_some in E. lia. }
      rewrite bind_Ok. destruct (centroid_ok k (zseq 0 (Z.of_nat k)) pcs' sums) with (clusters := clusters) as (cl' & -> & LCl); try assumption.
      { intros i. rewrite in_zseq. lia. }
      rewrite bind_Ok.
      assert (CO' : consistent pcs' cis' counts).
      { intros i n E. assert (i < k)%nat by (rewrite <- LP'; apply nth_error_Some; congruence).
        assert (E0 : nth_error (repeat 0 k) i = Some 0) by (rewrite (nth_error_nth' _ 0) by (now rewrite repeat_length); now rewrite nth_repeat).
        rewrite (T i 0 E0) in E. injection E as <-. lia. }
      destruct (IH false cl' dm' cis' pcs') as (a & b & c & E & A1 & A2 & A3 & A4 & A5 & A6); try assumption; [lia|easy|].
      exists a, b, c. split; [exact E|]. split; [lia|]. split; [exact A2|]. split; [exact A3|]. split; [exact A4|]. split; [easy|]. intros _.
      destruct fuel as [|fuel]; [destruct (A5 eq_refl) as (-> & ->); exact CO'|now apply A6].
Qed.

(** ** The results *)
Section Result.
Context {lm : Libm}.
Lemma index_nth {A} (l : list A) i d : 0 <= i < Z.of_nat (List.length l) -> index l i = Ok (nth (Z.to_nat i) l d).
Proof. intros I. destruct (index_ok l i I) as (a & -> & N). f_equal. symmetry. now apply nth_error_nth. Qed.
Definition colour (clusters : list vec3) (i : Z) : Z := lab_to_int (nth (Z.to_nat i) clusters vzero).
Definition pop (pcs : list Z) (i : Z) : Z := nth (Z.to_nat i) pcs 0.
Lemma rgb_opaque r g b : opaque (argb_from_rgb r g b).
Proof. destruct (pack_channels r g b) as (_ & _ & _ & _ & A). exact A. Qed.
Lemma xyz_opaque x y z : opaque (argb_from_xyz x y z).
Proof. unfold argb_from_xyz, xyz_to_srgb. apply rgb_opaque. Qed.
Lemma colour_opaque clusters i : opaque (colour clusters i).
Proof. unfold colour, lab_to_int, argb_from_lab. cbv zeta. apply xyz_opaque. Qed.
Local Opaque lab_to_int lab_from_int.
Lemma in_combine_app {A B} (a : list A) (b : list B) x y e : List.length a = List.length b -> In e (combine (a ++ [x]) (b ++ [y])) <-> In e (combine a b) \/ e = (x, y).
Proof.
  revert b. induction a as [|u a IH]; intros [|v b] L; try discriminate L; cbn [app combine In].
  - intuition.
  - injection L as L. rewrite (IH b L). intuition.
Qed.
Lemma zsum_app a b : zsum (a ++ b) = zsum a + zsum b.
Proof. induction a as [|x a IH]; [reflexivity|]. cbn [app]. change (zsum (?a :: ?b)) with (a + zsum b). lia. Qed.
Lemma collect_ok k is pcs clusters : (k <= List.length clusters)%nat -> List.length pcs = k -> Forall (fun n => 0 <= n) pcs ->
  (forall i, In i is -> 0 <= i < Z.of_nat k) -> forall argbs pops, List.length argbs = List.length pops ->
  exists argbs' pops', collect_loop is pcs clusters argbs pops = Ok (argbs', pops') /\ List.length argbs' = List.length pops' /\
    (forall a, In a argbs -> In a argbs') /\ (NoDup argbs -> NoDup argbs') /\
    (List.length argbs' <= List.length argbs + List.length is)%nat /\
    (forall i, In i is -> pop pcs i <> 0 -> In (colour clusters i) argbs') /\
    (forall e, In e (combine argbs' pops') -> In e (combine argbs pops) \/ exists i, In i is /\ pop pcs i <> 0 /\ e = (colour clusters i, pop pcs i)) /\
    zsum pops' <= zsum pops + zsum (map (pop pcs) is) /\
    ((List.length argbs' = List.length argbs + List.length is)%nat -> zsum pops' = zsum pops + zsum (map (pop pcs) is)).
Proof.
  intros C LP NP. induction is as [|i is IH]; intros I argbs pops L; cbn [collect_loop].
  - exists argbs, pops. split; [reflexivity|]. split; [exact L|]. split; [auto|]. split; [auto|]. split; [lia|]. split; [easy|]. split; [auto|]. cbn. split; lia.
  - pose proof (I i (or_introl eq_refl)) as Ii. specialize (IH (fun j P => I j (or_intror P))).
    rewrite (index_nth pcs i 0) by lia. rewrite bind_Ok. fold (pop pcs i).
    assert (P0 : 0 <= pop pcs i). { unfold pop. rewrite Forall_forall in NP. apply NP. apply nth_In. lia. }
    cbn [map List.length]. change (zsum (pop pcs i :: map (pop pcs) is)) with (pop pcs i + zsum (map (pop pcs) is)).
    destruct (Z.eqb_spec (pop pcs i) 0) as [Z0|NZ].
    + destruct (IH argbs pops L) as (a & p & E & A1 & A2 & A3 & A4 & A5 & A6 & A7 & A8). exists a, p. split; [exact E|]. split; [exact A1|]. split; [exact A2|]. split; [exact A3|].
      split; [lia|]. split; [intros j [<-|J] NZ; [contradiction|now apply A5]|]. split; [intros e Ie; destruct (A6 e Ie) as [X|(j & J & X)]; [now left|right; exists j; split; [now right|exact X]]|].
      split; [lia|]. lia.
    + rewrite (index_nth clusters i vzero) by lia. rewrite bind_Ok. cbv zeta. change (lab_to_int (nth (Z.to_nat i) clusters vzero)) with (colour clusters i).
      destruct (existsb (Z.eqb (colour clusters i)) argbs) eqn:EX.
      * apply existsb_exists in EX. destruct EX as (x & X & EQ). apply Z.eqb_eq in EQ. subst x.
        destruct (IH argbs pops L) as (a & p & E & A1 & A2 & A3 & A4 & A5 & A6 & A7 & A8). exists a, p. split; [exact E|]. split; [exact A1|]. split; [exact A2|]. split; [exact A3|].
        split; [lia|]. split; [intros j [<-|J] NZ'; [now apply A2|now apply A5]|]. split; [intros e Ie; destruct (A6 e Ie) as [Y|(j & J & Y)]; [now left|right; exists j; split; [now right|exact Y]]|].
        split; [lia|]. lia.
      * destruct (IH (argbs ++ [colour clusters i]) (pops ++ [pop pcs i])) as (a & p & E & A1 & A2 & A3 & A4 & A5 & A6 & A7 & A8); [rewrite !app_length; cbn [List.length]; lia|].
        exists a, p. rewrite app_length in A4, A8. cbn [List.length] in A4, A8. rewrite zsum_app in A7, A8. change (zsum [pop pcs i]) with (pop pcs i + 0) in A7, A8.
        split; [exact E|]. split; [exact A1|]. split; [intros x X; apply A2; apply in_or_app; now left|]. split.
        { intros N. apply A3. apply (Permutation_NoDup (l := colour clusters i :: argbs)); [apply Permutation_cons_append|]. constructor; [|exact N]. intros X.
          assert (existsb (Z.eqb (colour clusters i)) argbs = true) by (apply existsb_exists; exists (colour clusters i); split; [exact X|apply Z.eqb_refl]). congruence. }
        split; [lia|]. split; [intros j [<-|J] NZ'; [apply A2; apply in_or_app; right; now left|now apply A5]|]. split.
        { intros e Ie. destruct (A6 e Ie) as [Y|(j & J & Y)]; [|right; exists j; split; [now right|exact Y]].
          apply in_combine_app in Y; [|exact L]. destruct Y as [Y| ->]; [now left|right; exists i; split; [now left|now split]]. }
        split; [lia|]. intros Q. rewrite A8 by lia. lia.
Qed.

(** The pixel map. *)
Lemma pixel_map_ok k clusters pixels : (k <= List.length clusters)%nat -> forall cis m, List.length cis = List.length pixels -> valid k cis -> NoDup pixels ->
  exists m', pixel_map_loop pixels cis clusters m = Ok m' /\
    (NoDup (map fst m) -> NoDup (map fst m')) /\ (forall p, In p (map fst m') <-> In p (map fst m) \/ In p pixels) /\
    (forall p ci, In (p, ci) (combine pixels cis) -> afind Z.eqb m' p = Some (colour clusters ci)) /\
    (forall p, ~ In p pixels -> afind Z.eqb m' p = afind Z.eqb m p).
Proof.
  intros C. induction pixels as [|p ps IH]; intros [|ci cis] m L V N; try discriminate L; cbn [pixel_map_loop].
  - exists m. split; [reflexivity|]. split; [auto|]. split; [cbn; tauto|]. split; [easy|auto].
  - inversion V as [|? ? Vc V']; subst. inversion N as [|? ? NI N']; subst. rewrite (index_nth clusters ci vzero) by lia. rewrite bind_Ok. change (lab_to_int (nth (Z.to_nat ci) clusters vzero)) with (colour clusters ci).
    destruct (IH cis (ainsert Z.eqb m p (colour clusters ci))) as (m' & E & A & B & D & F); [now injection L|exact V'|exact N'|].
    exists m'. split; [exact E|]. split; [intros X; apply A; now apply nodup_ainsert|]. split; [intros q; rewrite B, keys_ainsert; cbn [In]; intuition|]. split.
    + intros q c [[= <- <-]|I]; [|now apply D]. rewrite (F p NI), find_ainsert, Z.eqb_refl. reflexivity.
    + intros q Q. rewrite (F q) by (intros I; apply Q; now right). rewrite find_ainsert. destruct (Z.eqb_spec p q) as [->|]; [elim Q; now left|reflexivity].
Qed.

(** Random indices. *)
Definition draw n (again : list Z -> list Z -> res (list Z)) (indices : list Z) := fix draw (rng : list Z) : res (list Z) :=
  match rng with
  | [] => Panic
  | z :: rng' => let i := z mod n in if existsb (Z.eqb i) indices then draw rng' else again rng' (indices ++ [i])
  end.
Lemma pick_step rng n needed indices : pick_indices rng n (S needed) indices = draw n (fun rng is => pick_indices rng n needed is) indices rng.
Proof. destruct rng; reflexivity. Qed.
Lemma pick_length n needed : forall rng indices r, pick_indices rng n needed indices = Ok r -> List.length r = (List.length indices + needed)%nat.
Proof.
  induction needed as [|needed IH]; intros rng indices r E.
  - cbn [pick_indices] in E. destruct rng; injection E as <-; lia.
  - rewrite pick_step in E. revert E. induction rng as [|z rng IHr]; intros E; [discriminate E|]. cbn [draw] in E. cbv zeta in E.
    destruct (existsb _ indices); [now apply IHr|]. apply IH in E. rewrite app_length in E. cbn [List.length] in E. lia.
Qed.
Lemma pick_ok n needed : forall rng indices fresh, List.length fresh = needed -> NoDup fresh -> (forall i, In i fresh -> ~ In i indices /\ In i (map (fun z => z mod n) rng)) ->
  exists r, pick_indices rng n needed indices = Ok r.
Proof.
  induction needed as [|needed IH]; intros rng indices fresh L N F.
  - exists indices. cbn [pick_indices]. now destruct rng.
  - rewrite pick_step. revert fresh L N F. induction rng as [|z rng IHr]; intros fresh L N F.
    + destruct fresh as [|x fresh]; [discriminate L|]. destruct (F x (or_introl eq_refl)) as (_ & []).
    + cbn [draw]. cbv zeta. destruct (existsb (Z.eqb (z mod n)) indices) eqn:EX.
      * apply existsb_exists in EX. destruct EX as (x & X & EQ). apply Z.eqb_eq in EQ. subst x. apply (IHr fresh L N). intros i I. destruct (F i I) as (A & B). split; [exact A|].
        cbn [map In] in B. destruct B as [B|B]; [congruence|exact B].
      * destruct (in_dec Z.eq_dec (z mod n) fresh) as [I|NI].
        -- apply in_split in I. destruct I as (l1 & l2 & ->). apply (IH _ _ (l1 ++ l2)).
           { rewrite app_length in *. cbn [List.length] in L. lia. } { now apply NoDup_remove_1 in N. }
           intros i I. assert (D : i <> z mod n) by (apply NoDup_remove_2 in N; intros ->; contradiction).
           destruct (F i) as (A & B). { apply in_app_iff in I. apply in_app_iff. cbn [In]. tauto. }
           split; [rewrite in_app_iff; cbn [In]; intuition|]. cbn [map In] in B. destruct B as [B|B]; [congruence|exact B].
        -- destruct fresh as [|x fresh]; [discriminate L|]. injection L as L. inversion N as [|? ? NX N']; subst. apply (IH _ _ fresh eq_refl N').
           intros i I. destruct (F i (or_intror I)) as (A & B). assert (D : i <> z mod n) by (intros ->; apply NI; now right).
           split; [rewrite in_app_iff; cbn [In]; intuition|]. cbn [map In] in B. destruct B as [B|B]; [congruence|exact B].
Qed.

Lemma tally_total k cis : valid k cis -> forall counts, List.length counts = List.length cis ->
  zsum (map (fun i => tally i cis counts) (zseq 0 (Z.of_nat k))) = zsum counts.
Proof.
  intros V. assert (ND : NoDup (zseq 0 (Z.of_nat k))).
  { unfold zseq. apply FinFun.Injective_map_NoDup; [intros a b; lia|apply seq_NoDup]. }
  induction V as [|c cis Vc V IH]; intros [|n counts] L; try discriminate L.
  - generalize (zseq 0 (Z.of_nat k)). intros l. induction l as [|x l IHl]; [reflexivity|]. cbn [map]. change (zsum (?a :: ?b)) with (a + zsum b). rewrite IHl. reflexivity.
  - change (zsum (n :: counts)) with (n + zsum counts). rewrite <- (IH counts) by now injection L.
    rewrite <- (zsum_delta (fun _ => n) c (zseq 0 (Z.of_nat k)) ND) at 1 by (apply in_zseq; lia). rewrite <- zsum_add. f_equal. apply map_ext. intros i. rewrite tally_cons. destruct (c =? i); ring.
Qed.
Lemma tally_mapped k clusters pixels : forall cis m counts i, List.length cis = List.length pixels -> valid k cis ->
  (forall p ci, In (p, ci) (combine pixels cis) -> afind Z.eqb m p = Some (colour clusters ci)) ->
  Forall (fun n => 0 <= n) (map counts pixels) ->
  tally i cis (map counts pixels) <= zsum (map (fun p => (if match afind Z.eqb m p with Some c => c =? colour clusters i | None => false end then 1 else 0) * counts p) pixels).
Proof.
  induction pixels as [|p ps IH]; intros [|ci cis] m counts i L V F NN; try discriminate L; [cbn; lia|].
  cbn [map] in *. inversion V as [|? ? Vc V']; subst. inversion NN as [|? ? N0 NN']; subst. rewrite tally_cons. change (zsum (?a :: ?b)) with (a + zsum b).
  specialize (IH cis m counts i ltac:(now injection L) V' (fun q c I => F q c (or_intror I)) NN'). rewrite (F p ci (or_introl eq_refl)).
  destruct (Z.eqb_spec ci i) as [->|D]; [rewrite Z.eqb_refl; lia|]. destruct (colour clusters ci =? colour clusters i); lia.
Qed.
Lemma occ_len p l : 0 <= occurrences p l. Proof. unfold occurrences. lia. Qed.

Lemma ws_case rng pixels max start iters ret : Z.of_nat (List.length pixels) <= i64_max ->
  match ws_quantize rng pixels max start iters ret with
  | Ok r =>
      let colors := qr_color_to_count r in let m := qr_input_pixel_to_cluster_pixel r in
      0 <= max /\ (pixels <> [] -> 1 <= max) /\
      NoDup (map fst colors) /\ Z.of_nat (List.length colors) <= Z.min max (distinct pixels) /\
      (forall c n, In (c, n) colors -> opaque c /\ 0 < n) /\ total_count colors <= Z.of_nat (List.length pixels) /\
      (unwrap_or iters 5 <= 0 -> colors = []) /\
      (1 <= unwrap_or iters 5 -> pixels <> [] -> colors <> []) /\
      (1 <= unwrap_or iters 5 -> Z.of_nat (List.length colors) = Z.min max (distinct pixels) -> total_count colors = Z.of_nat (List.length pixels)) /\
      (unwrap_or ret false = false -> m = []) /\
      (unwrap_or ret false = true -> NoDup (map fst m) /\ (forall p, In p (map fst m) <-> In p pixels) /\
        (1 <= unwrap_or iters 5 -> forall p c, In (p, c) m -> In c (map fst colors)) /\
        (forall c n, In (c, n) colors -> n <= mapped_to m c pixels))
  | Panic => max < 0 \/ (max = 0 /\ pixels <> []) \/
      ~ (forall i, 0 <= i < distinct pixels -> In i (map (fun z => z mod distinct pixels) rng))
  end.
Proof.
  intros BL. unfold ws_quantize. cbv zeta.
  pose proof (ws_count_eq pixels) as WC. destruct (ws_count pixels [] []) as (p2c, ps). cbn [fst snd] in WC. destruct WC as (ND & IN & ->).
  assert (DI : Z.of_nat (List.length ps) = distinct pixels).
  { unfold distinct. f_equal. apply Permutation_length, NoDup_Permutation; [exact ND|apply NoDup_nodup|]. intros p. rewrite IN. symmetry. apply nodup_In. }
  rewrite DI. set (D := distinct pixels) in *. set (cc := Z.min max D).
  assert (NE : pixels <> [] <-> 0 < D).
  { split; intros H.
    - destruct pixels as [|p l]; [contradiction|]. destruct (ps) as [|q t]; [destruct (proj2 (IN p) (or_introl eq_refl))|]. cbn [List.length] in DI. lia.
    - intros ->. destruct ps as [|q t]; [cbn [List.length] in DI; lia|]. exact (proj1 (IN q) (or_introl eq_refl)). }
  set (cl0 := map lab_from_int (unwrap_or start [])).
  (* starting clusters *)
  assert (ST : match (if 0 <? cc - Z.of_nat (List.length cl0) then
       do indices <- pick_indices rng D (Z.to_nat (cc - Z.of_nat (List.length cl0))) [];
       Ok (cl0 ++ map (fun i => nth (Z.to_nat i) (map lab_from_int ps) vzero) indices) else Ok cl0) with
     | Ok cl => cc <= Z.of_nat (List.length cl)
     | Panic => ~ (forall i, 0 <= i < D -> In i (map (fun z => z mod D) rng)) end).
  { destruct (Z.ltb_spec 0 (cc - Z.of_nat (List.length cl0))) as [P|P]; [|lia].
    destruct (pick_indices rng D (Z.to_nat (cc - Z.of_nat (List.length cl0))) []) as [is|] eqn:PK.
    - rewrite bind_Ok. apply pick_length in PK. rewrite app_length, map_length, PK. cbn [List.length]. lia.
    - cbn [bind]. intros ALL.
      destruct (pick_ok D (Z.to_nat (cc - Z.of_nat (List.length cl0))) rng [] (zseq 0 (cc - Z.of_nat (List.length cl0)))) as (r & E); [..|rewrite E in PK; discriminate PK].
      + unfold zseq. rewrite map_length, seq_length. lia.
      + unfold zseq. apply FinFun.Injective_map_NoDup; [intros a b; lia|apply seq_NoDup].
      + intros i I. apply in_zseq in I. split; [easy|]. apply ALL. unfold cc in I. lia. }
  destruct (if 0 <? cc - Z.of_nat (List.length cl0) then _ else _) as [cl|]; [rewrite bind_Ok|cbn [bind]; right; right; exact ST].
  destruct ((cc =? 0) && negb (D =? 0)) eqn:ZD.
  { apply andb_prop in ZD. destruct ZD as (C0 & D0). apply Z.eqb_eq in C0. apply negb_true_iff, Z.eqb_neq in D0. right. left. split; [unfold cc in C0; lia|apply NE; lia]. }
  assert (CD : cc = 0 -> D = 0). { intros E. destruct (Z.eqb_spec D 0); [assumption|]. rewrite E in ZD. discriminate ZD. }
  clear ZD. destruct (Z.ltb_spec cc 0) as [CN|CN]; [left; unfold cc in *; lia|].
  set (k := Z.to_nat cc). assert (KE : cc = Z.of_nat k) by (unfold k; lia).
  set (counts := map (fun p => occurrences p pixels) ps).
  assert (LC : List.length counts = List.length (map lab_from_int ps)) by (unfold counts; now rewrite !map_length).
  assert (NC : Forall (fun n => 0 <= n) counts) by (unfold counts; rewrite Forall_map, Forall_forall; intros; apply occ_len).
  assert (TC : zsum counts = Z.of_nat (List.length pixels)).
  { unfold counts. pose proof (distinct_sum (fun _ => 1) ps ND pixels (fun p I => proj2 (IN p) I)) as DS.
    rewrite (map_ext _ (fun p => occurrences p pixels)) in DS by (intros; lia). rewrite DS.
    clear. induction pixels as [|p l IH]; [reflexivity|]. cbn [map List.length]. change (zsum (?a :: ?b)) with (a + zsum b). lia. }
  rewrite KE.
  match goal with |- context [kmeans_loop ?f true (Z.of_nat k) ?pts counts cl ?dm ?cis ?pcs] =>
    destruct (kmeans_ok k pts counts LC NC ltac:(lia) f true cl dm cis pcs) as (cl' & cis' & pcs' & E & L1 & L2 & V & L3 & K0 & K1) end.
  { lia. }
  { split; [apply repeat_length|]. rewrite Forall_forall. intros r I. apply repeat_spec in I. subst r. unfold zseq. rewrite !map_length, seq_length. lia. }
  { rewrite !map_length. apply seq_length. }
  { unfold valid. rewrite Forall_map, Forall_forall. intros i I. apply in_seq in I. rewrite Z.rem_mod_nonneg by lia. apply Z.mod_pos_bound. lia. }
  { apply repeat_length. }
  { discriminate. }
  rewrite E, bind_Ok. clear E. rewrite map_length in L2.
  assert (CONS : pcs' = repeat 0 k /\ unwrap_or iters 5 <= 0 \/ consistent pcs' cis' counts /\ 1 <= unwrap_or iters 5).
  { destruct (Z.le_gt_cases (unwrap_or iters 5) 0) as [I0|I0]; [left; split; [apply K0; lia|exact I0]|right; split; [apply K1; lia|lia]]. }
  clear K0 K1.
  assert (POP : forall i, 0 <= i < Z.of_nat k -> (unwrap_or iters 5 <= 0 /\ pop pcs' i = 0) \/ (1 <= unwrap_or iters 5 /\ pop pcs' i = tally i cis' counts)).
  { intros i I. destruct CONS as [(-> & I0)|(CO & I1)]; [left|right]; (split; [assumption|]); unfold pop.
    - apply nth_repeat.
    - rewrite <- (Z2Nat.id i) at 2 by lia. apply CO. apply nth_error_nth'. lia. }
  assert (NP : Forall (fun n => 0 <= n) pcs').
  { rewrite Forall_forall. intros n I. apply (In_nth _ _ 0) in I. destruct I as (j & J & <-).
    destruct (POP (Z.of_nat j) ltac:(lia)) as [(_ & P)|(_ & P)]; unfold pop in P; rewrite Nat2Z.id in P; rewrite P; [lia|apply tally_range; exact NC]. }
  destruct (collect_ok k (zseq 0 (Z.of_nat k)) pcs' cl' ltac:(lia) L3 NP) with (argbs := @nil Z) (pops := @nil Z) as (argbs & pops & EC & A1 & _ & A3 & A4 & A5 & A6 & A7 & A8).
  { intros i. rewrite in_zseq. lia. } { reflexivity. }
  rewrite EC, bind_Ok. clear EC.
  assert (LZ : List.length (zseq 0 (Z.of_nat k)) = k) by (unfold zseq; rewrite map_length, seq_length; lia). rewrite LZ in A4, A8. cbn [List.length Nat.add] in A4, A8.
  assert (SUM : (unwrap_or iters 5 <= 0 /\ zsum (map (pop pcs') (zseq 0 (Z.of_nat k))) = 0) \/
                (1 <= unwrap_or iters 5 /\ zsum (map (pop pcs') (zseq 0 (Z.of_nat k))) = Z.of_nat (List.length pixels))).
  { destruct CONS as [(-> & I0)|(CO & I1)]; [left|right]; (split; [assumption|]).
    - rewrite (map_ext _ (fun _ => 0)) by (intros i; apply nth_repeat). clear. induction (zseq 0 (Z.of_nat k)) as [|x l IH]; [reflexivity|]. exact IH.
    - rewrite (map_ext_in _ (fun i => tally i cis' counts)).
      + rewrite tally_total; [exact TC|exact V|]. unfold counts. rewrite map_length. now rewrite L2.
      + intros i I. apply in_zseq in I. destruct (POP i I) as [(X & _)|(_ & X)]; [lia|exact X]. }
  assert (KEYS : map fst (combine argbs pops) = argbs).
  { clear - A1. revert pops A1. induction argbs as [|a l IH]; intros [|p pops] L; try discriminate L; [reflexivity|]. cbn [combine map fst]. f_equal. apply IH. now injection L. }
  assert (VALS : map snd (combine argbs pops) = pops).
  { clear - A1. revert pops A1. induction argbs as [|a l IH]; intros [|p pops] L; try discriminate L; [reflexivity|]. cbn [combine map snd]. f_equal. apply IH. now injection L. }
  assert (LEN : List.length (combine argbs pops) = List.length argbs) by (rewrite combine_length; lia).
  assert (ENTRY : forall c n, In (c, n) (combine argbs pops) -> exists i, 0 <= i < Z.of_nat k /\ pop pcs' i <> 0 /\ c = colour cl' i /\ n = pop pcs' i).
  { intros c n I. destruct (A6 (c, n) I) as [[]|(i & J & NZ & EQ)]. apply in_zseq in J. exists i. split; [exact J|]. split; [exact NZ|]. split; [exact (f_equal fst EQ)|exact (f_equal snd EQ)]. }
  assert (TOT : total_count (combine argbs pops) = zsum pops) by (unfold total_count; now rewrite VALS).
  (* the pixel map *)
  assert (PM : exists m, (if unwrap_or ret false then pixel_map_loop ps cis' cl' [] else Ok []) = Ok m /\
    (unwrap_or ret false = false -> m = []) /\ (unwrap_or ret false = true -> NoDup (map fst m) /\ (forall p, In p (map fst m) <-> In p ps) /\
      forall p ci, In (p, ci) (combine ps cis') -> afind Z.eqb m p = Some (colour cl' ci))).
  { destruct (unwrap_or ret false).
    - destruct (pixel_map_ok k cl' ps ltac:(lia) cis' [] L2 V ND) as (m & EM & M1 & M2 & M3 & _). exists m. split; [exact EM|]. split; [discriminate|]. intros _.
      split; [apply M1; constructor|]. split; [intros p; rewrite M2; cbn; tauto|exact M3].
    - exists []. split; [reflexivity|]. split; [reflexivity|discriminate]. }
  destruct PM as (m & -> & M0 & M1). rewrite bind_Ok. cbn [qr_color_to_count qr_input_pixel_to_cluster_pixel].
  rewrite KEYS, LEN, TOT.
  split; [unfold cc in *; lia|]. split; [intros P; apply NE in P; unfold cc in *; lia|]. split; [apply A3; constructor|].
  change (Z.min max D) with cc. split; [lia|]. split.
  { intros c n I. destruct (ENTRY c n I) as (i & J & NZ & EQc & EQn). rewrite EQc, EQn. split; [apply colour_opaque|]. assert (0 <= pop pcs' i); [|lia]. unfold pop. rewrite Forall_forall in NP. apply NP, nth_In. lia. }
  change (zsum []) with 0 in A7, A8.
  split; [destruct SUM as [(_ & X)|(_ & X)]; lia|]. split.
  { intros I0. destruct (combine argbs pops) as [|(c, n) t]; [reflexivity|]. destruct (ENTRY c n (or_introl eq_refl)) as (i & J & NZ & _). destruct (POP i J) as [(_ & X)|(X & _)]; [contradiction|lia]. }
  split.
  { intros I1 PN EN. assert (EA : argbs = []) by (rewrite <- KEYS, EN; reflexivity). apply NE in PN.
    assert (Z0 : zsum (map (pop pcs') (zseq 0 (Z.of_nat k))) = 0).
    { assert (AZ : forall i, In i (zseq 0 (Z.of_nat k)) -> pop pcs' i = 0) by (intros i I; destruct (Z.eq_dec (pop pcs' i) 0) as [Q|Q]; [exact Q|]; specialize (A5 i I Q); rewrite EA in A5; destruct A5).
      rewrite (map_ext_in _ (fun _ => 0) _ AZ). clear. induction (zseq 0 (Z.of_nat k)) as [|x l IH]; [reflexivity|exact IH]. }
    destruct SUM as [(X & _)|(_ & X)]; [lia|]. rewrite Z0 in X. destruct pixels; [|cbn [List.length] in X; lia]. apply NE; [exact PN|reflexivity]. }
  split.
  { intros I1 Q. rewrite A8 by lia. destruct SUM as [(X & _)|(_ & X)]; lia. }
  split; [exact M0|]. intros R. destruct (M1 R) as (MN & MK & MF). split; [exact MN|]. split; [intros p; rewrite MK; apply IN|]. 
  assert (PAIR : forall p, In p ps -> exists ci, In (p, ci) (combine ps cis') /\ 0 <= ci < Z.of_nat k).
  { clear - L2 V. revert cis' L2 V. induction ps as [|q ps IH]; intros [|c cis'] L V p I; try discriminate L; [destruct I|]. inversion V as [|? ? Vc V']; subst. cbn [combine In].
    destruct I as [->|I]; [exists c; split; [now left|exact Vc]|]. destruct (IH cis' ltac:(now injection L) V' p I) as (ci & X & Y). exists ci. split; [now right|exact Y]. }
  split.
  { intros I1 p c I. assert (IP : In p ps) by (apply MK; apply (in_map fst) in I; exact I). destruct (PAIR p IP) as (ci & X & Y).
    apply (find_in m p c MN) in I. rewrite (MF p ci X) in I. assert (EQ : colour cl' ci = c) by (apply (f_equal (fun o => unwrap_or o 0)) in I; exact I). rewrite <- EQ. apply A5; [apply in_zseq; lia|].
    destruct (POP ci Y) as [(Q & _)|(_ & ->)]; [lia|]. clear - X L2 NC IN. unfold counts in *.
    assert (POS : Forall (fun q => 0 < occurrences q pixels) ps).
    { rewrite Forall_forall. intros q Q. apply IN in Q. unfold occurrences. apply (count_occ_In Z.eq_dec) in Q. lia. }
    clear IN. revert cis' L2 X. induction ps as [|q ps IH]; intros [|c cis'] L X; try discriminate L; [destruct X|].
    cbn [map] in *. inversion NC as [|? ? N0 NC']; subst. inversion POS as [|? ? P0 POS']; subst. rewrite tally_cons. pose proof (tally_range ci cis' _ NC'). cbn [combine In] in X.
    destruct X as [[= -> ->]|X]; [rewrite Z.eqb_refl; lia|]. specialize (IH NC' POS' cis' ltac:(now injection L) X). destruct (c =? ci); lia. }
  intros c n I. destruct (ENTRY c n I) as (i & J & NZ & EQc & EQn). rewrite EQc, EQn. destruct (POP i J) as [(_ & Q)|(_ & Q)]; [contradiction|]. rewrite Q.
  unfold counts. etransitivity; [apply (tally_mapped k cl' ps cis' m (fun p => occurrences p pixels) i L2 V MF); exact NC|].
  rewrite (distinct_sum (fun p => if match afind Z.eqb m p with Some c => c =? colour cl' i | None => false end then 1 else 0) ps ND pixels) by (intros p P; now apply IN).
  rewrite zsum_filter. unfold mapped_to. lia.
Qed.
End Result.

(** ** The statements *)
Section Statements.
Context {lm : Libm}.
Lemma ws_populations rng pixels max start iters ret r : Z.of_nat (List.length pixels) <= i64_max ->
  ws_quantize rng pixels max start iters ret = Ok r -> let colors := qr_color_to_count r in
  NoDup (map fst colors) /\ Z.of_nat (List.length colors) <= Z.min max (distinct pixels) /\
  (forall c n, In (c, n) colors -> opaque c /\ 0 < n) /\ total_count colors <= Z.of_nat (List.length pixels) /\
  (1 <= unwrap_or iters 5 -> Z.of_nat (List.length colors) = Z.min max (distinct pixels) -> total_count colors = Z.of_nat (List.length pixels)).
Proof.
  intros B E. pose proof (ws_case rng pixels max start iters ret B) as W. rewrite E in W. cbv zeta in *.
  destruct W as (_ & _ & A1 & A2 & A3 & A4 & _ & _ & A5 & _). exact (conj A1 (conj A2 (conj A3 (conj A4 A5)))).
Qed.
Lemma ws_returns rng pixels max start iters ret : Z.of_nat (List.length pixels) <= i64_max -> 1 <= max ->
  (forall i, 0 <= i < distinct pixels -> In i (map (fun z => z mod distinct pixels) rng)) ->
  exists r, ws_quantize rng pixels max start iters ret = Ok r.
Proof.
  intros B M R. pose proof (ws_case rng pixels max start iters ret B) as W. destruct (ws_quantize rng pixels max start iters ret) as [r|]; [now exists r|].
  destruct W as [W|[(W & _)|W]]; [lia|lia|contradiction].
Qed.
Lemma ws_pixel_map rng pixels max start iters r : Z.of_nat (List.length pixels) <= i64_max ->
  ws_quantize rng pixels max start iters (Some true) = Ok r ->
  let colors := qr_color_to_count r in let m := qr_input_pixel_to_cluster_pixel r in
  NoDup (map fst m) /\ (forall p, In p (map fst m) <-> In p pixels) /\
  (1 <= unwrap_or iters 5 -> forall p c, In (p, c) m -> In c (map fst colors)) /\ (forall c n, In (c, n) colors -> n <= mapped_to m c pixels).
Proof.
  intros B E. pose proof (ws_case rng pixels max start iters (Some true) B) as W. rewrite E in W. cbv zeta in *.
  destruct W as (_ & _ & _ & _ & _ & _ & _ & _ & _ & _ & W). exact (W eq_refl).
Qed.
Lemma ws_no_map rng pixels max start iters ret r : Z.of_nat (List.length pixels) <= i64_max -> unwrap_or ret false = false ->
  ws_quantize rng pixels max start iters ret = Ok r -> qr_input_pixel_to_cluster_pixel r = [].
Proof.
  intros B R E. pose proof (ws_case rng pixels max start iters ret B) as W. rewrite E in W. cbv zeta in *.
  destruct W as (_ & _ & _ & _ & _ & _ & _ & _ & _ & W & _). exact (W R).
Qed.
Lemma ws_no_iterations rng pixels max start iters ret r : Z.of_nat (List.length pixels) <= i64_max -> iters <= 0 ->
  ws_quantize rng pixels max start (Some iters) ret = Ok r -> qr_color_to_count r = [].
Proof.
  intros B R E. pose proof (ws_case rng pixels max start (Some iters) ret B) as W. rewrite E in W. cbv zeta in *.
  destruct W as (_ & _ & _ & _ & _ & _ & W & _). exact (W R).
Qed.
Lemma ws_never_empty rng pixels max start iters ret r : Z.of_nat (List.length pixels) <= i64_max -> 1 <= unwrap_or iters 5 -> pixels <> [] ->
  ws_quantize rng pixels max start iters ret = Ok r -> qr_color_to_count r <> [].
Proof.
  intros B I N E. pose proof (ws_case rng pixels max start iters ret B) as W. rewrite E in W. cbv zeta in *.
  destruct W as (_ & _ & _ & _ & _ & _ & _ & W & _). exact (W I N).
Qed.
Lemma ws_no_colors rng pixels max start iters ret : max < 0 \/ (max = 0 /\ pixels <> []) ->
  ws_quantize rng pixels max start iters ret = Panic.
Proof.
  intros H. unfold ws_quantize. cbv zeta. pose proof (ws_count_eq pixels) as WC. destruct (ws_count pixels [] []) as (p2c, ps). cbn [fst snd] in WC. destruct WC as (_ & IN & _).
  assert (NE : pixels <> [] -> 0 < Z.of_nat (List.length ps)).
  { intros N. destruct pixels as [|p l]; [contradiction|]. destruct ps; [destruct (proj2 (IN p) (or_introl eq_refl))|cbn [List.length]; lia]. }
  set (D := Z.of_nat (List.length ps)) in *. assert (D >= 0) by (unfold D; lia).
  destruct (if 0 <? _ then _ else _) as [cl|]; [rewrite bind_Ok|reflexivity].
  destruct H as [H|(-> & N)].
  - destruct ((_ =? 0) && _); [reflexivity|]. destruct (Z.ltb_spec (Z.min max D) 0); [reflexivity|lia].
  - specialize (NE N). rewrite Z.min_l by lia. destruct (Z.eqb_spec D 0); [lia|]. reflexivity.
Qed.
Lemma ws_no_pixels rng max start iters ret : 0 <= max ->
  ws_quantize rng [] max start iters ret = Ok {| qr_color_to_count := []; qr_input_pixel_to_cluster_pixel := [] |}.
Proof.
  intros M. destruct (ws_quantize rng [] max start iters ret) as [r|] eqn:E.
  - pose proof (ws_case rng [] max start iters ret) as W. rewrite E in W. cbv zeta in W. destruct W as (_ & _ & _ & L & _ & _ & _ & _ & _ & M0 & M1); [cbn; unfold i64_max; lia|].
    change (distinct []) with 0 in L. rewrite Z.min_r in L by lia. destruct r as [c m]. cbn [qr_color_to_count qr_input_pixel_to_cluster_pixel] in *.
    destruct c; [|cbn [List.length] in L; lia]. destruct (unwrap_or ret false); [|now rewrite (M0 eq_refl)].
    destruct (M1 eq_refl) as (_ & K & _). destruct m as [|(p, c) m]; [reflexivity|]. destruct (proj1 (K p) (or_introl eq_refl)).
  - pose proof (ws_case rng [] max start iters ret) as W. rewrite E in W. destruct W as [W|[(_ & W)|W]]; [cbn; unfold i64_max; lia|lia|contradiction|].
    elim W. intros i I. change (distinct []) with 0 in I. lia.
Qed.
Lemma celebi_populations rng order1 order2 pixels max ret r : Z.of_nat (List.length pixels) <= i64_max ->
  celebi_quantize rng order1 order2 pixels max ret = Ok r -> let colors := qr_color_to_count r in
  NoDup (map fst colors) /\ Z.of_nat (List.length colors) <= max /\ (forall c n, In (c, n) colors -> opaque c /\ 0 < n) /\
  total_count colors <= Z.of_nat (List.length pixels) /\ (pixels <> [] -> colors <> []).
Proof.
  intros B E. unfold celebi_quantize in E. cbv zeta in E. destruct (wu_quantize order1 pixels max) as [w|]; [rewrite bind_Ok in E|discriminate E].
  match type of E with ws_quantize _ _ _ ?s ?i ?t = _ => pose proof (ws_case rng pixels max s i t B) as W end. rewrite E in W. cbv zeta in *.
  destruct W as (_ & _ & A1 & A2 & A3 & A4 & _ & A5 & _). split; [exact A1|]. split; [lia|]. split; [exact A3|]. split; [exact A4|]. apply A5. cbn. lia.
Qed.
Lemma celebi_returns rng order1 order2 pixels max ret :
  Permutation (order1 (qr_color_to_count (map_quantize pixels))) (qr_color_to_count (map_quantize pixels)) ->
  1 <= max -> image_fits pixels -> Z.of_nat (List.length pixels) <= i64_max ->
  (forall i, 0 <= i < distinct pixels -> In i (map (fun z => z mod distinct pixels) rng)) ->
  exists r, celebi_quantize rng order1 order2 pixels max ret = Ok r.
Proof.
  intros OP M F B R. unfold celebi_quantize. cbv zeta. destruct (wu_total order1 pixels max OP M F) as (w & ->). rewrite bind_Ok. now apply ws_returns.
Qed.
End Statements.

Definition lossy (r : res quantizer_result) : bool := match r with Ok r => total_count (qr_color_to_count r) <? 4 | Panic => false end.
Lemma ws_not_exact : exists (lm : Libm) rng pixels max start iters ret r,
  1 <= unwrap_or iters 5 /\ ws_quantize rng pixels max start iters ret = Ok r /\ total_count (qr_color_to_count r) < Z.of_nat (List.length pixels).
Proof.
  assert (E : lossy (@ws_quantize sample_libm [] [0xFF000000; 0xFF3B3B3B; 0xFFFFFFFF; 0xFFB9B9B9] 2 (Some [0xFF777777; 0xFF777777]) (Some 1) None) = true) by (vm_compute; reflexivity).
  exists sample_libm, [], [0xFF000000; 0xFF3B3B3B; 0xFFFFFFFF; 0xFFB9B9B9], 2, (Some [0xFF777777; 0xFF777777]), (Some 1), None.
  destruct (@ws_quantize sample_libm [] [0xFF000000; 0xFF3B3B3B; 0xFFFFFFFF; 0xFFB9B9B9] 2 (Some [0xFF777777; 0xFF777777]) (Some 1) None) as [r|]; [|discriminate E].
  exists r. split; [cbn; lia|]. split; [reflexivity|]. apply Z.ltb_lt in E. exact E.
Qed.
