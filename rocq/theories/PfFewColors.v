(** * Images of few colours: what the k-means quantizer and Celebi return.  Proof file. *)
From Coq Require Import ZArith Bool List Lia Permutation String Reals Lra.
From Flocq Require Import Core IEEE754.BinarySingleNaN.
From Verif Require Import F64 MathUtils ColorUtils Assoc ViewingConditions QuantizerMap QuantizerWu QuantizerWsmeans Spec SpecQuantize SpecWsmeans SpecFew
  FloatFacts FloatMono AssocFacts PfArgb PfQuantizeMap PfHct PfScore SpecWu PfWuBoxes PfWu PfPalettes PfWsmeans PfKmeans PfFew SampleLibm.
Import ListNotations.
Open Scope string_scope.
Open Scope list_scope.
Open Scope Z_scope.

(** ** The colours in order *)
Lemma filter_filter {A} (f g : A -> bool) l : filter f (filter g l) = filter (fun x => f x && g x) l.
Proof. induction l as [|x l IH]; [reflexivity|]. cbn [filter]. destruct (g x) eqn:G; cbn [filter]; rewrite ?G; destruct (f x); cbn [andb]; now rewrite IH. Qed.
Definition known (counts : list (Z * Z)) (p : Z) : bool := match afind Z.eqb counts p with Some _ => true | None => false end.
Lemma known_ainsert counts q v p : known (ainsert Z.eqb counts q v) p = (q =? p) || known counts p.
Proof. unfold known. rewrite find_ainsert. destruct (q =? p); reflexivity. Qed.
Lemma count_first input : forall counts pixels, snd (ws_count input counts pixels) = pixels ++ filter (fun p => negb (known counts p)) (first_seen input).
Proof.
  induction input as [|q input IH]; intros counts pixels; cbn [ws_count first_seen filter snd]; [now rewrite app_nil_r|].
  destruct (afind Z.eqb counts q) as [c|] eqn:E.
  - assert (K : known counts q = true) by (unfold known; now rewrite E). rewrite IH, K. cbn [negb]. f_equal. rewrite filter_filter. apply filter_ext. intros p.
    rewrite known_ainsert. destruct (Z.eqb_spec q p) as [->|N]; [rewrite K; reflexivity|]. cbn [orb]. destruct (Z.eqb_spec p q); [congruence|]. now rewrite andb_true_r.
  - assert (K : known counts q = false) by (unfold known; now rewrite E). rewrite IH, K. cbn [negb]. rewrite <- app_assoc. cbn [app]. do 2 f_equal. rewrite filter_filter. apply filter_ext. intros p.
    rewrite known_ainsert. destruct (Z.eqb_spec q p) as [->|N]; [rewrite Z.eqb_refl, andb_false_r; reflexivity|]. cbn [orb]. destruct (Z.eqb_spec p q); [congruence|]. now rewrite andb_true_r.
Qed.
Lemma count_seen input : snd (ws_count input [] []) = first_seen input.
Proof.
  rewrite count_first. cbn [app]. induction (first_seen input) as [|x l IH]; [reflexivity|]. cbn [filter]. change (known [] x) with false. cbn [negb]. now rewrite IH.
Qed.

(** ** The mean of one colour *)
Section Mean.
Context {lm : Libm} (eps : R) (heps : (0 <= eps <= 1 / 10 ^ 10)%R) (PA : pow_accurate eps lm).
Definition solid (p : Z) : Z := argb_from_rgb (red_from_argb p) (green_from_argb p) (blue_from_argb p).

Lemma mean_tiny (v : vec3) n : sane v -> 1 <= n <= i64_max ->
  let m : vec3 := let s := addw vzero v n in (fdiv (v0 s) (of_Z n), fdiv (v1 s) (of_Z n), fdiv (v2 s) (of_Z n)) in tiny (1 / 10 ^ 12) m v.
Proof using.
  intros ((f0 & f1 & f2) & b0 & b1 & b2) hn. cbv zeta. unfold addw, vzero, tiny. cbv zeta.
  change (v0 (?a, ?b, ?c)) with a. change (v1 (?a, ?b, ?c)) with b. change (v2 (?a, ?b, ?c)) with c.
  change (v0 (?a, ?b, ?c)) with a. change (v1 (?a, ?b, ?c)) with b. change (v2 (?a, ?b, ?c)) with c.
  destruct (mean_near (v0 v) n f0 b0 hn) as (g0 & e0). destruct (mean_near (v1 v) n f1 b1 hn) as (g1 & e1). destruct (mean_near (v2 v) n f2 b2 hn) as (g2 & e2).
  clear heps PA. tauto.
Qed.
Lemma tiny_le d d' u v : (d <= d')%R -> tiny d u v -> tiny d' u v.
Proof using. intros h (a & b & c & e). split; [exact a|]. clear heps PA. lra. Qed.
Lemma mean_of_one pixels p : 1 <= occurrences p pixels <= i64_max -> let m := lab_mean pixels [p] in argb_from_lab (v0 m) (v1 m) (v2 m) = solid p.
Proof using heps PA.
  intros hn. cbv zeta. destruct (lab_near eps heps PA p) as (S & T). apply T. apply (tiny_le (1 / 10 ^ 12)); [lra|].
  assert (E : lab_mean pixels [p] = (let s := addw vzero (lab_from_argb p) (occurrences p pixels) in
    (fdiv (v0 s) (of_Z (occurrences p pixels)), fdiv (v1 s) (of_Z (occurrences p pixels)), fdiv (v2 s) (of_Z (occurrences p pixels))))).
  { unfold lab_mean, lab_sum, population. cbn [fold_left map fold_right]. rewrite Z.add_0_r. reflexivity. }
  rewrite E. apply mean_tiny; assumption.
Qed.
Lemma solid_opaque p : Spec.opaque p -> solid p = p.
Proof using. intros o. exact (proj2 (repack_iff p) o). Qed.

Lemma occ_pos p pixels : In p pixels -> Z.of_nat (List.length pixels) <= i64_max -> 1 <= occurrences p pixels <= i64_max.
Proof using.
  intros I B. unfold occurrences. pose proof (proj1 (count_occ_In Z.eq_dec pixels p) I). pose proof (count_occ_bound Z.eq_dec p pixels). lia.
Qed.

Lemma single_filter (f : Z -> bool) ps p : NoDup ps -> In p ps -> f p = true -> (forall q, In q ps -> f q = true -> q = p) -> filter f ps = [p].
Proof using.
  intros N. induction N as [|x l NI N IH]; intros I F U; [destruct I|]. cbn [filter]. destruct I as [->|I].
  - rewrite F. f_equal. destruct (filter f l) as [|y t] eqn:E; [reflexivity|exfalso].
    assert (Y : In y (filter f l)) by (rewrite E; now left). apply filter_In in Y. destruct Y as (Y & FY).
    pose proof (U y (or_intror Y) FY). subst y. contradiction.
  - destruct (f x) eqn:FX.
    + pose proof (U x (or_introl eq_refl) FX). subst x. contradiction.
    + apply IH; try assumption. intros q Q. apply U. now right.
Qed.

Lemma ws_alone rng pixels max start iters r : Z.of_nat (List.length pixels) <= i64_max -> 1 <= unwrap_or iters 5 ->
  ws_quantize rng pixels max start iters (Some true) = Ok r ->
  let colors := qr_color_to_count r in let m := qr_input_pixel_to_cluster_pixel r in
  forall p c, In (p, c) m -> (forall q, In (q, c) m -> q = p) ->
  c = solid p /\ In (c, occurrences p pixels) colors /\ (forall n, In (c, n) colors -> n = occurrences p pixels).
Proof using heps PA.
  intros B I E colors m p c Ip U. destruct (ws_means rng pixels max start iters (Some true) r B I E) as (ps & cluster & ND & IN & CV & MC & MM).
  destruct (ws_pixel_map rng pixels max start iters r B E) as (NM & DM & CM & _). fold colors in MC, CM. fold m in MM, NM, DM, CM.
  specialize (CM I). set (members := fun i => filter (fun p => cluster p =? i) ps) in *.
  set (col := fun i => argb_from_lab (v0 (lab_mean pixels (members i))) (v1 (lab_mean pixels (members i))) (v2 (lab_mean pixels (members i)))) in *.
  change (forall c n, In (c, n) colors -> exists i, members i <> [] /\ c = col i /\ n = population pixels (members i)) in MC.
  change (forall p c, In (p, c) m -> In p pixels /\ c = col (cluster p)) in MM.
  assert (UN : forall i, c = col i -> members i <> [] -> members i = [p]).
  { intros i Ci NE. 
    assert (ALL : forall q, In q (members i) -> q = p).
    { intros q Q. unfold members in Q. apply filter_In in Q. destruct Q as (Q & EQ). apply Z.eqb_eq in EQ. apply IN in Q.
      apply DM in Q. apply in_map_iff in Q. destruct Q as ((q', c') & Eq & Q). cbn [fst] in Eq. subst q'.
      destruct (MM q c' Q) as (_ & Cq). rewrite EQ, <- Ci in Cq. subst c'. now apply U. }
    destruct (members i) as [|q l] eqn:EM; [contradiction|]. pose proof (ALL q (or_introl eq_refl)). subst q.
    destruct l as [|q l]; [reflexivity|exfalso]. pose proof (ALL q (or_intror (or_introl eq_refl))). subst q.
    assert (N2 : NoDup (members i)) by (unfold members; now apply NoDup_filter). rewrite EM in N2. inversion N2 as [|? ? X]. apply X. now left. }
  destruct (MM p c Ip) as (Pp & Cp).
  assert (MP : members (cluster p) = [p]).
  { apply UN; [exact Cp|]. intros Z0. assert (X : In p (members (cluster p))) by (apply filter_In; split; [now apply IN|apply Z.eqb_refl]). rewrite Z0 in X. destruct X. }
  assert (CE : c = solid p).
  { rewrite Cp. unfold col. rewrite MP. apply mean_of_one. now apply occ_pos. }
  assert (CN : forall n, In (c, n) colors -> n = occurrences p pixels).
  { intros n X. destruct (MC c n X) as (i & NE & Ci & ->). rewrite (UN i Ci NE). unfold population. cbn [map fold_right]. lia. }
  split; [exact CE|]. split; [|exact CN]. pose proof (CM p c Ip) as X. apply in_map_iff in X. destruct X as ((c', n) & Ec & X). cbn [fst] in Ec. subst c'.
  rewrite <- (CN n X). exact X.
Qed.
End Mean.

(** ** Flat images *)
Lemma all_eq_single {A} (l : list A) a : NoDup l -> l <> [] -> (forall x, In x l -> x = a) -> l = [a].
Proof.
  intros N NE H. destruct l as [|x l]; [contradiction|]. pose proof (H x (or_introl eq_refl)). subst x. f_equal.
  destruct l as [|y l]; [reflexivity|exfalso]. pose proof (H y (or_intror (or_introl eq_refl))). subst y. inversion N as [|? ? X]. apply X. now left.
Qed.
Lemma nodup_of_keys {A B} (l : list (A * B)) : NoDup (map fst l) -> NoDup l.
Proof. apply NoDup_map_inv. Qed.
Lemma occ_all c pixels : (forall p, In p pixels -> p = c) -> occurrences c pixels = Z.of_nat (List.length pixels).
Proof.
  intros H. unfold occurrences. f_equal. induction pixels as [|p l IH]; [reflexivity|]. pose proof (H p (or_introl eq_refl)). subst p.
  rewrite count_occ_cons_eq by reflexivity. cbn [List.length]. f_equal. apply IH. intros q Q. apply H. now right.
Qed.
Section Flat.
Context {lm : Libm} (eps : R) (heps : (0 <= eps <= 1 / 10 ^ 10)%R) (PA : pow_accurate eps lm).
Lemma ws_flat rng pixels max start iters ret r c : Z.of_nat (List.length pixels) <= i64_max -> 1 <= unwrap_or iters 5 ->
  pixels <> [] -> (forall p, In p pixels -> p = c) -> ws_quantize rng pixels max start iters ret = Ok r ->
  r = {| qr_color_to_count := [(solid c, Z.of_nat (List.length pixels))];
         qr_input_pixel_to_cluster_pixel := if unwrap_or ret false then [(c, solid c)] else [] |}.
Proof using heps PA.
  intros B I NE ALL E. assert (Ic : In c pixels) by (destruct pixels as [|p l]; [contradiction|]; rewrite <- (ALL p (or_introl eq_refl)); now left).
  destruct (ws_means rng pixels max start iters ret r B I E) as (ps & cluster & ND & IN & CV & MC & MM). cbv zeta in MC, MM.
  assert (PS : ps = [c]).
  { apply all_eq_single; [exact ND| |]; [intros ->; now apply IN in Ic|]. intros x X. apply ALL. now apply IN. }
  subst ps. pose proof (occ_pos c pixels Ic B) as OC. pose proof (occ_all c pixels ALL) as OA.
  destruct (ws_populations rng pixels max start iters ret r B E) as (N1 & _). pose proof (ws_never_empty rng pixels max start iters ret r B I NE E) as N2.
  assert (C1 : qr_color_to_count r = [(solid c, Z.of_nat (List.length pixels))]).
  { apply all_eq_single; [now apply nodup_of_keys|exact N2|]. intros (x, n) X. destruct (MC x n X) as (i & NM & -> & ->).
    cbn [filter] in NM |- *. destruct (cluster c =? i); [|contradiction]. f_equal; [apply (mean_of_one eps heps PA); exact OC|].
    unfold population. cbn [map fold_right]. lia. }
  assert (M1 : qr_input_pixel_to_cluster_pixel r = if unwrap_or ret false then [(c, solid c)] else []).
  { destruct (unwrap_or ret false) eqn:RT; [|exact (ws_no_map rng pixels max start iters ret r B RT E)].
    assert (RE : ret = Some true) by (destruct ret as [[|]|]; cbn in RT; congruence). subst ret.
    destruct (ws_pixel_map rng pixels max start iters r B E) as (K1 & K2 & _).
    apply all_eq_single; [now apply nodup_of_keys| |].
    - intros Z0. apply K2 in Ic. rewrite Z0 in Ic. destruct Ic.
    - intros (p, x) X. destruct (MM p x X) as (P & ->). pose proof (ALL p P). subst p. f_equal. cbn [filter]. rewrite Z.eqb_refl. apply (mean_of_one eps heps PA); exact OC. }
  destruct r as [a b]. cbn in C1, M1. now subst.
Qed.
Lemma celebi_flat rng order1 order2 pixels max ret c :
  Permutation (order1 (qr_color_to_count (map_quantize pixels))) (qr_color_to_count (map_quantize pixels)) ->
  1 <= max -> image_fits pixels -> Z.of_nat (List.length pixels) <= i64_max -> rng <> [] ->
  pixels <> [] -> (forall p, In p pixels -> p = c) ->
  celebi_quantize rng order1 order2 pixels max ret =
  Ok {| qr_color_to_count := [(solid c, Z.of_nat (List.length pixels))];
        qr_input_pixel_to_cluster_pixel := if unwrap_or ret false then [(c, solid c)] else [] |}.
Proof using heps PA.
  intros OP M F B R NE ALL. assert (D : distinct pixels = 1).
  { unfold distinct. assert (Ic : In c pixels) by (destruct pixels as [|p l]; [contradiction|]; rewrite <- (ALL p (or_introl eq_refl)); now left).
    rewrite (all_eq_single (nodup Z.eq_dec pixels) c); [reflexivity|apply NoDup_nodup| |].
    - intros Z0. apply (proj2 (nodup_In Z.eq_dec _ _)) in Ic. rewrite Z0 in Ic. destruct Ic.
    - intros x X. apply ALL. exact (proj1 (nodup_In Z.eq_dec _ _) X). }
  destruct (celebi_returns rng order1 order2 pixels max ret OP M F B) as (r & E).
  { rewrite D. intros i Hi. assert (i = 0) by lia. subst i. destruct rng as [|z l]; [contradiction|]. cbn [map In]. left. apply Z.mod_1_r. }
  rewrite E. apply (f_equal (@Ok _)). unfold celebi_quantize in E. cbv zeta in E.
  destruct (wu_quantize order1 pixels max) as [w|]; [rewrite bind_Ok in E|discriminate E].
  pose proof (ws_flat rng pixels max _ None (Some (unwrap_or ret false)) r c B ltac:(cbn [unwrap_or]; lia) NE ALL E) as X. exact X.
Qed.
End Flat.

(** ** Starting from the colours of the image *)
Lemma nearest_settled clusters row point pd js md : (forall j cj, In j js -> index clusters j = Ok cj -> flt (lab_distance point cj) md = false) ->
  forall v, nearest_loop clusters row point pd js md (-1) = Ok v -> v = -1.
Proof.
  intros H v E. apply nearest_spec in E. destruct E as [(E & _)|(J & cv & IX & L & _)]; [exact E|]. rewrite (H v cv J IX) in L. discriminate L.
Qed.
Lemma assign_settled clusters dm k points : forall cis cis' moved, List.length cis = List.length points ->
  (forall i p c j old cj, nth_error points i = Some p -> nth_error cis i = Some c -> 0 <= j < k -> index clusters c = Ok old -> index clusters j = Ok cj ->
    flt (lab_distance p cj) (lab_distance p old) = false) ->
  assign_loop clusters dm k points cis = Ok (cis', moved) -> cis' = cis /\ moved = 0.
Proof.
  induction points as [|p points IH]; intros [|c cis] cis' moved L H E; try discriminate L; cbn [assign_loop] in E.
  - apply ok_inj in E. injection E as <- <-. now split.
  - apply bind_ok in E. destruct E as (pc & E1 & E). cbv zeta in E. apply bind_ok in E. destruct E as (row & E2 & E). apply bind_ok in E. destruct E as (v & E3 & E).
    apply bind_ok in E. destruct E as ([rci mv] & E4 & E).
    assert (V : v = -1).
    { apply nearest_settled in E3; [exact E3|]. intros j cj J IX. apply in_zseq in J. exact (H O p c j pc cj eq_refl eq_refl ltac:(lia) E1 IX). }
    subst v. cbn [Z.eqb negb] in E. apply ok_inj in E. injection E as <- <-.
    destruct (IH cis rci mv ltac:(now injection L)) with (2 := E4) as (-> & ->); [|now split].
    intros i q d j old cj A1 A2. exact (H (S i) q d j old cj A1 A2).
Qed.
Lemma tally_seq counts : forall s i, (i < List.length counts)%nat -> tally (Z.of_nat (s + i)) (map Z.of_nat (seq s (List.length counts))) counts = nth i counts 0.
Proof.
  induction counts as [|n counts IH]; intros s i L; [cbn in L; lia|]. cbn [List.length seq map nth]. rewrite tally_cons. destruct i as [|i].
  - rewrite Nat.add_0_r, Z.eqb_refl. assert (Z0 : tally (Z.of_nat s) (map Z.of_nat (seq (S s) (List.length counts))) counts = 0); [|lia].
    clear. generalize (le_n (S s)). generalize (S s) at 2 3. intros t. revert t. induction counts as [|n counts IH]; intros t T; [reflexivity|].
    cbn [List.length seq map]. rewrite tally_cons, (IH (S t)) by lia. destruct (Z.eqb_spec (Z.of_nat t) (Z.of_nat s)); lia.
  - destruct (Z.eqb_spec (Z.of_nat s) (Z.of_nat (s + S i))); [lia|]. replace (s + S i)%nat with (S s + i)%nat by lia. rewrite IH by (cbn in L; lia). lia.
Qed.
Lemma msum_none i points counts : forall cis s, (forall c, In c cis -> c <> i) -> msum i points counts cis s = s.
Proof.
  revert counts. induction points as [|p points IH]; intros [|n counts] [|c cis] s H; try reflexivity. cbn [msum].
  destruct (Z.eqb_spec c i) as [->|_]; [elim (H i (or_introl eq_refl) eq_refl)|]. apply IH. intros d D. apply H. now right.
Qed.
Lemma msum_seq points : forall counts s0 i s, List.length counts = List.length points -> (i < List.length points)%nat ->
  msum (Z.of_nat (s0 + i)) points counts (map Z.of_nat (seq s0 (List.length points))) s = addw s (nth i points vzero) (nth i counts 0).
Proof.
  induction points as [|p points IH]; intros [|n counts] s0 i s LC L; try discriminate LC; [cbn in L; lia|]. cbn [List.length seq map nth msum]. destruct i as [|i].
  - rewrite Nat.add_0_r, Z.eqb_refl. apply msum_none. intros c C. apply in_map_iff in C. destruct C as (x & <- & X). apply in_seq in X. lia.
  - destruct (Z.eqb_spec (Z.of_nat s0) (Z.of_nat (s0 + S i))); [lia|]. replace (s0 + S i)%nat with (S s0 + i)%nat by lia. apply IH; [now injection LC|cbn in L; lia].
Qed.

Section Own.
Context {lm : Libm} (eps : R) (heps : (0 <= eps <= 1 / 10 ^ 10)%R) (PA : pow_accurate eps lm).
Local Open Scope nat_scope.
(** Cluster [i] sits on colour [i]. *)
Definition seated (ps : list Z) (clusters : list vec3) : Prop :=
  List.length clusters = List.length ps /\
  forall i p cl, nth_error ps i = Some p -> nth_error clusters i = Some cl -> tiny (1 / 10 ^ 12) cl (lab_from_argb p).
Lemma seated_settled ps clusters : NoDup ps -> (forall p, In p ps -> Spec.opaque p) -> seated ps clusters ->
  forall i p old j q cj, nth_error ps i = Some p -> nth_error clusters i = Some old -> nth_error ps j = Some q -> nth_error clusters j = Some cj ->
  flt (lab_distance (lab_from_argb p) cj) (lab_distance (lab_from_argb p) old) = false.
Proof using heps PA.
  intros ND OP (L & S) i p old j q cj Pi Ci Pj Cj.
  pose proof (S i p old Pi Ci) as Ti. pose proof (S j q cj Pj Cj) as Tj.
  destruct (lab_near eps heps PA p) as (Sp & Rp). destruct (lab_near eps heps PA q) as (Sq & Rq).
  pose proof (OP p (nth_error_In _ _ Pi)) as Op. pose proof (OP q (nth_error_In _ _ Pj)) as Oq.
  set (u := lab_from_argb p) in *. set (w := lab_from_argb q) in *. clearbody u w.
  destruct (dist_R u old Sp) as (Fo & Do & _).
  { exact (proj1 Ti). } { destruct Ti as (_ & t0 & t1 & t2). destruct Sp as (_ & s0 & s1 & s2). clear - t0 t1 t2 s0 s1 s2. lra. }
  destruct (dist_R u cj Sp) as (Fj & _ & Dj).
  { exact (proj1 Tj). } { destruct Tj as (_ & t0 & t1 & t2). destruct Sq as (_ & s0 & s1 & s2). clear - t0 t1 t2 s0 s1 s2. lra. }
  destruct (flt (lab_distance u cj) (lab_distance u old)) eqn:E; [exfalso|reflexivity].
  apply (proj1 (flt_fin _ _ Fj Fo)) in E.
  assert (Bo : (B2R (lab_distance u old) <= 1 / 10 ^ 20)%R).
  { apply Do. destruct Ti as (_ & t0 & t1 & t2). split; [exact (proj1 Sp)|]. clear - t0 t1 t2. lra. }
  assert (Tu : tiny (2 / 10 ^ 9) u w).
  { destruct (Dj ltac:(clear - E Bo; lra)) as (f & d0 & d1 & d2). destruct Tj as (_ & t0 & t1 & t2). split; [exact f|]. clear - t0 t1 t2 d0 d1 d2. lra. }
  assert (Tp : tiny (2 / 10 ^ 9) u u) by (split; [exact (proj1 Sp)|]; lra).
  pose proof (Rp u Tp) as A. rewrite (Rq u Tu) in A.
  change (solid q = solid p) in A. rewrite !solid_opaque in A by assumption. subst q.
  assert (i = j). { apply (proj1 (NoDup_nth_error ps) ND); [apply nth_error_Some; congruence|congruence]. } subst j.
  assert (old = cj) by congruence. subst cj. clear - E. lra.
Qed.

Local Open Scope Z_scope.
Lemma kmeans_own ps counts : NoDup ps -> (forall p, In p ps -> Spec.opaque p) -> List.length counts = List.length ps ->
  Forall (fun n => 1 <= n) counts -> zsum counts <= i64_max ->
  let k := List.length ps in let cis := map Z.of_nat (seq 0 k) in let points := map lab_from_int ps in
  forall fuel first clusters dm pcs clusters' cis' pcs', square k dm -> seated ps clusters -> List.length pcs = k ->
  kmeans_loop fuel first (Z.of_nat k) points counts clusters dm cis pcs = Ok (clusters', cis', pcs') ->
  cis' = cis /\ seated ps clusters'.
Proof using heps PA.
  intros ND OP LC NC BC k cis points.
  assert (LP : List.length points = k) by apply map_length.
  assert (Lcis : List.length cis = List.length points) by (unfold cis; rewrite map_length, seq_length; now symmetry).
  assert (Vcis : valid k cis).
  { unfold valid, cis. rewrite Forall_map, Forall_forall. intros i I. apply in_seq in I. lia. }
  assert (NC0 : Forall (fun n => 0 <= n) counts) by (revert NC; apply Forall_impl; intros; lia).
  induction fuel as [|fuel IH]; intros first clusters dm pcs clusters' cis' pcs' SQ ST Lp E; cbn [kmeans_loop] in E.
  - apply ok_inj in E. injection E as <- <- <-. now split.
  - pose proof (proj1 ST) as LCl. destruct (rows_ok clusters k (zseq 0 (Z.of_nat k)) dm SQ) as (dm' & ED & S'). { unfold k. lia. } { intros i. rewrite in_zseq. lia. }
    rewrite ED, bind_Ok in E. apply bind_ok in E. destruct E as ([cis2 moved] & EA & E).
    destruct (assign_settled clusters dm' (Z.of_nat k) points cis cis2 moved Lcis) with (2 := EA) as (-> & ->).
    { intros i p c j old cj Pi Ci J Io Ij. unfold points in Pi. rewrite nth_error_map in Pi. destruct (nth_error ps i) as [q|] eqn:Qi; [|discriminate Pi].
      injection Pi as <-. assert (Hi : (i < k)%nat) by (apply nth_error_Some; congruence).
      assert (Ec : c = Z.of_nat i).
      { unfold cis in Ci. rewrite nth_error_map in Ci. rewrite (nth_error_nth' (seq 0 k) 0%nat) in Ci by now rewrite seq_length.
        rewrite seq_nth in Ci by exact Hi. cbn in Ci. congruence. }
      subst c. unfold index in Io, Ij. destruct (Z.ltb_spec (Z.of_nat i) 0); [lia|]. destruct (Z.ltb_spec j 0); [lia|]. rewrite Nat2Z.id in Io.
      destruct (nth_error clusters i) as [o|] eqn:Oi; [|discriminate Io]. apply ok_inj in Io. subst o.
      destruct (nth_error clusters (Z.to_nat j)) as [o|] eqn:Oj; [|discriminate Ij]. apply ok_inj in Ij. subst o.
      destruct (nth_error ps (Z.to_nat j)) as [q'|] eqn:Qj; [|exfalso; apply nth_error_None in Qj; fold k in Qj; lia].
      exact (seated_settled ps clusters ND OP ST i q old (Z.to_nat j) q' cj Qi Oi Qj Oj). }
    destruct ((0 =? 0) && negb first); [apply ok_inj in E; injection E as <- <- <-; now split|].
    cbv zeta in E. rewrite Nat2Z.id in E.
    destruct (sums_ok k points counts cis (repeat 0 k) (repeat vzero k)) as (pcs1 & sums & ES & LP' & LS & T); try apply repeat_length; try assumption.
    { rewrite LP. exact LC. } { rewrite Forall_forall. intros x I. apply repeat_spec in I. lia. } { intros i n X. apply nth_repeat_some in X. lia. }
    rewrite ES, bind_Ok in E. destruct (centroid_ok k (zseq 0 (Z.of_nat k)) pcs1 sums) with (clusters := clusters) as (cl' & EC & LCl'); try assumption.
    { intros i. rewrite in_zseq. lia. } { unfold k. lia. }
    rewrite EC, bind_Ok in E.
    apply (IH false cl' dm' pcs1) in E; try assumption. split; [congruence|].
    intros i p cl Pi Ci. assert (Hi : (i < k)%nat) by (apply nth_error_Some; congruence).
    destruct (centroid_means k (zseq 0 (Z.of_nat k)) pcs1 sums ltac:(intros j; rewrite in_zseq; lia) LP' LS clusters cl' ltac:(unfold k; lia) EC) as (A & _).
    specialize (A (Z.of_nat i) ltac:(apply in_zseq; lia)). rewrite Nat2Z.id in A. rewrite A in Ci. injection Ci as <-.
    unfold centroid. cbv zeta. rewrite Nat2Z.id.
    assert (E0 : nth_error (repeat 0 k) i = Some 0) by (rewrite (nth_error_nth' _ 0) by (rewrite repeat_length; lia); now rewrite nth_repeat).
    pose proof (T _ _ E0) as T'. rewrite (nth_error_nth _ _ 0 T').
    assert (E1 : nth_error (repeat vzero k) i = Some vzero) by (rewrite (nth_error_nth' _ vzero) by (rewrite repeat_length; lia); now rewrite nth_repeat).
    pose proof (sums_means k points counts cis _ _ _ _ Vcis (repeat_length _ _) ES _ _ E1) as T2. rewrite (nth_error_nth _ _ vzero T2).
    rewrite Z.add_0_l. unfold cis. pose proof (tally_seq counts 0 i) as TS. pose proof (msum_seq points counts 0 i vzero) as MS. rewrite LC in TS. rewrite LP in MS.
    fold k in TS. cbn [Nat.add] in TS, MS. rewrite TS, MS by lia.
    assert (NI : 1 <= nth i counts 0 <= i64_max).
    { split; [rewrite Forall_forall in NC; apply NC; apply nth_In; lia|]. rewrite <- (TS ltac:(lia)). pose proof (tally_range (Z.of_nat i) (map Z.of_nat (seq 0 k)) counts NC0). lia. }
    destruct (Z.eqb_spec (nth i counts 0) 0); [lia|].
    assert (EP : nth i points vzero = lab_from_argb p).
    { apply nth_error_nth. unfold points. rewrite nth_error_map, Pi. reflexivity. }
    rewrite EP. apply mean_tiny; [|exact NI]. exact (proj1 (lab_near eps heps PA p)).
Qed.
End Own.

Lemma in_combine_nth {A B} (l : list A) : forall (l' : list B) i a b, nth_error l i = Some a -> nth_error l' i = Some b -> In (a, b) (combine l l').
Proof.
  induction l as [|x l IH]; intros [|y l'] [|i] a b Ha Hb; cbn in *; try discriminate; [left; congruence|right; now apply (IH l' i)].
Qed.
Section Whole.
Context {lm : Libm} (eps : R) (heps : (0 <= eps <= 1 / 10 ^ 10)%R) (PA : pow_accurate eps lm).
Local Opaque lab_to_int lab_from_int.
Lemma ws_own rng pixels max iters ret : Z.of_nat (List.length pixels) <= i64_max -> 1 <= unwrap_or iters 5 ->
  (forall p, In p pixels -> Spec.opaque p) -> distinct pixels <= max ->
  exists r, ws_quantize rng pixels max (Some (first_seen pixels)) iters ret = Ok r /\
    NoDup (map fst (qr_color_to_count r)) /\
    (forall p n, In (p, n) (qr_color_to_count r) <-> In p pixels /\ n = occurrences p pixels) /\
    (forall p c, In (p, c) (qr_input_pixel_to_cluster_pixel r) <-> unwrap_or ret false = true /\ In p pixels /\ c = p).
Proof using heps PA.
  intros BL IT OPX MX. unfold ws_quantize. cbv zeta.
  pose proof (ws_count_eq pixels) as WC. pose proof (count_seen pixels) as CS. destruct (ws_count pixels [] []) as (p2c, ps). cbn [fst snd] in WC, CS. rewrite <- CS.
  destruct WC as (ND & IN & EQC). rewrite EQC. clear EQC CS. cbn [unwrap_or].
  assert (DI : Z.of_nat (List.length ps) = distinct pixels).
  { unfold distinct. f_equal. apply Permutation_length, NoDup_Permutation; [exact ND|apply NoDup_nodup|]. intros p. rewrite IN. symmetry. apply nodup_In. }
  set (k := List.length ps) in *. replace (Z.min max (Z.of_nat k)) with (Z.of_nat k) by lia.
  replace (0 <? Z.of_nat k - Z.of_nat (List.length (map lab_from_int ps))) with false by (rewrite map_length; fold k; symmetry; apply Z.ltb_ge; lia).
  rewrite bind_Ok. replace ((Z.of_nat k =? 0) && negb (Z.of_nat k =? 0)) with false by (destruct (Z.of_nat k =? 0); reflexivity).
  destruct (Z.ltb_spec (Z.of_nat k) 0); [lia|]. rewrite Nat2Z.id.
  set (counts := map (fun p => occurrences p pixels) ps) in *.
  assert (OPS : forall p, In p ps -> Spec.opaque p) by (intros p P; apply OPX; now apply IN).
  assert (LC : List.length counts = List.length ps) by (unfold counts; now rewrite map_length).
  assert (LC' : List.length counts = List.length (map lab_from_int ps)) by (now rewrite map_length).
  assert (NC : Forall (fun n => 1 <= n) counts) by (unfold counts; rewrite Forall_map, Forall_forall; intros p P; apply occ_pos; [now apply IN|exact BL]).
  assert (NC0 : Forall (fun n => 0 <= n) counts) by (revert NC; apply Forall_impl; intros; lia).
  assert (TC : zsum counts = Z.of_nat (List.length pixels)).
  { unfold counts. pose proof (distinct_sum (fun _ => 1) ps ND pixels (fun p I => proj2 (IN p) I)) as DS.
    rewrite (map_ext _ (fun p => occurrences p pixels)) in DS by (intros; lia). rewrite DS.
    clear. induction pixels as [|p l IH]; [reflexivity|]. cbn [map List.length]. change (zsum (?a :: ?b)) with (a + zsum b). lia. }
  assert (CI : map (fun i => Z.rem (Z.of_nat i) (Z.of_nat k)) (seq 0 k) = map Z.of_nat (seq 0 k)).
  { apply map_ext_in. intros i I. apply in_seq in I. apply Z.rem_small. lia. }
  rewrite CI. clear CI. set (cis := map Z.of_nat (seq 0 k)) in *.
  assert (Vcis : valid k cis).
  { unfold valid, cis. rewrite Forall_map, Forall_forall. intros i I. apply in_seq in I. lia. }
  assert (Lcis : List.length cis = List.length (map lab_from_int ps)) by (unfold cis; rewrite !map_length; apply seq_length).
  set (dm := repeat _ k).
  assert (SQ : square k dm).
  { split; [apply repeat_length|]. rewrite Forall_forall. intros x I. apply repeat_spec in I. subst x. unfold zseq. rewrite !map_length, seq_length. lia. }
  destruct (kmeans_ok k (map lab_from_int ps) counts LC' NC0 ltac:(lia) (Z.to_nat (unwrap_or iters 5)) true (map lab_from_int ps) dm cis (repeat 0 k)) as (cl' & cis' & pcs' & E & L1 & L2 & V & L3 & _ & K1).
  { rewrite map_length. unfold k. lia. } { exact SQ. } { exact Lcis. } { exact Vcis. } { apply repeat_length. } { discriminate. }
  specialize (K1 ltac:(lia)). 
  assert (ST0 : seated ps (map lab_from_int ps)).
  { split; [apply map_length|]. intros i p cl Pi Ci. rewrite nth_error_map, Pi in Ci. injection Ci as <-. change (lab_from_int p) with (lab_from_argb p).
    destruct (lab_near eps heps PA p) as (S & _). split; [exact (proj1 S)|]. lra. }
  destruct (kmeans_own eps heps PA ps counts ND OPS LC NC ltac:(lia) _ true (map lab_from_int ps) dm (repeat 0 k) cl' cis' pcs' SQ ST0 (repeat_length _ _) E) as (EC & ST).
  fold k in EC. fold cis in EC. subst cis'. rewrite E, bind_Ok. clear E.
  assert (COL : forall i p, nth_error ps i = Some p -> colour cl' (Z.of_nat i) = p /\ pop pcs' (Z.of_nat i) = occurrences p pixels).
  { intros i p Pi. assert (Hi : (i < k)%nat) by (apply nth_error_Some; congruence). unfold colour, pop. rewrite Nat2Z.id. split.
    - destruct (nth_error cl' i) as [c|] eqn:Ci; [|apply nth_error_None in Ci; rewrite (proj1 ST) in Ci; fold k in Ci; lia].
      rewrite (nth_error_nth _ _ vzero Ci). rewrite lab_triple. destruct (lab_near eps heps PA p) as (_ & T).
      rewrite (T c) by (apply (tiny_le (1 / 10 ^ 12)); [lra|]; exact (proj2 ST i p c Pi Ci)). apply solid_opaque. apply OPS. now apply nth_error_In in Pi.
    - assert (Hp : (i < List.length pcs')%nat) by lia. rewrite (K1 i _ (nth_error_nth' pcs' 0 Hp)). unfold cis. pose proof (tally_seq counts 0 i) as TS. rewrite LC in TS. fold k in TS. cbn [Nat.add] in TS. rewrite TS by exact Hi.
      unfold counts. apply nth_error_nth. rewrite nth_error_map, Pi. reflexivity. }
  assert (NP : Forall (fun n => 0 <= n) pcs').
  { rewrite Forall_forall. intros n I. apply (In_nth _ _ 0) in I. destruct I as (j & J & <-). rewrite (K1 j _ (nth_error_nth' pcs' 0 J)). apply tally_range. exact NC0. }
  assert (LK : (k <= List.length cl')%nat) by (rewrite (proj1 ST); unfold k; lia).
  destruct (collect_ok k (zseq 0 (Z.of_nat k)) pcs' cl' LK L3 NP) with (argbs := @nil Z) (pops := @nil Z) as (argbs & pops & EC & A1 & _ & A3 & A4 & A5 & A6 & A7 & A8).
  { intros i. rewrite in_zseq. lia. } { reflexivity. }
  rewrite EC, bind_Ok. clear EC.
  destruct (pixel_map_ok k cl' ps LK cis [] ltac:(rewrite map_length in Lcis; exact Lcis) Vcis ND) as (m & EM & M1 & M2 & M3 & _).
  assert (PM : exists m', (if unwrap_or ret false then pixel_map_loop ps cis cl' [] else Ok []) = Ok m' /\
    (forall p c, In (p, c) m' <-> unwrap_or ret false = true /\ In p pixels /\ c = p)).
  { destruct (unwrap_or ret false); [exists m|exists []; split; [reflexivity|intros; split; [intros []|intros (X & _); discriminate X]]].
    split; [exact EM|]. assert (F : forall p, In p pixels -> afind Z.eqb m p = Some p).
    { intros p P. apply IN in P. apply In_nth_error in P. destruct P as (i & Pi). destruct (COL i p Pi) as (C1 & _). rewrite <- C1 at 2. apply M3.
      assert (Hi : (i < k)%nat) by (apply nth_error_Some; congruence). apply (in_combine_nth ps cis i); [exact Pi|].
      unfold cis. rewrite nth_error_map. rewrite (nth_error_nth' (seq 0 k) 0%nat) by now rewrite seq_length. rewrite seq_nth by exact Hi. reflexivity. }
    intros p c. split.
    - intros X. assert (P : In p pixels). { apply (in_map fst) in X. apply M2 in X. destruct X as [[]|X]. now apply IN. }
      split; [reflexivity|]. split; [exact P|]. apply (find_in m p c (M1 (NoDup_nil _))) in X. rewrite (F p P) in X. congruence.
    - intros (_ & P & ->). apply (find_in m p p (M1 (NoDup_nil _))). now apply F. }
  destruct PM as (m' & -> & HM). rewrite bind_Ok. eexists. split; [reflexivity|]. cbn [qr_color_to_count qr_input_pixel_to_cluster_pixel].
  assert (KF : map fst (combine argbs pops) = argbs).
  { clear - A1. revert pops A1. induction argbs as [|a l IH]; intros [|p pops] L; try discriminate L; [reflexivity|]. cbn [combine map fst]. f_equal. apply IH. now injection L. }
  split; [rewrite KF; exact (A3 (NoDup_nil _))|]. split; [|exact HM].
  assert (ONE : forall p n, In (p, n) (combine argbs pops) -> In p pixels /\ n = occurrences p pixels).
  { intros p n X. destruct (A6 (p, n) X) as [[]|(i & I & _ & Q)]. apply in_zseq in I.
    destruct (nth_error ps (Z.to_nat i)) as [q|] eqn:Qi; [|apply nth_error_None in Qi; fold k in Qi; lia].
    destruct (COL _ q Qi) as (C1 & C2). rewrite Z2Nat.id in C1, C2 by lia. rewrite C1, C2 in Q.
    assert (p = q) by exact (f_equal fst Q). assert (n = occurrences q pixels) by exact (f_equal snd Q). subst. split; [|reflexivity]. apply IN. now apply nth_error_In in Qi. }
  intros p n. split; [apply ONE|]. intros (P & ->). pose proof P as P'. apply IN in P. apply In_nth_error in P. destruct P as (i & Pi). destruct (COL i p Pi) as (C1 & C2).
  assert (Hi : (i < k)%nat) by (apply nth_error_Some; congruence).
  pose proof (A5 (Z.of_nat i) ltac:(apply in_zseq; lia) ltac:(rewrite C2; pose proof (occ_pos p pixels P' BL); lia)) as X. rewrite C1 in X.
  rewrite <- KF in X. apply in_map_iff in X. destruct X as ((q, n) & Eq & X). cbn [fst] in Eq. subst q. rewrite <- (proj2 (ONE p n X)). exact X.
Qed.
End Whole.

(** ** The order of the starting colours matters *)
Definition three : list Z := [0xFF101010; 0xFFF0F0F0; 0xFF303030].
Lemma three_wu : wu_quantize (fun l => l) three 3 =
  Ok {| qr_color_to_count := [(0xFF101010, 0); (0xFFF0F0F0, 0); (0xFF303030, 0)]; qr_input_pixel_to_cluster_pixel := [] |}.
Proof. vm_compute. reflexivity. Qed.
Lemma celebi_order : exists (lm : Libm) pixels max order order' r r',
  (forall l : list Z, Permutation (order l) l) /\ (forall l : list Z, Permutation (order' l) l) /\
  (forall p, In p pixels -> Spec.opaque p) /\ distinct pixels <= max /\
  celebi_quantize [] (fun l => l) order pixels max None = Ok r /\
  celebi_quantize [] (fun l => l) order' pixels max None = Ok r' /\
  (forall p, In p pixels <-> In p (map fst (qr_color_to_count r))) /\
  Z.of_nat (List.length (qr_color_to_count r')) < distinct pixels.
Proof.
  exists sample_libm, three, 3, (fun l => l), (@rev Z),
    {| qr_color_to_count := [(0xFF101010, 1); (0xFFF0F0F0, 1); (0xFF303030, 1)]; qr_input_pixel_to_cluster_pixel := [] |},
    {| qr_color_to_count := [(0xFF202020, 2); (0xFFF0F0F0, 1)]; qr_input_pixel_to_cluster_pixel := [] |}.
  split; [intros; apply Permutation_refl|]. split; [intros; symmetry; apply Permutation_rev|].
  split; [intros p [<-|[<-|[<-|[]]]]; unfold Spec.opaque; lia|]. split; [vm_compute; discriminate|].
  unfold celebi_quantize. rewrite three_wu. split; [vm_compute; reflexivity|]. split; [vm_compute; reflexivity|]. split; [intros p; reflexivity|vm_compute; reflexivity].
Qed.
