(** * Proofs about dynamic schemes and the DynamicColor cache. *)
From Coq Require Import ZArith Bool List String Lia.
From Flocq Require Import Core IEEE754.BinarySingleNaN.
From Verif Require Import F64 MathUtils ColorUtils Assoc ViewingConditions Hct Palettes DynamicScheme DynamicColor MaterialDynamicColors
  Temperature Schemes Spec SpecPalette SpecScheme PfContrast PfHct PfPalettes PfScore SampleLibm.
Import ListNotations.
Open Scope string_scope.
Open Scope list_scope.
Open Scope Z_scope.

Section AnyLibm.
Context {lm : Libm}.
Local Opaque hct_from hct_from_int hct_new of_Z dec get_tone ds_eqb ds_same_hash tp_get_hct create_key_color.

(** ** The cache *)
Lemma find_inv cache s h : cache_find cache s = Ok (Some h) ->
  exists k, In (k, h) cache /\ ds_same_hash s k = Ok true /\ ds_eqb s k = Ok true.
Proof.
  induction cache as [|(k & v) cache IH]; cbn [cache_find]; [discriminate|].
  destruct (ds_same_hash s k) as [[|]|] eqn:H; rewrite ?bind_Ok; [| |discriminate].
  - destruct (ds_eqb s k) as [[|]|] eqn:E; rewrite ?bind_Ok; [| |discriminate].
    + intros Q. apply ok_inj in Q. injection Q as <-. exists k. split; [now left|]. split; assumption.
    + intros Q. destruct (IH Q) as (k' & I & R). exists k'. split; [now right|]. exact R.
  - intros Q. destruct (IH Q) as (k' & I & R). exists k'. split; [now right|]. exact R.
Qed.

Lemma uncached_eq role s : uncached role s =
  bind (get_tone role s) (fun tone => tp_get_hct (dc_palette role s) tone).
Proof.
  unfold uncached, dc_get_hct. cbn [cache_find]. rewrite bind_Ok.
  destruct (get_tone role s) as [t|]; [|reflexivity]. rewrite !bind_Ok.
  destruct (tp_get_hct _ _); reflexivity.
Qed.

(** Everything in the cache was computed for a scheme asked about earlier. *)
Definition cache_ok (role : dynamic_color) (seen : list dynamic_scheme) (cache : list (dynamic_scheme * hct)) : Prop :=
  (List.length cache <= 5)%nat /\ forall k h, In (k, h) cache -> In k seen /\ uncached role k = Ok h.

Lemma get_hct_step role seen cache s h cache' : cache_ok role seen cache ->
  dc_get_hct role cache s = Ok (h, cache') ->
  cache_ok role (seen ++ [s]) cache' /\
  ((uncached role s = Ok h) \/
   (exists k, In k seen /\ ds_same_hash s k = Ok true /\ ds_eqb s k = Ok true /\ uncached role k = Ok h)).
Proof.
  intros (L & K) E. unfold dc_get_hct in E. apply bind_ok in E. destruct E as (c & F & E).
  destruct c as [a|].
  - apply ok_inj in E. injection E as <- <-. destruct (find_inv _ _ _ F) as (k & I & R).
    split.
    + split; [exact L|]. intros k' h' I'. destruct (K k' h' I'). split; [apply in_or_app; now left|assumption].
    + right. exists k. destruct (K k a I). tauto.
  - apply bind_ok in E. destruct E as (t & T & E). apply bind_ok in E. destruct E as (a & A & E).
    apply ok_inj in E. injection E as <- <-.
    assert (U : uncached role s = Ok a) by (rewrite uncached_eq, T, bind_Ok; exact A).
    split; [|now left]. split.
    + destruct (Nat.ltb_spec 4 (List.length cache)); cbn [List.length]; lia.
    + intros k h I. destruct I as [Q|I].
      * injection Q as <- <-. split; [apply in_or_app; right; now left|exact U].
      * destruct (Nat.ltb 4 (List.length cache)); [destruct I|].
        destruct (K k h I). split; [apply in_or_app; now left|assumption].
Qed.

Lemma answers_ok role ss : forall seen cache hs cache', cache_ok role seen cache ->
  answers role cache ss = Ok (hs, cache') ->
  (List.length cache' <= 5)%nat /\ List.length hs = List.length ss /\
  forall i s h, nth_error ss i = Some s -> nth_error hs i = Some h ->
    uncached role s = Ok h \/
    exists k, (In k seen \/ exists j, (j < i)%nat /\ nth_error ss j = Some k) /\
      ds_same_hash s k = Ok true /\ ds_eqb s k = Ok true /\ uncached role k = Ok h.
Proof.
  induction ss as [|s ss IH]; intros seen cache hs cache' C E; cbn [answers] in E.
  - apply ok_inj in E. injection E as <- <-. split; [exact (proj1 C)|]. split; [reflexivity|].
    intros i s h N. destruct i; discriminate N.
  - apply bind_ok in E. destruct E as ((h & c1) & G & E). apply bind_ok in E. destruct E as ((hs' & c2) & R & E).
    apply ok_inj in E. cbn [fst snd] in *. injection E as <- <-.
    destruct (get_hct_step role seen cache s h c1 C G) as (C1 & A).
    destruct (IH _ _ _ _ C1 R) as (L & N & P). split; [exact L|]. split; [cbn [List.length]; now rewrite N|].
    intros i s0 h0 I J. destruct i as [|i]; cbn [nth_error] in I, J.
    + injection I as <-. injection J as <-. destruct A as [A|(k & I & A)]; [now left|]. right. exists k. tauto.
    + destruct (P i s0 h0 I J) as [Q|(k & W & Q)]; [now left|]. right. exists k. split; [|exact Q].
      destruct W as [W|(j & LT & W)].
      * apply in_app_or in W. destruct W as [W|[<-|[]]]; [now left|].
        right. exists 0%nat. split; [lia|reflexivity].
      * right. exists (S j). split; [lia|exact W].
Qed.

Lemma cache_theorem role ss hs cache : answers role [] ss = Ok (hs, cache) ->
  (List.length cache <= 5)%nat /\ List.length hs = List.length ss /\
  forall i s h, nth_error ss i = Some s -> nth_error hs i = Some h ->
    exists j s', (j <= i)%nat /\ nth_error ss j = Some s' /\ uncached role s' = Ok h /\
      (j = i \/ ds_eqb s s' = Ok true).
Proof.
  intros E. destruct (answers_ok role ss [] [] hs cache) as (L & N & P).
  - split; [cbn; lia|]. intros k h I. destruct I.
  - exact E.
  - split; [exact L|]. split; [exact N|]. intros i s h I J. destruct (P i s h I J) as [U|(k & W & _ & Q & U)].
    + exists i, s. split; [lia|]. split; [exact I|]. split; [exact U|now left].
    + destruct W as [[]|(j & LT & W)]. exists j, k. split; [lia|]. split; [exact W|]. split; [exact U|]. now right.
Qed.

Lemma stale role s s' h cache : dc_get_hct role [] s = Ok (h, cache) ->
  ds_same_hash s' s = Ok true -> ds_eqb s' s = Ok true -> dc_get_hct role cache s' = Ok (h, cache).
Proof.
  intros E H Q. unfold dc_get_hct in E. cbn [cache_find] in E. rewrite bind_Ok in E.
  apply bind_ok in E. destruct E as (t & T & E). apply bind_ok in E. destruct E as (a & A & E).
  apply ok_inj in E. cbn [List.length Nat.ltb Nat.leb] in E. injection E as <- <-.
  unfold dc_get_hct. cbn [cache_find]. rewrite H, bind_Ok, Q, !bind_Ok. reflexivity.
Qed.

(** ** Equality ignores what palettes have cached *)
Lemma bits_refl x : f64_bits_eqb x x = true.
Proof.
  unfold f64_bits_eqb. destruct x as [s|s| |s m e b]; [apply eqb_reflx|..].
  - destruct s; reflexivity.
  - reflexivity.
  - rewrite feq_refl'; reflexivity.
Qed.
Lemma feq_refl2 x : is_nan x = false -> feq x x = true.
Proof. exact (feq_refl' x). Qed.
Lemma variant_refl v : variant_eqb v v = true. Proof. now destruct v. Qed.

Lemma read_palette p ts p' : after_gets p ts = Ok p' ->
  tp_is_from_cache p = false -> is_nan (tp_hue p) = false -> is_nan (tp_chroma p) = false ->
  (tp_eqb p p' = Ok true /\ tp_same_hash p p' = Ok true) /\ (tp_eqb p' p = Ok true /\ tp_same_hash p' p = Ok true).
Proof.
  intros E F H C. destruct (gets_stable ts p p' E) as (_ & E1 & E2 & _ & E3).
  unfold tp_eqb, tp_same_hash, tp_hash. rewrite E3, F, E1, E2. cbn [negb andb]. rewrite !bind_Ok. cbn [tp_hash_eqb].
  rewrite !feq_refl2, !bits_refl by assumption. repeat split; reflexivity.
Qed.

Local Transparent ds_eqb ds_same_hash.
Lemma fields_equal s s' :
  ds_source_color_argb s' = ds_source_color_argb s -> ds_source_color_hct s' = ds_source_color_hct s ->
  ds_variant s' = ds_variant s -> ds_is_dark s' = ds_is_dark s -> ds_contrast_level s' = ds_contrast_level s ->
  is_nan (ds_contrast_level s) = false ->
  (forall sel, In sel [ds_primary_palette; ds_secondary_palette; ds_tertiary_palette; ds_neutral_palette;
                      ds_neutral_variant_palette; ds_error_palette] ->
    tp_eqb (sel s) (sel s') = Ok true /\ tp_same_hash (sel s) (sel s') = Ok true) ->
  ds_eqb s s' = Ok true /\ ds_same_hash s s' = Ok true.
Proof.
  intros A B C D E N Q.
  destruct (Q ds_primary_palette) as (Q1 & H1); [simpl; tauto|].
  destruct (Q ds_secondary_palette) as (Q2 & H2); [simpl; tauto|].
  destruct (Q ds_tertiary_palette) as (Q3 & H3); [simpl; tauto|].
  destruct (Q ds_neutral_palette) as (Q4 & H4); [simpl; tauto|].
  destruct (Q ds_neutral_variant_palette) as (Q5 & H5); [simpl; tauto|].
  destruct (Q ds_error_palette) as (Q6 & H6); [simpl; tauto|].
  unfold ds_eqb, ds_same_hash, hct_eqb, hct_hash. rewrite A, B, C, D, E.
  rewrite !Z.eqb_refl, variant_refl, eqb_reflx, (feq_refl2 _ N), bits_refl.
  unfold and_res. rewrite Q1, Q2, Q3, Q4, Q5, Q6, H1, H2, H3, H4, H5, H6. rewrite !bind_Ok. split; reflexivity.
Qed.
Lemma read_equal_both s s' : plain_scheme s -> read_from s s' ->
  (ds_eqb s s' = Ok true /\ ds_same_hash s s' = Ok true) /\ (ds_eqb s' s = Ok true /\ ds_same_hash s' s = Ok true).
Proof.
  intros (N & P) (A & B & C & D & E & R).
  assert (Q : forall sel, In sel [ds_primary_palette; ds_secondary_palette; ds_tertiary_palette; ds_neutral_palette;
                      ds_neutral_variant_palette; ds_error_palette] ->
    (tp_eqb (sel s) (sel s') = Ok true /\ tp_same_hash (sel s) (sel s') = Ok true) /\
    (tp_eqb (sel s') (sel s) = Ok true /\ tp_same_hash (sel s') (sel s) = Ok true)).
  { intros sel I. destruct (R sel I) as (ts & T). destruct (P sel I) as (P1 & P2 & P3).
    exact (read_palette _ ts _ T P1 P2 P3). }
  split.
  - apply fields_equal; try assumption. intros sel I. exact (proj1 (Q sel I)).
  - apply fields_equal; try (symmetry; assumption); [now rewrite E|]. intros sel I. exact (proj2 (Q sel I)).
Qed.
Lemma and_res_true a b : and_res a b = Ok true -> a = true /\ b = Ok true.
Proof. destruct a; cbn [and_res]; [intros ->; split; reflexivity|discriminate]. Qed.
Lemma equal_means s s' : ds_eqb s s' = Ok true ->
  ds_source_color_argb s = ds_source_color_argb s' /\ h_argb (ds_source_color_hct s) = h_argb (ds_source_color_hct s') /\
  ds_variant s = ds_variant s' /\ ds_is_dark s = ds_is_dark s' /\ feq (ds_contrast_level s) (ds_contrast_level s') = true /\
  tp_eqb (ds_primary_palette s) (ds_primary_palette s') = Ok true /\
  tp_eqb (ds_secondary_palette s) (ds_secondary_palette s') = Ok true /\
  tp_eqb (ds_tertiary_palette s) (ds_tertiary_palette s') = Ok true /\
  tp_eqb (ds_neutral_palette s) (ds_neutral_palette s') = Ok true /\
  tp_eqb (ds_neutral_variant_palette s) (ds_neutral_variant_palette s') = Ok true /\
  tp_eqb (ds_error_palette s) (ds_error_palette s') = Ok true.
Proof.
  unfold ds_eqb. intros E.
  apply and_res_true in E. destruct E as [A E]. apply and_res_true in E. destruct E as [B E]. apply and_res_true in E. destruct E as [C E].
  apply and_res_true in E. destruct E as [D E]. apply and_res_true in E. destruct E as [L E].
  apply bind_ok in E. destruct E as (p1 & P1 & E). apply and_res_true in E. destruct E as [-> E].
  apply bind_ok in E. destruct E as (p2 & P2 & E). apply and_res_true in E. destruct E as [-> E].
  apply bind_ok in E. destruct E as (p3 & P3 & E). apply and_res_true in E. destruct E as [-> E].
  apply bind_ok in E. destruct E as (p4 & P4 & E). apply and_res_true in E. destruct E as [-> E].
  apply bind_ok in E. destruct E as (p5 & P5 & E). apply and_res_true in E. destruct E as [-> E].
  apply Z.eqb_eq in A. apply eqb_prop in D. unfold hct_eqb in B. apply Z.eqb_eq in B. symmetry in B.
  repeat (split; [first [assumption | destruct (ds_variant s), (ds_variant s'); first [reflexivity|discriminate C]]|]). exact E.
Qed.
Lemma read_equal s s' : plain_scheme s -> read_from s s' -> ds_eqb s s' = Ok true /\ ds_same_hash s s' = Ok true.
Proof. intros P R. exact (proj1 (read_equal_both s s' P R)). Qed.

(** ** Rotated hue *)
Lemma rotated_loop_hit h : forall hues rots i, List.length hues = List.length rots ->
  forall lo hi r, nth_error hues i = Some lo -> nth_error hues (S i) = Some hi -> nth_error rots i = Some r ->
  flt lo h = true -> flt h hi = true ->
  (forall j lo' hi', (j < i)%nat -> nth_error hues j = Some lo' -> nth_error hues (S j) = Some hi' ->
     flt lo' h = false \/ flt h hi' = false) ->
  rotated_hue_loop h hues rots = sanitize_degrees_double (fadd h r).
Proof.
  induction hues as [|x hues IH]; intros rots i L lo hi r N1 N2 N3 A B F; [destruct i; discriminate|].
  destruct hues as [|y hues]; [destruct i; discriminate N2|].
  destruct rots as [|z rots]; [discriminate|]. cbn [rotated_hue_loop].
  destruct i as [|i].
  - cbn in N1, N2, N3. injection N1 as <-. injection N2 as <-. injection N3 as <-. now rewrite A, B.
  - assert (Q : (flt x h && flt h y)%bool = false).
    { destruct (F 0%nat x y) as [Q|Q]; [lia|reflexivity|reflexivity| |]; rewrite Q; [reflexivity|apply andb_false_r]. }
    rewrite Q. apply (IH rots i) with (lo := lo) (hi := hi); try assumption.
    + now injection L.
    + intros j lo' hi' J M1 M2. apply (F (S j) lo' hi'); [lia|exact M1|exact M2].
Qed.

Lemma rotated_loop_miss h : forall hues rots,
  (forall j lo' hi', nth_error hues j = Some lo' -> nth_error hues (S j) = Some hi' ->
     flt lo' h = false \/ flt h hi' = false) ->
  rotated_hue_loop h hues rots = h.
Proof.
  induction hues as [|x hues IH]; intros rots F; [reflexivity|].
  destruct hues as [|y hues]; [reflexivity|].
  destruct rots as [|z rots]; [reflexivity|]. cbn [rotated_hue_loop].
  assert (Q : (flt x h && flt h y)%bool = false).
  { destruct (F 0%nat x y) as [Q|Q]; [reflexivity|reflexivity| |]; rewrite Q; [reflexivity|apply andb_false_r]. }
  rewrite Q. apply IH. intros j lo' hi' M1 M2. exact (F (S j) lo' hi' M1 M2).
Qed.

Lemma rotated_panics src hues rots : List.length hues <> List.length rots -> get_rotated_hue src hues rots = Panic.
Proof. intros N. unfold get_rotated_hue. apply Nat.eqb_neq in N. now rewrite N. Qed.
Lemma rotated_one src x r : get_rotated_hue src [x] [r] = Ok (sanitize_degrees_double (fadd (h_hue src) r)).
Proof. reflexivity. Qed.
Lemma rotated_many src hues rots : List.length hues = List.length rots -> List.length rots <> 1%nat ->
  get_rotated_hue src hues rots = Ok (rotated_hue_loop (h_hue src) hues rots).
Proof.
  intros L N. unfold get_rotated_hue. rewrite L, Nat.eqb_refl. cbn [negb].
  destruct rots as [|r [|r' rots]]; [reflexivity|now destruct N|reflexivity].
Qed.

Lemma rotated_band src hues rots i lo hi r :
  List.length hues = List.length rots ->
  nth_error hues i = Some lo -> nth_error hues (S i) = Some hi -> nth_error rots i = Some r ->
  flt lo (h_hue src) = true -> flt (h_hue src) hi = true ->
  (forall j lo' hi', (j < i)%nat -> nth_error hues j = Some lo' -> nth_error hues (S j) = Some hi' ->
     flt lo' (h_hue src) = false \/ flt (h_hue src) hi' = false) ->
  get_rotated_hue src hues rots = Ok (sanitize_degrees_double (fadd (h_hue src) r)).
Proof.
  intros L N1 N2 N3 A B F. rewrite rotated_many; [|exact L|].
  - f_equal. exact (rotated_loop_hit _ hues rots i L lo hi r N1 N2 N3 A B F).
  - intros Q. assert (S i < List.length hues)%nat by (apply nth_error_Some; congruence). lia.
Qed.
Lemma rotated_none src hues rots :
  List.length hues = List.length rots -> List.length hues <> 1%nat ->
  (forall j lo' hi', nth_error hues j = Some lo' -> nth_error hues (S j) = Some hi' ->
     flt lo' (h_hue src) = false \/ flt (h_hue src) hi' = false) ->
  get_rotated_hue src hues rots = Ok (h_hue src).
Proof.
  intros L N F. rewrite rotated_many; [|exact L|congruence]. f_equal. exact (rotated_loop_miss _ hues rots F).
Qed.

(** In ascending lists a breakpoint lies strictly inside no band. *)
Lemma ascending_lt l : (forall j a b, nth_error l j = Some a -> nth_error l (S j) = Some b -> flt a b = true) ->
  forall d j a b, nth_error l j = Some a -> nth_error l (S (d + j)) = Some b -> flt a b = true.
Proof.
  intros A. induction d as [|d IH]; intros j a b N1 N2; [exact (A j a b N1 N2)|].
  destruct (nth_error l (S (d + j))) as [c|] eqn:C.
  - assert (flt a c = true) by exact (IH j a c N1 C). assert (flt c b = true) by exact (A _ c b C N2).
    eapply flt_trans'; eassumption.
  - apply nth_error_None in C. assert (S (S d + j) < List.length l)%nat by (apply nth_error_Some; congruence). lia.
Qed.
Lemma flt_asym a b : flt a b = true -> flt b a = false.
Proof. intros H. destruct (flt b a) eqn:Q; [|reflexivity]. rewrite <- (flt_irrefl a). symmetry. eapply flt_trans'; eassumption. Qed.

Lemma rotated_breakpoint src hues rots k :
  List.length hues = List.length rots -> List.length hues <> 1%nat ->
  (forall j a b, nth_error hues j = Some a -> nth_error hues (S j) = Some b -> flt a b = true) ->
  nth_error hues k = Some (h_hue src) ->
  get_rotated_hue src hues rots = Ok (h_hue src).
Proof.
  intros L N A K. apply rotated_none; [exact L|exact N|]. intros j lo hi N1 N2.
  destruct (Nat.lt_trichotomy k j) as [Q|[Q|Q]].
  - left. apply flt_asym. apply (ascending_lt hues A (j - k - 1) k); [exact K|]. replace (S (j - k - 1 + k)) with j by lia. exact N1.
  - subst k. left. rewrite N1 in K. injection K as <-. apply flt_irrefl.
  - right. destruct (Nat.eq_dec k (S j)) as [->|Q'].
    + rewrite N2 in K. injection K as <-. apply flt_irrefl.
    + apply flt_asym. apply (ascending_lt hues A (k - S j - 1) (S j)); [exact N2|].
      replace (S (k - S j - 1 + S j)) with k by lia. exact K.
Qed.

(** ** Constructors *)
Lemma new_inv argb v lvl dark p s t n nv r : ds_new argb v lvl dark p s t n nv = Ok r ->
  ds_source_color_argb r = argb /\ hct_from_int argb = Ok (ds_source_color_hct r) /\
  ds_variant r = v /\ ds_is_dark r = dark /\ ds_contrast_level r = unwrap_or lvl (dec "0.0") /\
  five r = [p; s; t; n; nv] /\ tp_of (dec "25.0") (dec "84.0") = Ok (ds_error_palette r).
Proof.
  unfold ds_new. intros E. apply bind_ok in E. destruct E as (h & H & E). apply bind_ok in E. destruct E as (e & H2 & E).
  apply ok_inj in E. subst r. cbn. tauto.
Qed.

Lemma build_inv src v lvl dark p s t n nv r : ds_build src v lvl dark p s t n nv = Ok r ->
  exists p' s' t' n' nv', p = Ok p' /\ s = Ok s' /\ t = Ok t' /\ n = Ok n' /\ nv = Ok nv' /\
  ds_source_color_argb r = hct_to_int src /\ hct_from_int (hct_to_int src) = Ok (ds_source_color_hct r) /\
  ds_variant r = v /\ ds_is_dark r = dark /\ ds_contrast_level r = lvl /\
  five r = [p'; s'; t'; n'; nv'] /\ tp_of (dec "25.0") (dec "84.0") = Ok (ds_error_palette r).
Proof.
  unfold ds_build. intros E.
  apply bind_ok in E. destruct E as (p' & P & E). apply bind_ok in E. destruct E as (s' & Q & E).
  apply bind_ok in E. destruct E as (t' & T & E). apply bind_ok in E. destruct E as (n' & N & E).
  apply bind_ok in E. destruct E as (nv' & V & E). apply new_inv in E.
  exists p', s', t', n', nv'. cbn [unwrap_or] in E. tauto.
Qed.

Lemma construct_build v src dark lvl r : construct v src dark lvl = Ok r ->
  exists p s t n nv, ds_build src v lvl dark p s t n nv = Ok r.
Proof.
  destruct v; cbn [construct]; intros E; try (do 5 eexists; exact E).
  unfold scheme_content in E. apply bind_ok in E. destruct E as (an & _ & E). apply bind_ok in E. destruct E as (tmp & _ & E).
  do 5 eexists; exact E.
Qed.

Lemma construct_fields v src dark lvl r : construct v src dark lvl = Ok r ->
  ds_source_color_argb r = hct_to_int src /\ hct_from_int (hct_to_int src) = Ok (ds_source_color_hct r) /\
  ds_variant r = v /\ ds_is_dark r = dark /\ ds_contrast_level r = lvl /\
  tp_of (of_Z 25) (of_Z 84) = Ok (ds_error_palette r).
Proof.
  intros E. apply construct_build in E. destruct E as (p & s & t & n & nv & E). apply build_inv in E.
  destruct E as (p' & s' & t' & n' & nv' & _ & _ & _ & _ & _ & A & B & C & D & F & _ & G).
  replace (of_Z 25) with (dec "25.0") by (apply B2SF_inj; vm_compute; reflexivity).
  replace (of_Z 84) with (dec "84.0") by (apply B2SF_inj; vm_compute; reflexivity). tauto.
Qed.

Definition matches (e : res f64 * Z) (p : tonal_palette) : Prop :=
  exists hue, fst e = Ok hue /\ tp_of hue (of_Z (snd e)) = Ok p.

Lemma matches_same src c p s : tp_of (h_hue src) (dec s) = Ok p -> B2SF (dec s) = B2SF (of_Z c) ->
  matches (same_hue src, c) p.
Proof. intros H Q. apply B2SF_inj in Q. exists (h_hue src). split; [reflexivity|]. cbn [snd]. now rewrite <- Q. Qed.
Lemma matches_hue hue c p s : tp_of hue (dec s) = Ok p -> B2SF (dec s) = B2SF (of_Z c) -> matches (Ok hue, c) p.
Proof. intros H Q. apply B2SF_inj in Q. exists hue. split; [reflexivity|]. cbn [snd]. now rewrite <- Q. Qed.
Lemma matches_bind (e : res f64) c p s : bind e (fun hue => tp_of hue (dec s)) = Ok p -> B2SF (dec s) = B2SF (of_Z c) -> matches (e, c) p.
Proof. intros H Q. apply bind_ok in H. destruct H as (hue & E & H). apply B2SF_inj in Q. exists hue. split; [exact E|]. cbn [snd]. now rewrite <- Q. Qed.

Lemma decs_Z ss zs : map (fun s => B2SF (dec s)) ss = map (fun z => B2SF (of_Z z)) zs -> decs ss = map of_Z zs.
Proof.
  revert zs. induction ss as [|s ss IH]; intros [|z zs]; cbn [map]; try discriminate; [reflexivity|].
  intros E. injection E as E1 E2. unfold decs. cbn [map]. f_equal; [now apply B2SF_inj|]. now apply IH.
Qed.

Lemma f2 a b c d e p q r s t : matches a p -> matches b q -> matches c r -> matches d s -> matches e t ->
  Forall2 matches [a; b; c; d; e] [p; q; r; s; t].
Proof. intros. repeat (apply Forall2_cons; [assumption|]). apply Forall2_nil. Qed.
Local Ltac lit := vm_compute; reflexivity.
Local Opaque sanitize_degrees_double tp_of.
Lemma documented_ok v src dark lvl r : construct v src dark lvl = Ok r -> v <> Content -> v <> Fidelity ->
  Forall2 matches (documented v src) (five r).
Proof.
  destruct v; cbn [construct documented]; intros E NC NF; try (exfalso; apply NC; reflexivity); try (exfalso; apply NF; reflexivity);
    unfold scheme_monochrome, scheme_neutral, scheme_tonal_spot, scheme_rainbow, scheme_fruit_salad,
      scheme_vibrant, scheme_expressive in E;
    apply build_inv in E; destruct E as (p' & s' & t' & n' & nv' & P & S & T & N & V & _ & _ & _ & _ & _ & -> & _).
  - exact (f2 _ _ _ _ _ _ _ _ _ _ (matches_same src 0 _ _ P ltac:(lit)) (matches_same src 0 _ _ S ltac:(lit))
      (matches_same src 0 _ _ T ltac:(lit)) (matches_same src 0 _ _ N ltac:(lit)) (matches_same src 0 _ _ V ltac:(lit))).
  - exact (f2 _ _ _ _ _ _ _ _ _ _ (matches_same src 12 _ _ P ltac:(lit)) (matches_same src 8 _ _ S ltac:(lit))
      (matches_same src 16 _ _ T ltac:(lit)) (matches_same src 2 _ _ N ltac:(lit)) (matches_same src 2 _ _ V ltac:(lit))).
  - refine (f2 _ _ _ _ _ _ _ _ _ _ (matches_same src 36 _ _ P ltac:(lit)) (matches_same src 16 _ _ S ltac:(lit))
      _ (matches_same src 6 _ _ N ltac:(lit)) (matches_same src 8 _ _ V ltac:(lit))).
    unfold turned. replace (of_Z 60) with (dec "60.0") by (apply B2SF_inj; lit). exact (matches_hue _ 24 _ _ T ltac:(lit)).
  - refine (f2 _ _ _ _ _ _ _ _ _ _ (matches_same src 200 _ _ P ltac:(lit)) _ _
      (matches_same src 10 _ _ N ltac:(lit)) (matches_same src 12 _ _ V ltac:(lit))).
    + unfold banded. rewrite <- (decs_Z ["0.0"; "41.0"; "61.0"; "101.0"; "131.0"; "181.0"; "251.0"; "301.0"; "360.0"]) by lit.
      rewrite <- (decs_Z ["18.0"; "15.0"; "10.0"; "12.0"; "15.0"; "18.0"; "15.0"; "12.0"; "12.0"]) by lit.
      exact (matches_bind _ 24 _ _ S ltac:(lit)).
    + unfold banded. rewrite <- (decs_Z ["0.0"; "41.0"; "61.0"; "101.0"; "131.0"; "181.0"; "251.0"; "301.0"; "360.0"]) by lit.
      rewrite <- (decs_Z ["35.0"; "30.0"; "20.0"; "25.0"; "30.0"; "35.0"; "30.0"; "25.0"; "25.0"]) by lit.
      exact (matches_bind _ 32 _ _ T ltac:(lit)).
  - assert (Q : of_Z 15 = dec "15.0") by (apply B2SF_inj; lit). unfold turned. rewrite Q.
    replace (of_Z 240) with (dec "240.0") by (apply B2SF_inj; lit).
    refine (f2 _ _ _ _ _ _ _ _ _ _ (matches_hue _ 40 _ _ P ltac:(lit)) _ _
      (matches_hue _ 8 _ _ N ltac:(lit)) (matches_hue _ 12 _ _ V ltac:(lit))).
    + unfold banded. rewrite <- (decs_Z ["0.0"; "21.0"; "51.0"; "121.0"; "151.0"; "191.0"; "271.0"; "321.0"; "360.0"]) by lit.
      rewrite <- (decs_Z ["45.0"; "95.0"; "45.0"; "20.0"; "45.0"; "90.0"; "45.0"; "45.0"; "45.0"]) by lit.
      exact (matches_bind _ 24 _ _ S ltac:(lit)).
    + unfold banded. rewrite <- (decs_Z ["0.0"; "21.0"; "51.0"; "121.0"; "151.0"; "191.0"; "271.0"; "321.0"; "360.0"]) by lit.
      rewrite <- (decs_Z ["120.0"; "120.0"; "20.0"; "45.0"; "20.0"; "15.0"; "20.0"; "120.0"; "120.0"]) by lit.
      exact (matches_bind _ 32 _ _ T ltac:(lit)).
  - refine (f2 _ _ _ _ _ _ _ _ _ _ (matches_same src 48 _ _ P ltac:(lit)) (matches_same src 16 _ _ S ltac:(lit))
      _ (matches_same src 0 _ _ N ltac:(lit)) (matches_same src 0 _ _ V ltac:(lit))).
    unfold turned. replace (of_Z 60) with (dec "60.0") by (apply B2SF_inj; lit). exact (matches_hue _ 24 _ _ T ltac:(lit)).
  - assert (Q : fadd (h_hue src) (of_Z (-50)) = fsub (h_hue src) (dec "50.0")).
    { replace (of_Z (-50)) with (fneg (dec "50.0")) by (apply B2SF_inj; lit). reflexivity. }
    unfold turned. rewrite Q.
    exact (f2 _ _ _ _ _ _ _ _ _ _ (matches_hue _ 48 _ _ P ltac:(lit)) (matches_hue _ 36 _ _ S ltac:(lit))
      (matches_same src 36 _ _ T ltac:(lit)) (matches_same src 10 _ _ N ltac:(lit)) (matches_same src 16 _ _ V ltac:(lit))).
Qed.

Lemma content_ok src dark lvl r : scheme_content src dark lvl = Ok r ->
  tp_of (h_hue src) (h_chroma src) = Ok (ds_primary_palette r) /\
  tp_of (h_hue src) (fmax (fsub (h_chroma src) (dec "32.0")) (fmul (h_chroma src) (dec "0.5"))) = Ok (ds_secondary_palette r) /\
  (exists l c a f, analogous (tc_new src) (Some 3) (Some 6) = Ok (l, c) /\ nth_error l (List.length l - 1) = Some a /\
     fix_if_disliked a = Ok f /\ ds_tertiary_palette r = tp_from_hct f) /\
  tp_of (h_hue src) (fdiv (h_chroma src) (dec "8.0")) = Ok (ds_neutral_palette r) /\
  tp_of (h_hue src) (fadd (fdiv (h_chroma src) (dec "8.0")) (dec "4.0")) = Ok (ds_neutral_variant_palette r).
Proof.
  unfold scheme_content. intros E. apply bind_ok in E. destruct E as ((l & c) & A & E). cbn [fst] in E.
  apply bind_ok in E. destruct E as (tmp & L & E). apply build_inv in E.
  destruct E as (p' & s' & t' & n' & nv' & P & S & T & N & V & _ & _ & _ & _ & _ & F & _).
  injection F as -> -> -> -> ->. split; [exact P|]. split; [exact S|]. split; [|split; [exact N|exact V]].
  exists l, c, tmp. destruct (fix_if_disliked tmp) as [f|] eqn:Q; [|discriminate T]. exists f.
  split; [exact A|]. split; [|split; [reflexivity|]].
  - revert L. clear. induction l as [|x l IH]; cbn; [discriminate|]. destruct l as [|y l].
    + cbn. intros E. apply ok_inj in E. now subst.
    + intros E. cbn [List.length]. cbn [List.length Nat.sub] in IH. rewrite Nat.sub_0_r in IH. exact (IH E).
  - cbn [rmap] in T. apply ok_inj in T. now subst.
Qed.

Lemma fidelity_ok src dark lvl r : scheme_fidelity src dark lvl = Ok r ->
  tp_of (h_hue src) (h_chroma src) = Ok (ds_primary_palette r) /\
  tp_of (h_hue src) (fmax (fsub (h_chroma src) (dec "32.0")) (fmul (h_chroma src) (dec "0.5"))) = Ok (ds_secondary_palette r) /\
  (exists a c f, get_complement (tc_new src) = Ok (a, c) /\
     fix_if_disliked a = Ok f /\ ds_tertiary_palette r = tp_from_hct f) /\
  tp_of (h_hue src) (fdiv (h_chroma src) (dec "8.0")) = Ok (ds_neutral_palette r) /\
  tp_of (h_hue src) (fadd (fdiv (h_chroma src) (dec "8.0")) (dec "4.0")) = Ok (ds_neutral_variant_palette r).
Proof.
  unfold scheme_fidelity. intros E. apply build_inv in E.
  destruct E as (p' & s' & t' & n' & nv' & P & S & T & N & V & _ & _ & _ & _ & _ & F & _).
  injection F as -> -> -> -> ->. split; [exact P|]. split; [exact S|]. split; [|split; [exact N|exact V]].
  apply bind_ok in T. destruct T as ((a & c) & A & T). cbn [fst] in T.
  exists a, c. destruct (fix_if_disliked a) as [f|] eqn:Q; [|discriminate T]. exists f.
  split; [exact A|]. split; [reflexivity|]. cbn [rmap] in T. apply ok_inj in T. now subst.
Qed.

(** ** Monochrome *)
Local Opaque of_Z dec.
Definition palette_is (role : dynamic_color) (sels : list (dynamic_scheme -> tonal_palette)) : Prop :=
  exists sel, In sel sels /\ forall s, dc_palette role s = sel s.
Definition error_names : list string := ["error"; "on_error"; "error_container"; "on_error_container"].
Lemma role_palettes role : In role all_roles -> ~ In (dc_name role) error_names ->
  palette_is role [ds_primary_palette; ds_secondary_palette; ds_tertiary_palette; ds_neutral_palette; ds_neutral_variant_palette].
Proof.
  intros I. unfold all_roles in I.
  repeat (destruct I as [<-|I]; [intros N; first
    [ exfalso; apply N; cbn; tauto
    | exists ds_primary_palette; split; [cbn; tauto|intros s; reflexivity]
    | exists ds_secondary_palette; split; [cbn; tauto|intros s; reflexivity]
    | exists ds_tertiary_palette; split; [cbn; tauto|intros s; reflexivity]
    | exists ds_neutral_palette; split; [cbn; tauto|intros s; reflexivity]
    | exists ds_neutral_variant_palette; split; [cbn; tauto|intros s; reflexivity] ]|]).
  destruct I.
Qed.

Lemma zero_chroma t : (flt (dec "0.0") (dec "0.0001") || flt t (dec "0.0001") || flt (dec "99.9999") t)%bool = true.
Proof. assert (Q : flt (dec "0.0") (dec "0.0001") = true) by (vm_compute; reflexivity). now rewrite Q. Qed.

Local Transparent tp_get_hct.
Lemma grey_palette hue p t h : tp_of hue (dec "0.0") = Ok p -> tp_get_hct p t = Ok h -> is_grey (hct_to_int h).
Proof.
  intros E G. destruct (of_fresh _ _ _ E) as (F & H1 & H2 & _). unfold tp_get_hct in G. rewrite F, H1, H2 in G. cbn [afind] in G.
  rewrite (from_degenerate _ _ _ (zero_chroma t)) in G. unfold hct_to_int. rewrite (from_int_argb _ _ G).
  destruct (lstar_grey t) as (v & R & Q). exists v. split; assumption.
Qed.

Lemma monochrome_grey src dark lvl s role c : scheme_monochrome src dark lvl = Ok s ->
  In role all_roles -> ~ In (dc_name role) error_names -> ds_get_argb s role = Ok c -> is_grey c.
Proof.
  intros E I N G. unfold scheme_monochrome in E. apply build_inv in E.
  destruct E as (p' & s' & t' & n' & nv' & P & S & T & NE & V & _ & _ & _ & _ & _ & F & _).
  unfold ds_get_argb, dc_get_argb in G. apply bind_ok in G. destruct G as (r & G & Q). apply ok_inj in Q. subst c.
  apply bind_ok in G. destruct G as (r' & G & Q). apply ok_inj in Q. subst r. cbn [fst].
  assert (U : uncached role s = Ok (fst r')) by (unfold uncached; rewrite G; reflexivity).
  rewrite uncached_eq in U. apply bind_ok in U. destruct U as (t & _ & U).
  destruct (role_palettes role I N) as (sel & J & W). rewrite W in U.
  injection F as F1 F2 F3 F4 F5. rewrite <- F1 in P. rewrite <- F2 in S. rewrite <- F3 in T. rewrite <- F4 in NE. rewrite <- F5 in V.
  destruct J as [<-|[<-|[<-|[<-|[<-|[]]]]]].
  - exact (grey_palette _ _ _ _ P U).
  - exact (grey_palette _ _ _ _ S U).
  - exact (grey_palette _ _ _ _ T U).
  - exact (grey_palette _ _ _ _ NE U).
  - exact (grey_palette _ _ _ _ V U).
Qed.
End AnyLibm.

(** ** The counterexample of C66 *)
Section Coarse.
Context {lm : Libm}.
Local Opaque hct_from hct_from_int hct_new get_tone ds_eqb ds_same_hash tp_get_hct tp_get.
Lemma coarse_gen s s' a b : plain_scheme s -> read_from s s' ->
  uncached surface_dim s = Ok a -> uncached surface_dim s' = Ok b -> hct_to_int a <> hct_to_int b ->
  exists (lm : Libm) s s' a b cache, ds_eqb s s' = Ok true /\ ds_same_hash s s' = Ok true /\
    uncached surface_dim s = Ok a /\ uncached surface_dim s' = Ok b /\ hct_to_int a <> hct_to_int b /\
    answers surface_dim [] [s; s'] = Ok ([a; a], cache).
Proof.
  intros P R A B NE. destruct (read_equal_both s s' P R) as ((E' & H') & (E & H)).
  assert (A0 := A). unfold uncached in A. destruct (dc_get_hct surface_dim [] s) as [(a' & c1)|] eqn:D; [|discriminate A].
  cbn [rmap fst] in A. apply ok_inj in A. subst a'.
  exists lm, s, s', a, b, c1. split; [exact E'|]. split; [exact H'|]. split; [exact A0|]. split; [exact B|]. split; [exact NE|].
  cbn [answers]. rewrite D, bind_Ok. cbn [fst snd].
  rewrite (stale surface_dim s s' a c1 D H E), bind_Ok. reflexivity.
Qed.

(** A light scheme with every palette that of one colour and contrast level 0.25, where surface_dim has
    tone 83.5; [neutral] will be the same palette after [get(83)]. *)
Definition scheme_with (h : hct) (neutral : tonal_palette) : dynamic_scheme := {|
  ds_source_color_argb := hct_to_int h; ds_source_color_hct := h; ds_variant := TonalSpot; ds_is_dark := false;
  ds_contrast_level := dec "0.25"; ds_primary_palette := tp_from_hct h; ds_secondary_palette := tp_from_hct h;
  ds_tertiary_palette := tp_from_hct h; ds_neutral_palette := neutral; ds_neutral_variant_palette := tp_from_hct h;
  ds_error_palette := tp_from_hct h |}.
Lemma coarse h c p a b : tp_get (tp_from_hct h) 83 = Ok (c, p) -> is_nan (h_hue h) = false -> is_nan (h_chroma h) = false ->
  uncached surface_dim (scheme_with h (tp_from_hct h)) = Ok a -> uncached surface_dim (scheme_with h p) = Ok b ->
  hct_to_int a <> hct_to_int b ->
  exists (lm : Libm) s s' a b cache, ds_eqb s s' = Ok true /\ ds_same_hash s s' = Ok true /\
    uncached surface_dim s = Ok a /\ uncached surface_dim s' = Ok b /\ hct_to_int a <> hct_to_int b /\
    answers surface_dim [] [s; s'] = Ok ([a; a], cache).
Proof.
  intros G N1 N2 A B NE. refine (coarse_gen _ _ a b _ _ A B NE).
  - split; [vm_compute; reflexivity|]. intros sel I.
    repeat (destruct I as [<-|I]; [split; [reflexivity|split; assumption]|]). destruct I.
  - repeat (split; [reflexivity|]). intros sel I.
    repeat (destruct I as [<-|I]; [first [exists (@nil Z); reflexivity | exists [83]; cbn [after_gets scheme_with ds_neutral_palette]; rewrite G, bind_Ok; reflexivity]|]).
    destruct I.
Qed.
End Coarse.

Definition stale_check (h : hct) (p : tonal_palette) : bool :=
  match @uncached sample_libm surface_dim (scheme_with h (tp_from_hct h)), @uncached sample_libm surface_dim (scheme_with h p) with
  | Ok a, Ok b => negb (Z.eqb (hct_to_int a) (hct_to_int b)) && negb (is_nan (h_hue h)) && negb (is_nan (h_chroma h))
  | _, _ => false
  end.
Definition purple : res hct := @hct_from_int sample_libm 0xFF6750A4.
Lemma stale_case : exists h c p, purple = Ok h /\ @tp_get sample_libm (tp_from_hct h) 83 = Ok (c, p) /\ stale_check h p = true.
Proof.
  destruct (checked purple (fun h => match @tp_get sample_libm (tp_from_hct h) 83 with Ok (c, p) => stale_check h p | Panic => false end))
    as (h & H & Q); [vm_compute; reflexivity|].
  destruct (@tp_get sample_libm (tp_from_hct h) 83) as [(c & p)|] eqn:G; [|discriminate Q].
  exists h, c, p. split; [exact H|]. split; [exact G|exact Q].
Qed.
Lemma too_coarse : exists (lm : Libm) (s s' : dynamic_scheme) (a b : hct) (cache : list (dynamic_scheme * hct)),
  ds_eqb s s' = Ok true /\ ds_same_hash s s' = Ok true /\
  uncached surface_dim s = Ok a /\ uncached surface_dim s' = Ok b /\ hct_to_int a <> hct_to_int b /\
  answers surface_dim [] [s; s'] = Ok ([a; a], cache).
Proof.
  destruct stale_case as (h & c & p & _ & G & Q). unfold stale_check in Q.
  destruct (@uncached sample_libm surface_dim (scheme_with h (tp_from_hct h))) as [a|] eqn:A; [|discriminate Q].
  destruct (@uncached sample_libm surface_dim (scheme_with h p)) as [b|] eqn:B; [|discriminate Q].
  rewrite !andb_true_iff, !negb_true_iff in Q. destruct Q as ((Q1 & Q2) & Q3). apply Z.eqb_neq in Q1.
  exact (@coarse sample_libm h c p a b G Q2 Q3 A B Q1).
Qed.
