(** * Proofs about tonal palettes, core palettes and legacy schemes. Proof file. *)
From Coq Require Import ZArith Bool Reals Lia Lra String List.
From Flocq Require Import Core IEEE754.BinarySingleNaN.
From Verif Require Import F64 MathUtils ColorUtils ViewingConditions Cam16 HctSolver Hct Assoc Palettes LegacyScheme
  Spec SpecPalette FloatFacts FloatMono PfContrast PfHct.
Import ListNotations.
Open Scope Z_scope.

(** ** Association lists with integer keys *)
Lemma afind_ainsert {V} (m : list (Z * V)) k v k' :
  afind Z.eqb (ainsert Z.eqb m k v) k' = if k =? k' then Some v else afind Z.eqb m k'.
Proof.
  induction m as [|(q, w) m IH]; cbn [ainsert afind]; [reflexivity|].
  destruct (Z.eqb_spec q k) as [->|N]; cbn [afind].
  - destruct (Z.eqb_spec k k'); reflexivity.
  - rewrite IH. destruct (Z.eqb_spec q k') as [->|]; [|reflexivity].
    destruct (Z.eqb_spec k k'); [congruence|reflexivity].
Qed.

Lemma Forall2_impl {A B} (P Q : A -> B -> Prop) l l' : (forall a b, P a b -> Q a b) -> Forall2 P l l' -> Forall2 Q l l'.
Proof. intros H. induction 1; constructor; auto. Qed.

Lemma Forall2_length {A B} (P : A -> B -> Prop) l l' : Forall2 P l l' -> List.length l = List.length l'.
Proof. induction 1; cbn; congruence. Qed.

Lemma skipn_skipn {A} n m (l : list A) : skipn n (skipn m l) = skipn (n + m) l.
Proof.
  revert l. induction m as [|m IH]; intros l; [now rewrite Nat.add_0_r|].
  rewrite <- plus_n_Sm. destruct l as [|a l]; [now rewrite !skipn_nil|]. cbn [skipn]. apply IH.
Qed.

Section AnyLibm.
Context {lm : Libm}.
Local Opaque hct_from hct_from_int hct_new of_Z dec fround fabs fsub fadd fmul fdiv cam16_from_int.

(** What a [get] returns. *)
Definition pget (p : tonal_palette) (t : Z) : res Z := rmap fst (tp_get p t).
(** What it has to return, read off the cache. *)
Definition lookup (p : tonal_palette) (t : Z) : res Z :=
  match afind Z.eqb (tp_cache p) t with
  | Some c => Ok c
  | None => rmap h_argb (hct_from (tp_hue p) (tp_chroma p) (of_Z t))
  end.

Lemma pget_lookup p t : pget p t = lookup p t.
Proof.
  unfold pget, tp_get, lookup. destruct (afind _ _ _); [reflexivity|].
  destruct (hct_from _ _ _); reflexivity.
Qed.

Lemma get_stable p t c p' : tp_get p t = Ok (c, p') ->
  (forall t', lookup p' t' = lookup p t') /\ lookup p t = Ok c /\
  tp_hue p' = tp_hue p /\ tp_chroma p' = tp_chroma p /\ tp_key_color p' = tp_key_color p /\
  tp_is_from_cache p' = tp_is_from_cache p /\ afind Z.eqb (tp_cache p') t = Some c /\
  (forall t', afind Z.eqb (tp_cache p) t' <> None -> afind Z.eqb (tp_cache p') t' = afind Z.eqb (tp_cache p) t').
Proof.
  unfold tp_get, lookup. destruct (afind Z.eqb (tp_cache p) t) as [d|] eqn:F.
  - intros E. apply ok_inj in E. injection E as <- <-. rewrite F. now repeat split.
  - intros E. inv_bind E h Q. apply ok_inj in E. injection E as <- <-.
    cbn [tp_cache tp_hue tp_chroma tp_key_color tp_is_from_cache]. rewrite Q. cbn [rmap].
    split; [|split; [reflexivity|]].
    + intros t'. rewrite afind_ainsert. destruct (Z.eqb_spec t t') as [<-|]; [|reflexivity].
      now rewrite F, Q.
    + repeat split.
      * now rewrite afind_ainsert, Z.eqb_refl.
      * intros t' N. rewrite afind_ainsert. destruct (Z.eqb_spec t t') as [<-|]; [congruence|reflexivity].
Qed.

Lemma gets_stable ts : forall p p', after_gets p ts = Ok p' ->
  (forall t', lookup p' t' = lookup p t') /\
  tp_hue p' = tp_hue p /\ tp_chroma p' = tp_chroma p /\ tp_key_color p' = tp_key_color p /\
  tp_is_from_cache p' = tp_is_from_cache p.
Proof.
  induction ts as [|t ts IH]; intros p p'; cbn [after_gets].
  - intros E. apply ok_inj in E. subst. now repeat split.
  - intros E. apply bind_ok in E. destruct E as ((c & p1) & G & E). cbn [snd] in E.
    apply get_stable in G. destruct G as (G & _ & G1 & G2 & G3 & G4 & _).
    destruct (IH p1 p' E) as (H & H1 & H2 & H3 & H4). repeat split; try congruence.
Qed.

(** ** C35 *)
Definition fresh (p : tonal_palette) : Prop := tp_cache p = [].
Lemma of_fresh h c p : tp_of h c = Ok p ->
  fresh p /\ tp_hue p = h /\ tp_chroma p = c /\ create_key_color h c = Ok (tp_key_color p) /\ tp_is_from_cache p = false.
Proof. unfold tp_of. intros E. inv_bind E k Q. apply ok_inj in E. subst p. now repeat split. Qed.
Lemma from_hct_fresh h : fresh (tp_from_hct h). Proof. reflexivity. Qed.

Lemma fresh_history p ts p' t : fresh p -> after_gets p ts = Ok p' ->
  rmap fst (tp_get p' t) = rmap hct_to_int (hct_from (tp_hue p) (tp_chroma p) (of_Z t)).
Proof.
  intros F E. change (rmap fst (tp_get p' t)) with (pget p' t).
  rewrite pget_lookup. apply gets_stable in E. destruct E as (E & _). rewrite E.
  unfold lookup. rewrite F. reflexivity.
Qed.
Lemma of_history h c ts p p' t : tp_of h c = Ok p -> after_gets p ts = Ok p' ->
  rmap fst (tp_get p' t) = rmap hct_to_int (hct_from h c (of_Z t)).
Proof.
  intros O E. apply of_fresh in O. destruct O as (F & <- & <- & _). now apply (fresh_history p ts).
Qed.
Lemma from_hct_history h ts p' t : after_gets (tp_from_hct h) ts = Ok p' ->
  rmap fst (tp_get p' t) = rmap hct_to_int (hct_from (h_hue h) (h_chroma h) (of_Z t)).
Proof. intros E. apply (fresh_history (tp_from_hct h) ts p' t); [apply from_hct_fresh|exact E]. Qed.

(** from_list *)
Definition cache_of (colors : list Z) : list (Z * Z) :=
  fold_left (fun m tc => ainsert Z.eqb m (fst tc) (snd tc)) (combine COMMON_TONES colors) [].
Lemma cache_of_13 c0 c1 c2 c3 c4 c5 c6 c7 c8 c9 c10 c11 c12 :
  cache_of [c0;c1;c2;c3;c4;c5;c6;c7;c8;c9;c10;c11;c12] =
  [(0,c0);(10,c1);(20,c2);(30,c3);(40,c4);(50,c5);(60,c6);(70,c7);(80,c8);(90,c9);(95,c10);(99,c11);(100,c12)].
Proof. reflexivity. Qed.
Lemma from_list_inv l p : tp_from_list l = Ok p -> List.length l = 13%nat /\ tp_cache p = cache_of l /\ tp_is_from_cache p = true /\
  deduce_hue_chroma l (dec "0.0") (dec "0.0") = Ok (tp_hue p, tp_chroma p) /\
  create_key_color (tp_hue p) (tp_chroma p) = Ok (tp_key_color p).
Proof.
  unfold tp_from_list. destruct (Nat.eqb_spec (List.length l) COMMON_SIZE) as [L|]; cbn [negb]; [|discriminate].
  intros E. apply bind_ok in E. destruct E as ((bh & bc) & D & E). inv_bind E k Q. apply ok_inj in E. subst p.
  cbn [tp_cache tp_hue tp_chroma tp_key_color tp_is_from_cache].
  split; [exact L|]. split; [reflexivity|]. split; [reflexivity|]. split; assumption.
Qed.
Lemma from_list_panics l : List.length l <> 13%nat -> tp_from_list l = Panic.
Proof.
  intros N. unfold tp_from_list. destruct (Nat.eqb_spec (List.length l) COMMON_SIZE) as [L|]; [contradiction|reflexivity].
Qed.
Ltac thirteen l L :=
  do 13 (destruct l as [|? l]; [discriminate L|]); destruct l; [|discriminate L].
Lemma cache_lookup l i t c : List.length l = 13%nat ->
  nth_error common_tones i = Some t -> nth_error l i = Some c -> afind Z.eqb (cache_of l) t = Some c.
Proof.
  intros L. thirteen l L. rewrite cache_of_13. intros T C.
  do 13 (destruct i as [|i]; [cbn in T, C; injection T as <-; injection C as <-; reflexivity|]).
  cbn in T. destruct i; discriminate.
Qed.
Lemma cache_miss l t : List.length l = 13%nat -> ~ In t common_tones -> afind Z.eqb (cache_of l) t = None.
Proof.
  intros L N. thirteen l L. rewrite cache_of_13. cbn [afind].
  repeat (match goal with |- context [?a =? t] => destruct (Z.eqb_spec a t) as [<-|_] end;
    [exfalso; apply N; cbn; tauto|]). reflexivity.
Qed.
Lemma list_history l ts p p' : tp_from_list l = Ok p -> after_gets p ts = Ok p' ->
  (forall i t c, nth_error common_tones i = Some t -> nth_error l i = Some c -> rmap fst (tp_get p' t) = Ok c) /\
  (forall t, ~ In t common_tones -> rmap fst (tp_get p' t) = rmap hct_to_int (hct_from (tp_hue p) (tp_chroma p) (of_Z t))).
Proof.
  intros O E. apply from_list_inv in O. destruct O as (L & C & _). apply gets_stable in E. destruct E as (E & _).
  split.
  - intros i t c T Q. change (rmap fst (tp_get p' t)) with (pget p' t). rewrite pget_lookup, E. unfold lookup.
    now rewrite C, (cache_lookup l i t c L T Q).
  - intros t N. change (rmap fst (tp_get p' t)) with (pget p' t). rewrite pget_lookup, E. unfold lookup.
    now rewrite C, (cache_miss l t L N).
Qed.

(** ** get_as_list *)
Lemma get_all_ok tones : forall p cs, Forall2 (fun t c => lookup p t = Ok c) tones cs ->
  exists p', tp_get_all p tones = Ok (cs, p').
Proof.
  induction tones as [|t ts IH]; intros p cs H; inversion H as [|? c ? cs' Q H']; subst; cbn [tp_get_all].
  - now exists p.
  - destruct (tp_get p t) as [(c' & p1)|] eqn:G.
    + destruct (get_stable _ _ _ _ G) as (S & S' & _). rewrite Q in S'. apply ok_inj in S'. subst c'.
      rewrite bind_Ok. destruct (IH p1 cs') as (p' & E).
      { revert H'. apply Forall2_impl. intros a b. now rewrite S. }
      rewrite E, bind_Ok. now exists p'.
    + exfalso. assert (pget p t = Panic) by (unfold pget; now rewrite G). rewrite pget_lookup in H0. congruence.
Qed.
Lemma get_all_inv tones : forall p cs p', tp_get_all p tones = Ok (cs, p') ->
  Forall2 (fun t c => lookup p t = Ok c) tones cs /\ after_gets p tones = Ok p'.
Proof.
  induction tones as [|t ts IH]; intros p cs p'; cbn [tp_get_all after_gets].
  - intros E. apply ok_inj in E. injection E as <- <-. split; [constructor|reflexivity].
  - intros E. apply bind_ok in E. destruct E as ((c & p1) & G & E).
    apply bind_ok in E. destruct E as ((cs1 & p2) & A & E). apply ok_inj in E. injection E as <- <-.
    destruct (get_stable _ _ _ _ G) as (S & S' & _). destruct (IH _ _ _ A) as (I & I').
    split; [|rewrite G, bind_Ok; exact I']. constructor; [assumption|].
    revert I. apply Forall2_impl. intros a b. now rewrite S.
Qed.
Lemma F2_fun tones (f : Z -> res Z) a b : Forall2 (fun t c => f t = Ok c) tones a -> Forall2 (fun t c => f t = Ok c) tones b -> a = b.
Proof.
  intros H. revert b. induction H as [|t c ts cs Q H IH]; intros b H'; inversion H'; subst; [reflexivity|].
  f_equal; [|now apply IH]. rewrite Q in H2. now apply ok_inj in H2.
Qed.

Lemma F2_nth {A B} (P : A -> B -> Prop) l l' : List.length l = List.length l' ->
  (forall i a b, nth_error l i = Some a -> nth_error l' i = Some b -> P a b) -> Forall2 P l l'.
Proof.
  revert l'. induction l as [|a l IH]; intros [|b l'] L H; try discriminate; constructor.
  - exact (H 0%nat a b eq_refl eq_refl).
  - apply IH; [now injection L|]. intros i. exact (H (S i)).
Qed.

(** C34 *)
Lemma list_roundtrip l p ts p1 : tp_from_list l = Ok p -> after_gets p ts = Ok p1 ->
  exists p', tp_get_as_list p1 = Ok (l, p').
Proof.
  intros O G. apply gets_stable in G. destruct G as (G & _).
  apply from_list_inv in O. destruct O as (L & C & _). apply get_all_ok.
  assert (Q : forall i t c, nth_error common_tones i = Some t -> nth_error l i = Some c -> lookup p1 t = Ok c).
  { intros i t c T Z. rewrite G. unfold lookup. now rewrite C, (cache_lookup l i t c L T Z). }
  apply F2_nth; [exact (eq_sym L)|exact Q].
Qed.
Lemma as_list_length p l p' : tp_get_as_list p = Ok (l, p') -> List.length l = 13%nat.
Proof.
  intros E. apply get_all_inv in E. destruct E as (E & _). apply Forall2_length in E. symmetry. exact E.
Qed.

(** ** C36 *)
Lemma get_hct_fresh p t : fresh p -> tp_get_hct p t = hct_from (tp_hue p) (tp_chroma p) t.
Proof. intros F. unfold tp_get_hct. now rewrite F. Qed.
Lemma gets_keep ts : forall p p' k c, after_gets p ts = Ok p' -> afind Z.eqb (tp_cache p) k = Some c ->
  afind Z.eqb (tp_cache p') k = Some c.
Proof.
  induction ts as [|t ts IH]; intros p p' k c; cbn [after_gets].
  - intros E. apply ok_inj in E. now subst.
  - intros E F. apply bind_ok in E. destruct E as ((d & p1) & G & E). cbn [snd] in E.
    apply (IH p1 p' k c E). apply get_stable in G. destruct G as (_ & _ & _ & _ & _ & _ & _ & G).
    rewrite G; [assumption|congruence].
Qed.
Lemma get_hct_after p k c p1 ts p2 t : tp_get p k = Ok (c, p1) -> after_gets p1 ts = Ok p2 ->
  to_i64 t = k -> tp_get_hct p2 t = hct_from_int c.
Proof.
  intros G E T. apply get_stable in G. destruct G as (_ & _ & _ & _ & _ & _ & F & _).
  unfold tp_get_hct. now rewrite T, (gets_keep ts p1 p2 k c E F).
Qed.
(** A tone outside the visited ones is still answered directly. *)
Lemma gets_miss ts : forall p p' k, after_gets p ts = Ok p' -> afind Z.eqb (tp_cache p) k = None -> ~ In k ts ->
  afind Z.eqb (tp_cache p') k = None.
Proof.
  induction ts as [|t ts IH]; intros p p' k; cbn [after_gets].
  - intros E. apply ok_inj in E. now subst.
  - intros E F N. apply bind_ok in E. destruct E as ((d & p1) & G & E). cbn [snd] in E.
    apply (IH p1 p' k E); [|intros I; apply N; now right].
    unfold tp_get in G. destruct (afind Z.eqb (tp_cache p) t) eqn:F'.
    + apply ok_inj in G. injection G as <- <-. assumption.
    + inv_bind G h Q. apply ok_inj in G. injection G as <- <-. cbn [tp_cache]. rewrite afind_ainsert.
      destruct (Z.eqb_spec t k) as [->|]; [exfalso; apply N; now left|assumption].
Qed.
Lemma get_hct_unvisited p ts p' t : fresh p -> after_gets p ts = Ok p' -> ~ In (to_i64 t) ts ->
  tp_get_hct p' t = hct_from (tp_hue p) (tp_chroma p) t.
Proof.
  intros F E N. unfold tp_get_hct. rewrite (gets_miss ts p p' _ E); [|now rewrite F|assumption].
  apply gets_stable in E. destruct E as (_ & -> & -> & _). reflexivity.
Qed.

(** ** C37 *)
Lemma list_equals_sym : forall a b, list_equals a b = list_equals b a.
Proof.
  intros a b. unfold list_equals. rewrite Nat.eqb_sym. destruct (Nat.eqb _ _); [|reflexivity].
  revert b. induction a as [|x a IH]; intros [|y b]; cbn [list_equals_go]; try reflexivity.
  rewrite (Z.eqb_sym x y), IH. reflexivity.
Qed.
Lemma list_equals_iff : forall a b, list_equals a b = true <-> a = b.
Proof.
  intros a b. unfold list_equals. destruct (Nat.eqb_spec (List.length a) (List.length b)) as [L|N].
  - revert b L. induction a as [|x a IH]; intros [|y b] L; cbn [list_equals_go]; try discriminate; try tauto.
    injection L as L. destruct (Z.eqb_spec x y) as [<-|]; [|split; [discriminate|congruence]].
    rewrite (IH b L). split; congruence.
  - split; [discriminate|]. intros ->. now destruct N.
Qed.
Lemma feq_sym' x y : feq x y = feq y x.
Proof.
  destruct (is_nan x) eqn:N; [now rewrite (feq_nan_l x y N), (feq_nan_r y x N)|].
  destruct (is_nan y) eqn:M; [now rewrite (feq_nan_r x y M), (feq_nan_l y x M)|].
  apply eq_true_iff_eq. rewrite (feq_val x y N M), (feq_val y x M N). split; apply eq_sym.
Qed.
Lemma feq_refl' x : is_nan x = false -> feq x x = true.
Proof. intros N. now apply (feq_val x x N N). Qed.
Lemma eqb_sym a b : tp_eqb a b = tp_eqb b a.
Proof.
  unfold tp_eqb. rewrite (andb_comm (negb (tp_is_from_cache a))).
  destruct (_ && _)%bool.
  - now rewrite (feq_sym' (tp_hue a)), (feq_sym' (tp_chroma a)).
  - destruct (tp_get_as_list a) as [x|], (tp_get_as_list b) as [y|]; cbn [bind]; try reflexivity.
    now rewrite list_equals_sym.
Qed.
Lemma eqb_refl_plain p : tp_is_from_cache p = false ->
  (tp_eqb p p = Ok true <-> is_nan (tp_hue p) = false /\ is_nan (tp_chroma p) = false).
Proof.
  intros C. unfold tp_eqb. rewrite C. cbn [negb andb]. split.
  - intros E. apply ok_inj in E. apply andb_prop in E. destruct E as (E1 & E2).
    split; [apply (feq_not_nan _ _ E1)|apply (feq_not_nan _ _ E2)].
  - intros (N1 & N2). now rewrite (feq_refl' _ N1), (feq_refl' _ N2).
Qed.
Lemma eqb_refl_list p l p' : tp_is_from_cache p = true -> tp_get_as_list p = Ok (l, p') -> tp_eqb p p = Ok true.
Proof.
  intros C E. unfold tp_eqb. rewrite C. cbn [negb andb]. rewrite E, !bind_Ok. cbn [fst].
  f_equal. now apply list_equals_iff.
Qed.
Lemma eqb_list_iff a b la lb pa pb : (tp_is_from_cache a || tp_is_from_cache b)%bool = true ->
  tp_get_as_list a = Ok (la, pa) -> tp_get_as_list b = Ok (lb, pb) -> (tp_eqb a b = Ok true <-> la = lb).
Proof.
  intros C A B. unfold tp_eqb. rewrite <- negb_orb, C. cbn [negb]. rewrite A, B, !bind_Ok. cbn [fst].
  rewrite <- list_equals_iff. split; [apply ok_inj|now intros ->].
Qed.
Lemma eqb_plain_iff a b : tp_is_from_cache a = false -> tp_is_from_cache b = false ->
  (tp_eqb a b = Ok true <-> feq (tp_hue a) (tp_hue b) = true /\ feq (tp_chroma a) (tp_chroma b) = true).
Proof.
  intros A B. unfold tp_eqb. rewrite A, B. cbn [negb andb]. rewrite <- andb_true_iff.
  split; [apply ok_inj|now intros ->].
Qed.

Lemma lookup_fresh p t : fresh p -> lookup p t = rmap h_argb (hct_from (tp_hue p) (tp_chroma p) (of_Z t)).
Proof. intros F. unfold lookup. now rewrite F. Qed.
Lemma grey_lists h h' a c l pa : tp_of h (dec "0.0") = Ok a -> tp_of h' (dec "0.0") = Ok c ->
  tp_get_as_list a = Ok (l, pa) -> exists pc, tp_get_as_list c = Ok (l, pc).
Proof.
  intros A C L. apply of_fresh in A, C. destruct A as (FA & HA & CA & _), C as (FC & HC & CC & _).
  apply get_all_inv in L. destruct L as (L & _). apply get_all_ok. revert L. apply Forall2_impl. intros t z.
  rewrite (lookup_fresh a t FA), (lookup_fresh c t FC), HA, CA, HC, CC.
  assert (D : (flt (dec "0.0") (dec "0.0001") || flt (of_Z t) (dec "0.0001") || flt (dec "99.9999") (of_Z t))%bool = true).
  { assert (Q : flt (dec "0.0") (dec "0.0001") = true) by (vm_compute; reflexivity). now rewrite Q. }
  rewrite (from_degenerate h _ _ D), (from_degenerate h' _ _ D). trivial.
Qed.
Lemma not_transitive a b c l pa :
  tp_of (dec "10.0") (dec "0.0") = Ok a -> tp_of (dec "20.0") (dec "0.0") = Ok c ->
  tp_get_as_list a = Ok (l, pa) -> tp_from_list l = Ok b ->
  tp_eqb a b = Ok true /\ tp_eqb b c = Ok true /\ tp_eqb a c = Ok false /\
  tp_hash a = Ok (HashHueChroma (dec "10.0") (dec "0.0")) /\ tp_hash b = Ok (HashList l).
Proof.
  intros A C L B. destruct (grey_lists _ _ _ _ _ _ A C L) as (pc & LC).
  destruct (list_roundtrip l b [] b B eq_refl) as (pb & LB).
  apply of_fresh in A, C. destruct A as (FA & HA & CA & _ & KA), C as (FC & HC & CC & _ & KC).
  apply from_list_inv in B. destruct B as (_ & _ & KB & _).
  assert (O1 : (tp_is_from_cache a || tp_is_from_cache b)%bool = true) by now rewrite KA, KB.
  assert (O2 : (tp_is_from_cache b || tp_is_from_cache c)%bool = true) by now rewrite KB.
  split; [now apply (eqb_list_iff a b l l pa pb O1 L LB)|].
  split; [now apply (eqb_list_iff b c l l pb pc O2 LB LC)|].
  split.
  - unfold tp_eqb. rewrite KA, KC, HA, HC. cbn [negb andb].
    assert (Q : feq (dec "10.0") (dec "20.0") = false) by (vm_compute; reflexivity). now rewrite Q.
  - split.
    + unfold tp_hash. rewrite KA, HA, CA. reflexivity.
    + unfold tp_hash. rewrite KB. cbn [negb]. rewrite LB. reflexivity.
Qed.

(** ** C38 *)
Lemma flt_irrefl x : flt x x = false.
Proof.
  destruct (flt x x) eqn:E; [|reflexivity]. exfalso.
  destruct (is_nan x) eqn:N.
  - unfold flt, Bltb in E. destruct x; discriminate.
  - apply (flt_val x x N N) in E. exact (Rlt_irrefl _ E).
Qed.
Lemma flt_trans' x y z : flt x y = true -> flt y z = true -> flt x z = true.
Proof.
  intros A B. destruct (flt_not_nan _ _ A) as (N1 & N2), (flt_not_nan _ _ B) as (_ & N3).
  apply (flt_val _ _ N1 N2) in A. apply (flt_val _ _ N2 N3) in B. apply (flt_val _ _ N1 N3).
  exact (Rlt_trans _ _ _ A B).
Qed.

(** ** The colour a palette built from a list takes its hue and chroma from *)
Lemma fle_flt_trans x y z : flt x y = true -> fle y z = true -> flt x z = true.
Proof.
  intros A B. destruct (flt_not_nan _ _ A) as (N1 & N2), (fle_not_nan _ _ B) as (_ & N3).
  apply (flt_val _ _ N1 N2) in A. apply (fle_val _ _ N2 N3) in B. apply (flt_val _ _ N1 N3).
  exact (Rlt_le_trans _ _ _ A B).
Qed.
Lemma deduce_spec l : forall bh bc h c, deduce_hue_chroma l bh bc = Ok (h, c) ->
  (h = bh /\ c = bc /\ forall y k, In y l -> hct_from_int y = Ok k -> flt (dec "98.0") (h_tone k) = true \/ flt bc (h_chroma k) = false) \/
  (exists before x after k, l = before ++ x :: after /\ hct_from_int x = Ok k /\ flt (dec "98.0") (h_tone k) = false /\
     h = h_hue k /\ c = h_chroma k /\ flt bc c = true /\
     (forall y k', In y before -> hct_from_int y = Ok k' -> flt (dec "98.0") (h_tone k') = true \/ fle c (h_chroma k') = false) /\
     (forall y k', In y after -> hct_from_int y = Ok k' -> flt (dec "98.0") (h_tone k') = true \/ flt c (h_chroma k') = false)).
Proof.
  induction l as [|a l IH]; intros bh bc h c E; cbn [deduce_hue_chroma] in E.
  { apply ok_inj in E. injection E as -> ->. left. split; [reflexivity|]. split; [reflexivity|]. intros y k [].  }
  apply bind_ok in E. destruct E as (ka & Ka & E). unfold fgt in E. change Bltb with flt in E.
  destruct (flt (dec "98.0") (h_tone ka)) eqn:T; [|destruct (flt bc (h_chroma ka)) eqn:C].
  - destruct (IH _ _ _ _ E) as [(-> & -> & P)|(before & x & after & k & -> & K & T' & -> & -> & L & P & Q)].
    + left. split; [reflexivity|]. split; [reflexivity|]. intros y k [<-|I] K; [left; congruence|eauto].
    + right. exists (a :: before), x, after, k. repeat split; try assumption.
      intros y k' [<-|I] K'; [left; congruence|eauto].
  - right. destruct (IH _ _ _ _ E) as [(-> & -> & P)|(before & x & after & k & -> & K & T' & -> & -> & L & P & Q)].
    + exists [], a, l, ka. repeat split; try assumption. intros y k [].
    + exists (a :: before), x, after, k. repeat split; try assumption.
      * exact (flt_trans' _ _ _ C L).
      * intros y k' [<-|I] K'; [|eauto]. right. replace k' with ka by congruence.
        destruct (fle (h_chroma k) (h_chroma ka)) eqn:A; [|reflexivity].
        pose proof (fle_flt_trans _ _ _ L A) as B. rewrite flt_irrefl in B. discriminate.
  - destruct (IH _ _ _ _ E) as [(-> & -> & P)|(before & x & after & k & -> & K & T' & -> & -> & L & P & Q)].
    + left. split; [reflexivity|]. split; [reflexivity|]. intros y k [<-|I] K; [right; congruence|eauto].
    + right. exists (a :: before), x, after, k. repeat split; try assumption.
      intros y k' [<-|I] K'; [|eauto]. right. replace k' with ka by congruence.
      destruct (fle (h_chroma k) (h_chroma ka)) eqn:A; [|reflexivity].
      pose proof (fle_flt_trans _ _ _ L A). congruence.
Qed.
Lemma from_list_source l p : tp_from_list l = Ok p ->
  (tp_hue p = dec "0.0" /\ tp_chroma p = dec "0.0" /\
   forall y k, In y l -> hct_from_int y = Ok k -> flt (dec "98.0") (h_tone k) = true \/ flt (dec "0.0") (h_chroma k) = false) \/
  (exists before x after k, l = before ++ x :: after /\ hct_from_int x = Ok k /\ flt (dec "98.0") (h_tone k) = false /\
     tp_hue p = h_hue k /\ tp_chroma p = h_chroma k /\ flt (dec "0.0") (h_chroma k) = true /\
     (forall y k', In y before -> hct_from_int y = Ok k' -> flt (dec "98.0") (h_tone k') = true \/ fle (h_chroma k) (h_chroma k') = false) /\
     (forall y k', In y after -> hct_from_int y = Ok k' -> flt (dec "98.0") (h_tone k') = true \/ flt (h_chroma k) (h_chroma k') = false)).
Proof.
  intros E. destruct (from_list_inv _ _ E) as (_ & _ & _ & D & _).
  destruct (deduce_spec _ _ _ _ _ D) as [(-> & -> & P)|(before & x & after & k & -> & K & T' & H1 & H2 & L & P & Q)].
  - left. repeat split. exact P.
  - right. exists before, x, after, k. rewrite H2 in L, P, Q. repeat split; assumption.
Qed.

Definition tone_of (hue chroma : f64) (t : Z) : res hct := hct_from hue chroma (of_Z t).
Definition err (chroma : f64) (h : hct) : f64 := fabs (fsub (h_chroma h) chroma).
(** [best] is one of the tones in [S] and no tone of [S] is closer. *)
Definition best_of (hue chroma : f64) (S : Z -> Prop) (best : hct) : Prop :=
  (exists t, S t /\ tone_of hue chroma t = Ok best) /\
  (forall t, S t -> exists h, tone_of hue chroma t = Ok h /\ flt (err chroma h) (err chroma best) = false).

Lemma best_step hue chroma S best t h : best_of hue chroma S best -> tone_of hue chroma t = Ok h ->
  best_of hue chroma (fun u => S u \/ u = t) (if flt (err chroma h) (err chroma best) then h else best).
Proof.
  intros ((u & Su & U) & A) T. destruct (flt (err chroma h) (err chroma best)) eqn:E; split.
  - exists t. split; [now right|assumption].
  - intros v [Sv| ->].
    + destruct (A v Sv) as (g & G & L). exists g. split; [assumption|].
      destruct (flt (err chroma g) (err chroma h)) eqn:Q; [|reflexivity].
      rewrite (flt_trans' _ _ _ Q E) in L. discriminate.
    + exists h. split; [assumption|apply flt_irrefl].
  - exists u. split; [now left|assumption].
  - intros v [Sv| ->]; [now apply A|]. exists h. now split.
Qed.
Lemma best_ext hue chroma (S S' : Z -> Prop) best : (forall t, S t <-> S' t) -> best_of hue chroma S best -> best_of hue chroma S' best.
Proof.
  intros Q ((u & Su & U) & A). split.
  - exists u. split; [now apply Q|assumption].
  - intros t St. apply A. now apply Q.
Qed.

Lemma plus_tone k : (1 <= k <= 49)%nat -> fadd (dec "50.0") (of_Z (Z.of_nat k)) = of_Z (50 + Z.of_nat k)
  /\ fsub (dec "50.0") (of_Z (Z.of_nat k)) = of_Z (50 - Z.of_nat k).
Proof.
  intros K.
  assert (I : In k (seq 1 49)) by (apply in_seq; lia).
  split; apply B2SF_inj.
  - refine (ext_in_map (f := fun k => B2SF (fadd (dec "50.0") (of_Z (Z.of_nat k))))
      (g := fun k => B2SF (of_Z (50 + Z.of_nat k))) (l := seq 1 49) _ k I). vm_compute. reflexivity.
  - refine (ext_in_map (f := fun k => B2SF (fsub (dec "50.0") (of_Z (Z.of_nat k))))
      (g := fun k => B2SF (of_Z (50 - Z.of_nat k))) (l := seq 1 49) _ k I). vm_compute. reflexivity.
Qed.

Lemma key_loop hue chroma n : forall k best r, (k + n = 50)%nat -> (1 <= k)%nat ->
  best_of hue chroma (fun t => 50 - Z.of_nat k < t < 50 + Z.of_nat k) best ->
  key_color_loop hue chroma (map Z.of_nat (seq k n)) best (err chroma best) = Ok r ->
  exists S : Z -> Prop, (forall t, S t -> 0 < t < 100) /\ best_of hue chroma S r /\
   (feq (fround chroma) (fround (h_chroma r)) = true \/ forall t, 0 < t < 100 -> S t).
Proof.
  induction n as [|n IH]; intros k best r K K1 B; cbn [seq map key_color_loop].
  - intros E. apply ok_inj in E. subst r. eexists. split; [|split; [exact B|]].
    + cbv beta. intros t. lia.
    + right. cbv beta. intros t. lia.
  - destruct (feq (fround chroma) (fround (h_chroma best))) eqn:Q.
    + intros E. apply ok_inj in E. subst r. eexists. split; [|split; [exact B|now left]]. cbv beta. intros t. lia.
    + intros E. destruct (plus_tone k) as (P1 & P2); [lia|]. rewrite P1, P2 in E.
      inv_bind E h1 E1. fold (err chroma h1) in E.
      pose proof (best_step _ _ _ _ _ _ B E1) as B1.
      set (b1 := if flt (err chroma h1) (err chroma best) then h1 else best) in *.
      assert (X : (if flt (err chroma h1) (err chroma best) then (h1, err chroma h1) else (best, err chroma best)) = (b1, err chroma b1)).
      { unfold b1. destruct (flt (err chroma h1) (err chroma best)); reflexivity. }
      rewrite X in E. clear X. inv_bind E h2 E2. fold (err chroma h2) in E.
      pose proof (best_step _ _ _ _ _ _ B1 E2) as B2.
      set (b2 := if flt (err chroma h2) (err chroma b1) then h2 else b1) in *.
      assert (X : (if flt (err chroma h2) (err chroma b1) then (h2, err chroma h2) else (b1, err chroma b1)) = (b2, err chroma b2)).
      { unfold b2. destruct (flt (err chroma h2) (err chroma b1)); reflexivity. }
      rewrite X in E. clear X. apply (IH (S k) b2 r); [lia|lia| |exact E].
      revert B2. apply best_ext. cbv beta. intros t. lia.
Qed.
Lemma key_color hue chroma r : create_key_color hue chroma = Ok r ->
  (exists t, 1 <= t <= 99 /\ hct_from hue chroma (of_Z t) = Ok r) /\
  (feq (fround chroma) (fround (h_chroma r)) = true \/
   forall t, 1 <= t <= 99 -> exists h, hct_from hue chroma (of_Z t) = Ok h /\
     flt (fabs (fsub (h_chroma h) chroma)) (fabs (fsub (h_chroma r) chroma)) = false).
Proof.
  unfold create_key_color. intros E. inv_bind E h E0. fold (err chroma h) in E.
  assert (Q : dec "50.0" = of_Z 50) by (apply B2SF_inj; vm_compute; reflexivity). rewrite Q in E0.
  apply (key_loop hue chroma 49 1) in E; [|reflexivity|lia|].
  - destruct E as (S & S1 & ((t & St & T) & A) & O). split.
    + exists t. split; [specialize (S1 t St); lia|exact T].
    + destruct O as [O|O]; [now left|right]. intros u U. apply A. apply O. lia.
  - split.
    + exists 50. split; [lia|exact E0].
    + intros t Ht. exists h. replace t with 50 by lia. split; [exact E0|apply flt_irrefl].
Qed.

Lemma zero_chroma_hue h h' t : hct_from h (dec "0.0") t = hct_from h' (dec "0.0") t.
Proof.
  assert (D : (flt (dec "0.0") (dec "0.0001") || flt t (dec "0.0001") || flt (dec "99.9999") t)%bool = true).
  { assert (Q : flt (dec "0.0") (dec "0.0001") = true) by (vm_compute; reflexivity). now rewrite Q. }
  now rewrite (from_degenerate h _ _ D), (from_degenerate h' _ _ D).
Qed.
Lemma key_loop_hue h h' ds : forall b s, key_color_loop h (dec "0.0") ds b s = key_color_loop h' (dec "0.0") ds b s.
Proof.
  induction ds as [|d ds IH]; intros b s; cbn [key_color_loop]; [reflexivity|].
  destruct (feq _ _); [reflexivity|].
  rewrite (zero_chroma_hue h h' (fadd (dec "50.0") (of_Z d))), (zero_chroma_hue h h' (fsub (dec "50.0") (of_Z d))).
  destruct (hct_from h' (dec "0.0") (fadd _ _)) as [x|]; cbn [bind]; [|reflexivity].
  destruct (if flt _ _ then _ else _) as (b1 & s1).
  destruct (hct_from h' (dec "0.0") (fsub _ _)) as [y|]; cbn [bind]; [|reflexivity].
  destruct (if flt _ _ then _ else _) as (b2 & s2). apply IH.
Qed.
Lemma key_hue h h' : create_key_color h (dec "0.0") = create_key_color h' (dec "0.0").
Proof.
  unfold create_key_color. rewrite (zero_chroma_hue h h' (dec "50.0")).
  destruct (hct_from h' _ _); cbn [bind]; [apply key_loop_hue|reflexivity].
Qed.
Lemma not_transitive' a b l pa :
  tp_of (dec "10.0") (dec "0.0") = Ok a -> tp_get_as_list a = Ok (l, pa) -> tp_from_list l = Ok b ->
  exists c, tp_of (dec "20.0") (dec "0.0") = Ok c /\
  tp_eqb a b = Ok true /\ tp_eqb b c = Ok true /\ tp_eqb a c = Ok false /\
  tp_hash a = Ok (HashHueChroma (dec "10.0") (dec "0.0")) /\ tp_hash b = Ok (HashList l).
Proof.
  intros A L B.
  assert (C : exists c, tp_of (dec "20.0") (dec "0.0") = Ok c).
  { pose proof (of_fresh _ _ _ A) as (_ & _ & _ & K & _). rewrite (key_hue _ (dec "20.0")) in K.
    unfold tp_of. rewrite K, bind_Ok. eexists. reflexivity. }
  destruct C as (c & C). exists c. split; [exact C|]. exact (not_transitive a b c l pa A C L B).
Qed.

(** ** Core palettes *)
Lemma mk_core_inv p s t n nv e c : mk_core p s t n nv e = Ok c ->
  p = Ok (cp_primary c) /\ s = Ok (cp_secondary c) /\ t = Ok (cp_tertiary c) /\ n = Ok (cp_neutral c) /\
  nv = Ok (cp_neutral_variant c) /\ e = Ok (cp_error c).
Proof.
  unfold mk_core. intros E. destruct p; [|discriminate]. destruct s; [|discriminate]. destruct t; [|discriminate].
  destruct n; [|discriminate]. destruct nv; [|discriminate]. destruct e; [|discriminate].
  cbn [bind] in E. apply ok_inj in E. subst c. now repeat split.
Qed.
Lemma cp_roundtrip l c : cp_from_list l = Ok c -> exists c', cp_as_list c = Ok (l, c').
Proof.
  unfold cp_from_list. destruct (Nat.eqb_spec (List.length l) (5 * COMMON_SIZE)) as [L|]; cbn [negb]; [|discriminate].
  intros E. apply mk_core_inv in E. destruct E as (E1 & E2 & E3 & E4 & E5 & _).
  apply (fun e => list_roundtrip _ _ [] _ e eq_refl) in E1, E2, E3, E4, E5.
  destruct E1 as (? & E1), E2 as (? & E2), E3 as (? & E3), E4 as (? & E4), E5 as (? & E5).
  unfold cp_as_list. rewrite E1, bind_Ok, E2, bind_Ok, E3, bind_Ok, E4, bind_Ok, E5, bind_Ok. cbn [fst snd].
  eexists. f_equal. f_equal. unfold get_partition, COMMON_SIZE in *. cbn [Nat.mul Nat.add] in *.
  assert (P : forall n, firstn 13 (skipn n l) ++ skipn (13 + n) l = skipn n l).
  { intros n. rewrite <- skipn_skipn. apply firstn_skipn. }
  transitivity (firstn 13 (skipn 0 l) ++ skipn 13 l); [|exact (P 0%nat)]. f_equal.
  transitivity (firstn 13 (skipn 13 l) ++ skipn 26 l); [|exact (P 13%nat)]. f_equal.
  transitivity (firstn 13 (skipn 26 l) ++ skipn 39 l); [|exact (P 26%nat)]. f_equal.
  transitivity (firstn 13 (skipn 39 l) ++ skipn 52 l); [|exact (P 39%nat)]. f_equal.
  rewrite firstn_all2; [reflexivity|]. rewrite skipn_length. lia.
Qed.
Lemma cp_from_list_panics l : List.length l <> 65%nat -> cp_from_list l = Panic.
Proof.
  intros N. unfold cp_from_list. destruct (Nat.eqb_spec (List.length l) (5 * COMMON_SIZE)) as [L|]; [contradiction|reflexivity].
Qed.
Lemma cp_as_list_length c l c' : cp_as_list c = Ok (l, c') -> List.length l = 65%nat.
Proof.
  unfold cp_as_list. intros E.
  apply bind_ok in E. destruct E as ((? & ?) & E1 & E). apply bind_ok in E. destruct E as ((? & ?) & E2 & E).
  apply bind_ok in E. destruct E as ((? & ?) & E3 & E). apply bind_ok in E. destruct E as ((? & ?) & E4 & E).
  apply bind_ok in E. destruct E as ((? & ?) & E5 & E). apply ok_inj in E. injection E as <- _.
  apply as_list_length in E1, E2, E3, E4, E5. cbn [fst]. rewrite !app_length. lia.
Qed.

(** C40 *)
Definition hue_chroma (p : tonal_palette) (h c : f64) : Prop :=
  tp_hue p = h /\ tp_chroma p = c /\ tp_cache p = [] /\ tp_is_from_cache p = false /\ create_key_color h c = Ok (tp_key_color p).
Lemma of_hc h c p : tp_of h c = Ok p -> tp_hue p = h /\ tp_chroma p = c.
Proof. intros E. apply of_fresh in E. tauto. Qed.
Lemma cp_of_table z c : cp_of z = Ok c -> exists cam, cam16_from_int z = Ok cam /\
  tp_of (c_hue cam) (fmax (dec "48.0") (c_chroma cam)) = Ok (cp_primary c) /\
  tp_of (c_hue cam) (dec "16.0") = Ok (cp_secondary c) /\
  tp_of (fadd (c_hue cam) (dec "60.0")) (dec "24.0") = Ok (cp_tertiary c) /\
  tp_of (c_hue cam) (dec "4.0") = Ok (cp_neutral c) /\
  tp_of (c_hue cam) (dec "8.0") = Ok (cp_neutral_variant c) /\
  tp_of (dec "25.0") (dec "84.0") = Ok (cp_error c).
Proof.
  unfold cp_of. intros E. inv_bind E cam Q. exists cam. split; [exact Q|]. exact (mk_core_inv _ _ _ _ _ _ _ E).
Qed.
Lemma cp_content_table z c : cp_content_of z = Ok c -> exists cam, cam16_from_int z = Ok cam /\
  tp_of (c_hue cam) (c_chroma cam) = Ok (cp_primary c) /\
  tp_of (c_hue cam) (fdiv (c_chroma cam) (dec "3.0")) = Ok (cp_secondary c) /\
  tp_of (fadd (c_hue cam) (dec "60.0")) (fdiv (c_chroma cam) (dec "2.0")) = Ok (cp_tertiary c) /\
  tp_of (c_hue cam) (fmin (fdiv (c_chroma cam) (dec "12.0")) (dec "4.0")) = Ok (cp_neutral c) /\
  tp_of (c_hue cam) (fmin (fdiv (c_chroma cam) (dec "6.0")) (dec "8.0")) = Ok (cp_neutral_variant c) /\
  tp_of (dec "25.0") (dec "84.0") = Ok (cp_error c).
Proof.
  unfold cp_content_of. intros E. inv_bind E cam Q. exists cam. split; [exact Q|]. exact (mk_core_inv _ _ _ _ _ _ _ E).
Qed.

(** ** Legacy schemes *)
Lemma cp_get_stable c p t v c' : cp_get c p t = Ok (v, c') ->
  lookup (cp_sel c p) t = Ok v /\ forall q u, lookup (cp_sel c' q) u = lookup (cp_sel c q) u.
Proof.
  unfold cp_get. intros E. apply bind_ok in E. destruct E as ((v1 & p1) & G & E). cbn [fst snd] in E.
  apply ok_inj in E. injection E as <- <-. apply get_stable in G. destruct G as (S & S' & _).
  split; [exact S'|]. intros q u. destruct p, q; cbn [cp_sel cp_upd cp_primary cp_secondary cp_tertiary cp_neutral cp_neutral_variant cp_error]; trivial; apply S.
Qed.
Definition reads (c : core_palette) (roles : list ((scheme -> Z) * pal * Z)) (s : scheme) : Prop :=
  Forall (fun r => lookup (cp_sel c (snd (fst r))) (snd r) = Ok (fst (fst r) s)) roles.
Ltac step E L c0 :=
  let v := fresh "v" in let c1 := fresh "c" in let G := fresh "G" in
  apply bind_ok in E; destruct E as ((v & c1) & G & E);
  apply cp_get_stable in G;
  let G1 := fresh "G" in destruct G as (G1 & G); try rewrite L in G1;
  let L' := fresh "L" in
  assert (L' : forall q u, lookup (cp_sel c1 q) u = lookup (cp_sel c0 q) u)
    by (intros; rewrite G; apply L); clear G L; rename L' into L.
Lemma light_reads c s : light_from_core_palette c = Ok s -> reads c light_roles s.
Proof.
  unfold light_from_core_palette. intros E.
  assert (L : forall q u, lookup (cp_sel c q) u = lookup (cp_sel c q) u) by reflexivity.
  do 29 step E L c. apply ok_inj in E. subst s. unfold reads, light_roles.
  repeat (constructor; [cbn [fst snd]; assumption|]). constructor.
Qed.
Lemma dark_reads c s : dark_from_core_palette c = Ok s -> reads c dark_roles s.
Proof.
  unfold dark_from_core_palette. intros E.
  assert (L : forall q u, lookup (cp_sel c q) u = lookup (cp_sel c q) u) by reflexivity.
  do 29 step E L c. apply ok_inj in E. subst s. unfold reads, dark_roles.
  repeat (constructor; [cbn [fst snd]; assumption|]). constructor.
Qed.
(** A scheme of freshly built palettes. *)
Definition all_fresh (c : core_palette) : Prop := forall p, fresh (cp_sel c p).
Lemma fresh_reads c roles s : all_fresh c -> reads c roles s -> forall f p t, In (f, p, t) roles ->
  exists h, hct_from (tp_hue (cp_sel c p)) (tp_chroma (cp_sel c p)) (of_Z t) = Ok h /\ hct_to_int h = f s.
Proof.
  intros F R f p t I. unfold reads in R. rewrite Forall_forall in R. specialize (R _ I). cbn [fst snd] in R.
  rewrite (lookup_fresh _ _ (F p)) in R.
  destruct (hct_from _ _ _) as [h|]; [|discriminate]. exists h. split; [reflexivity|]. now apply ok_inj in R.
Qed.
Lemma cp_of_fresh z c : cp_of z = Ok c \/ cp_content_of z = Ok c -> all_fresh c.
Proof.
  intros [E|E]; [apply cp_of_table in E|apply cp_content_table in E];
    destruct E as (cam & _ & E1 & E2 & E3 & E4 & E5 & E6);
    apply of_fresh in E1, E2, E3, E4, E5, E6; intros p; destruct p; cbn [cp_sel]; tauto.
Qed.
Lemma scheme_inv (mk : Z -> res core_palette) (f : core_palette -> res scheme) z s roles :
  (forall c, mk z = Ok c -> all_fresh c) -> (forall c s, f c = Ok s -> reads c roles s) ->
  bind (mk z) f = Ok s ->
  exists c, mk z = Ok c /\ forall g p t, In (g, p, t) roles ->
  exists h, hct_from (tp_hue (cp_sel c p)) (tp_chroma (cp_sel c p)) (of_Z t) = Ok h /\ hct_to_int h = g s.
Proof.
  intros F R E. inv_bind E c Q. exists c. split; [exact Q|]. exact (fresh_reads c roles s (F c Q) (R c s E)).
Qed.
Lemma light_scheme z s : scheme_light z = Ok s -> exists c, cp_of z = Ok c /\ forall g p t, In (g, p, t) light_roles ->
  exists h, hct_from (tp_hue (cp_sel c p)) (tp_chroma (cp_sel c p)) (of_Z t) = Ok h /\ hct_to_int h = g s.
Proof. exact (scheme_inv cp_of _ z s light_roles (fun c e => cp_of_fresh z c (or_introl e)) light_reads). Qed.
Lemma dark_scheme z s : scheme_dark z = Ok s -> exists c, cp_of z = Ok c /\ forall g p t, In (g, p, t) dark_roles ->
  exists h, hct_from (tp_hue (cp_sel c p)) (tp_chroma (cp_sel c p)) (of_Z t) = Ok h /\ hct_to_int h = g s.
Proof. exact (scheme_inv cp_of _ z s dark_roles (fun c e => cp_of_fresh z c (or_introl e)) dark_reads). Qed.
Lemma light_content_scheme z s : scheme_light_content z = Ok s -> exists c, cp_content_of z = Ok c /\ forall g p t, In (g, p, t) light_roles ->
  exists h, hct_from (tp_hue (cp_sel c p)) (tp_chroma (cp_sel c p)) (of_Z t) = Ok h /\ hct_to_int h = g s.
Proof. exact (scheme_inv cp_content_of _ z s light_roles (fun c e => cp_of_fresh z c (or_intror e)) light_reads). Qed.
Lemma dark_content_scheme z s : scheme_dark_content z = Ok s -> exists c, cp_content_of z = Ok c /\ forall g p t, In (g, p, t) dark_roles ->
  exists h, hct_from (tp_hue (cp_sel c p)) (tp_chroma (cp_sel c p)) (of_Z t) = Ok h /\ hct_to_int h = g s.
Proof. exact (scheme_inv cp_content_of _ z s dark_roles (fun c e => cp_of_fresh z c (or_intror e)) dark_reads). Qed.
(** On a palette with any history: what [get] would answer before the call. *)
Lemma palette_reads (c : core_palette) s :
  (light_from_core_palette c = Ok s -> forall g p t, In (g, p, t) light_roles -> rmap fst (tp_get (cp_sel c p) t) = Ok (g s)) /\
  (dark_from_core_palette c = Ok s -> forall g p t, In (g, p, t) dark_roles -> rmap fst (tp_get (cp_sel c p) t) = Ok (g s)).
Proof.
  split; intros E g p t I; change (rmap fst (tp_get (cp_sel c p) t)) with (pget (cp_sel c p) t); rewrite pget_lookup.
  - apply light_reads in E. unfold reads in E. rewrite Forall_forall in E. exact (E _ I).
  - apply dark_reads in E. unfold reads in E. rewrite Forall_forall in E. exact (E _ I).
Qed.

(** ** Forms used in the property file *)
Definition built (p : tonal_palette) : Prop :=
  (exists hue chroma, tp_of hue chroma = Ok p) \/ (exists h, p = tp_from_hct h).
Lemma built_fresh p : built p -> fresh p.
Proof. intros [(h & c & E)|(h & ->)]; [now apply of_fresh in E|apply from_hct_fresh]. Qed.
Lemma get_hct_untouched p t : built p -> tp_get_hct p t = hct_from (tp_hue p) (tp_chroma p) t.
Proof. intros B. apply get_hct_fresh. now apply built_fresh. Qed.
Lemma get_hct_other p ts p' t : built p -> after_gets p ts = Ok p' -> ~ In (to_i64 t) ts ->
  tp_get_hct p' t = hct_from (tp_hue p) (tp_chroma p) t.
Proof. intros B. apply get_hct_unvisited. now apply built_fresh. Qed.

Local Transparent hct_new hct_from_int.
Lemma cam_hct z cam : cam16_from_int z = Ok cam ->
  exists h, hct_from_int z = Ok h /\ h_hue h = c_hue cam /\ h_chroma h = c_chroma cam.
Proof.
  intros E. eexists. split.
  - change (hct_from_int z) with (hct_new z). unfold hct_new. rewrite E, bind_Ok. reflexivity.
  - split; reflexivity.
Qed.
Lemma pos_inj (x y : f64) : is_finite x = true -> is_finite y = true -> (0 < B2R x)%R -> B2R x = B2R y -> x = y.
Proof.
  intros FX FY P Q. apply B2R_inj; [| |exact Q].
  - destruct x; try discriminate; [cbn in P; exfalso; exact (Rlt_irrefl _ P)|reflexivity].
  - rewrite Q in P. destruct y; try discriminate; [cbn in P; exfalso; exact (Rlt_irrefl _ P)|reflexivity].
Qed.
Lemma fmax_cases (k c : f64) : is_finite k = true -> (0 < B2R k)%R ->
  (fle k c = true -> fmax k c = c) /\ (fle k c = false -> fmax k c = k).
Proof.
  intros F P. assert (NK : is_nan k = false) by (destruct k; easy). unfold fmax. rewrite NK.
  destruct (is_nan c) eqn:NC.
  - split; [|reflexivity]. intros E. rewrite (fle_nan_r k c NC) in E. discriminate.
  - destruct (flt k c) eqn:L.
    + split; [reflexivity|]. intros E. apply (flt_val k c NK NC) in L. apply (fle_val_f k c NK NC) in E. lra.
    + split; [|reflexivity]. intros E. apply (flt_val_f k c NK NC) in L. apply (fle_val k c NK NC) in E.
      assert (Q : val k = val c) by lra.
      assert (FC : is_finite c = true).
      { apply (val_fin_iff c NC). rewrite <- Q. now apply (val_fin_iff k NK). }
      rewrite (val_fin k F), (val_fin c FC) in Q. now apply pos_inj.
Qed.
Lemma fmin_cases (x k : f64) : is_nan k = false ->
  (fle x k = true -> fmin x k = x) /\ (fle x k = false -> fmin x k = k).
Proof.
  intros NK. unfold fmin. destruct (is_nan x) eqn:NX.
  - split; [|reflexivity]. intros E. rewrite (fle_nan_l x k NX) in E. discriminate.
  - rewrite NK. destruct (flt k x) eqn:L.
    + split; [|reflexivity]. intros E. apply (flt_val k x NK NX) in L. apply (fle_val x k NX NK) in E. lra.
    + split; [reflexivity|]. intros E. apply (flt_val_f k x NK NX) in L. apply (fle_val_f x k NX NK) in E. lra.
Qed.
Lemma cp_of_spec z c : cp_of z = Ok c -> exists h, hct_from_int z = Ok h /\
  (exists k, tp_of (h_hue h) k = Ok (cp_primary c) /\ (fle (dec "48.0") (h_chroma h) = true -> k = h_chroma h) /\
             (fle (dec "48.0") (h_chroma h) = false -> k = dec "48.0")) /\
  tp_of (h_hue h) (dec "16.0") = Ok (cp_secondary c) /\
  tp_of (fadd (h_hue h) (dec "60.0")) (dec "24.0") = Ok (cp_tertiary c) /\
  tp_of (h_hue h) (dec "4.0") = Ok (cp_neutral c) /\
  tp_of (h_hue h) (dec "8.0") = Ok (cp_neutral_variant c) /\
  tp_of (dec "25.0") (dec "84.0") = Ok (cp_error c).
Proof.
  intros E. apply cp_of_table in E. destruct E as (cam & Q & E1 & E2).
  destruct (cam_hct z cam Q) as (h & H & HH & HC). exists h. split; [exact H|]. rewrite HH, HC.
  split; [|exact E2]. eexists. split; [exact E1|].
  apply fmax_cases.
  - vm_compute. reflexivity.
  - fconst (dec "48.0"). lra.
Qed.
Lemma cp_content_spec z c : cp_content_of z = Ok c -> exists h, hct_from_int z = Ok h /\
  tp_of (h_hue h) (h_chroma h) = Ok (cp_primary c) /\
  tp_of (h_hue h) (fdiv (h_chroma h) (dec "3.0")) = Ok (cp_secondary c) /\
  tp_of (fadd (h_hue h) (dec "60.0")) (fdiv (h_chroma h) (dec "2.0")) = Ok (cp_tertiary c) /\
  (exists k, tp_of (h_hue h) k = Ok (cp_neutral c) /\
    (fle (fdiv (h_chroma h) (dec "12.0")) (dec "4.0") = true -> k = fdiv (h_chroma h) (dec "12.0")) /\
    (fle (fdiv (h_chroma h) (dec "12.0")) (dec "4.0") = false -> k = dec "4.0")) /\
  (exists k, tp_of (h_hue h) k = Ok (cp_neutral_variant c) /\
    (fle (fdiv (h_chroma h) (dec "6.0")) (dec "8.0") = true -> k = fdiv (h_chroma h) (dec "6.0")) /\
    (fle (fdiv (h_chroma h) (dec "6.0")) (dec "8.0") = false -> k = dec "8.0")) /\
  tp_of (dec "25.0") (dec "84.0") = Ok (cp_error c).
Proof.
  intros E. apply cp_content_table in E. destruct E as (cam & Q & E1 & E2 & E3 & E4 & E5 & E6).
  destruct (cam_hct z cam Q) as (h & H & HH & HC). exists h. split; [exact H|]. rewrite HH, HC.
  split; [exact E1|]. split; [exact E2|]. split; [exact E3|]. split; [|split; [|exact E6]].
  - eexists. split; [exact E4|]. apply fmin_cases. vm_compute. reflexivity.
  - eexists. split; [exact E5|]. apply fmin_cases. vm_compute. reflexivity.
Qed.

Lemma list_gets l p ts : tp_from_list l = Ok p -> (forall t, In t ts -> In t common_tones) -> after_gets p ts = Ok p.
Proof.
  intros H C. destruct (from_list_inv l p H) as (L & K & _).
  induction ts as [|t ts IH]; [reflexivity|]. cbn [after_gets].
  destruct (In_nth_error common_tones t (C t (or_introl eq_refl))) as (i & I).
  assert (i < 13)%nat by (apply (proj1 (nth_error_Some common_tones i)); rewrite I; discriminate).
  destruct (nth_error l i) as [c|] eqn:N; [|apply nth_error_None in N; lia].
  unfold tp_get. rewrite K, (cache_lookup l i t c L I N). rewrite bind_Ok. cbn [snd]. apply IH. intros u U. apply C. now right.
Qed.
Lemma cp_from_five l p e : tp_from_list l = Ok p -> default_error = Ok e ->
  exists c, cp_from_list (l ++ l ++ l ++ l ++ l) = Ok c.
Proof.
  intros H E.
  destruct (from_list_inv l p H) as (L & _).
  do 14 (destruct l as [|? l]; try discriminate L). eexists. unfold cp_from_list.
  cbn [app List.length Nat.eqb COMMON_SIZE Nat.mul Nat.add negb get_partition firstn skipn].
  unfold mk_core. rewrite H, !bind_Ok, E, bind_Ok. reflexivity.
Qed.
End AnyLibm.
Lemma checked {A} (e : res A) (b : A -> bool) :
  match e with Ok x => b x | Panic => false end = true -> exists x, e = Ok x /\ b x = true.
Proof. destruct e; [|discriminate]. intros H. eauto. Qed.
