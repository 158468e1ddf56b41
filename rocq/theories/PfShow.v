(** * Texts of colours and palettes.  Proof file. *)
From Coq Require Import ZArith Bool Reals Lra Lia String Ascii List DecimalString DecimalFacts DecimalZ.
From Flocq Require Import Core IEEE754.BinarySingleNaN.
From Verif Require Import Assoc F64 MathUtils ColorUtils Cam16 Hct Palettes Text Spec SpecCam SpecPalette SpecExact SpecTotal SpecText FloatFacts FloatCast PfMath PfTones PfHct PfPalettes PfTotal PfDelin PfCamProps PfToneProps PfToneHct PfExact PfSearchA PfSearch SpecTones.
Import ListNotations.
Open Scope string_scope.
Open Scope list_scope.
Open Scope R_scope.

(** ** Numerals *)
Lemma numeral_inj a b : numeral a = numeral b -> a = b.
Proof.
  unfold numeral. intros E. assert (H : Z.to_int a = Z.to_int b).
  { pose proof (NilZero.isi (Z.to_int a)) as A. pose proof (NilZero.isi (Z.to_int b)) as B. rewrite E in A.
    assert (NA : forall z, Z.to_int z <> Decimal.Pos Decimal.Nil /\ Z.to_int z <> Decimal.Neg Decimal.Nil).
    { intros z. split; intros Q; assert (X : Z.to_int (Z.of_int (Z.to_int z)) = Z.to_int z) by (now rewrite DecimalZ.of_to); rewrite Q in X; discriminate X. }
    destruct (NA a) as [a1 a2]. destruct (NA b) as [b1 b2]. rewrite A in B by assumption. specialize (B b1 b2). now injection B. }
  rewrite <- (DecimalZ.of_to a), <- (DecimalZ.of_to b). now rewrite H.
Qed.

(** [c] does not occur in [s]. *)
Fixpoint free (c : ascii) (s : string) : Prop := match s with "" => True | String d s' => d <> c /\ free c s' end.
Lemma free_app c a b : free c (a ++ b)%string <-> free c a /\ free c b.
Proof. induction a as [|d a IH]; cbn [free append]; [tauto|]. rewrite IH. tauto. Qed.
Definition plain_char (c : ascii) : Prop := ~ In c ["0"; "1"; "2"; "3"; "4"; "5"; "6"; "7"; "8"; "9"; "-"]%char.
Lemma uint_free c u : plain_char c -> free c (NilEmpty.string_of_uint u).
Proof. intros P. unfold plain_char in P. cbn [In] in P. induction u; cbn [NilEmpty.string_of_uint free]; try exact I; (split; [intros Q; apply P; rewrite Q; tauto|assumption]). Qed.
Lemma uint_free' c u : plain_char c -> free c (NilZero.string_of_uint u).
Proof.
  intros P. destruct u; try exact (uint_free c _ P). unfold plain_char in P. cbn [In] in P. cbn. split; [intros Q; apply P; rewrite Q; tauto|exact I].
Qed.
Lemma numeral_free c z : plain_char c -> free c (numeral z).
Proof.
  intros P. unfold numeral. destruct (Z.to_int z) as [u|u]; cbn [NilZero.string_of_int]; [apply uint_free'; exact P|].
  cbn [free]. split; [intros Q; apply P; rewrite <- Q; cbn [In]; tauto|apply uint_free'; exact P].
Qed.
Lemma numeral_start z : exists d s, numeral z = String d s.
Proof.
  unfold numeral. destruct (Z.to_int z) as [u|u]; cbn [NilZero.string_of_int]; [|eexists; eexists; reflexivity].
  destruct u; cbn; eexists; eexists; reflexivity.
Qed.

Lemma split_at c a b x y : free c a -> free c b -> (a ++ String c x = b ++ String c y)%string -> a = b /\ x = y.
Proof.
  revert b. induction a as [|d a IH]; intros [|e b] fa fb E; cbn [append free] in *.
  - injection E as ->. now split.
  - injection E as E _. destruct fb as [fb _]. congruence.
  - injection E as E _. destruct fa as [fa _]. congruence.
  - injection E as -> E. destruct (IH b (proj2 fa) (proj2 fb) E) as [-> ->]. now split.
Qed.
Lemma app_inv_tail a b t : (a ++ t = b ++ t)%string -> a = b.
Proof.
  intros E. assert (L : String.length a = String.length b).
  { assert (H := f_equal String.length E). assert (G : forall x y, String.length (x ++ y) = (String.length x + String.length y)%nat) by (clear; induction x as [|? x IH]; intros y; cbn; [reflexivity|now rewrite IH]).
    rewrite !G in H. lia. }
  revert b E L. induction a as [|d a IH]; intros [|e b] E L; cbn in *; try discriminate L; [reflexivity|]. injection E as -> E. injection L as L. now rewrite (IH b E L).
Qed.

Lemma join_concat l : join ", " l = String.concat ", " l.
Proof. induction l as [|x [|y l] IH]; [reflexivity|reflexivity|]. cbn [join String.concat] in *. now rewrite IH. Qed.
Lemma shown_list l : join ", " (map show_i64 l) = comma_separated l.
Proof. rewrite join_concat. reflexivity. Qed.
Lemma comma_plain : plain_char ","%char. Proof. unfold plain_char. cbn [In]. intuition discriminate. Qed.
Lemma bracket_plain : plain_char "]"%char. Proof. unfold plain_char. cbn [In]. intuition discriminate. Qed.
Lemma newline_plain : plain_char (ascii_of_nat 10). Proof. unfold plain_char. cbn [In]. intuition discriminate. Qed.
Lemma cs_cons a b l : comma_separated (a :: b :: l) = (numeral a ++ String "," (String " " (comma_separated (b :: l))))%string.
Proof. reflexivity. Qed.
Lemma cs_inj : forall l m, List.length l = List.length m -> comma_separated l = comma_separated m -> l = m.
Proof.
  intros l. induction l as [|a [|a' l] IH]; intros [|b [|b' m]] L E; try discriminate L; [reflexivity| |].
  - f_equal. apply numeral_inj. exact E.
  - rewrite !cs_cons in E. destruct (split_at _ _ _ _ _ (numeral_free _ a comma_plain) (numeral_free _ b comma_plain) E) as [E1 E2].
    injection E2 as E2. apply numeral_inj in E1. subst b. f_equal. apply IH; [cbn in *; congruence|exact E2].
Qed.
Lemma cs_free c l : plain_char c -> c <> ","%char -> c <> " "%char -> free c (comma_separated l).
Proof.
  intros P n1 n2. induction l as [|a [|b l] IH]; [exact I|exact (numeral_free c a P)|]. rewrite cs_cons. apply free_app. split; [exact (numeral_free c a P)|].
  cbn [free]. split; [congruence|]. split; [congruence|exact IH].
Qed.

(** ** Colours *)
Lemma round_shows fmt (x : f64) M : shows_integers fmt -> fin x -> 0 <= B2R x <= IZR M -> (0 <= M <= 4000)%Z ->
  exists n, shows (fmt (fround x)) n /\ nearest n x /\ (0 <= n <= M)%Z.
Proof.
  intros SI fx bx bM. destruct (fround_R x fx) as [E F]. exists (ZnearestA (B2R x)).
  assert (B : (0 <= ZnearestA (B2R x) <= M)%Z).
  { split; apply le_IZR.
    - pose proof (Znearest_imp (Zle_bool 0) (B2R x)) as _. destruct (Z.le_gt_cases 0 (ZnearestA (B2R x))) as [l|l]; [apply IZR_le; exact l|].
      pose proof (Znearest_half (Z.leb 0) (B2R x)) as H. apply Rabs_le_inv in H. assert (IZR (ZnearestA (B2R x)) <= -1) by (apply (IZR_le _ (-1)); lia). lra.
    - destruct (Z.le_gt_cases (ZnearestA (B2R x)) M) as [l|l]; [apply IZR_le; exact l|].
      pose proof (Znearest_half (Z.leb 0) (B2R x)) as H. apply Rabs_le_inv in H. assert (IZR M + 1 <= IZR (ZnearestA (B2R x))) by (rewrite <- plus_IZR; apply IZR_le; lia). lra. }
  split; [apply SI; [exact F|exact E|lia]|]. split; [|exact B].
  unfold nearest. pose proof (Znearest_half (Z.leb 0) (B2R x)) as H. rewrite Rabs_minus_sym. lra.
Qed.

Section Acc.
Context {lm : Libm} (LA : libm_accurate (1 / 10 ^ 13) lm) (PM : pow_monotone lm) (P1 : pow_one lm).
Lemma hct_text fmt argb h : shows_integers fmt -> hct_from_int argb = Ok h ->
  exists hs cs ts n m k, hct_to_string fmt h = ("H" ++ hs ++ " C" ++ cs ++ " T" ++ ts)%string /\
    shows hs n /\ nearest n (h_hue h) /\ (0 <= n <= 360)%Z /\
    shows cs m /\ nearest m (h_chroma h) /\ (0 <= m)%Z /\ shows ts k /\ nearest k (h_tone h) /\ (0 <= k <= 100)%Z.
Proof using LA PM P1.
  intros SI. rewrite int_new. intros E. destruct (fields LA _ _ E) as ((f1 & b1) & (f2 & b2) & _). destruct (tone_exact LA PM P1 _ _ E) as [f3 b3].
  destruct (round_shows fmt _ 360 SI f1 ltac:(lra) ltac:(lia)) as (n & N1 & N2 & N3).
  destruct (round_shows fmt _ 4000 SI f2 ltac:(lra) ltac:(lia)) as (m & M1 & M2 & M3).
  destruct (round_shows fmt _ 100 SI f3 ltac:(lra) ltac:(lia)) as (k & K1 & K2 & K3).
  exists (fmt (fround (h_hue h))), (fmt (fround (h_chroma h))), (fmt (fround (h_tone h))), n, m, k. split; [reflexivity|].
  split; [exact N1|]. split; [exact N2|]. split; [exact N3|]. split; [exact M1|]. split; [exact M2|]. split; [lia|]. split; [exact K1|]. split; [exact K2|exact K3].
Qed.
End Acc.

(** ** Palettes *)
Lemma black_hct {lm : Libm} (LA : libm_accurate (1 / 10 ^ 13) lm) b : hct_new 0xFF000000 = Ok b -> fin (h_chroma b) /\ B2R (h_chroma b) = 0 /\ h_tone b = dec "0.0".
Proof.
  intros E. destruct (new_chroma _ b E) as (cam & C & Q). destruct (from_int_vc LA _ cam C) as (vc & EV & VS & C').
  destruct (black_chroma LA vc _ cam VS C') as [f e]; try reflexivity. rewrite Q. split; [exact f|]. split; [exact e|]. rewrite (new_tone _ _ E). exact lstar_of_black.
Qed.
Lemma deduce_cons {lm : Libm} x l h c : deduce_hue_chroma (x :: l) h c =
  bind (hct_from_int x) (fun b => if fgt (h_tone b) (dec "98.0") then deduce_hue_chroma l h c else if fgt (h_chroma b) c then deduce_hue_chroma l (h_hue b) (h_chroma b) else deduce_hue_chroma l h c).
Proof. reflexivity. Qed.

Lemma sapp_assoc a b c : ((a ++ b) ++ c = a ++ b ++ c)%string.
Proof. induction a as [|d a IH]; cbn [append]; [reflexivity|now rewrite IH]. Qed.
Section Any.
Context {lm : Libm} (LA : libm_accurate (1 / 10 ^ 13) lm).
Variable fmt : f64 -> string.

Lemma ramp_length h c l : ramp h c l -> List.length l = 13%nat.
Proof using. intros R. apply Forall2_length in R. rewrite <- R. reflexivity. Qed.
Lemma fresh_text p ts p' : PfPalettes.fresh p -> tp_is_from_cache p = false -> after_gets p ts = Ok p' ->
  exists colors, ramp (tp_hue p) (tp_chroma p) colors /\ tp_to_string fmt p' = Ok ("TonalPalette.fromList([" ++ comma_separated colors ++ "])")%string.
Proof using LA.
  intros F FC E. destruct (gets_stable _ _ _ E) as (S & _ & _ & _ & C). destruct (get_list_ret LA p') as [[cs p2] G].
  exists cs. split.
  - unfold tp_get_as_list in G. apply get_all_inv in G. destruct G as [G _]. unfold ramp. change common_tones with COMMON_TONES. revert G. apply Forall2_impl.
    intros t c L. rewrite S in L. unfold lookup in L. rewrite F in L. cbn [afind] in L.
    destruct (hct_from (tp_hue p) (tp_chroma p) (of_Z t)) as [h|]; cbn [rmap] in L; [|discriminate L]. apply ok_inj in L. exists h. split; [reflexivity|exact L].
  - unfold tp_to_string. rewrite C, FC, G. rewrite bind_Ok. cbn [fst]. rewrite shown_list. reflexivity.
Qed.
Lemma of_text h c p ts p' : tp_of h c = Ok p -> after_gets p ts = Ok p' ->
  exists colors, ramp h c colors /\ tp_to_string fmt p' = Ok ("TonalPalette.fromList([" ++ comma_separated colors ++ "])")%string.
Proof using LA. intros O. destruct (of_fresh h c p O) as (F & <- & <- & _ & C). exact (fresh_text p ts p' F C). Qed.
Lemma hct_palette_text h ts p' : after_gets (tp_from_hct h) ts = Ok p' ->
  exists colors, ramp (h_hue h) (h_chroma h) colors /\ tp_to_string fmt p' = Ok ("TonalPalette.fromList([" ++ comma_separated colors ++ "])")%string.
Proof using LA. exact (fresh_text (tp_from_hct h) ts p' eq_refl eq_refl). Qed.

Lemma frame_inj a b : ("TonalPalette.fromList([" ++ a ++ "])" = "TonalPalette.fromList([" ++ b ++ "])")%string -> a = b.
Proof using. intros E. cbn [append] in E. repeat (injection E as E). exact (app_inv_tail a b _ E). Qed.
Lemma ramp_fun h c l m : ramp h c l -> ramp h c m -> l = m.
Proof using.
  unfold ramp. generalize common_tones. intros ts R. revert m. induction R as [|t x ts l (g & G & X) R IH]; intros m Q; inversion Q as [|t' y ts' m' (g' & G' & Y) Q']; subst; [reflexivity|].
  rewrite G in G'. apply ok_inj in G'. subst g'. f_equal. exact (IH _ Q').
Qed.
(** Equal texts mean equal colours. *)
Lemma of_texts h c p h' c' p' s s' l l' : tp_of h c = Ok p -> tp_of h' c' = Ok p' -> tp_to_string fmt p = Ok s -> tp_to_string fmt p' = Ok s' ->
  ramp h c l -> ramp h' c' l' -> (s = s' <-> l = l').
Proof using LA.
  intros O O' T T' R R'. destruct (of_text h c p [] p O eq_refl) as (x & Rx & X). destruct (of_text h' c' p' [] p' O' eq_refl) as (y & Ry & Y).
  rewrite (ramp_fun _ _ _ _ R Rx), (ramp_fun _ _ _ _ R' Ry). rewrite X in T. rewrite Y in T'. apply ok_inj in T, T'. subst s s'. split.
  - intros E. apply frame_inj in E. apply cs_inj; [|exact E]. now rewrite (ramp_length _ _ _ Rx), (ramp_length _ _ _ Ry).
  - now intros ->.
Qed.

Lemma list_text l p : tp_from_list l = Ok p -> forall ts p', after_gets p ts = Ok p' ->
  tp_to_string fmt p' = Ok ("TonalPalette.of(" ++ fmt (tp_hue p) ++ ", " ++ fmt (tp_chroma p) ++ ")")%string.
Proof using.
  intros O ts p' E. destruct (from_list_inv l p O) as (_ & _ & C & _). destruct (gets_stable _ _ _ E) as (_ & e1 & e2 & _ & e3).
  unfold tp_to_string. rewrite e3, C, e1, e2. reflexivity.
Qed.

(** Black never contributes to the deduced hue and chroma. *)
Lemma skip_black l h c : fin c -> 0 <= B2R c -> deduce_hue_chroma (0xFF000000 :: l)%Z h c = deduce_hue_chroma l h c.
Proof using LA.
  intros fc bc. cbn [deduce_hue_chroma]. rewrite int_new. destruct (new_ret LA 0xFF000000) as [b Eb]. rewrite Eb, bind_Ok.
  destruct (black_hct LA b Eb) as (f & e & t). fconst (dec "98.0").
  assert (Q : fgt (h_tone b) (dec "98.0") = false). { rewrite t. reflexivity. }
  assert (R : fgt (h_chroma b) c = false). { destruct (fgt (h_chroma b) c) eqn:G; [|reflexivity]. exfalso. unfold fgt in G. apply (flt_fin _ _ fc f) in G. lra. }
  rewrite Q, R. reflexivity.
Qed.
Lemma swap_black x l : deduce_hue_chroma (x :: 0xFF000000 :: l)%Z (dec "0.0") (dec "0.0") = deduce_hue_chroma (0xFF000000 :: x :: l)%Z (dec "0.0") (dec "0.0").
Proof using LA.
  fconst (dec "0.0"). rewrite (skip_black (x :: l) _ _ F ltac:(lra)).
  rewrite (deduce_cons x (0xFF000000 :: l)%Z), (deduce_cons x l). rewrite int_new. destruct (new_ret LA x) as [b Eb]. rewrite Eb, !bind_Ok.
  destruct (fields LA _ _ Eb) as (_ & (fc & bc) & _).
  destruct (fgt (h_tone b) (dec "98.0")); [apply skip_black; [exact F|lra]|]. destruct (fgt (h_chroma b) (dec "0.0")); apply skip_black; try assumption; lra.
Qed.
Lemma lists_alike : exists l l' p p', l <> l' /\ tp_from_list l = Ok p /\ tp_from_list l' = Ok p' /\ tp_to_string fmt p = tp_to_string fmt p'.
Proof using LA.
  set (r := repeat 0xFF4285F4%Z 11).
  exists (0xFF4285F4 :: 0xFF000000 :: r)%Z, (0xFF000000 :: 0xFF4285F4 :: r)%Z.
  destruct (tp_list_ret LA (0xFF4285F4 :: 0xFF000000 :: r)%Z eq_refl) as [p E]. destruct (tp_list_ret LA (0xFF000000 :: 0xFF4285F4 :: r)%Z eq_refl) as [p' E'].
  exists p, p'. split; [intros Q; discriminate Q|]. split; [exact E|]. split; [exact E'|].
  rewrite (list_text _ _ E [] p eq_refl), (list_text _ _ E' [] p' eq_refl).
  destruct (from_list_inv _ _ E) as (_ & _ & _ & D & _). destruct (from_list_inv _ _ E') as (_ & _ & _ & D' & _).
  rewrite (swap_black 0xFF4285F4 r) in D. rewrite D in D'. apply ok_inj in D'. injection D' as -> ->. reflexivity.
Qed.

(** ** Core palettes *)
Definition listed (l : list Z) : string := ("TonalPalette.fromList([" ++ comma_separated l ++ "])")%string.
Lemma made h c p : tp_of h c = Ok p -> exists l p', List.length l = 13%nat /\ tp_get_as_list p = Ok (l, p') /\ tp_to_string fmt p = Ok (listed l).
Proof using LA.
  intros O. destruct (of_fresh h c p O) as (_ & _ & _ & _ & C). destruct (of_text h c p [] p O eq_refl) as (l & R & T). pose proof (ramp_length _ _ _ R) as L.
  destruct (get_list_ret LA p) as [[m p'] G]. unfold tp_to_string in T. rewrite C, G, bind_Ok in T. cbn [fst] in T. rewrite shown_list in T. apply ok_inj in T. apply frame_inj in T.
  assert (LM : List.length m = 13%nat). { unfold tp_get_as_list in G. apply get_all_inv in G. destruct G as [G _]. apply Forall2_length in G. rewrite <- G. reflexivity. }
  apply cs_inj in T; [|congruence]. subst m. exists l, p'. split; [exact L|]. split; [exact G|].
  unfold tp_to_string. rewrite C, G, bind_Ok. cbn [fst]. rewrite shown_list. reflexivity.
Qed.
Definition all_made (c : core_palette) : Prop :=
  Forall (fun p => exists h k, tp_of h k = Ok p) [cp_primary c; cp_secondary c; cp_tertiary c; cp_neutral c; cp_neutral_variant c] /\ default_error = Ok (cp_error c).
Lemma mk_core_inv p s t n nv c : mk_core p s t n nv default_error = Ok c ->
  p = Ok (cp_primary c) /\ s = Ok (cp_secondary c) /\ t = Ok (cp_tertiary c) /\ n = Ok (cp_neutral c) /\ nv = Ok (cp_neutral_variant c) /\ default_error = Ok (cp_error c).
Proof using.
  unfold mk_core. destruct p as [p|]; [|intros Q; discriminate Q]. destruct s as [s|]; [|intros Q; discriminate Q]. destruct t as [t|]; [|intros Q; discriminate Q].
  destruct n as [n|]; [|intros Q; discriminate Q]. destruct nv as [nv|]; [|intros Q; discriminate Q]. destruct default_error as [e|]; [|intros Q; discriminate Q].
  cbn [bind]. intros E. apply ok_inj in E. subst c. cbn. repeat split.
Qed.
Lemma of_made z c : cp_of z = Ok c -> all_made c.
Proof using.
  unfold cp_of. destruct (cam16_from_int z) as [cam|]; [|intros Q; discriminate Q]. rewrite bind_Ok. unfold cp_make. intros E. apply mk_core_inv in E. destruct E as (e1 & e2 & e3 & e4 & e5 & e6).
  split; [|exact e6]. repeat (apply Forall_cons; [eexists; eexists; eassumption|]). apply Forall_nil.
Qed.
Lemma content_made z c : cp_content_of z = Ok c -> all_made c.
Proof using.
  unfold cp_content_of. destruct (cam16_from_int z) as [cam|]; [|intros Q; discriminate Q]. rewrite bind_Ok. unfold cp_make_content. intros E. apply mk_core_inv in E. destruct E as (e1 & e2 & e3 & e4 & e5 & e6).
  split; [|exact e6]. repeat (apply Forall_cons; [eexists; eexists; eassumption|]). apply Forall_nil.
Qed.
Lemma listed_free l : free (ascii_of_nat 10) (listed l).
Proof using.
  unfold listed. apply free_app. split; [vm_compute; intuition discriminate|]. apply free_app. split; [|vm_compute; intuition discriminate].
  apply cs_free; [exact newline_plain|vm_compute; discriminate|vm_compute; discriminate].
Qed.
Definition core_text (a b c d e f : list Z) : string :=
  let gap := (newline ++ newline ++ "            ")%string in
  ("primary: " ++ listed a ++ gap ++ "secondary: " ++ listed b ++ gap ++ "tertiary: " ++ listed c ++ gap ++
   "neutral: " ++ listed d ++ gap ++ "neutralVariant: " ++ listed e ++ gap ++ "error: " ++ listed f ++ newline)%string.
Lemma error_made p : default_error = Ok p -> exists l p', List.length l = 13%nat /\ tp_get_as_list p = Ok (l, p') /\ tp_to_string fmt p = Ok (listed l).
Proof using LA. unfold default_error. exact (made _ _ p). Qed.
Local Opaque default_error listed append newline tp_get_as_list tp_to_string.
Lemma core_shape c : all_made c -> exists l1 l2 l3 l4 l5 l6 c', List.length l1 = 13%nat /\ List.length l2 = 13%nat /\ List.length l3 = 13%nat /\ List.length l4 = 13%nat /\ List.length l5 = 13%nat /\
  cp_as_list c = Ok (l1 ++ l2 ++ l3 ++ l4 ++ l5, c') /\ cp_to_string fmt c = Ok (core_text l1 l2 l3 l4 l5 l6) /\
  exists e e', default_error = Ok e /\ tp_get_as_list e = Ok (l6, e').
Proof using LA.
  intros (M & ER). inversion M as [|? ? (h1 & k1 & e1) M1]; subst. inversion M1 as [|? ? (h2 & k2 & e2) M2]; subst. inversion M2 as [|? ? (h3 & k3 & e3) M3]; subst.
  inversion M3 as [|? ? (h4 & k4 & e4) M4]; subst. inversion M4 as [|? ? (h5 & k5 & e5) _]; subst.
  destruct (made _ _ _ e1) as (l1 & p1 & L1 & G1 & T1). destruct (made _ _ _ e2) as (l2 & p2 & L2 & G2 & T2). destruct (made _ _ _ e3) as (l3 & p3 & L3 & G3 & T3).
  destruct (made _ _ _ e4) as (l4 & p4 & L4 & G4 & T4). destruct (made _ _ _ e5) as (l5 & p5 & L5 & G5 & T5). destruct (error_made _ ER) as (l6 & p6 & L6 & G6 & T6).
  eexists l1, l2, l3, l4, l5, l6, _. split; [exact L1|]. split; [exact L2|]. split; [exact L3|]. split; [exact L4|]. split; [exact L5|]. split; [|split].
  - unfold cp_as_list. rewrite G1, G2, G3, G4, G5, !bind_Ok. cbn [fst]. reflexivity.
  - unfold cp_to_string, core_text. cbv zeta. rewrite T1, T2, T3, T4, T5, T6, !bind_Ok. reflexivity.
  - exists (cp_error c), p6. split; [exact ER|exact G6].
Qed.
Local Transparent default_error listed append newline tp_get_as_list tp_to_string.
Lemma listed_inj a b : List.length a = List.length b -> listed a = listed b -> a = b.
Proof using. intros L E. apply frame_inj in E. exact (cs_inj a b L E). Qed.
Lemma line_inj a b x y : List.length a = List.length b -> (listed a ++ newline ++ x = listed b ++ newline ++ y)%string -> a = b /\ x = y.
Proof using.
  intros L E. assert (Q : forall z, (newline ++ z)%string = String (ascii_of_nat 10) z) by reflexivity. rewrite !Q in E.
  destruct (split_at _ _ _ _ _ (listed_free a) (listed_free b) E) as [A ->]. split; [exact (listed_inj a b L A)|reflexivity].
Qed.
Lemma pre_inj p x y : (p ++ x = p ++ y)%string -> x = y.
Proof using. induction p as [|c p IH]; cbn [append]; [easy|]. intros E. injection E as E. exact (IH E). Qed.
Lemma app_len {A} (a b x y : list A) : List.length a = List.length b -> a ++ x = b ++ y -> a = b /\ x = y.
Proof using. revert b. induction a as [|c a IH]; intros [|d b] L E; try discriminate L; [now split|]. injection E as -> E. injection L as L. destruct (IH b L E) as [-> ->]. now split. Qed.
Lemma core_texts c c' s s' l l' k k' : all_made c -> all_made c' -> cp_to_string fmt c = Ok s -> cp_to_string fmt c' = Ok s' ->
  cp_as_list c = Ok (l, k) -> cp_as_list c' = Ok (l', k') -> (s = s' <-> l = l').
Proof using LA.
  intros M M' T T' A A'. destruct (core_shape c M) as (l1 & l2 & l3 & l4 & l5 & l6 & x & L1 & L2 & L3 & L4 & L5 & B & S & (e & e' & D & G)).
  destruct (core_shape c' M') as (m1 & m2 & m3 & m4 & m5 & m6 & x' & N1 & N2 & N3 & N4 & N5 & B' & S' & (f & f' & D' & G')).
  rewrite D in D'. apply ok_inj in D'. subst f. rewrite G in G'. apply ok_inj in G'. injection G' as E6 _. subst m6. clear D G.
  rewrite T in S. rewrite T' in S'. rewrite A in B. rewrite A' in B'. apply ok_inj in S, S', B, B'. injection B as -> _. injection B' as -> _. subst s s'. clear T T' A A' M M'.
  split.
  - unfold core_text. intros E. cbv zeta in E. rewrite !sapp_assoc in E. apply pre_inj in E.
    apply line_inj in E; [|congruence]. destruct E as [-> E]. apply pre_inj in E. apply pre_inj in E. apply pre_inj in E.
    apply line_inj in E; [|congruence]. destruct E as [-> E]. apply pre_inj in E. apply pre_inj in E. apply pre_inj in E.
    apply line_inj in E; [|congruence]. destruct E as [-> E]. apply pre_inj in E. apply pre_inj in E. apply pre_inj in E.
    apply line_inj in E; [|congruence]. destruct E as [-> E]. apply pre_inj in E. apply pre_inj in E. apply pre_inj in E.
    apply line_inj in E; [|congruence]. destruct E as [-> E]. reflexivity.
  - intros E. apply app_len in E; [|congruence]. destruct E as [-> E]. apply app_len in E; [|congruence]. destruct E as [-> E]. apply app_len in E; [|congruence]. destruct E as [-> E].
    apply app_len in E; [|congruence]. destruct E as [-> ->]. reflexivity.
Qed.
Lemma core_of_texts a b c c' s s' l l' k k' : cp_of a = Ok c -> cp_of b = Ok c' -> cp_to_string fmt c = Ok s -> cp_to_string fmt c' = Ok s' ->
  cp_as_list c = Ok (l, k) -> cp_as_list c' = Ok (l', k') -> (s = s' <-> l = l').
Proof using LA. intros E E'. exact (core_texts c c' s s' l l' k k' (of_made a c E) (of_made b c' E')). Qed.
Lemma core_text_ret a c : cp_of a = Ok c -> returns (cp_to_string fmt c).
Proof using LA. intros E. destruct (core_shape c (of_made a c E)) as (l1 & l2 & l3 & l4 & l5 & l6 & x & _ & _ & _ & _ & _ & _ & S & _). exists (core_text l1 l2 l3 l4 l5 l6). exact S. Qed.
End Any.
