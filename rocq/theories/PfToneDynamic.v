(** * Tones around the colour wheel and in dynamic schemes.  Proof file. *)
From Coq Require Import ZArith Bool Reals Lra Lia Psatz String List.
From Flocq Require Import Core Relative IEEE754.BinarySingleNaN.
From Verif Require Import Assoc F64 MathUtils ColorUtils Contrast ViewingConditions Cam16 HctSolver Hct Palettes Temperature DynamicScheme DynamicColor MaterialDynamicColors Schemes
  Spec SpecCam SpecTone SpecHct SpecPalette SpecTotal SpecScheme SpecTones SpecToneRoles SpecTemperature FloatFacts FloatMono PfMath PfTones PfLab PfHct PfScore PfPalettes PfContrast PfTemperature PfScheme PfRoles PfFixed PfText PfToneRange PfToneHct PfToneContrast PfToneScheme PfTotal RefLibm.
From Verif Require Import SpecTones.
Import ListNotations.
Open Scope string_scope.
Open Scope R_scope.

Section Any.
Context {lm : Libm}.
Lemma loop_in by_hue temps a b ct range target : forall ks se ans r, complement_loop ks by_hue temps a b ct range target se ans = Ok r -> r = ans \/ In r by_hue.
Proof using.
  induction ks as [|k ks IH]; intros se ans r E; cbn [complement_loop] in E; cbv zeta in E.
  - apply ok_inj in E. left. symmetry. exact E.
  - destruct (negb _); [exact (IH _ _ _ E)|]. apply bind_ok in E. destruct E as (x & Ex & E). apply bind_ok in E. destruct E as (t & _ & E).
    destruct (flt _ se); [|exact (IH _ _ _ E)]. destruct (IH _ _ _ E) as [->|I]; right; [exact (index_in _ _ _ Ex)|exact I].
Qed.
Lemma complement_wheel h a c : get_complement (tc_new h) = Ok (a, c) -> exists k, (0 <= k < 360)%Z /\ on_wheel h k a.
Proof using.
  intros E. destruct (wheel (zrange 360) (h_chroma h) (h_tone h)) as [W|] eqn:HW.
  - rewrite (new_fresh h W) in E. rewrite (complement_mk h W HW) in E by (auto; lia). apply bind_ok in E. destruct E as (x & Ex & E). apply ok_inj in E.
    assert (e : x = a) by congruence. subst x. unfold complement in Ex. apply bind_ok in Ex. destruct Ex as (y & Ey & Ex). apply loop_in in Ex.
    assert (I : In a W) by (destruct Ex as [->|I]; [exact (index_in _ _ _ Ey)|exact I]).
    apply In_nth_error in I. destruct I as (i & N). assert (L : (i < List.length W)%nat) by (apply nth_error_Some; congruence). rewrite (W_length h W HW) in L.
    destruct (W_index h W HW (Z.of_nat i)) as (z & Z1 & Q); [lia|]. apply index_inv in Z1. destruct Z1 as (_ & Z1). rewrite Nat2Z.id, N in Z1. injection Z1 as <-.
    exists (Z.of_nat i). split; [lia|exact Q].
  - pose proof (no_wheel h Complement HW) as NW. cbn [perform] in NW. rewrite E in NW. discriminate NW.
Qed.
Lemma analogous_wheel z h count divisions l c x : hct_from_int z = Ok h -> count_fits count -> analogous (tc_new h) count divisions = Ok (l, c) -> In x l ->
  x = h \/ exists k, (0 <= k < 360)%Z /\ on_wheel h k x.
Proof using.
  intros E CF EA I. destruct (analogous_result z h count divisions l c E CF EA) as (offs & colors & _ & F2 & LC & LL & MID & OTH).
  apply In_nth_error in I. destruct I as (i & N). assert (L : (i < List.length l)%nat) by (apply nth_error_Some; congruence).
  destruct (Z.eq_dec (Z.of_nat i) (middle (unwrap_or count 5%Z))) as [e|n].
  - left. rewrite <- e, Nat2Z.id, N in MID. congruence.
  - right. specialize (OTH (Z.of_nat i) ltac:(lia) n). rewrite Nat2Z.id, N in OTH. symmetry in OTH. apply nth_error_In in OTH.
    clear - OTH F2. induction F2 as [|o y os ys A F IH]; [destruct OTH|]. destruct OTH as [<-|I]; [|exact (IH I)].
    exists ((to_i64 (fround (h_hue h)) + o) mod 360)%Z. split; [apply Z.mod_pos_bound; lia|exact A].
Qed.
End Any.

Section Acc.
Context {lm : Libm} (LA : libm_accurate (1 / 10 ^ 13) lm) (PS : pow_special lm) (PM : pow_monotone lm).

Lemma wheel_tone z h k x : hct_from_int z = Ok h -> (0 <= k < 360)%Z -> on_wheel h k x -> SpecTone.within (1 + 1 / 10 ^ 6) (h_tone x) (B2R (h_tone h)).
Proof using LA PS PM.
  intros E bk O. rewrite int_new in E. destruct (fields LA _ _ E) as (_ & (fc & bc) & ft & bt). unfold on_wheel in O. destruct (of_Z_R k ltac:(lia)) as [_ fk].
  destruct (from_within LA PS PM (of_Z k) (h_chroma h) (h_tone h) fk fc ltac:(lra) ft) as (x' & E' & W). rewrite O in E'. apply ok_inj in E'. subst x'. exact (within_keep _ _ bt W).
Qed.
Lemma complement_tone z h a c : hct_from_int z = Ok h -> get_complement (tc_new h) = Ok (a, c) -> SpecTone.within (1 + 1 / 10 ^ 6) (h_tone a) (B2R (h_tone h)).
Proof using LA PS PM. intros E EC. destruct (complement_wheel h a c EC) as (k & bk & O). exact (wheel_tone z h k a E bk O). Qed.
Lemma analogous_tone z h count divisions l c x : hct_from_int z = Ok h -> count_fits count -> analogous (tc_new h) count divisions = Ok (l, c) -> In x l ->
  SpecTone.within (1 + 1 / 10 ^ 6) (h_tone x) (B2R (h_tone h)).
Proof using LA PS PM.
  intros E CF EA I. destruct (analogous_wheel z h count divisions l c x E CF EA I) as [->|(k & bk & O)]; [|exact (wheel_tone z h k x E bk O)].
  rewrite int_new in E. destruct (fields LA _ _ E) as (_ & _ & ft & _). split; [exact ft|]. rewrite Rminus_eq_0, Rabs_R0. lra.
Qed.

Definition sound (p : tonal_palette) : Prop := PfPalettes.fresh p /\ modest p.
Lemma sound_of h k p : tp_of h k = Ok p -> fin h -> fin k -> B2R k <= 10 ^ 9 -> sound p.
Proof using. intros E fh fk bk. split; [exact (proj1 (of_fresh h k p E))|exact (of_modest h k p E fh fk bk)]. Qed.
Lemma from_is_new a b c h : hct_from a b c = Ok h -> exists z, hct_new z = Ok h.
Proof using. unfold hct_from. destruct (solve_to_int a b c) as [z|]; cbn [bind]; intros E; [|discriminate E]. exists z. exact E. Qed.
Lemma sound_hct z h : hct_new z = Ok h -> sound (tp_from_hct h).
Proof using LA.
  intros E. destruct (fields LA _ _ E) as ((fh & _) & (fc & bc) & _). split; [apply from_hct_fresh|]. unfold modest, tp_from_hct. cbn [tp_hue tp_chroma].
  split; [exact fh|split; [exact fc|lra]].
Qed.
Lemma sound_fixed z a f : hct_new z = Ok a -> fix_if_disliked a = Ok f -> sound (tp_from_hct f).
Proof using LA.
  intros E Q. unfold fix_if_disliked in Q. destruct (is_disliked a).
  - destruct (from_is_new _ _ _ _ Q) as (z' & E'). exact (sound_hct z' f E').
  - apply ok_inj in Q. subst f. exact (sound_hct z a E).
Qed.

Lemma turn_fin (h : f64) (d : Z) : fin h -> 0 <= B2R h < 360 -> (-1000 <= d <= 1000)%Z -> fin (fadd h (of_Z d)).
Proof using.
  intros fh bh bd. destruct (of_Z_R d ltac:(lia)) as [V F]. assert (-1000 <= IZR d <= 1000) by (split; apply IZR_le; lia). apply fadd_S; [exact fh|exact F|rewrite V; fsmall].
Qed.
Lemma sane_fin (h : f64) (d : Z) : fin h -> 0 <= B2R h < 360 -> (-1000 <= d <= 1000)%Z -> fin (sanitize_degrees_double (fadd h (of_Z d))).
Proof using. intros fh bh bd. destruct (sanitize_double _ (turn_fin h d fh bh bd)) as (k & F & _). exact F. Qed.
Lemma loop_fin (h : f64) : fin h -> 0 <= B2R h < 360 -> forall rots hues, Forall (fun d => (-1000 <= d <= 1000)%Z) rots -> fin (rotated_hue_loop h hues (map of_Z rots)).
Proof using.
  intros fh bh. induction rots as [|d rots IH]; intros hues B.
  - destruct hues as [|a [|b l]]; cbn [map rotated_hue_loop]; exact fh.
  - destruct hues as [|a [|b l]]; cbn [map rotated_hue_loop]; [exact fh|exact fh|]. inversion B as [|x y b1 b2]. subst. destruct (_ && _)%bool; [exact (sane_fin h d fh bh b1)|exact (IH (b :: l) b2)].
Qed.
Lemma banded_fin src hues rots hue : fin (h_hue src) -> 0 <= B2R (h_hue src) < 360 -> Forall (fun d => (-1000 <= d <= 1000)%Z) rots -> banded src hues rots = Ok hue -> fin hue.
Proof using.
  intros fh bh B. unfold banded, get_rotated_hue. destruct (negb _); [discriminate|]. destruct rots as [|d [|e l]].
  - cbn [map]. intros E. apply ok_inj in E. subst hue. exact (loop_fin _ fh bh [] _ B).
  - cbn [map]. intros E. apply ok_inj in E. subst hue. inversion B as [|x y b1 b2]. exact (sane_fin _ d fh bh b1).
  - intros E. change (Ok (rotated_hue_loop (h_hue src) (map of_Z hues) (map of_Z (d :: e :: l))) = Ok hue) in E. apply ok_inj in E. subst hue. exact (loop_fin _ fh bh _ _ B).
Qed.
Definition plain (e : res f64 * Z) : Prop := (forall hue, fst e = Ok hue -> fin hue) /\ (0 <= snd e <= 200)%Z.
Lemma documented_plain v src : fin (h_hue src) -> 0 <= B2R (h_hue src) < 360 -> Forall plain (documented v src).
Proof using.
  intros fh bh.
  assert (S : forall c, (0 <= c <= 200)%Z -> plain (same_hue src, c)) by (intros c bc; split; [intros hue E; apply ok_inj in E; subst hue; exact fh|exact bc]).
  assert (T : forall d c, (-1000 <= d <= 1000)%Z -> (0 <= c <= 200)%Z -> plain (turned src d, c)) by (intros d c bd bc; split; [intros hue E; apply ok_inj in E; subst hue; exact (sane_fin _ d fh bh bd)|exact bc]).
  assert (P : forall d c, (-1000 <= d <= 1000)%Z -> (0 <= c <= 200)%Z -> plain (Ok (fadd (h_hue src) (of_Z d)), c)) by (intros d c bd bc; split; [intros hue E; apply ok_inj in E; subst hue; exact (turn_fin _ d fh bh bd)|exact bc]).
  assert (B : forall hues rots c, Forall (fun d => (-1000 <= d <= 1000)%Z) rots -> (0 <= c <= 200)%Z -> plain (banded src hues rots, c)) by (intros hues rots c br bc; split; [intros hue; exact (banded_fin src hues rots hue fh bh br)|exact bc]).
  destruct v; unfold documented; cbv zeta; repeat (apply Forall_cons; [first [apply S; lia|apply T; lia|apply P; lia|apply B; [repeat constructor; lia|lia]]|]); apply Forall_nil.
Qed.
Lemma five_sound es ps : Forall2 matches es ps -> Forall plain es -> Forall sound ps.
Proof using.
  intros M. induction M as [|e p es ps (hue & Q & E) M IH]; intros F; [apply Forall_nil|]. inversion F as [|x y (F1 & F2) F3]. subst. apply Forall_cons; [|exact (IH F3)].
  destruct (of_Z_R (snd e) ltac:(lia)) as [V f]. apply (sound_of _ _ _ E (F1 hue Q) f). rewrite V. apply Rle_trans with 200; [apply IZR_le; lia|lra].
Qed.

Lemma source_sound src prim sec neu nvar : fin (h_hue src) -> fin (h_chroma src) -> 0 <= B2R (h_chroma src) <= 4000 ->
  tp_of (h_hue src) (h_chroma src) = Ok prim ->
  tp_of (h_hue src) (fmax (fsub (h_chroma src) (dec "32.0")) (fmul (h_chroma src) (dec "0.5"))) = Ok sec ->
  tp_of (h_hue src) (fdiv (h_chroma src) (dec "8.0")) = Ok neu ->
  tp_of (h_hue src) (fadd (fdiv (h_chroma src) (dec "8.0")) (dec "4.0")) = Ok nvar -> sound prim /\ sound sec /\ sound neu /\ sound nvar.
Proof using.
  intros fh fc bc. set (c := h_chroma src) in *. set (hu := h_hue src) in *. clearbody c hu. intros P S N NV.
  fconst (dec "32.0"). fconst (dec "0.5"). fconst (dec "8.0"). fconst (dec "4.0").
  destruct (fsub_S c (dec "32.0") fc F ltac:(rewrite V; fsmall)) as [E1 f1]. destruct (fmul_S c (dec "0.5") fc F0 ltac:(rewrite V0; fsmall)) as [E2 f2].
  destruct (part_fin c "8.0" 8 fc bc F1 V1 ltac:(lra)) as [f8 b8]. destruct (fadd_S (fdiv c (dec "8.0")) (dec "4.0") f8 F2 ltac:(rewrite V2; fsmall)) as [E4 f4].
  destruct (fmax_R _ _ f1 f2) as [fm em].
  assert (B1 : B2R (fsub c (dec "32.0")) <= 4000) by (rewrite E1; apply (rnd_le_IZR _ 4000); [lia|rewrite V; lra]).
  assert (B2 : B2R (fmul c (dec "0.5")) <= 4000) by (rewrite E2; apply (rnd_le_IZR _ 4000); [lia|rewrite V0; lra]).
  assert (B4 : B2R (fadd (fdiv c (dec "8.0")) (dec "4.0")) <= 5000) by (rewrite E4; apply (rnd_le_IZR _ 5000); [lia|rewrite V2; lra]).
  assert (BM : B2R (fmax (fsub c (dec "32.0")) (fmul c (dec "0.5"))) <= 10 ^ 9) by (rewrite em; apply Rmax_lub; lra).
  split; [apply (sound_of _ _ _ P fh fc); lra|]. split; [exact (sound_of _ _ _ S fh fm BM)|]. split; [apply (sound_of _ _ _ N fh f8); lra|apply (sound_of _ _ _ NV fh f4); lra].
Qed.

Lemma kinds (v : variant) : v <> Content /\ v <> Fidelity \/ v = Content \/ v = Fidelity.
Proof using. clear. destruct v; first [left; split; intros E; discriminate E|idtac]; (right; (left; reflexivity) || (right; reflexivity)). Qed.
Definition six (s : dynamic_scheme) : list tonal_palette := five s ++ [ds_error_palette s].
Lemma constructed v z src dark lvl s : hct_from_int z = Ok src -> construct v src dark lvl = Ok s -> Forall sound (six s).
Proof using LA.
  intros E C. pose proof E as E0. rewrite int_new in E. destruct (fields LA _ _ E) as ((fh & bh) & (fc & bc) & _).
  destruct (construct_fields v src dark lvl s C) as (_ & _ & _ & _ & _ & ER).
  assert (SE : sound (ds_error_palette s)).
  { destruct (of_Z_R 25 ltac:(lia)) as [_ f1]. destruct (of_Z_R 84 ltac:(lia)) as [V2 f2]. apply (sound_of _ _ _ ER f1 f2). rewrite V2. lra. }
  pose proof (kinds v) as K.
  unfold six. apply Forall_app. split; [|apply Forall_cons; [exact SE|apply Forall_nil]].
  destruct K as [(n1 & n2)|[->| ->]].
  - exact (five_sound _ _ (documented_ok v src dark lvl s C n1 n2) (documented_plain v src fh bh)).
  - cbn [construct] in C. destruct (content_ok src dark lvl s C) as (P & S & (l & c & a & f & A & N & Q & T) & NE & NV).
    destruct (source_sound src _ _ _ _ fh fc bc P S NE NV) as (s1 & s2 & s4 & s5).
    assert (s3 : sound (ds_tertiary_palette s)).
    { rewrite T. apply nth_error_In in N. assert (CF : count_fits (Some 3%Z)) by (unfold count_fits; cbn [unwrap_or]; lia).
      destruct (analogous_wheel z src _ _ l c a E0 CF A N) as [->|(k & _ & O)]; [exact (sound_fixed z src f E Q)|].
      unfold on_wheel in O. destruct (from_is_new _ _ _ _ O) as (z' & E'). exact (sound_fixed z' a f E' Q). }
    unfold five. repeat (apply Forall_cons; [assumption|]). apply Forall_nil.
  - cbn [construct] in C. destruct (fidelity_ok src dark lvl s C) as (P & S & (a & c & f & A & Q & T) & NE & NV).
    destruct (source_sound src _ _ _ _ fh fc bc P S NE NV) as (s1 & s2 & s4 & s5).
    assert (s3 : sound (ds_tertiary_palette s)).
    { rewrite T. destruct (complement_wheel src a c A) as (k & _ & O). unfold on_wheel in O. destruct (from_is_new _ _ _ _ O) as (z' & E'). exact (sound_fixed z' a f E' Q). }
    unfold five. repeat (apply Forall_cons; [assumption|]). apply Forall_nil.
Qed.

Local Opaque of_Z dec.
Lemma error_palettes role : In role all_roles -> In (dc_name role) error_names -> forall s, dc_palette role s = ds_error_palette s.
Proof using.
  intros I. unfold all_roles in I.
  repeat (destruct I as [<-|I]; [intros N s; first [reflexivity | exfalso; cbn in N; repeat (destruct N as [N|N]; [discriminate N|]); exact N]|]). destruct I.
Qed.
Lemma role_sound role s : In role all_roles -> Forall sound (six s) -> sound (dc_palette role s).
Proof using.
  intros I F. rewrite Forall_forall in F. destruct (in_dec string_dec (dc_name role) error_names) as [N|N].
  - rewrite (error_palettes role I N). apply F. unfold six, five. cbn [app In]. tauto.
  - destruct (role_palettes role I N) as (sel & J & W). rewrite W. apply F. unfold six, five.
    destruct J as [<-|[<-|[<-|[<-|[<-|[]]]]]]; cbn [app In]; tauto.
Qed.
Local Transparent of_Z dec.

Lemma role_delivered v z src dark lvl s role t : hct_from_int z = Ok src -> construct v src dark lvl = Ok s -> In role all_roles -> get_tone role s = Ok t -> fin t ->
  exists h, ds_get_hct s role = Ok h /\ SpecTone.within 1 (h_tone h) (clamp_tone t).
Proof using LA PS PM.
  intros E C I T ft. destruct (role_sound role s I (constructed v z src dark lvl s E C)) as (Fr & f1 & f2 & f3).
  destruct (from_within LA PS PM _ _ t f1 f2 f3 ft) as (h & Eh & W). exists h. split; [|exact W].
  unfold ds_get_hct, dc_get_hct. cbn [cache_find bind]. rewrite T. cbn [bind]. rewrite (get_hct_fresh _ t Fr), Eh. cbn [bind fst]. reflexivity.
Qed.

Context (PD : pow_defined lm).
Lemma named_color v z src dark lvl s name t : hct_from_int z = Ok src -> construct v src dark lvl = Ok s -> tone_of s name = Ok t -> fin t ->
  exists h, color_of s name = Ok h /\ SpecTone.within 1 (h_tone h) (clamp_tone t).
Proof using LA PS PM.
  intros E C T ft. unfold tone_of in T. unfold color_of. destruct (find _ all_roles) as [role|] eqn:Q; [|discriminate T].
  apply find_some in Q. destruct Q as [I _]. exact (role_delivered v z src dark lvl s role t E C I T ft).
Qed.
Lemma named_tone s name : fixed_tones s \/ source_tones s -> ~ In name key_color_roles -> forall t, tone_of s name = Ok t -> fin t.
Proof using PD.
  intros FT K t T. unfold tone_of in T. destruct (find _ all_roles) as [role|] eqn:Q; [|discriminate T]. apply find_some in Q. destruct Q as [I N].
  apply String.eqb_eq in N. subst name. destruct (all_resolve s PD FT role I K) as (u & E & f & _). rewrite E in T. apply ok_inj in T. subst u. exact f.
Qed.
Definition plain_name (n : string) : bool := negb (existsb (String.eqb n) key_color_roles).
Lemma plain_ok n : plain_name n = true -> ~ In n key_color_roles.
Proof using.
  intros P I. unfold plain_name in P. apply negb_true_iff in P. assert (T : existsb (String.eqb n) key_color_roles = true).
  { apply existsb_exists. exists n. split; [exact I|apply String.eqb_refl]. }
  rewrite T in P. discriminate P.
Qed.
Lemma fore_plain dark role bg cv : In (role, bg, cv) (foregrounds dark) -> plain_name role = true /\ plain_name bg = true.
Proof using.
  intros I. assert (A : forallb (fun p => plain_name (fst (fst p)) && plain_name (snd (fst p)))%bool (foregrounds dark) = true) by (destruct dark; vm_compute; reflexivity).
  rewrite forallb_forall in A. specialize (A _ I). cbn [fst snd] in A. apply andb_true_iff in A. exact A.
Qed.
Lemma fixed_plain role dim fixed cv : In (role, (dim, fixed), cv) fixed_foregrounds -> plain_name role = true /\ plain_name dim = true /\ plain_name fixed = true.
Proof using.
  intros I. assert (A : forallb (fun p => plain_name (fst (fst p)) && (plain_name (fst (snd (fst p))) && plain_name (snd (snd (fst p)))))%bool fixed_foregrounds = true) by (vm_compute; reflexivity).
  rewrite forallb_forall in A. specialize (A _ I). cbn [fst snd] in A. apply andb_true_iff in A. destruct A as [A1 A2]. apply andb_true_iff in A2. split; [exact A1|exact A2].
Qed.
Lemma pa5 : pow_accurate (1 / 10 ^ 5) lm.
Proof using LA. apply accurate_weaken with (1 / 10 ^ 13); [lra|exact (la_pow _ _ LA)]. Qed.

Lemma scaled (k q p : R) : 0.92 * q <= p -> k <= q -> 0.92 * k <= p.
Proof using. intros. lra. Qed.
Lemma fle_R (r : f64) x y : fin r -> fin x -> fin y -> fle r (ratio_of_tones x y) = true -> B2R r <= B2R (ratio_of_tones x y).
Proof using. intros fr fx fy h. destruct (ratio_bounds x y (fin_not_nan _ fx) (fin_not_nan _ fy)) as (f & _). exact (proj1 (fle_fin _ _ fr f) h). Qed.
Lemma shade (r : f64) x y s t : SpecTone.within 1 x (clamp_tone s) -> SpecTone.within 1 y (clamp_tone t) -> fin s -> fin t -> fin r ->
  (fle r (ratio_of_tones s t) = true -> 0.92 * B2R r <= B2R (ratio_of_tones x y)) /\
  (forall k, k <= B2R (ratio_of_tones s t) -> 0.92 * k <= B2R (ratio_of_tones x y)).
Proof using.
  intros wx wy fs ft fr. pose proof (kept x y s t wx wy fs ft) as K. split.
  - intros h. exact (scaled _ _ _ K (fle_R r s t fr fs ft h)).
  - intros k h. exact (scaled _ _ _ K h).
Qed.
Lemma fore_curve dark role bg cv : In (role, bg, cv) (foregrounds dark) -> curve_in 1 21 cv.
Proof using.
  intros I. unfold foregrounds in I. cbv zeta in I.
  rewrite <- !curve_new in I.
  repeat (destruct I as [I|I]; [apply pair_equal_spec in I; destruct I as [_ <-]; curve_lit|]). destruct I.
Qed.
Lemma fixed_curve role p cv : In (role, p, cv) fixed_foregrounds -> curve_in 1 21 cv.
Proof using.
  intros I. unfold fixed_foregrounds in I. cbv zeta in I.
  rewrite <- !curve_new in I.
  repeat (destruct I as [I|I]; [apply pair_equal_spec in I; destruct I as [_ <-]; curve_lit|]). destruct I.
Qed.

Lemma text_actual v z src dark lvl s : hct_from_int z = Ok src -> construct v src dark lvl = Ok s -> fixed_tones s \/ source_tones s ->
  forall role bg cv, In (role, bg, cv) (foregrounds (ds_is_dark s)) ->
  exists t b f g, tone_of s role = Ok t /\ tone_of s bg = Ok b /\ color_of s role = Ok f /\ color_of s bg = Ok g /\
    SpecTone.within 1 (h_tone f) (clamp_tone t) /\ SpecTone.within 1 (h_tone g) (clamp_tone b) /\
    (achievable [b] (cc_get cv lvl) -> 0.92 * B2R (cc_get cv lvl) <= B2R (ratio_of_tones (h_tone f) (h_tone g))) /\
    0.92 * Rmin (B2R (cc_get cv lvl)) 4.47 <= B2R (ratio_of_tones (h_tone f) (h_tone g)).
Proof using LA PS PM PD.
  intros E C FT role bg cv I. destruct (construct_fields v src dark lvl s C) as (_ & _ & _ & _ & EL & _).
  destruct (text_delivers PD pa5 s FT role bg cv I) as (t & b & T1 & T2 & A & FL). rewrite EL in A, FL.
  destruct (fore_plain _ _ _ _ I) as [P1 P2]. destruct (cc_ratio cv lvl (fore_curve _ _ _ _ I)) as [fr _].
  pose proof (named_tone s role FT (plain_ok _ P1) t T1) as f1. pose proof (named_tone s bg FT (plain_ok _ P2) b T2) as f2.
  destruct (named_color v z src dark lvl s role t E C T1 f1) as (f & E1 & W1). destruct (named_color v z src dark lvl s bg b E C T2 f2) as (g & E2 & W2).
  destruct (shade (cc_get cv lvl) _ _ _ _ W1 W2 f1 f2 fr) as [S1 S2].
  exists t, b, f, g. split; [exact T1|]. split; [exact T2|]. split; [exact E1|]. split; [exact E2|]. split; [exact W1|]. split; [exact W2|].
  split; [intros H; exact (S1 (A H))|exact (S2 _ FL)].
Qed.
Lemma fixed_actual v z src dark lvl s : hct_from_int z = Ok src -> construct v src dark lvl = Ok s -> fixed_tones s \/ source_tones s ->
  forall role dim fixed cv, In (role, (dim, fixed), cv) fixed_foregrounds ->
  exists t d x f g h, tone_of s role = Ok t /\ tone_of s dim = Ok d /\ tone_of s fixed = Ok x /\
    color_of s role = Ok f /\ color_of s dim = Ok g /\ color_of s fixed = Ok h /\
    (achievable [d; x] (cc_get cv lvl) -> 0.92 * B2R (cc_get cv lvl) <= B2R (ratio_of_tones (h_tone f) (h_tone g)) /\ 0.92 * B2R (cc_get cv lvl) <= B2R (ratio_of_tones (h_tone f) (h_tone h))) /\
    0.92 * Rmin (B2R (cc_get cv lvl)) 4.47 <= B2R (ratio_of_tones (h_tone f) (h_tone g)) /\
    0.92 * Rmin (B2R (cc_get cv lvl)) 4.47 <= B2R (ratio_of_tones (h_tone f) (h_tone h)).
Proof using LA PS PM PD.
  intros E C FT role dim fixed cv I. destruct (construct_fields v src dark lvl s C) as (_ & _ & _ & _ & EL & _).
  destruct (fixed_text_reaches PD pa5 s role dim fixed cv I) as (t & d & x & T1 & T2 & T3 & A & FL1 & FL2). rewrite EL in A, FL1, FL2.
  destruct (fixed_plain _ _ _ _ I) as (P1 & P2 & P3). destruct (cc_ratio cv lvl (fixed_curve _ _ _ I)) as [fr _].
  pose proof (named_tone s role FT (plain_ok _ P1) t T1) as f1. pose proof (named_tone s dim FT (plain_ok _ P2) d T2) as f2. pose proof (named_tone s fixed FT (plain_ok _ P3) x T3) as f3.
  destruct (named_color v z src dark lvl s role t E C T1 f1) as (f & E1 & W1). destruct (named_color v z src dark lvl s dim d E C T2 f2) as (g & E2 & W2).
  destruct (named_color v z src dark lvl s fixed x E C T3 f3) as (h & E3 & W3).
  destruct (shade (cc_get cv lvl) _ _ _ _ W1 W2 f1 f2 fr) as [S1 S2]. destruct (shade (cc_get cv lvl) _ _ _ _ W1 W3 f1 f3 fr) as [S3 S4].
  exists t, d, x, f, g, h. split; [exact T1|]. split; [exact T2|]. split; [exact T3|]. split; [exact E1|]. split; [exact E2|]. split; [exact E3|].
  split; [intros H; destruct (A H) as [A1 A2]; exact (conj (S1 A1) (S3 A2))|]. exact (conj (S2 _ FL1) (S4 _ FL2)).
Qed.
End Acc.
