(** * What never panics, given an accurate libm.  Proof file. *)
From Coq Require Import ZArith Bool Reals Lra Lia String List.
From Flocq Require Import Core IEEE754.BinarySingleNaN.
From Verif Require Import F64 MathUtils ColorUtils ViewingConditions Cam16 HctSolver Hct Palettes LegacyScheme Score Temperature DynamicScheme DynamicColor MaterialDynamicColors Schemes
  Spec SpecCam SpecHct SpecPalette SpecScheme SpecScore SpecTemperature SpecTones SpecTotal FloatFacts FloatMono PfArgb PfHct PfNoPanic PfCamProps PfHueAll PfHueProps PfScore PfTemperature PfRoles PfScheme.
Import ListNotations.
Open Scope string_scope.

Lemma ret_ok {A} (x : A) : returns (Ok x).
Proof. exists x. reflexivity. Qed.
Lemma ret_bind {A B} (r : res A) (f : A -> res B) : returns r -> (forall x, r = Ok x -> returns (f x)) -> returns (bind r f).
Proof. intros [x E] H. rewrite E. cbn [bind]. apply H. exact E. Qed.
Lemma ret_rmap {A B} (f : A -> B) (r : res A) : returns r -> returns (rmap f r).
Proof. intros [x E]. rewrite E. eexists. reflexivity. Qed.

Section Acc.
Context {lm : Libm} (LA : libm_accurate (1 / 10 ^ 13) lm).

Lemma solve_ret hue chroma tone : returns (solve_to_int hue chroma tone).
Proof using LA. apply (solve_total (1 / 10 ^ 13)); [lra|exact (la_pow _ _ LA)]. Qed.
Lemma cam_ret argb : returns (cam16_from_int argb).
Proof using LA. exact (from_int_total LA argb). Qed.
Lemma new_ret argb : returns (hct_new argb).
Proof using LA. unfold hct_new. apply ret_bind; [exact (cam_ret argb)|]. intros c _. apply ret_ok. Qed.
Lemma from_ret hue chroma tone : returns (hct_from hue chroma tone).
Proof using LA. unfold hct_from. apply ret_bind; [apply solve_ret|]. intros z _. apply new_ret. Qed.

Lemma setter_ret h s : returns (call_setter h s).
Proof using LA.
  destruct s; cbn [call_setter]; unfold set_hue, set_chroma, set_tone;
    (apply ret_bind; [apply solve_ret|]; intros z _; apply ret_bind; [apply cam_ret|]; intros c _; apply ret_ok).
Qed.
Lemma setters_ret l : forall h, returns (call_setters h l).
Proof using LA.
  induction l as [|s l IH]; intros h; cbn [call_setters]; [apply ret_ok|]. apply ret_bind; [apply setter_ret|]. intros h' _. apply IH.
Qed.
Lemma fix_ret h : returns (fix_if_disliked h).
Proof using LA. unfold fix_if_disliked. destruct (is_disliked h); [apply from_ret|apply ret_ok]. Qed.

(** ** Blends *)
Lemma harmonize_ret a b : returns (harmonize a b).
Proof using LA.
  unfold harmonize. apply ret_bind; [apply new_ret|]. intros x _. apply ret_bind; [apply new_ret|]. intros y _. cbv zeta.
  apply ret_bind; [apply from_ret|]. intros h _. apply ret_ok.
Qed.
Lemma ucs_ret a b t : returns (blend_cam16_ucs a b t).
Proof using LA.
  unfold blend_cam16_ucs. apply ret_bind; [apply cam_ret|]. intros x _. apply ret_bind; [apply cam_ret|]. intros y _. cbv zeta.
  destruct PfHct.s_rgb_ok as [vc E]. unfold cam16_from_ucs, cam16_to_int. rewrite E. cbn [bind]. apply ret_ok.
Qed.
Lemma blend_hue_ret a b t : returns (blend_hct_hue a b t).
Proof using LA.
  unfold blend_hct_hue. apply ret_bind; [apply ucs_ret|]. intros x _. apply ret_bind; [apply cam_ret|]. intros y _.
  apply ret_bind; [apply cam_ret|]. intros z _. apply ret_bind; [apply from_ret|]. intros w _. apply ret_ok.
Qed.

(** ** Palettes *)
Lemma key_loop_ret hue chroma ds : forall best d, returns (key_color_loop hue chroma ds best d).
Proof using LA.
  induction ds as [|x ds IH]; intros best d; cbn [key_color_loop]; [apply ret_ok|].
  match goal with |- returns (if ?b then _ else _) => destruct b end; [apply ret_ok|].
  apply ret_bind; [apply from_ret|]. intros h1 _. cbv zeta.
  match goal with |- returns (let '(_, _) := ?p in _) => destruct p as [b1 d1] end.
  apply ret_bind; [apply from_ret|]. intros h2 _.
  match goal with |- returns (let '(_, _) := ?p in _) => destruct p as [b2 d2] end. apply IH.
Qed.
Lemma key_ret hue chroma : returns (create_key_color hue chroma).
Proof using LA. unfold create_key_color. apply ret_bind; [apply from_ret|]. intros s _. apply key_loop_ret. Qed.
Lemma tp_ret hue chroma : returns (tp_of hue chroma).
Proof using LA. unfold tp_of. apply ret_bind; [apply key_ret|]. intros k _. apply ret_ok. Qed.

Lemma deduce_ret l : forall h c, returns (deduce_hue_chroma l h c).
Proof using LA.
  induction l as [|z l IH]; intros h c; cbn [deduce_hue_chroma]; [apply ret_ok|]. apply ret_bind; [apply new_ret|]. intros x _.
  repeat (match goal with |- returns (if ?b then _ else _) => destruct b end); apply IH.
Qed.
Lemma tp_list_ret l : List.length l = 13%nat -> returns (tp_from_list l).
Proof using LA.
  intros E. unfold tp_from_list, COMMON_SIZE. rewrite E. cbn [Nat.eqb negb]. cbv zeta. apply ret_bind; [apply deduce_ret|]. intros [h c] _.
  apply ret_bind; [apply key_ret|]. intros k _. apply ret_ok.
Qed.
Lemma tp_list_iff l : returns (tp_from_list l) <-> List.length l = 13%nat.
Proof using LA.
  split; [|apply tp_list_ret]. intros [p E]. unfold tp_from_list, COMMON_SIZE in E. destruct (Nat.eqb (List.length l) 13) eqn:Q; [now apply Nat.eqb_eq|discriminate E].
Qed.

Lemma get_ret p t : returns (tp_get p t).
Proof using LA.
  unfold tp_get. destruct (Assoc.afind _ _ _); [apply ret_ok|]. apply ret_bind; [apply from_ret|]. intros h _. apply ret_ok.
Qed.
Lemma gets_ret ts : forall p, returns (after_gets p ts).
Proof using LA.
  induction ts as [|t ts IH]; intros p; cbn [after_gets]; [apply ret_ok|]. apply ret_bind; [apply get_ret|]. intros r _. apply IH.
Qed.
Lemma get_all_ret ts : forall p, returns (tp_get_all p ts).
Proof using LA.
  induction ts as [|t ts IH]; intros p; cbn [tp_get_all]; [apply ret_ok|]. apply ret_bind; [apply get_ret|]. intros [c p'] _.
  apply ret_bind; [apply IH|]. intros [cs p''] _. apply ret_ok.
Qed.
Lemma get_list_ret p : returns (tp_get_as_list p).
Proof using LA. apply get_all_ret. Qed.
Lemma get_hct_ret p t : returns (tp_get_hct p t).
Proof using LA. unfold tp_get_hct. destruct (Assoc.afind _ _ _); [apply new_ret|apply from_ret]. Qed.
Lemma tp_eqb_ret p q : returns (tp_eqb p q).
Proof using LA.
  unfold tp_eqb. match goal with |- returns (if ?b then _ else _) => destruct b end; [apply ret_ok|].
  apply ret_bind; [apply get_list_ret|]. intros a _. apply ret_bind; [apply get_list_ret|]. intros b _. apply ret_ok.
Qed.
Lemma tp_hash_ret p : returns (tp_hash p).
Proof using LA.
  unfold tp_hash. match goal with |- returns (if ?b then _ else _) => destruct b end; [apply ret_ok|].
  apply ret_bind; [apply get_list_ret|]. intros a _. apply ret_ok.
Qed.

Lemma mk_core_ret p s t n nv e : returns p -> returns s -> returns t -> returns n -> returns nv -> returns e -> returns (mk_core p s t n nv e).
Proof using.
  intros. unfold mk_core. repeat (apply ret_bind; [assumption|]; intros ? _). apply ret_ok.
Qed.
Lemma cp_ret z : returns (cp_of z).
Proof using LA. unfold cp_of. apply ret_bind; [apply cam_ret|]. intros c _. unfold cp_make, default_error. apply mk_core_ret; apply tp_ret. Qed.
Lemma cp_content_ret z : returns (cp_content_of z).
Proof using LA. unfold cp_content_of. apply ret_bind; [apply cam_ret|]. intros c _. unfold cp_make_content, default_error. apply mk_core_ret; apply tp_ret. Qed.
Lemma partition_length l i : List.length l = 65%nat -> (i < 5)%nat -> List.length (get_partition l i 13) = 13%nat.
Proof using. intros E h. unfold get_partition. rewrite firstn_length, skipn_length, E. lia. Qed.
Lemma cp_list_iff l : returns (cp_from_list l) <-> List.length l = 65%nat.
Proof using LA.
  unfold cp_from_list, COMMON_SIZE. change (5 * 13)%nat with 65%nat. split.
  - intros [p E]. destruct (Nat.eqb (List.length l) 65) eqn:Q; [now apply Nat.eqb_eq|discriminate E].
  - intros E. rewrite E. rewrite Nat.eqb_refl. cbn [negb]. unfold default_error. apply mk_core_ret; try apply tp_ret; apply tp_list_ret; apply partition_length; lia || exact E.
Qed.
Lemma cp_as_list_ret c : returns (cp_as_list c).
Proof using LA. unfold cp_as_list. repeat (apply ret_bind; [apply get_list_ret|]; intros ? _). apply ret_ok. Qed.

Lemma cp_get_ret c p t : returns (cp_get c p t).
Proof using LA. unfold cp_get. apply ret_bind; [apply get_ret|]. intros r _. apply ret_ok. Qed.
Lemma light_ret c : returns (light_from_core_palette c).
Proof using LA. unfold light_from_core_palette. repeat (apply ret_bind; [apply cp_get_ret|]; intros [? ?] _). apply ret_ok. Qed.
Lemma dark_ret c : returns (dark_from_core_palette c).
Proof using LA. unfold dark_from_core_palette. repeat (apply ret_bind; [apply cp_get_ret|]; intros [? ?] _). apply ret_ok. Qed.
Lemma legacy_ret z : returns (scheme_light z) /\ returns (scheme_dark z) /\ returns (scheme_light_content z) /\ returns (scheme_dark_content z).
Proof using LA.
  unfold scheme_light, scheme_dark, scheme_light_content, scheme_dark_content.
  split; [|split; [|split]].
  - apply ret_bind; [exact (cp_ret z)|]. intros c _. exact (light_ret c).
  - apply ret_bind; [exact (cp_ret z)|]. intros c _. exact (dark_ret c).
  - apply ret_bind; [exact (cp_content_ret z)|]. intros c _. exact (light_ret c).
  - apply ret_bind; [exact (cp_content_ret z)|]. intros c _. exact (dark_ret c).
Qed.

(** ** Scores *)
Lemma resolve_all entries : exists pop, resolves entries pop.
Proof using LA.
  induction entries as [|[z n] es [pop IH]]; [exists []; constructor|]. destruct (hct_int_total LA z) as [h E]. exists ((h, n) :: pop).
  constructor; [split; [exact E|reflexivity]|exact IH].
Qed.

(** ** Dynamic schemes *)
Lemma ds_build_ret src v lvl dark p s t n nv : returns p -> returns s -> returns t -> returns n -> returns nv -> returns (ds_build src v lvl dark p s t n nv).
Proof using LA.
  intros. unfold ds_build. repeat (apply ret_bind; [assumption|]; intros ? _). unfold ds_new.
  apply ret_bind; [apply new_ret|]. intros h _. apply ret_bind; [apply tp_ret|]. intros e _. apply ret_ok.
Qed.
Lemma rotated_ret src hues rots : List.length hues = List.length rots -> returns (get_rotated_hue src hues rots).
Proof using.
  intros E. unfold get_rotated_hue. cbv zeta. rewrite E, Nat.eqb_refl. cbn [negb]. destruct rots as [|a [|b r]]; apply ret_ok.
Qed.
Lemma seven_ret v src dark lvl : v <> Content -> v <> Fidelity -> returns (construct v src dark lvl).
Proof using LA.
  intros h1 h2. destruct v; try congruence; cbn [construct];
    unfold scheme_monochrome, scheme_neutral, scheme_tonal_spot, scheme_rainbow, scheme_fruit_salad, scheme_vibrant, scheme_expressive;
    apply ds_build_ret; try apply tp_ret; (apply ret_bind; [apply rotated_ret; reflexivity|]; intros ? _; apply tp_ret).
Qed.
Lemma wheel_always h : has_wheel h.
Proof using LA. intros k _. exact (from_ret (of_Z k) (h_chroma h) (h_tone h)). Qed.

Lemma and_ret b r : returns r -> returns (and_res b r).
Proof using. intros H. unfold and_res. destruct b; [exact H|apply ret_ok]. Qed.
Lemma ds_eqb_ret a b : returns (ds_eqb a b).
Proof using LA.
  unfold ds_eqb. repeat (apply and_ret; try (apply ret_bind; [apply tp_eqb_ret|]; intros ? _)). apply tp_eqb_ret.
Qed.
Lemma tp_same_ret a b : returns (tp_same_hash a b).
Proof using LA. unfold tp_same_hash. do 2 (apply ret_bind; [apply tp_hash_ret|]; intros ? _). apply ret_ok. Qed.
Lemma ds_same_ret a b : returns (ds_same_hash a b).
Proof using LA. unfold ds_same_hash. repeat (apply ret_bind; [apply tp_same_ret|]; intros ? _). apply ret_ok. Qed.
Lemma find_ret cache s : returns (cache_find cache s).
Proof using LA.
  induction cache as [|[k v] c IH]; cbn [cache_find]; [apply ret_ok|]. apply ret_bind; [apply ds_same_ret|]. intros h _.
  apply ret_bind; [destruct h; [apply ds_eqb_ret|apply ret_ok]|]. intros e _. destruct e; [apply ret_ok|exact IH].
Qed.
Lemma dc_ret role cache s : returns (get_tone role s) -> returns (dc_get_hct role cache s).
Proof using LA.
  intros T. unfold dc_get_hct. apply ret_bind; [apply find_ret|]. intros [a|] _; [apply ret_ok|]. apply ret_bind; [exact T|]. intros t _.
  apply ret_bind; [apply get_hct_ret|]. intros h _. apply ret_ok.
Qed.
Lemma answers_ret role ss : (forall s, In s ss -> returns (get_tone role s)) -> forall cache, returns (answers role cache ss).
Proof using LA.
  induction ss as [|s ss IH]; intros H cache; cbn [answers]; [apply ret_ok|]. apply ret_bind; [apply dc_ret, H; now left|]. intros r _.
  apply ret_bind; [apply IH; intros x hx; apply H; now right|]. intros rs _. apply ret_ok.
Qed.

(** ** The two variants that look at temperatures *)
Lemma late_or_not z h : hct_from_int z = Ok h -> flt (h_hue h) (dec "359.5") = true \/ fle (dec "359.5") (h_hue h) = true.
Proof using.
  intros E. destruct (from_int_range z h E) as (A & B). destruct (hue_fin _ A B) as (F & _). destruct (flt (h_hue h) (dec "359.5")) eqn:L; [now left|right].
  fconst (dec "359.5"). apply (flt_fin_f _ _ F F0) in L. apply (fle_fin _ _ F0 F). exact L.
Qed.
Lemma last_some {A} (l : list A) : l <> [] -> exists x, last (map Some l) None = Some x.
Proof using.
  induction l as [|a l IH]; [congruence|]. intros _. destruct l as [|b l]; [exists a; reflexivity|]. destruct IH as [x E]; [discriminate|]. exists x. exact E.
Qed.
Lemma content_ret z h dark lvl : hct_from_int z = Ok h -> (returns (construct Content h dark lvl) <-> flt (h_hue h) (dec "359.5") = true).
Proof using LA.
  intros E. cbn [construct]. unfold scheme_content. destruct (late_or_not z h E) as [L|L].
  - split; [intros _; exact L|]. intros _.
    assert (CF : count_fits (Some 3%Z)) by (unfold count_fits; cbn [unwrap_or]; lia).
    destruct (analogous_returns z h (Some 3%Z) (Some 6%Z) E (wheel_always h) L CF) as (l & c & A).
    destruct (analogous_result z h _ _ l c E CF A) as (_ & _ & _ & _ & _ & LL & _). cbn [unwrap_or] in LL.
    rewrite A. cbn [bind fst]. destruct (last_some l) as [x X]; [intros ->; cbn in LL; lia|]. rewrite X. cbn [ok_or_panic bind].
    apply ds_build_ret; try apply tp_ret. apply ret_rmap. apply fix_ret.
  - split; [|intros L'; exfalso]; [rewrite (analogous_late z h _ _ E L); intros [x X]; discriminate X|].
    destruct (from_int_range z h E) as (A & B). destruct (hue_fin _ A B) as (F & _). rewrite (not_late _ F L') in L. discriminate L.
Qed.
Lemma fidelity_ret h dark lvl : returns (construct Fidelity h dark lvl) <-> returns (get_complement (tc_new h)).
Proof using LA.
  cbn [construct]. unfold scheme_fidelity. split.
  - intros [s E]. unfold ds_build in E. destruct (get_complement (tc_new h)) as [c|]; [apply ret_ok|].
    destruct (tp_of (h_hue h) (h_chroma h)); [|discriminate E]. cbn [bind] in E.
    destruct (tp_of (h_hue h) (fmax _ _)); discriminate E.
  - intros [c C]. apply ds_build_ret; try apply tp_ret. rewrite C. cbn [bind]. apply ret_rmap. apply fix_ret.
Qed.
Lemma score_ret entries desired fallback filter : Forall (fun e => (0 <= snd e)%Z) entries -> (fold_right Z.add 0 (map snd entries) <= i64_max)%Z ->
  returns (score entries desired fallback filter).
Proof using LA.
  intros P S. destruct (resolve_all entries) as [pop R]. apply (score_total entries pop); [exact R|exact P|].
  replace (total pop) with (fold_right Z.add 0%Z (map snd entries)); [exact S|]. clear -R. unfold total.
  induction R as [|e c es cs [_ E] R IH]; [reflexivity|]. cbn [map fold_right]. rewrite IH, E. reflexivity.
Qed.
Lemma role_ret s role : pow_defined lm -> fixed_tones s -> In role all_roles -> returns (get_tone role s).
Proof using.
  intros PD FT I. destruct (in_dec string_dec (rc_name (dc_core role)) key_color_roles) as [K|K].
  - assert (In role [primary_palette_key_color; secondary_palette_key_color; tertiary_palette_key_color; neutral_palette_key_color; neutral_variant_palette_key_color]) as J.
    { cbn [all_roles In] in I. repeat (destruct I as [<-|I]; [first [now (cbn; auto 10) | exfalso; cbn in K; intuition discriminate]|]). destruct I. }
    cbn [In] in J. repeat (destruct J as [<-|J]; [eexists; reflexivity|]). destruct J.
  - destruct (all_resolve s PD (or_introl FT) role I K) as (t & E & _). exists t. exact E.
Qed.

Lemma temp_calls_ret h k : In k [Warmest; Coldest; HctsByTemp; HctsByHue; TempsByHct; InputRelativeTemperature] -> returns (perform (tc_new h) k).
Proof using LA.
  destruct (wheel_exists h (wheel_always h)) as (W & HW). rewrite (new_fresh h W). intros I.
  cbn [In] in I. repeat destruct I as [<-|I]; try destruct I; cbn [perform]; unfold answered; apply ret_rmap.
  - rewrite (warmest_mk h W HW) by lia. apply ret_ok.
  - rewrite (coldest_mk h W HW) by lia. apply ret_ok.
  - rewrite (by_temp_mk h W HW) by lia. apply ret_ok.
  - rewrite (by_hue_mk h W HW) by lia. apply ret_ok.
  - rewrite (temps_mk h W HW) by lia. apply ret_ok.
  - rewrite (irt_mk h W HW) by (auto; lia). apply ret_ok.
Qed.
Lemma temp_at_ret h x : returns (perform (tc_new h) (RelativeTemperature x)) <->
  (h_argb x = h_argb h \/ exists k w, (0 <= k < 360)%Z /\ on_wheel h k w /\ h_argb x = h_argb w).
Proof using LA.
  destruct (wheel_exists h (wheel_always h)) as (W & HW). rewrite (new_fresh h W). cbn [perform]. unfold answered.
  rewrite (relative_mk h W HW) by lia. rewrite T_find.
  assert (Q : existsb (fun e => hct_eqb e x) (all h W) = true <-> (h_argb x = h_argb h \/ exists k w, (0 <= k < 360)%Z /\ on_wheel h k w /\ h_argb x = h_argb w)).
  { rewrite existsb_exists. split.
    - intros (e & I & Q). unfold hct_eqb in Q. apply Z.eqb_eq in Q. apply (in_all h W e HW) in I. destruct I as [->|(k & hk & I)]; [now left|right].
      exists k, e. auto.
    - intros [Q|(k & w & hk & I & Q)].
      + exists h. split; [apply (in_all h W h HW); now left|]. unfold hct_eqb. now apply Z.eqb_eq.
      + exists w. split; [apply (in_all h W w HW); right; exists k; auto|]. unfold hct_eqb. now apply Z.eqb_eq. }
  rewrite <- Q. destruct (existsb _ _); cbn [bind rmap]; (split; [intros H|intros H]); try reflexivity; try apply ret_ok; try discriminate H.
  destruct H as [y H]; discriminate H.
Qed.
End Acc.

Lemma spot_fixed {lm : Libm} h dark lvl s : construct TonalSpot h dark lvl = Ok s -> fixed_tones s.
Proof.
  intros E. destruct (construct_fields TonalSpot h dark lvl s E) as (_ & _ & V & _). split; rewrite V; discriminate.
Qed.
Lemma on_primary_listed {lm : Libm} : In on_primary all_roles.
Proof. cbn [all_roles In]. intuition. Qed.
