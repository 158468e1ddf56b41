(** * Text and icon roles reach the ratio asked of them.  Proof file. *)
From Coq Require Import ZArith Bool Reals Lra Lia Psatz String List.
From Flocq Require Import Core Relative IEEE754.BinarySingleNaN.
From Verif Require Import F64 MathUtils ColorUtils Contrast Hct Palettes DynamicScheme DynamicColor MaterialDynamicColors
  Spec SpecTones FloatFacts FloatMono FloatCast PfArgb PfMath PfColor PfContrast PfHct PfTones PfLab PfReach PfFloor PfRoles PfFixed.
Import ListNotations.
Open Scope string_scope.
Open Scope list_scope.
Open Scope R_scope.
Local Opaque get_tone foreground_tone find_desired_chroma_by_tone tp_get_hct fix_if_disliked cc_get dec.

Section Text.
Context {lm : Libm} (PD : pow_defined lm) (PA : pow_accurate (1 / 10 ^ 5) lm) (s : dynamic_scheme).

Lemma curve_new a b c d : cc_new (dec a) (dec b) (dec c) (dec d) = curve a b c d.
Proof. reflexivity. Qed.

Definition reached (role bg : res f64) (cv : contrast_curve) : Prop :=
  exists t b, role = Ok t /\ bg = Ok b /\
    (achievable [b] (cc_get cv (ds_contrast_level s)) -> fle (cc_get cv (ds_contrast_level s)) (ratio_of_tones t b) = true) /\
    Rmin (B2R (cc_get cv (ds_contrast_level s))) 4.47 <= B2R (ratio_of_tones t b).

Lemma single_reached c p bg cv : resolves s (bg s) -> core_tone s c -> rc_contrast_curve c = Some cv -> curve_in 1 21 cv ->
  reached (get_tone (DC c p false (Some bg) None None) s) (get_tone (bg s) s) cv.
Proof.
  intros (t & Et & Tt) (a & Ea & Ta) E K. unfold reached. rewrite (get_single s c p false bg t a cv Et Ea E).
  eexists. exists t. split; [reflexivity|]. split; [exact Et|].
  destruct (cc_ratio cv (ds_contrast_level s) K) as [F B]. split; [intros h|].
  - apply (single_reaches PA); [exact PD|exact Ta|exact Tt|exact F|lra|exact h].
  - apply (single_floor PD PA); [exact Ta|exact Tt|exact F|lra].
Qed.

Lemma dual_reached c p bg bg2 cv a b : get_tone (bg s) s = Ok b -> get_tone (bg2 s) s = Ok a ->
  apart true b a -> B2R a < 50 \/ 60 <= B2R b ->
  core_tone s c -> rc_contrast_curve c = Some cv -> curve_in 1 21 cv ->
  exists t, get_tone (DC c p false (Some bg) (Some bg2) None) s = Ok t /\
    (achievable [b; a] (cc_get cv (ds_contrast_level s)) ->
     fle (cc_get cv (ds_contrast_level s)) (ratio_of_tones t b) = true /\
     fle (cc_get cv (ds_contrast_level s)) (ratio_of_tones t a) = true) /\
    Rmin (B2R (cc_get cv (ds_contrast_level s))) 4.47 <= B2R (ratio_of_tones t b) /\
    Rmin (B2R (cc_get cv (ds_contrast_level s))) 4.47 <= B2R (ratio_of_tones t a).
Proof.
  intros Eb Ea (Tb & Ta & g) side (i & Ei & Ti) E K.
  rewrite (get_dual s c p false bg bg2 b a i cv Eb Ea Ei E).
  eexists. split; [reflexivity|]. destruct (cc_ratio cv (ds_contrast_level s) K) as [F B]. unfold dirR in g.
  assert (TS : is_tone (single_tone false i b (cc_get cv (ds_contrast_level s)) (flt (ds_contrast_level s) (dec "0.0")))) by (apply single_ok; [exact PD|exact Ti|exact (tone_nn _ Tb)|exact (fin_not_nan _ F)]).
  split; [intros h; apply (dual_reaches PA); try assumption; lra|]. apply (dual_floor PD PA); try assumption; lra.
Qed.

Lemma text_reaches : fixed_tones s \/ source_tones s -> forall role bg cv,
  In (role, bg, cv) (foregrounds (ds_is_dark s)) -> reached (tone_of s role) (tone_of s bg) cv.
Proof.
  intros h. destruct (containers s h) as (A & B & C).
  assert (HS : tone_of s (if ds_is_dark s then "surface_bright" else "surface_dim") = get_tone (highest_surface s) s).
  { unfold highest_surface. destruct (ds_is_dark s); reflexivity. }
  assert (G : forall c p bg name cv role, resolves s (bg s) -> core_tone s c -> rc_contrast_curve c = Some cv -> curve_in 1 21 cv ->
    tone_of s role = get_tone (DC c p false (Some bg) None None) s -> tone_of s name = get_tone (bg s) s ->
    reached (tone_of s role) (tone_of s name) cv).
  { intros c p bg name cv role R1 R2 R3 R4 -> ->. now apply single_reached. }
  intros role bg cv I. unfold foregrounds in I. cbv zeta in I.
  rewrite <- !curve_new in I.
  repeat (destruct I as [I|I]; [apply pair_equal_spec in I; destruct I as [I <-]; apply pair_equal_spec in I; destruct I as [<- <-]|]);
    [..|destruct I].
  - eapply (G on_background_core ds_neutral_palette (fun _ => background)); [exact (r_background s)|core_lit|reflexivity|curve_lit|reflexivity|reflexivity].
  - eapply (G on_surface_core ds_neutral_palette highest_surface); [exact (r_highest s)|core_lit|reflexivity|curve_lit|reflexivity|exact HS].
  - eapply (G on_surface_variant_core ds_neutral_variant_palette highest_surface); [exact (r_highest s)|core_lit|reflexivity|curve_lit|reflexivity|exact HS].
  - eapply (G inverse_on_surface_core ds_neutral_palette (fun _ => inverse_surface)); [exact (r_inverse_surface s)|core_lit|reflexivity|curve_lit|reflexivity|reflexivity].
  - eapply (G inverse_primary_core ds_primary_palette (fun _ => inverse_surface)); [exact (r_inverse_surface s)|core_lit|reflexivity|curve_lit|reflexivity|reflexivity].
  - eapply (G outline_core ds_neutral_variant_palette highest_surface); [exact (r_highest s)|core_lit|reflexivity|curve_lit|reflexivity|exact HS].
  - eapply (G outline_variant_core ds_neutral_variant_palette highest_surface); [exact (r_highest s)|core_lit|reflexivity|curve_lit|reflexivity|exact HS].
  - eapply (G on_primary_core ds_primary_palette (fun _ => primary)); [exact (r_primary s PD A)|core_lit|reflexivity|curve_lit|reflexivity|reflexivity].
  - eapply (G on_primary_container_core ds_primary_palette (fun _ => primary_container)); [exact (r_primary_container s PD A)|exact (c_on_primary_container s PD A)|reflexivity|curve_lit|reflexivity|reflexivity].
  - eapply (G on_secondary_core ds_secondary_palette (fun _ => secondary)); [exact (r_secondary s PD B)|core_lit|reflexivity|curve_lit|reflexivity|reflexivity].
  - eapply (G on_secondary_container_core ds_secondary_palette (fun _ => secondary_container)); [exact (r_secondary_container s PD B)|exact (c_on_secondary_container s PD B)|reflexivity|curve_lit|reflexivity|reflexivity].
  - eapply (G on_tertiary_core ds_tertiary_palette (fun _ => tertiary)); [exact (r_tertiary s PD C)|core_lit|reflexivity|curve_lit|reflexivity|reflexivity].
  - eapply (G on_tertiary_container_core ds_tertiary_palette (fun _ => tertiary_container)); [exact (r_tertiary_container s PD C)|exact (c_on_tertiary_container s PD C)|reflexivity|curve_lit|reflexivity|reflexivity].
  - eapply (G on_error_core ds_error_palette (fun _ => error)); [exact (r_error s PD)|core_lit|reflexivity|curve_lit|reflexivity|reflexivity].
  - eapply (G on_error_container_core ds_error_palette (fun _ => error_container)); [exact (r_error_container s PD)|core_lit|reflexivity|curve_lit|reflexivity|reflexivity].
Qed.

Lemma fixed_text_reaches : forall role dim fixed cv, In (role, (dim, fixed), cv) fixed_foregrounds ->
  exists t d f, tone_of s role = Ok t /\ tone_of s dim = Ok d /\ tone_of s fixed = Ok f /\
    (achievable [d; f] (cc_get cv (ds_contrast_level s)) ->
     fle (cc_get cv (ds_contrast_level s)) (ratio_of_tones t d) = true /\
     fle (cc_get cv (ds_contrast_level s)) (ratio_of_tones t f) = true) /\
    Rmin (B2R (cc_get cv (ds_contrast_level s))) 4.47 <= B2R (ratio_of_tones t d) /\
    Rmin (B2R (cc_get cv (ds_contrast_level s))) 4.47 <= B2R (ratio_of_tones t f).
Proof.
  assert (G : forall c p bg bg2 cv role dim fixed, In (fixed, dim) fixed_pairs -> core_tone s c -> rc_contrast_curve c = Some cv -> curve_in 1 21 cv ->
    tone_of s role = get_tone (DC c p false (Some bg) (Some bg2) None) s -> tone_of s dim = get_tone (bg s) s -> tone_of s fixed = get_tone (bg2 s) s ->
    exists t d f, tone_of s role = Ok t /\ tone_of s dim = Ok d /\ tone_of s fixed = Ok f /\
    (achievable [d; f] (cc_get cv (ds_contrast_level s)) ->
     fle (cc_get cv (ds_contrast_level s)) (ratio_of_tones t d) = true /\
     fle (cc_get cv (ds_contrast_level s)) (ratio_of_tones t f) = true) /\
    Rmin (B2R (cc_get cv (ds_contrast_level s))) 4.47 <= B2R (ratio_of_tones t d) /\
    Rmin (B2R (cc_get cv (ds_contrast_level s))) 4.47 <= B2R (ratio_of_tones t f)).
  { intros c p bg bg2 cv role dim fixed I Ct Ec K -> E1 E2.
    destruct (fixed_side PD PA s fixed dim I) as (a & b & Ea & Eb & W & side).
    rewrite E2 in Ea. rewrite E1 in Eb.
    destruct (dual_reached c p bg bg2 cv a b Eb Ea W side Ct Ec K) as (t & Et & h).
    exists t, b, a. split; [exact Et|]. split; [now rewrite E1|]. split; [now rewrite E2|exact h]. }
  intros role dim fixed cv I. unfold fixed_foregrounds in I. cbv zeta in I. rewrite <- !curve_new in I.
  repeat (destruct I as [I|I]; [apply pair_equal_spec in I; destruct I as [I <-]; apply pair_equal_spec in I; destruct I as [<- I]; apply pair_equal_spec in I; destruct I as [<- <-]|]);
    [..|destruct I].
  - eapply (G on_primary_fixed_core ds_primary_palette (fun _ => primary_fixed_dim) (fun _ => primary_fixed)); [cbn; tauto|core_lit|reflexivity|curve_lit|reflexivity|reflexivity|reflexivity].
  - eapply (G on_primary_fixed_variant_core ds_primary_palette (fun _ => primary_fixed_dim) (fun _ => primary_fixed)); [cbn; tauto|core_lit|reflexivity|curve_lit|reflexivity|reflexivity|reflexivity].
  - eapply (G on_secondary_fixed_core ds_secondary_palette (fun _ => secondary_fixed_dim) (fun _ => secondary_fixed)); [cbn; tauto|core_lit|reflexivity|curve_lit|reflexivity|reflexivity|reflexivity].
  - eapply (G on_secondary_fixed_variant_core ds_secondary_palette (fun _ => secondary_fixed_dim) (fun _ => secondary_fixed)); [cbn; tauto|core_lit|reflexivity|curve_lit|reflexivity|reflexivity|reflexivity].
  - eapply (G on_tertiary_fixed_core ds_tertiary_palette (fun _ => tertiary_fixed_dim) (fun _ => tertiary_fixed)); [cbn; tauto|core_lit|reflexivity|curve_lit|reflexivity|reflexivity|reflexivity].
  - eapply (G on_tertiary_fixed_variant_core ds_tertiary_palette (fun _ => tertiary_fixed_dim) (fun _ => tertiary_fixed)); [cbn; tauto|core_lit|reflexivity|curve_lit|reflexivity|reflexivity|reflexivity].
Qed.
End Text.

(** ** Every background role avoids the 50-60 zone *)
Section Zone.
Context {lm : Libm} (PD : pow_defined lm) (s : dynamic_scheme).
Lemma out_lit x (V : R) : B2R (dec x) = V -> V < 50 \/ 60 <= V -> outside_zone (dec x).
Proof. intros <- h. exact h. Qed.
Lemma out_ite (b : bool) x y : outside_zone x -> outside_zone y -> outside_zone (if b then x else y).
Proof. now destruct b. Qed.
Lemma out_low cv x : curve_in 0 40 cv -> outside_zone (cc_get cv x).
Proof. intros K. destruct (cc_in 0 40 cv x ltac:(lra) ltac:(lra) K) as (_ & _ & B). left. lra. Qed.
Lemma out_high cv x : curve_in 70 100 cv -> outside_zone (cc_get cv x).
Proof. intros K. destruct (cc_in 70 100 cv x ltac:(lra) ltac:(lra) K) as (_ & _ & B). right. lra. Qed.
Ltac out := lazymatch goal with
  | |- outside_zone (if _ then _ else _) => apply out_ite; out
  | |- outside_zone (dec ?x) => let V := fresh in let F := fresh in fconst_as (dec x) V F; apply (out_lit x _ V); lra
  | |- outside_zone (cc_get _ _) => first [apply out_low; curve_lit | apply out_high; curve_lit]
  end.
Ltac plain := lazymatch goal with |- exists t, get_tone ?r _ = _ /\ _ => unfold r; rewrite get_plain;
   lazymatch goal with |- exists t, rc_tone ?c _ = _ /\ _ => let h := headc c in unfold h end; cbn [rc_tone];
   eexists; split; [reflexivity|]; out end.

Lemma backgrounds_outside : fixed_tones s \/ source_tones s -> forall role, In role all_roles ->
  dc_is_background role = true -> exists t, get_tone role s = Ok t /\ (B2R t < 50 \/ 60 <= B2R t).
Proof.
  intros h role I D.
  pose proof (accent_pair s PD h) as AP. pose proof (fixed_pair s PD) as FP.
  assert (A1 : forall x y, In (x, y) accents -> exists t, tone_of s x = Ok t /\ outside_zone t).
  { intros x y i. destruct (AP x y i) as (a & c & E1 & E2 & _ & O1 & O2). exists a. now split. }
  assert (A2 : forall x y, In (x, y) accents -> exists t, tone_of s y = Ok t /\ outside_zone t).
  { intros x y i. destruct (AP x y i) as (a & c & E1 & E2 & _ & O1 & O2). exists c. now split. }
  assert (B1 : forall x y, In (x, y) fixed_pairs -> exists t, tone_of s x = Ok t /\ outside_zone t).
  { intros x y i. destruct (FP x y i) as (a & c & E1 & E2 & _ & O1 & O2). exists a. now split. }
  assert (B2 : forall x y, In (x, y) fixed_pairs -> exists t, tone_of s y = Ok t /\ outside_zone t).
  { intros x y i. destruct (FP x y i) as (a & c & E1 & E2 & _ & O1 & O2). exists c. now split. }
  change (exists t, get_tone role s = Ok t /\ outside_zone t).
  repeat (destruct I as [<-|I]); try discriminate D; clear D;
    [plain|plain|plain|plain|plain|plain|plain|plain|plain|plain|plain
    |exact (A1 "primary" "primary_container" ltac:(cbn; tauto))|exact (A2 "primary" "primary_container" ltac:(cbn; tauto))
    |exact (A1 "secondary" "secondary_container" ltac:(cbn; tauto))|exact (A2 "secondary" "secondary_container" ltac:(cbn; tauto))
    |exact (A1 "tertiary" "tertiary_container" ltac:(cbn; tauto))|exact (A2 "tertiary" "tertiary_container" ltac:(cbn; tauto))
    |exact (A1 "error" "error_container" ltac:(cbn; tauto))|exact (A2 "error" "error_container" ltac:(cbn; tauto))
    |exact (B1 "primary_fixed" "primary_fixed_dim" ltac:(cbn; tauto))|exact (B2 "primary_fixed" "primary_fixed_dim" ltac:(cbn; tauto))
    |exact (B1 "secondary_fixed" "secondary_fixed_dim" ltac:(cbn; tauto))|exact (B2 "secondary_fixed" "secondary_fixed_dim" ltac:(cbn; tauto))
    |exact (B1 "tertiary_fixed" "tertiary_fixed_dim" ltac:(cbn; tauto))|exact (B2 "tertiary_fixed" "tertiary_fixed_dim" ltac:(cbn; tauto))|destruct I].
Qed.
End Zone.

(** ** The statements as the property file gives them *)
Section Statements.
Context {lm : Libm}.
Lemma lighter_delivers : pow_accurate (1 / 10 ^ 5) lm -> forall t r, is_tone t -> is_finite r = true -> 1 <= B2R r <= 21 ->
  lighter t r <> dec "-1.0" -> is_tone (lighter t r) /\ B2R t < B2R (lighter t r) /\ fle r (ratio_of_tones (lighter t r) t) = true.
Proof.
  intros PA t r T f b n. destruct (lighter_ok PA t r T f ltac:(lra) n) as (A & B & C).
  split; [exact A|]. split; [apply C; lra|]. now apply (reaches_fle _ t r A T f).
Qed.
Lemma darker_delivers : pow_accurate (1 / 10 ^ 5) lm -> forall t r, is_tone t -> is_finite r = true -> 1 <= B2R r <= 21 ->
  darker t r <> dec "-1.0" -> is_tone (darker t r) /\ B2R (darker t r) < B2R t /\ fle r (ratio_of_tones (darker t r) t) = true.
Proof.
  intros PA t r T f b n. destruct (darker_ok PA t r T f ltac:(lra) n) as (A & B & C).
  split; [exact A|]. split; [apply C; lra|]. now apply (reaches_fle _ t r A T f).
Qed.
Lemma foreground_delivers : pow_defined lm -> pow_accurate (1 / 10 ^ 5) lm -> forall t r, is_tone t -> is_finite r = true -> 1 <= B2R r <= 21 ->
  is_tone (foreground_tone t r) /\
  (foreground_tone t r = lighter_unsafe t r \/ foreground_tone t r = darker_unsafe t r) /\
  (achievable [t] r -> fle r (ratio_of_tones (foreground_tone t r) t) = true).
Proof.
  intros PD PA t r T f b. split; [apply fg_tone; [exact PD|exact (tone_nn _ T)|exact (fin_not_nan _ f)]|].
  split; [apply fg_candidates|]. intros h. apply (fg_achieves PA); [exact PD|exact T|exact f|lra|exact h].
Qed.
Lemma text_delivers : pow_defined lm -> pow_accurate (1 / 10 ^ 5) lm -> forall s, fixed_tones s \/ source_tones s ->
  forall role bg cv, In (role, bg, cv) (foregrounds (ds_is_dark s)) ->
  exists t b, tone_of s role = Ok t /\ tone_of s bg = Ok b /\
    (achievable [b] (cc_get cv (ds_contrast_level s)) -> fle (cc_get cv (ds_contrast_level s)) (ratio_of_tones t b) = true) /\
    Rmin (B2R (cc_get cv (ds_contrast_level s))) 4.47 <= B2R (ratio_of_tones t b).
Proof. intros PD PA s h. exact (text_reaches PD PA s h). Qed.
Lemma accents_apart : pow_defined lm -> forall s, fixed_tones s \/ source_tones s ->
  forall accent container, In (accent, container) accents ->
  exists a c, tone_of s accent = Ok a /\ tone_of s container = Ok c /\ is_tone a /\ is_tone c /\
    10 - 1 / 10 ^ 12 <= (if ds_is_dark s then B2R a - B2R c else B2R c - B2R a).
Proof.
  intros PD s h x y I. destruct (accent_pair s PD h x y I) as (a & c & Ea & Ec & (Tc & Ta & g) & _).
  exists a, c. split; [exact Ea|]. split; [exact Ec|]. split; [exact Ta|]. split; [exact Tc|].
  unfold dirR in g. destruct (ds_is_dark s); lra.
Qed.
Lemma fixed_apart : pow_defined lm -> forall s fixed dim, In (fixed, dim) fixed_pairs ->
  exists f d, tone_of s fixed = Ok f /\ tone_of s dim = Ok d /\ is_tone f /\ is_tone d /\ 10 - 1 / 10 ^ 12 <= B2R f - B2R d.
Proof.
  intros PD s x y I. destruct (fixed_pair s PD x y I) as (a & c & Ea & Ec & (Tc & Ta & g) & _).
  exists a, c. split; [exact Ea|]. split; [exact Ec|]. split; [exact Ta|]. split; [exact Tc|].
  unfold dirR in g. lra.
Qed.
Lemma fixed_same_side : pow_defined lm -> pow_accurate (1 / 10 ^ 5) lm -> forall s fixed dim, In (fixed, dim) fixed_pairs ->
  exists f d, tone_of s fixed = Ok f /\ tone_of s dim = Ok d /\ ((B2R f < 50 /\ B2R d < 50) \/ (60 <= B2R f /\ 60 <= B2R d)).
Proof.
  intros PD PA s x y I. destruct (fixed_side PD PA s x y I) as (a & c & Ea & Ec & (Tc & Ta & g) & h).
  exists a, c. split; [exact Ea|]. split; [exact Ec|]. unfold dirR in g. destruct h; [left|right]; lra.
Qed.
End Statements.

Lemma tone_of_bounds t : fle (dec "0.0") t = true -> fle t (dec "100.0") = true -> is_tone t.
Proof.
  intros a b. fconst (dec "0.0"). fconst (dec "100.0"). destruct (fle_not_nan _ _ a) as [_ n].
  apply (fle_val _ _ (fin_not_nan _ F) n) in a. apply (fle_val _ _ n (fin_not_nan _ F0)) in b.
  rewrite (val_fin _ F) in a. rewrite (val_fin _ F0) in b. pose proof (B2R_BIG (dec "100.0")). pose proof (B2R_BIG (dec "0.0")).
  assert (G : fin t) by (apply (val_fin_iff _ n); pose proof BIG_pos; lra).
  split; [exact G|]. rewrite (val_fin _ G) in a, b. lra.
Qed.
