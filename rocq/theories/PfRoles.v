(** * Proofs about the tones of the material roles.  Proof file. *)
From Coq Require Import ZArith Bool Reals Lra Lia Psatz String List.
From Flocq Require Import Core Relative IEEE754.BinarySingleNaN.
From Verif Require Import F64 MathUtils ColorUtils Contrast Hct Palettes DynamicScheme DynamicColor MaterialDynamicColors
  Spec SpecTones FloatFacts FloatMono FloatCast PfArgb PfMath PfColor PfContrast PfHct PfTones.
Import ListNotations.
Open Scope string_scope.
Open Scope list_scope.
Open Scope R_scope.
Local Opaque get_tone foreground_tone find_desired_chroma_by_tone tp_get_hct fix_if_disliked cc_get dec.

Lemma ok_tone t : is_tone t -> exists u, Ok t = Ok u /\ is_tone u.
Proof. intros h. exists t. split; [reflexivity|exact h]. Qed.
Lemma if_tone (b : bool) (x y : res f64) : (b = true -> exists u, x = Ok u /\ is_tone u) -> (b = false -> exists u, y = Ok u /\ is_tone u) ->
  exists u, (if b then x else y) = Ok u /\ is_tone u.
Proof. destruct b; auto. Qed.

Ltac tn := lazymatch goal with
  | |- exists u, Ok _ = Ok u /\ _ => apply ok_tone; tn
  | |- exists u, (if _ then _ else _) = Ok u /\ _ => apply if_tone; intros; tn
  | |- is_tone (if _ then _ else _) => apply ite_tone; tn
  | |- is_tone (dec _) => tone_lit
  | |- is_tone (cc_get _ _) => apply cc_tone; curve_lit
  | |- _ => idtac end.
Ltac headc t := lazymatch t with ?f _ => headc f | _ => t end.
Ltac core_lit := unfold core_tone; lazymatch goal with |- exists t, rc_tone ?c _ = _ /\ _ => let h := headc c in unfold h end; cbn [rc_tone]; cbv zeta; tn.

Section Roles.
Context {lm : Libm} (s : dynamic_scheme) (PD : pow_defined lm).
Hypothesis H1 : core_tone s primary_container_core.
Hypothesis H2 : core_tone s secondary_container_core.
Hypothesis H3 : core_tone s tertiary_container_core.

Lemma r_surface_dim : resolves s surface_dim.
Proof. apply plain_ok. core_lit. Qed.
Lemma r_surface_bright : resolves s surface_bright.
Proof. apply plain_ok. core_lit. Qed.
Lemma r_highest : resolves s (highest_surface s).
Proof. unfold highest_surface. destruct (ds_is_dark s); [exact r_surface_bright|exact r_surface_dim]. Qed.
Lemma r_background : resolves s background.
Proof. apply plain_ok. core_lit. Qed.
Lemma r_inverse_surface : resolves s inverse_surface.
Proof. apply plain_ok. core_lit. Qed.

Lemma core_ok_of c cv : core_tone s c -> rc_contrast_curve c = Some cv -> curve_in 1 21 cv -> core_ok s c.
Proof. intros h e k. split; [exact h|]. exists cv. split; assumption. Qed.

Lemma k_primary : core_ok s primary_core.
Proof. eapply core_ok_of; [core_lit|reflexivity|curve_lit]. Qed.
Lemma k_secondary : core_ok s secondary_core.
Proof. eapply core_ok_of; [core_lit|reflexivity|curve_lit]. Qed.
Lemma k_tertiary : core_ok s tertiary_core.
Proof. eapply core_ok_of; [core_lit|reflexivity|curve_lit]. Qed.
Lemma k_error : core_ok s error_core.
Proof. eapply core_ok_of; [core_lit|reflexivity|curve_lit]. Qed.
Lemma k_primary_container : core_ok s primary_container_core.
Proof. eapply core_ok_of; [exact H1|reflexivity|curve_lit]. Qed.
Lemma k_secondary_container : core_ok s secondary_container_core.
Proof. eapply core_ok_of; [exact H2|reflexivity|curve_lit]. Qed.
Lemma k_tertiary_container : core_ok s tertiary_container_core.
Proof. eapply core_ok_of; [exact H3|reflexivity|curve_lit]. Qed.
Lemma k_error_container : core_ok s error_container_core.
Proof. eapply core_ok_of; [core_lit|reflexivity|curve_lit]. Qed.
Lemma k_primary_fixed : core_ok s primary_fixed_core.
Proof. eapply core_ok_of; [core_lit|reflexivity|curve_lit]. Qed.
Lemma k_primary_fixed_dim : core_ok s primary_fixed_dim_core.
Proof. eapply core_ok_of; [core_lit|reflexivity|curve_lit]. Qed.
Lemma k_secondary_fixed : core_ok s secondary_fixed_core.
Proof. eapply core_ok_of; [core_lit|reflexivity|curve_lit]. Qed.
Lemma k_secondary_fixed_dim : core_ok s secondary_fixed_dim_core.
Proof. eapply core_ok_of; [core_lit|reflexivity|curve_lit]. Qed.
Lemma k_tertiary_fixed : core_ok s tertiary_fixed_core.
Proof. eapply core_ok_of; [core_lit|reflexivity|curve_lit]. Qed.
Lemma k_tertiary_fixed_dim : core_ok s tertiary_fixed_dim_core.
Proof. eapply core_ok_of; [core_lit|reflexivity|curve_lit]. Qed.

Lemma r_primary : resolves s primary.
Proof. apply pair_role; [exact PD|exact r_highest|exact k_primary_container|exact k_primary|reflexivity]. Qed.
Lemma r_primary_container : resolves s primary_container.
Proof. apply pair_role; [exact PD|exact r_highest|exact k_primary_container|exact k_primary|reflexivity]. Qed.
Lemma r_secondary : resolves s secondary.
Proof. apply pair_role; [exact PD|exact r_highest|exact k_secondary_container|exact k_secondary|reflexivity]. Qed.
Lemma r_secondary_container : resolves s secondary_container.
Proof. apply pair_role; [exact PD|exact r_highest|exact k_secondary_container|exact k_secondary|reflexivity]. Qed.
Lemma r_tertiary : resolves s tertiary.
Proof. apply pair_role; [exact PD|exact r_highest|exact k_tertiary_container|exact k_tertiary|reflexivity]. Qed.
Lemma r_tertiary_container : resolves s tertiary_container.
Proof. apply pair_role; [exact PD|exact r_highest|exact k_tertiary_container|exact k_tertiary|reflexivity]. Qed.
Lemma r_error : resolves s error.
Proof. apply pair_role; [exact PD|exact r_highest|exact k_error_container|exact k_error|reflexivity]. Qed.
Lemma r_error_container : resolves s error_container.
Proof. apply pair_role; [exact PD|exact r_highest|exact k_error_container|exact k_error|reflexivity]. Qed.
Lemma r_primary_fixed : resolves s primary_fixed.
Proof. apply pair_role; [exact PD|exact r_highest|exact k_primary_fixed|exact k_primary_fixed_dim|reflexivity]. Qed.
Lemma r_primary_fixed_dim : resolves s primary_fixed_dim.
Proof. apply pair_role; [exact PD|exact r_highest|exact k_primary_fixed|exact k_primary_fixed_dim|reflexivity]. Qed.
Lemma r_secondary_fixed : resolves s secondary_fixed.
Proof. apply pair_role; [exact PD|exact r_highest|exact k_secondary_fixed|exact k_secondary_fixed_dim|reflexivity]. Qed.
Lemma r_secondary_fixed_dim : resolves s secondary_fixed_dim.
Proof. apply pair_role; [exact PD|exact r_highest|exact k_secondary_fixed|exact k_secondary_fixed_dim|reflexivity]. Qed.
Lemma r_tertiary_fixed : resolves s tertiary_fixed.
Proof. apply pair_role; [exact PD|exact r_highest|exact k_tertiary_fixed|exact k_tertiary_fixed_dim|reflexivity]. Qed.
Lemma r_tertiary_fixed_dim : resolves s tertiary_fixed_dim.
Proof. apply pair_role; [exact PD|exact r_highest|exact k_tertiary_fixed|exact k_tertiary_fixed_dim|reflexivity]. Qed.

Lemma fg_of role : resolves s role -> exists u, bind (get_tone role s) (fun t => Ok (foreground_tone t (dec "4.5"))) = Ok u /\ is_tone u.
Proof.
  intros (t & E & T). rewrite E, bind_Ok. apply ok_tone. fconst (dec "4.5").
  apply fg_tone; [exact PD|exact (tone_nn _ T)|exact (fin_not_nan _ F)].
Qed.

Lemma c_on_primary_container : core_tone s on_primary_container_core.
Proof. core_lit. exact (fg_of _ r_primary_container). Qed.
Lemma c_on_secondary_container : core_tone s on_secondary_container_core.
Proof. core_lit. exact (fg_of _ r_secondary_container). Qed.
Lemma c_on_tertiary_container : core_tone s on_tertiary_container_core.
Proof. core_lit. exact (fg_of _ r_tertiary_container). Qed.

Ltac dual a b := (eapply (dual_role _ PD); [exact a|exact b|core_lit|reflexivity|curve_lit]).
Ltac single a := (eapply (single_role _ PD); [exact a|core_lit|reflexivity|curve_lit]).

Lemma roles_resolve role : In role all_roles -> ~ In (rc_name (dc_core role)) key_color_roles -> resolves s role.
Proof.
  intros I K.
  repeat (destruct I as [<-|I]);
    try (exfalso; apply K; vm_compute; tauto);
    [ exact r_background | single r_background
    | apply plain_ok; core_lit | exact r_surface_dim | exact r_surface_bright
    | apply plain_ok; core_lit | apply plain_ok; core_lit | apply plain_ok; core_lit | apply plain_ok; core_lit | apply plain_ok; core_lit
    | single r_highest | apply plain_ok; core_lit | single r_highest
    | exact r_inverse_surface | single r_inverse_surface | single r_highest | single r_highest
    | apply plain_ok; core_lit | apply plain_ok; core_lit | apply plain_ok; core_lit
    | exact r_primary | single r_primary | exact r_primary_container
    | eapply (single_role _ PD); [exact r_primary_container|exact c_on_primary_container|reflexivity|curve_lit]
    | single r_inverse_surface
    | exact r_secondary | single r_secondary | exact r_secondary_container
    | eapply (single_role _ PD); [exact r_secondary_container|exact c_on_secondary_container|reflexivity|curve_lit]
    | exact r_tertiary | single r_tertiary | exact r_tertiary_container
    | eapply (single_role _ PD); [exact r_tertiary_container|exact c_on_tertiary_container|reflexivity|curve_lit]
    | exact r_error | single r_error | exact r_error_container | single r_error_container
    | exact r_primary_fixed | exact r_primary_fixed_dim
    | dual r_primary_fixed_dim r_primary_fixed | dual r_primary_fixed_dim r_primary_fixed
    | exact r_secondary_fixed | exact r_secondary_fixed_dim
    | dual r_secondary_fixed_dim r_secondary_fixed | dual r_secondary_fixed_dim r_secondary_fixed
    | exact r_tertiary_fixed | exact r_tertiary_fixed_dim
    | dual r_tertiary_fixed_dim r_tertiary_fixed | dual r_tertiary_fixed_dim r_tertiary_fixed].
Qed.
End Roles.

(** ** Initial tones of the containers *)
Section Initial.
Context {lm : Libm} (s : dynamic_scheme).

Lemma variant_not v : ds_variant s <> v -> variant_eqb (ds_variant s) v = false.
Proof. intros h. destruct (ds_variant s), v; try reflexivity; exfalso; apply h; reflexivity. Qed.
Lemma variant_yes : is_fidelity s = true -> is_monochrome s = false.
Proof. unfold is_fidelity, is_monochrome. destruct (ds_variant s); intros h; try reflexivity; discriminate h. Qed.
Lemma not_fidelity : fixed_tones s -> is_fidelity s = false.
Proof. intros [a b]. unfold is_fidelity. now rewrite (variant_not _ a), (variant_not _ b). Qed.

Lemma containers : fixed_tones s \/ source_tones s ->
  core_tone s primary_container_core /\ core_tone s secondary_container_core /\ core_tone s tertiary_container_core.
Proof.
  intros [h|(A & (t & Et & Tt) & (p & f & Ep & Ef & Tf))].
  - apply not_fidelity in h. split; [|split]; core_lit; try (rewrite h in *; discriminate).
  - split; [|split]; core_lit.
    + exact A.
    + replace (if ds_is_dark s then false else true) with (negb (ds_is_dark s)) by reflexivity.
      exists t. split; [exact Et|exact Tt].
    + rewrite Ep, bind_Ok, Ef, bind_Ok. apply ok_tone. exact Tf.
Qed.

Lemma all_resolve : pow_defined lm -> fixed_tones s \/ source_tones s -> forall role, In role all_roles ->
  ~ In (rc_name (dc_core role)) key_color_roles -> exists t, get_tone role s = Ok t /\ is_tone t.
Proof. intros PD h. destruct (containers h) as (A & B & C). exact (roles_resolve s PD A B C). Qed.

Lemma accent_pair : pow_defined lm -> fixed_tones s \/ source_tones s -> forall accent container,
  In (accent, container) accents -> exists a c, tone_of s accent = Ok a /\ tone_of s container = Ok c /\
    apart (ds_is_dark s) c a /\ outside_zone c /\ outside_zone a.
Proof.
  intros PD h. destruct (containers h) as (A & B & C).
  assert (G : forall ca cb pa pb, core_ok s ca -> core_ok s cb -> rc_name ca <> rc_name cb ->
    let pr := {| dp_role_a := ca; dp_role_b := cb; dp_delta := dec "10.0"; dp_polarity := Nearer; dp_stay_together := false |} in
    exists a c, get_tone (DC cb pb true (Some highest_surface) None (Some (fun _ => pr))) s = Ok a /\
      get_tone (DC ca pa true (Some highest_surface) None (Some (fun _ => pr))) s = Ok c /\
      apart (ds_is_dark s) c a /\ outside_zone c /\ outside_zone a).
  { intros ca cb pa pb Ka Kb N pr.
    destruct (pair_both s PD ca cb pa true highest_surface None pb true None pr (r_highest s) Ka Kb eq_refl eq_refl eq_refl N)
      as (n & f & W & O1 & O2 & T1 & T2).
    assert (X : nearer_of s pr = true) by reflexivity. rewrite X in T1, T2.
    exists f, n. exact (conj T2 (conj T1 (conj W (conj O1 O2)))). }
  intros accent container [E|[E|[E|[E|[]]]]]; apply pair_equal_spec in E; destruct E as [<- <-].
  - exact (G primary_container_core primary_core ds_primary_palette ds_primary_palette (k_primary_container s A) (k_primary s)
             ltac:(discriminate)).
  - exact (G secondary_container_core secondary_core ds_secondary_palette ds_secondary_palette (k_secondary_container s B) (k_secondary s)
             ltac:(discriminate)).
  - exact (G tertiary_container_core tertiary_core ds_tertiary_palette ds_tertiary_palette (k_tertiary_container s C) (k_tertiary s)
             ltac:(discriminate)).
  - exact (G error_container_core error_core ds_error_palette ds_error_palette (k_error_container s) (k_error s)
             ltac:(discriminate)).
Qed.

Lemma fixed_pair : pow_defined lm -> forall f d,
  In (f, d) fixed_pairs -> exists a b, tone_of s f = Ok a /\ tone_of s d = Ok b /\
    apart true b a /\ outside_zone a /\ outside_zone b.
Proof.
  intros PD.
  assert (G : forall ca cb pa pb, core_ok s ca -> core_ok s cb -> rc_name ca <> rc_name cb ->
    let pr := {| dp_role_a := ca; dp_role_b := cb; dp_delta := dec "10.0"; dp_polarity := Lighter; dp_stay_together := true |} in
    exists a b, get_tone (DC ca pa true (Some highest_surface) None (Some (fun _ => pr))) s = Ok a /\
      get_tone (DC cb pb true (Some highest_surface) None (Some (fun _ => pr))) s = Ok b /\
      apart true b a /\ outside_zone a /\ outside_zone b).
  { intros ca cb pa pb Ka Kb N pr.
    destruct (pair_both s PD ca cb pa true highest_surface None pb true None pr (r_highest s) Ka Kb eq_refl eq_refl eq_refl N)
      as (n & f & W & O1 & O2 & T1 & T2).
    assert (X : nearer_of s pr = negb (ds_is_dark s)) by (unfold nearer_of; cbn; now rewrite orb_false_r).
    rewrite X in T1, T2. destruct (ds_is_dark s); cbn [negb] in T1, T2.
    - exists f, n. exact (conj T1 (conj T2 (conj W (conj O2 O1)))).
    - exists n, f. split; [exact T1|]. split; [exact T2|]. split; [|exact (conj O1 O2)].
      destruct W as (W1 & W2 & W3). unfold apart, dirR in *. split; [exact W2|]. split; [exact W1|]. lra. }
  intros f d [E|[E|[E|[]]]]; apply pair_equal_spec in E; destruct E as [<- <-].
  - exact (G primary_fixed_core primary_fixed_dim_core ds_primary_palette ds_primary_palette (k_primary_fixed s) (k_primary_fixed_dim s)
             ltac:(discriminate)).
  - exact (G secondary_fixed_core secondary_fixed_dim_core ds_secondary_palette ds_secondary_palette (k_secondary_fixed s) (k_secondary_fixed_dim s)
             ltac:(discriminate)).
  - exact (G tertiary_fixed_core tertiary_fixed_dim_core ds_tertiary_palette ds_tertiary_palette (k_tertiary_fixed s) (k_tertiary_fixed_dim s)
             ltac:(discriminate)).
Qed.

Lemma key_color_tones :
  tone_of s "primary_palette_key_color" = Ok (h_tone (tp_key_color (ds_primary_palette s))) /\
  tone_of s "secondary_palette_key_color" = Ok (h_tone (tp_key_color (ds_secondary_palette s))) /\
  tone_of s "tertiary_palette_key_color" = Ok (h_tone (tp_key_color (ds_tertiary_palette s))) /\
  tone_of s "neutral_palette_key_color" = Ok (h_tone (tp_key_color (ds_neutral_palette s))) /\
  tone_of s "neutral_variant_palette_key_color" = Ok (h_tone (tp_key_color (ds_neutral_variant_palette s))).
Proof.
  assert (G : forall c p, get_tone (DC c p false None None None) s = rc_tone c s) by (intros; apply get_plain).
  split; [exact (G primary_palette_key_color_core ds_primary_palette)|].
  split; [exact (G secondary_palette_key_color_core ds_secondary_palette)|].
  split; [exact (G tertiary_palette_key_color_core ds_tertiary_palette)|].
  split; [exact (G neutral_palette_key_color_core ds_neutral_palette)|].
  exact (G neutral_variant_palette_key_color_core ds_neutral_variant_palette).
Qed.
End Initial.
