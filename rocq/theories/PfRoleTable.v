(** * The palette and default tone of every material role.  Proof file. *)
From Coq Require Import SpecFloat ZArith Bool Reals Lra Lia Psatz String List.
From Flocq Require Import Core Relative IEEE754.BinarySingleNaN.
From Verif Require Import F64 MathUtils ColorUtils Contrast Hct Palettes DynamicScheme DynamicColor MaterialDynamicColors
  Spec SpecTones SpecRoleTable FloatFacts FloatMono FloatCast PfMath PfColor PfContrast PfHct PfTones PfReach.
Import ListNotations.
Open Scope string_scope.
Open Scope list_scope.
Open Scope R_scope.

(** ** Comparing literals *)
Definition same (x y : f64) : bool :=
  match B2SF x, B2SF y with
  | S754_zero a, S754_zero b => Bool.eqb a b
  | S754_finite a m e, S754_finite b n f => Bool.eqb a b && Pos.eqb m n && Z.eqb e f
  | _, _ => false
  end.
Lemma same_eq x y : same x y = true -> x = y.
Proof.
  unfold same. intros h. apply B2SF_inj. revert h.
  destruct (B2SF x) as [a| | |a m e], (B2SF y) as [b| | |b n f]; try discriminate; intros h.
  - apply eqb_prop in h. now rewrite h.
  - apply andb_true_iff in h as [h h3]. apply andb_true_iff in h as [h1 h2].
    apply eqb_prop in h1. apply Pos.eqb_eq in h2. apply Z.eqb_eq in h3. now subst.
Qed.

Lemma same_ok (x : res f64) y : match x with Ok t => same t y | Panic => false end = true -> x = Ok y.
Proof. destruct x as [t|]; [|discriminate]. intros h. apply same_eq in h. now rewrite h. Qed.

Lemma tone_ok x : is_finite x && fle (dec "0.0") x && fle x (dec "100.0") = true -> is_tone x.
Proof.
  intros h. apply andb_true_iff in h as [h h3]. apply andb_true_iff in h as [h1 h2]. fconst (dec "0.0"). fconst (dec "100.0").
  apply fle_fin in h2; [|assumption..]. apply fle_fin in h3; [|assumption..]. split; [exact h1|lra].
Qed.
Lemma ratio_ok r : is_finite r && fle (dec "1.0") r && fle r (dec "21.0") = true -> 0.9 <= B2R r <= 22.
Proof.
  intros h. apply andb_true_iff in h as [h h3]. apply andb_true_iff in h as [h1 h2]. fconst (dec "1.0"). fconst (dec "21.0").
  apply fle_fin in h2; [|assumption..]. apply fle_fin in h3; [|assumption..]. lra.
Qed.

Section Clamp.
Context {lm : Libm} (PD : pow_defined lm) (PA : pow_accurate (1 / 10 ^ 5) lm).
Lemma lighter_fails t r : is_tone t -> fin r -> 0.9 <= B2R r <= 22 -> B2R (ratio_of_tones (dec "100.0") t) < B2R r ->
  lighter t r = dec "-1.0".
Proof.
  intros Tt fr br h. pose proof (lighter_nn t r PD (tone_nn _ Tt) (fin_not_nan _ fr)) as N.
  destruct (lighter_cases t r) as [c|[c|c]]; [rewrite N in c; discriminate c| |]; [exact c|exfalso].
  assert (Q : lighter t r <> dec "-1.0").
  { intros e. rewrite e in c. fconst (dec "-1.0"). destruct c as [_ c]. lra. }
  destruct (lighter_ok PA t r Tt fr br Q) as (TL & R & K).
  destruct (white_or_black t _ Tt TL) as [[_ k]|[k1 k]]; [lra|].
  destruct (Rle_or_lt 1 (B2R r)) as [r1|r1]; [specialize (K r1); lra|].
  destruct (ratio_bounds (dec "100.0") t (tone_nn _ white) (tone_nn _ Tt)) as [_ BW]. lra.
Qed.
Lemma no_lighter t r : is_tone t -> fin r -> 0.9 <= B2R r <= 22 -> B2R (ratio_of_tones (dec "100.0") t) < B2R r ->
  lighter_unsafe t r = dec "100.0".
Proof.
  intros Tt fr br h. pose proof (lighter_nn t r PD (tone_nn _ Tt) (fin_not_nan _ fr)) as N.
  destruct (lighter_unsafe_ok t r N) as (_ & A & B). exact (A (lighter_fails t r Tt fr br h)).
Qed.
Lemma no_darker t r : is_tone t -> fin r -> 0.9 <= B2R r <= 22 -> B2R (ratio_of_tones (dec "0.0") t) < B2R r ->
  darker_unsafe t r = dec "0.0".
Proof.
  intros Tt fr br h. pose proof (darker_nn t r PD (tone_nn _ Tt) (fin_not_nan _ fr)) as N.
  destruct (darker_unsafe_ok t r N) as (_ & A & B).
  destruct (darker_cases t r) as [c|[c|c]]; [rewrite N in c; discriminate c| |]; [exact (A c)|exfalso].
  assert (Q : darker t r <> dec "-1.0").
  { intros e. rewrite e in c. fconst (dec "-1.0"). destruct c as [_ c]. lra. }
  destruct (darker_ok PA t r Tt fr br Q) as (TL & R & _).
  destruct (white_or_black t _ Tt TL) as [[k1 k]|[_ k]]; [|lra].
  destruct (Rle_or_lt 1 (B2R r)) as [r1|r1].
  - destruct (darker_ok PA t r Tt fr br Q) as (_ & _ & K). specialize (K r1). lra.
  - destruct (ratio_bounds (dec "0.0") t (tone_nn _ black_) (tone_nn _ Tt)) as [_ BW]. lra.
Qed.
Lemma clamped t r v : is_tone t -> fin r -> 0.9 <= B2R r <= 22 ->
  flt (ratio_of_tones (dec "100.0") t) r = true -> flt (ratio_of_tones (dec "0.0") t) r = true ->
  v = (if tone_prefers_light_foreground t then dec "100.0" else dec "0.0") ->
  (if tone_prefers_light_foreground t then flt (ratio_of_tones (dec "0.0") t) (ratio_of_tones (dec "100.0") t)
   else flt (ratio_of_tones (dec "100.0") t) (ratio_of_tones (dec "0.0") t)) = true ->
  foreground_tone t r = v.
Proof.
  intros Tt fr br h1 h2 -> hp.
  destruct (ratio_bounds (dec "100.0") t (tone_nn _ white) (tone_nn _ Tt)) as [FW _].
  destruct (ratio_bounds (dec "0.0") t (tone_nn _ black_) (tone_nn _ Tt)) as [FB _].
  unfold foreground_tone. cbv zeta.
  apply (proj1 (flt_fin _ _ FW fr)) in h1. apply (proj1 (flt_fin _ _ FB fr)) in h2.
  rewrite (no_lighter t r Tt fr br h1), (no_darker t r Tt fr br h2).
  change (fge (ratio_of_tones (dec "100.0") t) (ratio_of_tones (dec "0.0") t)) with (fle (ratio_of_tones (dec "0.0") t) (ratio_of_tones (dec "100.0") t)).
  change (fge (ratio_of_tones (dec "0.0") t) (ratio_of_tones (dec "100.0") t)) with (fle (ratio_of_tones (dec "100.0") t) (ratio_of_tones (dec "0.0") t)).
  destruct (tone_prefers_light_foreground t).
  - apply (proj1 (flt_fin _ _ FB FW)) in hp. rewrite (proj2 (fle_fin (ratio_of_tones (dec "0.0") t) _ FB FW)) by lra.
    now rewrite orb_true_r.
  - apply (proj1 (flt_fin _ _ FW FB)) in hp. rewrite (proj2 (fle_fin (ratio_of_tones (dec "100.0") t) _ FW FB)) by lra.
    now rewrite orb_true_r.
Qed.

(** ** The two ways a default tone comes about: it is kept, or white or black is the best there is *)
Lemma single_keep a bg r : fge (ratio_of_tones bg a) r = true -> single_tone false a bg r false = a.
Proof. intros h. unfold single_tone. cbv zeta. rewrite h. reflexivity. Qed.
Lemma single_clamped a bg r v : fge (ratio_of_tones bg a) r = false -> foreground_tone bg r = v -> single_tone false a bg r false = v.
Proof. intros h e. unfold single_tone. cbv zeta. rewrite h. exact e. Qed.
Lemma dual_keep a b1 b2 r : fge (ratio_of_tones (fmax b1 b2) a) r && fge (ratio_of_tones (fmin b1 b2) a) r = true -> dual_tone a b1 b2 r = a.
Proof. intros h. unfold dual_tone. cbv zeta. rewrite h. reflexivity. Qed.
Lemma dual_white a b1 b2 r : is_tone (fmax b1 b2) -> fin r -> 0.9 <= B2R r <= 22 ->
  fge (ratio_of_tones (fmax b1 b2) a) r && fge (ratio_of_tones (fmin b1 b2) a) r = false ->
  flt (ratio_of_tones (dec "100.0") (fmax b1 b2)) r = true ->
  tone_prefers_light_foreground b1 || tone_prefers_light_foreground b2 = true ->
  dual_tone a b1 b2 r = dec "100.0".
Proof.
  intros Tu fr br h1 h2 h3. unfold dual_tone. cbv zeta. rewrite h1, h3.
  destruct (ratio_bounds (dec "100.0") _ (tone_nn _ white) (tone_nn _ Tu)) as [FW _].
  apply (proj1 (flt_fin _ _ FW fr)) in h2. rewrite (lighter_fails _ r Tu fr br h2).
  replace (flt (dec "-1.0") (dec "0.0")) with true by (vm_compute; reflexivity). reflexivity.
Qed.
End Clamp.

Local Opaque dec.
Ltac headc t := lazymatch t with ?f _ => headc f | _ => t end.
Ltac bool_lit := vm_compute; reflexivity.
Ltac core_t :=
  lazymatch goal with |- rc_tone ?c _ = _ => let h := headc c in unfold h end; cbn [rc_tone]; cbv zeta;
  repeat match goal with
  | H : is_monochrome _ = _ |- _ => rewrite H; clear H
  | H : ds_is_dark _ = _ |- _ => rewrite H; clear H
  | H : is_fidelity _ = _ |- _ => rewrite H; clear H end; cbn [negb]; reflexivity.
Ltac open_role := lazymatch goal with |- get_tone ?r _ = _ => let h := headc r in unfold h end.
(** A literal is the whole number the table gives. *)
Ltac lit_eq := apply same_eq; bool_lit.

Section Table.
Context {lm : Libm} (PD : pow_defined lm) (PA : pow_accurate (1 / 10 ^ 5) lm).
Variables (s : dynamic_scheme) (M D : bool).
Hypothesis HM : is_monochrome s = M.
Hypothesis HD : ds_is_dark s = D.

Ltac plain_role := open_role; rewrite get_plain;
  match goal with |- rc_tone ?c _ = _ => let h := headc c in unfold h end; cbn [rc_tone]; rewrite ?HD; apply (f_equal (@Ok f64));
  try destruct D; lit_eq.
Lemma t_background : get_tone background s = Ok (of_Z (if D then 6 else 98)).
Proof. plain_role. Qed.
Lemma t_surface : get_tone surface s = Ok (of_Z (if D then 6 else 98)).
Proof. plain_role. Qed.
Lemma t_surface_variant : get_tone surface_variant s = Ok (of_Z (if D then 30 else 90)).
Proof. plain_role. Qed.
Lemma t_inverse_surface : get_tone inverse_surface s = Ok (of_Z (if D then 90 else 20)).
Proof. plain_role. Qed.
Lemma t_shadow : get_tone shadow s = Ok (of_Z (0)).
Proof. plain_role. Qed.
Lemma t_scrim : get_tone scrim s = Ok (of_Z (0)).
Proof. plain_role. Qed.
Lemma t_surface_tint : get_tone surface_tint s = Ok (of_Z (if D then 80 else 40)).
Proof. plain_role. Qed.
Hypothesis HL : feq (ds_contrast_level s) (dec "0.0") = true.
Lemma norm_at a b c d : is_finite (dec b) && is_finite (dec c) && flt (dec "0.0") (dec b) = true ->
  cc_get (cc_new (dec a) (dec b) (dec c) (dec d)) (ds_contrast_level s) = dec b.
Proof.
  intros h. apply andb_true_iff in h as [h h3]. apply andb_true_iff in h as [h1 h2]. fconst (dec "0.0"). apply flt_fin in h3; [|assumption..].
  destruct (cc_normal_at (cc_new (dec a) (dec b) (dec c) (dec d)) _ h1 h2 HL) as [F1 E]. cbn [cc_normal cc_new] in E.
  apply B2R_inj; [apply is_finite_strict_B2R; rewrite E; lra|apply is_finite_strict_B2R; lra|exact E].
Qed.
Lemma not_dec : flt (ds_contrast_level s) (dec "0.0") = false.
Proof.
  pose proof (feq_not_nan _ _ HL) as [n _]. pose proof (feq_true _ _ HL) as h. fconst (dec "0.0"). rewrite (val_fin (dec "0.0")) in h by assumption.
  apply not_lt; [exact n|assumption|lra].
Qed.

Ltac norm := repeat (rewrite norm_at by bool_lit); rewrite ?not_dec.
Ltac clamp_lit := apply (clamped PD PA); [apply tone_ok; bool_lit|bool_lit|apply ratio_ok; bool_lit|bool_lit|bool_lit|lit_eq|bool_lit].
Ltac single_lit := first
  [ rewrite single_keep by bool_lit; lit_eq
  | apply single_clamped; [bool_lit|clamp_lit] ].

Ltac surf_role := open_role; rewrite get_plain;
  match goal with |- rc_tone ?c _ = _ => let h := headc c in unfold h end; cbn [rc_tone]; rewrite ?HD; norm; apply (f_equal (@Ok f64));
  destruct D; lit_eq.
Lemma t_surface_dim : get_tone surface_dim s = Ok (of_Z (if D then 6 else 87)).
Proof. surf_role. Qed.
Lemma t_surface_bright : get_tone surface_bright s = Ok (of_Z (if D then 24 else 98)).
Proof. surf_role. Qed.
Lemma t_highest : get_tone (highest_surface s) s = Ok (of_Z (if D then 24 else 87)).
Proof. unfold highest_surface. rewrite HD. pose proof t_surface_dim as h1. pose proof t_surface_bright as h2. destruct D; assumption. Qed.
Lemma t_surface_container_lowest : get_tone surface_container_lowest s = Ok (of_Z (if D then 4 else 100)).
Proof. surf_role. Qed.
Lemma t_surface_container_low : get_tone surface_container_low s = Ok (of_Z (if D then 10 else 96)).
Proof. surf_role. Qed.
Lemma t_surface_container : get_tone surface_container s = Ok (of_Z (if D then 12 else 94)).
Proof. surf_role. Qed.
Lemma t_surface_container_high : get_tone surface_container_high s = Ok (of_Z (if D then 17 else 92)).
Proof. surf_role. Qed.
Lemma t_surface_container_highest : get_tone surface_container_highest s = Ok (of_Z (if D then 22 else 90)).
Proof. surf_role. Qed.
Ltac single_role_t L := pose proof L as hbg; open_role; destruct M, D;
  (eapply eq_trans; [eapply get_single; [exact hbg|core_t|reflexivity]|norm; apply (f_equal (@Ok f64)); single_lit]).
Ltac dual_role_t L1 L2 := pose proof L1 as hbg; pose proof L2 as hbg2; open_role; destruct M, D;
  (eapply eq_trans; [eapply get_dual; [exact hbg|exact hbg2|core_t|reflexivity]|norm; apply (f_equal (@Ok f64));
   rewrite single_keep by bool_lit;
   first [rewrite dual_keep by bool_lit; lit_eq
         |eapply eq_trans; [apply (dual_white PD PA); [apply tone_ok; bool_lit|bool_lit|apply ratio_ok; bool_lit|bool_lit|bool_lit|bool_lit]|lit_eq]]]).
Ltac pair_role k a b := pose proof t_highest as hbg; open_role; destruct M, D;
  (let ta := fresh in let tb := fresh in
   eassert (ta : rc_tone a s = Ok _) by core_t;
   eassert (tb : rc_tone b s = Ok _) by core_t;
   rewrite (get_pair s _ _ _ _ _ _ _ hbg); unfold pair_tone; cbv zeta; rewrite not_dec;
   cbn [dp_role_a dp_role_b dp_delta dp_polarity dp_stay_together is_nearer is_lighter is_darker];
   rewrite HD; cbn [orb andb negb]; rewrite ta, tb;
   let ca := eval hnf in (rc_contrast_curve a) in let cb := eval hnf in (rc_contrast_curve b) in
   change (rc_contrast_curve a) with ca; change (rc_contrast_curve b) with cb;
   cbn [ok_or_panic bind]; norm; 
   apply same_ok; bool_lit).
Lemma t_error : get_tone error s = Ok (of_Z (if D then 80 else 40)).
Proof. pair_role error error_container_core error_core. Qed.
Lemma t_error_container : get_tone error_container s = Ok (of_Z (if D then 30 else 90)).
Proof. pair_role error_container error_container_core error_core. Qed.
Lemma t_primary_fixed : get_tone primary_fixed s = Ok (of_Z (if M then 40 else 90)).
Proof. pair_role primary_fixed primary_fixed_core primary_fixed_dim_core. Qed.
Lemma t_primary_fixed_dim : get_tone primary_fixed_dim s = Ok (of_Z (if M then 30 else 80)).
Proof. pair_role primary_fixed_dim primary_fixed_core primary_fixed_dim_core. Qed.
Lemma t_secondary_fixed : get_tone secondary_fixed s = Ok (of_Z (if M then 80 else 90)).
Proof. pair_role secondary_fixed secondary_fixed_core secondary_fixed_dim_core. Qed.
Lemma t_secondary_fixed_dim : get_tone secondary_fixed_dim s = Ok (of_Z (if M then 70 else 80)).
Proof. pair_role secondary_fixed_dim secondary_fixed_core secondary_fixed_dim_core. Qed.
Lemma t_tertiary_fixed : get_tone tertiary_fixed s = Ok (of_Z (if M then 40 else 90)).
Proof. pair_role tertiary_fixed tertiary_fixed_core tertiary_fixed_dim_core. Qed.
Lemma t_tertiary_fixed_dim : get_tone tertiary_fixed_dim s = Ok (of_Z (if M then 30 else 80)).
Proof. pair_role tertiary_fixed_dim tertiary_fixed_core tertiary_fixed_dim_core. Qed.
Lemma t_primary : is_fidelity s = false -> get_tone primary s = Ok (of_Z (if M then if D then 100 else 0 else if D then 80 else 40)).
Proof. intros HF. pair_role primary primary_container_core primary_core. Qed.
Lemma t_primary_container : is_fidelity s = false -> get_tone primary_container s = Ok (of_Z (if M then if D then 85 else 25 else if D then 30 else 90)).
Proof. intros HF. pair_role primary_container primary_container_core primary_core. Qed.
Lemma t_secondary : is_fidelity s = false -> get_tone secondary s = Ok (of_Z (if D then 80 else 40)).
Proof. intros HF. pair_role secondary secondary_container_core secondary_core. Qed.
Lemma t_secondary_container : is_fidelity s = false -> get_tone secondary_container s = Ok (of_Z (if M then if D then 30 else 85 else if D then 30 else 90)).
Proof. intros HF. pair_role secondary_container secondary_container_core secondary_core. Qed.
Lemma t_tertiary : is_fidelity s = false -> get_tone tertiary s = Ok (of_Z (if M then if D then 90 else 25 else if D then 80 else 40)).
Proof. intros HF. pair_role tertiary tertiary_container_core tertiary_core. Qed.
Lemma t_tertiary_container : is_fidelity s = false -> get_tone tertiary_container s = Ok (of_Z (if M then if D then 60 else 49 else if D then 30 else 90)).
Proof. intros HF. pair_role tertiary_container tertiary_container_core tertiary_core. Qed.
Lemma t_on_background : get_tone on_background s = Ok (of_Z (if D then 90 else 10)).
Proof. single_role_t t_background. Qed.
Lemma t_on_surface : get_tone on_surface s = Ok (of_Z (if D then 90 else 10)).
Proof. single_role_t t_highest. Qed.
Lemma t_on_surface_variant : get_tone on_surface_variant s = Ok (of_Z (if D then 80 else 30)).
Proof. single_role_t t_highest. Qed.
Lemma t_inverse_on_surface : get_tone inverse_on_surface s = Ok (of_Z (if D then 20 else 95)).
Proof. single_role_t t_inverse_surface. Qed.
Lemma t_outline : get_tone outline s = Ok (of_Z (if D then 60 else 50)).
Proof. single_role_t t_highest. Qed.
Lemma t_outline_variant : get_tone outline_variant s = Ok (of_Z (if D then 30 else 80)).
Proof. single_role_t t_highest. Qed.
Lemma t_inverse_primary : get_tone inverse_primary s = Ok (of_Z (if D then 40 else 80)).
Proof. single_role_t t_inverse_surface. Qed.
Lemma t_on_error : get_tone on_error s = Ok (of_Z (if D then 20 else 100)).
Proof. single_role_t t_error. Qed.
Lemma t_on_error_container : get_tone on_error_container s = Ok (of_Z (if D then 90 else 10)).
Proof. single_role_t t_error_container. Qed.
Lemma t_on_primary_fixed : get_tone on_primary_fixed s = Ok (of_Z (if M then 100 else 10)).
Proof. dual_role_t t_primary_fixed_dim t_primary_fixed. Qed.
Lemma t_on_primary_fixed_variant : get_tone on_primary_fixed_variant s = Ok (of_Z (if M then 90 else 30)).
Proof. dual_role_t t_primary_fixed_dim t_primary_fixed. Qed.
Lemma t_on_secondary_fixed : get_tone on_secondary_fixed s = Ok (of_Z (10)).
Proof. dual_role_t t_secondary_fixed_dim t_secondary_fixed. Qed.
Lemma t_on_secondary_fixed_variant : get_tone on_secondary_fixed_variant s = Ok (of_Z (if M then 25 else 30)).
Proof. dual_role_t t_secondary_fixed_dim t_secondary_fixed. Qed.
Lemma t_on_tertiary_fixed : get_tone on_tertiary_fixed s = Ok (of_Z (if M then 100 else 10)).
Proof. dual_role_t t_tertiary_fixed_dim t_tertiary_fixed. Qed.
Lemma t_on_tertiary_fixed_variant : get_tone on_tertiary_fixed_variant s = Ok (of_Z (if M then 90 else 30)).
Proof. dual_role_t t_tertiary_fixed_dim t_tertiary_fixed. Qed.
Lemma t_on_primary : is_fidelity s = false -> get_tone on_primary s = Ok (of_Z (if M then if D then 10 else 90 else if D then 20 else 100)).
Proof. intros HF. single_role_t (t_primary HF). Qed.
Lemma t_on_primary_container : is_fidelity s = false -> get_tone on_primary_container s = Ok (of_Z (if M then if D then 0 else 100 else if D then 90 else 10)).
Proof. intros HF. single_role_t (t_primary_container HF). Qed.
Lemma t_on_secondary : is_fidelity s = false -> get_tone on_secondary s = Ok (of_Z (if M then if D then 10 else 100 else if D then 20 else 100)).
Proof. intros HF. single_role_t (t_secondary HF). Qed.
Lemma t_on_secondary_container : is_fidelity s = false -> get_tone on_secondary_container s = Ok (of_Z (if D then 90 else 10)).
Proof. intros HF. single_role_t (t_secondary_container HF). Qed.
Lemma t_on_tertiary : is_fidelity s = false -> get_tone on_tertiary s = Ok (of_Z (if M then if D then 10 else 90 else if D then 20 else 100)).
Proof. intros HF. single_role_t (t_tertiary HF). Qed.
Lemma t_on_tertiary_container : is_fidelity s = false -> get_tone on_tertiary_container s = Ok (of_Z (if M then if D then 0 else 100 else if D then 90 else 10)).
Proof. intros HF. single_role_t (t_tertiary_container HF). Qed.
Definition tone_listed (e : tones) : Prop := tone_of s (fst e) = Ok (of_Z (if D then snd (snd e) else fst (snd e))).
Local Opaque get_tone of_Z.
Lemma plain_listed : Forall tone_listed (plain_tones).
Proof.
  pose proof t_background as h_background.
  pose proof t_surface as h_surface.
  pose proof t_surface_variant as h_surface_variant.
  pose proof t_inverse_surface as h_inverse_surface.
  pose proof t_shadow as h_shadow.
  pose proof t_scrim as h_scrim.
  pose proof t_surface_tint as h_surface_tint.
  unfold tone_listed. destruct M, D; (repeat apply Forall_cons; [..|apply Forall_nil]); cbn [fst snd];
  lazymatch goal with
  | |- tone_of _ "background" = _ => exact h_background
  | |- tone_of _ "surface" = _ => exact h_surface
  | |- tone_of _ "surface_variant" = _ => exact h_surface_variant
  | |- tone_of _ "inverse_surface" = _ => exact h_inverse_surface
  | |- tone_of _ "shadow" = _ => exact h_shadow
  | |- tone_of _ "scrim" = _ => exact h_scrim
  | |- tone_of _ "surface_tint" = _ => exact h_surface_tint
  end.
Qed.
Lemma shared_listed : Forall tone_listed (shared_tones).
Proof.
  pose proof t_surface_dim as h_surface_dim.
  pose proof t_surface_bright as h_surface_bright.
  pose proof t_surface_container_lowest as h_surface_container_lowest.
  pose proof t_surface_container_low as h_surface_container_low.
  pose proof t_surface_container as h_surface_container.
  pose proof t_surface_container_high as h_surface_container_high.
  pose proof t_surface_container_highest as h_surface_container_highest.
  pose proof t_on_background as h_on_background.
  pose proof t_on_surface as h_on_surface.
  pose proof t_on_surface_variant as h_on_surface_variant.
  pose proof t_inverse_on_surface as h_inverse_on_surface.
  pose proof t_outline as h_outline.
  pose proof t_outline_variant as h_outline_variant.
  pose proof t_inverse_primary as h_inverse_primary.
  pose proof t_error as h_error.
  pose proof t_on_error as h_on_error.
  pose proof t_error_container as h_error_container.
  pose proof t_on_error_container as h_on_error_container.
  unfold tone_listed. destruct M, D; (repeat apply Forall_cons; [..|apply Forall_nil]); cbn [fst snd];
  lazymatch goal with
  | |- tone_of _ "surface_dim" = _ => exact h_surface_dim
  | |- tone_of _ "surface_bright" = _ => exact h_surface_bright
  | |- tone_of _ "surface_container_lowest" = _ => exact h_surface_container_lowest
  | |- tone_of _ "surface_container_low" = _ => exact h_surface_container_low
  | |- tone_of _ "surface_container" = _ => exact h_surface_container
  | |- tone_of _ "surface_container_high" = _ => exact h_surface_container_high
  | |- tone_of _ "surface_container_highest" = _ => exact h_surface_container_highest
  | |- tone_of _ "on_background" = _ => exact h_on_background
  | |- tone_of _ "on_surface" = _ => exact h_on_surface
  | |- tone_of _ "on_surface_variant" = _ => exact h_on_surface_variant
  | |- tone_of _ "inverse_on_surface" = _ => exact h_inverse_on_surface
  | |- tone_of _ "outline" = _ => exact h_outline
  | |- tone_of _ "outline_variant" = _ => exact h_outline_variant
  | |- tone_of _ "inverse_primary" = _ => exact h_inverse_primary
  | |- tone_of _ "error" = _ => exact h_error
  | |- tone_of _ "on_error" = _ => exact h_on_error
  | |- tone_of _ "error_container" = _ => exact h_error_container
  | |- tone_of _ "on_error_container" = _ => exact h_on_error_container
  end.
Qed.
Lemma fixed_listed : Forall tone_listed (fixed_color_tones M).
Proof.
  pose proof t_primary_fixed as h_primary_fixed.
  pose proof t_primary_fixed_dim as h_primary_fixed_dim.
  pose proof t_on_primary_fixed as h_on_primary_fixed.
  pose proof t_on_primary_fixed_variant as h_on_primary_fixed_variant.
  pose proof t_secondary_fixed as h_secondary_fixed.
  pose proof t_secondary_fixed_dim as h_secondary_fixed_dim.
  pose proof t_on_secondary_fixed as h_on_secondary_fixed.
  pose proof t_on_secondary_fixed_variant as h_on_secondary_fixed_variant.
  pose proof t_tertiary_fixed as h_tertiary_fixed.
  pose proof t_tertiary_fixed_dim as h_tertiary_fixed_dim.
  pose proof t_on_tertiary_fixed as h_on_tertiary_fixed.
  pose proof t_on_tertiary_fixed_variant as h_on_tertiary_fixed_variant.
  unfold tone_listed. destruct M, D; (repeat apply Forall_cons; [..|apply Forall_nil]); cbn [fst snd];
  lazymatch goal with
  | |- tone_of _ "primary_fixed" = _ => exact h_primary_fixed
  | |- tone_of _ "primary_fixed_dim" = _ => exact h_primary_fixed_dim
  | |- tone_of _ "on_primary_fixed" = _ => exact h_on_primary_fixed
  | |- tone_of _ "on_primary_fixed_variant" = _ => exact h_on_primary_fixed_variant
  | |- tone_of _ "secondary_fixed" = _ => exact h_secondary_fixed
  | |- tone_of _ "secondary_fixed_dim" = _ => exact h_secondary_fixed_dim
  | |- tone_of _ "on_secondary_fixed" = _ => exact h_on_secondary_fixed
  | |- tone_of _ "on_secondary_fixed_variant" = _ => exact h_on_secondary_fixed_variant
  | |- tone_of _ "tertiary_fixed" = _ => exact h_tertiary_fixed
  | |- tone_of _ "tertiary_fixed_dim" = _ => exact h_tertiary_fixed_dim
  | |- tone_of _ "on_tertiary_fixed" = _ => exact h_on_tertiary_fixed
  | |- tone_of _ "on_tertiary_fixed_variant" = _ => exact h_on_tertiary_fixed_variant
  end.
Qed.
Lemma accent_listed : is_fidelity s = false -> Forall tone_listed (accent_tones M).
Proof.
  intros HF.
  pose proof (t_primary HF) as h_primary.
  pose proof (t_on_primary HF) as h_on_primary.
  pose proof (t_primary_container HF) as h_primary_container.
  pose proof (t_on_primary_container HF) as h_on_primary_container.
  pose proof (t_secondary HF) as h_secondary.
  pose proof (t_on_secondary HF) as h_on_secondary.
  pose proof (t_secondary_container HF) as h_secondary_container.
  pose proof (t_on_secondary_container HF) as h_on_secondary_container.
  pose proof (t_tertiary HF) as h_tertiary.
  pose proof (t_on_tertiary HF) as h_on_tertiary.
  pose proof (t_tertiary_container HF) as h_tertiary_container.
  pose proof (t_on_tertiary_container HF) as h_on_tertiary_container.
  unfold tone_listed. destruct M, D; (repeat apply Forall_cons; [..|apply Forall_nil]); cbn [fst snd];
  lazymatch goal with
  | |- tone_of _ "primary" = _ => exact h_primary
  | |- tone_of _ "on_primary" = _ => exact h_on_primary
  | |- tone_of _ "primary_container" = _ => exact h_primary_container
  | |- tone_of _ "on_primary_container" = _ => exact h_on_primary_container
  | |- tone_of _ "secondary" = _ => exact h_secondary
  | |- tone_of _ "on_secondary" = _ => exact h_on_secondary
  | |- tone_of _ "secondary_container" = _ => exact h_secondary_container
  | |- tone_of _ "on_secondary_container" = _ => exact h_on_secondary_container
  | |- tone_of _ "tertiary" = _ => exact h_tertiary
  | |- tone_of _ "on_tertiary" = _ => exact h_on_tertiary
  | |- tone_of _ "tertiary_container" = _ => exact h_tertiary_container
  | |- tone_of _ "on_tertiary_container" = _ => exact h_on_tertiary_container
  end.
Qed.
End Table.
Local Opaque get_tone of_Z.
Lemma default_tone {lm : Libm} : pow_defined lm -> pow_accurate (1 / 10 ^ 5) lm -> forall s name light dark,
  feq (ds_contrast_level s) (dec "0.0") = true -> In (name, (light, dark)) (default_tones (ds_variant s)) ->
  tone_of s name = Ok (of_Z (if ds_is_dark s then dark else light)).
Proof.
  intros PD PA s name light dark HL I.
  pose proof (plain_listed s (is_monochrome s) (ds_is_dark s) eq_refl eq_refl) as A1.
  pose proof (shared_listed PD PA s (is_monochrome s) (ds_is_dark s) eq_refl eq_refl HL) as A2.
  pose proof (fixed_listed PD PA s (is_monochrome s) (ds_is_dark s) eq_refl eq_refl HL) as A3.
  pose proof (accent_listed PD PA s (is_monochrome s) (ds_is_dark s) eq_refl eq_refl HL) as A4.
  unfold is_fidelity, is_monochrome in A2, A3, A4. unfold default_tones in I.
  apply in_app_or in I as [I|I]; [exact (proj1 (Forall_forall _ _) A1 _ I)|].
  apply in_app_or in I as [I|I]; [exact (proj1 (Forall_forall _ _) A2 _ I)|].
  destruct (ds_variant s); cbn [variant_eqb orb] in A3, A4; try (exact (proj1 (Forall_forall _ _) A3 _ I));
    (apply in_app_or in I as [I|I]; [exact (proj1 (Forall_forall _ _) A3 _ I)|exact (proj1 (Forall_forall _ _) (A4 eq_refl) _ I)]).
Qed.
Lemma plain_tone {lm : Libm} : forall s name light dark, In (name, (light, dark)) plain_tones ->
  tone_of s name = Ok (of_Z (if ds_is_dark s then dark else light)).
Proof.
  intros s name light dark I. exact (proj1 (Forall_forall _ _) (plain_listed s (is_monochrome s) (ds_is_dark s) eq_refl eq_refl) _ I).
Qed.

(** ** The surfaces at the control points of their curves *)
Lemma at_same x t z : is_finite t = true /\ B2R t = IZR z -> at_levels x t z z z.
Proof. intros h. unfold at_levels. repeat split; intros; apply h. Qed.
Lemma at_curve a b c x l m h : is_finite (dec a) && is_finite (dec b) && is_finite (dec c) = true ->
  B2R (dec a) = IZR l -> B2R (dec b) = IZR m -> B2R (dec c) = IZR h ->
  at_levels x (cc_get (cc_new (dec a) (dec a) (dec b) (dec c)) x) l m h.
Proof.
  intros f e1 e2 e3. apply andb_true_iff in f as [f f3]. apply andb_true_iff in f as [f1 f2].
  destruct (cc_points (dec a) (dec a) (dec b) (dec c) x f1 f2 f3) as (P1 & P2 & P3 & P4). unfold at_levels.
  split; [|split].
  - intros [k|k]; [rewrite (P1 k); split; assumption|]. destruct (P2 k) as [q1 q2]. split; [exact q1|now rewrite q2].
  - intros k. destruct (P3 k) as [q1 q2]. split; [exact q1|now rewrite q2].
  - intros k. rewrite (P4 k). split; assumption.
Qed.
Ltac lit_R := match goal with |- B2R (dec ?x) = _ => fconst (dec x); assumption end.
Lemma surface_tone {lm : Libm} : forall s name light dark, In (name, (light, dark)) surface_tones ->
  exists t, tone_of s name = Ok t /\
    let '(low, medium, high) := if ds_is_dark s then dark else light in at_levels (ds_contrast_level s) t low medium high.
Proof.
  intros s name light dark I. assert (H : Forall (fun e : string * ((Z * Z * Z) * (Z * Z * Z)) =>
    exists t, tone_of s (fst e) = Ok t /\
      let '(low, medium, high) := if ds_is_dark s then snd (snd e) else fst (snd e) in at_levels (ds_contrast_level s) t low medium high) surface_tones).
  { unfold surface_tones. repeat apply Forall_cons; [..|apply Forall_nil]; cbn [fst snd];
    lazymatch goal with |- exists t, tone_of _ ?n = _ /\ _ =>
      lazymatch n with
      | "surface_dim" => change (tone_of s n) with (get_tone surface_dim s); unfold surface_dim
      | "surface_bright" => change (tone_of s n) with (get_tone surface_bright s); unfold surface_bright
      | "surface_container_lowest" => change (tone_of s n) with (get_tone surface_container_lowest s); unfold surface_container_lowest
      | "surface_container_low" => change (tone_of s n) with (get_tone surface_container_low s); unfold surface_container_low
      | "surface_container" => change (tone_of s n) with (get_tone surface_container s); unfold surface_container
      | "surface_container_high" => change (tone_of s n) with (get_tone surface_container_high s); unfold surface_container_high
      | "surface_container_highest" => change (tone_of s n) with (get_tone surface_container_highest s); unfold surface_container_highest
      end end; rewrite get_plain; eexists; (split; [reflexivity|]);
    destruct (ds_is_dark s);
    first [apply at_curve; [reflexivity|lit_R..]
          |apply at_same; match goal with |- is_finite (dec ?x) = true /\ _ => fconst (dec x); split; assumption end]. }
  exact (proj1 (Forall_forall _ _) H _ I).
Qed.
(** ** Palettes *)
Definition str_in (n : string) (l : list string) : bool := existsb (String.eqb n) l.
Lemma str_in_In n l : str_in n l = true -> In n l.
Proof. unfold str_in. rewrite existsb_exists. intros (x & i & e). apply String.eqb_eq in e. now subst. Qed.
Lemma In_str_in n l : In n l -> str_in n l = true.
Proof. intros i. unfold str_in. rewrite existsb_exists. exists n. split; [exact i|apply String.eqb_refl]. Qed.
Local Opaque tp_get_hct.
Lemma role_colour {lm : Libm} : forall s palette names name role,
  In (palette, names) role_palettes -> In name names -> In (name, role) getters ->
  ds_get_argb s role = (do t <- tone_of s name; do h <- tp_get_hct (palette s) t; Ok (hct_to_int h)).
Proof.
  intros s palette names name role Ip In_ Ig.
  assert (G : Forall (fun e => find (fun r => String.eqb (fst e) (rc_name (dc_core r))) all_roles = Some (snd e)) getters).
  { unfold getters. repeat apply Forall_cons; [..|apply Forall_nil]; reflexivity. }
  assert (E : tone_of s name = get_tone role s).
  { unfold tone_of. pose proof (proj1 (Forall_forall _ _) G _ Ig) as K. cbn [fst snd] in K. rewrite K. reflexivity. }
  assert (Q : dc_palette role = palette).
  { assert (A : Forall (fun g => Forall (fun pn => if str_in (fst g) (snd pn) then dc_palette (snd g) = fst pn else True) role_palettes) getters).
    { unfold role_palettes, getters. repeat apply Forall_cons; try apply Forall_nil; cbn [fst snd];
      repeat apply Forall_cons; try apply Forall_nil; cbn [fst snd];
        lazymatch goal with |- if ?b then _ else _ => let v := eval vm_compute in b in change b with v end;
        cbv beta iota; first [exact I|reflexivity]. }
    pose proof (proj1 (Forall_forall _ _) A _ Ig) as B. pose proof (proj1 (Forall_forall _ _) B _ Ip) as K.
    cbn [fst snd] in K. rewrite (In_str_in _ _ In_) in K. exact K. }
  rewrite E. unfold ds_get_argb, dc_get_argb, dc_get_hct. cbn [cache_find bind]. rewrite Q.
  destruct (get_tone role s) as [t|]; [|reflexivity]. cbn [bind]. destruct (tp_get_hct (palette s) t) as [h|]; reflexivity.
Qed.
Lemma default_colour {lm : Libm} : pow_defined lm -> pow_accurate (1 / 10 ^ 5) lm ->
  forall s palette names name role light dark,
  feq (ds_contrast_level s) (dec "0.0") = true ->
  In (palette, names) role_palettes -> In name names -> In (name, role) getters ->
  In (name, (light, dark)) (default_tones (ds_variant s)) ->
  ds_get_argb s role = (do h <- tp_get_hct (palette s) (of_Z (if ds_is_dark s then dark else light)); Ok (hct_to_int h)).
Proof.
  intros PD PA s palette names name role light dark HL Ip In_ Ig I.
  rewrite (role_colour s palette names name role Ip In_ Ig), (default_tone PD PA s name light dark HL I). reflexivity.
Qed.
(** Every role is in the tables. *)
Lemma tables_complete {lm : Libm} : forall name, In name (map fst getters) ->
  (exists palette names, In (palette, names) role_palettes /\ In name names) /\
  (In name key_color_roles \/ forall v, v <> Fidelity -> v <> Content -> exists light dark, In (name, (light, dark)) (default_tones v)).
Proof.
  assert (A : forallb (fun name => existsb (fun pn => str_in name (snd pn)) role_palettes &&
    (str_in name key_color_roles || (str_in name (map fst (default_tones Monochrome)) && str_in name (map fst (default_tones TonalSpot)))))
    (map fst getters) = true) by bool_lit.
  intros name I. apply (proj1 (forallb_forall _ _) A) in I. clear A.
  apply andb_true_iff in I as [I1 I2]. apply existsb_exists in I1 as ((palette & names) & P1 & P2). cbn [snd] in P2.
  split; [exists palette, names; split; [exact P1|exact (str_in_In _ _ P2)]|].
  apply orb_true_iff in I2 as [I2|I2]; [left; exact (str_in_In _ _ I2)|right].
  apply andb_true_iff in I2 as [J1 J2]. apply str_in_In in J1, J2. rewrite in_map_iff in J1, J2.
  destruct J1 as ((n1 & l1 & d1) & E1 & K1), J2 as ((n2 & l2 & d2) & E2 & K2). cbn [fst] in E1, E2. subst n1 n2.
  intros [] nf nc; try (exists l2, d2; exact K2); [exists l1, d1; exact K1|now elim nf|now elim nc].
Qed.
