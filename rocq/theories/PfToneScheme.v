(** * The legacy schemes are legible for every seed.  Proof file. *)
From Coq Require Import ZArith Bool Reals Lra Lia Psatz String List.
From Flocq Require Import Core Relative IEEE754.BinarySingleNaN.
From Verif Require Import F64 MathUtils ColorUtils Contrast ViewingConditions Cam16 HctSolver Hct Palettes LegacyScheme Spec SpecCam SpecTone SpecHct SpecPalette SpecToneRoles SpecTotal FloatFacts FloatMono PfMath PfLab PfHct PfPalettes PfContrast PfToneRange PfToneHct PfToneContrast PfTotal.
Import ListNotations.
Open Scope string_scope.
Open Scope R_scope.

Definition modest (p : tonal_palette) : Prop := fin (tp_hue p) /\ fin (tp_chroma p) /\ B2R (tp_chroma p) <= 10 ^ 9.
Definition all_modest (c : core_palette) : Prop := forall p, modest (cp_sel c p).

Lemma split_modest c : modest (cp_primary c) -> modest (cp_secondary c) -> modest (cp_tertiary c) -> modest (cp_neutral c) -> modest (cp_neutral_variant c) -> modest (cp_error c) -> all_modest c.
Proof. intros. intro p. destruct p; cbn [cp_sel]; assumption. Qed.

Section Acc.
Context {lm : Libm} (LA : libm_accurate (1 / 10 ^ 13) lm).

Lemma of_modest h k p : tp_of h k = Ok p -> fin h -> fin k -> B2R k <= 10 ^ 9 -> modest p.
Proof using. intros E fh fk bk. apply of_fresh in E. destruct E as (_ & e1 & e2 & _). unfold modest. rewrite e1, e2. tauto. Qed.

Lemma part_fin (c : f64) (d : string) (q : R) : fin c -> 0 <= B2R c <= 4000 -> fin (dec d) -> B2R (dec d) = q -> 1 <= q ->
  fin (fdiv c (dec d)) /\ 0 <= B2R (fdiv c (dec d)) <= 4000.
Proof using.
  intros fc bc fd ed q1. assert (B : 0 <= B2R c / q <= 4000).
  { assert (M : B2R c / q * q = B2R c) by (unfold Rdiv; rewrite Rmult_assoc, Rinv_l, Rmult_1_r; lra).
    assert (0 <= B2R c / q) by (apply Rmult_le_reg_r with q; lra). split; [assumption|]. nra. }
  destruct (fdiv_S c (dec d) fc ltac:(lra)) as [E F]; [rewrite ed; fsmall|]. split; [exact F|]. rewrite E, ed. split; [apply rnd_ge_0; lra|apply (rnd_le_IZR _ 4000); [lia|lra]].
Qed.
Lemma hue60 (h : f64) : fin h -> 0 <= B2R h < 360 -> fin (fadd h (dec "60.0")).
Proof using. intros fh bh. fconst (dec "60.0"). apply fadd_S; [exact fh|exact F|rewrite V; fsmall]. Qed.

Lemma cp_modest z c : cp_of z = Ok c -> all_modest c.
Proof using LA.
  intros E. destruct (cp_of_spec z c E) as (h & Eh & (k & P & K1 & K2) & S & T & N & NV & ER). rewrite int_new in Eh.
  destruct (fields LA _ _ Eh) as ((fh & bh) & (fc & bc) & _). pose proof (hue60 _ fh bh) as f60.
  fconst (dec "48.0"). fconst (dec "16.0"). fconst (dec "24.0"). fconst (dec "4.0"). fconst (dec "8.0"). fconst (dec "25.0"). fconst (dec "84.0").
  apply split_modest.
  - destruct (fle (dec "48.0") (h_chroma h)); [rewrite (K1 eq_refl) in P|rewrite (K2 eq_refl) in P]; apply (of_modest _ _ _ P); try assumption; lra.
  - apply (of_modest _ _ _ S); try assumption; lra.
  - apply (of_modest _ _ _ T); try assumption; lra.
  - apply (of_modest _ _ _ N); try assumption; lra.
  - apply (of_modest _ _ _ NV); try assumption; lra.
  - apply (of_modest _ _ _ ER); try assumption; lra.
Qed.
Lemma cp_content_modest z c : cp_content_of z = Ok c -> all_modest c.
Proof using LA.
  intros E. destruct (cp_content_spec z c E) as (h & Eh & P & S & T & (k & N & K1 & K2) & (k' & NV & K1' & K2') & ER). rewrite int_new in Eh.
  destruct (fields LA _ _ Eh) as ((fh & bh) & (fc & bc) & _). pose proof (hue60 _ fh bh) as f60.
  fconst (dec "3.0"). fconst (dec "2.0"). fconst (dec "12.0"). fconst (dec "6.0"). fconst (dec "4.0"). fconst (dec "8.0"). fconst (dec "25.0"). fconst (dec "84.0").
  destruct (part_fin (h_chroma h) "3.0" 3 fc bc F V ltac:(lra)) as [f3 b3]. destruct (part_fin (h_chroma h) "2.0" 2 fc bc F0 V0 ltac:(lra)) as [f2 b2].
  destruct (part_fin (h_chroma h) "12.0" 12 fc bc F1 V1 ltac:(lra)) as [f12 b12]. destruct (part_fin (h_chroma h) "6.0" 6 fc bc F2 V2 ltac:(lra)) as [f6 b6].
  apply split_modest.
  - apply (of_modest _ _ _ P); try assumption; lra.
  - apply (of_modest _ _ _ S); try assumption; lra.
  - apply (of_modest _ _ _ T); try assumption; lra.
  - destruct (fle (fdiv (h_chroma h) (dec "12.0")) (dec "4.0")); [rewrite (K1 eq_refl) in N|rewrite (K2 eq_refl) in N]; apply (of_modest _ _ _ N); try assumption; lra.
  - destruct (fle (fdiv (h_chroma h) (dec "6.0")) (dec "8.0")); [rewrite (K1' eq_refl) in NV|rewrite (K2' eq_refl) in NV]; apply (of_modest _ _ _ NV); try assumption; lra.
  - apply (of_modest _ _ _ ER); try assumption; lra.
Qed.

Context (PS : pow_special lm) (PM : pow_monotone lm).

Definition toned (roles : list ((scheme -> Z) * pal * Z)) (s : scheme) : Prop := forall g p t, In (g, p, t) roles -> (0 <= t <= 100)%Z -> SpecTone.within 1 (lstar_from_argb (g s)) (IZR t).
Lemma toned_by c roles s : all_modest c ->
  (forall g p t, In (g, p, t) roles -> exists h, hct_from (tp_hue (cp_sel c p)) (tp_chroma (cp_sel c p)) (of_Z t) = Ok h /\ hct_to_int h = g s) -> toned roles s.
Proof using LA PS PM.
  intros M R g p t I bt. destruct (R g p t I) as (h & E & <-). destruct (M p) as (fh & fc & bc). apply (got_tone LA PS PM _ _ t _ fh fc bc bt). rewrite E. cbn [rmap]. reflexivity.
Qed.
Lemma light_toned z s : scheme_light z = Ok s \/ scheme_light_content z = Ok s -> toned light_roles s.
Proof using LA PS PM.
  intros [E|E]; [destruct (light_scheme z s E) as (c & C & R)|destruct (light_content_scheme z s E) as (c & C & R)]; apply (toned_by c _ s); try exact R; [exact (cp_modest z c C)|exact (cp_content_modest z c C)].
Qed.
Lemma dark_toned z s : scheme_dark z = Ok s \/ scheme_dark_content z = Ok s -> toned dark_roles s.
Proof using LA PS PM.
  intros [E|E]; [destruct (dark_scheme z s E) as (c & C & R)|destruct (dark_content_scheme z s E) as (c & C & R)]; apply (toned_by c _ s); try exact R; [exact (cp_modest z c C)|exact (cp_content_modest z c C)].
Qed.
End Acc.

Definition legible {lm : Libm} (r : R) (s : scheme) (f g : scheme -> Z) : Prop := r <= B2R (ratio_of_tones (lstar_from_argb (f s)) (lstar_from_argb (g s))).
Lemma by_tones {lm : Libm} (roles : list ((scheme -> Z) * pal * Z)) s f p t g q u (k : string) (r : R) : toned roles s -> In (f, p, t) roles -> In (g, q, u) roles -> (0 <= t <= 100)%Z -> (0 <= u <= 100)%Z ->
  fle (dec k) (ratio_of_tones (of_Z t) (of_Z u)) = true -> fin (dec k) -> r <= 0.92 * B2R (dec k) -> legible r s f g.
Proof.
  intros T I1 I2 b1 b2 L fk br. destruct (int_tone t b1) as [f1 c1]. destruct (int_tone u b2) as [f2 c2].
  pose proof (T _ _ _ I1 b1) as W1. pose proof (T _ _ _ I2 b2) as W2. rewrite <- c1 in W1. rewrite <- c2 in W2.
  pose proof (kept _ _ _ _ W1 W2 f1 f2) as K. destruct (ratio_bounds (of_Z t) (of_Z u) (fin_not_nan _ f1) (fin_not_nan _ f2)) as (fr & _).
  apply (fle_fin _ _ fk fr) in L. unfold legible. lra.
Qed.

Ltac place := first [left; reflexivity | right; place].
Ltac each V F T k := match goal with H : In _ _ |- _ => destruct H as [H|H]; [injection H as <- <-; eapply (by_tones _ _ _ _ _ _ _ _ k _ T);
  [place|place|split; discriminate|split; discriminate|vm_compute; reflexivity|exact F|rewrite V; lra]|] end.
Lemma light_legible {lm : Libm} s : toned light_roles s -> (forall f g, In (f, g) text_pairs -> legible 4.5 s f g) /\ (forall f g, In (f, g) line_pairs -> legible 3 s f g).
Proof.
  intros T. fconst (dec "4.9"). fconst (dec "3.3"). split; intros f g I; unfold text_pairs, line_pairs in I.
  - do 19 (each V F T "4.9"). destruct I.
  - do 2 (each V0 F0 T "3.3"). destruct I.
Qed.
Lemma dark_legible {lm : Libm} s : toned dark_roles s -> (forall f g, In (f, g) text_pairs -> legible 4.5 s f g) /\ (forall f g, In (f, g) line_pairs -> legible 3 s f g).
Proof.
  intros T. fconst (dec "4.9"). fconst (dec "3.3"). split; intros f g I; unfold text_pairs, line_pairs in I.
  - do 19 (each V F T "4.9"). destruct I.
  - do 2 (each V0 F0 T "3.3"). destruct I.
Qed.
Lemma scheme_legible {lm : Libm} (LA : libm_accurate (1 / 10 ^ 13) lm) (PS : pow_special lm) (PM : pow_monotone lm) z s :
  scheme_light z = Ok s \/ scheme_dark z = Ok s \/ scheme_light_content z = Ok s \/ scheme_dark_content z = Ok s ->
  (forall f g, In (f, g) text_pairs -> 4.5 <= B2R (ratio_of_tones (lstar_from_argb (f s)) (lstar_from_argb (g s)))) /\
  (forall f g, In (f, g) line_pairs -> 3 <= B2R (ratio_of_tones (lstar_from_argb (f s)) (lstar_from_argb (g s)))).
Proof.
  intros [E|[E|[E|E]]].
  - exact (light_legible s (light_toned LA PS PM z s (or_introl E))).
  - exact (dark_legible s (dark_toned LA PS PM z s (or_introl E))).
  - exact (light_legible s (light_toned LA PS PM z s (or_intror E))).
  - exact (dark_legible s (dark_toned LA PS PM z s (or_intror E))).
Qed.
