(** * Pale colours in the setters and in the older schemes.  Proof file. *)
From Coq Require Import ZArith Bool Reals Lra Lia String List.
From Flocq Require Import Core IEEE754.BinarySingleNaN.
From Verif Require Import F64 MathUtils ColorUtils ViewingConditions HctSolver Hct Palettes LegacyScheme Spec SpecCam SpecTone SpecHct SpecPalette SpecSolve SpecRender SpecPale FloatFacts RefLibm PfHct PfPalettes PfTotal PfCamProps PfToneRange PfToneHct PfToneProps PfSolveEnd PfRender PfRenderRoles PfPaleEnd PfToneCase.
Import ListNotations.
Open Scope string_scope.
Open Scope R_scope.

Section Acc.
Context {lm : Libm} (LA : libm_accurate (1 / 10 ^ 13) lm) (PS : pow_special lm).

Lemma made_pale (hue c t : f64) h : fin hue -> fin c -> 0.00011 <= B2R c -> fin t -> pale (B2R c) (B2R t) -> hct_from hue c t = Ok h -> faithful hue c (hct_to_int h).
Proof using LA PS.
  intros fh fc bc ft bt E. destruct (pale_hct LA PS hue c t fh fc bc ft bt) as (h' & E' & _ & R). rewrite E in E'. apply ok_inj in E'. subst h'. exact R.
Qed.

Lemma set_pale argb h l h1 h2 (x : f64) : hct_from_int argb = Ok h -> call_setters h l = Ok h1 -> fin x ->
  (set_hue h1 x = Ok h2 -> 0.00011 <= B2R (h_chroma h1) -> pale (B2R (h_chroma h1)) (B2R (h_tone h1)) -> faithful x (h_chroma h1) (hct_to_int h2)) /\
  (set_chroma h1 x = Ok h2 -> 0.00011 <= B2R x -> pale (B2R x) (B2R (h_tone h1)) -> faithful (h_hue h1) x (hct_to_int h2)) /\
  (set_tone h1 x = Ok h2 -> 0.00011 <= B2R (h_chroma h1) -> pale (B2R (h_chroma h1)) (B2R x) -> faithful (h_hue h1) (h_chroma h1) (hct_to_int h2)).
Proof using LA PS.
  intros E H fx. pose proof (built argb h l h1 E H) as B. destruct (fields LA _ _ B) as ((fh & _) & (fc & _) & (ft & _)).
  rewrite set_hue_eq, set_chroma_eq, set_tone_eq. split; [|split]; intros E2 C1 C2; [eapply made_pale|eapply made_pale|eapply made_pale]; try exact E2; assumption.
Qed.

Lemma painted_pale c roles s g p t (k : f64) : painted c roles s -> In (g, p, t) roles -> tp_chroma (cp_sel c p) = k -> fin (tp_hue (cp_sel c p)) -> fin k -> 0.00011 <= B2R k -> pale (B2R k) (IZR t) ->
  faithful (tp_hue (cp_sel c p)) k (g s).
Proof using LA PS.
  intros P I K fh fk bk bt. pose proof (pale_mid_tone _ _ bt) as M. assert (bt' : (0 <= t <= 100)%Z) by (split; apply le_IZR; lra). destruct (of_Z_R t ltac:(lia)) as [V F].
  specialize (P g p t I). rewrite K in P. apply (renders_pale LA PS _ k (of_Z t)); try assumption; [rewrite V; exact bt|]. apply P. split; [lra|]. rewrite V. lra.
Qed.

Lemma neutrals z c : cp_of z = Ok c -> exists h, hct_from_int z = Ok h /\ fin (h_hue h) /\
  tp_hue (cp_sel c Neutral) = h_hue h /\ tp_chroma (cp_sel c Neutral) = dec "4.0" /\ tp_hue (cp_sel c NeutralVariant) = h_hue h /\ tp_chroma (cp_sel c NeutralVariant) = dec "8.0".
Proof using LA.
  intros E. destruct (cp_of_spec _ _ E) as (h & Eh & _ & _ & _ & En & Ev & _). exists h. split; [exact Eh|]. pose proof Eh as E'. rewrite int_new in E'. destruct (fields LA _ _ E') as ((fh & _) & _). split; [exact fh|].
  apply of_fields in En, Ev. cbn [cp_sel]. tauto.
Qed.

Lemma pale_legacy z s :
  (scheme_light z = Ok s -> exists h, hct_from_int z = Ok h /\ faithful (h_hue h) (dec "8.0") (sc_outline_variant s)) /\
  (scheme_dark z = Ok s -> exists h, hct_from_int z = Ok h /\
     faithful (h_hue h) (dec "4.0") (sc_on_background s) /\ faithful (h_hue h) (dec "4.0") (sc_on_surface s) /\ faithful (h_hue h) (dec "4.0") (sc_inverse_surface s) /\
     faithful (h_hue h) (dec "8.0") (sc_on_surface_variant s) /\ faithful (h_hue h) (dec "8.0") (sc_outline s)).
Proof using LA PS.
  fconst (dec "4.0"). fconst (dec "8.0"). destruct (legacy_renders LA PS z s) as (L & D & _). split; intros E.
  - destruct (L E) as (c & C & P). destruct (neutrals z c C) as (h & Eh & fh & n1 & n2 & v1 & v2). exists h. split; [exact Eh|].
    assert (I : In (sc_outline_variant, NeutralVariant, 80%Z) light_roles) by (cbv delta [light_roles] beta; cbn [In]; repeat (first [left; reflexivity|right])). pose proof (painted_pale c light_roles s sc_outline_variant NeutralVariant 80 (dec "8.0") P I v2 ltac:(rewrite v1; exact fh) F0 ltac:(lra) ltac:(right; right; right; left; split; lra)) as R. rewrite v1 in R. exact R.
  - destruct (D E) as (c & C & P). destruct (neutrals z c C) as (h & Eh & fh & n1 & n2 & v1 & v2). exists h. split; [exact Eh|]. split; [|split; [|split; [|split]]].
    + assert (I : In (sc_on_background, Neutral, 90%Z) dark_roles) by (cbv delta [dark_roles] beta; cbn [In]; repeat (first [left; reflexivity|right])). pose proof (painted_pale c dark_roles s sc_on_background Neutral 90 (dec "4.0") P I n2 ltac:(rewrite n1; exact fh) F ltac:(lra) ltac:(left; split; lra)) as R. rewrite n1 in R. exact R.
    + assert (I : In (sc_on_surface, Neutral, 90%Z) dark_roles) by (cbv delta [dark_roles] beta; cbn [In]; repeat (first [left; reflexivity|right])). pose proof (painted_pale c dark_roles s sc_on_surface Neutral 90 (dec "4.0") P I n2 ltac:(rewrite n1; exact fh) F ltac:(lra) ltac:(left; split; lra)) as R. rewrite n1 in R. exact R.
    + assert (I : In (sc_inverse_surface, Neutral, 90%Z) dark_roles) by (cbv delta [dark_roles] beta; cbn [In]; repeat (first [left; reflexivity|right])). pose proof (painted_pale c dark_roles s sc_inverse_surface Neutral 90 (dec "4.0") P I n2 ltac:(rewrite n1; exact fh) F ltac:(lra) ltac:(left; split; lra)) as R. rewrite n1 in R. exact R.
    + assert (I : In (sc_on_surface_variant, NeutralVariant, 80%Z) dark_roles) by (cbv delta [dark_roles] beta; cbn [In]; repeat (first [left; reflexivity|right])). pose proof (painted_pale c dark_roles s sc_on_surface_variant NeutralVariant 80 (dec "8.0") P I v2 ltac:(rewrite v1; exact fh) F0 ltac:(lra) ltac:(right; right; right; left; split; lra)) as R. rewrite v1 in R. exact R.
    + assert (I : In (sc_outline, NeutralVariant, 60%Z) dark_roles) by (cbv delta [dark_roles] beta; cbn [In]; repeat (first [left; reflexivity|right])). pose proof (painted_pale c dark_roles s sc_outline NeutralVariant 60 (dec "8.0") P I v2 ltac:(rewrite v1; exact fh) F0 ltac:(lra) ltac:(right; right; right; left; split; lra)) as R. rewrite v1 in R. exact R.
Qed.
End Acc.

Lemma set_pale_case (argb : Z) : exists h h1 h2, @hct_from_int ref_libm argb = Ok h /\ @call_setters ref_libm h [SetChroma (dec "3.0"); SetTone (dec "50.0")] = Ok h1 /\
  @set_chroma ref_libm h1 (dec "4.0") = Ok h2 /\ 0.00011 <= B2R (dec "4.0") /\ pale (B2R (dec "4.0")) (B2R (h_tone h1)).
Proof.
  destruct (@int_ret ref_libm ref_13 argb) as [h E]. destruct (@from_ret ref_libm ref_13 (h_hue h) (dec "3.0") (h_tone h)) as [h0 E0].
  pose proof (built argb h [SetChroma (dec "3.0")] h0 E) as B. cbn [call_setters call_setter bind] in B. rewrite set_chroma_eq, E0 in B. specialize (B eq_refl).
  destruct (fields ref_13 _ _ B) as ((fh & _) & (fc & bc) & _). fconst (dec "50.0"). fconst (dec "4.0"). destruct (from_tone ref_13 ref_pow_special (h_hue h0) (h_chroma h0) (dec "50.0") fh fc ltac:(lra) F ltac:(lra)) as (h1 & E1 & _ & N).
  destruct (@from_ret ref_libm ref_13 (h_hue h1) (dec "4.0") (h_tone h1)) as [h2 E2]. exists h, h1, h2. split; [exact E|]. split.
  - cbn [call_setters call_setter bind]. rewrite set_chroma_eq, E0. cbn [bind]. rewrite set_tone_eq, E1. reflexivity.
  - split; [rewrite set_chroma_eq; exact E2|]. split; [lra|left; lra].
Qed.
Lemma pale_legacy_case : (exists s, @scheme_light ref_libm 0xFF6750A4 = Ok s) /\ (exists s, @scheme_dark ref_libm 0xFF6750A4 = Ok s).
Proof. destruct (legacy_ret ref_13 0xFF6750A4) as (a & b & _). split; [exact a|exact b]. Qed.
