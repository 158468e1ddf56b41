(** * Hue and chroma of palettes, setters and blends, from those of the solver.  Proof file. *)
From Coq Require Import ZArith Bool Reals Lra Lia String List.
From Flocq Require Import Core IEEE754.BinarySingleNaN.
From Verif Require Import F64 MathUtils ColorUtils ViewingConditions Cam16 HctSolver Hct Palettes Spec SpecCam SpecTone SpecHct SpecPalette SpecSolve SpecRender FloatFacts RefLibm PfTones PfHct PfPalettes PfCamProps PfToneRange PfToneHct PfSolveHue PfSolveEnd PfTotal.
Import ListNotations.
Open Scope string_scope.
Open Scope R_scope.

Section Acc.
Context {lm : Libm} (LA : libm_accurate (1 / 10 ^ 13) lm) (PS : pow_special lm).

Lemma from_renders (hue chroma_ t : f64) h : fin hue -> fin chroma_ -> fin t -> coloured chroma_ t -> hct_from hue chroma_ t = Ok h -> renders hue chroma_ t (hct_to_int h).
Proof using LA PS.
  intros fh fc ft [bc bt] E. destruct (from_parts _ _ _ _ E) as (c & ES & ->). exact (solve_looks LA PS hue chroma_ t c fh fc bc ft bt ES).
Qed.

Lemma got_renders (hue chroma_ : f64) (t c : Z) : fin hue -> fin chroma_ -> 0.00011 <= B2R chroma_ <= 10 ^ 9 -> (1 <= t <= 99)%Z ->
  rmap hct_to_int (hct_from hue chroma_ (of_Z t)) = Ok c -> renders hue chroma_ (of_Z t) c.
Proof using LA PS.
  intros fh fc bc bt E. destruct (of_Z_R t ltac:(lia)) as [V F]. destruct (hct_from hue chroma_ (of_Z t)) as [h|] eqn:Eh; cbn [rmap] in E; [|discriminate E].
  apply ok_inj in E. rewrite <- E. apply from_renders; [exact fh|exact fc|exact F| |exact Eh]. split; [exact bc|]. rewrite V. assert (1 <= IZR t <= 99) by (split; apply IZR_le; lia). lra.
Qed.

Lemma of_renders (hue chroma_ : f64) p ts p' (t : Z) : tp_of hue chroma_ = Ok p -> after_gets p ts = Ok p' -> fin hue -> fin chroma_ -> 0.00011 <= B2R chroma_ <= 10 ^ 9 -> (1 <= t <= 99)%Z ->
  exists c, rmap fst (tp_get p' t) = Ok c /\ renders hue chroma_ (of_Z t) c.
Proof using LA PS.
  intros E H fh fc bc bt. rewrite (of_history hue chroma_ ts p p' t E H). destruct (got_ret LA hue chroma_ t) as [c Ec]. exists c. split; [exact Ec|]. exact (got_renders hue chroma_ t c fh fc bc bt Ec).
Qed.

Lemma hct_renders argb h ts p' (t : Z) : hct_from_int argb = Ok h -> after_gets (tp_from_hct h) ts = Ok p' -> 0.00011 <= B2R (h_chroma h) -> (1 <= t <= 99)%Z ->
  exists c, rmap fst (tp_get p' t) = Ok c /\ renders (h_hue h) (h_chroma h) (of_Z t) c.
Proof using LA PS.
  intros E H b0 bt. rewrite int_new in E. destruct (fields LA _ _ E) as ((fh & _) & (fc & bc) & _). rewrite (from_hct_history h ts p' t H).
  destruct (got_ret LA (h_hue h) (h_chroma h) t) as [c Ec]. exists c. split; [exact Ec|]. apply (got_renders (h_hue h) (h_chroma h) t c fh fc ltac:(lra) bt Ec).
Qed.

Lemma set_renders argb h l h1 h2 (x : f64) : hct_from_int argb = Ok h -> call_setters h l = Ok h1 -> fin x ->
  (set_hue h1 x = Ok h2 -> coloured (h_chroma h1) (h_tone h1) -> renders x (h_chroma h1) (h_tone h1) (hct_to_int h2)) /\
  (set_chroma h1 x = Ok h2 -> coloured x (h_tone h1) -> renders (h_hue h1) x (h_tone h1) (hct_to_int h2)) /\
  (set_tone h1 x = Ok h2 -> coloured (h_chroma h1) x -> renders (h_hue h1) (h_chroma h1) x (hct_to_int h2)).
Proof using LA PS.
  intros E H fx. pose proof (built argb h l h1 E H) as B. destruct (fields LA _ _ B) as ((fh & _) & (fc & _) & (ft & _)).
  rewrite set_hue_eq, set_chroma_eq, set_tone_eq. split; [|split]; intros E2 C; apply from_renders; assumption.
Qed.

Lemma harmonize_renders d s r : harmonize d s = Ok r -> exists dh sh, hct_from_int d = Ok dh /\ hct_from_int s = Ok sh /\
  (coloured (h_chroma dh) (h_tone dh) -> renders (harmonize_hue (h_hue dh) (h_hue sh)) (h_chroma dh) (h_tone dh) r).
Proof using LA PS.
  intros E. destruct (harmonize_inv d s r E) as (dh & sh & h & E1 & E2 & E3 & E4). exists dh, sh. split; [exact E1|]. split; [exact E2|]. intros C. rewrite <- E4.
  rewrite int_new in E1, E2. destruct (fields LA _ _ E1) as ((fh & bh) & (fc & bc) & ft & bt). destruct (fields LA _ _ E2) as ((fh2 & bh2) & _).
  destruct (harmonize_hue_ok _ _ fh fh2 bh bh2) as (fo & _). exact (from_renders _ _ _ _ fo fc ft C E3).
Qed.

Lemma blend_renders a b t r : blend_hct_hue a b t = Ok r -> exists u hu ha, blend_cam16_ucs a b t = Ok u /\ hct_from_int u = Ok hu /\ hct_from_int a = Ok ha /\
  (coloured (h_chroma ha) (h_tone ha) -> renders (h_hue hu) (h_chroma ha) (h_tone ha) r).
Proof using LA PS.
  intros E. destruct (hct_hue_inv a b t r E) as (u & hu & ha & h & E0 & E1 & E2 & E3 & E4). exists u, hu, ha. split; [exact E0|]. split; [exact E1|]. split; [exact E2|]. intros C. rewrite <- E4.
  rewrite int_new in E1, E2. destruct (fields LA _ _ E1) as ((fh & bh) & _). destruct (fields LA _ _ E2) as (_ & (fc & bc) & ft & bt). exact (from_renders _ _ _ _ fh fc ft C E3).
Qed.
End Acc.

Lemma palette_case : exists p c, @tp_of ref_libm (dec "270.0") (dec "36.0") = Ok p /\ rmap fst (@tp_get ref_libm p 40) = Ok c /\ @renders ref_libm (dec "270.0") (dec "36.0") (of_Z 40) c.
Proof.
  destruct (tp_ret ref_13 (dec "270.0") (dec "36.0")) as [p E]. exists p. fconst (dec "270.0"). fconst (dec "36.0").
  destruct (of_renders ref_13 ref_pow_special (dec "270.0") (dec "36.0") p [] p 40 E eq_refl F F0 ltac:(lra) ltac:(lia)) as (c & Ec & R). exists c. split; [exact E|]. split; [exact Ec|exact R].
Qed.
Lemma set_case (h : hct) : exists h2, @set_chroma ref_libm h (dec "60.0") = Ok h2.
Proof. rewrite set_chroma_eq. exact (from_ret ref_13 _ _ _). Qed.
