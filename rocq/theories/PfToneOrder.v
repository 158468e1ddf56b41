(** * Palettes get lighter as the tone grows.  Proof file. *)
From Coq Require Import ZArith Bool Reals Lra Lia String List.
From Flocq Require Import Core IEEE754.BinarySingleNaN.
From Verif Require Import F64 MathUtils ColorUtils Cam16 Hct Palettes Spec SpecCam SpecPalette FloatFacts FloatMono PfPalettes PfToneHct PfTotal PfToneContrast PfToneRange RefLibm PfCamProps.
From Verif Require Import SpecTone.
Open Scope string_scope.
Open Scope R_scope.

Lemma apart_lt (x y : f64) a b : within 1 x a -> within 1 y b -> a + 2 < b -> flt x y = true /\ b - a - 2 <= B2R y - B2R x.
Proof.
  intros [fx hx] [fy hy] h. apply Rabs_le_inv in hx. apply Rabs_le_inv in hy. split; [|lra]. apply flt_fin; [assumption|assumption|lra].
Qed.

Section Acc.
Context {lm : Libm} (LA : libm_accurate (1 / 10 ^ 13) lm) (PS : pow_special lm) (PM : pow_monotone lm).

Lemma of_ramp hue1 chroma1 hue2 chroma2 p q p' q' reads1 reads2 (i j : Z) :
  fin hue1 -> fin chroma1 -> B2R chroma1 <= 10 ^ 9 -> fin hue2 -> fin chroma2 -> B2R chroma2 <= 10 ^ 9 ->
  tp_of hue1 chroma1 = Ok p -> after_gets p reads1 = Ok p' -> tp_of hue2 chroma2 = Ok q -> after_gets q reads2 = Ok q' ->
  (0 <= i)%Z -> (i + 3 <= j)%Z -> (j <= 100)%Z ->
  exists c d, rmap fst (tp_get p' i) = Ok c /\ rmap fst (tp_get q' j) = Ok d /\
    flt (lstar_from_argb c) (lstar_from_argb d) = true /\ IZR (j - i - 2) <= B2R (lstar_from_argb d) - B2R (lstar_from_argb c).
Proof using LA PS PM.
  intros f1 g1 b1 f2 g2 b2 Ep Hp Eq Hq h0 h1 h2.
  destruct (of_tones LA PS PM hue1 chroma1 p reads1 p' i Ep Hp f1 g1 b1 ltac:(lia)) as (c & Ec & Wc).
  destruct (of_tones LA PS PM hue2 chroma2 q reads2 q' j Eq Hq f2 g2 b2 ltac:(lia)) as (d & Ed & Wd).
  exists c, d. split; [exact Ec|]. split; [exact Ed|]. rewrite !minus_IZR. apply (apart_lt _ _ _ _ Wc Wd).
  rewrite <- plus_IZR. apply IZR_lt. lia.
Qed.

Lemma hct_ramp a b ha hb p' q' reads1 reads2 (i j : Z) :
  hct_from_int a = Ok ha -> hct_from_int b = Ok hb -> after_gets (tp_from_hct ha) reads1 = Ok p' -> after_gets (tp_from_hct hb) reads2 = Ok q' ->
  (0 <= i)%Z -> (i + 3 <= j)%Z -> (j <= 100)%Z ->
  exists c d, rmap fst (tp_get p' i) = Ok c /\ rmap fst (tp_get q' j) = Ok d /\
    flt (lstar_from_argb c) (lstar_from_argb d) = true /\ IZR (j - i - 2) <= B2R (lstar_from_argb d) - B2R (lstar_from_argb c).
Proof using LA PS PM.
  intros Ea Eb Hp Hq h0 h1 h2.
  destruct (hct_tones LA PS PM a ha reads1 p' i Ea Hp ltac:(lia)) as (c & Ec & Wc).
  destruct (hct_tones LA PS PM b hb reads2 q' j Eb Hq ltac:(lia)) as (d & Ed & Wd).
  exists c, d. split; [exact Ec|]. split; [exact Ed|]. rewrite !minus_IZR. apply (apart_lt _ _ _ _ Wc Wd).
  rewrite <- plus_IZR. apply IZR_lt. lia.
Qed.
End Acc.
