(** * What text roles get when the ratio asked of them cannot be reached.  Proof file. *)
From Coq Require Import ZArith Bool Reals Lra Lia Psatz String List.
From Flocq Require Import Core Relative IEEE754.BinarySingleNaN.
From Verif Require Import F64 MathUtils ColorUtils Contrast Hct Palettes DynamicScheme DynamicColor MaterialDynamicColors
  Spec SpecTones FloatFacts FloatMono FloatCast PfArgb PfMath PfColor PfContrast PfHct PfTones PfLab PfReach.
Import ListNotations.
Open Scope string_scope.
Open Scope list_scope.
Open Scope R_scope.

Section Floor.
Context {lm : Libm} (PD : pow_defined lm) (PA : pow_accurate (1 / 10 ^ 5) lm).

Lemma extremes t : is_tone t -> 4.58 <= B2R (ratio_of_tones (dec "100.0") t) \/ 4.58 <= B2R (ratio_of_tones (dec "0.0") t).
Proof using.
  intros Tt. assert (TC : is_tone (dec "49.375")) by tone_lit. fconst (dec "49.375"). fconst (dec "4.580001"). fconst (dec "100.0"). fconst (dec "0.0"). destruct Tt as [ft bt].
  destruct (Rle_or_lt (B2R t) 49.375) as [l|l]; [left|right].
  - rewrite ratio_sym by (apply fin_not_nan; assumption). apply (ratio_at_least _ _ _ (dec "49.375") (dec "100.0")); try exact white; try exact TC; try (split; assumption); try lra.
    apply Rle_trans with (B2R (dec "4.580001")); [rewrite V0; lra|]. apply lit_ratio; [exact TC|exact white|vm_compute; reflexivity|assumption].
  - apply (ratio_at_least _ _ _ (dec "0.0") (dec "49.375")); try exact black_; try exact TC; try (split; assumption); try lra.
    apply Rle_trans with (B2R (dec "4.580001")); [rewrite V0; lra|]. apply lit_ratio; [exact black_|exact TC|vm_compute; reflexivity|assumption].
Qed.

Lemma fg_floor t r : is_tone t -> fin r -> 0.9 <= B2R r <= 22 -> Rmin (B2R r) 4.47 <= B2R (ratio_of_tones (foreground_tone t r) t).
Proof using PD PA.
  intros Tt fr br. pose proof (fin_not_nan _ fr) as nr. pose proof (tone_nn _ Tt) as nt.
  pose proof (lighter_nn t r PD nt nr) as nL. pose proof (darker_nn t r PD nt nr) as nD.
  destruct (lighter_unsafe_ok t r nL) as (TL & L1 & L2). destruct (darker_unsafe_ok t r nD) as (TD & D1 & D2).
  destruct (fle r (ratio_of_tones (lighter_unsafe t r) t)) eqn:RL.
  { apply Rle_trans with (1 := Rmin_l _ _). apply (reaches_fle (foreground_tone t r) t r (fg_tone t r PD nt nr) Tt fr). apply (fg_reaches t r PD nt nr). left. exact RL. }
  destruct (fle r (ratio_of_tones (darker_unsafe t r) t)) eqn:RD.
  { apply Rle_trans with (1 := Rmin_l _ _). apply (reaches_fle (foreground_tone t r) t r (fg_tone t r PD nt nr) Tt fr). apply (fg_reaches t r PD nt nr). right. exact RD. }
  assert (EL : lighter_unsafe t r = dec "100.0").
  { destruct (lighter_cases t r) as [c|[c|c]]; [rewrite nL in c; discriminate c|exact (L1 c)|exfalso].
    assert (Q : lighter t r <> dec "-1.0") by (intros e; rewrite e in c; fconst (dec "-1.0"); destruct c as [_ c]; lra).
    destruct (lighter_ok PA t r Tt fr br Q) as (T & R & _). rewrite <- (L2 Q) in R, T. apply (reaches_fle _ t r T Tt fr) in R. rewrite R in RL. discriminate RL. }
  assert (ED : darker_unsafe t r = dec "0.0").
  { destruct (darker_cases t r) as [c|[c|c]]; [rewrite nD in c; discriminate c|exact (D1 c)|exfalso].
    assert (Q : darker t r <> dec "-1.0") by (intros e; rewrite e in c; fconst (dec "-1.0"); destruct c as [_ c]; lra).
    destruct (darker_ok PA t r Tt fr br Q) as (T & R & _). rewrite <- (D2 Q) in R, T. apply (reaches_fle _ t r T Tt fr) in R. rewrite R in RD. discriminate RD. }
  apply Rle_trans with (1 := Rmin_r _ _).
  pose proof (extremes t Tt) as EX. unfold foreground_tone. cbv zeta. unfold fge. change Bleb with fle. rewrite RL, RD. rewrite EL, ED.
  destruct (ratio_bounds (dec "100.0") t (tone_nn _ white) nt) as [FL BL]. destruct (ratio_bounds (dec "0.0") t (tone_nn _ black_) nt) as [FD BD].
  set (lr := ratio_of_tones (dec "100.0") t) in *. set (dr := ratio_of_tones (dec "0.0") t) in *.
  assert (SW : forall b : bool, B2R (ratio_of_tones (if b then dec "100.0" else dec "0.0") t) = if b then B2R lr else B2R dr) by (intros []; reflexivity).
  assert (SB : forall b : bool, B2R (ratio_of_tones (if b then dec "0.0" else dec "100.0") t) = if b then B2R dr else B2R lr) by (intros []; reflexivity).
  cbn [orb]. destruct (tone_prefers_light_foreground t).
  - rewrite SW. destruct (fle dr lr) eqn:C; cbn [orb].
    + apply (fle_fin _ _ FD FL) in C. lra.
    + apply (fle_fin_f _ _ FD FL) in C. destruct (_ && _)%bool eqn:N; [|lra]. apply andb_true_iff in N. destruct N as [N _]. apply andb_true_iff in N. destruct N as [N _].
      fconst (dec "0.1"). destruct (fsub_S lr dr FL FD ltac:(fsmall)) as [E F'].
      assert (FA : fin (fabs (lr - dr)%f) /\ B2R (fabs (lr - dr)%f) = Rabs (B2R (lr - dr)%f)) by (split; [unfold fabs; rewrite is_finite_Babs; exact F'|unfold fabs; apply B2R_Babs]).
      destruct FA as [FA EA]. apply (flt_fin _ _ FA F) in N. rewrite EA, E, V in N.
      pose proof (rnd_near (B2R lr - B2R dr) ltac:(lra)) as NR. set (q := rnd (B2R lr - B2R dr)) in *. clearbody q. apply Rabs_lt_inv in N. lra.
  - rewrite SB. destruct (fle lr dr) eqn:C; cbn [orb]; [apply (fle_fin _ _ FL FD) in C|apply (fle_fin_f _ _ FL FD) in C]; lra.
Qed.

Lemma single_floor a t r d : is_tone a -> is_tone t -> fin r -> 0.9 <= B2R r <= 22 -> Rmin (B2R r) 4.47 <= B2R (ratio_of_tones (single_tone false a t r d) t).
Proof using PD PA.
  intros Ta Tt fr br. unfold single_tone. cbv zeta. cbn [andb]. pose proof (fg_floor t r Tt fr br) as G. destruct d; [exact G|].
  unfold fge. change Bleb with fle. destruct (fle r (ratio_of_tones t a)) eqn:C; [|exact G].
  apply Rle_trans with (1 := Rmin_l _ _). rewrite ratio_sym in C by (apply tone_nn; assumption). exact (proj1 (reaches_fle a t r Ta Tt fr) C).
Qed.

Lemma dual_floor a lo hi r : is_tone a -> is_tone lo -> is_tone hi -> fin r -> 0.9 <= B2R r <= 22 ->
  B2R lo + 9.9 <= B2R hi -> B2R hi < 50 \/ 60 <= B2R lo ->
  Rmin (B2R r) 4.47 <= B2R (ratio_of_tones (dual_tone a lo hi r) lo) /\ Rmin (B2R r) 4.47 <= B2R (ratio_of_tones (dual_tone a lo hi r) hi).
Proof using PD PA.
  intros Ta Tl Th fr br g side. pose proof (fin_not_nan _ fr) as nr.
  pose proof (dual_ok a lo hi r PD Ta Tl Th nr) as TD.
  destruct (Rlt_or_le (B2R r) 1) as [r1|r1].
  { destruct (ratio_bounds (dual_tone a lo hi r) lo (tone_nn _ TD) (tone_nn _ Tl)) as [_ B1].
    destruct (ratio_bounds (dual_tone a lo hi r) hi (tone_nn _ TD) (tone_nn _ Th)) as [_ B2]. pose proof (Rmin_l (B2R r) 4.47). lra. }
  assert (Up : forall x k, is_tone x -> B2R hi <= B2R x -> k <= B2R (ratio_of_tones x hi) -> k <= B2R (ratio_of_tones x lo) /\ k <= B2R (ratio_of_tones x hi)).
  { intros x k0 Tx c k. split; [|exact k]. apply Rle_trans with (1 := k).
    rewrite (ratio_sym x hi), (ratio_sym x lo) by (now apply tone_nn).
    apply ratio_widen; try (now apply tone_nn); rewrite !val_fin by (now apply tone_fin); lra. }
  assert (Dn : forall x k, is_tone x -> B2R x <= B2R lo -> k <= B2R (ratio_of_tones x lo) -> k <= B2R (ratio_of_tones x lo) /\ k <= B2R (ratio_of_tones x hi)).
  { intros x k0 Tx c k. split; [exact k|]. apply Rle_trans with (1 := k).
    apply ratio_widen; try (now apply tone_nn); rewrite !val_fin by (now apply tone_fin); lra. }
  pose proof (Rmin_l (B2R r) 4.47) as K1. pose proof (Rmin_r (B2R r) 4.47) as K2. set (k := Rmin (B2R r) 4.47) in *. clearbody k.
  pose proof (lighter_ok PA hi r Th fr br) as LO. pose proof (darker_ok PA lo r Tl fr br) as DO.
  pose proof (lighter_range hi r PD (tone_nn _ Th) nr) as LR. pose proof (darker_range lo r PD (tone_nn _ Tl) nr) as DR.
  clear TD. unfold dual_tone. cbv zeta.
  assert (MX : fmax lo hi = hi).
  { unfold fmax. rewrite (tone_nn _ Tl), (tone_nn _ Th).
    assert (X : flt lo hi = true) by (apply (proj2 (flt_fin lo hi (tone_fin _ Tl) (tone_fin _ Th))); lra). now rewrite X. }
  assert (MN : fmin lo hi = lo).
  { unfold fmin. rewrite (tone_nn _ Tl), (tone_nn _ Th).
    assert (X : flt hi lo = false) by (apply (proj2 (flt_fin_f hi lo (tone_fin _ Th) (tone_fin _ Tl))); lra). now rewrite X. }
  rewrite MX, MN. unfold fge. change Bleb with fle.
  destruct (fle r (ratio_of_tones hi a) && fle r (ratio_of_tones lo a))%bool eqn:C.
  { apply andb_true_iff in C. destruct C as [C1 C2].
    rewrite ratio_sym in C1, C2 by (now apply tone_nn).
    apply (reaches_fle a hi r Ta Th fr) in C1. apply (reaches_fle a lo r Ta Tl fr) in C2. unfold reaches in C1, C2. lra. }
  change (fneg (dec "1.0")) with (dec "-1.0").
  assert (X : flt (dec "-1.0") (dec "0.0") = true) by (vm_compute; reflexivity).
  assert (NN : fne (dec "-1.0") (dec "-1.0") = false) by (vm_compute; reflexivity).
  fconst (dec "-1.0"). fconst (dec "0.0"). fconst (dec "100.0"). fconst (dec "4.48"). fconst (dec "50.0"). fconst (dec "60.0").
  assert (Pos : forall x, is_tone x -> flt x (dec "0.0") = false).
  { intros x [fx bx]. apply (proj2 (flt_fin_f x (dec "0.0") fx F0)). lra. }
  assert (Ne : forall x, is_tone x -> x <> dec "-1.0").
  { intros x [_ bx] e. rewrite e in bx. lra. }
  assert (T50 : is_tone (dec "50.0")) by tone_lit. assert (T60 : is_tone (dec "60.0")) by tone_lit.
  destruct Tl as [fl bl], Th as [fh bh].
  destruct side as [s|s].
  - assert (WW : k <= B2R (ratio_of_tones (dec "100.0") hi)).
    { apply Rle_trans with (1 := K2). rewrite ratio_sym by (apply fin_not_nan; assumption).
      apply (ratio_at_least _ _ _ (dec "50.0") (dec "100.0")); try exact white; try exact T50; try (split; assumption); try lra.
      apply Rle_trans with (B2R (dec "4.48")); [rewrite V2; lra|]. apply lit_ratio; [exact T50|exact white|vm_compute; reflexivity|assumption]. }
    assert (PL : tone_prefers_light_foreground lo = true).
    { apply prefers_iff; [now apply fin_not_nan|]. rewrite val_fin by assumption. lra. }
    rewrite PL. cbn [orb]. destruct LR as [e|T].
    + rewrite e, X. apply Up; [exact white|lra|exact WW].
    + rewrite (Pos _ T). destruct (LO (Ne _ T)) as (_ & R1 & R2). apply Up; [exact T|specialize (R2 r1); lra|lra].
  - assert (BW : k <= B2R (ratio_of_tones (dec "0.0") lo)).
    { apply Rle_trans with (1 := K2).
      apply (ratio_at_least _ _ _ (dec "0.0") (dec "60.0")); try exact black_; try exact T60; try (split; assumption); try lra.
      apply Rle_trans with (B2R (dec "4.48")); [rewrite V2; lra|]. apply lit_ratio; [exact black_|exact T60|vm_compute; reflexivity|assumption]. }
    assert (P1 : tone_prefers_light_foreground lo = false).
    { destruct (tone_prefers_light_foreground lo) eqn:Q; [|reflexivity]. apply prefers_iff in Q; [|now apply fin_not_nan].
      rewrite val_fin in Q by assumption. lra. }
    assert (P2 : tone_prefers_light_foreground hi = false).
    { destruct (tone_prefers_light_foreground hi) eqn:Q; [|reflexivity]. apply prefers_iff in Q; [|now apply fin_not_nan].
      rewrite val_fin in Q by assumption. lra. }
    rewrite P1, P2. cbn [orb].
    assert (Dark : let d := if flt (darker lo r) (dec "0.0") then dec "0.0" else darker lo r in k <= B2R (ratio_of_tones d lo) /\ k <= B2R (ratio_of_tones d hi)).
    { cbv zeta. destruct DR as [e|T].
      - rewrite e, X. apply Dn; [exact black_|lra|exact BW].
      - rewrite (Pos _ T). destruct (DO (Ne _ T)) as (_ & R1 & R2). apply Dn; [exact T|specialize (R2 r1); lra|lra]. }
    destruct LR as [e|T]; [rewrite e, NN|]; (destruct DR as [e'|T']; [rewrite e', NN|]).
    + cbn [app]. rewrite e' in Dark. exact Dark.
    + destruct (fne (darker lo r) (dec "-1.0")); cbn [app]; [|exact Dark].
      cbv zeta in Dark. rewrite (Pos _ T') in Dark. exact Dark.
    + destruct (fne (lighter hi r) (dec "-1.0")); cbn [app]; [|rewrite e' in Dark; exact Dark].
      destruct (LO (Ne _ T)) as (_ & R1 & R2). apply Up; [exact T|specialize (R2 r1); lra|lra].
    + destruct (fne (lighter hi r) (dec "-1.0")) eqn:Q1, (fne (darker lo r) (dec "-1.0")) eqn:Q2; cbn [app]; try exact Dark.
      * destruct (LO (Ne _ T)) as (_ & R1 & R2). apply Up; [exact T|specialize (R2 r1); lra|lra].
      * cbv zeta in Dark. rewrite (Pos _ T') in Dark. exact Dark.
Qed.
End Floor.
