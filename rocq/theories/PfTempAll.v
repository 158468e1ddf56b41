(** * Temperatures for every accurate libm.  Proof file. *)
From Coq Require Import ZArith Bool Reals Lra Lia List String Sorted.
From Flocq Require Import Core IEEE754.BinarySingleNaN.
From Verif Require Import F64 MathUtils ColorUtils ViewingConditions Hct Temperature Spec SpecCam SpecTotal SpecTemperature SpecComplement
  FloatFacts FloatMono PfMath PfHct PfTemperature PfTotal PfToneHct PfToneCase PfTempRange.
Import ListNotations.
Open Scope string_scope.
Open Scope list_scope.
Open Scope Z_scope.
Section Acc.
Context {lm : Libm} (LA : libm_accurate (1 / 10 ^ 13) lm).

Lemma ordinary_always (h : hct) : ordinary_temperatures h.
Proof using LA.
  intros y _. destruct (temperature_range LA y) as (F & B). split; [exact F|]. apply Rabs_le. lra.
Qed.
Lemma black_above : exists h, hct_from_int 0xFF000000 = Ok h /\
    let lab := lab_from_argb 0xFF000000 in sqrt (B2R (v1 lab) ^ 2 + B2R (v2 lab) ^ 2) = 0%R /\
    (-0.52 < B2R (raw_temperature h))%R.
Proof using LA.
  destruct (int_ret LA 0xFF000000) as (h & E). exists h. split; [exact E|].
  assert (A : h_argb h = 0xFF000000%Z) by (rewrite int_new in E; exact (new_argb _ _ E)).
  pose proof (black_temperature LA h A) as B. rewrite A in B. exact B.
Qed.
Lemma sorted_weaken {A} (R R' : A -> A -> Prop) l : (forall x y, R x y -> R' x y) -> StronglySorted R l -> StronglySorted R' l.
Proof using.
  intros H. induction 1 as [|x l S IH FA]; constructor; [exact IH|]. apply Forall_impl with (2 := FA). intros y. apply H.
Qed.
Lemma sorted_always (h : hct) : exists l c, get_hcts_by_temp (tc_new h) = Ok (l, c) /\ Z.of_nat (List.length l) = 361 /\
    StronglySorted (fun x y => B2R (raw_temperature x) <= B2R (raw_temperature y))%R l /\
    (forall x, In x l <-> (x = h \/ exists k, 0 <= k < 360 /\ on_wheel h k x)).
Proof using LA.
  destruct (wheel_exists h (wheel_always LA h)) as (W & HW).
  destruct (get_hcts_by_temp (tc_new h)) as [[l c]|] eqn:E.
  2:{ exfalso. rewrite (new_fresh h W) in E. rewrite (by_temp_mk h W HW) in E by lia. discriminate. }
  assert (NN : forall x, is_nan (raw_temperature x) = false).
  { intros x. destruct (temperature_range LA x) as (F & _). apply fin_not_nan. exact F. }
  destruct (by_temp_result h l c E (fun x _ => NN x)) as (L & SS & I).
  exists l, c. split; [reflexivity|]. split; [rewrite L; reflexivity|]. split; [|exact I].
  apply sorted_weaken with (2 := SS). intros x y. apply fle_fin; apply (temperature_range LA).
Qed.
Lemma relative_always (h x : hct) : x = h \/ (exists k, 0 <= k < 360 /\ on_wheel h k x) ->
  exists r c, relative_temperature (tc_new h) x = Ok (r, c) /\ is_finite r = true /\ (0 <= B2R r <= 1)%R.
Proof using LA.
  intros I. destruct (relative_result h x (wheel_always LA h) (ordinary_always h) I) as (cl & wr & r & c1 & c2 & c3 & _ & _ & E & _ & _ & A & B).
  exists r, c3. split; [exact E|]. destruct (feq (raw_temperature cl) (raw_temperature wr)).
  - rewrite (A eq_refl). fconst (dec "0.5"). split; [exact F|lra].
  - destruct (B eq_refl) as (F & R & _). split; [exact F|exact R].
Qed.
End Acc.
