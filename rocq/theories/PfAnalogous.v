(** * Proofs: the offsets at which [analogous] samples the wheel. *)
From Coq Require Import ZArith List String Bool Lia Reals Lra.
From Flocq Require Import Core IEEE754.BinarySingleNaN.
From Verif Require Import F64 MathUtils ColorUtils ViewingConditions Cam16 Hct Assoc Temperature Spec SpecTemperature SpecAnalogous PfMath PfHct PfTemperature.
Import ListNotations.
Open Scope string_scope.
Open Scope list_scope.
Open Scope Z_scope.

Section S.
Context {lm : Libm}.
Variables (h : hct) (W : list hct).
Hypothesis HW : wheel (zrange 360) (h_chroma h) (h_tone h) = Ok W.
Variable start : Z.
Definition tempf (o : Z) : f64 :=
  match index W (sanitize_degrees_int (start + o)) with Ok x => relative h W x | Panic => dec "0.0" end.
Variable step : f64.
Local Notation T := (travelled tempf).
Local Notation reached := (reached tempf step).
Local Notation follows := (follows tempf step).

Lemma push_rule n x (total : f64) : forall r acc, exists m, (m <= n)%nat /\
  push_loop n x total step (fge total (fmul (of_Z (Z.of_nat (List.length acc) + Z.of_nat r)) step)) (Z.of_nat r + 1) acc = acc ++ repeat x m /\
  (forall j, (j < m)%nat -> fge total (fmul (of_Z (Z.of_nat (List.length acc) + Z.of_nat j + Z.of_nat (r + j))) step) = true) /\
  (m = n \/ fge total (fmul (of_Z (Z.of_nat (List.length acc) + Z.of_nat m + Z.of_nat (r + m))) step) = false).
Proof.
  induction n as [|n IH]; intros r acc; cbn [push_loop].
  - exists 0%nat. cbn [repeat]. rewrite app_nil_r. repeat split; [lia|intros j J; lia|now left].
  - destruct (fge total (fmul (of_Z (Z.of_nat (List.length acc) + Z.of_nat r)) step)) eqn:E.
    + cbv zeta. destruct (IH (Datatypes.S r) (acc ++ [x])) as (m & L & EQ & A & B).
      rewrite app_length in *. cbn [List.length] in *.
      exists (Datatypes.S m). split; [lia|]. split.
      * replace (Z.of_nat (Datatypes.S r)) with (Z.of_nat r + 1) in EQ by lia.
        rewrite EQ. cbn [repeat]. rewrite <- app_assoc. reflexivity.
      * split.
        { intros [|j] J; [now rewrite !Nat.add_0_r, Z.add_0_r|].
          specialize (A j ltac:(lia)).
          replace (Z.of_nat (List.length acc) + Z.of_nat (Datatypes.S j) + Z.of_nat (r + Datatypes.S j)) with
            (Z.of_nat (List.length acc + 1) + Z.of_nat j + Z.of_nat (Datatypes.S r + j)) by lia. exact A. }
        destruct B as [->|B]; [now left|right].
        replace (Z.of_nat (List.length acc) + Z.of_nat (Datatypes.S m) + Z.of_nat (r + Datatypes.S m)) with
            (Z.of_nat (List.length acc + 1) + Z.of_nat m + Z.of_nat (Datatypes.S r + m)) by lia. exact B.
    + exists 0%nat. cbn [repeat]. rewrite app_nil_r. split; [lia|]. split; [reflexivity|]. split; [intros j J; lia|right].
      now rewrite !Nat.add_0_r, Z.add_0_r.
Qed.
(** Taking [m] more colours at the same offset. *)
Lemma again m os : forall i p r, 1 <= r -> (forall j, (j < m)%nat -> reached p (i + Z.of_nat j + (r + Z.of_nat j)) = true) ->
  follows (i + Z.of_nat m) p (r + Z.of_nat m) os -> follows i p r (repeat p m ++ os).
Proof.
  induction m as [|m IH]; intros i p r R A F; cbn [repeat app].
  - now rewrite !Z.add_0_r in F.
  - apply follows_again; [exact R| |].
    + specialize (A 0%nat ltac:(lia)). now rewrite !Z.add_0_r in A.
    + apply IH; [lia| |].
      * intros j J. specialize (A (Datatypes.S j) ltac:(lia)).
        replace (i + 1 + Z.of_nat j + (r + 1 + Z.of_nat j)) with (i + Z.of_nat (Datatypes.S j) + (r + Z.of_nat (Datatypes.S j))) by lia. exact A.
      * replace (i + 1 + Z.of_nat m) with (i + Z.of_nat (Datatypes.S m)) by lia.
        replace (r + 1 + Z.of_nat m) with (r + Z.of_nat (Datatypes.S m)) by lia. exact F.
Qed.
Lemma in_repeat {A} (x : A) n y : In y (repeat x n) -> y = x.
Proof. apply repeat_spec. Qed.
Lemma steps_follow divisions n : forall k p r acc, (1 <= n)%nat -> Z.of_nat k + Z.of_nat n = 361 -> (1 <= k)%nat ->
  0 <= p < Z.of_nat k -> 0 <= r -> (r = 0 \/ reached p (Z.of_nat (List.length acc) + r) = false) ->
  (forall a, p < a < Z.of_nat k -> reached a (Z.of_nat (List.length acc)) = false) ->
  exists offs more, steps h W start divisions step (map Z.of_nat (seq k n)) (T (k - 1)) (tempf (Z.of_nat (k - 1))) acc = Ok (acc ++ more) /\
    follows (Z.of_nat (List.length acc)) p r offs /\ nondecreasing (Z.of_nat k) offs /\
    Forall2 (at_offset W start) offs more /\
    Z.of_nat (List.length (acc ++ more)) = Z.max (Z.of_nat (List.length acc)) divisions.
Proof.
  induction n as [|n IH]; intros k p r acc N K K1 P R0 RP BET; [lia|]. cbn [seq map steps].
  destruct (Z.ltb_spec (Z.of_nat (List.length acc)) divisions) as [L|L]; cbn [negb].
  2:{ exists [], []. rewrite app_nil_r. split; [reflexivity|]. split; [constructor|]. split; [exact Logic.I|]. split; [constructor|]. lia. }
  destruct (sanitize_int (start + Z.of_nat k)) as (R & _).
  destruct (W_index h W HW _ R) as (x & X & _). rewrite X, bind_Ok. cbv zeta.
  assert (TX : relative h W x = tempf (Z.of_nat k)) by (unfold tempf; now rewrite X).
  rewrite TX.
  assert (TK : fadd (T (k - 1)) (fabs (fsub (tempf (Z.of_nat k)) (tempf (Z.of_nat (k - 1))))) = T k).
  { destruct k as [|k]; [lia|]. cbn [travelled]. now rewrite Nat.sub_succ, Nat.sub_0_r. }
  rewrite TK. clear TK.
  destruct (push_rule (room divisions acc) x (T k) 0 acc) as (m & M & E & A & B).
  rewrite Z.add_0_r in E. cbn [Nat.add] in A, B. change (Z.of_nat 0 + 1) with 1 in E. rewrite E.
  assert (RK : forall z, reached (Z.of_nat k) z = fge (T k) (fmul (of_Z z) step)).
  { intros z. unfold SpecAnalogous.reached. now rewrite Nat2Z.id. }
  unfold room in M.
  (* the colours taken at this offset, followed by [os] *)
  assert (HERE : (1 <= m)%nat -> forall os, follows (Z.of_nat (List.length acc) + Z.of_nat m) (Z.of_nat k) (Z.of_nat m) os ->
    follows (Z.of_nat (List.length acc)) p r (repeat (Z.of_nat k) m ++ os)).
  { intros M1 os F. destruct m as [|m]; [lia|]. cbn [repeat app]. apply follows_next; [lia|exact RP|exact BET| |].
    - rewrite RK. specialize (A 0%nat ltac:(lia)). now rewrite !Z.add_0_r in A.
    - apply again; [lia| |].
      + intros j J. rewrite RK. specialize (A (Datatypes.S j) ltac:(lia)).
        replace (Z.of_nat (List.length acc) + 1 + Z.of_nat j + (1 + Z.of_nat j)) with
          (Z.of_nat (List.length acc) + Z.of_nat (Datatypes.S j) + Z.of_nat (Datatypes.S j)) by lia. exact A.
      + replace (Z.of_nat (List.length acc) + 1 + Z.of_nat m) with (Z.of_nat (List.length acc) + Z.of_nat (Datatypes.S m)) by lia.
        replace (1 + Z.of_nat m) with (Z.of_nat (Datatypes.S m)) by lia. exact F. }
  assert (STOP : m = room divisions acc \/ reached (Z.of_nat k) (Z.of_nat (List.length acc) + Z.of_nat m + Z.of_nat m) = false)
    by (rewrite RK; exact B).
  clear A B RK.
  destruct (Z.ltb_spec 360 (Z.of_nat k + 1)) as [Bd|Bd].
  - assert (K360 : Z.of_nat k = 360) by lia.
    exists (repeat (Z.of_nat k) (m + room divisions (acc ++ repeat x m))), (repeat x (m + room divisions (acc ++ repeat x m))).
    split; [rewrite repeat_app, app_assoc; reflexivity|]. split; [|split; [|split]].
    + rewrite repeat_app. destruct (room divisions (acc ++ repeat x m)) as [|q] eqn:Q.
      * cbn [repeat]. rewrite app_nil_r. destruct m as [|m]; [cbn [repeat]; constructor|].
        rewrite <- (app_nil_r (repeat _ _)). apply HERE; [lia|constructor].
      * assert (NF : reached (Z.of_nat k) (Z.of_nat (List.length acc) + Z.of_nat m + Z.of_nat m) = false).
        { destruct STOP as [S'|S']; [|exact S']. exfalso. unfold room in Q, S'. rewrite app_length, repeat_length in Q. lia. }
        cbn [repeat]. destruct m as [|m].
        { cbn [repeat app]. apply follows_last; [lia|exact K360|exact RP| |].
          - intros a Ha. destruct (Z.eq_dec a (Z.of_nat k)) as [->|NE].
            + rewrite !Z.add_0_r in NF. exact NF.
            + apply BET. lia.
          - intros o' I. apply in_repeat in I. lia. }
        apply HERE; [lia|]. apply follows_last; [lia|exact K360|right; exact NF| |].
        { intros a Ha. lia. }
        intros o' I. apply in_repeat in I. lia.
    + rewrite <- (app_nil_r (repeat _ _)). apply nondecreasing_repeat; [lia|exact Logic.I].
    + now apply offset_repeat.
    + unfold room. rewrite !app_length, !repeat_length. lia.
  - assert (SK : (Datatypes.S k - 1 = k)%nat) by lia.
    destruct m as [|m].
    + (* nothing is taken here *)
      destruct (IH (Datatypes.S k) p r acc) as (offs & more & ES & FO & ND & F2 & LE); [lia|lia|lia|lia|lia|exact RP| |].
      { intros a Ha. destruct (Z.eq_dec a (Z.of_nat k)) as [->|NE]; [|apply BET; lia].
        destruct STOP as [S'|S']; [unfold room in S'; lia|]. now rewrite !Z.add_0_r in S'. }
      rewrite SK in ES. cbn [repeat]. rewrite app_nil_r. rewrite ES. exists offs, more. split; [reflexivity|]. split; [exact FO|]. split; [|split; [exact F2|exact LE]].
      apply (nondecreasing_weaken _ (Z.of_nat (Datatypes.S k))); [lia|exact ND].
    + set (m' := Datatypes.S m) in *.
      assert (LA : Z.of_nat (List.length (acc ++ repeat x m')) = Z.of_nat (List.length acc) + Z.of_nat m') by (rewrite app_length, repeat_length; lia).
      destruct (Z.ltb_spec (Z.of_nat (List.length acc) + Z.of_nat m') divisions) as [LT|GE].
      * destruct (IH (Datatypes.S k) (Z.of_nat k) (Z.of_nat m') (acc ++ repeat x m')) as (offs & more & ES & FO & ND & F2 & LE); [lia|lia|lia|lia|lia| | |].
        { right. rewrite LA. destruct STOP as [S'|S']; [|exact S']. unfold room in S'. lia. }
        { intros a Ha. lia. }
        rewrite SK in ES. rewrite ES. exists (repeat (Z.of_nat k) m' ++ offs), (repeat x m' ++ more).
        split; [now rewrite app_assoc|]. split; [|split; [|split]].
        { apply HERE; [unfold m'; lia|]. rewrite <- LA. exact FO. }
        { apply nondecreasing_repeat; [lia|]. apply (nondecreasing_weaken _ (Z.of_nat (Datatypes.S k))); [lia|exact ND]. }
        { apply Forall2_app; [now apply offset_repeat|exact F2]. }
        rewrite <- app_assoc in LE. rewrite LE. rewrite !app_length, repeat_length. lia.
      * exists (repeat (Z.of_nat k) m'), (repeat x m'). split; [|split; [|split; [|split]]].
        { destruct n as [|n]; [lia|]. cbn [seq map steps]. rewrite LA.
          destruct (Z.ltb_spec (Z.of_nat (List.length acc) + Z.of_nat m') divisions); [lia|]. reflexivity. }
        { rewrite <- (app_nil_r (repeat _ _)). apply HERE; [unfold m'; lia|constructor]. }
        { rewrite <- (app_nil_r (repeat _ _)). apply nondecreasing_repeat; [lia|exact Logic.I]. }
        { now apply offset_repeat. }
        rewrite LA. lia.
Qed.
Lemma total_follow n : forall k, (1 <= k)%nat ->
  total_delta h W start (map Z.of_nat (seq k n)) (tempf (Z.of_nat (k - 1))) (T (k - 1)) = Ok (T (k + n - 1)).
Proof.
  induction n as [|n IH]; intros k K; cbn [seq map total_delta].
  - now rewrite Nat.add_0_r.
  - destruct (sanitize_int (start + Z.of_nat k)) as (R & _).
    destruct (W_index h W HW _ R) as (x & X & _). rewrite X, bind_Ok.
    assert (TX : relative h W x = tempf (Z.of_nat k)) by (unfold tempf; now rewrite X).
    cbv zeta. rewrite TX.
    assert (TK : fadd (T (k - 1)) (fabs (fsub (tempf (Z.of_nat k)) (tempf (Z.of_nat (k - 1))))) = T k).
    { destruct k as [|k]; [lia|]. cbn [travelled]. now rewrite Nat.sub_succ, Nat.sub_0_r. }
    rewrite TK. specialize (IH (Datatypes.S k) ltac:(lia)).
    replace (Datatypes.S k - 1)%nat with k in IH by lia. rewrite IH. f_equal. f_equal. lia.
Qed.
End S.
Lemma zero_lit : dec "0.0" = B754_zero false.
Proof.
  assert (C : match dec "0.0" with B754_zero false => true | _ => false end = true) by (vm_compute; reflexivity).
  destruct (dec "0.0") as [[|]|s| |s m e p]; try discriminate C. reflexivity.
Qed.
Lemma zero_abs (x : f64) : is_finite x = true -> @B2R 53 1024 x = 0%R -> fadd (dec "0.0") (fabs x) = dec "0.0".
Proof.
  intros FF V. rewrite zero_lit. destruct x as [s|s| |s m e p]; try discriminate FF; [reflexivity|].
  exfalso. cbn [B2R] in V. unfold F2R in V. cbn [Fnum Fexp] in V.
  apply Rmult_integral in V. destruct V as [V|V]; [|pose proof (bpow_gt_0 radix2 e); lra].
  apply eq_IZR in V. destruct s; discriminate V.
Qed.
Lemma self_diff (t : f64) : is_finite t = true -> fadd (dec "0.0") (fabs (fsub t t)) = dec "0.0".
Proof.
  intros F. assert (Z : @B2R 53 1024 (fsub t t) = 0%R /\ is_finite (fsub t t) = true); [|destruct Z; now apply zero_abs].
  unfold fsub.
  pose proof (fun hp he => Bminus_correct 53 1024 hp he mode_NE t t F F) as C.
  rewrite Rminus_diag_eq, round_0 in C by (reflexivity || apply valid_rnd_round_mode).
  rewrite Rabs_R0, Rlt_bool_true in C by apply bpow_gt_0.
  destruct (C _ _) as (V & FF & _). split; [exact V|exact FF].
Qed.
Lemma analogues_steps {lm : Libm} h W count divisions : wheel (zrange 360) (h_chroma h) (h_tone h) = Ok W ->
  0 <= to_i64 (fround (h_hue h)) < 360 -> count_fits count ->
  exists l, analogues h W count divisions = Ok l /\ analogous_steps h (unwrap_or count 5) (unwrap_or divisions 12) l.
Proof.
  intros HW R CF. unfold analogues. set (start := to_i64 (fround (h_hue h))) in *. set (D := unwrap_or divisions 12).
  unfold wheel_colors. destruct (W_index h W HW start R) as (x & X & _). rewrite X, bind_Ok.
  assert (SS : sanitize_degrees_int start = start).
  { destruct (sanitize_int start) as (R' & q & Q). lia. }
  assert (TX : relative h W x = tempf h W start 0) by (unfold tempf; now rewrite Z.add_0_r, SS, X).
  destruct (total_ok h W HW start (zrange 360) (relative h W x) (dec "0.0")) as (t & E). rewrite E, bind_Ok.
  set (step := fdiv t (of_Z D)).
  assert (ST : is_finite (tempf h W start 0) = true -> step = fdiv (travelled (tempf h W start) 359) (of_Z D)).
  { intros F. unfold step. f_equal. change (zrange 360) with (0 :: map Z.of_nat (seq 1 359)) in E. cbn [total_delta] in E.
    rewrite Z.add_0_r, SS, X, bind_Ok in E. cbv zeta in E. rewrite TX, (self_diff _ F) in E.
    pose proof (total_follow h W HW start 359 1 ltac:(lia)) as TF.
    change (1 - 1)%nat with 0%nat in TF. change (Z.of_nat 0) with 0 in TF. change (travelled (tempf h W start) 0) with (dec "0.0") in TF.
    rewrite TF in E. symmetry. now apply ok_inj. }
  destruct (steps_follow h W HW start step D 360 1 0 0 [x]) as (offs & more & ES & FO & ND & F2 & LE);
    [lia|lia|lia|lia|lia|now left|intros a Ha; lia|].
  change (1 - 1)%nat with 0%nat in ES. change (Z.of_nat 0) with 0 in ES. change (travelled (tempf h W start) 0) with (dec "0.0") in ES. rewrite <- TX in ES.
  rewrite ES, bind_Ok.
  destruct (around_shape h (unwrap_or count 5) ([x] ++ more)) as (l & EL & L1 & L2 & L3); [discriminate|exact CF|].
  exists l. split; [exact EL|]. exists offs, ([x] ++ more), (tempf h W start), step.
  assert (SM : forall o, sanitize_degrees_int (start + o) = (start + o) mod 360 /\ 0 <= sanitize_degrees_int (start + o) < 360).
  { intros o. destruct (sanitize_int (start + o)) as (RS & q & Q). split; [|exact RS]. apply (Z.mod_unique_pos _ 360 q); lia. }
  split.
  { intros o _. destruct (SM o) as (M & RS). destruct (W_index h W HW _ RS) as (y & Y & OY). exists y.
    fold start. split; [rewrite <- M; exact OY|]. rewrite (new_fresh h W), (relative_mk h W HW) by lia.
    rewrite (T_in h W) by (apply W_all; eapply index_in; exact Y). rewrite bind_Ok. unfold tempf. now rewrite Y. }
  split; [exact ST|]. split; [exact FO|]. split.
  { assert (F3 : Forall2 (at_offset W start) (0 :: offs) ([x] ++ more)).
    { constructor; [|exact F2]. unfold at_offset. now rewrite Z.add_0_r, SS. }
    clear - F3 HW SM. revert F3. generalize (0 :: offs) as os, ([x] ++ more) as ys. induction 1 as [|o y os ys A F IH]; constructor; [|exact IH].
    unfold at_offset in A. destruct (SM o) as (M & RS). fold start.
    rewrite <- M. destruct (W_index h W HW _ RS) as (z & Z & OZ). rewrite A in Z. apply ok_inj in Z. subst z. exact OZ. }
  split; [exact LE|]. split; [exact L1|]. split; [exact L2|exact L3].
Qed.
Lemma analogous_follows {lm : Libm} z h count divisions l c : hct_from_int z = Ok h -> count_fits count ->
  analogous (tc_new h) count divisions = Ok (l, c) -> analogous_steps h (unwrap_or count 5) (unwrap_or divisions 12) l.
Proof.
  intros E CF EA. destruct (start_range z h E) as (_ & R & Q).
  assert (N : to_i64 (fround (h_hue h)) <> 360).
  { intros N. apply Q in N. rewrite (analogous_late z h count divisions E N) in EA. discriminate. }
  destruct (wheel (zrange 360) (h_chroma h) (h_tone h)) as [W|] eqn:HW.
  - destruct (analogues_steps h W count divisions HW) as (l' & EL & SH); [lia|exact CF|].
    pose proof (analogous_mk h W HW 0 (dec "-1.0") None count divisions ltac:(lia)) as M. rewrite <- new_fresh, EA in M.
    destruct M as (M & _). rewrite M in EL. apply ok_inj in EL. subst l'. exact SH.
  - pose proof (no_wheel h (Analogous count divisions) HW) as NW. cbn [perform] in NW. rewrite EA in NW. discriminate.
Qed.
Lemma all_same (l l' : list Z) : (forall o, In o l -> o = 360) -> (forall o, In o l' -> o = 360) -> List.length l = List.length l' -> l = l'.
Proof.
  revert l'. induction l as [|x l IH]; intros [|y l'] A B L; try discriminate L; [reflexivity|].
  rewrite (A x (or_introl eq_refl)), (B y (or_introl eq_refl)). f_equal. apply IH; [intros o I; apply A; now right|intros o I; apply B; now right|].
  now injection L.
Qed.
Lemma follows_unique temp step i p r os : follows temp step i p r os -> forall os', follows temp step i p r os' ->
  List.length os = List.length os' -> os = os'.
Proof.
  induction 1 as [i p r|i p r os R A F IH|i p r o os P N B A F IH|i p r o os P E N B L]; intros os' F' LE.
  - destruct os'; [reflexivity|discriminate LE].
  - inversion F' as [|i' p' r' os1 R1 A1 F1|i' p' r' o1 os1 P1 N1 B1 A1 F1|i' p' r' o1 os1 P1 E1 N1 B1 L1]; subst.
    + discriminate LE.
    + f_equal. apply IH; [exact F1|now injection LE].
    + exfalso. destruct N1 as [N1|N1]; [lia|congruence].
    + exfalso. destruct N1 as [N1|N1]; [lia|congruence].
  - inversion F' as [|i' p' r' os1 R1 A1 F1|i' p' r' o1 os1 P1 N1 B1 A1 F1|i' p' r' o1 os1 P1 E1 N1 B1 L1]; subst.
    + discriminate LE.
    + exfalso. destruct N as [N|N]; [lia|congruence].
    + assert (o1 = o).
      { destruct (Z.lt_trichotomy o o1) as [G|[G|G]]; [|now symmetry|].
        - specialize (B1 o ltac:(lia)). congruence.
        - specialize (B o1 ltac:(lia)). congruence. }
      subst o1. f_equal. apply IH; [exact F1|now injection LE].
    + exfalso. specialize (B1 o ltac:(lia)). congruence.
  - inversion F' as [|i' p' r' os1 R1 A1 F1|i' p' r' o1 os1 P1 N1 B1 A1 F1|i' p' r' o1 os1 P1 E1 N1 B1 L1]; subst.
    + discriminate LE.
    + exfalso. destruct N as [N|N]; [lia|congruence].
    + exfalso. specialize (B o1 ltac:(lia)). congruence.
    + f_equal. apply all_same; [exact L|exact L1|now injection LE].
Qed.
(** A wheel whose temperature goes up for 4 degrees and stays. *)
Definition ramp (o : Z) : f64 := if o <? 4 then of_Z o else of_Z 4.
Lemma ramp_case : follows ramp (dec "0.5") 1 0 0 [1; 2; 2; 3; 3; 4].
Proof.
  apply follows_next; [lia|now left|intros a Ha; lia|vm_compute; reflexivity|].
  apply follows_next; [lia|right; vm_compute; reflexivity|intros a Ha; lia|vm_compute; reflexivity|].
  apply follows_again; [lia|vm_compute; reflexivity|].
  apply follows_next; [lia|right; vm_compute; reflexivity|intros a Ha; lia|vm_compute; reflexivity|].
  apply follows_again; [lia|vm_compute; reflexivity|].
  apply follows_next; [lia|right; vm_compute; reflexivity|intros a Ha; lia|vm_compute; reflexivity|]. apply follows_end.
Qed.
