(** * What get_complement chooses. Proof file. *)
From Coq Require Import ZArith Bool Reals Lia Lra String List Permutation Sorted.
From Flocq Require Import Core IEEE754.BinarySingleNaN.
From Verif Require Import F64 MathUtils ColorUtils ViewingConditions Cam16 HctSolver Hct Assoc Temperature Spec SpecTemperature
  FloatFacts FloatMono FloatCast PfMath PfContrast PfHct PfPalettes PfScore PfTemperature SpecComplement.
Import ListNotations.
Open Scope string_scope.
Open Scope list_scope.
Open Scope Z_scope.
Section AnyLibm.
Context {lm : Libm}.
Local Opaque hct_from hct_from_int hct_new raw_temperature.

(** The hue visited for the addend [k], and the colour found there. *)
Definition hue_at (a : f64) (k : Z) : f64 := sanitize_degrees_double (fadd a (fmul (dec "1.0") (of_Z k))).
Definition seen (by_hue : list hct) (a b : f64) (k : Z) (x : hct) : Prop :=
  is_between (hue_at a k) a b = true /\ index by_hue (to_usize (fround (hue_at a k))) = Ok x.

Lemma loop_best ks by_hue temps a b ct range target (err : hct -> f64) :
  Sorted.StronglySorted Z.lt ks ->
  (forall x t, temp_at temps x = Ok t -> err x = fabs (fsub target (fdiv (fsub t ct) range))) ->
  forall se ans r, complement_loop ks by_hue temps a b ct range target se ans = Ok r ->
  (exists k, In k ks /\ seen by_hue a b k r /\ flt (err r) se = true /\
    forall k' x, In k' ks -> seen by_hue a b k' x ->
      flt (err x) (err r) = false /\ (k' < k -> flt (err x) se = true -> flt (err r) (err x) = true))
  \/ (r = ans /\ forall k x, In k ks -> seen by_hue a b k x -> flt (err x) se = false).
Proof.
  intros SS HE. induction ks as [|k ks IH]; intros se ans r E.
  - cbn [complement_loop] in E. right. split; [congruence|intros k x []].
  - apply StronglySorted_inv in SS. destruct SS as (SS & FA). rewrite Forall_forall in FA. specialize (IH SS).
    cbn [complement_loop] in E. cbv zeta in E. fold (hue_at a k) in E.
    destruct (is_between (hue_at a k) a b) eqn:B; cbn [negb] in E.
    + inv_bind E y Y. inv_bind E t T. rewrite <- (HE y t T) in E.
      assert (U : forall x, seen by_hue a b k x -> x = y) by (intros x (_ & X); congruence).
      destruct (flt (err y) se) eqn:L.
      * destruct (IH _ _ _ E) as [(k1 & I1 & S1 & L1 & M)|(-> & M)].
        -- left. exists k1. split; [now right|]. split; [exact S1|]. split; [exact (flt_trans' _ _ _ L1 L)|].
           intros k' x [<-|I] S.
           ++ rewrite (U x S). split; [|intros _ _; exact L1].
              destruct (flt (err y) (err r)) eqn:Q; [|reflexivity].
              rewrite <- (flt_irrefl (err y)). symmetry. exact (flt_trans' _ _ _ Q L1).
           ++ destruct (M k' x I S) as (M1 & M2). split; [exact M1|]. intros K KS.
              destruct (flt (err x) (err y)) eqn:Q; [now apply M2|].
              destruct (flt_not_nan _ _ KS) as (N1 & _). destruct (flt_not_nan _ _ L1) as (N2 & N3).
              apply (flt_val_f _ _ N1 N3) in Q. apply (flt_val _ _ N2 N3) in L1. apply (flt_val _ _ N2 N1). lra.
        -- left. exists k. split; [now left|]. split; [split; [exact B|exact Y]|]. split; [exact L|].
           intros k' x [<-|I] S.
           ++ rewrite (U x S). split; [apply flt_irrefl|lia].
           ++ split; [exact (M k' x I S)|]. specialize (FA k' I). lia.
      * destruct (IH _ _ _ E) as [(k1 & I1 & S1 & L1 & M)|(-> & M)].
        -- left. exists k1. split; [now right|]. split; [exact S1|]. split; [exact L1|].
           intros k' x [<-|I] S; [|exact (M k' x I S)]. rewrite (U x S). split; [|congruence].
           destruct (flt (err y) (err r)) eqn:Q; [|reflexivity]. rewrite <- L. symmetry. exact (flt_trans' _ _ _ Q L1).
        -- right. split; [reflexivity|]. intros k' x [<-|I] S; [rewrite (U x S); exact L|exact (M k' x I S)].
    + assert (U : forall x, ~ seen by_hue a b k x) by (intros x (X & _); congruence).
      destruct (IH _ _ _ E) as [(k1 & I1 & S1 & L1 & M)|(-> & M)].
      * left. exists k1. split; [now right|]. split; [exact S1|]. split; [exact L1|].
        intros k' x [<-|I] S; [destruct (U x S)|exact (M k' x I S)].
      * right. split; [reflexivity|]. intros k' x [<-|I] S; [destruct (U x S)|exact (M k' x I S)].
Qed.

Section Wheel.
Variables (h : hct) (W : list hct).
Hypothesis HW : wheel (zrange 360) (h_chroma h) (h_tone h) = Ok W.

Lemma start_is : fst (arc h W) = walk_start h (cold h W) (hot h W).
Proof. unfold arc, walk_start. destruct (is_between _ _ _); reflexivity. Qed.
Lemma stop_is : snd (arc h W) = walk_stop h (cold h W) (hot h W).
Proof. unfold arc, walk_stop. destruct (is_between _ _ _); reflexivity. Qed.
Lemma start_range : hct_from_int (h_argb h) = Ok h ->
  fle (dec "0.0") (fst (arc h W)) = true /\ flt (fst (arc h W)) (dec "360.0") = true.
Proof.
  intros EH. unfold arc. destruct (is_between _ _ _); cbn [fst]; [apply hot_range|apply cold_range]; assumption.
Qed.
Lemma seen_met x : hct_from_int (h_argb h) = Ok h -> forall a, complement h W = Ok a -> forall k, 0 <= k < 360 ->
  (seen W (fst (arc h W)) (snd (arc h W)) k x <-> met h (fst (arc h W)) (snd (arc h W)) k x).
Proof.
  intros EH a EA k R. destruct (start_range EH) as (A1 & A2). unfold seen, met, hue_at. cbv zeta.
  rewrite one_times by exact R. destruct (turn_range (fst (arc h W)) k A1 A2 R) as (F & L & U).
  set (hue := sanitize_degrees_double _) in *.
  assert (NP : is_between hue (fst (arc h W)) (snd (arc h W)) = true -> fle (dec "359.5") hue <> true).
  { intros B Q. assert (P : complement h W = Panic); [|congruence].
    apply (complement_panics h W HW EH). right. exists k. split; [exact R|]. split; [exact B|exact Q]. }
  destruct (half_hue hue L F U) as (E & RE & Q). rewrite E. split.
  - intros (B & I). split; [exact R|]. split; [exact B|].
    destruct (W_index h W HW (to_i64 (fround hue))) as (y & Y & O).
    { destruct (Z.eq_dec (to_i64 (fround hue)) 360) as [e|n]; [|lia]. destruct (NP B). now apply Q. }
    rewrite Y in I. apply ok_inj in I. rewrite <- I. exact O.
  - intros (_ & B & O). split; [exact B|].
    destruct (W_index h W HW (to_i64 (fround hue))) as (y & Y & O').
    { destruct (Z.eq_dec (to_i64 (fround hue)) 360) as [e|n]; [|lia]. destruct (NP B). now apply Q. }
    rewrite Y. unfold on_wheel in O, O'. rewrite O in O'. symmetry. exact O'.
Qed.
Lemma T_seen x t : temp_at (T h W) x = Ok t -> t = raw_temperature x.
Proof.
  intros E. rewrite T_find in E. destruct (existsb _ _) eqn:Q; [|discriminate]. apply ok_inj in E. now symmetry.
Qed.
Lemma complement_best a : hct_from_int (h_argb h) = Ok h -> complement h W = Ok a ->
  let gap := temperature_gap (cold h W) (hot h W) (fsub (dec "1.0") (relative h W h)) in
  (exists k, met h (fst (arc h W)) (snd (arc h W)) k a /\ flt (gap a) (dec "1000.0") = true /\
    forall k' x, met h (fst (arc h W)) (snd (arc h W)) k' x ->
      flt (gap x) (gap a) = false /\ (k' < k -> flt (gap x) (dec "1000.0") = true -> flt (gap a) (gap x) = true))
  \/ (on_wheel h (to_i64 (fround (h_hue h))) a /\
      forall k x, met h (fst (arc h W)) (snd (arc h W)) k x -> flt (gap x) (dec "1000.0") = false).
Proof.
  intros EH EA. cbv zeta. pose proof (seen_met) as SM. pose proof EA as EA'. unfold complement in EA. inv_bind EA y Y.
  apply (loop_best _ _ _ _ _ _ _ _ (temperature_gap (cold h W) (hot h W) (fsub (dec "1.0") (relative h W h)))) in EA.
  - destruct EA as [(k & I & S1 & L & M)|(EQ & M)].
    + left. apply in_zrange in I. exists k. split; [apply (SM a EH a EA'); [lia|exact S1]|]. split; [exact L|].
      intros k' x MX. pose proof (proj1 MX) as RK. apply (M k'); [apply in_zrange; lia|]. apply (SM x EH a EA'); [exact RK|exact MX].
    + right. split.
      * destruct (from_int_range _ _ EH) as (H1 & H2). destruct (hue_fin _ H1 H2) as (HF & HR).
        destruct (half_hue (h_hue h) H1 HF ltac:(lra)) as (E & RE & Q). rewrite E in Y.
        destruct (W_index h W HW (to_i64 (fround (h_hue h)))) as (z & Z' & O).
        { destruct (Z.eq_dec (to_i64 (fround (h_hue h))) 360) as [e|n]; [|lia].
          rewrite e in Y. rewrite (W_out h W HW) in Y by lia. discriminate. }
        rewrite Z' in Y. apply ok_inj in Y. rewrite EQ, <- Y. exact O.
      * intros k x MX. pose proof (proj1 MX) as RK. apply (M k); [apply in_zrange; lia|]. apply (SM x EH a EA'); [exact RK|exact MX].
  - clear. unfold zrange. assert (H : forall n s, StronglySorted Z.lt (map Z.of_nat (seq s n))).
    { induction n as [|n IH]; intros s; cbn [seq map]; constructor; [apply IH|].
      rewrite Forall_forall. intros x I. apply in_map_iff in I. destruct I as (m & <- & I). apply in_seq in I. lia. }
    apply H.
  - intros x t E. apply T_seen in E. rewrite E. reflexivity.
Qed.
End Wheel.

Lemma complement_chosen z h cld wrm t a c1 c2 c3 c4 : hct_from_int z = Ok h ->
  get_coldest (tc_new h) = Ok (cld, c1) -> get_warmest (tc_new h) = Ok (wrm, c2) ->
  get_input_relative_temperature (tc_new h) = Ok (t, c3) -> get_complement (tc_new h) = Ok (a, c4) ->
  let gap := temperature_gap cld wrm (fsub (dec "1.0") t) in
  let start := walk_start h cld wrm in let stop := walk_stop h cld wrm in
  (exists k, met h start stop k a /\ flt (gap a) (dec "1000.0") = true /\
    forall k' x, met h start stop k' x ->
      flt (gap x) (gap a) = false /\ (k' < k -> flt (gap x) (dec "1000.0") = true -> flt (gap a) (gap x) = true))
  \/ (on_wheel h (to_i64 (fround (h_hue h))) a /\
      forall k x, met h start stop k x -> flt (gap x) (dec "1000.0") = false).
Proof.
  intros E EC EW ET EA. destruct (wheel (zrange 360) (h_chroma h) (h_tone h)) as [W|] eqn:HW.
  2:{ pose proof (no_wheel h Coldest HW) as N. cbn [perform] in N. rewrite EC in N. discriminate. }
  rewrite (new_fresh h W) in EC, EW, ET, EA. rewrite (coldest_mk h W HW) in EC by lia. rewrite (warmest_mk h W HW) in EW by lia.
  rewrite (irt_mk h W HW) in ET by (auto; lia). rewrite (complement_mk h W HW) in EA by (auto; lia).
  apply ok_inj in EC, EW, ET. injection EC as EC _. injection EW as EW _. injection ET as ET _. subst cld wrm t. cbv zeta.
  inv_bind EA b B. apply ok_inj in EA. injection EA as EA _. subst b.
  rewrite <- start_is, <- stop_is. apply complement_best; [exact HW| |exact B]. eapply coherent_int; eassumption.
Qed.

Lemma gap_range (t r : f64) : is_finite t = true -> (0 <= B2R t <= 1)%R -> is_finite r = true -> (0 <= B2R r <= 1)%R ->
  is_finite (fabs (fsub (fsub (dec "1.0") t) r)) = true /\ (0 <= B2R (fabs (fsub (fsub (dec "1.0") t) r)) <= 1)%R.
Proof.
  intros FT RT FR RR. fconst (dec "1.0").
  destruct (fsub_S (dec "1.0") t F FT) as (V1 & F1); [unfold HUGE; rewrite V; lra|].
  assert (R1 : (0 <= B2R (fsub (dec "1.0") t) <= 1)%R).
  { rewrite V1, V. split; [apply rnd_ge_0; lra|apply (rnd_le_IZR _ 1); [lia|lra]]. }
  destruct (fsub_S (fsub (dec "1.0") t) r F1 FR) as (V2 & F2); [unfold HUGE; lra|].
  rewrite fabs_fin, fabs_R. split; [exact F2|]. split; [apply Rabs_pos|].
  rewrite V2. apply Rabs_le. split; [apply (rnd_ge_IZR _ (-1)); [lia|lra]|apply (rnd_le_IZR _ 1); [lia|lra]].
Qed.
Lemma complement_nearest z h cld wrm t a c1 c2 c3 c4 : hct_from_int z = Ok h -> ordinary_temperatures h ->
  get_coldest (tc_new h) = Ok (cld, c1) -> get_warmest (tc_new h) = Ok (wrm, c2) ->
  flt (raw_temperature cld) (raw_temperature wrm) = true ->
  get_input_relative_temperature (tc_new h) = Ok (t, c3) -> get_complement (tc_new h) = Ok (a, c4) ->
  let gap x := B2R (temperature_gap cld wrm (fsub (dec "1.0") t) x) in
  let start := walk_start h cld wrm in let stop := walk_stop h cld wrm in
  exists k, met h start stop k a /\ (gap a <= 1)%R /\
    forall k' x, met h start stop k' x -> (gap a <= gap x)%R /\ (k' < k -> (gap a < gap x)%R).
Proof.
  intros E OT EC EW LT ET EA. pose proof (complement_chosen _ _ _ _ _ _ _ _ _ _ E EC EW ET EA) as CC. cbv zeta in CC |- *.
  pose proof E as E0. apply coherent_int in E0.
  destruct (wheel (zrange 360) (h_chroma h) (h_tone h)) as [W|] eqn:HW.
  2:{ pose proof (no_wheel h Coldest HW) as N. cbn [perform] in N. rewrite EC in N. discriminate. }
  pose proof EA as EA0.
  rewrite (new_fresh h W) in EC, EW, ET, EA0. rewrite (coldest_mk h W HW) in EC by lia. rewrite (warmest_mk h W HW) in EW by lia.
  rewrite (irt_mk h W HW) in ET by (auto; lia). rewrite (complement_mk h W HW) in EA0 by (auto; lia).
  apply ok_inj in EC, EW, ET. injection EC as EC _. injection EW as EW _. injection ET as ET _. subst cld wrm t.
  inv_bind EA0 b B. apply ok_inj in EA0. injection EA0 as EA0 _. subst b.
  assert (TM : forall y, In y (all h W) -> tame y) by (intros y Y; apply OT; now apply (in_all h W y HW)).
  assert (NE : feq (raw_temperature (cold h W)) (raw_temperature (hot h W)) = false).
  { destruct (TM _ (cold_in h W HW)) as (FC & _). destruct (TM _ (hot_in h W HW)) as (FH & _).
    apply (flt_fin _ _ FC FH) in LT. destruct (feq _ _) eqn:Q; [|reflexivity]. apply (feq_fin _ _ FC FH) in Q. lra. }
  assert (NZ : feq (span h W) (dec "0.0") = false).
  { destruct (TM _ (cold_in h W HW)) as (FC & BC). destruct (TM _ (hot_in h W HW)) as (FH & BH).
    destruct (feq (span h W) (dec "0.0")) eqn:Q; [|reflexivity]. exfalso.
    pose proof (relative_range h W HW TM (hot h W) (hot_in h W HW)) as RR. destruct RR as (_ & RR).
    destruct (RR NE) as (_ & _ & _ & R1). assert (FQ : feq (raw_temperature (hot h W)) (raw_temperature (hot h W)) = true) by (apply (feq_fin _ _ FH FH); reflexivity).
    specialize (R1 FQ). unfold relative in R1. rewrite Q in R1. fconst (dec "0.5"). lra. }
  assert (RG : forall x, In x (all h W) -> is_finite (temperature_gap (cold h W) (hot h W) (fsub (dec "1.0") (relative h W h)) x) = true /\
    (0 <= B2R (temperature_gap (cold h W) (hot h W) (fsub (dec "1.0") (relative h W h)) x) <= 1)%R).
  { intros x I. destruct (relative_range h W HW TM x I) as (_ & R1). destruct (R1 NE) as (F1 & B1 & _).
    destruct (relative_range h W HW TM h) as (_ & R2); [apply in_or_app; right; now left|]. destruct (R2 NE) as (F2 & B2 & _).
    pose proof (gap_range _ _ F2 B2 F1 B1) as G. unfold temperature_gap. fold (span h W).
    assert (RX : relative h W x = fdiv (fsub (raw_temperature x) (raw_temperature (cold h W))) (span h W)) by (unfold relative; rewrite NZ; reflexivity).
    rewrite RX in G. exact G. }
  assert (MA : forall k x, met h (walk_start h (cold h W) (hot h W)) (walk_stop h (cold h W) (hot h W)) k x -> In x (all h W)).
  { intros k x M. rewrite <- start_is, <- stop_is in M. pose proof (proj1 M) as RK. apply (seen_met h W HW x E0 a B k RK) in M.
    destruct M as (_ & I). apply W_all. eapply index_in; exact I. }
  set (gap := temperature_gap (cold h W) (hot h W) (fsub (dec "1.0") (relative h W h))) in *.
  set (start := walk_start _ _ _) in *. set (stop := walk_stop _ _ _) in *.
  fconst (dec "1000.0").
  destruct CC as [(k & M & L & X)|(_ & X)].
  - exists k. split; [exact M|]. destruct (RG a (MA k a M)) as (FA & RA). split; [apply RA|].
    intros k' x M'. destruct (X k' x M') as (X1 & X2). destruct (RG x (MA k' x M')) as (FX & RX).
    split; [now apply (flt_fin_f _ _ FX FA)|]. intros K. apply (flt_fin _ _ FA FX). apply X2; [exact K|].
    apply (flt_fin _ _ FX F). lra.
  - exfalso. destruct (start_range h W HW E0) as (A1 & A2). destruct (hue_fin _ A1 A2) as (FS & RS).
    assert (SZ : is_finite (sanitize_degrees_double (fadd (fst (arc h W)) (of_Z 0))) = true /\
      B2R (sanitize_degrees_double (fadd (fst (arc h W)) (of_Z 0))) = B2R (fst (arc h W))).
    { destruct (of_Z_R 0 ltac:(lia)) as (V0 & F0). destruct (fadd_S (fst (arc h W)) (of_Z 0) FS F0) as (VA & FA); [unfold HUGE; rewrite V0; lra|].
      rewrite V0, Rplus_0_r, rnd_B2R in VA. destruct (sanitize_double _ FA) as (m & FM & _). split; [exact FM|].
      rewrite sanitize_small; [exact VA|exact FA|rewrite VA; lra]. }
    destruct SZ as (FZ & VZ).
    assert (BT : is_between (sanitize_degrees_double (fadd (fst (arc h W)) (of_Z 0))) (fst (arc h W)) (snd (arc h W)) = true).
    { assert (L : fle (fst (arc h W)) (sanitize_degrees_double (fadd (fst (arc h W)) (of_Z 0))) = true) by (apply (fle_fin _ _ FS FZ); lra).
      unfold is_between. rewrite L. destruct (flt (fst (arc h W)) (snd (arc h W))) eqn:Q; [|reflexivity]. cbn [andb].
      assert (SR : is_finite (snd (arc h W)) = true).
      { unfold arc. destruct (is_between _ _ _); cbn [snd]; [destruct (cold_range h W HW E0) as (q1 & q2)|destruct (hot_range h W HW E0) as (q1 & q2)]; apply (hue_fin _ q1 q2). }
      apply (flt_fin _ _ FS SR) in Q. apply (fle_fin _ _ FZ SR). lra. }
    assert (NP : exists x, met h start stop 0 x).
    { destruct (half_hue _ ltac:(fconst (dec "0.0"); apply (fle_fin _ _ F0 FZ); lra) FZ ltac:(lra)) as (HE & HR & HQ).
      destruct (W_index h W HW (to_i64 (fround (sanitize_degrees_double (fadd (fst (arc h W)) (of_Z 0)))))) as (x & _ & O).
      { destruct (Z.eq_dec (to_i64 (fround (sanitize_degrees_double (fadd (fst (arc h W)) (of_Z 0))))) 360) as [e|n]; [|lia].
        exfalso. assert (P : complement h W = Panic); [|congruence]. apply (complement_panics h W HW E0). right. exists 0. split; [lia|].
        split; [exact BT|]. apply HQ. exact e. }
      exists x. split; [lia|]. unfold start, stop. rewrite <- start_is, <- stop_is. cbv zeta. split; [exact BT|exact O]. }
    destruct NP as (x & MX). destruct (RG x (MA 0 x MX)) as (FX & RX). pose proof (X 0 x MX) as XX.
    apply (flt_fin_f _ _ FX F) in XX. lra.
Qed.
End AnyLibm.

Definition stub_libm : Libm := {|
  powf := fun x y => if feq y (dec "1.07") then x else dec "0.0";
  expf := fun x => x; lnf := fun x => x; sinf := fun x => x; cosf := fun _ => dec "1.0"; atan2f := fun _ _ => dec "0.0" |}.
#[local] Existing Instance stub_libm.
(** A platform whose functions are these has a dark red whose wheel is one grey, and the two have different temperatures. *)
Lemma stub_pair : exists h w, @hct_from_int stub_libm 0xFF0A0000 = Ok h /\ (forall k, @on_wheel stub_libm h k w) /\
  feq (h_hue h) (dec "0.0") = true /\ feq (h_hue w) (dec "0.0") = true /\
  flt (@raw_temperature stub_libm w) (@raw_temperature stub_libm h) = true /\
  fle (fabs (@raw_temperature stub_libm w)) (dec "10.0") = true /\ fle (fabs (@raw_temperature stub_libm h)) (dec "10.0") = true /\
  is_finite (@raw_temperature stub_libm w) = true /\ is_finite (@raw_temperature stub_libm h) = true.
Proof.
  assert (C : match @hct_from_int stub_libm 0xFF0A0000, @hct_from_int stub_libm 0xFF020202 with
    | Ok h, Ok w => flt (h_chroma h) (dec "0.0001") && (@argb_from_lstar stub_libm (h_tone h) =? 0xFF020202) &&
       feq (h_hue h) (dec "0.0") && feq (h_hue w) (dec "0.0") && flt (@raw_temperature stub_libm w) (@raw_temperature stub_libm h) &&
       fle (fabs (@raw_temperature stub_libm w)) (dec "10.0") && fle (fabs (@raw_temperature stub_libm h)) (dec "10.0") &&
       is_finite (@raw_temperature stub_libm w) && is_finite (@raw_temperature stub_libm h)
    | _, _ => false end = true) by (vm_compute; reflexivity).
  destruct (@hct_from_int stub_libm 0xFF0A0000) as [h|] eqn:E; [|discriminate]. destruct (@hct_from_int stub_libm 0xFF020202) as [w|] eqn:EW; [|discriminate].
  rewrite !andb_true_iff in C. destruct C as ((((((((A & B) & C1) & C2) & C3) & C4) & C5) & C6) & C7). apply Z.eqb_eq in B.
  exists h, w. split; [reflexivity|]. split; [|repeat (split; [assumption|]); assumption].
  apply (@wheel_degenerate stub_libm); [rewrite A; reflexivity|rewrite B; exact EW].
Qed.
Lemma stub_case : exists h cld wrm t a c1 c2 c3 c4, @hct_from_int stub_libm 0xFF0A0000 = Ok h /\ @ordinary_temperatures stub_libm h /\
  @get_coldest stub_libm (tc_new h) = Ok (cld, c1) /\ @get_warmest stub_libm (tc_new h) = Ok (wrm, c2) /\
  flt (@raw_temperature stub_libm cld) (@raw_temperature stub_libm wrm) = true /\
  @get_input_relative_temperature stub_libm (tc_new h) = Ok (t, c3) /\ @get_complement stub_libm (tc_new h) = Ok (a, c4).
Proof.
  destruct stub_pair as (h & w & E & O & HH & HW0 & LT & LW & LH & FW & FH).
  assert (OT : @ordinary_temperatures stub_libm h).
  { fconst (dec "10.0"). assert (B : forall x, is_finite (@raw_temperature stub_libm x) = true -> fle (fabs (@raw_temperature stub_libm x)) (dec "10.0") = true ->
      is_finite (@raw_temperature stub_libm x) = true /\ (Rabs (B2R (@raw_temperature stub_libm x)) <= 1000000)%R).
    { intros x FX L. split; [exact FX|]. assert (FA : is_finite (fabs (@raw_temperature stub_libm x)) = true) by (rewrite fabs_fin; exact FX).
      apply (fle_fin _ _ FA F) in L. rewrite fabs_R, V in L. lra. }
    intros y [->|(k & _ & Q)]; [apply B; assumption|]. specialize (O k). unfold on_wheel in O, Q. rewrite O in Q. apply ok_inj in Q. subst y. apply B; assumption. }
  destruct (wheel_exists h (fun k _ => ex_intro _ w (O k))) as (W & HW).
  assert (ALL : forall x, In x (all h W) -> x = h \/ x = w).
  { intros x I. apply (in_all h W x HW) in I. destruct I as [->|(k & _ & Q)]; [now left|]. right. specialize (O k). unfold on_wheel in O, Q. rewrite O in Q. apply ok_inj in Q. now symmetry. }
  assert (TM : forall y, In y (all h W) -> @tame stub_libm y) by (intros y Y; apply OT; now apply (in_all h W y HW)).
  assert (IH : In h (all h W)) by (apply in_or_app; right; now left).
  assert (IW : In w (all h W)) by (apply (in_all h W w HW); right; exists 0; split; [lia|apply O]).
  destruct (extremes h W (fun y Y => tame_nn y (TM y Y)) h IH) as (_ & X1).
  destruct (extremes h W (fun y Y => tame_nn y (TM y Y)) w IW) as (X2 & _).
  assert (LCH : flt (@raw_temperature stub_libm (cold h W)) (@raw_temperature stub_libm (hot h W)) = true).
  { destruct (TM _ (cold_in h W HW)) as (FC & _). destruct (TM _ (hot_in h W HW)) as (FO & _).
    apply (flt_fin _ _ FW FH) in LT. apply (fle_fin _ _ FH FO) in X1. apply (fle_fin _ _ FC FW) in X2. apply (flt_fin _ _ FC FO). lra. }
  assert (E0 : @hct_from_int stub_libm (h_argb h) = Ok h) by (eapply coherent_int; eassumption).
  assert (ZH : forall x, In x (all h W) -> is_finite (h_hue x) = true /\ B2R (h_hue x) = 0%R).
  { intros x I. fconst (dec "0.0"). destruct (ALL x I) as [-> | ->].
    - destruct (from_int_range _ _ E) as (H1 & H2). destruct (hue_fin _ H1 H2) as (FF & _). apply (feq_fin _ _ FF F) in HH. split; [exact FF|lra].
    - destruct (wheel_range h 0 w (O 0)) as (H1 & H2). destruct (hue_fin _ H1 H2) as (FF & _). apply (feq_fin _ _ FF F) in HW0. split; [exact FF|lra]. }
  assert (NP : exists a, @complement stub_libm h W = Ok a).
  { destruct (@complement stub_libm h W) as [a|] eqn:P; [exists a; reflexivity|]. exfalso.
    apply (complement_panics h W HW E0) in P. fconst (dec "359.5"). destruct P as [P|(k & R & _ & P)].
    - destruct (ZH h IH) as (FF & VV). apply (fle_fin _ _ F FF) in P. lra.
    - assert (SZ : is_finite (fst (arc h W)) = true /\ B2R (fst (arc h W)) = 0%R).
      { unfold arc. destruct (is_between _ _ _); cbn [fst]; apply ZH; [apply (hot_in h W HW)|apply (cold_in h W HW)]. }
      destruct SZ as (FS & VS). destruct (of_Z_R k ltac:(lia)) as (VK & FK).
      assert (HK : (0 <= IZR k <= 359)%R) by (split; apply IZR_le; lia).
      destruct (fadd_S (fst (arc h W)) (of_Z k) FS FK) as (VA & FA); [unfold HUGE; rewrite VK, VS; lra|].
      rewrite VS, Rplus_0_l, rnd_B2R, VK in VA.
      destruct (sanitize_double _ FA) as (m & FM & _). apply (fle_fin _ _ F FM) in P.
      rewrite sanitize_small in P; [lra|exact FA|rewrite VA; lra]. }
  destruct NP as (a & EA).
  exists h, (cold h W), (hot h W), (relative h W h), a. do 4 eexists. rewrite (new_fresh h W).
  split; [exact E|]. split; [exact OT|]. split; [apply (coldest_mk h W HW); lia|]. split; [apply (warmest_mk h W HW); lia|].
  split; [exact LCH|]. split; [apply (irt_mk h W HW); auto; lia|].
  rewrite (complement_mk h W HW) by (auto; lia). rewrite EA. reflexivity.
Qed.
