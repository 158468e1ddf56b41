(** * The search for a tone at which a chroma exists.  Proof file. *)
From Coq Require Import ZArith Bool Reals Lra Lia Psatz String List.
From Flocq Require Import Core Relative IEEE754.BinarySingleNaN.
From Verif Require Import F64 MathUtils ColorUtils ViewingConditions Cam16 HctSolver Hct Palettes DynamicScheme DynamicColor MaterialDynamicColors Spec SpecCam SpecTone SpecTotal SpecExact FloatFacts FloatMono PfArgb PfMath PfTones PfLab PfGamma PfNear PfVc PfContrast PfDelin PfHct PfTotal PfCamProps PfExact PfSearchA PfToneProps PfToneRange PfToneHct PfToneDynamic SpecTones SpecTone.
Import ListNotations.
Open Scope string_scope.
Open Scope list_scope.
Open Scope R_scope.

Lemma step_int (x y : f64) (k d : Z) : fin x -> B2R x = IZR k -> fin y -> B2R y = IZR d -> (-1000 <= k <= 1000)%Z -> (-1000 <= d <= 1000)%Z ->
  fin (fadd x y) /\ B2R (fadd x y) = IZR (k + d).
Proof.
  intros fx ex fy ey hk hd. assert (-1000 <= IZR k <= 1000) by (split; apply IZR_le; lia). assert (-1000 <= IZR d <= 1000) by (split; apply IZR_le; lia).
  destruct (fadd_S x y fx fy ltac:(rewrite ex, ey; unfold HUGE; lra)) as [E G]. split; [exact G|]. rewrite E, ex, ey, <- plus_IZR.
  apply Rle_antisym; [apply rnd_le_IZR|apply rnd_ge_IZR]; first [lia|lra].
Qed.

Section Acc.
Context {lm : Libm} (LA : libm_accurate (1 / 10 ^ 13) lm) (PS : pow_special lm) (PM : pow_monotone lm) (P1 : pow_one lm).

Lemma tone_exact argb h : hct_new argb = Ok h -> is_tone (h_tone h).
Proof using LA PM P1. intros E. rewrite (new_tone argb h E). exact (lstar_exact LA PM P1 argb). Qed.

Lemma dark_tone argb : red_from_argb argb = 0%Z -> green_from_argb argb = 0%Z -> blue_from_argb argb = 0%Z -> B2R (lstar_from_argb argb) = 0.
Proof using.
  intros e1 e2 e3. assert (E : lstar_from_argb argb = lstar_from_argb 0xFF000000).
  { unfold lstar_from_argb, xyz_from_argb. cbv zeta. rewrite e1, e2, e3. reflexivity. }
  rewrite E, lstar_of_black. fconst (dec "0.0"). lra.
Qed.

Lemma chroma_pos argb h : hct_new argb = Ok h -> 1 <= B2R (h_tone h) -> 0 < B2R (h_chroma h).
Proof using LA.
  intros E T. rewrite (new_tone argb h E) in T. destruct (new_chroma argb h E) as (cam & C & ->). destruct (from_int_vc LA argb cam C) as (vc & EV & VS & C').
  apply (lit_chroma LA vc argb cam EV VS C'). destruct (PfCamTrip.chan argb) as (h1 & h2 & h3).
  destruct (Z.eq_dec (red_from_argb argb) 0) as [e1|]; [|lia]. destruct (Z.eq_dec (green_from_argb argb) 0) as [e2|]; [|lia]. destruct (Z.eq_dec (blue_from_argb argb) 0) as [e3|]; [|lia].
  exfalso. rewrite (dark_tone argb e1 e2 e3) in T. lra.
Qed.

Lemma from_black hue chroma t h : fin t -> B2R t <= 0 -> hct_from hue chroma t = Ok h -> fin (h_chroma h) /\ B2R (h_chroma h) = 0.
Proof using LA.
  intros ft bt E. fconst (dec "0.0001"). fconst (dec "0.0"). unfold hct_from, solve_to_int in E. assert (L : flt t (dec "0.0001") = true) by (apply (flt_fin _ _ ft F); lra).
  rewrite L, orb_true_r in E. cbn [orb] in E. rewrite bind_Ok in E.
  assert (B : fle t (dec "0.0") = true) by (apply (fle_fin _ _ ft F0); lra). rewrite (black t B) in E.
  destruct (new_chroma _ h E) as (cam & C & ->). destruct (from_int_vc LA _ cam C) as (vc & EV & VS & C').
  apply (black_chroma LA vc _ cam VS C'); reflexivity.
Qed.

Lemma from_white hue chroma t : fin t -> 100 <= B2R t -> hct_from hue chroma t = hct_new 0xFFFFFFFF.
Proof using LA PM.
  intros ft bt. fconst (dec "99.9999"). fconst (dec "100.0"). unfold hct_from, solve_to_int. assert (L : fgt t (dec "99.9999") = true) by (apply (flt_fin _ _ F ft); lra).
  rewrite L, orb_true_r. rewrite bind_Ok. assert (B : fle (dec "100.0") t = true) by (apply (fle_fin _ _ F0 ft); lra).
  assert (hi' : 0 <= 1 / 10 ^ 13 <= 1 / 10 ^ 5) by lra. rewrite (white _ hi' (la_pow _ _ LA) PM t B). reflexivity.
Qed.

Lemma from_chroma a b c h : hct_from a b c = Ok h -> fin (h_chroma h) /\ 0 <= B2R (h_chroma h) <= 4000.
Proof using LA. intros E. destruct (from_is_new _ _ _ _ E) as (z & E'). exact (proj1 (proj2 (fields LA z h E'))). Qed.

Local Opaque hct_from dec fmax fabs.
Lemma light_loop hue chroma : forall (fuel : nat) (k : Z) (answer : f64) (closest : hct) (peak : f64), (0 <= k <= 90)%Z -> (Z.to_nat k < fuel)%nat ->
  fin answer -> B2R answer = IZR k -> (k = 0%Z -> flt (h_chroma closest) chroma = false) -> fin peak -> 0 < B2R peak ->
  exists t, desired_chroma_loop fuel hue chroma true answer closest peak = Ok t /\ is_tone t.
Proof using LA.
  induction fuel as [|fuel IH]; intros k answer closest peak hk hf fa ea H0 fp bp; [lia|]. cbn [desired_chroma_loop].
  assert (Ta : is_tone answer) by (split; [exact fa|rewrite ea; split; [apply (IZR_le 0)|apply (IZR_le _ 100)]; lia]).
  destruct (flt (h_chroma closest) chroma) eqn:LC; [|exists answer; split; [reflexivity|exact Ta]].
  assert (k1 : (1 <= k)%Z) by (destruct (Z.eq_dec k 0) as [->|]; [specialize (H0 eq_refl); discriminate H0|lia]).
  fconst (fneg (dec "1.0")). destruct (step_int answer (fneg (dec "1.0")) k (-1) fa ea F V ltac:(lia) ltac:(lia)) as [f2 e2]. cbv zeta.
  set (a2 := fadd answer (fneg (dec "1.0"))) in *. clearbody a2. replace (k + -1)%Z with (k - 1)%Z in e2 by lia.
  assert (T2 : is_tone a2) by (split; [exact f2|rewrite e2; split; [apply (IZR_le 0)|apply (IZR_le _ 100)]; lia]).
  destruct (from_ret LA hue chroma a2) as [p Ep]. rewrite Ep, bind_Ok. destruct (from_chroma _ _ _ _ Ep) as [fc bc].
  destruct (fgt peak (h_chroma p)) eqn:G; [exists a2; split; [reflexivity|exact T2]|].
  destruct (flt (fabs (fsub (h_chroma p) chroma)) (dec "0.4")) eqn:D; [exists a2; split; [reflexivity|exact T2]|].
  destruct (fmax_R peak (h_chroma p) fp fc) as [f3 e3].
  apply (IH (k - 1)%Z); [lia|lia|exact f2|exact e2| |exact f3|].
  - intros z. exfalso. assert (e0 : B2R a2 = 0) by (rewrite e2, z; reflexivity). destruct (from_black hue chroma a2 p f2 ltac:(lra) Ep) as [_ z0].
    assert (G' : fgt peak (h_chroma p) = true) by (apply (flt_fin _ _ fc fp); lra). rewrite G' in G. discriminate G.
  - rewrite e3. apply Rlt_le_trans with (1 := bp). apply Rmax_l.
Qed.

Lemma light_search hue chroma : fin hue -> fin chroma -> B2R chroma <= 10 ^ 9 ->
  exists t, find_desired_chroma_by_tone hue chroma (dec "90.0") true = Ok t /\ is_tone t.
Proof using LA PS PM.
  intros fh fc bc. unfold find_desired_chroma_by_tone. fconst (dec "90.0"). destruct (from_within LA PS PM hue chroma (dec "90.0") fh fc bc F) as (h & Eh & W1 & W2).
  rewrite Eh, bind_Ok. destruct (flt (h_chroma h) chroma) eqn:L.
  - destruct (from_is_new _ _ _ _ Eh) as (z & E'). assert (B : 1 <= B2R (h_tone h)).
    { unfold clamp_tone in W2. rewrite V in W2. apply Rabs_le_inv in W2. revert W2. unfold Rmin, Rmax. repeat destruct (Rle_dec _ _); lra. }
    apply (light_loop hue chroma 1000 90); [lia|lia|exact F|exact V|intros z'; lia|exact (proj1 (from_chroma _ _ _ _ Eh))|exact (chroma_pos z h E' B)].
  - exists (dec "90.0"). split; [reflexivity|]. split; [exact F|]. lra.
Qed.

(** Once the search has stepped past white it is stuck there. *)
Lemma stuck hue chroma w : hct_new 0xFFFFFFFF = Ok w -> flt (fabs (fsub (h_chroma w) chroma)) (dec "0.4") = false ->
  forall (fuel : nat) (k : Z) (answer : f64) (closest : hct) (peak : f64), (100 <= k)%Z -> (k + Z.of_nat fuel <= 2000)%Z ->
  fin answer -> B2R answer = IZR k -> flt (h_chroma closest) chroma = true -> fin peak -> B2R peak <= B2R (h_chroma w) ->
  flt (fabs (fsub (h_chroma w) chroma)) (fabs (fsub (h_chroma closest) chroma)) = false ->
  desired_chroma_loop fuel hue chroma false answer closest peak = Panic.
Proof using LA PM.
  intros EW NW. destruct (fields LA _ _ EW) as (_ & (fw & _) & _).
  induction fuel as [|fuel IH]; intros k answer closest peak hk hf fa ea LC fp bp ND; [reflexivity|]. cbn [desired_chroma_loop]. rewrite LC. cbv zeta.
  fconst (dec "1.0").
  assert (kb : (k <= 2000)%Z) by lia. assert (kr : 100 <= IZR k <= 2000) by (split; apply IZR_le; lia).
  destruct (fadd_S answer (dec "1.0") fa F ltac:(rewrite ea, V; unfold HUGE; lra)) as [E2 f2].
  assert (e2 : B2R (fadd answer (dec "1.0")) = IZR (k + 1)).
  { rewrite E2, ea, V, <- plus_IZR. apply Rle_antisym; [apply rnd_le_IZR|apply rnd_ge_IZR]; first [lia|lra]. }
  set (a2 := fadd answer (dec "1.0")) in *. clearbody a2.
  assert (b2 : 100 <= B2R a2) by (rewrite e2; apply (IZR_le 100); lia).
  rewrite (from_white hue chroma a2 f2 b2), EW, bind_Ok.
  assert (G : fgt peak (h_chroma w) = false).
  { destruct (fgt peak (h_chroma w)) eqn:G; [|reflexivity]. exfalso. unfold fgt in G. apply (flt_fin _ _ fw fp) in G. lra. }
  rewrite G, NW, ND. destruct (fmax_R peak (h_chroma w) fp fw) as [f3 e3].
  apply (IH (k + 1)%Z); [lia|lia|exact f2|exact e2|exact LC|exact f3| |exact ND].
  rewrite e3. apply Rmax_lub; lra.
Qed.

Lemma dark_loop hue chroma : forall (fuel : nat) (k : Z) (answer : f64) (closest : hct) (peak t : f64), (0 <= k <= 99)%Z -> (Z.of_nat fuel <= 1000)%Z ->
  fin answer -> B2R answer = IZR k -> fin peak ->
  desired_chroma_loop fuel hue chroma false answer closest peak = Ok t -> is_tone t.
Proof using LA PM.
  induction fuel as [|fuel IH]; intros k answer closest peak t hk hf fa ea fp; [intros Z; discriminate Z|]. cbn [desired_chroma_loop].
  assert (Ta : is_tone answer) by (split; [exact fa|rewrite ea; split; [apply (IZR_le 0)|apply (IZR_le _ 100)]; lia]).
  destruct (flt (h_chroma closest) chroma) eqn:LC; [|intros E; apply ok_inj in E; subst t; exact Ta].
  fconst (dec "1.0"). destruct (step_int answer (dec "1.0") k 1 fa ea F V ltac:(lia) ltac:(lia)) as [f2 e2]. cbv zeta.
  set (a2 := fadd answer (dec "1.0")) in *. clearbody a2.
  assert (T2 : is_tone a2) by (split; [exact f2|rewrite e2; split; [apply (IZR_le 0)|apply (IZR_le _ 100)]; lia]).
  destruct (from_ret LA hue chroma a2) as [p Ep]. rewrite Ep, bind_Ok. destruct (from_chroma _ _ _ _ Ep) as [fc bc].
  destruct (fgt peak (h_chroma p)) eqn:G; [intros E; apply ok_inj in E; subst t; exact T2|].
  destruct (flt (fabs (fsub (h_chroma p) chroma)) (dec "0.4")) eqn:D; [intros E; apply ok_inj in E; subst t; exact T2|].
  destruct (fmax_R peak (h_chroma p) fp fc) as [f3 e3].
  destruct (Z.eq_dec k 99) as [->|nk]; [|apply (IH (k + 1)%Z); [lia|lia|exact f2|exact e2|exact f3]].
  rewrite (from_white hue chroma a2 f2) in Ep by (rewrite e2; apply (IZR_le 100); lia).
  assert (PK : B2R (fmax peak (h_chroma p)) <= B2R (h_chroma p)).
  { rewrite e3. apply Rmax_lub; [|lra]. destruct (Rle_or_lt (B2R peak) (B2R (h_chroma p))) as [|l]; [assumption|]. exfalso.
    assert (G' : fgt peak (h_chroma p) = true) by (apply (flt_fin _ _ fc fp); lra). rewrite G' in G. discriminate G. }
  destruct fuel as [|fuel]; [intros Z; discriminate Z|].
  set (c2 := if flt (fabs (fsub (h_chroma p) chroma)) (fabs (fsub (h_chroma closest) chroma)) then p else closest) in *.
  assert (ND : flt (fabs (fsub (h_chroma p) chroma)) (fabs (fsub (h_chroma c2) chroma)) = false).
  { subst c2. destruct (flt (fabs (fsub (h_chroma p) chroma)) (fabs (fsub (h_chroma closest) chroma))) eqn:X; [|exact X].
    generalize (fabs (fsub (h_chroma p) chroma)). intros x. unfold flt. destruct (Bltb x x) eqn:Y; [|reflexivity]. exfalso.
    destruct x as [[]|[]| |[] m e]; try discriminate Y. all: revert Y; unfold Bltb, SpecFloat.SFltb; cbn [B2SF SpecFloat.SFcompare]; rewrite ?Z.compare_refl, ?Pos.compare_cont_refl; cbn; try discriminate. }
  clearbody c2. destruct (flt (h_chroma c2) chroma) eqn:LC2.
  - rewrite (stuck hue chroma p Ep D (S fuel) 100 a2 c2 (fmax peak (h_chroma p)) ltac:(lia) ltac:(lia) f2 e2 LC2 f3 PK ND). intros Z; discriminate Z.
  - cbn [desired_chroma_loop]. rewrite LC2. intros E; apply ok_inj in E; subst t; exact T2.
Qed.

Lemma dark_search hue chroma t : find_desired_chroma_by_tone hue chroma (dec "30.0") false = Ok t -> is_tone t.
Proof using LA PM.
  unfold find_desired_chroma_by_tone. fconst (dec "30.0"). destruct (from_ret LA hue chroma (dec "30.0")) as [h Eh]. rewrite Eh, bind_Ok. destruct (flt (h_chroma h) chroma).
  - apply (dark_loop hue chroma 1000 30); [lia|lia|exact F|exact V|exact (proj1 (from_chroma _ _ _ _ Eh))].
  - intros E; apply ok_inj in E; subst t. split; [exact F|lra].
Qed.
Local Transparent hct_from dec fmax fabs.
End Acc.
