(** * Proofs about contrast ratios and tone helpers that hold for every libm.  Proof file. *)
From Coq Require Import ZArith Bool Reals Lra Lia Psatz String List.
From Flocq Require Import Core Relative IEEE754.BinarySingleNaN.
From Verif Require Import F64 MathUtils ColorUtils Contrast Hct Palettes DynamicScheme DynamicColor Spec FloatFacts FloatMono FloatCast PfArgb PfMath PfColor.
Open Scope R_scope.

Lemma ratio_ys_R (y1 y2 : f64) : fin y1 -> fin y2 -> 0 <= B2R y1 <= 100 -> 0 <= B2R y2 <= 100 ->
  fin (ratio_of_ys y1 y2) /\
  B2R (ratio_of_ys y1 y2) = rnd (rnd (Rmax (B2R y1) (B2R y2) + 5) / rnd (Rmin (B2R y1) (B2R y2) + 5)) /\
  1 <= B2R (ratio_of_ys y1 y2) <= 21.
Proof.
  intros f1 f2 h1 h2. fconst (dec "5.0").
  assert (exists l d : f64, ratio_of_ys y1 y2 = fdiv (fadd l (dec "5.0")) (fadd d (dec "5.0")) /\ fin l /\ fin d /\
    B2R l = Rmax (B2R y1) (B2R y2) /\ B2R d = Rmin (B2R y1) (B2R y2)) as (l & d & E & fl & fd & El & Ed).
  { unfold ratio_of_ys, fgt. change Bltb with flt. destruct (flt y2 y1) eqn:L.
    - exists y1, y2. apply flt_fin in L; try assumption.
      assert (Q : feq y1 y2 = false).
      { destruct (feq y1 y2) eqn:Q; [|reflexivity]. apply feq_fin in Q; try assumption. lra. }
      rewrite Q. split; [reflexivity|]. split; [assumption|]. split; [assumption|].
      rewrite Rmax_left, Rmin_right by lra. easy.
    - exists y2, y1. apply flt_fin_f in L; try assumption.
      assert (Q : feq y2 y2 = true) by (apply feq_fin; easy). rewrite Q.
      split; [reflexivity|]. split; [assumption|]. split; [assumption|].
      rewrite Rmax_right, Rmin_left by lra. easy. }
  rewrite E, <- El, <- Ed.
  assert (H : 0 <= B2R d <= B2R l /\ B2R l <= 100).
  { rewrite El, Ed. unfold Rmax, Rmin. destruct (Rle_dec (B2R y1) (B2R y2)); lra. }
  destruct (fadd_S l (dec "5.0") fl F ltac:(rewrite V; fsmall)) as [A1 F1]. rewrite V in A1.
  destruct (fadd_S d (dec "5.0") fd F ltac:(rewrite V; fsmall)) as [A2 F2]. rewrite V in A2.
  pose proof (rnd_mono (B2R d + 5) (B2R l + 5) ltac:(lra)) as M.
  assert (B1 : rnd (B2R l + 5) <= 105) by (apply (rnd_le_IZR _ 105); [lia|lra]).
  assert (B2 : 5 <= rnd (B2R d + 5)) by (apply (rnd_ge_IZR _ 5); [lia|lra]).
  set (u := fadd l (dec "5.0")) in *. set (v := fadd d (dec "5.0")) in *.
  assert (Q : 1 <= B2R u / B2R v <= 21).
  { rewrite A1, A2. split.
    - apply Rmult_le_reg_r with (rnd (B2R d + 5)); [lra|]. unfold Rdiv. rewrite Rmult_assoc, Rinv_l by lra. lra.
    - apply Rmult_le_reg_r with (rnd (B2R d + 5)); [lra|]. unfold Rdiv. rewrite Rmult_assoc, Rinv_l by lra. lra. }
  destruct (fdiv_S u v F1 ltac:(rewrite A2; lra) ltac:(fsmall)) as [A3 F3].
  split; [assumption|]. rewrite A3. split; [now rewrite A1, A2|]. split.
  - apply (rnd_ge_IZR _ 1); [lia|lra].
  - apply (rnd_le_IZR _ 21); [lia|lra].
Qed.

Definition ct (t : f64) : f64 := clamp_double (dec "0.0") (dec "100.0") t.
Lemma ct_range t : nn t -> nn (ct t) /\ 0 <= val (ct t) <= 100.
Proof.
  intros h. fconst (dec "0.0"). fconst (dec "100.0").
  destruct (clamp_double_cases (dec "0.0") (dec "100.0") t) as ((A & B) & _); [vm_compute; reflexivity|assumption|].
  unfold ct. pose proof (fle_true _ _ A). pose proof (fle_true _ _ B). pose proof (fle_not_nan _ _ A) as [_ N].
  rewrite (val_fin (dec "0.0")) in * by assumption. rewrite (val_fin (dec "100.0")) in * by assumption.
  split; [assumption|]. lra.
Qed.
Lemma ct_mono a b : nn a -> nn b -> val a <= val b -> val (ct a) <= val (ct b).
Proof.
  intros na nb h. fconst (dec "0.0"). fconst (dec "100.0"). unfold ct, clamp_double, fgt. change Bltb with flt.
  pose proof (fin_not_nan _ F) as n0. pose proof (fin_not_nan _ F0) as n1.
  destruct (flt a (dec "0.0")) eqn:A1.
  - destruct (flt b (dec "0.0")) eqn:B1; [lra|]. apply (proj1 (flt_val_f b _ nb n0)) in B1.
    destruct (flt (dec "100.0") b); [|assumption]. rewrite !val_fin by assumption. lra.
  - apply (proj1 (flt_val_f a _ na n0)) in A1. rewrite (val_fin (dec "0.0")) in * by assumption.
    destruct (flt b (dec "0.0")) eqn:B1.
    { apply flt_true in B1. rewrite (val_fin (dec "0.0")) in * by assumption. lra. }
    destruct (flt (dec "100.0") a) eqn:A2, (flt (dec "100.0") b) eqn:B2; try assumption; try lra.
    + apply flt_true in A2. apply (proj1 (flt_val_f _ b n1 nb)) in B2. lra.
    + apply (proj1 (flt_val_f _ a n1 na)) in A2. lra.
Qed.
Lemma ct_id t : nn t -> 0 <= val t <= 100 -> ct t = t.
Proof.
  intros h r. fconst (dec "0.0"). fconst (dec "100.0").
  destruct (clamp_double_cases (dec "0.0") (dec "100.0") t) as (_ & E & _); [vm_compute; reflexivity|assumption|].
  apply E; apply fle_val; try assumption; try (apply fin_not_nan; assumption); rewrite (val_fin (dec _)) by assumption; lra.
Qed.

Lemma ratio_eq a b : ratio_of_tones a b = ratio_of_ys (y_from_lstar (ct a)) (y_from_lstar (ct b)).
Proof. reflexivity. Qed.

Lemma Yct a : nn a -> fin (y_from_lstar (ct a)) /\ 0 <= B2R (y_from_lstar (ct a)) <= 100.
Proof. intros h. destruct (ct_range a h). now apply y_from_lstar_range. Qed.

Lemma ratio_bounds a b : nn a -> nn b -> fin (ratio_of_tones a b) /\ 1 <= B2R (ratio_of_tones a b) <= 21.
Proof.
  intros na nb. rewrite ratio_eq. destruct (Yct a na) as [F1 B1], (Yct b nb) as [F2 B2].
  destruct (ratio_ys_R _ _ F1 F2 B1 B2) as (F & _ & B). exact (conj F B).
Qed.

Lemma ratio_sym a b : nn a -> nn b -> ratio_of_tones a b = ratio_of_tones b a.
Proof.
  intros na nb. rewrite !ratio_eq. destruct (Yct a na) as [F1 B1], (Yct b nb) as [F2 B2].
  generalize dependent (y_from_lstar (ct a)). generalize dependent (y_from_lstar (ct b)). intros yb F2 B2 ya F1 B1.
  destruct (ratio_ys_R _ _ F1 F2 B1 B2) as (F & E & B).
  destruct (ratio_ys_R _ _ F2 F1 B2 B1) as (F' & E' & B').
  refine (B2R_eq_nz _ _ F F' _ _); [|lra]. rewrite E, E', Rmax_comm, Rmin_comm. reflexivity.
Qed.

Lemma ratio_self a b : nn a -> nn b -> val a = val b -> B2R (ratio_of_tones a b) = 1.
Proof.
  intros na nb e. rewrite ratio_eq. destruct (Yct a na) as [F1 B1], (Yct b nb) as [F2 B2].
  destruct (ratio_ys_R _ _ F1 F2 B1 B2) as (F & E & B). rewrite E.
  assert (Q : B2R (y_from_lstar (ct a)) = B2R (y_from_lstar (ct b))).
  { destruct (ct_range a na) as [n1 _], (ct_range b nb) as [n2 _].
    rewrite <- !val_fin by assumption. apply Rle_antisym; apply y_from_lstar_mono; try assumption;
      apply ct_mono; assumption || lra. }
  rewrite Q, Rmax_left, Rmin_left by lra.
  assert (5 <= rnd (B2R (y_from_lstar (ct b)) + 5)) by (apply (rnd_ge_IZR _ 5); [lia|lra]).
  replace (_ / _) with 1 by (field; lra). apply (rnd_IZR 1). lia.
Qed.

Lemma ratio_clamped a b : nn a -> nn b ->
  ratio_of_tones a b =
  ratio_of_tones (clamp_double (dec "0.0") (dec "100.0") a) (clamp_double (dec "0.0") (dec "100.0") b).
Proof.
  intros na nb. fold (ct a). fold (ct b). rewrite !ratio_eq.
  destruct (ct_range a na) as [n1 r1], (ct_range b nb) as [n2 r2].
  rewrite (ct_id (ct a)), (ct_id (ct b)) by assumption. reflexivity.
Qed.

Lemma ratio_0_100 : B2R (ratio_of_tones (dec "0.0") (dec "100.0")) = 21.
Proof. fconst (ratio_of_tones (dec "0.0") (dec "100.0")). assumption. Qed.

Lemma div_mono a b c d : 0 <= a <= b -> 0 < d <= c -> a / c <= b / d.
Proof.
  intros h1 h2. unfold Rdiv. apply Rmult_le_compat; try lra.
  - left. apply Rinv_0_lt_compat. lra.
  - apply Rinv_le; lra.
Qed.

(** Widening the interval of tones never lowers the ratio. *)
Lemma ratio_widen a b a' b' : nn a -> nn b -> nn a' -> nn b' ->
  val a' <= val a -> val a <= val b -> val b <= val b' ->
  B2R (ratio_of_tones a b) <= B2R (ratio_of_tones a' b').
Proof.
  intros na nb na' nb' h1 h2 h3. rewrite !ratio_eq.
  destruct (Yct a na) as [F1 B1], (Yct b nb) as [F2 B2], (Yct a' na') as [F3 B3], (Yct b' nb') as [F4 B4].
  destruct (ratio_ys_R _ _ F1 F2 B1 B2) as (_ & E & _). destruct (ratio_ys_R _ _ F3 F4 B3 B4) as (_ & E' & _).
  rewrite E, E'. clear E E'.
  assert (M : forall x y, nn x -> nn y -> val x <= val y ->
    B2R (y_from_lstar (ct x)) <= B2R (y_from_lstar (ct y))).
  { intros x y nx ny h. destruct (Yct x nx) as [Fx _], (Yct y ny) as [Fy _].
    rewrite <- !val_fin by assumption. destruct (ct_range x nx), (ct_range y ny).
    apply y_from_lstar_mono; try assumption. now apply ct_mono. }
  pose proof (M _ _ na' na h1). pose proof (M _ _ na nb h2). pose proof (M _ _ nb nb' h3).
  rewrite !Rmax_right, !Rmin_left by lra.
  apply rnd_mono. apply div_mono.
  - split; [apply rnd_ge_0; lra|apply rnd_mono; lra].
  - split; [|apply rnd_mono; lra].
    assert (5 <= rnd (B2R (y_from_lstar (ct a')) + 5)) by (apply (rnd_ge_IZR _ 5); [lia|lra]). lra.
Qed.

(** ** lighter / darker *)
Section AnyLibm.
Context {lm : Libm}.

Lemma guard_false t : nn t -> (flt t (dec "0.0") || fgt t (dec "100.0"))%bool = false ->
  0 <= val t <= 100.
Proof.
  intros nt h. fconst (dec "0.0"). fconst (dec "100.0").
  apply orb_false_iff in h. destruct h as [h1 h2]. unfold fgt in h2. change Bltb with flt in h2.
  apply flt_val_f in h1; [|assumption|now apply fin_not_nan].
  apply (proj1 (flt_val_f (dec "100.0") t (fin_not_nan _ F0) nt)) in h2.
  rewrite (val_fin (dec "0.0")) in h1 by assumption. rewrite (val_fin (dec "100.0")) in h2 by assumption. lra.
Qed.
Lemma guard_true t : nn t -> (val t < 0 \/ 100 < val t) ->
  (flt t (dec "0.0") || fgt t (dec "100.0"))%bool = true.
Proof.
  intros nt h. fconst (dec "0.0"). fconst (dec "100.0").
  apply orb_true_iff. unfold fgt. change Bltb with flt.
  destruct h; [left|right]; apply flt_val; try assumption; try (now apply fin_not_nan);
    rewrite (val_fin (dec _)) by assumption; lra.
Qed.

Definition tone_or_fail (x : f64) : Prop := x = dec "-1.0" \/ (is_finite x = true /\ 0 <= B2R x <= 100).

Lemma final_guard (r : f64) :
  let x := if (flt r (dec "0.0") || fgt r (dec "100.0"))%bool then dec "-1.0" else r in
  is_nan x = true \/ tone_or_fail x.
Proof.
  cbv zeta. destruct (flt r (dec "0.0") || fgt r (dec "100.0"))%bool eqn:G; [right; now left|].
  destruct (is_nan r) eqn:N; [now left|right; right].
  pose proof (guard_false r N G) as B. assert (F : fin r).
  { apply (val_fin_iff _ N). fconst (dec "100.0"). pose proof (B2R_BIG (dec "100.0")). lra. }
  split; [assumption|]. now rewrite <- val_fin.
Qed.

Lemma lighter_cases t r : is_nan (lighter t r) = true \/ tone_or_fail (lighter t r).
Proof.
  unfold lighter. destruct (flt t (dec "0.0") || fgt t (dec "100.0"))%bool; [right; now left|].
  cbv zeta. destruct (_ && _)%bool; [right; now left|]. apply final_guard.
Qed.
Lemma darker_cases t r : is_nan (darker t r) = true \/ tone_or_fail (darker t r).
Proof.
  unfold darker. destruct (flt t (dec "0.0") || fgt t (dec "100.0"))%bool; [right; now left|].
  cbv zeta. destruct (_ && _)%bool; [right; now left|]. apply final_guard.
Qed.

Lemma lighter_outside t r : nn t -> (val t < 0 \/ 100 < val t) -> lighter t r = dec "-1.0".
Proof. intros n h. unfold lighter. now rewrite guard_true. Qed.
Lemma darker_outside t r : nn t -> (val t < 0 \/ 100 < val t) -> darker t r = dec "-1.0".
Proof. intros n h. unfold darker. now rewrite guard_true. Qed.

Lemma lab_f_nn t : pow_defined lm -> nn t -> nn (lab_f t).
Proof.
  intros P n. unfold lab_f, fgt. change Bltb with flt.
  fconst (dec "216.0" / dec "24389.0")%f. fconst (dec "24389.0" / dec "27.0")%f. fconst (dec "16.0"). fconst (dec "116.0").
  destruct (flt _ t) eqn:C.
  - apply P.
    + apply flt_true in C. rewrite val_fin, V in C by assumption. apply flt_val; [vm_compute; reflexivity|assumption|].
      fconst (dec "0.0"). rewrite val_fin by assumption. lra.
    + fconst (dec "1.0" / dec "3.0")%f. assumption.
  - apply fdiv_nn; [assumption|lra|]. apply fadd_nn; [assumption|]. apply fmull_nn; [assumption|lra|assumption].
Qed.
Lemma lstar_from_y_nn y : pow_defined lm -> nn y -> nn (lstar_from_y y).
Proof.
  intros P n. unfold lstar_from_y. fconst (dec "100.0"). fconst (dec "116.0"). fconst (dec "16.0").
  apply fsub_nn; [assumption|]. apply fmul_nn; [assumption|lra|]. apply lab_f_nn; [assumption|].
  apply fdiv_nn; [assumption|lra|assumption].
Qed.

Lemma fdiv_pos_nn (x y : f64) : fin x -> 0 < B2R x -> nn y -> nn (fdiv x y).
Proof.
  intros fx px ny. destruct (is_finite y) eqn:F.
  - destruct (Req_dec (B2R y) 0) as [z|z]; [|now apply fdiv_val].
    destruct (c_pos x fx px) as (m & e & p & ->).
    destruct y as [s|s| |s m' e' p']; try discriminate; [reflexivity|].
    exfalso. revert z. cbn. unfold F2R. cbn [Fnum Fexp]. pose proof (bpow_gt_0 radix2 e').
    intros z. apply Rmult_integral in z. destruct z as [z|z]; [|lra].
    apply (eq_IZR _ 0) in z. destruct s; discriminate.
  - destruct (c_pos x fx px) as (m & e & p & ->). destruct y; try discriminate. reflexivity.
Qed.

Lemma ifnn (b : bool) (x y : f64) : nn x -> nn y -> nn (if b then x else y).
Proof. now destruct b. Qed.

Lemma lighter_nn t r : pow_defined lm -> nn t -> nn r -> nn (lighter t r).
Proof.
  intros P nt nr. unfold lighter.
  destruct (flt t (dec "0.0") || fgt t (dec "100.0"))%bool eqn:G; [vm_compute; reflexivity|].
  pose proof (guard_false t nt G) as B. cbv zeta.
  destruct (y_from_lstar_range t nt B) as [FY BY]. fconst (dec "5.0"). fconst (dec "0.4").
  destruct (fadd_S (y_from_lstar t) (dec "5.0") FY F ltac:(fsmall)) as [A FA]. rewrite V in A.
  assert (5 <= rnd (B2R (y_from_lstar t) + 5)) by (apply (rnd_ge_IZR _ 5); [lia|lra]).
  apply ifnn; [vm_compute; reflexivity|]. apply ifnn; [vm_compute; reflexivity|].
  apply fadd_nn; [assumption|]. apply lstar_from_y_nn; [assumption|].
  apply fsub_nn; [assumption|]. apply fmul_nn; [assumption|lra|assumption].
Qed.
Lemma darker_nn t r : pow_defined lm -> nn t -> nn r -> nn (darker t r).
Proof.
  intros P nt nr. unfold darker.
  destruct (flt t (dec "0.0") || fgt t (dec "100.0"))%bool eqn:G; [vm_compute; reflexivity|].
  pose proof (guard_false t nt G) as B. cbv zeta.
  destruct (y_from_lstar_range t nt B) as [FY BY]. fconst (dec "5.0"). fconst (dec "0.4").
  destruct (fadd_S (y_from_lstar t) (dec "5.0") FY F ltac:(fsmall)) as [A FA]. rewrite V in A.
  assert (5 <= rnd (B2R (y_from_lstar t) + 5)) by (apply (rnd_ge_IZR _ 5); [lia|lra]).
  apply ifnn; [vm_compute; reflexivity|]. apply ifnn; [vm_compute; reflexivity|].
  apply fsub_nn; [assumption|]. apply lstar_from_y_nn; [assumption|].
  apply fsub_nn; [assumption|]. apply fdiv_pos_nn; [assumption|lra|assumption].
Qed.

Lemma lighter_range t r : pow_defined lm -> nn t -> nn r -> tone_or_fail (lighter t r).
Proof.
  intros P nt nr. destruct (lighter_cases t r) as [N|H]; [|assumption].
  rewrite lighter_nn in N by assumption. discriminate.
Qed.
Lemma darker_range t r : pow_defined lm -> nn t -> nn r -> tone_or_fail (darker t r).
Proof.
  intros P nt nr. destruct (darker_cases t r) as [N|H]; [|assumption].
  rewrite darker_nn in N by assumption. discriminate.
Qed.

Lemma unsafe_of_safe (x d : f64) : nn x -> tone_or_fail x -> fin d -> 0 <= B2R d <= 100 ->
  let y := if flt x (dec "0.0") then d else x in
  (is_finite y = true /\ 0 <= B2R y <= 100) /\ (x = dec "-1.0" -> y = d) /\ (x <> dec "-1.0" -> y = x).
Proof.
  intros nx T fd bd. cbv zeta. fconst (dec "0.0"). destruct T as [->|[fx bx]].
  - assert (C : flt (dec "-1.0") (dec "0.0") = true) by (vm_compute; reflexivity). rewrite C. split; [easy|]. split; [easy|].
    intros n. now contradiction n.
  - assert (C : flt x (dec "0.0") = false) by (apply flt_fin_f; try assumption; lra). rewrite C. split; [easy|].
    split; [|easy]. intros ->. fconst (dec "-1.0"). lra.
Qed.

Lemma lighter_unsafe_ok t r : nn (lighter t r) ->
  (is_finite (lighter_unsafe t r) = true /\ 0 <= B2R (lighter_unsafe t r) <= 100) /\
  (lighter t r = dec "-1.0" -> lighter_unsafe t r = dec "100.0") /\
  (lighter t r <> dec "-1.0" -> lighter_unsafe t r = lighter t r).
Proof.
  intros n. destruct (lighter_cases t r) as [N|H]; [now rewrite n in N|].
  fconst (dec "100.0"). apply unsafe_of_safe; try assumption. lra.
Qed.
Lemma darker_unsafe_ok t r : nn (darker t r) ->
  (is_finite (darker_unsafe t r) = true /\ 0 <= B2R (darker_unsafe t r) <= 100) /\
  (darker t r = dec "-1.0" -> darker_unsafe t r = dec "0.0") /\
  (darker t r <> dec "-1.0" -> darker_unsafe t r = darker t r).
Proof.
  intros n. destruct (darker_cases t r) as [N|H]; [now rewrite n in N|].
  fconst (dec "0.0"). apply unsafe_of_safe; try assumption. lra.
Qed.
End AnyLibm.

(** ** enable_light_foreground *)
Lemma prefers_iff t : nn t -> (tone_prefers_light_foreground t = true <-> val t < 59.5).
Proof.
  intros n. fconst (dec "60.0"). unfold tone_prefers_light_foreground.
  rewrite (fround_lt t (dec "60.0") 60 n F V ltac:(lia)). lra.
Qed.
Lemma allows_iff t : nn t -> (tone_allows_light_foreground t = true <-> val t < 49.5).
Proof.
  intros n. fconst (dec "49.0"). fconst (dec "50.0"). unfold tone_allows_light_foreground.
  pose proof (fround_ge t (dec "50.0") 50 n F0 V0 ltac:(lia)) as G.
  pose proof (fround_nn t n) as nr. pose proof (fin_not_nan _ F). pose proof (fin_not_nan _ F0).
  rewrite fle_val in G by assumption. rewrite fle_val by assumption.
  destruct (is_finite t) eqn:FT.
  - destruct (fround_R t FT) as [R FR]. rewrite !val_fin in * by assumption. rewrite R, V, V0 in *. split.
    + intros h. destruct (Rlt_or_le (B2R t) 49.5) as [|c]; [assumption|].
      assert (50 <= IZR (ZnearestA (B2R t))) by (apply G; lra). lra.
    + intros h. destruct (Z.le_gt_cases (ZnearestA (B2R t)) 49) as [c|c]; [now apply (IZR_le _ 49)|].
      assert (50 <= IZR (ZnearestA (B2R t))) by (apply (IZR_le 50); lia). apply G in H1. lra.
  - rewrite (val_fin (dec "49.0")), V by assumption. pose proof BIG_pos. pose proof (B2R_BIG (dec "60.0")).
    fconst (dec "60.0"). destruct t as [|[]| |]; try discriminate; unfold fround, Bnearbyint; cbn [val]; lra.
Qed.

Lemma enable_light t : nn t ->
  (49.5 <= val t < 59.5 -> enable_light_foreground t = dec "49.0") /\
  (~ 49.5 <= val t < 59.5 -> enable_light_foreground t = t) /\
  ~ 49.5 <= val (enable_light_foreground t) < 59.5.
Proof.
  intros n. unfold enable_light_foreground. pose proof (prefers_iff t n). pose proof (allows_iff t n).
  destruct (tone_prefers_light_foreground t), (tone_allows_light_foreground t); cbn [negb andb];
    (split; [intros; try reflexivity|split; [intros; try reflexivity|]]); try intuition lra.
  fconst (dec "49.0"). rewrite val_fin by assumption. lra.
Qed.
Lemma enable_light_nan t : is_nan t = true -> enable_light_foreground t = t.
Proof. destruct t; try discriminate. reflexivity. Qed.

(** ** Contrast curves *)
Lemma cc_low_at c x : fle x (dec "-1.0") = true -> cc_get c x = cc_low c.
Proof. intros h. unfold cc_get. change (- dec "1.0")%f with (dec "-1.0"). now rewrite h. Qed.

Lemma not_le (x c : f64) : nn x -> fin c -> B2R c < val x -> fle x c = false.
Proof. intros n f h. apply fle_val_f; [assumption|now apply fin_not_nan|]. now rewrite (val_fin c). Qed.
Lemma not_lt (x c : f64) : nn x -> fin c -> B2R c <= val x -> flt x c = false.
Proof. intros n f h. apply flt_val_f; [assumption|now apply fin_not_nan|]. now rewrite (val_fin c). Qed.
Lemma yes_lt (x c : f64) : nn x -> fin c -> val x < B2R c -> flt x c = true.
Proof. intros n f h. apply flt_val; [assumption|now apply fin_not_nan|]. now rewrite (val_fin c). Qed.

Lemma cc_high_at c x : fle (dec "1.0") x = true -> cc_get c x = cc_high c.
Proof.
  intros h. pose proof (fle_not_nan _ _ h) as [_ n]. apply fle_true in h.
  fconst (dec "1.0"). fconst (dec "-1.0"). fconst (dec "0.0"). fconst (dec "0.5"). rewrite val_fin, V in h by assumption.
  unfold cc_get. change (- dec "1.0")%f with (dec "-1.0").
  rewrite not_le, !not_lt by (try assumption; lra). reflexivity.
Qed.

Lemma lerp_amount0 s e (a : f64) : fin s -> fin e -> fin a -> B2R a = 0 ->
  fin (lerp s e a) /\ B2R (lerp s e a) = B2R s.
Proof.
  intros fs fe fa za. fconst (dec "1.0"). unfold lerp. pose proof (B2R_BIG s). pose proof BIG_pos.
  destruct (fsub_S (dec "1.0") a F fa ltac:(rewrite V, za; fsmall)) as [S1 F1].
  rewrite V, za, Rminus_0_r, (rnd_IZR 1) in S1 by lia.
  destruct (fmul_val _ _ F1 fs) as [M1 N1]. rewrite S1, Rmult_1_l, rndx_B2R in M1.
  assert (FM1 : fin (fmul (fsub (dec "1.0") a) s)) by (apply (val_fin_iff _ N1); rewrite M1; assumption).
  rewrite val_fin in M1 by assumption.
  destruct (fmul_val _ _ fa fe) as [M2 N2]. rewrite za, Rmult_0_l in M2.
  fconst (dec "0.0"). replace 0 with (B2R (dec "0.0")) in M2 at 1. rewrite rndx_B2R, V0 in M2.
  assert (FM2 : fin (fmul a e)) by (apply (val_fin_iff _ N2); rewrite M2; lra).
  rewrite val_fin in M2 by assumption.
  destruct (fadd_val _ _ FM1 FM2) as [A N]. rewrite M1, M2, Rplus_0_r, rndx_B2R in A.
  assert (FA : fin (fadd (fmul (fsub (dec "1.0") a) s) (fmul a e)))
    by (apply (val_fin_iff _ N); rewrite A; assumption).
  split; [assumption|]. now rewrite val_fin in A.
Qed.

Lemma cc_normal_at c x : fin (cc_normal c) -> fin (cc_medium c) -> feq x (dec "0.0") = true ->
  fin (cc_get c x) /\ B2R (cc_get c x) = B2R (cc_normal c).
Proof.
  intros f1 f2 h. pose proof (feq_not_nan _ _ h) as [n _]. apply feq_true in h.
  fconst (dec "1.0"). fconst (dec "-1.0"). fconst (dec "0.0"). fconst (dec "0.5"). rewrite (val_fin (dec "0.0")), V1 in h by assumption.
  assert (fx : fin x). { apply (val_fin_iff _ n). rewrite h. pose proof BIG_pos. lra. }
  unfold cc_get. change (- dec "1.0")%f with (dec "-1.0").
  rewrite not_le, not_lt, yes_lt by (try assumption; lra).
  rewrite val_fin in h by assumption.
  destruct (fsub_S x (dec "0.0") fx F1 ltac:(rewrite V1, h; fsmall)) as [S FS]. rewrite h, V1, Rminus_0_r, rnd_0 in S.
  destruct (fdiv_S _ (dec "0.5") FS ltac:(lra)) as [D FD].
  { rewrite S, V2. unfold Rdiv. rewrite Rmult_0_l. fsmall. }
  apply lerp_amount0; try assumption. rewrite D, S. unfold Rdiv. rewrite Rmult_0_l. apply rnd_0.
Qed.

Lemma cc_medium_at c x : fin (cc_medium c) -> fin (cc_high c) -> feq x (dec "0.5") = true ->
  fin (cc_get c x) /\ B2R (cc_get c x) = B2R (cc_medium c).
Proof.
  intros f1 f2 h. pose proof (feq_not_nan _ _ h) as [n _]. apply feq_true in h.
  fconst (dec "1.0"). fconst (dec "-1.0"). fconst (dec "0.0"). fconst (dec "0.5"). rewrite (val_fin (dec "0.5")), V2 in h by assumption.
  assert (fx : fin x). { apply (val_fin_iff _ n). rewrite h. pose proof (B2R_BIG (dec "1.0")). lra. }
  unfold cc_get. change (- dec "1.0")%f with (dec "-1.0").
  rewrite not_le, !not_lt, yes_lt by (try assumption; lra).
  rewrite val_fin in h by assumption.
  destruct (fsub_S x (dec "0.5") fx F2 ltac:(rewrite V2, h; fsmall)) as [S FS].
  rewrite h, V2, Rminus_diag_eq, rnd_0 in S by reflexivity.
  destruct (fdiv_S _ (dec "0.5") FS ltac:(lra)) as [D FD].
  { rewrite S, V2. unfold Rdiv. rewrite Rmult_0_l. fsmall. }
  apply lerp_amount0; try assumption. rewrite D, S. unfold Rdiv. rewrite Rmult_0_l. apply rnd_0.
Qed.

Definition within (lo hi x : f64) : Prop :=
  is_finite x = true /\ B2R lo * (1 - bpow radix2 (-50)) - bpow radix2 (-1072) <= B2R x
                       <= B2R hi * (1 + bpow radix2 (-50)) + bpow radix2 (-1072).

Lemma cc_between c x : fin (cc_low c) -> fin (cc_normal c) -> fin (cc_medium c) -> fin (cc_high c) ->
  0 <= B2R (cc_low c) <= B2R (cc_normal c) -> B2R (cc_normal c) <= B2R (cc_medium c) <= B2R (cc_high c) ->
  B2R (cc_high c) <= bpow radix2 1020 -> fin x ->
  (-1 < B2R x < 0 -> within (cc_low c) (cc_normal c) (cc_get c x)) /\
  (0 <= B2R x < 0.5 -> within (cc_normal c) (cc_medium c) (cc_get c x)) /\
  (0.5 <= B2R x < 1 -> within (cc_medium c) (cc_high c) (cc_get c x)).
Proof.
  intros f1 f2 f3 f4 h1 h2 h3 fx. pose proof (fin_not_nan _ fx) as n.
  fconst (dec "1.0"). fconst (dec "-1.0"). fconst (dec "0.0"). fconst (dec "0.5").
  unfold cc_get. change (- dec "1.0")%f with (dec "-1.0"). unfold within.
  split; [|split]; intros h.
  - rewrite not_le, yes_lt by (try assumption; rewrite ?val_fin by assumption; lra).
    destruct (fsub_S x (dec "-1.0") fx F0 ltac:(rewrite V0; fsmall)) as [S FS]. rewrite V0 in S.
    assert (0 <= rnd (B2R x - - (1)) <= 1) by (split; [apply rnd_ge_0; lra|apply (rnd_le_IZR _ 1); [lia|lra]]).
    destruct (fdiv_S _ (dec "1.0") FS ltac:(lra) ltac:(rewrite S, V; fsmall)) as [D FD].
    apply lerp_between; try assumption; try lra.
    rewrite D, S, V. unfold Rdiv. rewrite Rinv_1, Rmult_1_r.
    split; [apply rnd_ge_0; lra|apply (rnd_le_IZR _ 1); [lia|lra]].
  - rewrite not_le, not_lt, yes_lt by (try assumption; rewrite ?val_fin by assumption; lra).
    destruct (fsub_S x (dec "0.0") fx F1 ltac:(rewrite V1; fsmall)) as [S FS]. rewrite V1, Rminus_0_r, rnd_B2R in S.
    destruct (fdiv_S _ (dec "0.5") FS ltac:(lra) ltac:(rewrite S, V2; fsmall)) as [D FD].
    apply lerp_between; try assumption; try lra. rewrite D, S, V2.
    split; [apply rnd_ge_0; lra|apply (rnd_le_IZR _ 1); [lia|lra]].
  - rewrite not_le, !not_lt, yes_lt by (try assumption; rewrite ?val_fin by assumption; lra).
    destruct (fsub_S x (dec "0.5") fx F2 ltac:(rewrite V2; fsmall)) as [S FS]. rewrite V2 in S.
    assert (0 <= rnd (B2R x - 1 / 2) <= 1 / 2).
    { split; [apply rnd_ge_0; lra|]. rewrite <- V2. apply rnd_le_B2R. lra. }
    destruct (fdiv_S _ (dec "0.5") FS ltac:(lra) ltac:(rewrite S, V2; fsmall)) as [D FD].
    apply lerp_between; try assumption; try lra. rewrite D, S, V2.
    split; [apply rnd_ge_0; lra|apply (rnd_le_IZR _ 1); [lia|lra]].
Qed.

(** ** Wrappers in the vocabulary of the property file *)
Lemma y_mono_fle a b : fle a b = true -> fle (y_from_lstar a) (y_from_lstar b) = true.
Proof.
  intros h. destruct (fle_not_nan _ _ h) as [na nb]. apply fle_true in h.
  apply fle_val; try (now apply y_from_lstar_nn). now apply y_from_lstar_mono.
Qed.
Lemma val_bounds (x lo hi : f64) : fin lo -> fin hi -> fle lo x = true -> fle x hi = true ->
  nn x /\ fin x /\ B2R lo <= B2R x <= B2R hi.
Proof.
  intros f1 f2 h1 h2. destruct (fle_not_nan _ _ h1) as [_ n]. apply fle_true in h1, h2.
  rewrite (val_fin lo) in h1 by assumption. rewrite (val_fin hi) in h2 by assumption. pose proof (B2R_BIG lo). pose proof (B2R_BIG hi).
  assert (F : fin x) by (apply (val_fin_iff _ n); lra). rewrite (val_fin x) in h1, h2 by assumption. easy.
Qed.
Lemma y_range_fle a : fle (dec "0.0") a = true -> fle a (dec "100.0") = true ->
  fle (dec "0.0") (y_from_lstar a) = true /\ fle (y_from_lstar a) (dec "100.0") = true.
Proof.
  intros h1 h2. rewrite <- y_from_lstar_0 at 1. rewrite <- y_from_lstar_100.
  split; now apply y_mono_fle.
Qed.
Lemma ratio_self_feq a b : feq a b = true -> B2R (ratio_of_tones a b) = 1.
Proof. intros h. destruct (feq_not_nan _ _ h) as [na nb]. apply ratio_self; try assumption. now apply feq_true. Qed.
Lemma ratio_widen_fle a b c : fle a b = true -> fle b c = true ->
  fle (ratio_of_tones a b) (ratio_of_tones a c) = true /\
  fle (ratio_of_tones b c) (ratio_of_tones a c) = true.
Proof.
  intros h1 h2. destruct (fle_not_nan _ _ h1) as [na nb]. destruct (fle_not_nan _ _ h2) as [_ nc].
  apply fle_true in h1, h2.
  destruct (ratio_bounds a b na nb) as [F1 _], (ratio_bounds b c nb nc) as [F2 _], (ratio_bounds a c na nc) as [F3 _].
  split; apply fle_fin; try assumption; apply ratio_widen; try assumption; lra.
Qed.
Lemma outside (t : f64) : (flt t (dec "0.0") || flt (dec "100.0") t)%bool = true -> nn t /\ (val t < 0 \/ 100 < val t).
Proof.
  intros h. fconst (dec "0.0"). fconst (dec "100.0"). apply orb_true_iff in h. destruct h as [h|h].
  - destruct (flt_not_nan _ _ h) as [n _]. split; [assumption|left]. apply flt_true in h. rewrite (val_fin (dec _)) in h by assumption. lra.
  - destruct (flt_not_nan _ _ h) as [_ n]. split; [assumption|right]. apply flt_true in h. rewrite (val_fin (dec _)) in h by assumption. lra.
Qed.
Lemma outside_fail {lm : Libm} t r : (flt t (dec "0.0") || flt (dec "100.0") t)%bool = true ->
  lighter t r = dec "-1.0" /\ darker t r = dec "-1.0".
Proof.
  intros h. destruct (outside t h) as [n o]. split; [now apply lighter_outside|now apply darker_outside].
Qed.

Lemma enable_light_fle t : is_nan t = false ->
  (fle (dec "49.5") t = true /\ flt t (dec "59.5") = true -> enable_light_foreground t = dec "49.0") /\
  (flt t (dec "49.5") = true \/ fle (dec "59.5") t = true -> enable_light_foreground t = t) /\
  (flt (enable_light_foreground t) (dec "49.5") = true \/ fle (dec "59.5") (enable_light_foreground t) = true).
Proof.
  intros n. destruct (enable_light t n) as (A & B & C). fconst (dec "49.5"). fconst (dec "59.5"). fconst (dec "49.0").
  pose proof (fin_not_nan _ F). pose proof (fin_not_nan _ F0).
  split; [|split].
  - intros [h1 h2]. apply A. apply fle_true in h1. apply flt_true in h2. rewrite (val_fin (dec _)) in h1 by assumption.
    rewrite (val_fin (dec "59.5")) in h2 by assumption. lra.
  - intros h. apply B. intros [c1 c2]. destruct h as [h|h].
    + apply flt_true in h. rewrite (val_fin (dec _)) in h by assumption. lra.
    + apply fle_true in h. rewrite (val_fin (dec _)) in h by assumption. lra.
  - assert (N : nn (enable_light_foreground t)).
    { unfold enable_light_foreground. destruct (_ && _)%bool; [now apply fin_not_nan|assumption]. }
    destruct (Rlt_or_le (val (enable_light_foreground t)) 49.5) as [c|c]; [left|right].
    + apply flt_val; try assumption. rewrite (val_fin (dec _)) by assumption. lra.
    + apply fle_val; try assumption. rewrite (val_fin (dec _)) by assumption.
      destruct (Rlt_or_le (val (enable_light_foreground t)) 59.5); lra.
Qed.

Lemma grey {lm : Libm} l : exists c, (0 <= c <= 255)%Z /\ argb_from_lstar l = argb_from_rgb c c c.
Proof. exists (delinearized (y_from_lstar l)). split; [apply delinearized_byte|reflexivity]. Qed.

Lemma black {lm : Libm} l : fle l (dec "0.0") = true -> argb_from_lstar l = 0xFF000000%Z.
Proof.
  intros h. pose proof (y_mono_fle _ _ h) as Y. rewrite y_from_lstar_0 in Y.
  unfold argb_from_lstar. set (y := y_from_lstar l) in *. clearbody y. cbv zeta.
  assert (D : delinearized y = 0%Z).
  { destruct (fle_not_nan _ _ Y) as [ny _]. unfold delinearized.
    fconst (dec "0.0"). fconst (dec "100.0"). fconst (dec "0.0031308"). fconst (dec "12.92"). fconst (dec "255.0").
    apply fle_true in Y. rewrite (val_fin (dec _)), V in Y by assumption.
    set (z := fdiv y (dec "100.0")).
    assert (nz : nn z) by (now apply fdiv_nn; [|lra|]).
    assert (Vz : val z <= 0).
    { assert (Q : val (fdiv (dec "0.0") (dec "100.0")) = 0).
      { fconst (dec "0.0" / dec "100.0")%f. rewrite val_fin by assumption. assumption. }
      rewrite <- Q. apply fdiv_mono; [assumption|lra|assumption|apply (fin_not_nan _ F)|].
      rewrite (val_fin (dec _)) by assumption. lra. }
    assert (C : fle z (dec "0.0031308") = true).
    { apply fle_val; [assumption|now apply fin_not_nan|]. rewrite (val_fin (dec _)) by assumption. lra. }
    rewrite C.
    assert (M : forall w c : f64, fin c -> 0 < B2R c -> nn w -> val w <= 0 -> nn (fmul w c) /\ val (fmul w c) <= 0).
    { intros w c fc pc nw Vw. split; [now apply fmul_nn|].
      assert (Q : val (fmul (dec "0.0") c) = 0).
      { destruct (fmul_S (dec "0.0") c F fc) as [E FE]; [rewrite V, Rmult_0_l; fsmall|].
        rewrite val_fin by assumption. rewrite E, V, Rmult_0_l. apply rnd_0. }
      rewrite <- Q. apply fmul_mono; [assumption|assumption|assumption|apply (fin_not_nan _ F)|].
      rewrite (val_fin (dec _)) by assumption. lra. }
    destruct (M z (dec "12.92") F2 ltac:(lra) nz Vz) as [n1 v1].
    destruct (M _ (dec "255.0") F3 ltac:(lra) n1 v1) as [n2 v2].
    set (w := fmul (fmul z (dec "12.92")) (dec "255.0")) in *.
    apply (byte_low w n2). lra. }
  rewrite D. reflexivity.
Qed.

Lemma lstar_grey {lm : Libm} l : exists c, (0 <= c <= 255)%Z /\
  argb_from_lstar l = (0xFF000000 + 65536 * c + 256 * c + c)%Z.
Proof.
  destruct (grey l) as (c & h & E). exists c. split; [assumption|].
  rewrite E, argb_from_rgb_sum. rewrite !Z.mod_small by lia. lia.
Qed.

Lemma cc_points (low normal medium high x : f64) :
  fin normal -> fin medium -> fin high ->
  let c := cc_new low normal medium high in
  (fle x (dec "-1.0") = true -> cc_get c x = low) /\
  (feq x (dec "0.0") = true -> is_finite (cc_get c x) = true /\ B2R (cc_get c x) = B2R normal) /\
  (feq x (dec "0.5") = true -> is_finite (cc_get c x) = true /\ B2R (cc_get c x) = B2R medium) /\
  (fle (dec "1.0") x = true -> cc_get c x = high).
Proof.
  intros f1 f2 f3 c. split; [|split; [|split]]; intros h.
  - now apply (cc_low_at c).
  - exact (cc_normal_at c x f1 f2 h).
  - exact (cc_medium_at c x f2 f3 h).
  - now apply (cc_high_at c).
Qed.
Lemma cc_between_new (low normal medium high x : f64) :
  fin low -> fin normal -> fin medium -> fin high ->
  0 <= B2R low <= B2R normal -> B2R normal <= B2R medium <= B2R high -> B2R high <= bpow radix2 1020 -> fin x ->
  let c := cc_new low normal medium high in
  let inside lo hi := is_finite (cc_get c x) = true /\
    B2R lo * (1 - bpow radix2 (-50)) - bpow radix2 (-1072) <= B2R (cc_get c x)
      <= B2R hi * (1 + bpow radix2 (-50)) + bpow radix2 (-1072) in
  (-1 < B2R x < 0 -> inside low normal) /\ (0 <= B2R x < 0.5 -> inside normal medium) /\
  (0.5 <= B2R x < 1 -> inside medium high).
Proof. intros f1 f2 f3 f4 h1 h2 h3 fx c. exact (cc_between c x f1 f2 f3 f4 h1 h2 h3 fx). Qed.
