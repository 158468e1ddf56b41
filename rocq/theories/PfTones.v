(** * Proofs about foreground_tone and get_tone.  Proof file. *)
From Coq Require Import ZArith Bool Reals Lra Lia Psatz String List.
From Flocq Require Import Core Relative IEEE754.BinarySingleNaN.
From Verif Require Import F64 MathUtils ColorUtils Contrast Hct Palettes DynamicScheme DynamicColor MaterialDynamicColors
  Spec SpecTones FloatFacts FloatMono FloatCast PfArgb PfMath PfColor PfContrast PfHct.
Import ListNotations.
Open Scope string_scope.
Open Scope list_scope.
Open Scope R_scope.

Lemma tone_nn x : is_tone x -> nn x.
Proof. intros [F _]. now apply fin_not_nan. Qed.
Lemma tone_fin x : is_tone x -> fin x.
Proof. intros [F _]. exact F. Qed.
Lemma ite_tone (b : bool) x y : is_tone x -> is_tone y -> is_tone (if b then x else y).
Proof. now destruct b. Qed.

Ltac tone_lit := match goal with |- is_tone (dec ?s) => let V := fresh in let F := fresh in
  fconst_as (dec s) V F; split; [exact F|rewrite V; lra] end.

(** ** Interpolated curves *)
Lemma rnd_near r : -200 <= r <= 200 -> r - 1 / 10 ^ 13 <= rnd r <= r + 1 / 10 ^ 13.
Proof.
  intros h. pose proof (rnd_bounds_abs r 200 ltac:(apply Rabs_le; lra)) as B. pose proof eta_small. unfold u53 in B. lra.
Qed.

Lemma lerp_mid s e t m M : fin s -> fin e -> fin t -> 0 <= B2R t <= 1 ->
  0 <= m -> M <= 100 -> m <= B2R s <= M -> m <= B2R e <= M ->
  fin (lerp s e t) /\ 0 <= B2R (lerp s e t) /\ m - 1 / 10 ^ 10 <= B2R (lerp s e t) <= M + 1 / 10 ^ 10.
Proof.
  intros fs fe ft ht hm hM hs he. fconst (dec "1.0"). unfold lerp.
  destruct (fsub_S (dec "1.0") t F ft ltac:(rewrite V; fsmall)) as [S1 F1]. rewrite V in S1.
  set (q := fsub (dec "1.0") t) in *.
  assert (Bq : 0 <= B2R q <= 1).
  { rewrite S1. split; [apply rnd_ge_0; lra|apply (rnd_le_IZR _ 1); [lia|lra]]. }
  pose proof (rnd_near (1 - B2R t) ltac:(lra)) as E1. rewrite <- S1 in E1.
  assert (P1 : 0 <= B2R q * B2R s <= 1 * 100) by (split; [apply Rmult_le_pos; lra|apply Rmult_le_compat; lra]).
  assert (P2 : 0 <= B2R t * B2R e <= 1 * 100) by (split; [apply Rmult_le_pos; lra|apply Rmult_le_compat; lra]). rewrite Rmult_1_l in P1, P2.
  destruct (fmul_S q s F1 fs ltac:(fsmall)) as [M1 FM1].
  destruct (fmul_S t e ft fe ltac:(fsmall)) as [M2 FM2].
  pose proof (rnd_near (B2R q * B2R s) ltac:(lra)) as E2. rewrite <- M1 in E2.
  pose proof (rnd_near (B2R t * B2R e) ltac:(lra)) as E3. rewrite <- M2 in E3.
  assert (N1 : 0 <= B2R (fmul q s)) by (rewrite M1; apply rnd_ge_0; lra).
  assert (N2 : 0 <= B2R (fmul t e)) by (rewrite M2; apply rnd_ge_0; lra).
  assert (SM : m - 1 / 10 ^ 11 <= B2R q * B2R s + B2R t * B2R e <= M + 1 / 10 ^ 11).
  { assert (E1' : (1 - B2R t) - 1 / 10 ^ 13 <= B2R q <= (1 - B2R t) + 1 / 10 ^ 13) by lra.
    assert (A : (1 - B2R t) * B2R s - 100 / 10 ^ 13 <= B2R q * B2R s <= (1 - B2R t) * B2R s + 100 / 10 ^ 13).
    { assert (D1 : 0 <= (B2R q - (1 - B2R t) + 1 / 10 ^ 13) * B2R s) by (apply Rmult_le_pos; lra). assert (D2 : 0 <= (1 - B2R t + 1 / 10 ^ 13 - B2R q) * B2R s) by (apply Rmult_le_pos; lra). lra. }
    assert (B : m <= (1 - B2R t) * B2R s + B2R t * B2R e <= M).
    { assert (D1 : 0 <= (1 - B2R t) * (B2R s - m)) by (apply Rmult_le_pos; lra). assert (D2 : 0 <= B2R t * (B2R e - m)) by (apply Rmult_le_pos; lra).
      assert (D3 : 0 <= (1 - B2R t) * (M - B2R s)) by (apply Rmult_le_pos; lra). assert (D4 : 0 <= B2R t * (M - B2R e)) by (apply Rmult_le_pos; lra). lra. }
    lra. }
  destruct (fadd_S _ _ FM1 FM2 ltac:(fsmall)) as [A FA].
  split; [exact FA|]. rewrite A. split; [apply rnd_ge_0; lra|].
  pose proof (rnd_near (B2R (fmul q s) + B2R (fmul t e)) ltac:(lra)). lra.
Qed.

Definition curve_in (m M : R) (c : contrast_curve) : Prop :=
  (fin (cc_low c) /\ fin (cc_normal c) /\ fin (cc_medium c) /\ fin (cc_high c)) /\
  m <= B2R (cc_low c) <= M /\ m <= B2R (cc_normal c) <= M /\ m <= B2R (cc_medium c) <= M /\ m <= B2R (cc_high c) <= M.

Lemma fle_nan_l (x y : f64) : is_nan x = true -> fle x y = false.
Proof. destruct x; try discriminate. reflexivity. Qed.
Lemma flt_nan_l (x y : f64) : is_nan x = true -> flt x y = false.
Proof. destruct x; try discriminate. reflexivity. Qed.

Lemma cc_nan c x : is_nan x = true -> cc_get c x = cc_high c.
Proof. intros h. unfold cc_get. now rewrite fle_nan_l, !flt_nan_l. Qed.

Lemma cc_in m M c x : 0 <= m -> M <= 100 -> curve_in m M c ->
  fin (cc_get c x) /\ 0 <= B2R (cc_get c x) /\ m - 1 / 10 ^ 10 <= B2R (cc_get c x) <= M + 1 / 10 ^ 10.
Proof.
  intros hm hM ((f1 & f2 & f3 & f4) & b1 & b2 & b3 & b4).
  destruct (is_nan x) eqn:n.
  { rewrite cc_nan by assumption. split; [assumption|]. lra. }
  fconst (dec "1.0"). fconst (dec "-1.0"). fconst (dec "0.0"). fconst (dec "0.5").
  destruct (fle x (dec "-1.0")) eqn:C1.
  { rewrite cc_low_at by assumption. split; [assumption|]. lra. }
  destruct (fle (dec "1.0") x) eqn:C2.
  { rewrite cc_high_at by assumption. split; [assumption|]. lra. }
  apply fle_val_f in C1; [|assumption|now apply fin_not_nan].
  apply (proj1 (fle_val_f (dec "1.0") x (fin_not_nan _ F) n)) in C2.
  rewrite (val_fin (dec "-1.0")) in C1 by assumption. rewrite (val_fin (dec "1.0")) in C2 by assumption.
  assert (fx : fin x) by (apply (val_fin_iff _ n); pose proof (B2R_BIG (dec "1.0")); pose proof (B2R_BIG (dec "-1.0")); lra).
  rewrite val_fin in C1, C2 by assumption. rewrite V0 in C1. rewrite V in C2.
  unfold cc_get. change (- dec "1.0")%f with (dec "-1.0").
  rewrite not_le by (try assumption; rewrite ?val_fin by assumption; lra).
  destruct (Rlt_or_le (B2R x) 0) as [h|h].
  - rewrite yes_lt by (try assumption; rewrite ?val_fin by assumption; lra).
    destruct (fsub_S x (dec "-1.0") fx F0 ltac:(rewrite V0; fsmall)) as [S FS]. rewrite V0 in S.
    assert (0 <= rnd (B2R x - - (1)) <= 1) by (split; [apply rnd_ge_0; lra|apply (rnd_le_IZR _ 1); [lia|lra]]).
    destruct (fdiv_S _ (dec "1.0") FS ltac:(lra) ltac:(rewrite S, V; fsmall)) as [D FD].
    apply lerp_mid; try assumption; try lra.
    rewrite D, S, V. unfold Rdiv. rewrite Rinv_1, Rmult_1_r.
    split; [apply rnd_ge_0; lra|apply (rnd_le_IZR _ 1); [lia|lra]].
  - rewrite not_lt by (try assumption; rewrite ?val_fin by assumption; lra).
    destruct (Rlt_or_le (B2R x) 0.5) as [h'|h'].
    + rewrite yes_lt by (try assumption; rewrite ?val_fin by assumption; lra).
      destruct (fsub_S x (dec "0.0") fx F1 ltac:(rewrite V1; fsmall)) as [S FS]. rewrite V1, Rminus_0_r, rnd_B2R in S.
      destruct (fdiv_S _ (dec "0.5") FS ltac:(lra) ltac:(rewrite S, V2; fsmall)) as [D FD].
      apply lerp_mid; try assumption; try lra. rewrite D, S, V2.
      split; [apply rnd_ge_0; lra|apply (rnd_le_IZR _ 1); [lia|lra]].
    + rewrite not_lt, yes_lt by (try assumption; rewrite ?val_fin by assumption; lra).
      destruct (fsub_S x (dec "0.5") fx F2 ltac:(rewrite V2; fsmall)) as [S FS]. rewrite V2 in S.
      assert (0 <= rnd (B2R x - 1 / 2) <= 1 / 2).
      { split; [apply rnd_ge_0; lra|]. rewrite <- V2. apply rnd_le_B2R. lra. }
      destruct (fdiv_S _ (dec "0.5") FS ltac:(lra) ltac:(rewrite S, V2; fsmall)) as [D FD].
      apply lerp_mid; try assumption; try lra. rewrite D, S, V2.
      split; [apply rnd_ge_0; lra|apply (rnd_le_IZR _ 1); [lia|lra]].
Qed.

Lemma cc_tone c x : curve_in 0 99 c -> is_tone (cc_get c x).
Proof. intros h. destruct (cc_in 0 99 c x ltac:(lra) ltac:(lra) h) as (F & L & B). split; [assumption|]. lra. Qed.
Lemma cc_ratio c x : curve_in 1 21 c -> fin (cc_get c x) /\ 0.99 <= B2R (cc_get c x) <= 21.01.
Proof. intros h. destruct (cc_in 1 21 c x ltac:(lra) ltac:(lra) h) as (F & L & B). split; [assumption|]. lra. Qed.

Ltac curve_lit := lazymatch goal with |- curve_in _ _ (cc_new (dec ?a) (dec ?b) (dec ?c) (dec ?d)) =>
  unfold curve_in, cc_new; cbn [cc_low cc_normal cc_medium cc_high];
  let V := fresh in let F := fresh in fconst_as (dec a) V F; let V' := fresh in let F' := fresh in fconst_as (dec b) V' F';
  let W := fresh in let G := fresh in fconst_as (dec c) W G; let W' := fresh in let G' := fresh in fconst_as (dec d) W' G';
  rewrite ?V, ?V', ?W, ?W'; split; [exact (conj F (conj F' (conj G G')))|lra] end.

(** ** foreground_tone *)
Section AnyLibm.
Context {lm : Libm}.

Lemma fg_candidates t r : foreground_tone t r = lighter_unsafe t r \/ foreground_tone t r = darker_unsafe t r.
Proof.
  unfold foreground_tone. cbv zeta. destruct (tone_prefers_light_foreground t); destruct (_ || _)%bool; auto.
Qed.

Lemma fg_tone t r : pow_defined lm -> nn t -> nn r -> is_tone (foreground_tone t r).
Proof.
  intros P nt nr. destruct (lighter_unsafe_ok t r (lighter_nn t r P nt nr)) as (L & _).
  destruct (darker_unsafe_ok t r (darker_nn t r P nt nr)) as (D & _).
  destruct (fg_candidates t r) as [-> | ->]; assumption.
Qed.

Lemma fg_reaches t r : pow_defined lm -> nn t -> nn r ->
  fle r (ratio_of_tones (lighter_unsafe t r) t) = true \/ fle r (ratio_of_tones (darker_unsafe t r) t) = true ->
  fle r (ratio_of_tones (foreground_tone t r) t) = true.
Proof.
  intros P nt nr. destruct (lighter_unsafe_ok t r (lighter_nn t r P nt nr)) as (L & _).
  destruct (darker_unsafe_ok t r (darker_nn t r P nt nr)) as (D & _).
  pose proof (ratio_bounds _ t (tone_nn _ L) nt) as [FL _]. pose proof (ratio_bounds _ t (tone_nn _ D) nt) as [FD _].
  unfold foreground_tone. cbv zeta. unfold fge. change Bleb with fle.
  set (lt := lighter_unsafe t r) in *. set (dt := darker_unsafe t r) in *. clearbody lt dt.
  set (lr := ratio_of_tones lt t) in *. set (dr := ratio_of_tones dt t) in *.
  destruct (fle r lr) eqn:A.
  - intros _. destruct (tone_prefers_light_foreground t); cbn [orb]; [exact A|].
    destruct (fle r dr) eqn:B; [exact B|]. cbn [orb].
    destruct (fle lr dr) eqn:C; [|exact A].
    apply fle_true in A, C. fold dr.
    apply (proj1 (fle_val_f r dr nr (fin_not_nan _ FD))) in B. lra.
  - intros [h|h]; [discriminate h|]. rewrite h. destruct (tone_prefers_light_foreground t); cbn [orb]; [|exact h].
    destruct (fle dr lr) eqn:C.
    + apply fle_true in h, C. apply (proj1 (fle_val_f r lr nr (fin_not_nan _ FL))) in A. lra.
    + assert (X : flt dr r = false).
      { apply flt_val_f; [now apply fin_not_nan|assumption|]. now apply fle_true. }
      rewrite X, andb_false_r. exact h.
Qed.

(** ** Pairs *)
Definition in_zone (x : f64) : bool := (fle (dec "50.0") x && flt x (dec "60.0"))%bool.
Lemma zone_R x : fin x -> in_zone x = false -> B2R x < 50 \/ 60 <= B2R x.
Proof.
  intros f h. fconst (dec "50.0"). fconst (dec "60.0"). unfold in_zone in h. apply andb_false_iff in h. destruct h as [h|h].
  - left. apply fle_fin_f in h; try assumption. lra.
  - right. apply flt_fin_f in h; try assumption. lra.
Qed.
Lemma zone_R' x : fin x -> in_zone x = true -> 50 <= B2R x < 60.
Proof.
  intros f h. fconst (dec "50.0"). fconst (dec "60.0"). unfold in_zone in h. apply andb_true_iff in h. destruct h as [h h'].
  apply fle_fin in h; try assumption. apply flt_fin in h'; try assumption. lra.
Qed.

Definition dirR (dark : bool) : R := if dark then 1 else -1.
Definition dirF (dark : bool) : f64 := if dark then dec "1.0" else fneg (dec "1.0").

Lemma dir_ok dark : fin (dirF dark) /\ B2R (dirF dark) = dirR dark.
Proof.
  destruct dark; unfold dirF, dirR; [fconst (dec "1.0")|change (fneg (dec "1.0")) with (dec "-1.0"); fconst (dec "-1.0")]; now split.
Qed.

Lemma ct_fin x : fin x -> is_tone (ct x) /\
  (0 <= B2R x <= 100 -> B2R (ct x) = B2R x) /\ (B2R x < 0 -> B2R (ct x) = 0) /\ (100 < B2R x -> B2R (ct x) = 100).
Proof.
  intros f. pose proof (fin_not_nan _ f) as n. destruct (ct_range x n) as [N B].
  fconst (dec "0.0"). fconst (dec "100.0").
  assert (FC : fin (ct x)) by (apply (val_fin_iff _ N); pose proof (B2R_BIG (dec "100.0")); pose proof BIG_pos; lra).
  rewrite val_fin in B by assumption. split; [now split|].
  destruct (clamp_double_cases (dec "0.0") (dec "100.0") x ltac:(vm_compute; reflexivity) n) as (_ & E1 & E2 & E3 & _).
  split; [|split]; intros h; unfold ct.
  - rewrite E1; [reflexivity| |]; apply fle_fin; try assumption; lra.
  - rewrite E2; [assumption|]. apply flt_fin; try assumption; lra.
  - rewrite E3; [assumption|]. apply flt_fin; try assumption; lra.
Qed.

Definition apart (dark : bool) (n f : f64) : Prop :=
  is_tone n /\ is_tone f /\ 10 - 1 / 10 ^ 12 <= (B2R f - B2R n) * dirR dark.

Lemma delta_dir dark : fin (fmul (dec "10.0") (dirF dark)) /\ B2R (fmul (dec "10.0") (dirF dark)) = 10 * dirR dark.
Proof.
  destruct dark; unfold dirF, dirR.
  - fconst (fmul (dec "10.0") (dec "1.0")). rewrite V. split; [assumption|lra].
  - change (fneg (dec "1.0")) with (dec "-1.0"). fconst (fmul (dec "10.0") (dec "-1.0")). rewrite V. split; [assumption|lra].
Qed.

Lemma gap_R n f dark : is_tone n -> is_tone f ->
  fin (fmul (fsub f n) (dirF dark)) /\ B2R (fmul (fsub f n) (dirF dark)) = rnd (B2R f - B2R n) * dirR dark.
Proof.
  intros [fn bn] [ff bf]. destruct (dir_ok dark) as [FD VD].
  destruct (fsub_S f n ff fn ltac:(fsmall)) as [S FS].
  pose proof (rnd_near (B2R f - B2R n) ltac:(lra)) as E. rewrite <- S in E.
  assert (A : - 102 <= B2R (fsub f n) * dirR dark <= 102) by (destruct dark; unfold dirR; lra).
  destruct (fmul_S _ (dirF dark) FS FD ltac:(rewrite VD; fsmall)) as [M FM].
  split; [assumption|]. rewrite M, VD, S. destruct dark; unfold dirR.
  - now rewrite !Rmult_1_r, <- S, rnd_B2R.
  - replace (rnd (B2R f - B2R n) * -1) with (- B2R (fsub f n)) by (rewrite S; lra).
    now rewrite rnd_opp, rnd_B2R, S.
Qed.

Lemma expand_apart n f dark : is_tone n -> is_tone f ->
  apart dark (fst (pair_expand n f (dec "10.0") (dirF dark))) (snd (pair_expand n f (dec "10.0") (dirF dark))).
Proof.
  intros Tn Tf. unfold pair_expand. unfold fge. change Bleb with fle. fconst (dec "10.0").
  destruct (gap_R n f dark Tn Tf) as [FG VG].
  assert (Far : forall n f, is_tone n -> is_tone f ->
    fle (dec "10.0") (fmul (fsub f n) (dirF dark)) = true -> apart dark n f).
  { intros n0 f0 T1 T2 h. destruct (gap_R n0 f0 dark T1 T2) as [FG0 VG0].
    apply fle_fin in h; try assumption. rewrite V, VG0 in h. split; [assumption|]. split; [assumption|].
    destruct T1 as [_ b1], T2 as [_ b2].
    pose proof (rnd_near (B2R f0 - B2R n0) ltac:(lra)). destruct dark; unfold dirR in *; lra. }
  destruct (fle (dec "10.0") (fmul (fsub f n) (dirF dark))) eqn:C1; [exact (Far _ _ Tn Tf C1)|].
  cbv zeta. destruct (delta_dir dark) as [FD VD]. destruct Tn as [fn bn].
  assert (BD : -10 <= 10 * dirR dark <= 10) by (destruct dark; unfold dirR; lra).
  destruct (fadd_S n _ fn FD ltac:(rewrite VD; fsmall)) as [S FS]. rewrite VD in S.
  fold (ct (fadd n (fmul (dec "10.0") (dirF dark)))).
  set (g := fadd n (fmul (dec "10.0") (dirF dark))) in *.
  destruct (ct_fin g FS) as (T & I & Lo & Hi). set (f' := ct g) in *.
  destruct (fle (dec "10.0") (fmul (fsub f' n) (dirF dark))) eqn:C2; [exact (Far _ _ (conj fn bn) T C2)|]. cbn [fst snd].
  pose proof (rnd_near (B2R n + 10 * dirR dark) ltac:(lra)) as E. rewrite <- S in E.
  destruct T as [ff' bf'].
  destruct (fsub_S f' _ ff' FD ltac:(rewrite VD; fsmall)) as [S2 FS2]. rewrite VD in S2.
  fold (ct (fsub f' (fmul (dec "10.0") (dirF dark)))).
  set (m := fsub f' (fmul (dec "10.0") (dirF dark))) in *.
  pose proof (rnd_near (B2R f' - 10 * dirR dark) ltac:(lra)) as E2. rewrite <- S2 in E2.
  destruct (ct_fin m FS2) as (T2 & I2 & Lo2 & Hi2).
  split; [exact T2|]. split; [now split|].
  destruct T2 as [_ bm].
  destruct (Rlt_or_le (B2R m) 0) as [a|a]; [rewrite (Lo2 a)|
    destruct (Rlt_or_le 100 (B2R m)) as [b|b]; [rewrite (Hi2 b)|rewrite (I2 (conj a b))]];
  destruct (Rlt_or_le (B2R g) 0) as [a'|a']; [pose proof (Lo a')| |pose proof (Lo a')| |pose proof (Lo a')|];
  try (destruct (Rlt_or_le 100 (B2R g)) as [b'|b']; [pose proof (Hi b')|pose proof (I (conj a' b'))]);
  destruct dark; unfold dirR in *; lra.
Qed.

Lemma fmax_R x y : fin x -> fin y -> fin (fmax x y) /\ B2R (fmax x y) = Rmax (B2R x) (B2R y).
Proof.
  intros fx fy. unfold fmax. rewrite (fin_not_nan _ fx), (fin_not_nan _ fy).
  destruct (flt x y) eqn:C.
  - apply flt_fin in C; try assumption. rewrite Rmax_right by lra. easy.
  - apply flt_fin_f in C; try assumption. rewrite Rmax_left by lra. easy.
Qed.
Lemma fmin_R x y : fin x -> fin y -> fin (fmin x y) /\ B2R (fmin x y) = Rmin (B2R x) (B2R y).
Proof.
  intros fx fy. unfold fmin. rewrite (fin_not_nan _ fx), (fin_not_nan _ fy).
  destruct (flt y x) eqn:C.
  - apply flt_fin in C; try assumption. rewrite Rmin_right by lra. easy.
  - apply flt_fin_f in C; try assumption. rewrite Rmin_left by lra. easy.
Qed.

Definition outside_zone (x : f64) : Prop := B2R x < 50 \/ 60 <= B2R x.

Lemma move_apart f dark : is_tone f ->
  let r := pair_move_both f (dec "10.0") (dirF dark) in
  apart dark (fst r) (snd r) /\ outside_zone (fst r) /\ outside_zone (snd r).
Proof.
  intros [ff bf]. cbv zeta. unfold pair_move_both.
  assert (G : fgt (dirF dark) (dec "0.0") = dark) by (destruct dark; vm_compute; reflexivity). rewrite G. unfold dirF.
  fconst (dec "60.0"). fconst (dec "49.0"). destruct dark.
  - fconst (dec "60.0" + dec "10.0" * dec "1.0")%f. destruct (fmax_R f _ ff F1) as [FM VM]. cbn [fst snd].
    unfold apart, is_tone, outside_zone, dirR. rewrite VM, V1, V. pose proof (Rmax_l (B2R f) 70). pose proof (Rmax_r (B2R f) 70).
    assert (Rmax (B2R f) 70 <= 100) by (apply Rmax_lub; lra). repeat split; try assumption; lra.
  - change (fneg (dec "1.0")) with (dec "-1.0").
    fconst (dec "49.0" + dec "10.0" * dec "-1.0")%f. destruct (fmin_R f _ ff F1) as [FM VM]. cbn [fst snd].
    unfold apart, is_tone, outside_zone, dirR. rewrite VM, V1, V0. pose proof (Rmin_l (B2R f) 39). pose proof (Rmin_r (B2R f) 39).
    assert (0 <= Rmin (B2R f) 39) by (apply Rmin_glb; lra). repeat split; try assumption; lra.
Qed.

Lemma awkward_apart n f dark tog : apart dark n f ->
  let r := pair_awkward n f (dec "10.0") (dirF dark) tog in
  apart dark (fst r) (snd r) /\ outside_zone (fst r) /\ outside_zone (snd r).
Proof.
  intros A. pose proof A as ((fn & bn) & (ff & bf) & g). cbv zeta. unfold pair_awkward.
  fold (in_zone n). fold (in_zone f).
  destruct (in_zone n) eqn:Zn; [now apply move_apart|].
  destruct (in_zone f) eqn:Zf.
  - destruct tog; [now apply move_apart|].
    assert (G : fgt (dirF dark) (dec "0.0") = dark) by (destruct dark; vm_compute; reflexivity). rewrite G.
    pose proof (zone_R n fn Zn) as ON. pose proof (zone_R' f ff Zf) as OF. fconst (dec "60.0"). fconst (dec "49.0").
    unfold apart, is_tone, outside_zone, dirR in *.
    destruct dark; cbn [fst snd]; rewrite ?V, ?V0; (split; [|split; [exact ON|lra]]);
      (split; [now split|]); (split; [split; [assumption|lra]|lra]).
  - split; [exact A|]. split; [now apply zone_R|now apply zone_R].
Qed.

Lemma initial_tone dec_c bg c t : pow_defined lm -> nn bg -> nn c -> is_tone t -> is_tone (pair_initial dec_c bg c t).
Proof.
  intros P nb nc T. unfold pair_initial. cbv zeta. pose proof (fg_tone bg c P nb nc).
  apply ite_tone; [assumption|]. now apply ite_tone.
Qed.

Definition nearer_of (s : dynamic_scheme) (p : tone_delta_pair) : bool :=
  (is_nearer (dp_polarity p) || (is_lighter (dp_polarity p) && negb (ds_is_dark s))
     || (is_darker (dp_polarity p) && ds_is_dark s))%bool.

Definition core_ok (s : dynamic_scheme) (c : role_core) : Prop :=
  (exists t, rc_tone c s = Ok t /\ is_tone t) /\ exists cv, rc_contrast_curve c = Some cv /\ curve_in 1 21 cv.

Lemma pair_tones s p bg : pow_defined lm -> nn bg -> core_ok s (dp_role_a p) -> core_ok s (dp_role_b p) ->
  dp_delta p = dec "10.0" ->
  exists n f, apart (ds_is_dark s) n f /\ outside_zone n /\ outside_zone f /\
    forall name, pair_tone s name p bg =
      Ok (if String.eqb name (rc_name (if nearer_of s p then dp_role_a p else dp_role_b p)) then n else f).
Proof.
  intros P nb A B D. unfold pair_tone. cbv zeta. fold (nearer_of s p). rewrite D.
  set (ne := if nearer_of s p then dp_role_a p else dp_role_b p).
  set (fa := if nearer_of s p then dp_role_b p else dp_role_a p).
  assert (N : core_ok s ne) by (unfold ne; destruct (nearer_of s p); assumption).
  assert (F : core_ok s fa) by (unfold fa; destruct (nearer_of s p); assumption).
  clearbody ne fa. destruct N as ((tn & En & Tn) & cn & Cn & Kn). destruct F as ((tf & Ef & Tf) & cf & Cf & Kf).
  change (if ds_is_dark s then dec "1.0" else fneg (dec "1.0")) with (dirF (ds_is_dark s)).
  rewrite Cn, Cf, En, Ef. cbv beta iota delta [ok_or_panic bind].
  destruct (cc_ratio cn (ds_contrast_level s) Kn) as [Fn _]. destruct (cc_ratio cf (ds_contrast_level s) Kf) as [Ff _].
  pose proof (initial_tone (flt (ds_contrast_level s) (dec "0.0")) bg _ tn P nb (fin_not_nan _ Fn) Tn) as In.
  pose proof (initial_tone (flt (ds_contrast_level s) (dec "0.0")) bg _ tf P nb (fin_not_nan _ Ff) Tf) as If.
  set (a := pair_initial _ bg _ tn) in *. set (b := pair_initial _ bg _ tf) in *. clearbody a b.
  pose proof (expand_apart a b (ds_is_dark s) In If) as E.
  destruct (pair_expand a b (dec "10.0") (dirF (ds_is_dark s))) as [n1 f1]. cbn [fst snd] in E.
  pose proof (awkward_apart n1 f1 (ds_is_dark s) (dp_stay_together p) E) as W. cbv zeta in W.
  destruct (pair_awkward n1 f1 (dec "10.0") (dirF (ds_is_dark s)) (dp_stay_together p)) as [n2 f2]. cbn [fst snd] in W.
  exists n2, f2. destruct W as (W1 & W2 & W3). split; [exact W1|]. split; [exact W2|]. split; [exact W3|].
  intros name. reflexivity.
Qed.

(** ** One background *)
Lemma single_ok isb a bg r d : pow_defined lm -> is_tone a -> nn bg -> nn r -> is_tone (single_tone isb a bg r d).
Proof.
  intros P T nb nr. unfold single_tone. cbv zeta. pose proof (fg_tone bg r P nb nr) as G.
  apply ite_tone; [apply ite_tone; tone_lit|]. apply ite_tone; [exact G|]. now apply ite_tone.
Qed.

(** ** Two backgrounds *)
Lemma tf_cases x : tone_or_fail x -> is_tone x \/ x = dec "-1.0".
Proof. intros [h|h]; [now right|now left]. Qed.

Lemma dual_ok a b1 b2 r : pow_defined lm -> is_tone a -> is_tone b1 -> is_tone b2 -> nn r -> is_tone (dual_tone a b1 b2 r).
Proof.
  intros P T [F1 _] [F2 _] nr. unfold dual_tone. cbv zeta.
  destruct (fmax_R b1 b2 F1 F2) as [FU _]. destruct (fmin_R b1 b2 F1 F2) as [FL _].
  set (u := fmax b1 b2) in *. set (l := fmin b1 b2) in *. clearbody u l.
  destruct (_ && _)%bool; [exact T|].
  pose proof (lighter_range u r P (fin_not_nan _ FU) nr) as L. apply tf_cases in L.
  pose proof (darker_range l r P (fin_not_nan _ FL) nr) as D. apply tf_cases in D.
  change (fneg (dec "1.0")) with (dec "-1.0"). fconst (dec "-1.0"). fconst (dec "0.0").
  set (lo := lighter u r) in *. set (do_ := darker l r) in *. clearbody lo do_.
  assert (N : fne (dec "-1.0") (dec "-1.0") = false) by (vm_compute; reflexivity).
  assert (X : flt (dec "-1.0") (dec "0.0") = true) by (vm_compute; reflexivity).
  assert (Y : forall x d, (is_tone x \/ x = dec "-1.0") -> is_tone d -> is_tone (if flt x (dec "0.0") then d else x)).
  { intros x d [h| ->] td; [now apply ite_tone|]. now rewrite X. }
  destruct (_ || _)%bool; [apply Y; [exact L|tone_lit]|].
  destruct (fne lo (dec "-1.0")) eqn:NL, (fne do_ (dec "-1.0")) eqn:ND; cbn [app].
  - apply Y; [exact D|tone_lit].
  - destruct L as [L|L]; [exact L|]. rewrite L, N in NL. discriminate NL.
  - destruct D as [D|D]; [exact D|]. rewrite D, N in ND. discriminate ND.
  - apply Y; [exact D|tone_lit].
Qed.
End AnyLibm.

(** ** The material roles *)
Section Roles.
Context {lm : Libm} (s : dynamic_scheme) (PD : pow_defined lm).

Definition resolves (r : dynamic_color) : Prop := exists t, get_tone r s = Ok t /\ is_tone t.
Definition core_tone (c : role_core) : Prop := exists t, rc_tone c s = Ok t /\ is_tone t.

Lemma get_plain c p b : get_tone (DC c p b None None None) s = rc_tone c s.
Proof. cbn [get_tone]. now destruct (rc_tone c s). Qed.

Lemma get_single c p b bg t a cv : get_tone (bg s) s = Ok t -> rc_tone c s = Ok a -> rc_contrast_curve c = Some cv ->
  get_tone (DC c p b (Some bg) None None) s =
  Ok (single_tone b a t (cc_get cv (ds_contrast_level s)) (flt (ds_contrast_level s) (dec "0.0"))).
Proof. intros h1 h2 h3. cbn [get_tone]. rewrite h2, bind_Ok. cbv beta. rewrite h1, bind_Ok. cbv beta. rewrite h3. reflexivity. Qed.

Lemma get_dual c p b bg bg2 t t2 a cv : get_tone (bg s) s = Ok t -> get_tone (bg2 s) s = Ok t2 -> rc_tone c s = Ok a ->
  rc_contrast_curve c = Some cv ->
  get_tone (DC c p b (Some bg) (Some bg2) None) s =
  Ok (dual_tone (single_tone b a t (cc_get cv (ds_contrast_level s)) (flt (ds_contrast_level s) (dec "0.0")))
        t t2 (cc_get cv (ds_contrast_level s))).
Proof. intros h1 h2 h3 h4. cbn [get_tone]. rewrite h3, bind_Ok. cbv beta. rewrite h1, bind_Ok. cbv beta. rewrite h4. cbn [ok_or_panic]. rewrite bind_Ok. cbv beta zeta. rewrite h2. reflexivity. Qed.

Lemma get_pair c p b bg b2 pr t : get_tone (bg s) s = Ok t ->
  get_tone (DC c p b (Some bg) b2 (Some pr)) s = pair_tone s (rc_name c) (pr s) t.
Proof. intros h1. cbn [get_tone]. rewrite h1, bind_Ok. reflexivity. Qed.

Lemma plain_ok c p b : core_tone c -> resolves (DC c p b None None None).
Proof. intros h. unfold resolves. rewrite get_plain. exact h. Qed.

Lemma single_role c p b bg cv : resolves (bg s) -> core_tone c -> rc_contrast_curve c = Some cv -> curve_in 1 21 cv ->
  resolves (DC c p b (Some bg) None None).
Proof.
  intros (t & Et & Tt) (a & Ea & Ta) E K. unfold resolves. rewrite (get_single c p b bg t a cv Et Ea E).
  eexists. split; [reflexivity|]. apply single_ok; [exact PD|exact Ta|exact (tone_nn _ Tt)|].
  destruct (cc_ratio cv (ds_contrast_level s) K) as [F _]. exact (fin_not_nan _ F).
Qed.

Lemma dual_role c p b bg bg2 cv : resolves (bg s) -> resolves (bg2 s) -> core_tone c ->
  rc_contrast_curve c = Some cv -> curve_in 1 21 cv ->
  resolves (DC c p b (Some bg) (Some bg2) None).
Proof.
  intros (t & Et & Tt) (t2 & Et2 & Tt2) (a & Ea & Ta) E K. unfold resolves.
  rewrite (get_dual c p b bg bg2 t t2 a cv Et Et2 Ea E).
  destruct (cc_ratio cv (ds_contrast_level s) K) as [F _].
  eexists. split; [reflexivity|]. apply dual_ok; try assumption; [|exact (fin_not_nan _ F)].
  apply single_ok; [exact PD|exact Ta|exact (tone_nn _ Tt)|exact (fin_not_nan _ F)].
Qed.

Lemma pair_role c p b bg b2 pr : resolves (bg s) -> core_ok s (dp_role_a (pr s)) -> core_ok s (dp_role_b (pr s)) ->
  dp_delta (pr s) = dec "10.0" -> resolves (DC c p b (Some bg) b2 (Some pr)).
Proof.
  intros (t & Et & Tt) A B D. unfold resolves. rewrite (get_pair c p b bg b2 pr t Et).
  destruct (pair_tones s (pr s) t PD (tone_nn _ Tt) A B D) as (n & f & (Tn & Tf & _) & _ & _ & E).
  rewrite E. eexists. split; [reflexivity|]. now apply ite_tone.
Qed.

(** Both tones of a pair of roles that share the pair. *)
Lemma pair_both ca cb p b bg b2 p' b' b2' pr : resolves (bg s) -> core_ok s ca -> core_ok s cb ->
  dp_role_a pr = ca -> dp_role_b pr = cb -> dp_delta pr = dec "10.0" -> rc_name ca <> rc_name cb ->
  exists n f, apart (ds_is_dark s) n f /\ outside_zone n /\ outside_zone f /\
    get_tone (DC ca p b (Some bg) b2 (Some (fun _ => pr))) s = Ok (if nearer_of s pr then n else f) /\
    get_tone (DC cb p' b' (Some bg) b2' (Some (fun _ => pr))) s = Ok (if nearer_of s pr then f else n).
Proof.
  intros (t & Et & Tt) A B Ea Eb D NE.
  rewrite <- Ea in A. rewrite <- Eb in B.
  destruct (pair_tones s pr t PD (tone_nn _ Tt) A B D) as (n & f & W & O1 & O2 & E).
  exists n, f. split; [exact W|]. split; [exact O1|]. split; [exact O2|].
  rewrite !(get_pair _ _ _ _ _ _ t Et), !E, Ea, Eb.
  destruct (nearer_of s pr); rewrite ?String.eqb_refl.
  - assert (X : String.eqb (rc_name cb) (rc_name ca) = false) by (apply String.eqb_neq; congruence). rewrite X. easy.
  - assert (X : String.eqb (rc_name ca) (rc_name cb) = false) by (apply String.eqb_neq; congruence). rewrite X. easy.
Qed.
End Roles.
