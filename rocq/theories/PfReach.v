(** * lighter, darker and foreground_tone reach the requested ratio.  Proof file. *)
From Coq Require Import ZArith Bool Reals Lra Lia Psatz String List.
From Flocq Require Import Core Relative IEEE754.BinarySingleNaN.
From Verif Require Import F64 MathUtils ColorUtils Contrast DynamicColor Spec SpecTones FloatFacts FloatMono FloatCast PfArgb PfMath PfColor PfContrast PfTones PfLab.
Import ListNotations.
Open Scope string_scope.
Open Scope list_scope.
Open Scope R_scope.

Lemma tone_val t : is_tone t -> nn t /\ 0 <= val t <= 100.
Proof. intros [F B]. split; [now apply fin_not_nan|]. now rewrite val_fin. Qed.
Lemma tone_ct t : is_tone t -> ct t = t.
Proof. intros T. destruct (tone_val t T). now apply ct_id. Qed.
Lemma tone_Y t : is_tone t -> fin (y_from_lstar t) /\ 0 <= B2R (y_from_lstar t) <= 100.
Proof. intros T. destruct (tone_val t T). now apply y_from_lstar_range. Qed.
Lemma not_guard (x : f64) : nn x -> (flt x (dec "0.0") || fgt x (dec "100.0"))%bool = false -> is_tone x.
Proof.
  intros n g. pose proof (guard_false x n g) as B. fconst (dec "100.0"). pose proof (B2R_BIG (dec "100.0")).
  assert (F' : fin x) by (apply (val_fin_iff _ n); pose proof BIG_pos; lra). split; [assumption|]. now rewrite <- val_fin.
Qed.

(** The ratio of two tones whose Ys are far enough apart. *)
Lemma ratio_from_ys a b (r : f64) : is_tone a -> is_tone b -> fin r -> 0 <= B2R r <= 30 ->
  B2R r * (B2R (y_from_lstar b) + 5) + 1 / 10 ^ 9 <= B2R (y_from_lstar a) + 5 ->
  B2R (y_from_lstar b) <= B2R (y_from_lstar a) ->
  B2R r <= B2R (ratio_of_tones a b).
Proof.
  intros Ta Tb fr br h l. rewrite ratio_eq, (tone_ct a Ta), (tone_ct b Tb).
  destruct (tone_Y a Ta) as [F1 B1], (tone_Y b Tb) as [F2 B2].
  destruct (ratio_ys_R _ _ F1 F2 B1 B2) as (_ & E & _). rewrite E, Rmax_left, Rmin_right by lra.
  set (ya := B2R (y_from_lstar a)) in *. set (yb := B2R (y_from_lstar b)) in *.
  pose proof (rnd_near (ya + 5) ltac:(lra)) as N1. pose proof (rnd_near (yb + 5) ltac:(lra)) as N2.
  rewrite <- (rnd_B2R r). apply rnd_mono.
  apply Rmult_le_reg_r with (rnd (yb + 5)); [lra|]. unfold Rdiv. rewrite Rmult_assoc, Rinv_l, Rmult_1_r by lra.
  assert (B2R r * rnd (yb + 5) <= B2R r * (yb + 5) + 1 / 10 ^ 11) by nra. lra.
Qed.

Section Accurate.
Context {lm : Libm} (PA : pow_accurate (1 / 10 ^ 5) lm).

Lemma L_fin y : fin y -> -6 <= B2R y <= 3000 -> fin (lstar_from_y y) /\ -1000 <= B2R (lstar_from_y y) <= 3000.
Proof.
  intros fy by_. destruct (L_R (1 / 10 ^ 5) ltac:(lra) PA y fy by_) as (FL & x & EX & C). split; [exact FL|].
  apply (L_bound x (B2R y / 100)); [lra|exact EX|exact C].
Qed.

Lemma lighter_ok t r : is_tone t -> fin r -> 0.9 <= B2R r <= 22 -> lighter t r <> dec "-1.0" ->
  is_tone (lighter t r) /\ B2R r <= B2R (ratio_of_tones (lighter t r) t) /\ (1 <= B2R r -> B2R t < B2R (lighter t r)).
Proof.
  intros Tt fr br. destruct (tone_val t Tt) as [nt vt]. destruct (tone_Y t Tt) as [FY BY].
  unfold lighter. destruct (flt t (dec "0.0") || fgt t (dec "100.0"))%bool eqn:G; [intros c; exfalso; apply c; reflexivity|].
  cbv zeta. set (dy := y_from_lstar t) in *.
  fconst (dec "5.0"). fconst (dec "0.4").
  destruct (fadd_S dy (dec "5.0") FY F ltac:(rewrite V; fsmall)) as [S1 F1]. rewrite V in S1.
  pose proof (rnd_near (B2R dy + 5) ltac:(lra)) as N1. rewrite <- S1 in N1. set (a := fadd dy (dec "5.0")) in *.
  assert (Ba : 4 <= B2R a <= 106) by lra.
  assert (BM : 0 <= B2R r * B2R a <= 2500) by nra.
  destruct (fmul_S r a fr F1 ltac:(fsmall)) as [M G1].
  pose proof (rnd_bounds_abs (B2R r * B2R a) 2500 ltac:(apply Rabs_le; lra)) as N2. rewrite <- M in N2.
  pose proof eta_small as ES. unfold u53 in N2. set (b := fmul r a) in *.
  destruct (fsub_S b (dec "5.0") G1 F ltac:(rewrite V; fsmall)) as [S2 G2]. rewrite V in S2.
  pose proof (rnd_bounds_abs (B2R b - 5) 3000 ltac:(apply Rabs_le; lra)) as N3. rewrite <- S2 in N3. unfold u53 in N3.
  set (ly := fsub b (dec "5.0")) in *.
  assert (RA : B2R r * (B2R dy + 5) - 1 / 10 ^ 11 <= B2R r * B2R a) by nra.
  destruct (_ && _)%bool; [intros c; exfalso; apply c; reflexivity|].
  assert (BL : -6 <= B2R ly <= 3000) by lra.
  destruct (L_fin ly G2 BL) as [FL BLL].
  destruct (fadd_S (lstar_from_y ly) (dec "0.4") FL F0 ltac:(rewrite V0; fsmall)) as [S3 F3].
  set (rv := fadd (lstar_from_y ly) (dec "0.4")) in *.
  destruct (flt rv (dec "0.0") || fgt rv (dec "100.0"))%bool eqn:G'; [intros c; exfalso; apply c; reflexivity|]. intros _.
  pose proof (not_guard rv (fin_not_nan _ F3) G') as T.
  pose proof (raise (1 / 10 ^ 5) ltac:(lra) PA ly rv G2 BL eq_refl (proj2 T)) as U.
  split; [exact T|].
  destruct (Rle_or_lt 1 (B2R r)) as [h|h].
  - assert (Y0 : 1 * (B2R dy + 5) <= B2R r * (B2R dy + 5)) by (apply Rmult_le_compat_r; lra).
    assert (Y1 : B2R dy + 0.01 <= B2R (y_from_lstar rv)) by lra. split.
    + apply ratio_from_ys; [exact T|exact Tt|exact fr|lra| |]; fold dy; lra.
    + intros _. destruct (Rlt_or_le (B2R t) (B2R rv)) as [|c]; [assumption|exfalso].
      destruct (tone_val rv T) as [nv _]. destruct (tone_Y rv T) as [FV _].
      pose proof (y_from_lstar_mono rv t nv nt ltac:(rewrite !val_fin by (apply T || apply Tt); exact c)) as Mo.
      rewrite !val_fin in Mo by (exact FY || exact FV). fold dy in Mo. lra.
  - split; [|lra]. destruct (ratio_bounds rv t (fin_not_nan _ F3) nt) as [_ B]. lra.
Qed.

Lemma darker_ok t r : is_tone t -> fin r -> 0.9 <= B2R r <= 22 -> darker t r <> dec "-1.0" ->
  is_tone (darker t r) /\ B2R r <= B2R (ratio_of_tones (darker t r) t) /\ (1 <= B2R r -> B2R (darker t r) < B2R t).
Proof.
  intros Tt fr br. destruct (tone_val t Tt) as [nt vt]. destruct (tone_Y t Tt) as [FY BY].
  unfold darker. destruct (flt t (dec "0.0") || fgt t (dec "100.0"))%bool eqn:G; [intros c; exfalso; apply c; reflexivity|].
  cbv zeta. set (ly := y_from_lstar t) in *.
  fconst (dec "5.0"). fconst (dec "0.4").
  destruct (fadd_S ly (dec "5.0") FY F ltac:(rewrite V; fsmall)) as [S1 F1]. rewrite V in S1.
  pose proof (rnd_near (B2R ly + 5) ltac:(lra)) as N1. rewrite <- S1 in N1. set (a := fadd ly (dec "5.0")) in *.
  assert (Ba : 4 <= B2R a <= 106) by lra.
  assert (IR : 0 < / B2R r <= 2) by (split; [apply Rinv_0_lt_compat; lra|]; replace 2 with (/ / 2) by lra; apply Rinv_le; lra).
  assert (IE : B2R r * / B2R r = 1) by (apply Rinv_r; lra).
  assert (BM : 0 <= B2R a / B2R r <= 118).
  { unfold Rdiv. split; [apply Rmult_le_pos; lra|]. assert (/ B2R r <= / 0.9) by (apply Rinv_le; lra). nra. }
  destruct (fdiv_S a r F1 ltac:(lra) ltac:(fsmall)) as [M G1].
  pose proof (rnd_near (B2R a / B2R r) ltac:(lra)) as N2. rewrite <- M in N2.
  set (b := fdiv a r) in *.
  destruct (fsub_S b (dec "5.0") G1 F ltac:(rewrite V; fsmall)) as [S2 G2]. rewrite V in S2.
  pose proof (rnd_near (B2R b - 5) ltac:(lra)) as N3. rewrite <- S2 in N3.
  set (dy := fsub b (dec "5.0")) in *.
  destruct (_ && _)%bool; [intros c; exfalso; apply c; reflexivity|].
  assert (BL : -6 <= B2R dy <= 3000) by lra.
  destruct (L_fin dy G2 BL) as [FL BLL].
  destruct (fsub_S (lstar_from_y dy) (dec "0.4") FL F0 ltac:(rewrite V0; fsmall)) as [S3 F3].
  set (rv := fsub (lstar_from_y dy) (dec "0.4")) in *.
  destruct (flt rv (dec "0.0") || fgt rv (dec "100.0"))%bool eqn:G'; [intros c; exfalso; apply c; reflexivity|]. intros _.
  pose proof (not_guard rv (fin_not_nan _ F3) G') as T.
  pose proof (lower (1 / 10 ^ 5) ltac:(lra) PA dy rv G2 BL eq_refl (proj2 T)) as U.
  split; [exact T|].
  assert (U' : B2R (y_from_lstar rv) + 5 + 0.02 <= B2R a / B2R r) by lra.
  assert (U2 : B2R r * (B2R (y_from_lstar rv) + 5 + 0.02) <= B2R a).
  { apply Rmult_le_compat_l with (r := B2R r) in U'; [|lra]. replace (B2R r * (B2R a / B2R r)) with (B2R a) in U' by (field; lra). exact U'. }
  destruct (tone_Y rv T) as [FV BV].
  destruct (Rle_or_lt 1 (B2R r)) as [h|h].
  - assert (Y0 : 1 * (B2R (y_from_lstar rv) + 5 + 0.02) <= B2R r * (B2R (y_from_lstar rv) + 5 + 0.02)) by (apply Rmult_le_compat_r; lra).
    assert (Y1 : B2R (y_from_lstar rv) + 0.01 <= B2R ly) by lra. split.
    + rewrite (ratio_sym rv t (fin_not_nan _ F3) nt). apply ratio_from_ys; [exact Tt|exact T|exact fr|lra| |]; fold ly; lra.
    + intros _. destruct (Rlt_or_le (B2R rv) (B2R t)) as [|c]; [assumption|exfalso].
      destruct (tone_val rv T) as [nv _].
      pose proof (y_from_lstar_mono t rv nt nv ltac:(rewrite !val_fin by (apply T || apply Tt); exact c)) as Mo.
      rewrite !val_fin in Mo by (exact FY || exact FV). fold ly in Mo. lra.
  - split; [|lra]. destruct (ratio_bounds rv t (fin_not_nan _ F3) nt) as [_ B]. lra.
Qed.

Lemma ratio_le t u (r : f64) : nn r -> is_tone t -> is_tone u -> (fle r (ratio_of_tones u t) = true <-> val r <= B2R (ratio_of_tones u t)).
Proof.
  intros nr Tt Tu. destruct (ratio_bounds u t (tone_nn _ Tu) (tone_nn _ Tt)) as [F _].
  rewrite fle_val by (assumption || now apply fin_not_nan). rewrite (val_fin (ratio_of_tones u t)) by assumption. reflexivity.
Qed.

Lemma white : is_tone (dec "100.0").
Proof. tone_lit. Qed.
Lemma black_ : is_tone (dec "0.0").
Proof. tone_lit. Qed.

Lemma unsafe_white t r : pow_defined lm -> is_tone t -> fin r -> 0.9 <= B2R r <= 22 ->
  B2R r <= B2R (ratio_of_tones (dec "100.0") t) -> B2R r <= B2R (ratio_of_tones (lighter_unsafe t r) t).
Proof.
  intros PD Tt fr br h. pose proof (lighter_nn t r PD (tone_nn _ Tt) (fin_not_nan _ fr)) as N.
  destruct (lighter_unsafe_ok t r N) as (_ & A & B).
  destruct (lighter_cases t r) as [c|[c|c]]; [rewrite N in c; discriminate c| |].
  - rewrite (A c). exact h.
  - assert (Q : lighter t r <> dec "-1.0").
    { intros e. rewrite e in c. fconst (dec "-1.0"). destruct c as [_ c]. lra. }
    rewrite (B Q). destruct (lighter_ok t r Tt fr br Q) as (_ & R & _). exact R.
Qed.
Lemma unsafe_black t r : pow_defined lm -> is_tone t -> fin r -> 0.9 <= B2R r <= 22 ->
  B2R r <= B2R (ratio_of_tones (dec "0.0") t) -> B2R r <= B2R (ratio_of_tones (darker_unsafe t r) t).
Proof.
  intros PD Tt fr br h. pose proof (darker_nn t r PD (tone_nn _ Tt) (fin_not_nan _ fr)) as N.
  destruct (darker_unsafe_ok t r N) as (_ & A & B).
  destruct (darker_cases t r) as [c|[c|c]]; [rewrite N in c; discriminate c| |].
  - rewrite (A c). exact h.
  - assert (Q : darker t r <> dec "-1.0").
    { intros e. rewrite e in c. fconst (dec "-1.0"). destruct c as [_ c]. lra. }
    rewrite (B Q). destruct (darker_ok t r Tt fr br Q) as (_ & R & _). exact R.
Qed.

Lemma white_or_black t u : is_tone t -> is_tone u ->
  (B2R t <= B2R u /\ B2R (ratio_of_tones u t) <= B2R (ratio_of_tones (dec "100.0") t)) \/
  (B2R u <= B2R t /\ B2R (ratio_of_tones u t) <= B2R (ratio_of_tones (dec "0.0") t)).
Proof.
  intros Tt Tu. pose proof (tone_nn _ Tt) as nt. pose proof (tone_nn _ Tu) as nu.
  pose proof (tone_nn _ white) as nw. pose proof (tone_nn _ black_) as nb.
  destruct Tt as [ft bt], Tu as [fu bu]. fconst (dec "100.0"). fconst (dec "0.0").
  destruct (Rle_or_lt (B2R t) (B2R u)) as [h|h]; [left|right]; (split; [lra|]).
  - rewrite (ratio_sym u t nu nt), (ratio_sym (dec "100.0") t nw nt).
    apply ratio_widen; try assumption; rewrite !val_fin by assumption; lra.
  - apply ratio_widen; try assumption; rewrite !val_fin by assumption; lra.
Qed.

Lemma fg_achieves t r : pow_defined lm -> is_tone t -> fin r -> 0.9 <= B2R r <= 22 ->
  achievable [t] r -> fle r (ratio_of_tones (foreground_tone t r) t) = true.
Proof.
  intros PD Tt fr br (u & Tu & h). apply Forall_inv in h. pose proof (fin_not_nan _ fr) as nr.
  apply (ratio_le t u r nr Tt Tu) in h. rewrite val_fin in h by assumption.
  pose proof (lighter_unsafe_ok t r (lighter_nn t r PD (tone_nn _ Tt) nr)) as (TL & _).
  pose proof (darker_unsafe_ok t r (darker_nn t r PD (tone_nn _ Tt) nr)) as (TD & _).
  apply fg_reaches; [exact PD|exact (tone_nn _ Tt)|exact nr|].
  destruct (white_or_black t u Tt Tu) as [[_ c]|[_ c]]; [left|right].
  - apply (ratio_le t _ r nr Tt TL). rewrite val_fin by assumption. apply unsafe_white; try assumption. lra.
  - apply (ratio_le t _ r nr Tt TD). rewrite val_fin by assumption. apply unsafe_black; try assumption. lra.
Qed.

(** The single-background case of get_tone. *)
Lemma single_reaches a t r d : pow_defined lm -> is_tone a -> is_tone t -> fin r -> 0.9 <= B2R r <= 22 ->
  achievable [t] r -> fle r (ratio_of_tones (single_tone false a t r d) t) = true.
Proof.
  intros PD Ta Tt fr br h. unfold single_tone. cbv zeta. cbn [andb].
  pose proof (fg_achieves t r PD Tt fr br h) as G. destruct d; [exact G|].
  unfold fge. change Bleb with fle. destruct (fle r (ratio_of_tones t a)) eqn:C; [|exact G].
  rewrite ratio_sym; [exact C|exact (tone_nn _ Ta)|exact (tone_nn _ Tt)].
Qed.

(** ** Two backgrounds *)
Lemma ratio_at_least a b (k : R) x y : is_tone a -> is_tone b -> is_tone x -> is_tone y ->
  B2R a <= B2R x -> B2R x <= B2R y -> B2R y <= B2R b -> k <= B2R (ratio_of_tones x y) -> k <= B2R (ratio_of_tones a b).
Proof.
  intros Ta Tb Tx Ty h1 h2 h3 h. apply Rle_trans with (1 := h).
  apply ratio_widen; try (now apply tone_nn); rewrite !val_fin by (now apply tone_fin); assumption.
Qed.

Definition reaches (x t r : f64) : Prop := B2R r <= B2R (ratio_of_tones x t).
Lemma reaches_fle x t r : is_tone x -> is_tone t -> fin r -> (fle r (ratio_of_tones x t) = true <-> reaches x t r).
Proof.
  intros Tx Tt fr. rewrite (ratio_le t x r (fin_not_nan _ fr) Tt Tx), val_fin by assumption. reflexivity.
Qed.

Lemma lit_ratio a b s : is_tone a -> is_tone b -> fle (dec s) (ratio_of_tones a b) = true -> is_finite (dec s) = true ->
  B2R (dec s) <= B2R (ratio_of_tones a b).
Proof.
  intros Ta Tb h F. destruct (ratio_bounds a b (tone_nn _ Ta) (tone_nn _ Tb)) as [FR _]. now apply fle_fin.
Qed.
Lemma lit_ratio' a b s : is_tone a -> is_tone b -> fle (ratio_of_tones a b) (dec s) = true -> is_finite (dec s) = true ->
  B2R (ratio_of_tones a b) <= B2R (dec s).
Proof.
  intros Ta Tb h F. destruct (ratio_bounds a b (tone_nn _ Ta) (tone_nn _ Tb)) as [FR _]. now apply fle_fin.
Qed.

(** When the brighter background is below 50 or the darker one at least 60, and they are far enough apart, then if
    any tone works, white (respectively black) does. *)
Lemma white_works lo hi u r : is_tone lo -> is_tone hi -> is_tone u -> B2R lo + 9.9 <= B2R hi -> B2R hi < 50 ->
  reaches u lo r -> reaches u hi r -> reaches (dec "100.0") hi r.
Proof.
  intros Tl Th Tu g b h1 h2. unfold reaches in *.
  assert (T50 : is_tone (dec "50.0")) by tone_lit. assert (T30 : is_tone (dec "30.0")) by tone_lit.
  assert (T41 : is_tone (dec "41.0")) by tone_lit.
  fconst (dec "50.0"). fconst (dec "30.0"). fconst (dec "41.0"). fconst (dec "100.0"). fconst (dec "0.0").
  fconst (dec "4.0").
  assert (W : 4 <= B2R (ratio_of_tones (dec "100.0") hi)).
  { rewrite ratio_sym by (apply tone_nn; exact white || exact Th).
    apply (ratio_at_least _ _ 4 (dec "50.0") (dec "100.0")); try assumption; try exact white; try lra.
    rewrite <- V4. apply lit_ratio; [exact T50|exact white|vm_compute; reflexivity|assumption]. }
  assert (K : forall a b x y k, is_tone a -> is_tone b -> is_tone x -> is_tone y -> B2R x <= B2R a -> B2R a <= B2R b -> B2R b <= B2R y ->
    B2R (ratio_of_tones x y) <= k -> B2R (ratio_of_tones b a) <= k).
  { intros a0 b0 x y k Ta Tb Tx Ty c1 c2 c3 c4. apply Rle_trans with (2 := c4).
    rewrite (ratio_sym b0 a0) by (now apply tone_nn).
    apply ratio_widen; try (now apply tone_nn); rewrite !val_fin by (now apply tone_fin); assumption. }
  destruct Tu as [fu bu], Tl as [fl bl], Th as [fh bh].
  destruct (Rle_or_lt (B2R hi) (B2R u)) as [c|c].
  { destruct (white_or_black hi u (conj fh bh) (conj fu bu)) as [[_ d]|[d0 d]]; [lra|].
    pose proof (ratio_self u hi (fin_not_nan _ fu) (fin_not_nan _ fh) ltac:(rewrite !val_fin by assumption; lra)). lra. }
  destruct (Rle_or_lt (B2R u) (B2R lo)) as [c'|c'].
  { assert (X : B2R (ratio_of_tones lo u) <= 4).
    { apply (K u lo (dec "0.0") (dec "41.0")); try exact black_; try exact T41; try (split; assumption); try lra.
      rewrite <- V4. apply lit_ratio'; [exact black_|exact T41|vm_compute; reflexivity|assumption]. }
    rewrite ratio_sym in h1 by (now apply fin_not_nan). lra. }
  destruct (Rle_or_lt (B2R u) 30) as [d|d].
  { assert (X : B2R (ratio_of_tones u lo) <= 4).
    { apply (K lo u (dec "0.0") (dec "30.0")); try exact black_; try exact T30; try (split; assumption); try lra.
      rewrite <- V4. apply lit_ratio'; [exact black_|exact T30|vm_compute; reflexivity|assumption]. }
    lra. }
  assert (X : B2R (ratio_of_tones hi u) <= 4).
  { apply (K u hi (dec "30.0") (dec "50.0")); try exact T50; try exact T30; try (split; assumption); try lra.
    rewrite <- V4. apply lit_ratio'; [exact T30|exact T50|vm_compute; reflexivity|assumption]. }
  rewrite ratio_sym in h2 by (now apply fin_not_nan). lra.
Qed.

Lemma black_works lo hi u r : is_tone lo -> is_tone hi -> is_tone u -> B2R lo + 9.9 <= B2R hi -> 60 <= B2R lo ->
  reaches u lo r -> reaches u hi r -> reaches (dec "0.0") lo r.
Proof.
  intros Tl Th Tu g b h1 h2. unfold reaches in *.
  assert (T60 : is_tone (dec "60.0")) by tone_lit.
  fconst (dec "60.0"). fconst (dec "100.0"). fconst (dec "0.0"). fconst (dec "4.0").
  assert (W : 4 <= B2R (ratio_of_tones (dec "0.0") lo)).
  { apply (ratio_at_least _ _ 4 (dec "0.0") (dec "60.0")); try assumption; try exact black_; try lra.
    rewrite <- V2. apply lit_ratio; [exact black_|exact T60|vm_compute; reflexivity|assumption]. }
  destruct (white_or_black lo u Tl Tu) as [[c d]|[c d]]; [|lra].
  assert (X : B2R (ratio_of_tones u lo) <= 4); [|lra].
  rewrite <- V2. apply Rle_trans with (B2R (ratio_of_tones (dec "60.0") (dec "100.0"))).
  - rewrite (ratio_sym u lo) by (now apply tone_nn). destruct Tu as [fu bu], Tl as [fl bl].
    apply ratio_widen; try (now apply fin_not_nan); rewrite !val_fin by assumption; lra.
  - apply lit_ratio'; [exact T60|exact white|vm_compute; reflexivity|assumption].
Qed.

Lemma dual_reaches a lo hi r : pow_defined lm -> is_tone a -> is_tone lo -> is_tone hi -> fin r -> 0.9 <= B2R r <= 22 ->
  B2R lo + 9.9 <= B2R hi -> B2R hi < 50 \/ 60 <= B2R lo ->
  achievable [lo; hi] r ->
  fle r (ratio_of_tones (dual_tone a lo hi r) lo) = true /\ fle r (ratio_of_tones (dual_tone a lo hi r) hi) = true.
Proof.
  intros PD Ta Tl Th fr br g side (u & Tu & hu). pose proof (fin_not_nan _ fr) as nr.
  pose proof (dual_ok a lo hi r PD Ta Tl Th nr) as TD.
  rewrite (reaches_fle _ lo r TD Tl fr), (reaches_fle _ hi r TD Th fr).
  pose proof (Forall_inv hu) as h1. apply (reaches_fle u lo r Tu Tl fr) in h1.
  pose proof (Forall_inv (Forall_inv_tail hu)) as h2. apply (reaches_fle u hi r Tu Th fr) in h2.
  destruct (Rlt_or_le (B2R r) 1) as [r1|r1].
  { unfold reaches. destruct (ratio_bounds (dual_tone a lo hi r) lo (tone_nn _ TD) (tone_nn _ Tl)) as [_ B1].
    destruct (ratio_bounds (dual_tone a lo hi r) hi (tone_nn _ TD) (tone_nn _ Th)) as [_ B2]. lra. }
  assert (Up : forall x, is_tone x -> B2R hi <= B2R x -> reaches x hi r -> reaches x lo r /\ reaches x hi r).
  { intros x Tx c k. split; [|exact k]. unfold reaches in *. apply Rle_trans with (1 := k).
    rewrite (ratio_sym x hi), (ratio_sym x lo) by (now apply tone_nn).
    apply ratio_widen; try (now apply tone_nn); rewrite !val_fin by (now apply tone_fin); lra. }
  assert (Dn : forall x, is_tone x -> B2R x <= B2R lo -> reaches x lo r -> reaches x lo r /\ reaches x hi r).
  { intros x Tx c k. split; [exact k|]. unfold reaches in *. apply Rle_trans with (1 := k).
    apply ratio_widen; try (now apply tone_nn); rewrite !val_fin by (now apply tone_fin); lra. }
  pose proof (lighter_ok hi r Th fr br) as LO. pose proof (darker_ok lo r Tl fr br) as DO.
  pose proof (lighter_range hi r PD (tone_nn _ Th) nr) as LR. pose proof (darker_range lo r PD (tone_nn _ Tl) nr) as DR.
  clear TD. unfold dual_tone. cbv zeta.
  assert (MX : fmax lo hi = hi).
  { unfold fmax. rewrite (tone_nn _ Tl), (tone_nn _ Th).
    assert (X : flt lo hi = true) by (apply (proj2 (flt_fin lo hi (tone_fin _ Tl) (tone_fin _ Th))); lra). now rewrite X. }
  assert (MN : fmin lo hi = lo).
  { unfold fmin. rewrite (tone_nn _ Tl), (tone_nn _ Th).
    assert (X : flt hi lo = false) by (apply (proj2 (flt_fin_f hi lo (tone_fin _ Th) (tone_fin _ Tl))); lra). now rewrite X. }
  rewrite MX, MN. unfold fge. change Bleb with fle.
  destruct (fle r (ratio_of_tones hi a) && fle r (ratio_of_tones lo a))%bool eqn:C.
  { apply andb_true_iff in C. destruct C as [C1 C2].
    rewrite ratio_sym in C1, C2 by (now apply tone_nn).
    apply (reaches_fle a hi r Ta Th fr) in C1. apply (reaches_fle a lo r Ta Tl fr) in C2. now split. }
  change (fneg (dec "1.0")) with (dec "-1.0").
  assert (X : flt (dec "-1.0") (dec "0.0") = true) by (vm_compute; reflexivity).
  assert (NN : fne (dec "-1.0") (dec "-1.0") = false) by (vm_compute; reflexivity).
  fconst (dec "-1.0"). fconst (dec "0.0"). fconst (dec "100.0").
  assert (Pos : forall x, is_tone x -> flt x (dec "0.0") = false).
  { intros x [fx bx]. apply (proj2 (flt_fin_f x (dec "0.0") fx F0)). lra. }
  assert (Ne : forall x, is_tone x -> x <> dec "-1.0").
  { intros x [_ bx] e. rewrite e in bx. lra. }
  destruct Tl as [fl bl], Th as [fh bh].
  destruct side as [s|s].
  - pose proof (white_works lo hi u r (conj fl bl) (conj fh bh) Tu g s h1 h2) as WW.
    assert (PL : tone_prefers_light_foreground lo = true).
    { apply prefers_iff; [now apply fin_not_nan|]. rewrite val_fin by assumption. lra. }
    rewrite PL. cbn [orb]. destruct LR as [e|T].
    + rewrite e, X. apply Up; [exact white|lra|exact WW].
    + rewrite (Pos _ T). destruct (LO (Ne _ T)) as (_ & R1 & R2). apply Up; [exact T|specialize (R2 r1); lra|exact R1].
  - pose proof (black_works lo hi u r (conj fl bl) (conj fh bh) Tu g s h1 h2) as BW.
    assert (P1 : tone_prefers_light_foreground lo = false).
    { destruct (tone_prefers_light_foreground lo) eqn:Q; [|reflexivity]. apply prefers_iff in Q; [|now apply fin_not_nan].
      rewrite val_fin in Q by assumption. lra. }
    assert (P2 : tone_prefers_light_foreground hi = false).
    { destruct (tone_prefers_light_foreground hi) eqn:Q; [|reflexivity]. apply prefers_iff in Q; [|now apply fin_not_nan].
      rewrite val_fin in Q by assumption. lra. }
    rewrite P1, P2. cbn [orb].
    assert (Dark : let d := if flt (darker lo r) (dec "0.0") then dec "0.0" else darker lo r in reaches d lo r /\ reaches d hi r).
    { cbv zeta. destruct DR as [e|T].
      - rewrite e, X. apply Dn; [exact black_|lra|exact BW].
      - rewrite (Pos _ T). destruct (DO (Ne _ T)) as (_ & R1 & R2). apply Dn; [exact T|specialize (R2 r1); lra|exact R1]. }
    destruct LR as [e|T]; [rewrite e, NN|]; (destruct DR as [e'|T']; [rewrite e', NN|]).
    + cbn [app]. rewrite e' in Dark. exact Dark.
    + destruct (fne (darker lo r) (dec "-1.0")); cbn [app]; [|exact Dark].
      cbv zeta in Dark. rewrite (Pos _ T') in Dark. exact Dark.
    + destruct (fne (lighter hi r) (dec "-1.0")); cbn [app]; [|rewrite e' in Dark; exact Dark].
      destruct (LO (Ne _ T)) as (_ & R1 & R2). apply Up; [exact T|specialize (R2 r1); lra|exact R1].
    + destruct (fne (lighter hi r) (dec "-1.0")) eqn:Q1, (fne (darker lo r) (dec "-1.0")) eqn:Q2; cbn [app]; try exact Dark.
      * destruct (LO (Ne _ T)) as (_ & R1 & R2). apply Up; [exact T|specialize (R2 r1); lra|exact R1].
      * cbv zeta in Dark. rewrite (Pos _ T') in Dark. exact Dark.
Qed.
End Accurate.
