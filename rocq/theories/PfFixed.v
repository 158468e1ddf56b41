(** * The fixed colours keep to one side of the 50-60 zone, and text on them reaches its ratio.  Proof file. *)
From Coq Require Import ZArith Bool Reals Lra Lia Psatz String List.
From Flocq Require Import Core Relative IEEE754.BinarySingleNaN.
From Verif Require Import F64 MathUtils ColorUtils Contrast Hct Palettes DynamicScheme DynamicColor MaterialDynamicColors
  Spec SpecTones FloatFacts FloatMono FloatCast PfArgb PfMath PfColor PfContrast PfHct PfTones PfLab PfReach PfRoles.
Import ListNotations.
Open Scope string_scope.
Open Scope list_scope.
Open Scope R_scope.

(** ** No float lies between the predecessor of 50 and 50 *)
Lemma below_50 (x : f64) : fin x -> B2R x < 50 -> B2R x <= 50 - / 2 ^ 47.
Proof.
  intros f h. assert (F50 : generic_format radix2 (SpecFloat.fexp 53 1024) 50).
  { fconst (dec "50.0"). rewrite <- V. apply generic_format_B2R. }
  pose proof (pred_ge_gt radix2 (SpecFloat.fexp 53 1024) (B2R x) 50 (generic_format_B2R _ _ x) F50 h) as P.
  assert (M : mag radix2 50 = 6%Z :> Z) by (apply mag_unique_pos; cbn; lra).
  rewrite pred_eq_pos in P by lra. unfold pred_pos in P. rewrite M in P.
  rewrite Req_bool_false in P by (cbn; lra).
  rewrite ulp_neq_0 in P by lra. unfold cexp in P. rewrite M in P.
  replace (bpow radix2 (SpecFloat.fexp 53 1024 6)) with (/ 2 ^ 47) in P; [exact P|].
  change (SpecFloat.fexp 53 1024 6) with (-47)%Z. cbn. lra.
Qed.
Lemma up_10 (x : f64) : fin x -> B2R x < 50 -> rnd (B2R x + 10) < 60.
Proof.
  intros f h. pose proof (below_50 x f h) as P. fconst (dec "59.99999999999999").
  pose proof (rnd_le_B2R (B2R x + 10) (dec "59.99999999999999") ltac:(lra)). lra.
Qed.

(** ** The pair stays on one side *)
Definition straddles (dark : bool) (n f : f64) : Prop :=
  if dark then B2R n < 50 /\ 60 <= B2R f else B2R f < 50 /\ 60 <= B2R n.
Definition one_side (n f : f64) : Prop := (B2R n < 50 /\ B2R f < 50) \/ (60 <= B2R n /\ 60 <= B2R f).

Lemma expand_side n f dark : is_tone n -> is_tone f -> ~ straddles dark n f ->
  ~ straddles dark (fst (pair_expand n f (dec "10.0") (dirF dark))) (snd (pair_expand n f (dec "10.0") (dirF dark))).
Proof.
  intros [fn bn] [ff bf] NS. unfold pair_expand. unfold fge. change Bleb with fle.
  destruct (fle (dec "10.0") (fmul (fsub f n) (dirF dark))); [exact NS|].
  cbv zeta. destruct (delta_dir dark) as [FD VD].
  assert (BD : -10 <= 10 * dirR dark <= 10) by (destruct dark; unfold dirR; lra).
  destruct (fadd_S n _ fn FD ltac:(rewrite VD; fsmall)) as [S FS]. rewrite VD in S.
  fold (ct (fadd n (fmul (dec "10.0") (dirF dark)))).
  set (g := fadd n (fmul (dec "10.0") (dirF dark))) in *.
  destruct (ct_fin g FS) as (T & I & Lo & Hi). set (f' := ct g) in *.
  destruct (fle (dec "10.0") (fmul (fsub f' n) (dirF dark))); cbn [fst snd].
  - pose proof (up_10 n fn) as U. pose proof (rnd_ge_IZR (B2R n + 10 * dirR dark) 50 ltac:(lia)) as D.
    destruct dark; unfold straddles, dirR in *; intros [c1 c2].
    + replace (B2R n + 10 * 1) with (B2R n + 10) in S by lra. specialize (U c1).
      destruct (Rlt_or_le (B2R g) 0) as [a|a]; [pose proof (Lo a); lra|].
      pose proof (I ltac:(lra)). lra.
    + specialize (D ltac:(lra)). rewrite <- S in D.
      destruct (Rlt_or_le 100 (B2R g)) as [a|a]; [pose proof (Hi a); lra|]. pose proof (I ltac:(lra)). lra.
  - destruct T as [ff' bf'].
    destruct (fsub_S f' _ ff' FD ltac:(rewrite VD; fsmall)) as [S2 FS2]. rewrite VD in S2.
    fold (ct (fsub f' (fmul (dec "10.0") (dirF dark)))).
    set (m := fsub f' (fmul (dec "10.0") (dirF dark))) in *.
    destruct (ct_fin m FS2) as (T2 & I2 & Lo2 & Hi2).
    pose proof (up_10 f' ff') as U. pose proof (rnd_ge_IZR (B2R f' - 10 * dirR dark) 50 ltac:(lia)) as D.
    destruct dark; unfold straddles, dirR in *; intros [c1 c2].
    + specialize (D ltac:(lra)). rewrite <- S2 in D.
      destruct (Rlt_or_le 100 (B2R m)) as [a|a]; [pose proof (Hi2 a); lra|]. pose proof (I2 ltac:(lra)). lra.
    + replace (B2R f' - 10 * -1) with (B2R f' + 10) in S2 by lra. specialize (U c1).
      destruct (Rlt_or_le (B2R m) 0) as [a|a]; [pose proof (Lo2 a); lra|]. pose proof (I2 ltac:(lra)). lra.
Qed.

Lemma awkward_side n f dark : apart dark n f -> ~ straddles dark n f ->
  let r := pair_awkward n f (dec "10.0") (dirF dark) true in one_side (fst r) (snd r).
Proof.
  intros A NS. pose proof A as ((fn & bn) & (ff & bf) & g). cbv zeta. unfold pair_awkward.
  fold (in_zone n). fold (in_zone f).
  assert (M : forall f, is_tone f -> let r := pair_move_both f (dec "10.0") (dirF dark) in one_side (fst r) (snd r)).
  { intros f0 [f1 f2]. cbv zeta. unfold pair_move_both.
    assert (G : fgt (dirF dark) (dec "0.0") = dark) by (destruct dark; vm_compute; reflexivity). rewrite G. unfold dirF.
    fconst (dec "60.0"). fconst (dec "49.0"). destruct dark.
    - fconst (dec "60.0" + dec "10.0" * dec "1.0")%f. destruct (fmax_R f0 _ f1 F1) as [FM VM]. cbn [fst snd].
      right. rewrite VM, V1, V. pose proof (Rmax_r (B2R f0) 70). lra.
    - change (fneg (dec "1.0")) with (dec "-1.0").
      fconst (dec "49.0" + dec "10.0" * dec "-1.0")%f. destruct (fmin_R f0 _ f1 F1) as [FM VM]. cbn [fst snd].
      left. rewrite VM, V1, V0. pose proof (Rmin_r (B2R f0) 39). lra. }
  destruct (in_zone n) eqn:Zn; [apply M; split; assumption|].
  destruct (in_zone f) eqn:Zf; [apply M; split; assumption|].
  cbn [fst snd]. apply zone_R in Zn, Zf; try assumption. unfold one_side, straddles, dirR in *. destruct dark; lra.
Qed.

Section Accurate.
Context {lm : Libm} (PD : pow_defined lm) (PA : pow_accurate (1 / 10 ^ 5) lm).

(** ** foreground_tone goes the way it should *)
Lemma unsafe_up t r : is_tone t -> fin r -> 1 <= B2R r <= 22 -> B2R t <= B2R (lighter_unsafe t r).
Proof.
  intros Tt fr br. pose proof (lighter_nn t r PD (tone_nn _ Tt) (fin_not_nan _ fr)) as N.
  destruct (lighter_unsafe_ok t r N) as (_ & A & B). fconst (dec "100.0"). fconst (dec "-1.0").
  destruct (lighter_cases t r) as [c|[c|c]]; [rewrite N in c; discriminate c| |].
  - rewrite (A c). destruct Tt; lra.
  - assert (Q : lighter t r <> dec "-1.0") by (intros e; rewrite e in c; destruct c as [_ c]; lra).
    rewrite (B Q). destruct (lighter_ok PA t r Tt fr ltac:(lra) Q) as (_ & _ & R). specialize (R ltac:(lra)). lra.
Qed.
Lemma unsafe_down t r : is_tone t -> fin r -> 1 <= B2R r <= 22 -> B2R (darker_unsafe t r) <= B2R t.
Proof.
  intros Tt fr br. pose proof (darker_nn t r PD (tone_nn _ Tt) (fin_not_nan _ fr)) as N.
  destruct (darker_unsafe_ok t r N) as (_ & A & B). fconst (dec "0.0"). fconst (dec "-1.0").
  destruct (darker_cases t r) as [c|[c|c]]; [rewrite N in c; discriminate c| |].
  - rewrite (A c). destruct Tt; lra.
  - assert (Q : darker t r <> dec "-1.0") by (intros e; rewrite e in c; destruct c as [_ c]; lra).
    rewrite (B Q). destruct (darker_ok PA t r Tt fr ltac:(lra) Q) as (_ & _ & R). specialize (R ltac:(lra)). lra.
Qed.

Lemma fg_up t u r : is_tone t -> is_tone u -> fin r -> 1 <= B2R r <= 22 -> B2R t < 59 -> B2R t <= B2R u ->
  reaches u t r -> B2R t <= B2R (foreground_tone t r) /\ reaches (foreground_tone t r) t r.
Proof.
  intros Tt Tu fr br lt le h. pose proof (fin_not_nan _ fr) as nr.
  destruct (lighter_unsafe_ok t r (lighter_nn t r PD (tone_nn _ Tt) nr)) as (TL & _).
  assert (W : reaches (lighter_unsafe t r) t r).
  { apply unsafe_white; try assumption; [lra|]. unfold reaches in h.
    destruct (white_or_black t u Tt Tu) as [[_ c]|[c0 c]]; [lra|].
    pose proof (ratio_self u t (tone_nn _ Tu) (tone_nn _ Tt) ltac:(rewrite !val_fin by (now apply tone_fin); lra)).
    destruct (ratio_bounds (dec "100.0") t (tone_nn _ white) (tone_nn _ Tt)) as [_ b]. lra. }
  assert (E : foreground_tone t r = lighter_unsafe t r).
  { unfold foreground_tone. cbv zeta.
    assert (PL : tone_prefers_light_foreground t = true).
    { apply prefers_iff; [now apply tone_nn|]. rewrite val_fin by (now apply tone_fin). lra. }
    rewrite PL. unfold fge. change Bleb with fle. rewrite (proj2 (reaches_fle _ t r TL Tt fr) W). reflexivity. }
  rewrite E. split; [now apply unsafe_up|exact W].
Qed.
Lemma fg_dark t u r : is_tone t -> is_tone u -> fin r -> 1 <= B2R r <= 22 -> 60 <= B2R t -> B2R u <= B2R t ->
  reaches u t r -> foreground_tone t r = darker_unsafe t r /\ reaches (darker_unsafe t r) t r.
Proof.
  intros Tt Tu fr br lt le h. pose proof (fin_not_nan _ fr) as nr.
  destruct (darker_unsafe_ok t r (darker_nn t r PD (tone_nn _ Tt) nr)) as (TL & _).
  assert (W : reaches (darker_unsafe t r) t r).
  { apply unsafe_black; try assumption; [lra|]. unfold reaches in h.
    destruct (white_or_black t u Tt Tu) as [[c0 c]|[_ c]]; [|lra].
    pose proof (ratio_self u t (tone_nn _ Tu) (tone_nn _ Tt) ltac:(rewrite !val_fin by (now apply tone_fin); lra)).
    destruct (ratio_bounds (dec "0.0") t (tone_nn _ black_) (tone_nn _ Tt)) as [_ b]. lra. }
  split; [|exact W]. unfold foreground_tone. cbv zeta.
  assert (PL : tone_prefers_light_foreground t = false).
  { destruct (tone_prefers_light_foreground t) eqn:Q; [|reflexivity]. apply prefers_iff in Q; [|now apply tone_nn].
    rewrite val_fin in Q by (now apply tone_fin). lra. }
  rewrite PL. unfold fge. change Bleb with fle. rewrite (proj2 (reaches_fle _ t r TL Tt fr) W). reflexivity.
Qed.

(** A small ratio against a light background does not take darker far down. *)
Lemma darker_near t r : is_tone t -> fin r -> 74 <= B2R t -> 1 <= B2R r <= 1.6 -> 50 <= B2R (darker_unsafe t r).
Proof.
  intros Tt fr bt br. destruct (tone_val t Tt) as [nt vt]. destruct (tone_Y t Tt) as [FY BY].
  assert (G50 : is_tone (darker t r) /\ 50 <= B2R (darker t r)).
  2: { destruct G50 as [T G]. unfold darker_unsafe. cbv zeta. fconst (dec "0.0").
       assert (X : flt (darker t r) (dec "0.0") = false) by (apply (proj2 (flt_fin_f _ _ (tone_fin _ T) F)); lra).
       now rewrite X. }
  assert (Y74 : 46 <= B2R (y_from_lstar t)).
  { fconst (dec "74.0"). fconst (dec "46.0"). assert (T74 : is_tone (dec "74.0")) by tone_lit.
    pose proof (y_from_lstar_mono (dec "74.0") t (tone_nn _ T74) nt) as Mo.
    destruct (tone_Y _ T74) as [F74 _].
    rewrite !val_fin in Mo by (assumption || now apply tone_fin). specialize (Mo ltac:(lra)).
    apply Rle_trans with (2 := Mo). rewrite <- V0. apply (proj1 (fle_fin (dec "46.0") (y_from_lstar (dec "74.0")) F0 F74)).
    vm_compute. reflexivity. }
  unfold darker.
  assert (G0 : (flt t (dec "0.0") || fgt t (dec "100.0"))%bool = false).
  { fconst (dec "0.0"). fconst (dec "100.0"). apply orb_false_iff. unfold fgt. change Bltb with flt. destruct Tt as [ft b].
    split; [apply (proj2 (flt_fin_f t _ ft F))|apply (proj2 (flt_fin_f _ t F0 ft))]; lra. }
  rewrite G0. cbv zeta. set (ly := y_from_lstar t) in *.
  fconst (dec "5.0"). fconst (dec "0.4").
  destruct (fadd_S ly (dec "5.0") FY F ltac:(rewrite V; fsmall)) as [S1 F1]. rewrite V in S1.
  pose proof (rnd_near (B2R ly + 5) ltac:(lra)) as N1. rewrite <- S1 in N1. set (a := fadd ly (dec "5.0")) in *.
  assert (Ba : 50.99 <= B2R a <= 105.01) by lra.
  assert (IR : / 1.6 <= / B2R r <= 1) by (split; [apply Rinv_le; lra|rewrite <- Rinv_1; apply Rinv_le; lra]).
  assert (BM : 31.8 <= B2R a / B2R r <= B2R a).
  { unfold Rdiv. split.
    - apply Rle_trans with (50.99 * / 1.6); [lra|]. apply Rmult_le_compat; lra.
    - rewrite <- (Rmult_1_r (B2R a)) at 2. apply Rmult_le_compat_l; lra. }
  destruct (fdiv_S a r F1 ltac:(lra) ltac:(fsmall)) as [M G1].
  pose proof (rnd_near (B2R a / B2R r) ltac:(lra)) as N2. rewrite <- M in N2.
  assert (MB : B2R (fdiv a r) <= B2R a) by (rewrite M; apply rnd_le_B2R; lra).
  set (b := fdiv a r) in *.
  destruct (fsub_S b (dec "5.0") G1 F ltac:(rewrite V; fsmall)) as [S2 G2]. rewrite V in S2.
  pose proof (rnd_near (B2R b - 5) ltac:(lra)) as N3. rewrite <- S2 in N3.
  set (dy := fsub b (dec "5.0")) in *.
  assert (B100 : B2R dy <= 100).
  { rewrite S2. apply (rnd_le_IZR (B2R b - 5) 100 ltac:(lia)).
    assert (B2R a <= 105) by (rewrite S1; apply (rnd_le_IZR (B2R ly + 5) 105 ltac:(lia)); lra). lra. }
  (* the ratio check *)
  destruct (ratio_ys_R ly dy FY G2 BY ltac:(lra)) as (FR & ER & _).
  assert (CK : B2R r - 0.03 <= B2R (ratio_of_ys ly dy) <= B2R r + 0.03).
  { rewrite ER. assert (MM : B2R dy - 1 / 10 ^ 10 <= B2R ly) by lra.
    set (hi := Rmax (B2R ly) (B2R dy)). set (lo := Rmin (B2R ly) (B2R dy)).
    assert (Bh : B2R ly <= hi <= B2R ly + 1 / 10 ^ 10) by (unfold hi; split; [apply Rmax_l|apply Rmax_lub; lra]).
    assert (Bl : B2R dy - 1 / 10 ^ 10 <= lo <= B2R dy) by (unfold lo; split; [apply Rmin_glb; lra|apply Rmin_r]).
    clearbody hi lo.
    pose proof (rnd_near (hi + 5) ltac:(lra)) as Q1. pose proof (rnd_near (lo + 5) ltac:(lra)) as Q2.
    set (h5 := rnd (hi + 5)) in *. set (l5 := rnd (lo + 5)) in *. clearbody h5 l5.
    assert (RA : B2R r * (B2R a / B2R r) = B2R a) by (field; lra).
    set (q := B2R a / B2R r) in *.
    assert (P1 : (B2R r - 0.02) * l5 <= h5).
    { apply Rle_trans with ((B2R r - 0.02) * (q + 1 / 10 ^ 9)); [apply Rmult_le_compat_l; lra|].
      replace ((B2R r - 0.02) * (q + 1 / 10 ^ 9)) with (B2R r * q - 0.02 * q + (B2R r - 0.02) * (1 / 10 ^ 9)) by ring. lra. }
    assert (P2 : h5 <= (B2R r + 0.02) * l5).
    { apply Rle_trans with ((B2R r + 0.02) * (q - 1 / 10 ^ 9)); [|apply Rmult_le_compat_l; lra].
      replace ((B2R r + 0.02) * (q - 1 / 10 ^ 9)) with (B2R r * q + 0.02 * q - (B2R r + 0.02) * (1 / 10 ^ 9)) by ring. lra. }
    assert (P3 : B2R r - 0.02 <= h5 / l5 <= B2R r + 0.02).
    { split; apply Rmult_le_reg_r with l5; try lra; unfold Rdiv; rewrite Rmult_assoc, Rinv_l, Rmult_1_r; lra. }
    pose proof (rnd_near (h5 / l5) ltac:(lra)). lra. }
  set (rc := ratio_of_ys ly dy) in *. clearbody rc.
  assert (CD : fgt (fabs (fsub rc r)) (dec "0.04") = false).
  { unfold fgt. change Bltb with flt. fconst (dec "0.04").
    destruct (fsub_S rc r FR fr ltac:(fsmall)) as [SD FD].
    pose proof (rnd_near (B2R rc - B2R r) ltac:(lra)) as ND. rewrite <- SD in ND.
    assert (FA : fin (fabs (fsub rc r))) by (unfold fabs; now rewrite is_finite_Babs).
    apply (proj2 (flt_fin_f _ _ F2 FA)). unfold fabs. rewrite B2R_Babs, V1. apply Rabs_le. lra. }
  rewrite CD, andb_false_r.
  (* the tone *)
  assert (BL : -6 <= B2R dy <= 3000) by lra.
  destruct (L_R (1 / 10 ^ 5) ltac:(lra) PA dy G2 BL) as (FL & x & EX & C).
  destruct (L_fin PA dy G2 BL) as [_ BLL].
  assert (X : 0.63 <= x <= 1.001).
  { destruct C as [(C1 & C2 & C3)|(C1 & C2)].
    - split.
      + destruct (Rle_or_lt 0.63 x) as [|q]; [assumption|exfalso].
        assert (x ^ 3 <= 0.63 ^ 3) by (apply cube_lt; lra). lra.
      + destruct (Rle_or_lt x 1.001) as [|q]; [assumption|exfalso].
        assert (1.001 ^ 3 <= x ^ 3) by (apply cube_lt; lra). lra.
    - exfalso. unfold eR in C1. lra. }
  destruct (fsub_S (lstar_from_y dy) (dec "0.4") FL F0 ltac:(rewrite V0; fsmall)) as [S3 F3].
  set (L := lstar_from_y dy) in *. clearbody L. clear - EX X S3 V0 F3.
  assert (BL : 57 <= B2R L <= 100.2) by (clear - EX X; lra).
  pose proof (rnd_near (B2R L - B2R (dec "0.4")) ltac:(lra)) as N5.
  set (rv := fsub L (dec "0.4")) in *.
  assert (RV : 50 <= B2R rv <= 100) by (rewrite S3; lra).
  assert (G' : (flt rv (dec "0.0") || fgt rv (dec "100.0"))%bool = false).
  { fconst (dec "0.0"). fconst (dec "100.0"). apply orb_false_iff. unfold fgt. change Bltb with flt.
    split; [apply (proj2 (flt_fin_f rv _ F3 F))|apply (proj2 (flt_fin_f _ rv F0 F3))]; lra. }
  rewrite G'. split; [split; [exact F3|]|]; lra.
Qed.

(** ** The initial tones of the fixed colours *)
Lemma ratio_at_most x t lo hi k : is_tone x -> is_tone t -> is_tone lo -> is_tone hi -> B2R lo <= B2R t <= B2R hi ->
  B2R (ratio_of_tones x lo) <= k -> B2R (ratio_of_tones x hi) <= k -> B2R (ratio_of_tones x t) <= k.
Proof.
  intros Tx Tt Tl Th b h1 h2. destruct (Rle_or_lt (B2R t) (B2R x)) as [c|c].
  - apply Rle_trans with (2 := h1). rewrite (ratio_sym x t), (ratio_sym x lo) by (now apply tone_nn).
    apply ratio_widen; try (now apply tone_nn); rewrite !val_fin by (now apply tone_fin); lra.
  - apply Rle_trans with (2 := h2).
    apply ratio_widen; try (now apply tone_nn); rewrite !val_fin by (now apply tone_fin); lra.
Qed.

Definition initial_tones (dark : bool) (n f : string) : Prop :=
  if dark then In (n, f) [("80.0", "90.0"); ("30.0", "40.0"); ("70.0", "80.0")]
  else In (n, f) [("90.0", "80.0"); ("40.0", "30.0"); ("80.0", "70.0")].

(** If the first tone does not reach the ratio and the second, farther out, does, the substitute for the first lies
    beyond it. *)
Lemma beyond_up t c x u g : is_tone t -> is_tone x -> is_tone u -> fin c -> 1 <= B2R c <= 22 -> B2R t < 59 ->
  B2R t <= B2R x -> B2R x <= B2R u -> reaches u t c -> ~ reaches x t c -> g = foreground_tone t c -> B2R x <= B2R g.
Proof.
  intros Tt Tx Tu fc bc lt h1 h2 R N ->. destruct (fg_up t u c Tt Tu fc bc lt ltac:(lra) R) as [G1 G2].
  pose proof (fg_tone t c PD (tone_nn _ Tt) (fin_not_nan _ fc)) as TG.
  destruct (Rle_or_lt (B2R x) (B2R (foreground_tone t c))) as [|q]; [assumption|exfalso]. apply N.
  unfold reaches in *. apply Rle_trans with (1 := G2).
  rewrite (ratio_sym _ t), (ratio_sym x t) by (now apply tone_nn).
  apply ratio_widen; try (now apply tone_nn); rewrite !val_fin by (now apply tone_fin); lra.
Qed.
Lemma beyond_down t c x u g : is_tone t -> is_tone x -> is_tone u -> fin c -> 1 <= B2R c <= 22 -> 60 <= B2R t ->
  B2R x <= B2R t -> B2R u <= B2R x -> reaches u t c -> ~ reaches x t c -> g = foreground_tone t c -> B2R g <= B2R x.
Proof.
  intros Tt Tx Tu fc bc lt h1 h2 R N ->. destruct (fg_dark t u c Tt Tu fc bc lt ltac:(lra) R) as [G1 G2].
  pose proof (fg_tone t c PD (tone_nn _ Tt) (fin_not_nan _ fc)) as TG. rewrite G1 in *.
  pose proof (unsafe_down t c Tt fc bc) as DN.
  destruct (Rle_or_lt (B2R (darker_unsafe t c)) (B2R x)) as [|q]; [assumption|exfalso]. apply N.
  unfold reaches in *. apply Rle_trans with (1 := G2).
  apply ratio_widen; try (now apply tone_nn); rewrite !val_fin by (now apply tone_fin); lra.
Qed.

Ltac lit_le F := apply lit_ratio'; [tone_lit|tone_lit|vm_compute; reflexivity|exact F].
Ltac lit_ge F := apply lit_ratio; [tone_lit|tone_lit|vm_compute; reflexivity|exact F].

Lemma initial_side (dark dcr : bool) t c n f : is_tone t -> fin c -> 0.9 <= B2R c <= 22 ->
  (if dark then 23.95 <= B2R t <= 34.05 else 74.95 <= B2R t <= 87.05) -> initial_tones dark n f ->
  is_tone (pair_initial dcr t c (dec n)) /\ is_tone (pair_initial dcr t c (dec f)) /\
  ~ straddles dark (pair_initial dcr t c (dec n)) (pair_initial dcr t c (dec f)).
Proof.
  intros Tt fc bc bt I. pose proof (fg_tone t c PD (tone_nn _ Tt) (fin_not_nan _ fc)) as TG.
  assert (Tn : is_tone (dec n)).
  { destruct dark; cbn [initial_tones In] in I; destruct I as [I|[I|[I|[]]]]; apply pair_equal_spec in I; destruct I as [<- _]; tone_lit. }
  assert (Tf : is_tone (dec f)).
  { destruct dark; cbn [initial_tones In] in I; destruct I as [I|[I|[I|[]]]]; apply pair_equal_spec in I; destruct I as [_ <-]; tone_lit. }
  split; [apply initial_tone; [exact PD|exact (tone_nn _ Tt)|exact (fin_not_nan _ fc)|exact Tn]|].
  split; [apply initial_tone; [exact PD|exact (tone_nn _ Tt)|exact (fin_not_nan _ fc)|exact Tf]|].
  unfold pair_initial. cbv zeta. unfold fge. change Bleb with fle.
  remember (foreground_tone t c) as g eqn:Eg.
  destruct dcr; [destruct dark; unfold straddles; lra|].
  rewrite (ratio_sym t (dec n)), (ratio_sym t (dec f)) by (now apply tone_nn).
  destruct (fle c (ratio_of_tones (dec n) t)) eqn:Rn, (fle c (ratio_of_tones (dec f) t)) eqn:Rf.
  - (* both keep their tone *)
    destruct dark; cbn [initial_tones In] in I; destruct I as [I|[I|[I|[]]]]; apply pair_equal_spec in I; destruct I as [<- <-]; unfold straddles.
    + fconst (dec "80.0"). lra.
    + fconst (dec "40.0"). lra.
    + fconst (dec "70.0"). lra.
    + fconst (dec "80.0"). lra.
    + fconst (dec "40.0"). lra.
    + fconst (dec "70.0"). lra.
  - (* only the nearer does *)
    apply (reaches_fle _ t c Tn Tt fc) in Rn. unfold reaches in Rn.
    assert (Rf' : ~ reaches (dec f) t c) by (intros X; apply (reaches_fle _ t c Tf Tt fc) in X; rewrite X in Rf; discriminate Rf).
    assert (C1 : 1 <= B2R c).
    { destruct (Rle_or_lt 1 (B2R c)); [assumption|exfalso]. apply Rf'. unfold reaches.
      destruct (ratio_bounds (dec f) t (tone_nn _ Tf) (tone_nn _ Tt)) as [_ b]. lra. }
    destruct dark; cbn [initial_tones In] in I; destruct I as [I|[I|[I|[]]]]; apply pair_equal_spec in I; destruct I as [<- <-]; unfold straddles.
    + fconst (dec "80.0"). lra.
    + exfalso. apply Rf'. unfold reaches.
      assert (A : B2R (ratio_of_tones (dec "30.0") t) <= 1.24).
      { fconst (dec "23.9"). fconst (dec "34.1"). fconst (dec "1.239").
        apply (ratio_at_most (dec "30.0") t (dec "23.9") (dec "34.1")); [tone_lit|exact Tt|tone_lit|tone_lit|lra| |];
          (apply Rle_trans with (B2R (dec "1.239")); [lit_le F1|lra]). }
      assert (B : 1.241 <= B2R (ratio_of_tones (dec "40.0") t)).
      { fconst (dec "34.1"). fconst (dec "40.0"). fconst (dec "1.242").
        rewrite (ratio_sym (dec "40.0") t) by (now apply tone_nn).
        apply (ratio_at_least _ _ _ (dec "34.1") (dec "40.0")); [exact Tt|tone_lit|tone_lit|tone_lit|lra|lra|lra|].
        apply Rle_trans with (B2R (dec "1.242")); [lra|lit_ge F1]. }
      lra.
    + fconst (dec "70.0"). lra.
    + intros [q _].
      assert (A : B2R (ratio_of_tones (dec "90.0") t) <= 1.56).
      { fconst (dec "74.9"). fconst (dec "87.1"). fconst (dec "1.55").
        apply (ratio_at_most (dec "90.0") t (dec "74.9") (dec "87.1")); [tone_lit|exact Tt|tone_lit|tone_lit|lra| |];
          (apply Rle_trans with (B2R (dec "1.55")); [lit_le F1|lra]). }
      pose proof (darker_near t c Tt fc ltac:(lra) ltac:(lra)) as DNr.
      pose proof (unsafe_up t c Tt fc ltac:(lra)) as Up. rewrite Eg in q.
      destruct (fg_candidates t c) as [e|e]; rewrite e in q; lra.
    + fconst (dec "40.0"). lra.
    + intros [q _].
      assert (A : B2R (ratio_of_tones (dec "80.0") t) <= 1.56).
      { fconst (dec "74.9"). fconst (dec "87.1"). fconst (dec "1.55").
        apply (ratio_at_most (dec "80.0") t (dec "74.9") (dec "87.1")); [tone_lit|exact Tt|tone_lit|tone_lit|lra| |];
          (apply Rle_trans with (B2R (dec "1.55")); [lit_le F1|lra]). }
      pose proof (darker_near t c Tt fc ltac:(lra) ltac:(lra)) as DNr.
      pose proof (unsafe_up t c Tt fc ltac:(lra)) as Up. rewrite Eg in q.
      destruct (fg_candidates t c) as [e|e]; rewrite e in q; lra.
  - (* only the farther does *)
    apply (reaches_fle _ t c Tf Tt fc) in Rf.
    assert (Rn' : ~ reaches (dec n) t c) by (intros X; apply (reaches_fle _ t c Tn Tt fc) in X; rewrite X in Rn; discriminate Rn).
    assert (C1 : 1 <= B2R c).
    { destruct (Rle_or_lt 1 (B2R c)); [assumption|exfalso]. apply Rn'. unfold reaches.
      destruct (ratio_bounds (dec n) t (tone_nn _ Tn) (tone_nn _ Tt)) as [_ b]. lra. }
    destruct dark; cbn [initial_tones In] in I; destruct I as [I|[I|[I|[]]]]; apply pair_equal_spec in I; destruct I as [<- <-]; unfold straddles.
    + fconst (dec "80.0"). fconst (dec "90.0").
      pose proof (beyond_up t c _ _ g Tt Tn Tf fc ltac:(lra) ltac:(lra) ltac:(lra) ltac:(lra) Rf Rn' Eg). lra.
    + fconst (dec "40.0"). lra.
    + fconst (dec "70.0"). fconst (dec "80.0").
      pose proof (beyond_up t c _ _ g Tt Tn Tf fc ltac:(lra) ltac:(lra) ltac:(lra) ltac:(lra) Rf Rn' Eg). lra.
    + fconst (dec "80.0"). lra.
    + fconst (dec "40.0"). fconst (dec "30.0").
      pose proof (beyond_down t c _ _ g Tt Tn Tf fc ltac:(lra) ltac:(lra) ltac:(lra) ltac:(lra) Rf Rn' Eg). lra.
    + fconst (dec "70.0"). lra.
  - destruct dark; unfold straddles; lra.
Qed.

(** ** The fixed colours *)
Lemma surface_range s : exists t, get_tone (highest_surface s) s = Ok t /\ is_tone t /\
  (if ds_is_dark s then 23.95 <= B2R t <= 34.05 else 74.95 <= B2R t <= 87.05).
Proof.
  unfold highest_surface, surface_bright, surface_dim. destruct (ds_is_dark s) eqn:D.
  - rewrite get_plain. unfold surface_bright_core. cbn [rc_tone]. rewrite D.
    set (cv := cc_new _ _ _ _).
    assert (K : curve_in 24 34 cv) by (unfold cv; curve_lit).
    destruct (cc_in 24 34 cv (ds_contrast_level s) ltac:(lra) ltac:(lra) K) as (F & B0 & B).
    eexists. split; [reflexivity|]. split; [split; [exact F|lra]|lra].
  - rewrite get_plain. unfold surface_dim_core. cbn [rc_tone]. rewrite D.
    set (cv := cc_new _ _ _ _).
    assert (K : curve_in 75 87 cv) by (unfold cv; curve_lit).
    destruct (cc_in 75 87 cv (ds_contrast_level s) ltac:(lra) ltac:(lra) K) as (F & B0 & B).
    eexists. split; [reflexivity|]. split; [split; [exact F|lra]|lra].
Qed.

Lemma pair_side s p bg n f cv : 
  is_tone bg -> (if ds_is_dark s then 23.95 <= B2R bg <= 34.05 else 74.95 <= B2R bg <= 87.05) ->
  dp_delta p = dec "10.0" -> dp_stay_together p = true -> dp_polarity p = Lighter ->
  initial_tones (ds_is_dark s) n f ->
  rc_tone (if ds_is_dark s then dp_role_b p else dp_role_a p) s = Ok (dec n) ->
  rc_tone (if ds_is_dark s then dp_role_a p else dp_role_b p) s = Ok (dec f) ->
  rc_contrast_curve (dp_role_a p) = Some cv -> rc_contrast_curve (dp_role_b p) = Some cv -> curve_in 1 21 cv ->
  exists x y, one_side x y /\ forall name, pair_tone s name p bg =
      Ok (if String.eqb name (rc_name (if ds_is_dark s then dp_role_b p else dp_role_a p)) then x else y).
Proof.
  intros Tb Rb D ST PO I En Ef Ca Cb K. unfold pair_tone. cbv zeta. rewrite D, ST, PO.
  assert (X : (is_nearer Lighter || is_lighter Lighter && negb (ds_is_dark s) || is_darker Lighter && ds_is_dark s)%bool
    = negb (ds_is_dark s)) by (cbn; now rewrite orb_false_r).
  rewrite X. clear X.
  replace (if negb (ds_is_dark s) then dp_role_a p else dp_role_b p) with (if ds_is_dark s then dp_role_b p else dp_role_a p)
    by (destruct (ds_is_dark s); reflexivity).
  replace (if negb (ds_is_dark s) then dp_role_b p else dp_role_a p) with (if ds_is_dark s then dp_role_a p else dp_role_b p)
    by (destruct (ds_is_dark s); reflexivity).
  set (ne := if ds_is_dark s then dp_role_b p else dp_role_a p) in *.
  set (fa := if ds_is_dark s then dp_role_a p else dp_role_b p) in *.
  assert (Cn : rc_contrast_curve ne = Some cv) by (unfold ne; destruct (ds_is_dark s); assumption).
  assert (Cf : rc_contrast_curve fa = Some cv) by (unfold fa; destruct (ds_is_dark s); assumption).
  clearbody ne fa.
  change (if ds_is_dark s then dec "1.0" else fneg (dec "1.0")) with (dirF (ds_is_dark s)).
  rewrite Cn, Cf, En, Ef. cbv beta iota delta [ok_or_panic bind].
  destruct (cc_ratio cv (ds_contrast_level s) K) as [Fc Bc].
  destruct (initial_side (ds_is_dark s) (flt (ds_contrast_level s) (dec "0.0")) bg _ n f Tb Fc ltac:(lra) Rb I) as (Ta & Tbb & NS).
  set (a := pair_initial _ bg _ (dec n)) in *. set (b := pair_initial _ bg _ (dec f)) in *. clearbody a b.
  pose proof (expand_apart a b (ds_is_dark s) Ta Tbb) as E.
  pose proof (expand_side a b (ds_is_dark s) Ta Tbb NS) as E2.
  destruct (pair_expand a b (dec "10.0") (dirF (ds_is_dark s))) as [n1 f1]. cbn [fst snd] in E, E2.
  pose proof (awkward_side n1 f1 (ds_is_dark s) E E2) as W. cbv zeta in W.
  destruct (pair_awkward n1 f1 (dec "10.0") (dirF (ds_is_dark s)) true) as [n2 f2]. cbn [fst snd] in W.
  exists n2, f2. split; [exact W|]. intros name. reflexivity.
Qed.

Lemma fixed_side s f d : In (f, d) fixed_pairs -> exists a b, tone_of s f = Ok a /\ tone_of s d = Ok b /\
  apart true b a /\ (B2R a < 50 \/ 60 <= B2R b).
Proof.
  intros I. destruct (fixed_pair s PD f d I) as (a & b & Ea & Eb & A & _).
  exists a, b. split; [exact Ea|]. split; [exact Eb|]. split; [exact A|].
  destruct (surface_range s) as (bg & Ebg & Tbg & Rbg).
  assert (G : forall ca cb pa pb x y x' y' cv,
    rc_tone ca s = Ok (if is_monochrome s then dec x' else dec x) -> rc_tone cb s = Ok (if is_monochrome s then dec y' else dec y) ->
    (initial_tones true y x /\ initial_tones false x y) -> (initial_tones true y' x' /\ initial_tones false x' y') ->
    rc_contrast_curve ca = Some cv -> rc_contrast_curve cb = Some cv -> curve_in 1 21 cv -> rc_name ca <> rc_name cb ->
    let pr := {| dp_role_a := ca; dp_role_b := cb; dp_delta := dec "10.0"; dp_polarity := Lighter; dp_stay_together := true |} in
    get_tone (DC ca pa true (Some highest_surface) None (Some (fun _ => pr))) s = Ok a ->
    get_tone (DC cb pb true (Some highest_surface) None (Some (fun _ => pr))) s = Ok b ->
    B2R a < 50 \/ 60 <= B2R b).
  { intros ca cb pa pb x y x' y' cv Ta Tb I1 I2 Ca Cb K NE pr ha hb.
    rewrite (get_pair _ _ _ _ _ _ _ _ Ebg) in ha. rewrite (get_pair _ _ _ _ _ _ _ _ Ebg) in hb.
    assert (P : exists n f, initial_tones (ds_is_dark s) n f /\
      rc_tone (if ds_is_dark s then cb else ca) s = Ok (dec n) /\ rc_tone (if ds_is_dark s then ca else cb) s = Ok (dec f)).
    { destruct (is_monochrome s), (ds_is_dark s);
        [exists y', x'|exists x', y'|exists y, x|exists x, y]; (split; [apply I1 || apply I2|split; assumption]). }
    destruct P as (n & f0 & P1 & P2 & P3).
    destruct (pair_side s pr bg n f0 cv Tbg Rbg eq_refl eq_refl eq_refl P1 P2 P3 Ca Cb K) as (u & v & OS & E).
    rewrite E in ha, hb. cbn [dp_role_a dp_role_b pr] in ha, hb.
    assert (X : String.eqb (rc_name cb) (rc_name ca) = false) by (apply String.eqb_neq; congruence).
    assert (X' : String.eqb (rc_name ca) (rc_name cb) = false) by (apply String.eqb_neq; congruence).
    unfold one_side in OS.
    destruct (ds_is_dark s); rewrite ?String.eqb_refl, ?X, ?X' in ha; rewrite ?String.eqb_refl, ?X, ?X' in hb; apply ok_inj in ha, hb; subst; (destruct OS as [OS|OS]; [left|right]; apply OS). }
  assert (In9 : initial_tones true "80.0" "90.0" /\ initial_tones false "90.0" "80.0") by (split; left; reflexivity).
  assert (In4 : initial_tones true "30.0" "40.0" /\ initial_tones false "40.0" "30.0") by (split; right; left; reflexivity).
  assert (In8 : initial_tones true "70.0" "80.0" /\ initial_tones false "80.0" "70.0") by (split; right; right; left; reflexivity).
  destruct I as [E|[E|[E|[]]]]; apply pair_equal_spec in E; destruct E as [<- <-].
  - eapply (G primary_fixed_core primary_fixed_dim_core ds_primary_palette ds_primary_palette "90.0" "80.0" "40.0" "30.0");
      [reflexivity|reflexivity|exact In9|exact In4|reflexivity|reflexivity|curve_lit|discriminate|exact Ea|exact Eb].
  - eapply (G secondary_fixed_core secondary_fixed_dim_core ds_secondary_palette ds_secondary_palette "90.0" "80.0" "80.0" "70.0");
      [reflexivity|reflexivity|exact In9|exact In8|reflexivity|reflexivity|curve_lit|discriminate|exact Ea|exact Eb].
  - eapply (G tertiary_fixed_core tertiary_fixed_dim_core ds_tertiary_palette ds_tertiary_palette "90.0" "80.0" "40.0" "30.0");
      [reflexivity|reflexivity|exact In9|exact In4|reflexivity|reflexivity|curve_lit|discriminate|exact Ea|exact Eb].
Qed.
End Accurate.
