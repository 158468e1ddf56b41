(** * The integer enclosures of HueGrid.v are enclosures.  Proof file. *)
From Coq Require Import ZArith List Bool Reals Lra Lia Psatz.
From Verif Require Import PfNear PfVc PfRel PfCamC PfHueReal HueGrid.
Import ListNotations.
Open Scope R_scope.

Lemma shiftr_le a n : (0 <= n)%Z -> IZR (Z.shiftr a n) * IZR (2 ^ n) <= IZR a < (IZR (Z.shiftr a n) + 1) * IZR (2 ^ n).
Proof.
  intros h. rewrite Z.shiftr_div_pow2 by exact h. assert (P : (0 < 2 ^ n)%Z) by (apply Z.pow_pos_nonneg; lia).
  pose proof (Z.div_mod a (2 ^ n) ltac:(lia)) as E. pose proof (Z.mod_pos_bound a (2 ^ n) P) as M. set (q := (a / 2 ^ n)%Z) in *. set (w := (2 ^ n)%Z) in *. clearbody q w.
  rewrite <- plus_IZR, <- !mult_IZR. split; [apply IZR_le|apply IZR_lt]; lia.
Qed.
Lemma div_bounds a b : (0 < b)%Z -> IZR (a / b) * IZR b <= IZR a < (IZR (a / b) + 1) * IZR b.
Proof.
  intros P. pose proof (Z.div_mod a b ltac:(lia)) as E. pose proof (Z.mod_pos_bound a b P) as M. set (q := (a / b)%Z) in *. clearbody q.
  rewrite <- plus_IZR, <- !mult_IZR. split; [apply IZR_le|apply IZR_lt]; lia.
Qed.
Lemma shiftl_R a n : (0 <= n)%Z -> IZR (Z.shiftl a n) = IZR a * IZR (2 ^ n).
Proof. intros h. rewrite Z.shiftl_mul_pow2 by exact h. apply mult_IZR. Qed.

Definition W : R := IZR (2 ^ 64).
Lemma W_pos : 0 < W. Proof. unfold W. apply IZR_lt. reflexivity. Qed.

Lemma mlo_ok a b A B : 0 <= IZR a <= A * W -> 0 <= IZR b <= B * W -> 0 <= IZR (mlo a b) <= A * B * W.
Proof.
  intros ha hb. assert (P := W_pos). destruct (shiftr_le (a * b) 64 ltac:(lia)) as [L _]. unfold mlo.
  assert (N : (0 <= a)%Z) by (apply le_IZR; lra). assert (N' : (0 <= b)%Z) by (apply le_IZR; lra).
  split; [apply IZR_le, Z.shiftr_nonneg; lia|]. rewrite mult_IZR in L. fold W in L. set (q := IZR (Z.shiftr (a * b) 64)) in *. clearbody q.
  assert (IZR a * IZR b <= (A * W) * (B * W)) by (apply Rmult_le_compat; lra).
  apply Rmult_le_reg_r with W; [exact P|]. apply Rle_trans with (1 := L). apply Rle_trans with (1 := H). right. ring.
Qed.
Lemma mhi_ok a b A B : 0 <= A -> 0 <= B -> A * W <= IZR a -> B * W <= IZR b -> A * B * W <= IZR (mhi a b).
Proof.
  intros hA hB ha hb. assert (P := W_pos). destruct (shiftr_le (a * b) 64 ltac:(lia)) as [_ L]. unfold mhi. rewrite plus_IZR. rewrite mult_IZR in L. fold W in L.
  set (q := IZR (Z.shiftr (a * b) 64)) in *. clearbody q.
  assert ((A * W) * (B * W) <= IZR a * IZR b) by (apply Rmult_le_compat; try lra; apply Rmult_le_pos; lra).
  apply Rmult_le_reg_r with W; [exact P|]. apply Rle_trans with (A * W * (B * W)); [right; ring|]. lra.
Qed.

Lemma powers_lo t T : 0 <= IZR t <= T * W -> let (a, x) := powers mlo t in 0 <= IZR a <= T ^ 21 * W /\ 0 <= IZR x <= T ^ 50 * W.
Proof.
  intros h. unfold powers. pose proof (mlo_ok _ _ _ _ h h) as t2. pose proof (mlo_ok _ _ _ _ t2 t2) as t4. pose proof (mlo_ok _ _ _ _ t4 h) as t5.
  pose proof (mlo_ok _ _ _ _ t5 t5) as t10. pose proof (mlo_ok _ _ _ _ t10 t10) as t20. pose proof (mlo_ok _ _ _ _ t20 h) as t21. pose proof (mlo_ok _ _ _ _ t20 t5) as t25.
  pose proof (mlo_ok _ _ _ _ t25 t25) as t50. split; (split; [lra|]).
  - apply Rle_trans with (1 := proj2 t21). right. ring.
  - apply Rle_trans with (1 := proj2 t50). right. ring.
Qed.
Lemma powers_hi t T : 0 <= T -> T * W <= IZR t -> let (a, x) := powers mhi t in T ^ 21 * W <= IZR a /\ T ^ 50 * W <= IZR x.
Proof.
  intros p h. assert (M : forall a b A B, 0 <= A /\ A * W <= IZR a -> 0 <= B /\ B * W <= IZR b -> 0 <= A * B /\ A * B * W <= IZR (mhi a b)).
  { intros a b A B [] []. split; [apply Rmult_le_pos; assumption|]. apply mhi_ok; assumption. }
  assert (H : 0 <= T /\ T * W <= IZR t) by (split; assumption). unfold powers.
  pose proof (M _ _ _ _ H H) as t2. pose proof (M _ _ _ _ t2 t2) as t4. pose proof (M _ _ _ _ t4 H) as t5.
  pose proof (M _ _ _ _ t5 t5) as t10. pose proof (M _ _ _ _ t10 t10) as t20. pose proof (M _ _ _ _ t20 H) as t21. pose proof (M _ _ _ _ t20 t5) as t25.
  pose proof (M _ _ _ _ t25 t25) as t50. split.
  - apply Rle_trans with (2 := proj2 t21). right. ring.
  - apply Rle_trans with (2 := proj2 t50). right. ring.
Qed.

Lemma hyp_mono a b : 0 <= a -> a <= b -> hyp a <= hyp b.
Proof.
  intros h0 h. unfold hyp. apply Rmult_le_reg_r with ((a + 27.13) * (b + 27.13)); [apply Rmult_lt_0_compat; lra|].
  assert (K : 0 < 27.13) by lra. set (k := 27.13) in *. clearbody k.
  replace (400 * a / (a + k) * ((a + k) * (b + k))) with (400 * a * (b + k)) by (field; lra). replace (400 * b / (b + k) * ((a + k) * (b + k))) with (400 * b * (a + k)) by (field; lra). nra.
Qed.

(** The response at an integer scaled by 2^64. *)
Lemma quot_lo a A : 0 <= IZR a <= A * W -> IZR (Z.shiftl (40000 * a) 40 / (100 * a + Z.shiftl 2713 64)) <= IZR (2 ^ 40) * hyp A.
Proof.
  intros h. assert (P := W_pos). assert (N : (0 <= a)%Z) by (apply le_IZR; lra).
  destruct (div_bounds (Z.shiftl (40000 * a) 40) (100 * a + Z.shiftl 2713 64)) as [L _]; [rewrite Z.shiftl_mul_pow2 by lia; lia|].
  rewrite plus_IZR, mult_IZR, !shiftl_R, mult_IZR in L by lia. fold W in L. set (q := IZR (_ / _)) in *. clearbody q. set (x := IZR a) in *. clearbody x.
  assert (M : hyp (x / W) <= hyp A). { apply hyp_mono; [apply Rmult_le_pos; [lra|left; apply Rinv_0_lt_compat; exact P]|]. apply div_le; lra. }
  assert (E : hyp (x / W) = 40000 * x / (100 * x + 2713 * W)).
  { unfold hyp. replace 27.13 with (2713 / 100) by lra. field; repeat split; lra. }
  rewrite E in M. set (c := IZR (2 ^ 40)) in *. assert (C : 0 < c) by (apply IZR_lt; reflexivity). clearbody c.
  apply Rle_trans with (c * (40000 * x / (100 * x + 2713 * W))); [|apply Rmult_le_compat_l; lra].
  assert (D : 0 < 100 * x + 2713 * W) by lra. apply Rmult_le_reg_r with (100 * x + 2713 * W); [exact D|].
  apply Rle_trans with (1 := L). right. field. lra.
Qed.
Lemma quot_hi a A : 0 <= A -> A * W <= IZR a -> IZR (2 ^ 40) * hyp A <= IZR (Z.shiftl (40000 * a) 40 / (100 * a + Z.shiftl 2713 64) + 1).
Proof.
  intros hA h. assert (P := W_pos). assert (X : 0 <= A * W) by (apply Rmult_le_pos; lra). assert (N : (0 <= a)%Z) by (apply le_IZR; lra).
  destruct (div_bounds (Z.shiftl (40000 * a) 40) (100 * a + Z.shiftl 2713 64)) as [_ L]; [rewrite Z.shiftl_mul_pow2 by lia; lia|].
  rewrite plus_IZR. rewrite plus_IZR, mult_IZR, !shiftl_R, mult_IZR in L by lia. fold W in L. set (q := IZR (_ / _)) in *. clearbody q. set (x := IZR a) in *. clearbody x.
  assert (M : hyp A <= hyp (x / W)). { apply hyp_mono; [exact hA|]. apply le_div; lra. }
  assert (E : hyp (x / W) = 40000 * x / (100 * x + 2713 * W)).
  { unfold hyp. replace 27.13 with (2713 / 100) by lra. field; repeat split; lra. }
  rewrite E in M. set (c := IZR (2 ^ 40)) in *. assert (C : 0 < c) by (apply IZR_lt; reflexivity). clearbody c.
  apply Rle_trans with (c * (40000 * x / (100 * x + 2713 * W))); [apply Rmult_le_compat_l; lra|].
  assert (D : 0 < 100 * x + 2713 * W) by lra. apply Rmult_le_reg_r with (100 * x + 2713 * W); [exact D|]. left.
  apply Rle_lt_trans with (2 := L). right. field. lra.
Qed.

Definition grid_sound (g : grid) : Prop := exists y, 0 < y /\ IZR (2 ^ 50) * y <= IZR (gx g) /\
  IZR (gf g) <= IZR (2 ^ 50) * y /\ IZR (gv g) <= IZR (2 ^ 40) * F y /\ IZR (2 ^ 40) * F y <= IZR (gu g) /\ ((0 < gf g)%Z -> IZR (2 ^ 24) * m y <= IZR (gs g)).

Lemma grid_at_sound e n : (0 <= e <= 64)%Z -> (0 < n)%Z -> grid_sound (grid_at e n).
Proof.
  intros he hn. unfold grid_at. set (t := Z.shiftl n (64 - e)). cbv zeta. set (T := IZR n / IZR (2 ^ e)).
  assert (PE : 0 < IZR (2 ^ e)) by (apply IZR_lt, Z.pow_pos_nonneg; lia). assert (PW := W_pos).
  assert (PT : 0 < T) by (apply Rdiv_lt_0_compat; [apply IZR_lt; exact hn|exact PE]).
  assert (ET : IZR t = T * W).
  { unfold t, T, W. rewrite shiftl_R by lia. replace 64%Z with (e + (64 - e))%Z at 2 by lia. rewrite Z.pow_add_r, mult_IZR by lia. field. lra. }
  assert (NT : 0 <= IZR t) by (rewrite ET; apply Rmult_le_pos; lra). clearbody t T.
  pose proof (powers_lo t T ltac:(lra)) as HL. pose proof (powers_hi t T ltac:(lra) ltac:(lra)) as HH.
  destruct (powers mlo t) as [al xl]. destruct (powers mhi t) as [ah xh]. destruct HL as [La Lx]. destruct HH as [Ha Hx].
  assert (PA : 0 < T ^ 21) by (apply pow_lt; exact PT). assert (PY : 0 < T ^ 50) by (apply pow_lt; exact PT).
  assert (EF : F (T ^ 50) = hyp (T ^ 21)) by (unfold F; rewrite pc_grid by exact PT; reflexivity).
  assert (EM : m (T ^ 50) = 4557.84 * (T ^ 21 / (T ^ 50 * ((T ^ 21 + 27.13) * (T ^ 21 + 27.13))))) by (unfold m; rewrite pc_grid by exact PT; reflexivity).
  exists (T ^ 50). rewrite EF, EM. cbn [gx gf gv gu gs]. set (A := T ^ 21) in *. set (Y := T ^ 50) in *. clearbody A Y. clear EF EM.
  split; [exact PY|]. assert (E14 : W = IZR (2 ^ 50) * IZR (2 ^ 14)) by (unfold W; rewrite <- mult_IZR; reflexivity).
  split; [|split; [|split; [|split]]].
  - destruct (shiftr_le xh 14 ltac:(lia)) as [_ L]. rewrite plus_IZR. set (q := IZR (Z.shiftr xh 14)) in *. clearbody q.
    assert (C : 0 < IZR (2 ^ 14)) by (apply IZR_lt; reflexivity). set (c := IZR (2 ^ 14)) in *. set (d := IZR (2 ^ 50)) in *. clearbody c d.
    apply Rmult_le_reg_r with c; [exact C|]. rewrite E14 in Hx. lra.
  - destruct (shiftr_le xl 14 ltac:(lia)) as [L _]. set (q := IZR (Z.shiftr xl 14)) in *. clearbody q.
    assert (C : 0 < IZR (2 ^ 14)) by (apply IZR_lt; reflexivity). set (c := IZR (2 ^ 14)) in *. set (d := IZR (2 ^ 50)) in *. clearbody c d.
    apply Rmult_le_reg_r with c; [exact C|]. rewrite E14 in Lx. lra.
  - apply quot_lo. lra.
  - apply quot_hi; lra.
  - intros hf. assert (NA : (0 <= al)%Z) by (apply le_IZR; lra). assert (NX : (0 <= xl)%Z) by (apply le_IZR; lra).
    assert (PX : (0 < xl)%Z). { destruct (Z.eq_dec xl 0) as [->|]; [rewrite Z.shiftr_0_l in hf; lia|lia]. }
    assert (D1 : (0 < 100 * al + Z.shiftl 2713 64)%Z) by (rewrite Z.shiftl_mul_pow2 by lia; lia).
    destruct (div_bounds (Z.shiftl (45578400 * ah) 152) (xl * ((100 * al + Z.shiftl 2713 64) * (100 * al + Z.shiftl 2713 64)))) as [_ L]; [apply Z.mul_pos_pos; [lia|apply Z.mul_pos_pos; lia]|].
    rewrite plus_IZR. rewrite !mult_IZR, plus_IZR, mult_IZR, !shiftl_R, mult_IZR in L by lia. fold W in L. set (q := IZR (_ / _)) in *. clearbody q.
    assert (PX' : 0 < IZR xl) by (apply IZR_lt; exact PX). set (x := IZR xl) in *. set (a := IZR al) in *. set (a' := IZR ah) in *. clearbody x a a'. clear - L La Lx Ha PX' PA PY PW.
    replace (IZR (2 ^ 152)) with (W * W * IZR (2 ^ 24)) in L by (unfold W; rewrite <- !mult_IZR; reflexivity). set (c := IZR (2 ^ 24)) in *. assert (C : 0 < c) by (apply IZR_lt; reflexivity). clearbody c. set (w := W) in *. clearbody w.
    set (D := 100 * a + 2713 * w) in *. assert (PD : 0 < D) by (unfold D; lra).
    assert (PDD : 0 < x * (D * D)) by (apply Rmult_lt_0_compat; [exact PX'|apply Rmult_lt_0_compat; exact PD]).
    assert (U : A / (Y * ((A + 27.13) * (A + 27.13))) <= 10000 * a' * (w * w) / (x * (D * D))).
    { assert (K1 : a / w <= A) by (apply div_le; lra). assert (K2 : x / w <= Y) by (apply div_le; lra). assert (K3 : A <= a' / w) by (apply le_div; lra).
      assert (Px : 0 < x / w) by (apply Rdiv_lt_0_compat; assumption). assert (Pa : 0 <= a / w) by (apply Rmult_le_pos; [lra|left; apply Rinv_0_lt_compat; exact PW]).
      apply Rle_trans with ((a' / w) / ((x / w) * ((a / w + 27.13) * (a / w + 27.13)))).
      - unfold Rdiv at 1 4. apply Rmult_le_compat; [lra| |lra|].
        + left. apply Rinv_0_lt_compat. apply Rmult_lt_0_compat; [exact PY|apply Rmult_lt_0_compat; lra].
        + apply Rinv_le_contravar; [apply Rmult_lt_0_compat; [exact Px|apply Rmult_lt_0_compat; lra]|]. apply Rmult_le_compat; try lra; [apply Rmult_le_pos; lra|]. apply Rmult_le_compat; lra.
      - right. replace (a / w + 27.13) with (D / (100 * w)) by (replace 27.13 with (2713 / 100) by lra; unfold D; field; lra). clearbody D. field; repeat split; lra. }
    apply Rle_trans with (c * (4557.84 * (10000 * a' * (w * w) / (x * (D * D))))); [apply Rmult_le_compat_l; [lra|]; apply Rmult_le_compat_l; lra|].
    apply Rmult_le_reg_r with (x * (D * D)); [exact PDD|]. left. apply Rle_lt_trans with (2 := L). right. clearbody D. replace 4557.84 with (455784 / 100) by lra. field; repeat split; lra.
Qed.

(** ** Leaves *)
Definition leaf_sound (l : leaf) : Prop :=
  (forall x X, 0 < X -> IZR x <= IZR (2 ^ 50) * X -> IZR (leaf_lo l x) <= IZR (2 ^ 40) * F X) /\
  (forall x X, 0 < X -> IZR (2 ^ 50) * X <= IZR x -> IZR (2 ^ 40) * F X <= IZR (leaf_hi l x)).

Lemma F_400 x : F x <= 400.
Proof. unfold F, hyp. assert (P := pc_pos x). apply div_le; lra. Qed.

Lemma no_leaf_sound : leaf_sound no_leaf.
Proof.
  split; intros x X hX h.
  - unfold leaf_lo, no_leaf. cbn [lx lx2]. replace ((1 <=? x)%Z && (x <=? 0)%Z)%bool with false by (symmetry; apply andb_false_iff; destruct (Z.leb_spec 1 x); [right; apply Z.leb_gt; lia|left; reflexivity]).
    apply Rmult_le_pos; [apply IZR_le; lia|apply F_nonneg].
  - unfold leaf_hi, no_leaf. cbn [lu lt lf]. rewrite Z.mul_0_l, Z.shiftr_0_l, !plus_IZR, shiftl_R by lia.
    assert (F X <= 400) by apply F_400. set (c := IZR (2 ^ 40)). assert (C : 0 < c) by (apply IZR_lt; reflexivity). clearbody c.
    assert (c * F X <= c * 400) by (apply Rmult_le_compat_l; lra). lra.
Qed.

Lemma leaf_of_sound n a b c : grid_sound a -> grid_sound b -> grid_sound c -> leaf_sound (leaf_of n a b c).
Proof.
  intros (ya & pa & A1 & _ & A3 & _) (yb & pb & B1 & _ & B3 & _) (yc & pc' & _ & C2 & _ & C4 & C5). unfold leaf_of. destruct (Z.ltb_spec 0 (gf c)) as [hc|hc]; [|apply no_leaf_sound].
  specialize (C5 hc). set (k50 := IZR (2 ^ 50)) in *. set (k40 := IZR (2 ^ 40)) in *.
  assert (P50 : 0 < k50) by (apply IZR_lt; reflexivity). assert (P40 : 0 < k40) by (apply IZR_lt; reflexivity).
  assert (E34 : IZR (2 ^ 34) * k40 = IZR (2 ^ 24) * k50) by (unfold k40, k50; rewrite <- !mult_IZR; reflexivity).
  assert (P34 : 0 < IZR (2 ^ 34)) by (apply IZR_lt; reflexivity). assert (P24 : 0 < IZR (2 ^ 24)) by (apply IZR_lt; reflexivity).
  split; intros x X hX hx; fold k40; fold k50 in hx.
  - unfold leaf_lo. cbn [lx lx2 lv ls]. destruct ((gx a <=? x)%Z && (x <=? gx b)%Z)%bool eqn:E.
    2:{ apply Rmult_le_pos; [lra|apply F_nonneg]. }
    apply andb_prop in E. destruct E as [e1 e2]. apply Z.leb_le in e1, e2.
    assert (V1 : IZR (gv a) / k40 <= F (IZR (gx a) / k50)).
    { apply div_le; [exact P40|]. rewrite Rmult_comm. apply Rle_trans with (1 := A3). apply Rmult_le_compat_l; [lra|]. apply F_mono. split; [exact pa|]. apply le_div; [exact P50|lra]. }
    assert (V2 : IZR (gv b) / k40 <= F (IZR (gx b) / k50)).
    { apply div_le; [exact P40|]. rewrite Rmult_comm. apply Rle_trans with (1 := B3). apply Rmult_le_compat_l; [lra|]. apply F_mono. split; [exact pb|]. apply le_div; [exact P50|lra]. }
    assert (Px : 0 < IZR (gx a) / k50) by (apply Rdiv_lt_0_compat; [|exact P50]; apply Rlt_le_trans with (2 := A1); apply Rmult_lt_0_compat; assumption).
    assert (FX : F (IZR x / k50) <= F X).
    { apply F_mono. split; [apply Rdiv_lt_0_compat; [|exact P50]|apply div_le; [exact P50|lra]]. apply Rlt_le_trans with (IZR (gx a)); [|apply IZR_le; exact e1].
      apply Rmult_lt_reg_r with (/ k50); [apply Rinv_0_lt_compat; exact P50|]. rewrite Rmult_0_l. exact Px. }
    apply Rle_trans with (k40 * F (IZR x / k50)); [|apply Rmult_le_compat_l; lra].
    set (s := (Z.shiftl (gv b - gv a) 34 / (gx b - gx a))%Z).
    assert (HS : (gx a < gx b)%Z -> IZR s / IZR (2 ^ 24) * (IZR (gx b) / k50 - IZR (gx a) / k50) <= IZR (gv b) / k40 - IZR (gv a) / k40).
    { intros lt'. destruct (div_bounds (Z.shiftl (gv b - gv a) 34) (gx b - gx a) ltac:(lia)) as [L _]. fold s in L. rewrite shiftl_R, !minus_IZR in L by lia.
      clearbody s. set (S1 := IZR s) in *. set (c24 := IZR (2 ^ 24)) in *. set (c34 := IZR (2 ^ 34)) in *. clearbody S1 c24 c34 k40 k50.
      replace (S1 / c24 * (IZR (gx b) / k50 - IZR (gx a) / k50)) with (S1 * (IZR (gx b) - IZR (gx a)) / (c24 * k50)) by (field; lra).
      replace (IZR (gv b) / k40 - IZR (gv a) / k40) with ((IZR (gv b) - IZR (gv a)) * c34 / (c34 * k40)) by (field; lra). rewrite <- E34.
      unfold Rdiv. apply Rmult_le_compat_r; [|exact L]. left. apply Rinv_0_lt_compat. apply Rmult_lt_0_compat; assumption. }
    destruct (shiftr_le (s * (x - gx a)) 34 ltac:(lia)) as [L _]. rewrite mult_IZR, minus_IZR in L. rewrite plus_IZR. set (q := IZR (Z.shiftr _ 34)) in *. clearbody q.
    assert (Bx : IZR (gx a) / k50 <= IZR x / k50 <= IZR (gx b) / k50) by (split; apply Rmult_le_compat_r; try (left; apply Rinv_0_lt_compat; exact P50); apply IZR_le; assumption).
    destruct (Z.eq_dec (gx a) (gx b)) as [eq|ne].
    + assert (x = gx a) by lia. subst x. rewrite Rminus_diag_eq in L by reflexivity. rewrite Rmult_0_r in L.
      assert (q <= 0) by (apply Rmult_le_reg_r with (IZR (2 ^ 34)); lra).
      apply Rle_trans with (k40 * (IZR (gv a) / k40)); [|apply Rmult_le_compat_l; lra]. replace (k40 * (IZR (gv a) / k40)) with (IZR (gv a)) by (field; lra). lra.
    + pose proof (F_chord _ _ _ _ _ (IZR s / IZR (2 ^ 24)) Px Bx V1 V2 (HS ltac:(lia))) as C.
      apply Rle_trans with (k40 * (IZR (gv a) / k40 + IZR s / IZR (2 ^ 24) * (IZR x / k50 - IZR (gx a) / k50))); [|apply Rmult_le_compat_l; lra].
      set (c24 := IZR (2 ^ 24)) in *. set (c34 := IZR (2 ^ 34)) in *. clear C HS V1 V2 FX Bx.
      replace (k40 * (IZR (gv a) / k40 + IZR s / c24 * (IZR x / k50 - IZR (gx a) / k50))) with (IZR (gv a) + IZR s * (IZR x - IZR (gx a)) * k40 / (c24 * k50)) by (field; lra).
      rewrite <- E34. replace (IZR s * (IZR x - IZR (gx a)) * k40 / (c34 * k40)) with (IZR s * (IZR x - IZR (gx a)) / c34) by (field; lra).
      apply Rplus_le_compat_l. apply le_div; [exact P34|lra].
  - unfold leaf_hi. cbn [lf lu lt]. destruct (shiftr_le (gs c * Z.max 0 (x - gf c)) 34 ltac:(lia)) as [_ L]. rewrite mult_IZR in L. rewrite !plus_IZR. set (q := IZR (Z.shiftr _ 34)) in *. clearbody q.
    assert (MP := m_pos yc pc').
    assert (S0 : 0 <= IZR (gs c)) by (apply Rle_trans with (2 := C5); apply Rmult_le_pos; lra).
    assert (M0 : 0 <= IZR (Z.max 0 (x - gf c))) by (apply IZR_le; lia).
    assert (M1 : IZR x - IZR (gf c) <= IZR (Z.max 0 (x - gf c))) by (rewrite <- minus_IZR; apply IZR_le; lia). set (z := IZR (Z.max 0 _)) in *. clearbody z.
    assert (Q0 : -1 < q). { assert (0 <= IZR (gs c) * z) by (apply Rmult_le_pos; assumption). apply Rnot_le_lt. intros g. assert ((q + 1) * IZR (2 ^ 34) <= 0 * IZR (2 ^ 34)) by (apply Rmult_le_compat_r; lra). lra. }
    destruct (Rle_or_lt X yc) as [le|gt].
    + assert (F X <= F yc) by (apply F_mono; lra). assert (k40 * F X <= k40 * F yc) by (apply Rmult_le_compat_l; lra). lra.
    + pose proof (F_tangent X yc hX pc') as T. assert (T' : k40 * F X <= k40 * F yc + k40 * (m yc * (X - yc))) by (rewrite <- Rmult_plus_distr_l; apply Rmult_le_compat_l; lra).
      assert (K : k40 * (m yc * (X - yc)) <= IZR (gs c) * z / IZR (2 ^ 34)).
      { apply le_div; [exact P34|]. apply Rle_trans with ((IZR (2 ^ 24) * m yc) * (k50 * (X - yc))).
        - right. replace (k40 * (m yc * (X - yc)) * IZR (2 ^ 34)) with ((IZR (2 ^ 34) * k40) * (m yc * (X - yc))) by ring. rewrite E34. ring.
        - apply Rmult_le_compat; [apply Rmult_le_pos; lra|apply Rmult_le_pos; lra|exact C5|]. rewrite Rmult_minus_distr_l. lra. }
      assert (IZR (gs c) * z / IZR (2 ^ 34) < q + 1).
      { apply Rmult_lt_reg_r with (IZR (2 ^ 34)); [exact P34|]. unfold Rdiv. rewrite Rmult_assoc, Rinv_l by lra. lra. }
      lra.
Qed.

(** ** The tree *)
Fixpoint tree_sound (t : tree) : Prop := match t with Lf l => leaf_sound l | Nd _ a b => tree_sound a /\ tree_sound b end.
Lemma find_sound t x : tree_sound t -> leaf_sound (find t x).
Proof. induction t as [l|k a IHa b IHb]; cbn [find tree_sound]; [tauto|]. intros [ha hb]. destruct (x <? k)%Z; auto. Qed.

Lemma chain_sound k : forall prev n, (0 < n)%Z -> grid_sound prev -> Forall leaf_sound (chain prev n k).
Proof.
  induction k as [|k IH]; intros prev n hn hp; cbn [chain]; [constructor|]. cbv zeta. assert (G := grid_at_sound 13 (n + 1) ltac:(lia) ltac:(lia)).
  set (g := grid_at 13 (n + 1)) in *. clearbody g. constructor; [now apply leaf_of_sound|]. apply IH; [lia|exact G].
Qed.
Lemma build_sound d : forall ls, Forall leaf_sound ls -> let '(k, t, r) := build d ls in tree_sound t /\ Forall leaf_sound r.
Proof.
  induction d as [|d IH]; intros ls h; cbn [build].
  - destruct h as [|l r hl hr]; cbn [tree_sound]; [split; [apply no_leaf_sound|constructor]|split; assumption].
  - specialize (IH ls h) as H1. destruct (build d ls) as [[k1 a] ls1]. destruct H1 as [ha h1]. specialize (IH ls1 h1) as H2. destruct (build d ls1) as [[k2 b] ls2]. destruct H2 as [hb h2].
    cbn [tree_sound]. auto.
Qed.
Lemma the_tree_sound : tree_sound the_tree.
Proof.
  unfold the_tree. assert (G : grid_sound (grid_at 13 6140)) by (apply grid_at_sound; lia). generalize (Z.to_nat 2048). intros k. set (g := grid_at 13 6140) in *. clearbody g.
  assert (P : (0 < 6140)%Z) by lia. pose proof (build_sound 11 _ (chain_sound k g 6140 P G)) as H.
  destruct (build 11 _) as [[k' t] r]. exact (proj1 H).
Qed.

Lemma fine_sound l x : leaf_sound (fine l x).
Proof.
  unfold fine. cbv zeta. set (n := (128 * ln l + _)%Z). clearbody n. destruct (Z.ltb_spec 1 n) as [h|h]; [|apply no_leaf_sound].
  apply leaf_of_sound; apply grid_at_sound; lia.
Qed.

(** ** Comparisons *)
Definition d0 : R := IZR margin / IZR (2 ^ 40).

Lemma larger_sound t x1 x2 x3 X1 X2 X3 : tree_sound t -> 0 < X1 -> 0 < X2 -> 0 < X3 ->
  IZR x1 <= IZR (2 ^ 50) * X1 -> IZR x2 <= IZR (2 ^ 50) * X2 -> IZR (2 ^ 50) * X3 <= IZR (HueGrid.up x3) ->
  larger t x1 x2 x3 = true -> d0 <= F X1 + F X2 - 2 * F X3.
Proof.
  intros ht p1 p2 p3 h1 h2 h3 H. unfold larger in H. cbv zeta in H. set (u := HueGrid.up x3) in *. clearbody u.
  assert (K : forall l1 l2 l3, leaf_sound l1 -> leaf_sound l2 -> leaf_sound l3 -> (2 * leaf_hi l3 u + margin <=? leaf_lo l1 x1 + leaf_lo l2 x2)%Z = true -> d0 <= F X1 + F X2 - 2 * F X3).
  { clear H. intros l1 l2 l3 [s1 _] [s2 _] [_ s3] H. apply Z.leb_le, IZR_le in H. rewrite !plus_IZR, mult_IZR in H.
    specialize (s1 x1 X1 p1 h1). specialize (s2 x2 X2 p2 h2). specialize (s3 u X3 p3 h3). unfold d0.
    assert (P40 : 0 < IZR (2 ^ 40)) by (apply IZR_lt; reflexivity). set (k := IZR (2 ^ 40)) in *. set (mm := IZR margin) in *. clearbody k mm. apply div_le; [exact P40|]. lra. }
  destruct (_ <=? _)%Z eqn:E in H; [exact (K _ _ _ (find_sound _ _ ht) (find_sound _ _ ht) (find_sound _ _ ht) E)|].
  exact (K _ _ _ (fine_sound _ _) (fine_sound _ _) (fine_sound _ _) H).
Qed.
Lemma smaller_sound t x1 x2 x3 X1 X2 X3 : tree_sound t -> 0 < X1 -> 0 < X2 -> 0 < X3 ->
  IZR (2 ^ 50) * X1 <= IZR (HueGrid.up x1) -> IZR (2 ^ 50) * X2 <= IZR (HueGrid.up x2) -> IZR x3 <= IZR (2 ^ 50) * X3 ->
  smaller t x1 x2 x3 = true -> F X1 + F X2 - 2 * F X3 <= - d0.
Proof.
  intros ht p1 p2 p3 h1 h2 h3 H. unfold smaller in H. cbv zeta in H. set (u1 := HueGrid.up x1) in *. set (u2 := HueGrid.up x2) in *. clearbody u1 u2.
  assert (K : forall l1 l2 l3, leaf_sound l1 -> leaf_sound l2 -> leaf_sound l3 -> (leaf_hi l1 u1 + leaf_hi l2 u2 + margin <=? 2 * leaf_lo l3 x3)%Z = true -> F X1 + F X2 - 2 * F X3 <= - d0).
  { clear H. intros l1 l2 l3 [_ s1] [_ s2] [s3 _] H. apply Z.leb_le, IZR_le in H. rewrite !plus_IZR, mult_IZR in H.
    specialize (s1 u1 X1 p1 h1). specialize (s2 u2 X2 p2 h2). specialize (s3 x3 X3 p3 h3). unfold d0.
    assert (P40 : 0 < IZR (2 ^ 40)) by (apply IZR_lt; reflexivity). set (k := IZR (2 ^ 40)) in *. set (mm := IZR margin) in *. clearbody k mm.
    assert (mm / k <= - (F X1 + F X2 - 2 * F X3)); [|lra]. apply div_le; [exact P40|]. lra. }
  destruct (_ <=? _)%Z eqn:E in H; [exact (K _ _ _ (find_sound _ _ ht) (find_sound _ _ ht) (find_sound _ _ ht) E)|].
  exact (K _ _ _ (fine_sound _ _) (fine_sound _ _) (fine_sound _ _) H).
Qed.
