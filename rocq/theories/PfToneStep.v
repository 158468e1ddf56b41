(** * Two lightnesses of one hue and chroma: the exact relation between their responses.  Proof file. *)
From Coq Require Import Reals Lra Lia Psatz.
From Flocq Require Import Core.
From Verif Require Import PfNear PfToneReal PfToneElast.
Open Scope R_scope.

Definition X1 (p a b : R) := (460 * p + 451 * a + 288 * b) / 1403.
Definition X2 (p a b : R) := (460 * p - 891 * a - 261 * b) / 1403.
Definition X3 (p a b : R) := (460 * p - 220 * a - 6300 * b) / 1403.
Definition den (p1 t C S : R) := 23 * p1 + t * (11 * C + 108 * S).
Definition gam (p p1 t C S : R) := 23 * (p + 0.305) * t / den p1 t C S.

Lemma PP_X p a b : PP (X1 p a b) (X2 p a b) (X3 p a b) = p / 3.05.
Proof. unfold PP, X1, X2, X3. lra. Qed.

(** The responses at (p, t). *)
Definition R1 p p1 t C S := X1 p (gam p p1 t C S * C) (gam p p1 t C S * S).
Definition R2 p p1 t C S := X2 p (gam p p1 t C S * C) (gam p p1 t C S * S).
Definition R3 p p1 t C S := X3 p (gam p p1 t C S * C) (gam p p1 t C S * S).

Lemma PP_R p p1 t C S : PP (R1 p p1 t C S) (R2 p p1 t C S) (R3 p p1 t C S) = p / 3.05.
Proof. apply PP_X. Qed.

Definition kap p1 t C S := 23 * p1 / den p1 t C S.

Lemma kap_range p p1 t C S : 0 < p -> den p1 t C S <> 0 -> cone (R1 p p1 t C S) (R2 p p1 t C S) (R3 p p1 t C S) -> 0.5 <= kap p1 t C S <= 1.595.
Proof.
  intros hp hD Cn. pose proof (PP_R p p1 t C S) as E. unfold PP in E.
  assert (Q : kap p1 t C S * (p + 0.305) = p + 0.305 - (R1 p p1 t C S - R3 p p1 t C S)).
  { unfold kap, R1, R3, X1, X3. set (g := gam p p1 t C S). assert (G : g * den p1 t C S = 23 * (p + 0.305) * t) by (unfold g, gam, Rdiv; rewrite Rmult_assoc, Rinv_l; lra).
    clearbody g. apply Rmult_eq_reg_r with (den p1 t C S); [|exact hD].
    replace (23 * p1 / den p1 t C S * (p + 0.305) * den p1 t C S) with (23 * p1 * (p + 0.305)) by (unfold Rdiv; rewrite (Rmult_comm (23 * p1 * _ * _)), Rmult_assoc, (Rmult_comm _ (p + 0.305)), <- !Rmult_assoc, (Rmult_assoc (_ * (p + _))), Rinv_r || (unfold Rdiv; field; exact hD); lra).
    replace ((p + 0.305 - ((460 * p + 451 * (g * C) + 288 * (g * S)) / 1403 - (460 * p - 220 * (g * C) - 6300 * (g * S)) / 1403)) * den p1 t C S)
      with ((p + 0.305) * den p1 t C S - (11 * C + 108 * S) / 23 * (g * den p1 t C S)) by lra.
    rewrite G. unfold den. lra. }
  destruct Cn as [a b c]. set (k := kap p1 t C S) in *. clearbody k.
  set (x1 := R1 p p1 t C S) in *. set (x2 := R2 p p1 t C S) in *. set (x3 := R3 p p1 t C S) in *. clearbody x1 x2 x3.
  split; apply Rmult_le_reg_r with (p + 0.305); try lra; rewrite Q; lra.
Qed.

Lemma pair p p1 t C S l tau : 0 < p -> 0 < t -> den p1 t C S <> 0 -> cone (R1 p p1 t C S) (R2 p p1 t C S) (R3 p p1 t C S) ->
  0 <= ln l -> 0 < l -> 0 < tau -> - (0.732 * ln l) <= ln tau <= 0 ->
  den p1 (tau * t) C S <> 0 /\
  exists s, 0 <= s <= 1 /\ s <= 2.168 * ln l /\ let P := p / 3.05 in
    R1 (l * p) p1 (tau * t) C S = l * ((1 - s) * R1 p p1 t C S + s * P) /\
    R2 (l * p) p1 (tau * t) C S = l * ((1 - s) * R2 p p1 t C S + s * P) /\
    R3 (l * p) p1 (tau * t) C S = l * ((1 - s) * R3 p p1 t C S + s * P).
Proof.
  intros hp ht hD Cn hL hl htau hT. pose proof (kap_range p p1 t C S hp hD Cn) as K. set (k := kap p1 t C S) in *.
  assert (l1 : 1 <= l) by (rewrite <- (exp_ln l) by exact hl; rewrite <- exp_0; apply exp_le; lra).
  assert (t1 : tau <= 1) by (rewrite <- (exp_ln tau) by exact htau; rewrite <- exp_0; apply exp_le; lra).
  set (D := den p1 t C S) in *. set (r := k + tau * (1 - k)).
  assert (ED : den p1 (tau * t) C S = r * D). { unfold r, k, kap. fold D. unfold D, den in *. field. exact hD. }
  assert (Hr : tau <= r).
  { unfold r. assert (0 <= (1 - tau) * k) by (apply Rmult_le_pos; lra). lra. }
  assert (Hr2 : r <= 1 + (1 - tau) * 0.595).
  { unfold r. assert ((1 - tau) * (k - 1) <= (1 - tau) * 0.595) by (apply Rmult_le_compat_l; lra). lra. }
  assert (ND : den p1 (tau * t) C S <> 0) by (rewrite ED; apply Rmult_integral_contrapositive_currified; [lra|exact hD]).
  split; [exact ND|].
  set (u := (l * p + 0.305) / (l * (p + 0.305))). set (sg := u * (tau / r)).
  assert (lp : p <= l * p) by (rewrite <- (Rmult_1_l p) at 1; apply Rmult_le_compat_r; lra).
  assert (U : / l <= u <= 1).
  { unfold u. split.
    - apply Rmult_le_reg_r with (l * (p + 0.305)); [apply Rmult_lt_0_compat; lra|]. unfold Rdiv. rewrite Rmult_assoc, (Rinv_l (l * _)), Rmult_1_r by (apply Rgt_not_eq, Rmult_lt_0_compat; lra).
      rewrite <- Rmult_assoc, Rinv_l by lra. lra.
    - apply Rmult_le_reg_r with (l * (p + 0.305)); [apply Rmult_lt_0_compat; lra|]. unfold Rdiv. rewrite Rmult_assoc, (Rinv_l (l * _)), Rmult_1_r by (apply Rgt_not_eq, Rmult_lt_0_compat; lra). lra. }
  assert (u0 : 0 < / l) by (apply Rinv_0_lt_compat; exact hl).
  assert (W0 : 0 < tau / r) by (apply Rdiv_lt_0_compat; lra).
  assert (W : tau / r <= 1) by (apply Rmult_le_reg_r with r; [lra|]; unfold Rdiv; rewrite Rmult_assoc, Rinv_l; lra).
  assert (S0 : 0 < sg) by (apply Rmult_lt_0_compat; lra).
  assert (S1 : sg <= 1). { unfold sg. apply Rle_trans with (1 * 1); [apply Rmult_le_compat; lra|lra]. }
  exists (1 - sg). split; [lra|]. split.
  - pose proof (ln_le_sub1 sg S0) as A.
    assert (LS : ln sg = ln u + (ln tau - ln r)) by (unfold sg; rewrite ln_mult by lra; unfold Rdiv; rewrite ln_mult, ln_Rinv by (try apply Rinv_0_lt_compat; lra); ring).
    assert (LU : - ln l <= ln u) by (rewrite <- ln_Rinv by exact hl; apply ln_le'; lra).
    assert (LR : ln r <= (1 - tau) * 0.595) by (pose proof (ln_le_sub1 r ltac:(lra)); lra).
    pose proof (ln_le_sub1 tau htau) as B. pose proof (ln_ge_inv sg S0) as B2.
    (* 1 - sg <= - ln sg *)
    assert (G : 1 - sg <= - ln sg) by lra.
    assert (TT : 1 - tau <= - ln tau) by lra. lra.
  - cbv zeta. assert (EG : gam (l * p) p1 (tau * t) C S = l * (sg * gam p p1 t C S)).
    { unfold gam. rewrite ED. fold D. unfold sg, u. field. repeat split; try lra; try exact hD. }
    unfold R1, R2, R3. rewrite EG. set (g := gam p p1 t C S). clearbody g. unfold X1, X2, X3. repeat split; lra.
Qed.

(** ** Perturbations *)
Definition wc (x y d : R) : Prop := x * (1 - d) <= y <= x * (1 + d).

Lemma vv_wc K q x y : 0 < K -> 2.38 <= q <= 2.381 -> 0 < x <= 37 -> wc x y (1 / 10 ^ 9) -> 0 < y /\ wc (vv K q x) (vv K q y) (4 / 10 ^ 9).
Proof.
  intros hK hq hx [a b]. assert (y0 : 0 < y) by lra. split; [exact y0|].
  rewrite (vv_ratio K q hK x y) by lra. set (w := y / x * ((400 - x) / (400 - y))).
  assert (A : 1 - 1.2 / 10 ^ 9 <= w <= 1 + 1.2 / 10 ^ 9).
  { unfold w. replace (y / x * ((400 - x) / (400 - y))) with (y * (400 - x) * / (x * (400 - y))) by (field; lra).
    assert (P : 0 < x * (400 - y)) by (apply Rmult_lt_0_compat; lra).
    set (e := y - x). assert (he : - (x / 10 ^ 9) <= e <= x / 10 ^ 9) by (unfold e; lra). replace y with (x + e) in * by (unfold e; ring). clearbody e.
    assert (Q : - (x * x / 10 ^ 9) <= x * e <= x * x / 10 ^ 9).
    { split; [replace (- (x * x / 10 ^ 9)) with (x * - (x / 10 ^ 9)) by field|replace (x * x / 10 ^ 9) with (x * (x / 10 ^ 9)) by field]; apply Rmult_le_compat_l; lra. }
    assert (x * x <= 37 * x) by (apply Rmult_le_compat_r; lra).
    split; (apply Rmult_le_reg_r with (x * (400 - (x + e))); [exact P|]); rewrite (Rmult_assoc ((x + e) * _)), Rinv_l by lra; lra. }
  clearbody w. assert (V := vv_pos K q x).
  assert (B : 1 - 4 / 10 ^ 9 <= Rpower w q <= 1 + 4 / 10 ^ 9).
  { split.
    - pose proof (bern_ge w q ltac:(lra) ltac:(lra)) as B. assert (q * (1 - w) <= 2.381 * (1.2 / 10 ^ 9)); [|lra].
      destruct (Rle_or_lt w 1); [apply Rmult_le_compat; lra|]. assert (q * (1 - w) <= 0) by (replace (q * (1 - w)) with (- (q * (w - 1))) by ring; pose proof (Rmult_le_pos q (w - 1)); lra). lra.
    - assert (H : / Rpower w q = Rpower (/ w) q) by (unfold Rpower; rewrite ln_Rinv by lra; rewrite <- exp_Ropp; f_equal; ring).
      assert (wi : 0 < / w) by (apply Rinv_0_lt_compat; lra). assert (WI : 1 - 1.2 / 10 ^ 9 <= / w).
      { apply Rmult_le_reg_r with w; [lra|]. rewrite Rinv_l by lra. assert (0 <= 1.2 / 10 ^ 9 * (1.2 / 10 ^ 9)) by (apply Rmult_le_pos; lra).
        apply Rle_trans with ((1 - 1.2 / 10 ^ 9) * (1 + 1.2 / 10 ^ 9)); [apply Rmult_le_compat_l; lra|lra]. }
      pose proof (bern_ge (/ w) q wi ltac:(lra)) as B. rewrite <- H in B.
      assert (q * (1 - / w) <= 2.381 * (1.2 / 10 ^ 9)).
      { destruct (Rle_or_lt (/ w) 1); [apply Rmult_le_compat; lra|]. assert (q * (1 - / w) <= 0) by (replace (q * (1 - / w)) with (- (q * (/ w - 1))) by ring; pose proof (Rmult_le_pos q (/ w - 1)); lra). lra. }
      assert (P : 0 < Rpower w q) by apply exp_pos. assert (L : 1 - 3 / 10 ^ 9 <= / Rpower w q) by lra.
      apply (Rmult_le_compat_r (Rpower w q)) in L; [|lra]. rewrite Rinv_l in L by lra.
      apply Rmult_le_reg_l with (1 - 3 / 10 ^ 9); [lra|]. lra. }
  split; apply Rmult_le_compat_l; lra.
Qed.

Lemma FF_wc K q x1 x2 x3 y1 y2 y3 : 0 < K -> 2.38 <= q <= 2.381 -> cone x1 x2 x3 -> PP x1 x2 x3 <= 13.4 ->
  wc x1 y1 (1 / 10 ^ 9) -> wc x2 y2 (1 / 10 ^ 9) -> wc x3 y3 (1 / 10 ^ 9) -> wc (FF K q x1 x2 x3) (FF K q y1 y2 y3) (6 / 10 ^ 9).
Proof.
  intros hK hq C hP h1 h2 h3. destruct (cone_bounds _ _ _ _ C hP) as (p1 & p3 & b1 & b2 & b3 & _). pose proof (c_pos _ _ _ C) as p2.
  destruct (rough K q hK hq _ _ _ C hP) as [Ra _].
  destruct (vv_wc K q x1 y1 hK hq ltac:(lra) h1) as [_ V1]. destruct (vv_wc K q x2 y2 hK hq ltac:(lra) h2) as [_ V2]. destruct (vv_wc K q x3 y3 hK hq ltac:(lra) h3) as [_ V3].
  unfold wc, FF, w1, w2, w3 in *. pose proof (vv_pos K q x1). pose proof (vv_pos K q x2). pose proof (vv_pos K q x3). lra.
Qed.

(** The responses hardly move when p and t hardly move. *)
Lemma R_wc p p1 t C S p' t' : 0 < p -> 0 < t -> den p1 t C S <> 0 -> cone (R1 p p1 t C S) (R2 p p1 t C S) (R3 p p1 t C S) -> 0.9 <= C * C + S * S <= 1.1 ->
  wc p p' (1 / 10 ^ 11) -> wc t t' (1 / 10 ^ 11) ->
  wc (R1 p p1 t C S) (R1 p' p1 t' C S) (1 / 10 ^ 9) /\ wc (R2 p p1 t C S) (R2 p' p1 t' C S) (1 / 10 ^ 9) /\ wc (R3 p p1 t C S) (R3 p' p1 t' C S) (1 / 10 ^ 9).
Proof.
  intros hp ht hD Cn hCS hp' ht'. pose proof (kap_range p p1 t C S hp hD Cn) as K.
  set (D := den p1 t C S) in *. set (dt := (t' - t) / t). assert (Et : t' = (1 + dt) * t) by (unfold dt; field; lra).
  assert (Bt : - (1 / 10 ^ 11) <= dt <= 1 / 10 ^ 11).
  { unfold wc in ht'. split; apply Rmult_le_reg_r with t; try exact ht; rewrite Et in ht'; lra. }
  set (k := kap p1 t C S) in *. set (r := 1 + dt * (1 - k)).
  assert (ED : den p1 t' C S = r * D). { rewrite Et. unfold r, k, kap. fold D. unfold D, den in *. field. exact hD. }
  assert (Br : 1 - 1 / 10 ^ 11 <= r <= 1 + 1 / 10 ^ 11).
  { unfold r. assert (- (1 / 10 ^ 11) <= dt * (1 - k) <= 1 / 10 ^ 11); [|lra]. apply Rabs_le_inv. rewrite Rabs_mult. apply Rle_trans with (1 / 10 ^ 11 * 1); [|lra].
    apply Rmult_le_compat; try apply Rabs_pos; apply Rabs_le; lra. }
  set (g := gam p p1 t C S). set (g' := gam p' p1 t' C S).
  set (dp := (p' - p) / p). assert (Ep : p' = (1 + dp) * p) by (unfold dp; field; lra).
  assert (Bp : - (1 / 10 ^ 11) <= dp <= 1 / 10 ^ 11).
  { unfold wc in hp'. split; apply Rmult_le_reg_r with p; try exact hp; rewrite Ep in hp'; lra. }
  set (v := (p' + 0.305) / (p + 0.305)). assert (Bv : 1 - 1 / 10 ^ 11 <= v <= 1 + 1 / 10 ^ 11).
  { unfold v. split; apply Rmult_le_reg_r with (p + 0.305); try lra; unfold Rdiv; rewrite Rmult_assoc, Rinv_l, Rmult_1_r by lra; unfold wc in hp'; lra. }
  set (z := v * (1 + dt) / r). assert (EG : g' = z * g).
  { unfold g', z, v, g, gam. rewrite ED, Et. fold D. field. repeat split; try lra; exact hD. }
  assert (Bz : 1 - 4 / 10 ^ 11 <= z <= 1 + 4 / 10 ^ 11).
  { assert (n1 : 0 <= (v - (1 - 1 / 10 ^ 11)) * (1 + dt)) by (apply Rmult_le_pos; lra). assert (n2 : 0 <= (1 + 1 / 10 ^ 11 - v) * (1 + dt)) by (apply Rmult_le_pos; lra).
    unfold z. split; apply Rmult_le_reg_r with r; try lra; unfold Rdiv; rewrite Rmult_assoc, Rinv_l, Rmult_1_r by lra; lra. }
  (* how large a and b are *)
  destruct Cn as [c0 c1 c2]. unfold R1, R2, R3 in *. fold g in c0, c1, c2 |- *. fold g'. rewrite EG, Ep. set (a := g * C) in *. set (b := g * S) in *.
  replace (z * g * C) with (z * a) by (unfold a; ring). replace (z * g * S) with (z * b) by (unfold b; ring). clearbody a b z dp.
  set (A := Rabs a). set (B := Rabs b).
  assert (HA : A <= 0.8 * p) by (apply Rabs_le; unfold X1, X2, X3 in *; lra).
  assert (HB : B <= 0.5 * p) by (apply Rabs_le; unfold X1, X2, X3 in *; lra).
  assert (Za : - (4 / 10 ^ 11 * (0.8 * p)) <= (z - 1) * a <= 4 / 10 ^ 11 * (0.8 * p)).
  { apply Rabs_le_inv. rewrite Rabs_mult. apply Rmult_le_compat; [apply Rabs_pos|apply Rabs_pos|apply Rabs_le; lra|exact HA]. }
  assert (Zb : - (4 / 10 ^ 11 * (0.5 * p)) <= (z - 1) * b <= 4 / 10 ^ 11 * (0.5 * p)).
  { apply Rabs_le_inv. rewrite Rabs_mult. apply Rmult_le_compat; [apply Rabs_pos|apply Rabs_pos|apply Rabs_le; lra|exact HB]. }
  assert (Zp : - (1 / 10 ^ 11 * p) <= dp * p <= 1 / 10 ^ 11 * p) by (split; [replace (- (1 / 10 ^ 11 * p)) with (- (1 / 10 ^ 11) * p) by ring|]; apply Rmult_le_compat_r; lra).
  unfold wc, X1, X2, X3 in *. repeat split; lra.
Qed.
