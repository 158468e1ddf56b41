(** * Monotonicity of the float operations over all non-NaN floats.  Proof file. *)
From Coq Require Import ZArith Bool Reals Lra Lia Psatz String.
From Flocq Require Import Core Relative IEEE754.BinarySingleNaN.
From Verif Require Import F64 FloatFacts.
Open Scope R_scope.

Notation nn x := (is_nan x = false).

Lemma fdiv_val (x y : f64) : fin x -> fin y -> B2R y <> 0 ->
  val (fdiv x y) = rndx (B2R x / B2R y) /\ is_nan (fdiv x y) = false.
Proof.
  intros hx hy ny. pose proof (Bdiv_correct 53 1024 _ _ mode_NE x y ny) as C.
  change (round radix2 (SpecFloat.fexp 53 1024) (round_mode mode_NE) (B2R x / B2R y))
    with (rnd (B2R x / B2R y)) in C. unfold rndx.
  change (bpow radix2 1024) with BIG in C.
  change (Bdiv mode_NE x y) with (fdiv x y) in *.
  destruct (Rlt_bool_spec (Rabs (rnd (B2R x / B2R y))) BIG) as [h|h].
  - destruct C as (C1 & C2 & _). rewrite hx in C2. rewrite val_fin by assumption.
    split; [assumption|now apply fin_not_nan].
  - apply ovf_ge in h. pose proof (bpow_gt_0 radix2 1023).
    assert (n : B2R x / B2R y <> 0) by (intros q; rewrite q, Rabs_R0 in h; lra).
    assert (nx : B2R x <> 0) by (intros q; apply n; rewrite q; unfold Rdiv; apply Rmult_0_l).
    apply ovf_val in C. rewrite !sign_R in C by assumption.
    destruct C as [C N]. split; [|assumption]. rewrite C.
    assert (S : forall a b : R, b <> 0 -> (a / b < 0 <-> (a < 0 /\ 0 < b) \/ (0 < a /\ b < 0))).
    { intros a b nb. assert (a = a / b * b) as E by (field; assumption). split; intros q.
      - destruct (Rlt_or_le b 0); [right|left]; nra.
      - destruct q as [[q1 q2]|[q1 q2]]; nra. }
    destruct (Rlt_bool_spec (B2R x) 0), (Rlt_bool_spec (B2R y) 0), (Rlt_bool_spec (B2R x / B2R y) 0);
      cbn [xorb]; try reflexivity; exfalso;
      match goal with
      | q : _ / _ < 0 |- _ => apply (proj1 (S _ _ ny)) in q; lra
      | q : 0 <= ?a / ?b |- _ => assert (a / b < 0) by (apply (proj2 (S _ _ ny)); lra); lra
      end.
Qed.

Lemma rndx_B2R (x : f64) : rndx (B2R x) = B2R x.
Proof. unfold rndx. rewrite rnd_B2R, Rlt_bool_true; [reflexivity|apply B2R_lt_BIG]. Qed.
Lemma rndx_BIG r : - BIG <= rndx r <= BIG.
Proof.
  unfold rndx. pose proof BIG_pos. destruct (Rlt_bool_spec (Rabs (rnd r)) BIG) as [h|h].
  - apply Rabs_lt_inv in h. lra.
  - destruct (Rlt_bool r 0); lra.
Qed.

Lemma nonfin_val (x : f64) : nn x -> is_finite x = false -> val x = BIG \/ val x = - BIG.
Proof. destruct x as [|[]| |]; try easy; cbn [val]; auto. Qed.

(** A unary operation given by a monotone real function and fixing the infinities. *)
Section Unary.
Variable f : f64 -> f64.
Variable g : R -> R.
Hypothesis f_fin : forall x, fin x -> val (f x) = rndx (g (B2R x)) /\ nn (f x).
Hypothesis f_inf : forall s, f (B754_infinity s) = B754_infinity s.
Hypothesis g_mono : forall a b, a <= b -> g a <= g b.

Lemma unary_nn x : nn x -> nn (f x).
Proof.
  intros h. destruct (is_finite x) eqn:F; [now apply f_fin|].
  destruct x; try discriminate. rewrite f_inf. reflexivity.
Qed.
Lemma unary_mono x y : nn x -> nn y -> val x <= val y -> val (f x) <= val (f y).
Proof.
  intros hx hy h. pose proof BIG_pos. pose proof (val_BIG (f x)). pose proof (val_BIG (f y)).
  destruct (is_finite x) eqn:Fx, (is_finite y) eqn:Fy.
  - rewrite !val_fin in h by assumption.
    destruct (f_fin x Fx) as [-> _], (f_fin y Fy) as [-> _]. apply rndx_mono, g_mono. assumption.
  - destruct y as [|s| |]; try discriminate. rewrite (f_inf s) in *. destruct s; cbn [val] in *; [|lra].
    rewrite val_fin in h by assumption. pose proof (B2R_BIG x). lra.
  - destruct x as [|s| |]; try discriminate. rewrite (f_inf s) in *. destruct s; cbn [val] in *; [lra|].
    rewrite val_fin in h by assumption. pose proof (B2R_BIG y). lra.
  - destruct x as [|s| |]; try discriminate. destruct y as [|t| |]; try discriminate.
    rewrite !f_inf. assumption.
Qed.
End Unary.

Section Const.
Variable c : f64.
Hypothesis fc : fin c.

Lemma fadd_inf s : fadd (B754_infinity s) c = B754_infinity s.
Proof using fc. destruct c; try discriminate; destruct s; reflexivity. Qed.
Lemma fadd_nn x : nn x -> nn (fadd x c).
Proof using fc. apply (unary_nn (fun x => fadd x c) (fun r => r + B2R c)); [intros; now apply fadd_val|apply fadd_inf]. Qed.
Lemma fadd_mono x y : nn x -> nn y -> val x <= val y -> val (fadd x c) <= val (fadd y c).
Proof using fc.
  apply (unary_mono (fun x => fadd x c) (fun r => r + B2R c)); [intros; now apply fadd_val|apply fadd_inf|intros; lra].
Qed.

Lemma fsub_inf s : fsub (B754_infinity s) c = B754_infinity s.
Proof using fc. destruct c; try discriminate; destruct s; reflexivity. Qed.
Lemma fsub_nn x : nn x -> nn (fsub x c).
Proof using fc. apply (unary_nn (fun x => fsub x c) (fun r => r - B2R c)); [intros; now apply fsub_val|apply fsub_inf]. Qed.
Lemma fsub_mono x y : nn x -> nn y -> val x <= val y -> val (fsub x c) <= val (fsub y c).
Proof using fc.
  apply (unary_mono (fun x => fsub x c) (fun r => r - B2R c)); [intros; now apply fsub_val|apply fsub_inf|intros; lra].
Qed.

Hypothesis pc : 0 < B2R c.
Lemma c_pos : exists m e p, c = B754_finite false m e p.
Proof using fc pc.
  destruct c as [s|s| |s m e p]; try discriminate; [cbn in pc; lra|].
  destruct s; [|eauto]. exfalso. revert pc. cbn. unfold F2R. cbn [Fnum Fexp cond_Zopp].
  pose proof (bpow_gt_0 radix2 e). pose proof (IZR_lt (Z.neg m) 0 ltac:(lia)).
  change (- Z.pos m)%Z with (Z.neg m). nra.
Qed.
Lemma fmul_inf s : fmul (B754_infinity s) c = B754_infinity s.
Proof using fc pc. destruct c_pos as (m & e & p & ->). destruct s; reflexivity. Qed.
Lemma fmul_nn x : nn x -> nn (fmul x c).
Proof using fc pc. apply (unary_nn (fun x => fmul x c) (fun r => r * B2R c)); [intros; now apply fmul_val|apply fmul_inf]. Qed.
Lemma fmul_mono x y : nn x -> nn y -> val x <= val y -> val (fmul x c) <= val (fmul y c).
Proof using fc pc.
  apply (unary_mono (fun x => fmul x c) (fun r => r * B2R c)); [intros; now apply fmul_val|apply fmul_inf|intros; nra].
Qed.
Lemma fmull_inf s : fmul c (B754_infinity s) = B754_infinity s.
Proof using fc pc. destruct c_pos as (m & e & p & ->). destruct s; reflexivity. Qed.
Lemma fmull_nn x : nn x -> nn (fmul c x).
Proof using fc pc. apply (unary_nn (fun x => fmul c x) (fun r => B2R c * r)); [intros; now apply fmul_val|apply fmull_inf]. Qed.
Lemma fmull_mono x y : nn x -> nn y -> val x <= val y -> val (fmul c x) <= val (fmul c y).
Proof using fc pc.
  apply (unary_mono (fun x => fmul c x) (fun r => B2R c * r)); [intros; now apply fmul_val|apply fmull_inf|intros; nra].
Qed.
Lemma fdiv_inf s : fdiv (B754_infinity s) c = B754_infinity s.
Proof using fc pc. destruct c_pos as (m & e & p & ->). destruct s; reflexivity. Qed.
Lemma fdiv_nn x : nn x -> nn (fdiv x c).
Proof using fc pc.
  apply (unary_nn (fun x => fdiv x c) (fun r => r / B2R c)); [intros; apply fdiv_val; try assumption; lra|apply fdiv_inf].
Qed.
Lemma fdiv_mono x y : nn x -> nn y -> val x <= val y -> val (fdiv x c) <= val (fdiv y c).
Proof using fc pc.
  apply (unary_mono (fun x => fdiv x c) (fun r => r / B2R c)); [intros; apply fdiv_val; try assumption; lra|apply fdiv_inf|].
  intros a b h. unfold Rdiv. apply Rmult_le_compat_r; [|assumption]. left. now apply Rinv_0_lt_compat.
Qed.
End Const.

(** Products of non-negative floats. *)
Lemma fmul_pos_val (x y : f64) : nn x -> nn y -> 0 < val x -> 0 < val y ->
  nn (fmul x y) /\ val (fmul x y) = (if is_finite x && is_finite y then rndx (B2R x * B2R y) else BIG).
Proof.
  intros nx ny px py. pose proof BIG_pos.
  destruct (is_finite x) eqn:Fx, (is_finite y) eqn:Fy; cbn [andb].
  - now destruct (fmul_val x y Fx Fy).
  - destruct y as [|[]| |]; try discriminate; [cbn [val] in py; lra|].
    rewrite val_fin in px by assumption. rewrite (fmull_inf x Fx px). easy.
  - destruct x as [|[]| |]; try discriminate; [cbn [val] in px; lra|].
    rewrite val_fin in py by assumption. rewrite (fmul_inf y Fy py). easy.
  - destruct x as [|[]| |]; try discriminate; [cbn [val] in px; lra|].
    destruct y as [|[]| |]; try discriminate; [cbn [val] in py; lra|]. easy.
Qed.

Lemma fmul_pos_mono (x x' y y' : f64) : nn x -> nn x' -> nn y -> nn y' ->
  0 < val x <= val x' -> 0 < val y <= val y' -> val (fmul x y) <= val (fmul x' y').
Proof.
  intros nx nx' ny ny' hx hy.
  destruct (fmul_pos_val x y) as [_ ->]; try assumption; try lra.
  destruct (fmul_pos_val x' y') as [_ ->]; try assumption; try lra.
  pose proof (rndx_BIG (B2R x * B2R y)).
  destruct (is_finite x') eqn:Fx', (is_finite y') eqn:Fy'; cbn [andb];
    try (destruct (is_finite x && is_finite y); lra).
  assert (Fx : fin x).
  { apply (val_fin_iff _ nx). apply (val_fin_iff _ nx') in Fx'. lra. }
  assert (Fy : fin y).
  { apply (val_fin_iff _ ny). apply (val_fin_iff _ ny') in Fy'. lra. }
  rewrite Fx, Fy. cbn [andb]. rewrite !val_fin in * by assumption. apply rndx_mono. nra.
Qed.

Definition mulok (x y : f64) : Prop := (fin x /\ fin y) \/ (0 < val x /\ 0 < val y).

Lemma fmul_nonneg_val (x y : f64) : nn x -> nn y -> 0 <= val x -> 0 <= val y -> mulok x y ->
  nn (fmul x y) /\ val (fmul x y) = (if is_finite x && is_finite y then rndx (B2R x * B2R y) else BIG).
Proof.
  intros nx ny px py [[Fx Fy]|[hx hy]]; [|now apply fmul_pos_val].
  rewrite Fx, Fy. cbn. now destruct (fmul_val x y Fx Fy).
Qed.

Lemma rndx_ge_0 r : 0 <= r -> 0 <= rndx r.
Proof.
  intros h. unfold rndx. pose proof BIG_pos. destruct (Rlt_bool _ _); [now apply rnd_ge_0|].
  rewrite Rlt_bool_false by assumption. lra.
Qed.

Lemma fmul_nonneg_mono (x x' y y' : f64) : nn x -> nn x' -> nn y -> nn y' ->
  0 <= val x <= val x' -> 0 <= val y <= val y' -> mulok x y -> mulok x' y' ->
  0 <= val (fmul x y) <= val (fmul x' y').
Proof.
  intros nx nx' ny ny' hx hy m m'. pose proof BIG_pos.
  destruct (fmul_nonneg_val x y) as [_ ->]; try assumption; try lra.
  destruct (fmul_nonneg_val x' y') as [_ ->]; try assumption; try lra.
  pose proof (rndx_BIG (B2R x * B2R y)).
  assert (P : 0 <= (if is_finite x && is_finite y then rndx (B2R x * B2R y) else BIG)).
  { destruct (is_finite x) eqn:Fx, (is_finite y) eqn:Fy; cbn [andb]; try lra.
    apply rndx_ge_0. rewrite !val_fin in * by assumption. nra. }
  split; [assumption|].
  destruct (is_finite x') eqn:Fx', (is_finite y') eqn:Fy'; cbn [andb];
    try (destruct (is_finite x && is_finite y); lra).
  assert (Fx : fin x).
  { apply (val_fin_iff _ nx). apply (val_fin_iff _ nx') in Fx'. lra. }
  assert (Fy : fin y).
  { apply (val_fin_iff _ ny). apply (val_fin_iff _ ny') in Fy'. lra. }
  rewrite Fx, Fy in *. cbn [andb] in *. rewrite !val_fin in * by assumption. apply rndx_mono. nra.
Qed.

Definition cube (x : f64) : f64 := fmul (fmul x x) x.

Lemma mulok_sq x : nn x -> 0 <= val x -> mulok x x.
Proof.
  intros nx px. destruct (is_finite x) eqn:F; [left; easy|right].
  destruct (nonfin_val x nx F); pose proof BIG_pos; lra.
Qed.
Lemma mulok_cube x : nn x -> 0 <= val x -> mulok (fmul x x) x.
Proof.
  intros nx px. pose proof BIG_pos. destruct (is_finite x) eqn:F.
  - destruct (fmul_val x x F F) as [V N]. destruct (is_finite (fmul x x)) eqn:F2; [left; easy|right].
    destruct (nonfin_val _ N F2) as [E|E].
    + split; [lra|]. destruct px as [|q]; [lra|]. exfalso. rewrite E in V.
      rewrite val_fin in q by assumption. rewrite <- q, Rmult_0_r in V.
      fconst (dec "0.0"). rewrite <- V0 in V at 1. rewrite rndx_B2R, V0 in V. lra.
    + assert (0 <= val (fmul x x)); [|lra]. rewrite V. apply rndx_ge_0. nra.
  - right. destruct (nonfin_val x nx F) as [E|E]; [|lra].
    destruct (fmul_pos_val x x) as [_ ->]; try assumption; try lra. rewrite F. cbn [val andb]. lra.
Qed.

Lemma cube_mono x y : nn x -> nn y -> 0 <= val x <= val y ->
  nn (cube x) /\ nn (cube y) /\ 0 <= val (cube x) <= val (cube y).
Proof.
  intros nx ny h.
  assert (S : forall z, nn z -> 0 <= val z -> nn (fmul z z) /\ 0 <= val (fmul z z)).
  { intros z nz pz. pose proof (mulok_sq z nz pz). split; [now apply fmul_nonneg_val|].
    apply (fmul_nonneg_mono z z z z); assumption || lra. }
  destruct (S x nx) as [n1 p1]; [lra|]. destruct (S y ny) as [n2 p2]; [lra|].
  pose proof (mulok_cube x nx ltac:(lra)). pose proof (mulok_cube y ny ltac:(lra)).
  pose proof (mulok_sq x nx ltac:(lra)). pose proof (mulok_sq y ny ltac:(lra)).
  assert (val (fmul x x) <= val (fmul y y)) by (apply fmul_nonneg_mono; assumption || lra).
  split; [|split].
  - apply fmul_nonneg_val; assumption || lra.
  - apply fmul_nonneg_val; assumption || lra.
  - apply fmul_nonneg_mono; assumption || lra.
Qed.

Lemma val_rndx_le_0 r : r <= 0 -> rndx r <= 0.
Proof.
  intros h. fconst (dec "0.0"). rewrite <- V. rewrite <- rndx_B2R. apply rndx_mono. lra.
Qed.

Lemma cube_neg x : nn x -> val x <= 0 -> nn (cube x) /\ val (cube x) <= 0.
Proof.
  intros nx h. pose proof BIG_pos. unfold cube. destruct (is_finite x) eqn:F.
  - rewrite val_fin in h by assumption.
    destruct (fmul_val x x F F) as [V N]. destruct (is_finite (fmul x x)) eqn:F2.
    + destruct (fmul_val _ x F2 F) as [V2 N2]. split; [assumption|]. rewrite V2.
      apply val_rndx_le_0. rewrite val_fin in V by assumption. rewrite V.
      pose proof (rndx_ge_0 (B2R x * B2R x) ltac:(nra)). nra.
    + assert (P : 0 <= val (fmul x x)) by (rewrite V; apply rndx_ge_0; nra).
      destruct (nonfin_val _ N F2) as [E|E]; [|lra].
      assert (Z : B2R x <> 0).
      { intros q. rewrite q, Rmult_0_r in V. fconst (dec "0.0"). rewrite <- V0 in V at 1.
        rewrite rndx_B2R, V0 in V. lra. }
      destruct (fmul x x) as [|[]| |]; try discriminate; [cbn [val] in E; lra|].
      destruct x as [s|s| |[] m e p]; try discriminate; [now contradiction Z| |].
      * split; [reflexivity|]. change (- BIG <= 0). lra.
      * exfalso. revert h. cbn. unfold F2R. cbn [Fnum Fexp cond_Zopp]. pose proof (bpow_gt_0 radix2 e).
        pose proof (IZR_lt 0 (Z.pos m) ltac:(lia)). nra.
  - destruct x as [|[]| |]; try discriminate; [|cbn [val] in h; lra]. split; [reflexivity|change (- BIG <= 0); lra].
Qed.

(** The float after m * 2^e is (m+1) * 2^e when m is normalised. *)
Lemma next_float m e (y : R) : (2 ^ 52 <= m)%Z -> (-1074 <= e)%Z -> generic_format radix2 fexp64 y ->
  IZR m * bpow radix2 e < y -> IZR (m + 1) * bpow radix2 e <= y.
Proof.
  intros hm he Fy h. pose proof (bpow_gt_0 radix2 e) as pe.
  assert (B : bpow radix2 (52 + e) < y).
  { rewrite bpow_plus. change (bpow radix2 52) with (IZR (2 ^ 52)). apply IZR_le in hm. nra. }
  assert (C : (e <= cexp radix2 fexp64 y)%Z).
  { unfold cexp. assert (53 + e <= mag radix2 y)%Z.
    { apply mag_ge_bpow. replace (53 + e - 1)%Z with (52 + e)%Z by lia.
      rewrite Rabs_pos_eq; [lra|]. pose proof (bpow_gt_0 radix2 (52 + e)). lra. }
    unfold fexp64, FLT_exp. lia. }
  unfold generic_format in Fy. set (M := Ztrunc (scaled_mantissa radix2 fexp64 y)) in *.
  set (c := cexp radix2 fexp64 y) in *.
  assert (E : y = IZR (M * 2 ^ (c - e)) * bpow radix2 e).
  { rewrite mult_IZR, (IZR_Zpower radix2) by lia. rewrite Rmult_assoc, <- bpow_plus.
    replace (c - e + e)%Z with c by lia. exact Fy. }
  rewrite E in *. apply Rmult_lt_reg_r in h; [|assumption]. apply lt_IZR in h.
  apply Rmult_le_compat_r; [lra|]. apply IZR_le. lia.
Qed.
