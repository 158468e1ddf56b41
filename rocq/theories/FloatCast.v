(** * Facts about rounding to integers and casting f64 to i64.  Proof file. *)
From Coq Require Import ZArith Bool Reals Lra Lia Psatz.
From Flocq Require Import Core Relative IEEE754.BinarySingleNaN.
From Verif Require Import F64 MathUtils FloatFacts FloatMono.
Open Scope R_scope.

Lemma Btrunc_Z (x : f64) : Btrunc x = Ztrunc (B2R x).
Proof.
  apply eq_IZR. rewrite Btrunc_correct by reflexivity.
  unfold round, F2R, scaled_mantissa, cexp, FIX_exp. cbn. rewrite !Rmult_1_r. reflexivity.
Qed.

Ltac zcl := unfold zclamp, i64_min, i64_max; repeat match goal with |- context [Z.ltb ?x ?y] => destruct (Z.ltb_spec x y) end; lia.
Lemma zclamp_mono lo hi a b : (lo <= hi)%Z -> (a <= b)%Z -> (zclamp lo hi a <= zclamp lo hi b)%Z.
Proof. intros. unfold zclamp. repeat match goal with |- context [Z.ltb ?x ?y] => destruct (Z.ltb_spec x y) end; lia. Qed.
Lemma zclamp_range lo hi a : (lo <= hi)%Z -> (lo <= zclamp lo hi a <= hi)%Z.
Proof. intros. unfold zclamp. repeat match goal with |- context [Z.ltb ?x ?y] => destruct (Z.ltb_spec x y) end; lia. Qed.

Lemma to_i64_fin (x : f64) : fin x -> to_i64 x = zclamp i64_min i64_max (Ztrunc (B2R x)).
Proof.
  intros f. destruct x; try discriminate; unfold to_i64.
  - cbn [BinarySingleNaN.B2R SF2R]. change (B2R (B754_zero s)) with 0. rewrite (Ztrunc_IZR 0). reflexivity.
  - now rewrite Btrunc_Z.
Qed.

Lemma to_i64_range (x : f64) : (i64_min <= to_i64 x <= i64_max)%Z.
Proof.
  destruct x as [|[]| |]; unfold to_i64; try (unfold i64_min, i64_max; lia).
  apply zclamp_range. unfold i64_min, i64_max; lia.
Qed.

Lemma to_i64_mono (x y : f64) : nn x -> nn y -> val x <= val y -> (to_i64 x <= to_i64 y)%Z.
Proof.
  intros nx ny h. assert (I : (i64_min <= i64_max)%Z) by (unfold i64_min, i64_max; lia).
  destruct (is_finite x) eqn:fx.
  - destruct (is_finite y) eqn:fy.
    + rewrite !to_i64_fin by assumption. apply zclamp_mono; [assumption|]. apply Ztrunc_le.
      now rewrite <- !val_fin.
    + destruct y as [|[]| |]; try discriminate.
      * cbn [val] in h. rewrite val_fin in h by assumption. pose proof (B2R_BIG x). lra.
      * apply to_i64_range.
  - destruct x as [|[]| |]; try discriminate; [apply to_i64_range|].
    destruct (is_finite y) eqn:fy.
    + cbn [val] in h. rewrite val_fin in h by assumption. pose proof (B2R_BIG y). lra.
    + destruct y as [|[]| |]; try discriminate; try reflexivity. cbn [val] in h. pose proof BIG_pos. lra.
Qed.

Lemma ZnearestA_mono x y : x <= y -> (ZnearestA x <= ZnearestA y)%Z.
Proof. intros h. now apply (Zrnd_le (Znearest (Z.leb 0))). Qed.

Lemma fround_mono (x y : f64) : nn x -> nn y -> val x <= val y -> val (fround x) <= val (fround y).
Proof.
  intros nx ny h. destruct (is_finite x) eqn:fx.
  - destruct (fround_R x fx) as [R1 F1]. destruct (is_finite y) eqn:fy.
    + destruct (fround_R y fy) as [R2 F2]. rewrite !val_fin in * by assumption. rewrite R1, R2.
      apply IZR_le. now apply ZnearestA_mono.
    + destruct y as [|[]| |]; try discriminate.
      * cbn [val] in h. rewrite val_fin in h by assumption. pose proof (B2R_BIG x). lra.
      * rewrite val_fin by assumption. pose proof (B2R_BIG (fround x)) as Q.
        change (B2R (fround x) <= BIG). lra.
  - destruct x as [|[]| |]; try discriminate.
    + change (- BIG <= val (fround y)). pose proof (val_BIG (fround y)) as Q. lra.
    + destruct (is_finite y) eqn:fy.
      * cbn [val] in h. rewrite val_fin in h by assumption. pose proof (B2R_BIG y). lra.
      * destruct y as [|[]| |]; try discriminate.
        -- cbn [val] in h. pose proof BIG_pos. lra.
        -- apply Rle_refl.
Qed.

Definition rcast (x : f64) : Z := to_i64 (fround x).
Lemma rcast_mono x y : nn x -> nn y -> val x <= val y -> (rcast x <= rcast y)%Z.
Proof. intros. apply to_i64_mono; try now apply fround_nn. now apply fround_mono. Qed.

Lemma rcast_fin (x : f64) : fin x -> rcast x = zclamp i64_min i64_max (ZnearestA (B2R x)).
Proof.
  intros f. unfold rcast. destruct (fround_R x f) as [R F]. rewrite to_i64_fin by assumption.
  now rewrite R, Ztrunc_IZR.
Qed.

Lemma clamp_int_mono lo hi a b : (lo <= hi)%Z -> (a <= b)%Z -> (clamp_int lo hi a <= clamp_int lo hi b)%Z.
Proof.
  intros h1 h2. unfold clamp_int.
  destruct (a <? lo)%Z eqn:A1, (b <? lo)%Z eqn:B1, (hi <? a)%Z eqn:A2, (hi <? b)%Z eqn:B2; lia.
Qed.

Lemma ZnearestA_near x c : Rabs (x - IZR c) < 1 / 2 -> ZnearestA x = c.
Proof. intros h. apply Znearest_imp. lra. Qed.

(** Channel value of a float within half a unit of a byte. *)
Lemma byte_near (x : f64) c : fin x -> (0 <= c <= 255)%Z -> Rabs (B2R x - IZR c) < 1 / 2 ->
  clamp_int 0 255 (rcast x) = c.
Proof.
  intros f h r. rewrite rcast_fin by assumption. rewrite (ZnearestA_near _ c r).
  replace (zclamp i64_min i64_max c) with c by zcl. unfold clamp_int.
  repeat match goal with |- context [Z.ltb ?x ?y] => destruct (Z.ltb_spec x y) end; lia.
Qed.
Lemma byte_low (x : f64) : nn x -> val x < 1 / 2 -> clamp_int 0 255 (rcast x) = 0%Z.
Proof.
  intros n h. assert (L : (rcast x <= 0)%Z).
  { destruct (is_finite x) eqn:f.
    - rewrite rcast_fin by assumption. rewrite val_fin in h by assumption.
      assert (ZnearestA (B2R x) <= 0)%Z; [|zcl].
      pose proof (Znearest_half (Z.leb 0) (B2R x)) as H. apply Rabs_le_inv in H.
      assert (H2 : IZR (ZnearestA (B2R x)) < 1) by lra. apply lt_IZR in H2. lia.
    - destruct x as [|[]| |]; try discriminate.
      cbn [val] in h. pose proof (B2R_BIG (of_Z 1)). fconst (of_Z 1). lra. }
  unfold clamp_int. destruct (_ <? 0)%Z eqn:A1; [reflexivity|].
  destruct (255 <? _)%Z eqn:A2; lia.
Qed.
Lemma byte_high (x : f64) : nn x -> 254.5 <= val x -> clamp_int 0 255 (rcast x) = 255%Z.
Proof.
  intros n h. assert (L : (255 <= rcast x)%Z).
  { destruct (is_finite x) eqn:f.
    - rewrite rcast_fin by assumption. rewrite val_fin in h by assumption.
      assert (255 <= ZnearestA (B2R x))%Z; [|zcl].
      replace 255%Z with (ZnearestA 254.5); [now apply ZnearestA_mono|].
      replace 254.5 with (IZR 255 - / 2) by lra. apply ZnearestA_tie. lia.
    - destruct x as [|[]| |]; try discriminate.
      cbn [val] in h. pose proof (B2R_BIG (of_Z 1)). fconst (of_Z 1). lra. }
  unfold clamp_int. destruct (_ <? 0)%Z eqn:A1; [lia|].
  destruct (255 <? _)%Z eqn:A2; lia.
Qed.
