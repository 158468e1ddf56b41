(** * Proofs about colour conversions and contrast that hold for every libm.  Proof file. *)
From Coq Require Import ZArith Bool Reals Lra Lia Psatz String.
From Flocq Require Import Core Relative IEEE754.BinarySingleNaN.
From Verif Require Import F64 MathUtils ColorUtils Contrast Spec FloatFacts FloatMono PfArgb PfMath.
Open Scope R_scope.

Section AnyLibm.
Context {lm : Libm}.
Lemma delinearized_byte x : (0 <= delinearized x <= 255)%Z.
Proof. unfold delinearized. apply clamp_int_ok. lia. Qed.
Lemma linrgb_opaque v : opaque (argb_from_linrgb v).
Proof. unfold argb_from_linrgb. apply opaque_of_rgb. Qed.
Lemma xyz_opaque x y z : opaque (argb_from_xyz x y z).
Proof. unfold argb_from_xyz, xyz_to_srgb. apply opaque_of_rgb. Qed.
Lemma lab_opaque l a b : opaque (argb_from_lab l a b).
Proof. unfold argb_from_lab. apply xyz_opaque. Qed.
Lemma lstar_opaque l : opaque (argb_from_lstar l).
Proof. unfold argb_from_lstar. apply opaque_of_rgb. Qed.
End AnyLibm.

(** ** lab_invf and y_from_lstar *)
Lemma lab_invf_eq ft : lab_invf ft =
  if flt (fdiv (dec "216.0") (dec "24389.0")) (cube ft) then cube ft
  else fdiv (fsub (fmul (dec "116.0") ft) (dec "16.0")) (fdiv (dec "24389.0") (dec "27.0")).
Proof. reflexivity. Qed.

Definition lin (ft : f64) : f64 :=
  fdiv (fsub (fmul (dec "116.0") ft) (dec "16.0")) (fdiv (dec "24389.0") (dec "27.0")).

Lemma lin_nn x : nn x -> nn (lin x).
Proof.
  intros h. fconst (dec "116.0"). fconst (dec "16.0"). fconst (fdiv (dec "24389.0") (dec "27.0")).
  unfold lin. apply fdiv_nn; [assumption|lra|]. apply fsub_nn; [assumption|]. apply fmull_nn; [assumption|lra|assumption].
Qed.
Lemma lin_mono x y : nn x -> nn y -> val x <= val y -> val (lin x) <= val (lin y).
Proof.
  intros hx hy h. fconst (dec "116.0"). fconst (dec "16.0"). fconst (fdiv (dec "24389.0") (dec "27.0")).
  unfold lin.
  assert (nn (fmul (dec "116.0") x)) by (apply fmull_nn; [assumption|lra|assumption]).
  assert (nn (fmul (dec "116.0") y)) by (apply fmull_nn; [assumption|lra|assumption]).
  apply fdiv_mono; [assumption|lra|now apply fsub_nn|now apply fsub_nn|].
  apply fsub_mono; try assumption. apply fmull_mono; try assumption. lra.
Qed.

(** The last float whose computed cube is not above the threshold, and the next one. *)
Definition x0 : f64 := fdiv (of_Z 0x1a7b9611a7b961) (of_Z (2 ^ 55)).
Definition x1 : f64 := fdiv (of_Z 0x1a7b9611a7b962) (of_Z (2 ^ 55)).

Lemma x0_next (y : f64) : fin y -> B2R x0 < B2R y -> B2R x1 <= B2R y.
Proof.
  intros hy h. fconst x0. fconst x1. rewrite V in h. rewrite V0.
  pose proof (next_float 0x1a7b9611a7b961 (-55) (B2R y) ltac:(lia) ltac:(lia) (fmt_B2R y)) as N.
  assert (E : bpow radix2 (-55) = / 36028797018963968) by reflexivity. rewrite E in N.
  assert (C : IZR (0x1a7b9611a7b961 + 1) * / 36028797018963968 <= B2R y) by (apply N; lra). simpl in C. lra.
Qed.

Lemma nan_cube : is_nan (cube (B754_nan : f64)) = true. Proof. reflexivity. Qed.

Lemma cube_nn x : nn x -> nn (cube x).
Proof.
  intros h. destruct (Rle_or_lt (val x) 0) as [c|c]; [now apply cube_neg|].
  apply (cube_mono x x); try assumption. lra.
Qed.

Lemma lab_invf_nn x : nn x -> nn (lab_invf x).
Proof. intros h. rewrite lab_invf_eq. destruct (flt _ _); [now apply cube_nn|now apply (lin_nn x)]. Qed.

Lemma lab_invf_mono x y : nn x -> nn y -> val x <= val y -> val (lab_invf x) <= val (lab_invf y).
Proof.
  intros hx hy h. rewrite !lab_invf_eq. fold (lin x). fold (lin y).
  fconst (fdiv (dec "216.0") (dec "24389.0")). set (e := fdiv (dec "216.0") (dec "24389.0")) in *.
  pose proof (fin_not_nan _ F) as ne.
  destruct (flt e (cube x)) eqn:Cx.
  - (* x on the cubic branch *)
    assert (px : 0 < val x).
    { destruct (Rle_or_lt (val x) 0) as [c|]; [|assumption]. exfalso.
      destruct (cube_neg x hx c) as [_ c']. apply flt_true in Cx. rewrite (val_fin e) in Cx by assumption. lra. }
    destruct (cube_mono x y hx hy ltac:(lra)) as (n1 & n2 & M).
    assert (Cy : flt e (cube y) = true).
    { apply flt_val; try assumption. apply flt_true in Cx. lra. }
    rewrite Cy. lra.
  - destruct (flt e (cube y)) eqn:Cy; [|now apply lin_mono].
    (* x linear, y cubic *)
    assert (py : 0 < val y).
    { destruct (Rle_or_lt (val y) 0) as [c|]; [|assumption]. exfalso.
      destruct (cube_neg y hy c) as [_ c']. apply flt_true in Cy. rewrite (val_fin e) in Cy by assumption. lra. }
    fconst x0. fconst x1. pose proof (fin_not_nan _ F0) as n0. pose proof (fin_not_nan _ F1) as n1.
    (* x <= x0 *)
    assert (X : val x <= val x0).
    { destruct (Rle_or_lt (val x) (val x0)) as [|c]; [assumption|exfalso].
      assert (c1 : val x1 <= val x).
      { destruct (is_finite x) eqn:Fx.
        - rewrite !val_fin in * by assumption. now apply x0_next.
        - destruct (nonfin_val x hx Fx) as [q|q]; rewrite q in *; pose proof (val_BIG x1); [lra|].
          pose proof (val_BIG x0). lra. }
      destruct (cube_mono x1 x n1 hx) as (m1 & m2 & M).
      { rewrite (val_fin x1) in * by assumption. lra. }
      assert (K : flt e (cube x1) = true) by (vm_compute; reflexivity).
      apply flt_true in K. apply flt_val_f in Cx; try assumption. lra. }
    assert (Y : val x1 <= val y).
    { destruct (Rle_or_lt (val y) (val x0)) as [c|c].
      - exfalso. destruct (cube_mono y x0 hy n0 ltac:(lra)) as (m1 & m2 & M).
        assert (K : flt e (cube x0) = false) by (vm_compute; reflexivity).
        apply flt_true in Cy. apply (proj1 (flt_val_f e (cube x0) ne m2)) in K. lra.
      - destruct (is_finite y) eqn:Fy.
        + rewrite !val_fin in * by assumption. now apply x0_next.
        + destruct (nonfin_val y hy Fy) as [q|q]; rewrite q in *; pose proof (val_BIG x1); [lra|].
          pose proof (val_BIG x0). lra. }
    apply Rle_trans with (val (lin x0)); [now apply lin_mono|].
    apply Rle_trans with (val (cube x1)).
    + apply fle_true. vm_compute. reflexivity.
    + apply cube_mono; try assumption. rewrite (val_fin x1) in * by assumption. lra.
Qed.

Lemma y_from_lstar_nn x : nn x -> nn (y_from_lstar x).
Proof.
  intros h. fconst (dec "16.0"). fconst (dec "116.0"). fconst (dec "100.0"). unfold y_from_lstar.
  apply fmull_nn; [assumption|lra|]. apply lab_invf_nn. apply fdiv_nn; [assumption|lra|]. now apply fadd_nn.
Qed.
Lemma y_from_lstar_mono x y : nn x -> nn y -> val x <= val y -> val (y_from_lstar x) <= val (y_from_lstar y).
Proof.
  intros hx hy h. fconst (dec "16.0"). fconst (dec "116.0"). fconst (dec "100.0"). unfold y_from_lstar.
  assert (N : forall z, nn z -> nn (fdiv (fadd z (dec "16.0")) (dec "116.0"))).
  { intros z nz. apply fdiv_nn; [assumption|lra|]. now apply fadd_nn. }
  apply fmull_mono; [assumption|lra|apply lab_invf_nn; auto|apply lab_invf_nn; auto|].
  apply lab_invf_mono; auto. apply fdiv_mono; [assumption|lra|now apply fadd_nn|now apply fadd_nn|].
  now apply fadd_mono.
Qed.

Lemma y_from_lstar_0 : y_from_lstar (dec "0.0") = dec "0.0".
Proof. apply B2SF_inj. vm_compute. reflexivity. Qed.
Lemma y_from_lstar_100 : y_from_lstar (dec "100.0") = dec "100.0".
Proof. apply B2SF_inj. vm_compute. reflexivity. Qed.

Lemma y_from_lstar_range x : nn x -> 0 <= val x <= 100 -> fin (y_from_lstar x) /\ 0 <= B2R (y_from_lstar x) <= 100.
Proof.
  intros hx h. fconst (dec "0.0"). fconst (dec "100.0").
  pose proof (y_from_lstar_mono (dec "0.0") x eq_refl hx) as L.
  pose proof (y_from_lstar_mono x (dec "100.0") hx eq_refl) as U.
  rewrite y_from_lstar_0 in L. rewrite y_from_lstar_100 in U.
  rewrite (val_fin (dec "0.0")), V in L by assumption. rewrite (val_fin (dec "100.0")), V0 in U by assumption. specialize (L ltac:(lra)). specialize (U ltac:(lra)).
  pose proof (y_from_lstar_nn x hx) as N.
  assert (FY : fin (y_from_lstar x)).
  { apply (val_fin_iff _ N). pose proof (B2R_BIG (dec "0.0")). pose proof (B2R_BIG (dec "100.0")).
    lra. }
  split; [assumption|]. rewrite val_fin in L, U by assumption. lra.
Qed.
