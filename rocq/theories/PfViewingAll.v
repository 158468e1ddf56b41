(** * Viewing conditions against the published formulas: the whole.  Proof file. *)
From Coq Require Import ZArith Bool Reals Lra Lia String List.
From Flocq Require Import Core Relative IEEE754.BinarySingleNaN.
From Verif Require Import F64 MathUtils ColorUtils ViewingConditions Spec SpecCam SpecViewing FloatFacts FloatMono PfMath PfTones PfGamma PfNear PfRel PfHct PfViewing PfViewingReal.
Import ListNotations.
Open Scope string_scope.
Open Scope R_scope.

Section Accurate.
Context {lm : Libm}.

Definition fRw (x y z : f64) : f64 := fadd (fadd (fmul x (dec "0.401288")) (fmul y (dec "0.650173"))) (fmul z (dec "-0.051461")).
Definition fGw (x y z : f64) : f64 := fadd (fadd (fmul x (dec "-0.250268")) (fmul y (dec "1.204414"))) (fmul z (dec "0.045854")).
Definition fBw (x y z : f64) : f64 := fadd (fadd (fmul x (dec "-0.002079")) (fmul y (dec "0.048952"))) (fmul z (dec "0.953127")).

Definition made (x y z : f64) (rest : list f64) (la l s : f64) (disc : bool) : viewing_conditions :=
  let bg := fmax (dec "0.1") l in
  let d := fD disc s la in
  let g w := gainF d w in
  {| vc_white_point := x :: y :: z :: rest; vc_adapting_luminance := la; vc_background_lstar := bg; vc_surround := s;
     vc_discounting_illuminant := disc; vc_n := fN bg y;
     vc_aw := fAw (fR (fFL la) (g (fRw x y z)) (fRw x y z)) (fR (fFL la) (g (fGw x y z)) (fGw x y z)) (fR (fFL la) (g (fBw x y z)) (fBw x y z)) (fNbb (fN bg y));
     vc_nbb := fNbb (fN bg y); vc_ncb := fNbb (fN bg y); vc_c := fC s; vc_n_c := fF s;
     vc_rgb_d := (g (fRw x y z), g (fGw x y z), g (fBw x y z)); vc_fl := fFL la; vc_f_lroot := powf (fFL la) (dec "0.25");
     vc_z := fadd (dec "1.48") (fsqrt (fN bg y)) |}.

Lemma made_ok x y z rest la l s disc : fgt la (dec "0.0") = true -> sur_ok s = true ->
  make (Some (x :: y :: z :: rest)) (Some la) (Some l) (Some s) (Some disc) = Ok (made x y z rest la l s disc).
Proof.
  intros h1 h2. assert (E1 : (fge s (dec "0.0") && fle s (dec "2.0"))%bool = true) by exact h2.
  cbv beta iota zeta delta [make unwrap_or]. rewrite index_cons0, index_1, index_2, E1, h1.
  cbv beta iota zeta delta [bind negb made fN fAw fR gainF fD fC fF fFL fK4f fK4 fK fNbb fRw fGw fBw v0 v1 v2 fst snd].
  reflexivity.
Qed.

Hypothesis LA : libm_accurate (1 / 10 ^ 13) lm.

Lemma made_follows x y z rest la l s disc : ordinary x y z la l s ->
  make (Some (x :: y :: z :: rest)) (Some la) (Some l) (Some s) (Some disc) = Ok (made x y z rest la l s disc) /\
  follows_cam16 (made x y z rest la l s disc) (B2R x) (B2R y) (B2R z) (B2R la) (Rmax 0.1 (B2R l)) (B2R s) disc.
Proof using LA.
  intros ((fx & fy & fz & fl & ft & fs) & bx & by_ & bz & br & bg & bb & bl & bt & bs).
  fconst (dec "0.0"). fconst (dec "2.0"). fconst (dec "0.1").
  split.
  { apply made_ok; [unfold fgt; change Bltb with flt; apply (flt_fin _ _ F fl); lra|]. unfold sur_ok. apply andb_true_intro. split; [apply (fle_fin _ _ F fs)|apply (fle_fin _ _ fs F0)]; lra. }
  destruct (fmax_R (dec "0.1") l F1 ft) as [FM EM]. rewrite V1 in EM.
  assert (BM : 0.099 <= B2R (fmax (dec "0.1") l) <= 100) by (rewrite EM; unfold Rmax; match goal with |- context [Rle_dec ?a ?b] => destruct (Rle_dec a b) end; lra).
  destruct (fN_near (fmax (dec "0.1") l) y FM BM fy by_) as [NN BN].
  assert (NN' : frel (fN (fmax (dec "0.1") l) y) (luminance (Rmax 0.1 (B2R l)) / B2R y) (9 / 10 ^ 12) /\ 1 / 10 ^ 5 <= luminance (Rmax 0.1 (B2R l)) / B2R y <= 5).
  { rewrite EM in NN, BN. unfold Rmax in NN, BN |- *. match type of BN with context [Rle_dec ?a ?b] => destruct (Rle_dec a b) as [g|g] end.
    - destruct (Rle_dec 0.1 (B2R l)) as [g'|g']; [|lra]. split; [apply frel_w with (1 := NN); lra|exact BN].
    - match type of BN with context [luminance ?c] => set (c0 := c) in * end. assert (Bc : 0.1 <= c0 <= 0.1 + 1 / 10 ^ 16) by (unfold c0; lra). clearbody c0.
      set (m := if Rle_dec 0.1 (B2R l) then B2R l else 0.1). assert (Bm : 0.1 <= m <= c0) by (unfold m; destruct (Rle_dec 0.1 (B2R l)); lra). clearbody m.
      unfold luminance in *. destruct (Rlt_dec 8 c0) as [h|h]; [lra|]. destruct (Rlt_dec 8 m) as [h'|h']; [lra|].
      assert (I : 1 / 200 <= / B2R y <= 1 / 20) by (split; [apply Rmult_le_reg_r with (B2R y)|apply Rmult_le_reg_r with (B2R y)]; try lra; rewrite Rinv_l by lra; lra).
      unfold Rdiv at 1 3 in BN. unfold Rdiv in NN |- *. set (i := / B2R y) in *. clearbody i.
      assert (Q : c0 * i <= m * (1 + 1 / 10 ^ 14) * i /\ m * i <= c0 * i /\ 0.1 * i <= m * i /\ m * i <= 0.11 * i) by (repeat split; apply Rmult_le_compat_r; lra).
      split; [|lra]. destruct NN as [f [p b]]. split; [exact f|]. split; lra. }
  clear NN BN. destruct NN' as [NN BN]. set (N := luminance (Rmax 0.1 (B2R l)) / B2R y) in *.
  destruct (fNbb_near LA _ _ NN BN) as [NB BB]. assert (NZ := fZ_near _ _ NN BN).
  destruct (fC_near s fs bs) as [NC BC]. destruct (fF_near s fs bs) as [NF BF].
  destruct (fD_near LA disc s la fs bs fl bl) as [ND BD]. destruct (fFL_near LA la fl bl) as [NL BL].
  assert (WR : near (fRw x y z) (cone_red (B2R x) (B2R y) (B2R z)) (2 / 10 ^ 12)).
  { unfold fRw. fconst (dec "0.401288"). fconst (dec "0.650173"). fconst (dec "-0.051461").
    pose proof (cone_any x y z _ _ _ (B2R x) (B2R y) (B2R z) 0.401288 0.650173 (-0.051461) (near_self x fx) (near_self y fy) (near_self z fz) (near_c _ _ 0.401288 (2 / 10 ^ 16) F2 V2 ltac:(lra)) (near_c _ _ 0.650173 (2 / 10 ^ 16) F3 V3 ltac:(lra)) (near_c _ _ (-0.051461) (2 / 10 ^ 16) F4 V4 ltac:(lra)) ltac:(lra) ltac:(lra) ltac:(lra) ltac:(lra) ltac:(lra) ltac:(lra)) as H.
    apply near_move with (1 := H). unfold cone_red. lra. }
  assert (WG : near (fGw x y z) (cone_green (B2R x) (B2R y) (B2R z)) (2 / 10 ^ 12)).
  { unfold fGw. fconst (dec "-0.250268"). fconst (dec "1.204414"). fconst (dec "0.045854").
    pose proof (cone_any x y z _ _ _ (B2R x) (B2R y) (B2R z) (-0.250268) 1.204414 0.045854 (near_self x fx) (near_self y fy) (near_self z fz) (near_c _ _ (-0.250268) (2 / 10 ^ 16) F2 V2 ltac:(lra)) (near_c _ _ 1.204414 (2 / 10 ^ 16) F3 V3 ltac:(lra)) (near_c _ _ 0.045854 (2 / 10 ^ 16) F4 V4 ltac:(lra)) ltac:(lra) ltac:(lra) ltac:(lra) ltac:(lra) ltac:(lra) ltac:(lra)) as H.
    apply near_move with (1 := H). unfold cone_green. lra. }
  assert (WB : near (fBw x y z) (cone_blue (B2R x) (B2R y) (B2R z)) (2 / 10 ^ 12)).
  { unfold fBw. fconst (dec "-0.002079"). fconst (dec "0.048952"). fconst (dec "0.953127").
    pose proof (cone_any x y z _ _ _ (B2R x) (B2R y) (B2R z) (-0.002079) 0.048952 0.953127 (near_self x fx) (near_self y fy) (near_self z fz) (near_c _ _ (-0.002079) (2 / 10 ^ 16) F2 V2 ltac:(lra)) (near_c _ _ 0.048952 (2 / 10 ^ 16) F3 V3 ltac:(lra)) (near_c _ _ 0.953127 (2 / 10 ^ 16) F4 V4 ltac:(lra)) ltac:(lra) ltac:(lra) ltac:(lra) ltac:(lra) ltac:(lra) ltac:(lra)) as H.
    apply near_move with (1 := H). unfold cone_blue. lra. }
  destruct (gain_near _ _ _ _ ND BD WR br) as (GR & BR1 & BR2). destruct (gain_near _ _ _ _ ND BD WG bg) as (GG & BG1 & BG2). destruct (gain_near _ _ _ _ ND BD WB bb) as (GB & BB1 & BB2).
  destruct (fR_near LA _ _ _ _ _ _ NL BL GR BR1 WR br BR2) as [RR RR2]. destruct (fR_near LA _ _ _ _ _ _ NL BL GG BG1 WG bg BG2) as [RG RG2]. destruct (fR_near LA _ _ _ _ _ _ NL BL GB BB1 WB bb BB2) as [RB RB2].
  pose proof (fAw_near _ _ _ _ _ _ _ _ RR RG RB NB RR2 RG2 RB2 BB) as NA.
  constructor; cbn [made vc_n vc_z vc_nbb vc_ncb vc_c vc_n_c vc_rgb_d vc_fl vc_f_lroot vc_aw v0 v1 v2 fst snd]; cbv zeta; fold N.
  - apply close_frel with (1 := NN). lra.
  - apply close_frel with (1 := NZ). lra.
  - apply close_frel with (1 := NB). lra.
  - apply close_frel with (1 := NB). lra.
  - apply close_frel with (1 / 10 ^ 11); [|lra]. apply near_rel with (1 := NC) (m := 0.5); lra.
  - apply close_frel with (1 / 10 ^ 11); [|lra]. apply near_rel with (1 := NF) (m := 0.5); lra.
  - apply close_frel with (1 := GR). lra.
  - apply close_frel with (1 := GG). lra.
  - apply close_frel with (1 := GB). lra.
  - apply close_frel with (1 := NL). lra.
  - fconst (dec "0.25"). apply close_frel with (5 * 0.25 * (3 / 10 ^ 12) + 1.4 / 10 ^ 13); [|lra]. apply (frel_powc LA); [exact NL|exact F2|lra|lra|lra|lra].
  - apply close_frel with (1 := NA). lra.
Qed.
End Accurate.
