(** * Proofs about ViewingConditions::make.  Proof file. *)
From Coq Require Import ZArith Bool Reals Lra Lia Psatz String List.
From Flocq Require Import Core IEEE754.BinarySingleNaN.
From Verif Require Import F64 MathUtils ColorUtils ViewingConditions Spec FloatFacts FloatMono PfArgb PfMath PfColor PfContrast PfHct.
Import ListNotations.
Open Scope R_scope.

Lemma index_cons0 {A} (a : A) l : index (a :: l) 0 = Ok a. Proof. reflexivity. Qed.
Lemma index_1 {A} (a b : A) l : index (a :: b :: l) 1 = Ok b. Proof. reflexivity. Qed.
Lemma index_2 {A} (a b c : A) l : index (a :: b :: c :: l) 2 = Ok c. Proof. reflexivity. Qed.

Section AnyLibm.
Context {lm : Libm}.

Definition sur_ok (s : f64) : bool := (fle (dec "0.0") s && fle s (dec "2.0"))%bool.

Definition c_of (s : f64) : f64 :=
  let f := fadd (dec "0.8") (fdiv s (dec "10.0")) in
  if fle (dec "0.9") f then lerp (dec "0.59") (dec "0.69") (fmul (fsub f (dec "0.9")) (dec "10.0"))
  else lerp (dec "0.525") (dec "0.59") (fmul (fsub f (dec "0.8")) (dec "10.0")).

Lemma make_shape wp w0 w1 w2 rest lum bg sur disc :
  unwrap_or wp [v0 white_point_d65; v1 white_point_d65; v2 white_point_d65] = w0 :: w1 :: w2 :: rest ->
  let s := unwrap_or sur (dec "2.0") in
  let l := unwrap_or lum (dec "-1.0") in
  (sur_ok s = false -> make wp lum bg sur disc = Panic) /\
  (sur_ok s = true -> exists vc, make wp lum bg sur disc = Ok vc /\
    vc_white_point vc = w0 :: w1 :: w2 :: rest /\
    vc_surround vc = s /\ vc_discounting_illuminant vc = unwrap_or disc false /\
    vc_background_lstar vc = fmax (dec "0.1") (unwrap_or bg (dec "50.0")) /\
    vc_adapting_luminance vc = (if flt (dec "0.0") l then l
       else fdiv (fmul (fdiv (dec "200.0") PI64) (y_from_lstar (dec "50.0"))) (dec "100.0")) /\
    vc_c vc = c_of s /\ vc_n_c vc = fadd (dec "0.8") (fdiv s (dec "10.0")) /\ vc_ncb vc = vc_nbb vc).
Proof.
  intros W s l. unfold make. rewrite W. rewrite index_cons0, bind_Ok, index_1, bind_Ok, index_2, bind_Ok.
  fold s. fold l. cbv beta zeta. unfold fge. change Bleb with fle. fold (sur_ok s). split; intros E; rewrite E; cbn [negb].
  - reflexivity.
  - eexists. split; [reflexivity|].
    cbn [vc_white_point vc_surround vc_discounting_illuminant vc_background_lstar vc_adapting_luminance vc_c vc_n_c vc_ncb vc_nbb].
    repeat split; reflexivity.
Qed.

Definition clamp01 (d : f64) : f64 := if flt (dec "1.0") d then dec "1.0" else if flt d (dec "0.0") then dec "0.0" else d.
Lemma clamp01_range d : is_nan (clamp01 d) = true \/ (fle (dec "0.0") (clamp01 d) = true /\ fle (clamp01 d) (dec "1.0") = true).
Proof.
  fconst (dec "0.0"). fconst (dec "1.0"). unfold clamp01. destruct (flt (dec "1.0") d) eqn:A.
  - right. split; apply fle_fin; try assumption; lra.
  - destruct (flt d (dec "0.0")) eqn:B.
    + right. split; apply fle_fin; try assumption; lra.
    + destruct (is_nan d) eqn:N; [now left|right]. pose proof (fin_not_nan _ F) as n. pose proof (fin_not_nan _ F0) as n0.
      apply flt_val_f in A; try assumption. apply flt_val_f in B; try assumption. split; apply fle_val; try assumption; lra.
Qed.
Lemma make_adaptation w0 w1 w2 rest lum bg sur disc vc :
  make (Some (w0 :: w1 :: w2 :: rest)) lum bg sur disc = Ok vc ->
  exists d, (is_nan d = true \/ (fle (dec "0.0") d = true /\ fle d (dec "1.0") = true)) /\
    (disc = Some true -> d = dec "1.0") /\
    let r_w := fadd (fadd (fmul w0 (dec "0.401288")) (fmul w1 (dec "0.650173"))) (fmul w2 (dec "-0.051461")) in
    let g_w := fadd (fadd (fmul w0 (dec "-0.250268")) (fmul w1 (dec "1.204414"))) (fmul w2 (dec "0.045854")) in
    let b_w := fadd (fadd (fmul w0 (dec "-0.002079")) (fmul w1 (dec "0.048952"))) (fmul w2 (dec "0.953127")) in
    let gain w := fsub (fadd (fmul d (fdiv (dec "100.0") w)) (dec "1.0")) d in
    vc_rgb_d vc = (gain r_w, gain g_w, gain b_w).
Proof.
  intros E. unfold make in E. cbn [unwrap_or] in E. rewrite index_cons0, bind_Ok, index_1, bind_Ok, index_2, bind_Ok in E. cbv beta zeta in E.
  match type of E with (if ?b then _ else _) = _ => destruct b; [discriminate E|] end. apply ok_inj in E. subst vc. cbn [vc_rgb_d].
  set (d0 := if unwrap_or disc false then _ else _). exists (clamp01 d0). split; [apply clamp01_range|]. split; [|reflexivity].
  intros ->. unfold d0. cbn [unwrap_or]. unfold clamp01. fconst (dec "1.0"). fconst (dec "0.0").
  destruct (flt (dec "1.0") (dec "1.0")) eqn:A; [reflexivity|]. destruct (flt (dec "1.0") (dec "0.0")) eqn:B; [|reflexivity].
  apply flt_fin in B; try assumption. lra.
Qed.

Lemma short_white_point wp lum bg sur disc : (List.length wp < 3)%nat ->
  make (Some wp) lum bg sur disc = Panic.
Proof.
  intros h. unfold make. cbn [unwrap_or].
  destruct wp as [|a [|b [|c w]]]; cbn [List.length] in h; try lia.
  - change (index (@nil f64) 0) with (@Panic f64). reflexivity.
  - rewrite index_cons0, bind_Ok. reflexivity.
  - rewrite index_cons0, bind_Ok, index_1, bind_Ok. reflexivity.
Qed.
End AnyLibm.

Lemma sur_range s : sur_ok s = true -> nn s /\ fin s /\ 0 <= B2R s <= 2.
Proof.
  intros h. apply andb_true_iff in h. destruct h as [h1 h2]. fconst (dec "0.0"). fconst (dec "2.0").
  destruct (val_bounds s (dec "0.0") (dec "2.0") F F0 h1 h2) as (n & f & b). rewrite V, V0 in b. easy.
Qed.

Lemma f_range s : sur_ok s = true ->
  let f := fadd (dec "0.8") (fdiv s (dec "10.0")) in fin f /\ B2R (dec "0.8") <= B2R f <= 1.
Proof.
  intros h. destruct (sur_range s h) as (n & fs & b). cbv zeta. fconst (dec "0.8"). fconst (dec "10.0"). fconst (dec "2.0").
  destruct (fdiv_S s (dec "10.0") fs ltac:(lra) ltac:(rewrite V0; fsmall)) as [D FD]. rewrite V0 in D.
  fconst (fdiv (dec "2.0") (dec "10.0")). fconst (fadd (dec "0.8") (fdiv (dec "2.0") (dec "10.0"))).
  destruct (fdiv_S (dec "2.0") (dec "10.0") F1 ltac:(lra) ltac:(rewrite V0, V1; fsmall)) as [D2 _].
  destruct (fadd_S (dec "0.8") (fdiv (dec "2.0") (dec "10.0")) F F2 ltac:(rewrite V, V2; fsmall)) as [A2 _].
  rewrite V0, V1 in D2.
  assert (BD : 0 <= rnd (B2R s / 10) <= rnd (2 / 10)).
  { split; [apply rnd_ge_0; lra|]. apply rnd_mono. lra. }
  rewrite <- D2 in BD.
  destruct (fadd_S (dec "0.8") _ F FD ltac:(rewrite D, V; rewrite V2 in BD; fsmall)) as [A FA]. rewrite D in A.
  split; [assumption|]. rewrite A. split; [apply rnd_ge_B2R; lra|].
  rewrite <- V3, A2. apply rnd_mono. lra.
Qed.

Lemma amount_le (f lo hi : f64) (T : R) : fin f -> fin lo -> fin hi -> B2R lo <= B2R f <= B2R hi ->
  0 <= B2R lo -> B2R hi <= 1 -> T = B2R (fmul (fsub hi lo) (dec "10.0")) ->
  fin (fmul (fsub f lo) (dec "10.0")) /\ 0 <= B2R (fmul (fsub f lo) (dec "10.0")) <= T.
Proof.
  intros f1 f2 f3 b l0 h1 ->. fconst (dec "10.0").
  destruct (fsub_S f lo f1 f2 ltac:(fsmall)) as [S1 G1]. destruct (fsub_S hi lo f3 f2 ltac:(fsmall)) as [S2 G2].
  assert (0 <= B2R (fsub f lo) <= B2R (fsub hi lo)).
  { rewrite S1, S2. split; [apply rnd_ge_0; lra|apply rnd_mono; lra]. }
  assert (B2R (fsub hi lo) <= 1) by (rewrite S2; apply (rnd_le_IZR _ 1); [lia|lra]).
  destruct (fmul_S (fsub f lo) (dec "10.0") G1 F ltac:(rewrite V; fsmall)) as [M1 H1].
  destruct (fmul_S (fsub hi lo) (dec "10.0") G2 F ltac:(rewrite V; fsmall)) as [M2 H2].
  split; [assumption|]. rewrite M1, M2, V. split; [apply rnd_ge_0; lra|apply rnd_mono; lra].
Qed.

Lemma c_range s : sur_ok s = true -> fin (c_of s) /\
  0.525 - bpow radix2 (-49) <= B2R (c_of s) <= 0.69 + bpow radix2 (-49).
Proof.
  intros h. destruct (f_range s h) as [ff bf]. cbv zeta in ff, bf. unfold c_of. cbv zeta.
  set (f := fadd (dec "0.8") (fdiv s (dec "10.0"))) in *. clearbody f.
  fconst (dec "0.8"). fconst (dec "0.9"). fconst (dec "0.525"). fconst (dec "0.59"). fconst (dec "0.69"). fconst (dec "1.0").
  assert (T : bpow radix2 (-50) = / 1125899906842624 /\ bpow radix2 (-49) = / 562949953421312) by (split; reflexivity).
  destruct T as [T1 T2].
  assert (T3 : 0 < bpow radix2 (-1072) <= / 1125899906842624).
  { split; [apply bpow_gt_0|]. rewrite <- T1. apply bpow_le. lia. }
  assert (T4 : 1 <= bpow radix2 1020) by (change 1 with (bpow radix2 0); apply bpow_le; lia).
  destruct (fle (dec "0.9") f) eqn:L.
  - apply fle_fin in L; try assumption. fconst (fmul (fsub (dec "1.0") (dec "0.9")) (dec "10.0")).
    destruct (amount_le f (dec "0.9") (dec "1.0") _ ff F0 F4 ltac:(lra) ltac:(lra) ltac:(lra) eq_refl) as [FA BA].
    destruct (lerp_between (dec "0.59") (dec "0.69") _ F2 F3 FA ltac:(lra) ltac:(lra) ltac:(lra)) as [FL BL].
    split; [assumption|]. rewrite T1, V2, V3 in BL. rewrite T2. lra.
  - apply fle_fin_f in L; try assumption. fconst (fmul (fsub (dec "0.9") (dec "0.8")) (dec "10.0")).
    destruct (amount_le f (dec "0.8") (dec "0.9") _ ff F F0 ltac:(lra) ltac:(lra) ltac:(lra) eq_refl) as [FA BA].
    destruct (lerp_between (dec "0.525") (dec "0.59") _ F1 F2 FA ltac:(lra) ltac:(lra) ltac:(lra)) as [FL BL].
    split; [assumption|]. rewrite T1, V1, V2 in BL. rewrite T2. lra.
Qed.

Lemma nc_range s : sur_ok s = true ->
  let f := fadd (dec "0.8") (fdiv s (dec "10.0")) in fle (dec "0.8") f = true /\ fle f (dec "1.0") = true.
Proof.
  intros h f. destruct (f_range s h) as [ff bf]. fold f in ff, bf. fconst (dec "0.8"). fconst (dec "1.0").
  split; apply fle_fin; try assumption; lra.
Qed.

Lemma fmax_bg (b : f64) :
  fle (dec "0.1") (fmax (dec "0.1") b) = true /\
  (fle (dec "0.1") b = true -> B2R (fmax (dec "0.1") b) = B2R b) /\
  (fle (dec "0.1") b = false -> fmax (dec "0.1") b = dec "0.1").
Proof.
  fconst (dec "0.1"). pose proof (fin_not_nan _ F) as n. unfold fmax. rewrite n.
  assert (R : fle (dec "0.1") (dec "0.1") = true) by (apply fle_fin; try assumption; lra).
  destruct (is_nan b) eqn:nb.
  - split; [assumption|]. split; [|reflexivity]. intros q. apply fle_not_nan in q. destruct q. congruence.
  - destruct (flt (dec "0.1") b) eqn:L.
    + apply flt_true in L. split; [apply fle_val; try assumption; lra|]. split; [reflexivity|].
      intros q. apply fle_val_f in q; try assumption. lra.
    + apply flt_val_f in L; try assumption. split; [assumption|]. split; [|reflexivity].
      intros q. apply fle_true in q. assert (Q : val b = val (dec "0.1")) by lra.
      rewrite (val_fin (dec "0.1")) in Q by assumption.
      assert (fin b). { apply (val_fin_iff _ nb). rewrite Q. apply B2R_BIG. }
      rewrite val_fin in Q by assumption. now symmetry.
Qed.
Lemma lum_pos (l : f64) :
  flt (dec "0.0") (if flt (dec "0.0") l then l
       else fdiv (fmul (fdiv (dec "200.0") PI64) (y_from_lstar (dec "50.0"))) (dec "100.0")) = true.
Proof. destruct (flt (dec "0.0") l) eqn:E; [assumption|]. vm_compute. reflexivity. Qed.

Section Make.
Context {lm : Libm}.
Lemma make_panics_iff (w0 w1 w2 : f64) (rest : list f64) wp lum bg sur disc :
  wp = Some (w0 :: w1 :: w2 :: rest) \/ (wp = None /\ [w0; w1; w2] = [dec "95.047"; dec "100.0"; dec "108.883"] /\ rest = []) ->
  let s := match sur with Some s => s | None => dec "2.0" end in
  (make wp lum bg sur disc = Panic <-> ~ (fle (dec "0.0") s = true /\ fle s (dec "2.0") = true)).
Proof.
  intros W s.
  assert (W' : unwrap_or wp [v0 white_point_d65; v1 white_point_d65; v2 white_point_d65] = w0 :: w1 :: w2 :: rest).
  { destruct W as [->|(-> & E & ->)]; [reflexivity|]. cbn [unwrap_or]. unfold white_point_d65, v0, v1, v2. now rewrite E. }
  destruct (make_shape wp w0 w1 w2 rest lum bg sur disc W') as [P O].
  change (unwrap_or sur (dec "2.0")) with s in P, O. rewrite <- andb_true_iff. fold (sur_ok s).
  destruct (sur_ok s).
  - destruct (O eq_refl) as (vc & E & _). rewrite E. split; [discriminate|]. intros q. now contradiction q.
  - rewrite P by reflexivity. split; [discriminate|reflexivity].
Qed.

Lemma make_fields wp lum bg sur disc vc : make wp lum bg sur disc = Ok vc ->
  let l := match lum with Some l => l | None => dec "-1.0" end in
  let b := match bg with Some b => b | None => dec "50.0" end in
  fle (dec "0.1") (vc_background_lstar vc) = true /\
  (fle (dec "0.1") b = true -> B2R (vc_background_lstar vc) = B2R b) /\
  (fle (dec "0.1") b = false -> vc_background_lstar vc = dec "0.1") /\
  flt (dec "0.0") (vc_adapting_luminance vc) = true /\
  (flt (dec "0.0") l = true -> vc_adapting_luminance vc = l) /\
  (flt (dec "0.0") l = false ->
     vc_adapting_luminance vc = fdiv (fmul (fdiv (dec "200.0") PI64) (y_from_lstar (dec "50.0"))) (dec "100.0")) /\
  is_finite (vc_c vc) = true /\ 0.525 - bpow radix2 (-49) <= B2R (vc_c vc) <= 0.69 + bpow radix2 (-49) /\
  fle (dec "0.8") (vc_n_c vc) = true /\ fle (vc_n_c vc) (dec "1.0") = true.
Proof.
  intros E l b.
  destruct (unwrap_or wp [v0 white_point_d65; v1 white_point_d65; v2 white_point_d65]) as [|w0 [|w1 [|w2 rest]]] eqn:W;
    try (exfalso; destruct wp as [wp|]; [|discriminate W]; cbn [unwrap_or] in W; subst wp;
         rewrite short_white_point in E; [discriminate|cbn; lia]).
  destruct (make_shape wp w0 w1 w2 rest lum bg sur disc W) as [P O].
  destruct (sur_ok (unwrap_or sur (dec "2.0"))) eqn:S; [|rewrite P in E by reflexivity; discriminate].
  destruct (O eq_refl) as (vc' & E' & _ & _ & _ & B & L & C & N & _). rewrite E' in E. apply ok_inj in E. subst vc'.
  change (unwrap_or bg (dec "50.0")) with b in B. change (unwrap_or lum (dec "-1.0")) with l in L.
  destruct (fmax_bg b) as (B1 & B2 & B3). destruct (c_range _ S) as [C1 C2]. destruct (nc_range _ S) as [N1 N2].
  rewrite B, L, C, N. split; [assumption|]. split; [assumption|]. split; [assumption|].
  split; [apply lum_pos|]. split; [now intros ->|]. split; [now intros ->|].
  split; [assumption|]. split; [assumption|]. split; assumption.
Qed.
End Make.
