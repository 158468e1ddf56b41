(** * The default viewing conditions in numbers.  Proof file. *)
From Coq Require Import ZArith Bool Reals Lra Lia String List.
From Flocq Require Import Core Relative IEEE754.BinarySingleNaN.
From Verif Require Import F64 MathUtils ColorUtils ViewingConditions Spec SpecCam SpecViewing FloatFacts FloatMono PfMath PfTones PfLab PfGamma PfNear PfRel PfHct PfViewing PfVc PfCamG PfHueVc PfViewingReal PfViewingAll.
Import ListNotations.
Open Scope string_scope.
Open Scope R_scope.

Section Any.
Context {lm : Libm}.

Lemma dec50 : fin (dec "50.0") /\ B2R (dec "50.0") = 50.
Proof using. fconst (dec "50.0"). split; assumption. Qed.
Lemma dec2 : fin (dec "2.0") /\ B2R (dec "2.0") = 2.
Proof using. fconst (dec "2.0"). split; assumption. Qed.
Lemma d65 : (fin (dec "95.047") /\ fin (dec "100.0") /\ fin (dec "108.883")) /\ 95.047 - 1 / 10 ^ 12 <= B2R (dec "95.047") <= 95.047 + 1 / 10 ^ 12 /\
  B2R (dec "100.0") = 100 /\ 108.883 - 1 / 10 ^ 12 <= B2R (dec "108.883") <= 108.883 + 1 / 10 ^ 12.
Proof using. fconst (dec "95.047"). fconst (dec "100.0"). fconst (dec "108.883"). repeat split; try assumption; lra. Qed.

Lemma la0_val : frel la0 (200 / PI * luminance 50 / 100) (1 / 10 ^ 10) /\ 11 <= B2R la0 <= 12.
Proof using.
  destruct pi_float as (FP & E & B). destruct dec50 as [F5 V5]. destruct d65 as ((_ & F1 & _) & _ & V1 & _). fconst (dec "200.0"). unfold la0.
  destruct (luminance_near (dec "50.0") F5 ltac:(lra)) as [N _]. rewrite V5 in N.
  assert (EL : luminance 50 = 100 * (66 / 116) ^ 3) by (unfold luminance; destruct (Rlt_dec 8 50); [f_equal; f_equal; lra|lra]). rewrite EL in *.
  assert (I : 63 <= 200 / PI <= 64) by (split; [apply le_div|apply div_le]; lra).
  assert (NP : frel PI64 PI (1 / 10 ^ 13)) by (split; [exact FP|]; split; lra).
  pose proof (frel_div _ _ 200 PI 0 _ (frel_const _ _ 200 0 F V ltac:(split; lra)) NP ltac:(lra) ltac:(lra) ltac:(lra)) as N1. apply frel_w with (e' := 1 / 10 ^ 12) in N1; [|lra].
  pose proof (frel_mul _ _ _ _ _ _ N1 N ltac:(lra) ltac:(lra) ltac:(lra)) as N2. apply frel_w with (e' := 1 / 10 ^ 11) in N2; [|lra].
  pose proof (frel_div _ (dec "100.0") _ 100 _ 0 N2 (frel_const _ _ 100 0 F1 V1 ltac:(split; lra)) ltac:(lra) ltac:(lra) ltac:(lra)) as N3. apply frel_w with (e' := 1 / 10 ^ 10) in N3; [|lra].
  split; [exact N3|]. destruct N3 as [_ [_ b]]. lra.
Qed.
Lemma la0_pos : fgt la0 (dec "0.0") = true.
Proof using. destruct la0_val as [[f _] b]. fconst (dec "0.0"). unfold fgt. change Bltb with flt. apply (flt_fin _ _ F f). lra. Qed.

Lemma make_defaults wp lum bg sur disc :
  make wp lum bg sur disc =
  make (Some (match wp with Some w => w | None => [dec "95.047"; dec "100.0"; dec "108.883"] end))
       (Some (match lum with Some l => if fgt l (dec "0.0") then l else la0 | None => la0 end))
       (Some (match bg with Some b => b | None => dec "50.0" end))
       (Some (match sur with Some s => s | None => dec "2.0" end))
       (Some (match disc with Some d => d | None => false end)).
Proof.
  assert (E2 : fgt (dec "-1.0") (dec "0.0") = false) by (vm_compute; reflexivity). assert (L := la0_pos).
  assert (ST : forall l0 l1 : option f64, (let l := unwrap_or l0 (dec "-1.0") in if fgt l (dec "0.0") then l else la0) = (let l := unwrap_or l1 (dec "-1.0") in if fgt l (dec "0.0") then l else la0) ->
    forall wp bg sur disc, make wp l0 bg sur disc = make wp l1 bg sur disc).
  { intros l0 l1 h wp' bg' sur' disc'. unfold make. unfold la0 in h. rewrite h. reflexivity. }
  rewrite (ST lum (Some (match lum with Some l => if fgt l (dec "0.0") then l else la0 | None => la0 end))).
  2: { destruct lum as [l|]; cbn [unwrap_or]; cbv zeta; [destruct (fgt l (dec "0.0")) eqn:G; rewrite ?G, ?L; reflexivity|rewrite E2, L; reflexivity]. }
  assert (W : white_point_d65 = (dec "95.047", dec "100.0", dec "108.883")) by reflexivity.
  unfold make. rewrite W. cbn [v0 v1 v2 fst snd]. cbv beta iota delta [unwrap_or]. reflexivity.
Qed.

Hypothesis LA : libm_accurate (1 / 10 ^ 13) lm.

Lemma std_ordinary : ordinary (dec "95.047") (dec "100.0") (dec "108.883") la0 (dec "50.0") (dec "2.0").
Proof using.
  unfold ordinary, cone_red, cone_green, cone_blue. destruct d65 as ((f1 & f2 & f3) & b1 & b2 & b3). destruct la0_val as [[fl _] bl]. destruct dec50 as [f5 b5]. destruct dec2 as [f6 b6].
  rewrite b2, b5, b6. repeat split; try assumption; lra.
Qed.

Lemma s_rgb_made : s_rgb = Ok (made (dec "95.047") (dec "100.0") (dec "108.883") [] la0 (dec "50.0") (dec "2.0") false) /\
  follows_cam16 (made (dec "95.047") (dec "100.0") (dec "108.883") [] la0 (dec "50.0") (dec "2.0") false) (B2R (dec "95.047")) (B2R (dec "100.0")) (B2R (dec "108.883")) (B2R la0) (Rmax 0.1 (B2R (dec "50.0"))) (B2R (dec "2.0")) false.
Proof using LA.
  destruct (made_follows LA _ _ _ [] _ _ _ false std_ordinary) as [E H]. split; [|exact H]. unfold s_rgb. rewrite make_defaults. exact E.
Qed.

Lemma la0_close : close la0 (200 / PI * luminance 50 / 100).
Proof using. destruct la0_val as [h _]. apply close_frel with (1 := h). lra. Qed.

(** ** To six decimals *)
Lemma close_bounds x r lo hi : close x r -> 0 < r -> lo <= B2R x <= hi -> lo * (1 - 2 / 10 ^ 9) <= r <= hi * (1 + 2 / 10 ^ 9) \/ lo < 0.
Proof using.
  intros [f h] p b. rewrite (Rabs_pos_eq r) in h by lra. apply Rabs_le_inv in h. destruct (Rle_or_lt 0 lo); [left|right; assumption]. split; lra.
Qed.

Lemma at6_of x r v : close x r -> 0 < r <= 40 -> - (9 / 10 ^ 7) <= r - v <= 9 / 10 ^ 7 -> to_six x v.
Proof using.
  intros [f h] p b. split; [exact f|]. rewrite (Rabs_pos_eq r) in h by lra. apply Rabs_le_inv in h. apply Rabs_le. lra.
Qed.

Lemma response_bounds L G W U lo hi : U - 5 / 10 ^ 9 <= L * G * W / 100 <= U + 5 / 10 ^ 9 -> 0.38 <= U <= 0.4 -> 0 < lo -> 0 < hi ->
  forall p q r s p' q' r' s', lo ^ 5 <= p -> p ^ 5 <= q -> q * q <= r -> r <= s ^ 7 -> 0 < s <= (U - 5 / 10 ^ 9) ^ 3 -> 0 < p' <= hi ^ 5 -> 0 < q' <= p' ^ 5 -> r' <= q' * q' -> s' ^ 7 <= r' -> (U + 5 / 10 ^ 9) ^ 3 <= s' -> forall a b, a * (lo + 27.13) <= 400 * lo -> 400 * hi <= b * (hi + 27.13) -> 0 <= a <= 400 -> 0 <= b <= 400 ->
  a <= response L G W <= b.
Proof using.
  intros h bU pl ph p q r s p' q' r' s' c1 c2 c3 c4 c5 d1 d2 d3 d4 d5 a b ha hb ra rb.
  assert (h1 : lo ^ 50 <= (U - 5 / 10 ^ 9) ^ 21).
  { assert (0 <= lo ^ 5) by (apply pow_le; clear - pl; lra). assert (e1 := pow_incr (lo ^ 5) p 5 ltac:(split; assumption)). assert (0 <= (lo ^ 5) ^ 5) by (apply pow_le; assumption).
    assert (e2 := Rle_trans _ _ _ e1 c2). assert (e3 := Rmult_le_compat _ _ _ _ H0 H0 e2 e2). assert (e4 := pow_incr s ((U - 5 / 10 ^ 9) ^ 3) 7 (conj (Rlt_le _ _ (proj1 c5)) (proj2 c5))).
    rewrite <- !pow_mult in e3, e4. rewrite <- pow_add in e3. cbn [Nat.mul Nat.add] in e3, e4. exact (Rle_trans _ _ _ e3 (Rle_trans _ _ _ c3 (Rle_trans _ _ _ c4 e4))). }
  assert (h2 : (U + 5 / 10 ^ 9) ^ 21 <= hi ^ 50).
  { assert (0 <= (U + 5 / 10 ^ 9) ^ 3) by (apply pow_le; clear - bU; lra). assert (e1 := pow_incr p' (hi ^ 5) 5 (conj (Rlt_le _ _ (proj1 d1)) (proj2 d1))).
    assert (e2 := Rle_trans _ _ _ (proj2 d2) e1). assert (pq : 0 <= q') by exact (Rlt_le _ _ (proj1 d2)). assert (e3 := Rmult_le_compat _ _ _ _ pq pq e2 e2). assert (e4 := pow_incr ((U + 5 / 10 ^ 9) ^ 3) s' 7 ltac:(split; assumption)).
    rewrite <- !pow_mult in e3, e4. rewrite <- pow_add in e3. cbn [Nat.mul Nat.add] in e3, e4. exact (Rle_trans _ _ _ e4 (Rle_trans _ _ _ d4 (Rle_trans _ _ _ d3 e3))). }
  clear c1 c2 c3 c4 c5 d1 d2 d3 d4 d5 p q r s p' q' r' s'. unfold response. set (x := L * G * W / 100) in *. clearbody x.
  assert (EY : 0.42 = INR 21 / INR 50) by (clear; rewrite !INR_IZR_INZ; change (Z.of_nat 21) with 21%Z; change (Z.of_nat 50) with 50%Z; lra).
  assert (B1 : 0 <= U - 5 / 10 ^ 9 <= x) by (clear - h bU; lra). assert (B2 : 0 <= x <= U + 5 / 10 ^ 9) by (clear - h bU; lra). assert (B3 : 0 < x) by (clear - h bU; lra).
  assert (h3 := Rle_trans _ _ _ h1 (pow_incr _ _ 21 B1)). assert (h4 := Rle_trans _ _ _ (pow_incr _ _ 21 B2) h2). clear h1 h2.
  assert (X1 := rpow_ratio_lo x lo 21 50 B3 pl ltac:(clear; lia) h3). assert (X2 := rpow_ratio_hi x hi 21 50 B3 ph ltac:(clear; lia) h4). clear h3 h4. rewrite <- EY in X1, X2.
  set (p := Rpower x 0.42) in *. clearbody p. split.
  - apply le_div; [lra|]. assert ((400 - a) * lo <= (400 - a) * p) by (apply Rmult_le_compat_l; lra). lra.
  - apply div_le; [lra|]. assert ((400 - b) * p <= (400 - b) * hi) by (apply Rmult_le_compat_l; lra). lra.
Qed.

Lemma standard_values : exists vc, s_rgb = Ok vc /\
  to_six (vc_n vc) 0.184187 /\ to_six (vc_z vc) 1.909170 /\ to_six (vc_nbb vc) 1.016919 /\ to_six (vc_ncb vc) 1.016919 /\
  to_six (vc_c vc) 0.69 /\ to_six (vc_n_c vc) 1 /\
  to_six (v0 (vc_rgb_d vc)) 1.021178 /\ to_six (v1 (vc_rgb_d vc)) 0.986308 /\ to_six (v2 (vc_rgb_d vc)) 0.933961 /\
  to_six (vc_fl vc) 0.388481 /\ to_six (vc_f_lroot vc) 0.789483 /\ to_six (vc_aw vc) 29.980997.
Proof using LA.
  destruct s_rgb_made as [E H]. eexists. split; [exact E|]. clear E.
  assert (EL : luminance (Rmax 0.1 (B2R (dec "50.0"))) / B2R (dec "100.0") = (66 / 116) ^ 3).
  { destruct dec50 as [_ V]. destruct d65 as (_ & _ & V0 & _). rewrite V, V0, Rmax_right by lra. unfold luminance. destruct (Rlt_dec 8 50); [|lra]. lra. }
  destruct H as [hn hz hb hb' hc hf h0 h1 h2 hl hlr ha]. rewrite EL in hn, hz, hb, hb', ha. set (vc := made _ _ _ _ _ _ _ _) in *.
  assert (E2 : B2R (dec "2.0") = 2) by exact (proj2 dec2). rewrite E2 in *.
  assert (BZ : 1.9091695 <= exponent_z ((66 / 116) ^ 3) <= 1.9091696).
  { unfold exponent_z. assert (S1 : sqrt (0.4291695 * 0.4291695) <= sqrt ((66 / 116) ^ 3)) by (apply sqrt_le_1; lra). assert (S2 : sqrt ((66 / 116) ^ 3) <= sqrt (0.4291696 * 0.4291696)) by (apply sqrt_le_1; lra).
    rewrite sqrt_square in S1, S2 by lra. lra. }
  assert (BN : 1.01691918 <= induction_nbb ((66 / 116) ^ 3) <= 1.01691919).
  { unfold induction_nbb. assert (B : 1.01691918 / 0.725 <= Rpower (1 / (66 / 116) ^ 3) 0.2 <= 1.01691919 / 0.725); [|lra].
    replace 0.2 with (INR 1 / INR 5) by (cbn [INR]; lra). split; [apply rpow_ratio_lo|apply rpow_ratio_hi]; try lra; lia. }
  destruct (fl0_near LA) as [_ BF].
  assert (BL : 0.388481452 <= level (B2R la0) <= 0.388481456).
  { change (vc_fl vc) with fl0 in hl. assert (PL : 0 < level (B2R la0)) by (destruct (fFL_near LA la0) as [_ R]; [exact (proj1 (proj1 la0_val))|pose proof la0_val; lra|lra]).
    destruct (close_bounds _ _ _ _ hl PL BF) as [b|b]; lra. }
  assert (GN : forall (w : f64) u W G, u <= B2R fl0 * B2R (adapt w) <= u + 5 / 10 ^ 10 -> close (adapt w) W -> 0 < W -> 0.388481453779 * (G - 2 / 10 ^ 9) <= u - 1 / 10 ^ 10 -> u + 6 / 10 ^ 10 <= 0.388481453779 * (G + 2 / 10 ^ 9) -> 0.9 <= G <= 1.1 -> G - 5 / 10 ^ 9 <= W <= G + 5 / 10 ^ 9).
  { intros w u W G hu cl pW h1' h2' bG. set (a := B2R (adapt w)) in *.
    assert (b : G - 2 / 10 ^ 9 <= a <= G + 2 / 10 ^ 9).
    { split; apply Rmult_le_reg_l with (B2R fl0); try lra; [apply Rle_trans with (0.38848145379 * (G - 2 / 10 ^ 9))|apply Rle_trans with (0.38848145377 * (G + 2 / 10 ^ 9))]; try (apply Rmult_le_compat_r; lra); lra. }
    destruct (close_bounds _ _ _ _ cl pW b) as [c|c]; lra. }
  assert (PG : forall W, 20 <= W <= 200 -> 0 < gain (adaptation false 2 (B2R la0)) W).
  { intros W bW. destruct (fD_near LA false (dec "2.0") la0 (proj1 dec2) ltac:(lra) (proj1 (proj1 la0_val)) ltac:(pose proof la0_val; lra)) as [_ bD]. rewrite E2 in bD.
    unfold gain. set (d := adaptation false 2 (B2R la0)) in *. clearbody d. assert (0.5 <= 100 / W) by (apply le_div; lra). assert (d * 0.5 <= d * (100 / W)) by (apply Rmult_le_compat_l; lra). lra. }
  assert (C0 : 97.5552924 <= cone_red (B2R (dec "95.047")) (B2R (dec "100.0")) (B2R (dec "108.883")) <= 97.5552926 /\
    101.6468984 <= cone_green (B2R (dec "95.047")) (B2R (dec "100.0")) (B2R (dec "108.883")) <= 101.6468986 /\
    108.4769243 <= cone_blue (B2R (dec "95.047")) (B2R (dec "100.0")) (B2R (dec "108.883")) <= 108.4769245).
  { unfold cone_red, cone_green, cone_blue. destruct d65 as (_ & b1 & b2 & b3). rewrite b2. lra. }
  set (WR := cone_red _ _ _) in *. set (WG := cone_green _ _ _) in *. set (WB := cone_blue _ _ _) in *. destruct C0 as (CR & CG & CB).
  assert (G0 : 1.02117770275 - 5 / 10 ^ 9 <= gain (adaptation false 2 (B2R la0)) WR <= 1.02117770275 + 5 / 10 ^ 9).
  { apply (GN rw0 _ _ _ (u1_near LA)); [exact h0|apply PG; lra|lra|lra|lra]. }
  assert (G1 : 0.98630772943 - 5 / 10 ^ 9 <= gain (adaptation false 2 (B2R la0)) WG <= 0.98630772943 + 5 / 10 ^ 9).
  { apply (GN gw0 _ _ _ (u2_near LA)); [exact h1|apply PG; lra|lra|lra|lra]. }
  assert (G2 : 0.93396050828 - 5 / 10 ^ 9 <= gain (adaptation false 2 (B2R la0)) WB <= 0.93396050828 + 5 / 10 ^ 9).
  { apply (GN bw0 _ _ _ (u3_near LA)); [exact h2|apply PG; lra|lra|lra|lra]. }
  assert (R0 : 9.656952187 <= response (level (B2R la0)) (gain (adaptation false 2 (B2R la0)) WR) WR <= 9.656952296).
  { apply (response_bounds _ _ _ 0.3870102336 0.6711868299 0.6711868376) with (p := 0.1362125523001) (q := 0.00004689058525017) (r := 0.000000002198726985104) (s := 0.05796519890305) (p' := 0.1362125601133) (q' := 0.00004689059869846) (r' := 0.000000002198728246300) (s' := 0.05796520339636); try (clear; lra).
    set (g := gain _ WR) in *. set (l := level _) in *. clearbody g l WR. clear - BL G0 CR.
    assert (P1 : 0.388481452 * (1.02117770275 - 5 / 10 ^ 9) <= l * g) by (apply Rmult_le_compat; lra). assert (P2 : l * g <= 0.388481456 * (1.02117770275 + 5 / 10 ^ 9)) by (apply Rmult_le_compat; lra).
    assert (Q1 : 0.388481452 * (1.02117770275 - 5 / 10 ^ 9) * 97.5552924 <= l * g * WR) by (apply Rmult_le_compat; lra). assert (Q2 : l * g * WR <= 0.388481456 * (1.02117770275 + 5 / 10 ^ 9) * 97.5552926) by (apply Rmult_le_compat; lra). lra. }
  assert (R1 : 9.682086708 <= response (level (B2R la0)) (gain (adaptation false 2 (B2R la0)) WG) WG <= 9.682086817).
  { apply (response_bounds _ _ _ 0.3894725541 0.6729770873 0.6729770950) with (p := 0.1380388685024) (q := 0.00005011952584682) (r := 0.000000002511966871111) (s := 0.05907864950679) (p' := 0.1380388763993) (q' := 0.00005011954018295) (r' := 0.000000002511968308150) (s' := 0.05907865405747); try (clear; lra).
    set (g := gain _ WG) in *. set (l := level _) in *. clearbody g l WG. clear - BL G1 CG.
    assert (P1 : 0.388481452 * (0.98630772943 - 5 / 10 ^ 9) <= l * g) by (apply Rmult_le_compat; lra). assert (P2 : l * g <= 0.388481456 * (0.98630772943 + 5 / 10 ^ 9)) by (apply Rmult_le_compat; lra).
    assert (Q1 : 0.388481452 * (0.98630772943 - 5 / 10 ^ 9) * 101.6468984 <= l * g * WG) by (apply Rmult_le_compat; lra). assert (Q2 : l * g * WG <= 0.388481456 * (0.98630772943 + 5 / 10 ^ 9) * 101.6468986) by (apply Rmult_le_compat; lra). lra. }
  assert (R2 : 9.723831541 <= response (level (B2R la0)) (gain (adaptation false 2 (B2R la0)) WB) WB <= 9.723831649).
  { apply (response_bounds _ _ _ 0.3935828503 0.6759509574 0.6759509650) with (p := 0.1411158959719) (q := 0.00005596025536148) (r := 0.000000003131550180123) (s := 0.06096891733570) (p' := 0.1411159039049) (q' := 0.00005596027109084) (r' := 0.000000003131551940560) (s' := 0.06096892198294); try (clear; lra).
    set (g := gain _ WB) in *. set (l := level _) in *. clearbody g l WB. clear - BL G2 CB.
    assert (P1 : 0.388481452 * (0.93396050828 - 5 / 10 ^ 9) <= l * g) by (apply Rmult_le_compat; lra). assert (P2 : l * g <= 0.388481456 * (0.93396050828 + 5 / 10 ^ 9)) by (apply Rmult_le_compat; lra).
    assert (Q1 : 0.388481452 * (0.93396050828 - 5 / 10 ^ 9) * 108.4769243 <= l * g * WB) by (apply Rmult_le_compat; lra). assert (Q2 : l * g * WB <= 0.388481456 * (0.93396050828 + 5 / 10 ^ 9) * 108.4769245) by (apply Rmult_le_compat; lra). lra. }
  unfold achromatic in ha. set (r0 := response _ _ WR) in *. set (r1 := response _ _ WG) in *. set (r2 := response _ _ WB) in *. set (nb := induction_nbb _) in *. clearbody r0 r1 r2 nb.
  assert (A1 : (2 * 9.656952187 + 9.682086708 + 9.723831541 / 20) * 1.01691918 <= (2 * r0 + r1 + r2 / 20) * nb) by (apply Rmult_le_compat; lra).
  assert (A2 : (2 * r0 + r1 + r2 / 20) * nb <= (2 * 9.656952296 + 9.682086817 + 9.723831649 / 20) * 1.01691919) by (apply Rmult_le_compat; lra).
  assert (BR : 0.78948261 <= Rpower (level (B2R la0)) 0.25 <= 0.78948263).
  { assert (EY : 0.25 = INR 1 / INR 4) by (cbn [INR]; lra). rewrite EY. set (l := level _) in *. clearbody l. clear - BL.
    split; [apply rpow_ratio_lo|apply rpow_ratio_hi]; try lra; lia. }
  assert (BC : surround_c 2 = 0.69) by (unfold surround_c; destruct (Rle_dec 1 2); lra). assert (BS : surround_F 2 = 1) by (unfold surround_F; lra). rewrite BC in hc. rewrite BS in hf.
  split; [apply at6_of with (1 := hn); lra|]. split; [apply at6_of with (1 := hz); lra|]. split; [apply at6_of with (1 := hb); lra|]. split; [apply at6_of with (1 := hb'); lra|].
  split; [apply at6_of with (1 := hc); lra|]. split; [apply at6_of with (1 := hf); lra|].
  split; [apply at6_of with (1 := h0); lra|]. split; [apply at6_of with (1 := h1); lra|]. split; [apply at6_of with (1 := h2); lra|].
  split; [apply at6_of with (1 := hl); lra|]. split; [apply at6_of with (1 := hlr); lra|]. apply at6_of with (1 := ha); lra.
Qed.

Lemma standard_follows : exists vc, s_rgb = Ok vc /\ close (vc_adapting_luminance vc) (200 / PI * luminance 50 / 100) /\
  follows_cam16 vc (B2R (dec "95.047")) 100 (B2R (dec "108.883")) (B2R (vc_adapting_luminance vc)) 50 2 false.
Proof using LA.
  destruct s_rgb_made as [E H]. eexists. split; [exact E|]. split; [exact la0_close|].
  assert (E1 : B2R (dec "100.0") = 100) by exact (proj1 (proj2 (proj2 d65))). assert (E2 : B2R (dec "2.0") = 2) by exact (proj2 dec2).
  assert (E3 : Rmax 0.1 (B2R (dec "50.0")) = 50) by (rewrite (proj2 dec50); apply Rmax_right; lra). rewrite E1, E2, E3 in H. exact H.
Qed.

Lemma follows_ex x y z rest la l s disc : ordinary x y z la l s -> exists vc,
  make (Some (x :: y :: z :: rest)) (Some la) (Some l) (Some s) (Some disc) = Ok vc /\
  follows_cam16 vc (B2R x) (B2R y) (B2R z) (B2R la) (Rmax 0.1 (B2R l)) (B2R s) disc.
Proof using LA. intros h. exact (ex_intro _ _ (made_follows LA x y z rest la l s disc h)). Qed.
End Any.

(** Illuminant A in a dim surround, luminance 4, background 20; and a black background in the dark. *)
Lemma lamp_ordinary : ordinary (dec "109.85") (dec "100.0") (dec "35.585") (dec "4.0") (dec "20.0") (dec "1.0") /\
  ordinary (dec "96.42") (dec "100.0") (dec "82.51") (dec "318.31") (dec "0.0") (dec "0.0").
Proof.
  split; unfold ordinary, cone_red, cone_green, cone_blue.
  - fconst (dec "109.85"). fconst (dec "100.0"). fconst (dec "35.585"). fconst (dec "4.0"). fconst (dec "20.0"). fconst (dec "1.0"). rewrite V, V0, V1, V2, V3, V4. repeat split; try assumption; lra.
  - fconst (dec "96.42"). fconst (dec "100.0"). fconst (dec "82.51"). fconst (dec "318.31"). fconst (dec "0.0"). rewrite V, V0, V1, V2, V3. repeat split; try assumption; lra.
Qed.
