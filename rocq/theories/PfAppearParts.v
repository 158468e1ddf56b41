(** * The appearance of a stimulus: the attributes one by one.  Proof file. *)
From Coq Require Import ZArith Bool Reals Lra Lia Psatz String List.
From Flocq Require Import Core Relative IEEE754.BinarySingleNaN.
From Verif Require Import F64 MathUtils ColorUtils ViewingConditions Cam16 Spec SpecCam SpecViewing SpecAppear FloatFacts FloatMono PfMath PfTones PfLab PfGamma PfNear PfVc PfRel
  PfCamA PfCamB PfCamC PfCamD PfCamE PfCamF PfCamG PfCamH PfCamTrip PfAttr PfViewingReal PfAppearReal.
Open Scope string_scope.
Open Scope R_scope.

(** ** Relative errors, for small ones *)
Lemma rel_rnd40 x r e : rel x r e -> 0 <= e <= 1 / 2 -> 1 / 10 ^ 40 <= r -> rel (rnd x) r (e + 3 / 10 ^ 16).
Proof.
  intros [h b] he hr. assert (r * e <= r * (1 / 2)) by (apply Rmult_le_compat_l; lra). assert (0 <= r * e) by (apply Rmult_le_pos; lra).
  pose proof (rnd_bounds x ltac:(lra)) as R. pose proof eta_small. unfold u53 in R. split; [exact h|]. lra.
Qed.
Lemma rel_ms x y r s a b : rel x r a -> rel y s b -> 0 <= a <= 1 / 1000 -> 0 <= b <= 1 / 1000 -> rel (x * y) (r * s) (1.001 * (a + b)).
Proof.
  intros [hr bx] [hs by_] ha hb. assert (P : 0 < r * s) by (now apply Rmult_lt_0_compat). split; [exact P|].
  assert (ab : 0 <= a * b <= 1 / 1000 * b) by (split; [apply Rmult_le_pos; lra|apply Rmult_le_compat_r; lra]).
  assert (ra : r * a <= r * (1 / 1000)) by (apply Rmult_le_compat_l; lra). assert (sb : s * b <= s * (1 / 1000)) by (apply Rmult_le_compat_l; lra).
  assert (U : x * y <= r * (1 + a) * (s * (1 + b))) by (apply Rmult_le_compat; lra). assert (L : r * (1 - a) * (s * (1 - b)) <= x * y) by (apply Rmult_le_compat; lra).
  assert (PAB : r * s * (a * b) <= r * s * (1 / 1000 * b)) by (apply Rmult_le_compat_l; lra). assert (0 <= r * s * (a * b)) by (apply Rmult_le_pos; lra). assert (0 <= r * s * a) by (apply Rmult_le_pos; lra). assert (0 <= r * s * b) by (apply Rmult_le_pos; lra).
  split; lra.
Qed.
Lemma rel_is y s b : rel y s b -> 0 <= b <= 1 / 2000 -> rel (/ y) (/ s) (1.001 * b).
Proof.
  intros [hs h] hb. assert (sb : s * b <= s * (1 / 2000)) by (apply Rmult_le_compat_l; lra). assert (py : 0 < y) by lra. assert (pi : 0 < / s) by (now apply Rinv_0_lt_compat). split; [exact pi|].
  assert (bb : b * b <= 1 / 2000 * b) by (apply Rmult_le_compat_r; lra).
  split; apply Rmult_le_reg_r with (s * y); try (apply Rmult_lt_0_compat; lra).
  - replace (/ y * (s * y)) with s by (field; lra). replace (/ s * (1 - 1.001 * b) * (s * y)) with ((1 - 1.001 * b) * y) by (field; lra).
    apply Rle_trans with ((1 - 1.001 * b) * (s * (1 + b))); [apply Rmult_le_compat_l; lra|]. assert (s * (b * b) >= 0) by (apply Rle_ge, Rmult_le_pos; [lra|apply Rmult_le_pos; lra]). assert (0 <= s * b) by (apply Rmult_le_pos; lra). lra.
  - replace (/ y * (s * y)) with s by (field; lra). replace (/ s * (1 + 1.001 * b) * (s * y)) with ((1 + 1.001 * b) * y) by (field; lra).
    apply Rle_trans with ((1 + 1.001 * b) * (s * (1 - b))); [|apply Rmult_le_compat_l; lra]. assert (s * (b * b) <= s * (1 / 2000 * b)) by (apply Rmult_le_compat_l; lra). assert (0 <= s * b) by (apply Rmult_le_pos; lra). lra.
Qed.
Lemma frel_ms x y r s a b : frel x r a -> frel y s b -> 0 <= a <= 1 / 1000 -> 0 <= b <= 1 / 1000 -> 1 / 10 ^ 40 <= r * s <= 10 ^ 20 -> frel (fmul x y) (r * s) (1.001 * (a + b) + 3 / 10 ^ 16).
Proof.
  intros [fx hx] [fy hy] ha hb h. pose proof (rel_ms _ _ _ _ _ _ hx hy ha hb) as P. pose proof (rel_big _ _ _ P ltac:(lra) ltac:(lra)) as B.
  destruct (fmul_S x y fx fy ltac:(unfold HUGE; lra)) as [E F]. split; [exact F|]. rewrite E. apply rel_rnd40; [exact P|lra|lra].
Qed.
Lemma frel_ds x y r s a b : frel x r a -> frel y s b -> 0 <= a <= 1 / 10000 -> 0 <= b <= 1 / 10000 -> 1 / 10 ^ 40 <= r / s <= 10 ^ 20 -> frel (fdiv x y) (r / s) (1.003 * (a + b) + 3 / 10 ^ 16).
Proof.
  intros [fx hx] [fy hy] ha hb h. assert (P : rel (B2R x / B2R y) (r / s) (1.003 * (a + b))).
  { apply rel_w with (1.001 * (a + 1.001 * b)); [|lra]. apply rel_ms; [exact hx|apply rel_is; [exact hy|lra]|lra|lra]. }
  pose proof (rel_big _ _ _ P ltac:(lra) ltac:(lra)) as B. pose proof (rel_pos _ _ _ hy ltac:(lra)) as Y.
  destruct (fdiv_S x y fx ltac:(lra) ltac:(unfold HUGE; lra)) as [E F]. split; [exact F|]. rewrite E. apply rel_rnd40; [exact P|lra|lra].
Qed.
Lemma frel_sq x r e : frel x r e -> 0 <= e <= 1 / 2 -> 1 / 10 ^ 40 <= r <= 10 ^ 20 -> frel (fsqrt x) (sqrt r) (e + 3 / 10 ^ 16).
Proof.
  intros [f h] he hr. pose proof (rel_pos _ _ _ h ltac:(lra)) as P. destruct (fsqrt_R x f ltac:(lra)) as [F E].
  split; [exact F|]. rewrite E. apply rel_rnd40; [now apply rel_sqrt|lra|].
  apply Rle_trans with (sqrt (1 / 10 ^ 20 * (1 / 10 ^ 20))); [rewrite sqrt_square; lra|apply sqrt_le_1_alt; lra].
Qed.

(** ** Errors that are relative or tiny *)
Definition mix (x : f64) (r e d : R) : Prop := fin x /\ 0 <= r /\ - (r * e + d) <= B2R x - r <= r * e + d.
Lemma mix_six x r e d : mix x r e d -> e <= 1 / 10 ^ 6 -> d <= 1 / 10 ^ 6 -> six x r.
Proof. intros (f & p & b) he hd. split; [exact f|]. rewrite (Rabs_pos_eq r) by lra. assert (r * e <= r * (1 / 10 ^ 6)) by (apply Rmult_le_compat_l; lra). apply Rabs_le. lra. Qed.
Lemma frel_mix x r e : frel x r e -> mix x r e 0.
Proof. intros [f [h b]]. split; [exact f|]. split; lra. Qed.
Lemma mix_w x r e d e' d' : mix x r e d -> e <= e' -> d <= d' -> mix x r e' d'.
Proof. intros (f & p & b) he hd. split; [exact f|]. split; [exact p|]. assert (r * e <= r * e') by (apply Rmult_le_compat_l; lra). lra. Qed.
(** A product with a factor that is known relatively. *)
Lemma mix_mul x y r s e a d S : mix x r e d -> frel y s a -> 0 <= e <= 1 / 1000 -> 0 <= a <= 1 / 1000 -> 0 <= d <= 1 -> s <= S -> S <= 10 ^ 7 -> r <= 10 ^ 16 -> 0 <= B2R x ->
  mix (fmul x y) (r * s) (1.002 * (e + a) + 3 / 10 ^ 16) (1.002 * S * d + 1 / 10 ^ 30) /\ 0 <= B2R (fmul x y).
Proof.
  intros (fx & pr & bx) [fy [ps by_]] he ha hd hS hS7 hr px.
  assert (re : 0 <= r * e <= r * (1 / 1000)) by (split; [apply Rmult_le_pos; lra|apply Rmult_le_compat_l; lra]). assert (sa : 0 <= s * a <= s * (1 / 1000)) by (split; [apply Rmult_le_pos; lra|apply Rmult_le_compat_l; lra]).
  assert (py : 0 < B2R y) by lra. assert (rs : 0 <= r * s) by (apply Rmult_le_pos; lra).
  assert (D1 : B2R x * B2R y - r * s = (B2R x - r) * B2R y + r * (B2R y - s)) by ring.
  assert (A1 : - ((r * e + d) * (1.001 * s)) <= (B2R x - r) * B2R y <= (r * e + d) * (1.001 * s)) by (apply mul_bnd; lra).
  assert (A2 : - (r * (s * a)) <= r * (B2R y - s) <= r * (s * a)) by (apply mul_bnd; lra).
  assert (ds : 0 <= d * s <= d * S) by (split; [apply Rmult_le_pos; lra|apply Rmult_le_compat_l; lra]).
  assert (rse : 0 <= r * s * e <= r * s * (1 / 1000)) by (split; [apply Rmult_le_pos; lra|apply Rmult_le_compat_l; lra]). assert (rsa : 0 <= r * s * a <= r * s * (1 / 1000)) by (split; [apply Rmult_le_pos; lra|apply Rmult_le_compat_l; lra]).
  assert (T : - (r * s * (1.001 * (e + a)) + 1.001 * (d * S)) <= B2R x * B2R y - r * s <= r * s * (1.001 * (e + a)) + 1.001 * (d * S)) by lra.
  assert (RB : r * s <= 10 ^ 16 * 10 ^ 7) by (apply Rmult_le_compat; lra). assert (DB : 0 <= d * S <= 10 ^ 7) by (split; [lra|]; apply Rle_trans with (1 * 10 ^ 7); [apply Rmult_le_compat; lra|lra]).
  assert (PXY : 0 <= B2R x * B2R y) by (apply Rmult_le_pos; lra). clear A1 A2 D1.
  destruct (fmul_S x y fx fy ltac:(unfold HUGE; lra)) as [E F]. rewrite E. split; [|now apply rnd_ge_0]. split; [exact F|]. split; [exact rs|]. rewrite E.
  pose proof (rnd_bounds _ PXY) as R. pose proof eta_small. unfold u53 in R. lra.
Qed.

(** ** The hue *)
Lemma hue_degrees (h : f64) th (n : nat) : fin h -> 0 <= B2R h < 360 -> - (5 / 10 ^ 13) <= B2R (rad h) - (th + 2 * INR n * PI) <= 5 / 10 ^ 13 ->
  Rabs (B2R h - (th + 2 * INR n * PI) * 180 / PI) <= 1 / 10 ^ 9 /\ radians ((th + 2 * INR n * PI) * 180 / PI) = th + 2 * INR n * PI.
Proof.
  intros fh bh hr. pose proof pi_lo as PL. pose proof pi_hi as PH. set (q := th + 2 * INR n * PI) in *. clearbody q. split; [|unfold radians; field; lra].
  destruct pi_float as (fp & bp & bp'). unfold rad in hr. fconst (dec "180.0").
  pose proof (near_mul h PI64 (B2R h) PI 0 (1.1 / 10 ^ 13) 360 4 (near_self h fh) ltac:(split; [exact fp|lra]) ltac:(lra) ltac:(lra) ltac:(lra) ltac:(lra) ltac:(lra) ltac:(lra) ltac:(lra)) as N1.
  apply near_weak with (e' := 5 / 10 ^ 11) in N1; [|unfold uu; lra]. assert (HP : 0 <= B2R h * PI <= 360 * 4) by (split; [apply Rmult_le_pos; lra|apply Rmult_le_compat; lra]).
  pose proof (near_div _ (dec "180.0") _ 180 _ 0 10 180 N1 (near_c _ _ 180 0 F V ltac:(lra)) ltac:(lra) ltac:(lra) ltac:(lra) ltac:(lra) ltac:(lra) ltac:(lra) ltac:(lra) ltac:(lra)) as N2.
  apply near_weak with (e' := 5 / 10 ^ 13) in N2; [|unfold uu; lra]. destruct N2 as [_ N2]. set (rd := fdiv _ _) in *. clearbody rd. clear - hr N2 PL PH.
  replace (B2R h - q * 180 / PI) with ((B2R h * PI - q * 180) / PI) by (field; lra). apply Rabs_le. split; [apply le_div|apply div_le]; lra.
Qed.

Section Acc.
Context {lm : Libm} (LA : libm_accurate (1 / 10 ^ 13) lm).

Lemma p1_rel (nc ncb h : f64) th Nc Nb : frel nc Nc (1 / 10 ^ 9) -> 0.8 <= Nc <= 1 -> frel ncb Nb (1 / 10 ^ 9) -> 0.3 <= Nb <= 8 -> fin (rad h) -> 0 <= B2R (rad h) <= 7 ->
  - (8 / 10 ^ 13) <= cos (B2R (rad h) + 2) - cos (th + 2) <= 8 / 10 ^ 13 ->
  frel (fw_p1 nc ncb h) (50000 / 13 * Nc * Nb * ((cos (th + 2) + 3.8) / 4)) (3 / 10 ^ 9) /\ 640 <= 50000 / 13 * Nc * Nb * ((cos (th + 2) + 3.8) / 4) <= 37000.
Proof using LA.
  intros hn bn hb bb fh bh ct. unfold fw_p1. set (hr := rad h) in *. clearbody hr. fconst (dec "2.0").
  destruct (fadd_S hr (dec "2.0") fh F ltac:(rewrite V; fsmall)) as [E1 F1]. rewrite V in E1.
  pose proof (rnd_uu (B2R hr + 2) 10 ltac:(lra) ltac:(lra)) as R1. rewrite <- E1 in R1. unfold uu in R1.
  destruct (la_trig _ _ LA (fadd hr (dec "2.0")) F1 ltac:(lra)) as (_ & _ & fc & ec).
  set (x := fadd hr (dec "2.0")) in *. clearbody x.
  pose proof (cos_lip (B2R x) (B2R hr + 2)) as LC. assert (LX : Rabs (B2R x - (B2R hr + 2)) <= 2 / 10 ^ 15) by (apply Rabs_le; lra).
  assert (LC' := Rabs_le_inv _ _ (Rle_trans _ _ _ LC LX)). clear LC LX.
  set (c0 := cos (th + 2)) in *. assert (B0 : -1 <= c0 <= 1) by apply COS_bound.
  assert (NC : near (cosf x) c0 (9.1 / 10 ^ 13)) by (split; [exact fc|]; apply Rabs_le_inv in ec; lra).
  set (cx := cosf x) in *. clearbody cx c0. clear ec fc.
  fconst (dec "3.8"). fconst (fdiv (dec "1.0") (dec "4.0")). fconst (fdiv (dec "50000.0") (dec "13.0")).
  assert (N1 : near (dec "3.8") 3.8 (1 / 10 ^ 15)) by (split; [exact F0|rewrite V0; lra]).
  pose proof (near_add _ _ _ _ _ _ 5 NC N1 ltac:(lra) ltac:(lra) ltac:(lra) ltac:(lra) ltac:(lra)) as N2.
  pose proof (near_frel _ _ _ 2.8 N2 ltac:(lra) ltac:(unfold uu; lra)) as N3.
  assert (N4 : frel (fadd cx (dec "3.8")) (c0 + 3.8) (3.3 / 10 ^ 13)) by (apply frel_w with (1 := N3); unfold uu; lra). clear N2 N3.
  assert (N5 : frel (fdiv (dec "1.0") (dec "4.0")) 0.25 0) by (apply frel_const with (1 := F2) (2 := V1); split; lra).
  pose proof (frel_ms _ _ _ _ _ _ N5 N4 ltac:(lra) ltac:(lra) ltac:(lra)) as N6. apply frel_w with (e' := 4 / 10 ^ 13) in N6; [|lra].
  assert (N7 : frel (fdiv (dec "50000.0") (dec "13.0")) (50000 / 13) (1 / 10 ^ 15)) by (apply frel_const with (1 := F3) (2 := V2); split; lra).
  pose proof (frel_ms _ _ _ _ _ _ N7 N6 ltac:(lra) ltac:(lra) ltac:(lra)) as N8. apply frel_w with (e' := 5 / 10 ^ 13) in N8; [|lra].
  set (K := 50000 / 13 * (0.25 * (c0 + 3.8))) in *. assert (BK : 2690 <= K <= 4616) by (unfold K; lra).
  assert (B1 : 2690 * 0.8 <= K * Nc <= 4616 * 1) by (split; apply Rmult_le_compat; lra). assert (B2 : 2690 * 0.8 * 0.3 <= K * Nc * Nb <= 4616 * 1 * 8) by (split; apply Rmult_le_compat; lra).
  pose proof (frel_ms _ _ _ _ _ _ N8 hn ltac:(lra) ltac:(lra) ltac:(lra)) as N9. apply frel_w with (e' := 1.1 / 10 ^ 9) in N9; [|lra].
  pose proof (frel_ms _ _ _ _ _ _ N9 hb ltac:(lra) ltac:(lra) ltac:(lra)) as N10. apply frel_w with (e' := 3 / 10 ^ 9) in N10; [|lra].
  replace (50000 / 13 * Nc * Nb * ((c0 + 3.8) / 4)) with (K * Nc * Nb) by (unfold K; lra). split; [exact N10|lra].
Qed.

(** ** Sums of responses *)
Lemma p2_rel (r g b : f64) R G B : frel r R (2 / 10 ^ 9) -> frel g G (2 / 10 ^ 9) -> frel b B (2 / 10 ^ 9) -> 0.0029 <= R <= 401 -> 0.0029 <= G <= 401 -> 0.0029 <= B <= 401 ->
  frel (fw_p2 r g b) (2 * R + G + B / 20) (2.1 / 10 ^ 9).
Proof using.
  intros hr hg hb bR bG bB. unfold fw_p2. fconst (dec "40.0"). fconst (dec "20.0").
  pose proof (frel_ms (dec "40.0") r 40 R 0 _ (frel_const _ _ 40 0 F V ltac:(split; lra)) hr ltac:(lra) ltac:(lra) ltac:(lra)) as N1. apply frel_w with (e' := 2.003 / 10 ^ 9) in N1; [|lra].
  pose proof (frel_ms (dec "20.0") g 20 G 0 _ (frel_const _ _ 20 0 F0 V0 ltac:(split; lra)) hg ltac:(lra) ltac:(lra) ltac:(lra)) as N2. apply frel_w with (e' := 2.003 / 10 ^ 9) in N2; [|lra].
  pose proof (frel_add _ _ _ _ _ N1 N2 ltac:(lra) ltac:(lra)) as N3. apply frel_w with (e' := 2.004 / 10 ^ 9) in N3; [|lra].
  apply frel_w with (e' := 2.004 / 10 ^ 9) in hb; [|lra]. pose proof (frel_add _ _ _ _ _ N3 hb ltac:(lra) ltac:(lra)) as N4. apply frel_w with (e' := 2.005 / 10 ^ 9) in N4; [|lra].
  pose proof (frel_ds _ (dec "20.0") _ 20 _ 0 N4 (frel_const _ _ 20 0 F0 V0 ltac:(split; lra)) ltac:(lra) ltac:(lra) ltac:(lra)) as N5.
  replace (2 * R + G + B / 20) with ((40 * R + 20 * G + B) / 20) by lra. apply frel_w with (1 := N5). lra.
Qed.
Lemma u_rel (r g b : f64) R G B : frel r R (2 / 10 ^ 9) -> frel g G (2 / 10 ^ 9) -> frel b B (2 / 10 ^ 9) -> 0.0029 <= R <= 401 -> 0.0029 <= G <= 401 -> 0.0029 <= B <= 401 ->
  frel (fadd (fw_u r g b) (dec "0.305")) (R + G + 21 / 20 * B + 0.305) (2.1 / 10 ^ 9).
Proof using.
  intros hr hg hb bR bG bB. unfold fw_u. fconst (dec "20.0"). fconst (dec "21.0"). fconst (dec "0.305").
  pose proof (frel_ms (dec "20.0") r 20 R 0 _ (frel_const _ _ 20 0 F V ltac:(split; lra)) hr ltac:(lra) ltac:(lra) ltac:(lra)) as N1. apply frel_w with (e' := 2.003 / 10 ^ 9) in N1; [|lra].
  pose proof (frel_ms (dec "20.0") g 20 G 0 _ (frel_const _ _ 20 0 F V ltac:(split; lra)) hg ltac:(lra) ltac:(lra) ltac:(lra)) as N2. apply frel_w with (e' := 2.003 / 10 ^ 9) in N2; [|lra].
  pose proof (frel_ms (dec "21.0") b 21 B 0 _ (frel_const _ _ 21 0 F0 V0 ltac:(split; lra)) hb ltac:(lra) ltac:(lra) ltac:(lra)) as N2'. apply frel_w with (e' := 2.004 / 10 ^ 9) in N2'; [|lra].
  pose proof (frel_add _ _ _ _ _ N1 N2 ltac:(lra) ltac:(lra)) as N3. apply frel_w with (e' := 2.004 / 10 ^ 9) in N3; [|lra].
  pose proof (frel_add _ _ _ _ _ N3 N2' ltac:(lra) ltac:(lra)) as N4. apply frel_w with (e' := 2.005 / 10 ^ 9) in N4; [|lra].
  pose proof (frel_ds _ (dec "20.0") _ 20 _ 0 N4 (frel_const _ _ 20 0 F V ltac:(split; lra)) ltac:(lra) ltac:(lra) ltac:(lra)) as N5. apply frel_w with (e' := 2.02 / 10 ^ 9) in N5; [|lra].
  pose proof (frel_add _ (dec "0.305") _ 0.305 _ N5 (frel_const _ _ 0.305 (2.02 / 10 ^ 9) F1 V1 ltac:(split; lra)) ltac:(lra) ltac:(lra)) as N6.
  replace (R + G + 21 / 20 * B + 0.305) with ((20 * R + 20 * G + 21 * B) / 20 + 0.305) by lra. apply frel_w with (1 := N6). lra.
Qed.

(** ** Powers between 1/10^6 and 10^6 *)
Lemma rpow_wide X Y a A : 0 < a <= 1 -> 1 <= A -> a <= X <= A -> 0 <= Y <= 3 -> a ^ 3 <= Rpower X Y <= A ^ 3.
Proof using.
  intros ha hA hX hY. assert (P3 : Rpower X 3 = X ^ 3) by (replace 3 with (INR 3) by (cbn [INR]; lra); apply Rpower_pow; lra). assert (R0 : Rpower X 0 = 1) by (apply Rpower_O; lra).
  assert (L3 : a ^ 3 <= X ^ 3) by (apply pow_incr; lra). assert (U3 : X ^ 3 <= A ^ 3) by (apply pow_incr; lra).
  assert (a3 : a ^ 3 <= 1 ^ 3) by (apply pow_incr; lra). assert (A3 : 1 ^ 3 <= A ^ 3) by (apply pow_incr; lra).
  destruct (Rle_or_lt 1 X) as [g|g].
  - pose proof (rpow_exp_big X 0 Y g ltac:(lra)). pose proof (rpow_exp_big X Y 3 g ltac:(lra)). lra.
  - pose proof (rpow_exp_small X 0 Y ltac:(lra) ltac:(lra)). pose proof (rpow_exp_small X Y 3 ltac:(lra) ltac:(lra)). lra.
Qed.

(** ** Lightness *)
Lemma j_rel (p2 nbb aw c z : f64) P N A C Z : frel p2 P (2.1 / 10 ^ 9) -> 0.0088 <= P <= 1230 -> frel nbb N (1 / 10 ^ 9) -> 0.3 <= N <= 8 -> frel aw A (1 / 10 ^ 9) -> 0.3 * N <= A <= 920 * N ->
  frel c C (1 / 10 ^ 9) -> 0.525 <= C <= 0.69 -> frel z Z (1 / 10 ^ 9) -> 1.48 <= Z <= 3.73 ->
  frel (fw_j p2 nbb aw c z) (100 * Rpower (P * N / A) (C * Z)) (3.2 / 10 ^ 7) /\ 5 / 10 ^ 14 <= 100 * Rpower (P * N / A) (C * Z) <= 10 ^ 13.
Proof using LA.
  intros hp bP hn bN ha bA hc bC hz bZ. unfold fw_j. fconst (dec "100.0").
  assert (B1 : 0.0088 * 0.3 <= P * N <= 1230 * 8) by (split; apply Rmult_le_compat; lra).
  assert (BR : 0.0088 / 920 <= P * N / A <= 4100).
  { assert (0.0088 * N <= P * N <= 1230 * N) by (split; apply Rmult_le_compat_r; lra). split; [apply le_div; [lra|]; lra|apply div_le; [lra|]; lra]. }
  assert (BE : 0.525 * 1.48 <= C * Z <= 0.69 * 3.73) by (split; apply Rmult_le_compat; lra).
  pose proof (frel_ms _ _ _ _ _ _ hp hn ltac:(lra) ltac:(lra) ltac:(lra)) as N1. apply frel_w with (e' := 3.2 / 10 ^ 9) in N1; [|lra].
  pose proof (frel_ds _ _ _ _ _ _ N1 ha ltac:(lra) ltac:(lra) ltac:(lra)) as N2. apply frel_w with (e' := 4.3 / 10 ^ 9) in N2; [|lra].
  pose proof (frel_ms _ _ _ _ _ _ hc hz ltac:(lra) ltac:(lra) ltac:(lra)) as N3. apply frel_w with (e' := 2.1 / 10 ^ 9) in N3; [|lra].
  pose proof (frel_near _ _ _ 2.6 N3 ltac:(lra) ltac:(lra)) as N4. destruct N4 as [F4 B4].
  assert (W := rpow_wide (P * N / A) (C * Z) (0.0088 / 920) 4100 ltac:(lra) ltac:(lra) BR ltac:(lra)).
  pose proof (frel_gpow LA _ (fmul c z) _ (C * Z) _ (2.6 * (2.1 / 10 ^ 9)) 2.7 20 (1.4 / 10 ^ 7) N2 F4 ltac:(lra) ltac:(lra) (ln_20 (P * N / A) ltac:(lra)) ltac:(lra) ltac:(lra) ltac:(lra) ltac:(lra) ltac:(lra)) as N5.
  apply frel_w with (e' := 2.95 / 10 ^ 7) in N5; [|lra]. set (Q := Rpower _ _) in *. clearbody Q.
  assert (BJ : 5 / 10 ^ 14 <= 100 * Q <= 10 ^ 13) by lra. split; [|exact BJ].
  pose proof (frel_ms (dec "100.0") _ 100 Q 0 _ (frel_const _ _ 100 0 F V ltac:(split; lra)) N5 ltac:(lra) ltac:(lra) ltac:(lra)) as N6. apply frel_w with (1 := N6). lra.
Qed.
Lemma sj_rel (j : f64) J : frel j J (3.2 / 10 ^ 7) -> 5 / 10 ^ 14 <= J <= 10 ^ 13 -> frel (sj_of j) (sqrt (J / 100)) (3.25 / 10 ^ 7) /\ 2 / 10 ^ 8 <= sqrt (J / 100) <= 4 * 10 ^ 5.
Proof using.
  intros hj bJ. unfold sj_of. fconst (dec "100.0").
  pose proof (frel_ds j (dec "100.0") J 100 _ 0 hj (frel_const _ _ 100 0 F V ltac:(split; lra)) ltac:(lra) ltac:(lra) ltac:(lra)) as N1. apply frel_w with (e' := 3.22 / 10 ^ 7) in N1; [|lra].
  pose proof (frel_sq _ _ _ N1 ltac:(lra) ltac:(lra)) as N2. split; [apply frel_w with (1 := N2); lra|].
  assert (S1 : sqrt (2 / 10 ^ 8 * (2 / 10 ^ 8)) <= sqrt (J / 100)) by (apply sqrt_le_1; lra). assert (S2 : sqrt (J / 100) <= sqrt (4 * 10 ^ 5 * (4 * 10 ^ 5))) by (apply sqrt_le_1; lra).
  rewrite sqrt_square in S1, S2 by lra. lra.
Qed.
Lemma jstar_rel (j : f64) J : frel j J (3.2 / 10 ^ 7) -> 5 / 10 ^ 14 <= J <= 10 ^ 13 -> frel (fw_ucs_j j) (1.7 * J / (1 + 0.007 * J)) (7 / 10 ^ 7).
Proof using.
  intros hj bJ. unfold fw_ucs_j. fconst (dec "1.0"). fconst (dec "0.007"). fconst (fadd (dec "1.0") (fmul (dec "100.0") (dec "0.007"))).
  pose proof (frel_ms _ j 1.7 J (1 / 10 ^ 15) _ (frel_const _ _ 1.7 (1 / 10 ^ 15) F1 V1 ltac:(split; lra)) hj ltac:(lra) ltac:(lra) ltac:(lra)) as N1. apply frel_w with (e' := 3.21 / 10 ^ 7) in N1; [|lra].
  pose proof (frel_ms (dec "0.007") j 0.007 J (1 / 10 ^ 15) _ (frel_const _ _ 0.007 (1 / 10 ^ 15) F0 V0 ltac:(split; lra)) hj ltac:(lra) ltac:(lra) ltac:(lra)) as N2. apply frel_w with (e' := 3.21 / 10 ^ 7) in N2; [|lra].
  pose proof (frel_add (dec "1.0") _ 1 _ _ (frel_const _ _ 1 (3.21 / 10 ^ 7) F V ltac:(split; lra)) N2 ltac:(lra) ltac:(lra)) as N3. apply frel_w with (e' := 3.22 / 10 ^ 7) in N3; [|lra].
  assert (BQ : 1 / 10 ^ 40 <= 1.7 * J / (1 + 0.007 * J) <= 10 ^ 20) by (split; [apply le_div|apply div_le]; lra).
  pose proof (frel_ds _ _ _ _ _ _ N1 N3 ltac:(lra) ltac:(lra) BQ) as N4. apply frel_w with (1 := N4). lra.
Qed.

(** ** The factor of the background *)
Lemma kk_rel (n : f64) N : frel n N (1 / 10 ^ 9) -> 1 / 10 ^ 5 <= N <= 5 -> frel (kk_of n) (Rpower (1.64 - Rpower 0.29 N) 0.73) (1.3 / 10 ^ 7) /\ 0.2 <= Rpower (1.64 - Rpower 0.29 N) 0.73 <= 5.
Proof using LA.
  intros hn bN. unfold kk_of. fconst (dec "0.29"). fconst (dec "1.64"). fconst (dec "0.73").
  pose proof (frel_near _ _ _ 5 hn ltac:(lra) ltac:(lra)) as [Fn Bn].
  assert (B5 : 0.002 <= Rpower 0.29 N <= 1).
  { assert (P5 : Rpower 0.29 5 = 0.29 ^ 5) by (replace 5 with (INR 5) by (cbn [INR]; lra); apply Rpower_pow; lra). assert (P0 : Rpower 0.29 0 = 1) by (apply Rpower_O; lra).
    pose proof (rpow_exp_small 0.29 0 N ltac:(lra) ltac:(lra)). pose proof (rpow_exp_small 0.29 N 5 ltac:(lra) ltac:(lra)). lra. }
  pose proof (frel_gpow LA (dec "0.29") n 0.29 N (1 / 10 ^ 15) (5 * (1 / 10 ^ 9)) 6 2 (1.1 / 10 ^ 8) (frel_const _ _ 0.29 (1 / 10 ^ 15) F V ltac:(split; lra)) Fn ltac:(lra) ltac:(lra)) as N1.
  assert (LN : -2 <= ln 0.29 <= 2).
  { split. - assert (ln (/ 0.29) = - ln 0.29) by (apply ln_Rinv; lra). assert (L2 : ln (2 ^ 2) = 2 * ln 2) by (rewrite ln_pow by lra; cbn [INR]; lra). pose proof (ln_le_sub 2 ltac:(lra)).
      assert (ln (/ 0.29) <= ln (2 ^ 2)) by (left; apply ln_increasing; lra). lra.
    - assert (ln 0.29 < ln 1) by (apply ln_increasing; lra). rewrite ln_1 in H. lra. }
  specialize (N1 LN ltac:(lra) ltac:(lra) ltac:(lra) ltac:(lra) ltac:(lra)). pose proof (frel_near _ _ _ 1 N1 ltac:(lra) ltac:(lra)) as N2. set (q := powf (dec "0.29") n) in *. set (Q := Rpower 0.29 N) in *. clearbody q Q. clear N1 LN.
  pose proof (near_sub (dec "1.64") q 1.64 Q (1 / 10 ^ 15) _ 2 (near_c _ _ 1.64 (1 / 10 ^ 15) F0 V0 ltac:(lra)) N2 ltac:(lra) ltac:(lra) ltac:(lra) ltac:(lra) ltac:(lra)) as N3.
  apply near_weak with (e' := 2.5 / 10 ^ 8) in N3; [|unfold uu; lra].
  assert (N4 : frel (fsub (dec "1.64") q) (1.64 - Q) (4 / 10 ^ 8)) by (apply near_rel with (1 := N3) (m := 0.64); lra).
  assert (W := rpow_wide (1.64 - Q) 0.73 0.64 1.64 ltac:(lra) ltac:(lra) ltac:(lra) ltac:(lra)).
  pose proof (frel_gpow LA _ (dec "0.73") _ 0.73 _ (2 / 10 ^ 16) 0.74 20 (6 / 10 ^ 8) N4 F1 ltac:(lra) ltac:(lra) (ln_20 (1.64 - Q) ltac:(lra)) ltac:(lra) ltac:(lra) ltac:(lra) ltac:(lra) ltac:(lra)) as N5.
  split; [apply frel_w with (1 := N5); lra|lra].
Qed.
End Acc.
