(** * The conversion from L*a*b* to ARGB against the published formula.  Proof file. *)
From Coq Require Import ZArith Bool Reals Lra Lia Psatz String List.
From Flocq Require Import Core IEEE754.BinarySingleNaN.
From Verif Require Import F64 MathUtils ColorUtils Spec SpecCam SpecViewing SpecAppear SpecCie SpecLab FloatFacts FloatMono FloatCast PfArgb PfMath PfColor PfTones PfLab PfGamma PfLabTrip PfNear PfDelin PfCie.
Open Scope string_scope.
Open Scope R_scope.

Lemma inverse_back t : cie_inverse t = back t.
Proof. unfold cie_inverse, back, PfLab.lin. destruct (Rlt_dec (6 / 29) t), (Rle_dec t (6 / 29)); lra. Qed.
Lemma inverse_of_f t : cie_inverse (cie_f t) = t.
Proof. rewrite inverse_back. apply back_cie. Qed.

Lemma back_tight w w' Y : -0.1 <= w <= 1.01 -> w - 1 / 10 ^ 13 <= w' <= w + 1 / 10 ^ 13 -> cubeE w' Y -> back w - 1.2 / 10 ^ 11 <= Y <= back w + 1.2 / 10 ^ 11.
Proof.
  intros hw h C. pose proof (cube_shift w w' (1 / 10 ^ 13) ltac:(lra) ltac:(lra) h) as CS. unfold back.
  assert (LS : PfLab.lin w - 1 / 10 ^ 13 <= PfLab.lin w' <= PfLab.lin w + 1 / 10 ^ 13) by (unfold PfLab.lin; lra).
  destruct C as [(a & b)|(a & b)].
  - destruct (Rle_dec w (6 / 29)) as [g|g]; [|lra].
    assert (P : 0 < w). { destruct (Rle_or_lt w 0) as [n|n]; [|exact n]. exfalso. assert (w ^ 3 <= 0) by (replace (w ^ 3) with (w * (w * w)) by ring; assert (0 <= w * w) by nra; nra). unfold eR in a. lra. }
    pose proof (above_knee w (2 / 10 ^ 9) P ltac:(lra) ltac:(lra)) as K. destruct (knee_gap w (2 / 10 ^ 9) ltac:(lra) ltac:(lra)) as [G1 G2]. lra.
  - destruct (Rle_dec w (6 / 29)) as [g|g]; [lra|].
    pose proof (below_knee w (2 / 10 ^ 9) ltac:(lra) ltac:(lra)) as K. destruct (knee_gap w (2 / 10 ^ 9) ltac:(lra) ltac:(lra)) as [G1 G2]. lra.
Qed.

(** The range of f for a stimulus in range. *)
Lemma back_range w : - (0.001) <= back w <= 1.01 -> 0.13 <= w <= 1.01.
Proof.
  intros h. split.
  - destruct (Rle_or_lt 0.13 w) as [|g]; [assumption|exfalso]. pose proof (back_slope w 0.13 ltac:(lra)) as S.
    replace (back 0.13) with (PfLab.lin 0.13) in S by (unfold back; destruct (Rle_dec 0.13 (6 / 29)); [reflexivity|lra]). unfold PfLab.lin in S. lra.
  - destruct (Rle_or_lt w 1.01) as [|g]; [assumption|exfalso]. pose proof (back_slope 1.01 w ltac:(lra)) as S.
    replace (back 1.01) with (1.01 ^ 3) in S by (unfold back; destruct (Rle_dec 1.01 (6 / 29)); [lra|reflexivity]). lra.
Qed.

(** One component: from its f, near [w], to the stimulus. *)
Lemma comp_back (t k : f64) w K : near t w (1 / 10 ^ 13) -> - (0.001) <= back w <= 1.01 -> near k K (1 / 10 ^ 13) -> 90 <= K <= 110 ->
  near (fmul (lab_invf t) k) (K * back w) (K * (1.3 / 10 ^ 11)).
Proof.
  intros [ft ht] hb [fk hk] bK. pose proof (back_range w hb) as W.
  destruct (invf_R t ft ltac:(lra)) as [FI CI]. pose proof (back_tight w _ _ ltac:(lra) ht CI) as B.
  set (q := back w) in *. clearbody q. set (i := lab_invf t) in *. clearbody i.
  assert (M : - 120 <= B2R i * B2R k <= 120).
  { pose proof (mul_bnd (B2R i) (B2R k) 1.05 111 ltac:(lra) ltac:(lra)). lra. }
  destruct (fmul_S i k FI fk ltac:(fsmall)) as [S G]. pose proof (rnd_near (B2R i * B2R k) ltac:(lra)) as E.
  split; [exact G|]. rewrite S. clear S G.
  assert (D : - (1.02 / 10 ^ 13) <= B2R i * (B2R k - K) <= 1.02 / 10 ^ 13).
  { pose proof (mul_bnd (B2R i) (B2R k - K) 1.02 (1 / 10 ^ 13) ltac:(lra) ltac:(lra)). lra. }
  assert (D2 : - (K * (1.2 / 10 ^ 11)) <= K * (B2R i - q) <= K * (1.2 / 10 ^ 11)).
  { split; [replace (- (K * (1.2 / 10 ^ 11))) with (K * (- (1.2 / 10 ^ 11))) by ring|]; apply Rmult_le_compat_l; lra. }
  replace (K * q) with (B2R i * B2R k - B2R i * (B2R k - K) - K * (B2R i - q)) by ring.
  set (p := B2R i * B2R k) in *. set (d := B2R i * (B2R k - K)) in *. set (d2 := K * (B2R i - q)) in *. clearbody p d d2. lra.
Qed.

Lemma row_signed (p q r x y z : f64) P Q S X Y Z ex ey ez : fin p -> fin q -> fin r -> - (1 / 10 ^ 15) <= B2R p - P <= 1 / 10 ^ 15 -> - (1 / 10 ^ 15) <= B2R q - Q <= 1 / 10 ^ 15 -> - (1 / 10 ^ 15) <= B2R r - S <= 1 / 10 ^ 15 ->
  -3.3 <= P <= 3.3 -> -3.3 <= Q <= 3.3 -> -3.3 <= S <= 3.3 -> near x X ex -> near y Y ey -> near z Z ez -> 0 <= ex <= 1 -> 0 <= ey <= 1 -> 0 <= ez <= 1 ->
  - 110 <= X <= 110 -> - 110 <= Y <= 110 -> - 110 <= Z <= 110 ->
  near (fadd (fadd (fmul p x) (fmul q y)) (fmul r z)) (P * X + Q * Y + S * Z) (Rabs P * ex + Rabs Q * ey + Rabs S * ez + 4 / 10 ^ 12).
Proof.
  intros fp fq fr hp hq hr bP bQ bS [fx hx] [fy hy] [fz hz] bex bey bez bx by_ bz.
  pose proof (near_mul p x P (B2R x) (1 / 10 ^ 15) 0 3.4 200 ltac:(split; [exact fp|lra]) (near_self x fx) ltac:(lra) ltac:(lra) ltac:(lra) ltac:(lra) ltac:(lra) ltac:(lra) ltac:(lra)) as N1.
  pose proof (near_mul q y Q (B2R y) (1 / 10 ^ 15) 0 3.4 200 ltac:(split; [exact fq|lra]) (near_self y fy) ltac:(lra) ltac:(lra) ltac:(lra) ltac:(lra) ltac:(lra) ltac:(lra) ltac:(lra)) as N2.
  pose proof (near_mul r z S (B2R z) (1 / 10 ^ 15) 0 3.4 200 ltac:(split; [exact fr|lra]) (near_self z fz) ltac:(lra) ltac:(lra) ltac:(lra) ltac:(lra) ltac:(lra) ltac:(lra) ltac:(lra)) as N3.
  apply near_weak with (e' := 5 / 10 ^ 13) in N1; [|unfold uu; lra]. apply near_weak with (e' := 5 / 10 ^ 13) in N2; [|unfold uu; lra]. apply near_weak with (e' := 5 / 10 ^ 13) in N3; [|unfold uu; lra].
  pose proof (mul_bnd P (B2R x) 3.3 200 ltac:(lra) ltac:(lra)) as M1. pose proof (mul_bnd Q (B2R y) 3.3 200 ltac:(lra) ltac:(lra)) as M2. pose proof (mul_bnd S (B2R z) 3.3 200 ltac:(lra) ltac:(lra)) as M3.
  assert (T : forall c u v e, v - e <= u <= v + e -> - (Rabs c * e) <= c * u - c * v <= Rabs c * e).
  { intros c u v e h. assert (A : Rabs (c * u - c * v) <= Rabs c * e).
    { replace (c * u - c * v) with (c * (u - v)) by ring. rewrite Rabs_mult. apply Rmult_le_compat_l; [apply Rabs_pos|]. apply Rabs_le. lra. }
    split; [pose proof (Rle_abs (- (c * u - c * v))) as L; rewrite Rabs_Ropp in L; lra|pose proof (Rle_abs (c * u - c * v)); lra]. }
  pose proof (T P _ _ _ hx) as T1. pose proof (T Q _ _ _ hy) as T2. pose proof (T S _ _ _ hz) as T3. clear T.
  set (px := P * B2R x) in *. set (qy := Q * B2R y) in *. set (sz := S * B2R z) in *. clearbody px qy sz.
  pose proof (near_add _ _ _ _ _ _ 1400 N1 N2 ltac:(lra) ltac:(lra) ltac:(lra) ltac:(lra) ltac:(lra)) as N4.
  pose proof (near_add _ _ _ _ _ _ 2000 N4 N3 ltac:(lra) ltac:(unfold uu; lra) ltac:(lra) ltac:(unfold uu; lra) ltac:(lra)) as [N5f N5].
  split; [exact N5f|]. unfold uu in N5. lra.
Qed.

Section Accurate.
Context {lm : Libm} (LA : libm_accurate (1 / 10 ^ 13) lm).

Lemma lab_encode (l a b : f64) : fin l -> fin a -> fin b ->
  let x := lab_x (B2R l) (B2R a) in let y := lab_y (B2R l) in let z := lab_z (B2R l) (B2R b) in
  0 <= linear_red x y z <= 100 -> 0 <= linear_green x y z <= 100 -> 0 <= linear_blue x y z <= 100 ->
  let argb := argb_from_lab l a b in
  channel_of (red_from_argb argb) (linear_red x y z) /\ channel_of (green_from_argb argb) (linear_green x y z) /\ channel_of (blue_from_argb argb) (linear_blue x y z).
Proof using LA.
  intros fl fa fb x y z hr hg hb. cbv zeta. unfold argb_from_lab. cbv zeta.
  assert (RX : - (0.01) <= x <= 95.1 /\ - (0.01) <= y <= 100.1 /\ - (0.01) <= z <= 108.9) by (clearbody x y z; unfold linear_red, linear_green, linear_blue in *; lra).
  destruct RX as (rx & ry & rz).
  set (wy := (B2R l + 16) / 116). set (wx := wy + B2R a / 500). set (wz := wy - B2R b / 200).
  assert (EX : x = 95.047 * back wx) by (unfold x, lab_x; rewrite inverse_back; reflexivity).
  assert (EY : y = 100 * back wy) by (unfold y, lab_y; rewrite inverse_back; reflexivity).
  assert (EZ : z = 108.883 * back wz) by (unfold z, lab_z; rewrite inverse_back; reflexivity).
  clearbody x y z. pose proof (back_range wx ltac:(lra)) as BX. pose proof (back_range wy ltac:(lra)) as BY. pose proof (back_range wz ltac:(lra)) as BZ.
  fconst (dec "16.0"). fconst (dec "116.0"). fconst (dec "500.0"). fconst (dec "200.0").
  assert (BL : - 1 <= B2R l <= 102) by (unfold wy in BY; lra).
  assert (BA : - 500 <= B2R a <= 500) by (unfold wx in BX; lra).
  assert (BB : - 200 <= B2R b <= 200) by (unfold wz in BZ; lra).
  destruct (fadd_S l (dec "16.0") fl F ltac:(rewrite V; fsmall)) as [S1 G1]. rewrite V in S1.
  pose proof (rnd_uu (B2R l + 16) 120 ltac:(lra) ltac:(lra)) as E1. rewrite <- S1 in E1. clear S1.
  destruct (fdiv_S (fadd l (dec "16.0")) (dec "116.0") G1 ltac:(lra) ltac:(rewrite V0; unfold uu in *; fsmall)) as [S2 G2]. rewrite V0 in S2.
  pose proof (rnd_uu (B2R (fadd l (dec "16.0")) / 116) 2 ltac:(unfold uu in *; lra) ltac:(lra)) as E2. rewrite <- S2 in E2. clear S2.
  set (fy := fdiv (fadd l (dec "16.0")) (dec "116.0")) in *.
  assert (NY : near fy wy (1 / 10 ^ 14)) by (split; [exact G2|unfold uu, wy in *; lra]).
  destruct (fdiv_S a (dec "500.0") fa ltac:(lra) ltac:(rewrite V1; fsmall)) as [S3 G3]. rewrite V1 in S3.
  pose proof (rnd_uu (B2R a / 500) 2 ltac:(lra) ltac:(lra)) as E3. rewrite <- S3 in E3. clear S3.
  destruct (fdiv_S b (dec "200.0") fb ltac:(lra) ltac:(rewrite V2; fsmall)) as [S4 G4]. rewrite V2 in S4.
  pose proof (rnd_uu (B2R b / 200) 2 ltac:(lra) ltac:(lra)) as E4. rewrite <- S4 in E4. clear S4.
  assert (NX : near (fadd (fdiv a (dec "500.0")) fy) wx (1 / 10 ^ 13)).
  { destruct NY as [_ NY]. destruct (fadd_S (fdiv a (dec "500.0")) fy G3 G2 ltac:(unfold uu in *; fsmall)) as [S5 G5]. split; [exact G5|]. rewrite S5.
    pose proof (rnd_uu (B2R (fdiv a (dec "500.0")) + B2R fy) 4 ltac:(unfold uu in *; lra) ltac:(lra)) as E5. unfold wx. unfold uu in *. lra. }
  assert (NZ : near (fsub fy (fdiv b (dec "200.0"))) wz (1 / 10 ^ 13)).
  { destruct NY as [_ NY]. destruct (fsub_S fy (fdiv b (dec "200.0")) G2 G4 ltac:(unfold uu in *; fsmall)) as [S5 G5]. split; [exact G5|]. rewrite S5.
    pose proof (rnd_uu (B2R fy - B2R (fdiv b (dec "200.0"))) 4 ltac:(unfold uu in *; lra) ltac:(lra)) as E5. unfold wz. unfold uu in *. lra. }
  apply near_weak with (e' := 1 / 10 ^ 13) in NY; [|lra].
  unfold white_point_d65, v0, v1, v2; cbn [fst snd]. fconst (dec "95.047"). fconst (dec "100.0"). fconst (dec "108.883").
  pose proof (comp_back _ (dec "95.047") wx 95.047 NX ltac:(lra) ltac:(split; [exact F3|rewrite V3; lra]) ltac:(lra)) as CX. rewrite <- EX in CX.
  pose proof (comp_back _ (dec "100.0") wy 100 NY ltac:(lra) ltac:(split; [exact F4|rewrite V4; lra]) ltac:(lra)) as CY. rewrite <- EY in CY.
  pose proof (comp_back _ (dec "108.883") wz 108.883 NZ ltac:(lra) ltac:(split; [exact F5|rewrite V5; lra]) ltac:(lra)) as CZ. rewrite <- EZ in CZ.
  set (fX := fmul (lab_invf (fadd (fdiv a (dec "500.0")) fy)) (dec "95.047")) in *. set (fY := fmul (lab_invf fy) (dec "100.0")) in *. set (fZ := fmul (lab_invf (fsub fy (fdiv b (dec "200.0")))) (dec "108.883")) in *.
  clearbody fX fY fZ. clear - LA hr hg hb rx ry rz CX CY CZ.
  unfold argb_from_xyz, xyz_to_srgb, v0, v1, v2; cbn [fst snd].
  match goal with |- context [argb_from_rgb ?r ?g ?b] => destruct (rgb_back r g b (delinearized_byte _) (delinearized_byte _) (delinearized_byte _)) as (-> & -> & ->) end.
  unfold channel_of. fconst (dec "3.2413774792388685"). fconst (dec "-1.5376652402851851"). fconst (dec "-0.49885366846268053").
  fconst (dec "-0.9691452513005321"). fconst (dec "1.8758853451067872"). fconst (dec "0.04156585616912061").
  fconst (dec "0.05562093689691305"). fconst (dec "-0.20395524564742123"). fconst (dec "1.0571799111220335").
  assert (A : forall c u e, Rabs c <= u -> 0 <= e -> Rabs c * e <= u * e) by (intros; apply Rmult_le_compat_r; assumption).
  split; [|split]; (split; [apply delinearized_byte|]).
  - destruct (row_signed _ _ _ fX fY fZ 3.2413774792388685 (-1.5376652402851851) (-0.49885366846268053) x y z _ _ _ F F0 F1 ltac:(rewrite V; lra) ltac:(rewrite V0; lra) ltac:(rewrite V1; lra) ltac:(lra) ltac:(lra) ltac:(lra) CX CY CZ ltac:(lra) ltac:(lra) ltac:(lra) ltac:(lra) ltac:(lra) ltac:(lra)) as [G N].
    pose proof (A 3.2413774792388685 3.25 (95.047 * (1.3 / 10 ^ 11)) ltac:(apply Rabs_le; lra) ltac:(lra)).
    pose proof (A (-1.5376652402851851) 1.54 (100 * (1.3 / 10 ^ 11)) ltac:(apply Rabs_le; lra) ltac:(lra)).
    pose proof (A (-0.49885366846268053) 0.5 (108.883 * (1.3 / 10 ^ 11)) ltac:(apply Rabs_le; lra) ltac:(lra)).
    apply delin_encode; [exact LA|exact G|exact hr|]. unfold linear_red. lra.
  - destruct (row_signed _ _ _ fX fY fZ (-0.9691452513005321) 1.8758853451067872 0.04156585616912061 x y z _ _ _ F2 F3 F4 ltac:(rewrite V2; lra) ltac:(rewrite V3; lra) ltac:(rewrite V4; lra) ltac:(lra) ltac:(lra) ltac:(lra) CX CY CZ ltac:(lra) ltac:(lra) ltac:(lra) ltac:(lra) ltac:(lra) ltac:(lra)) as [G N].
    pose proof (A (-0.9691452513005321) 0.97 (95.047 * (1.3 / 10 ^ 11)) ltac:(apply Rabs_le; lra) ltac:(lra)).
    pose proof (A 1.8758853451067872 1.88 (100 * (1.3 / 10 ^ 11)) ltac:(apply Rabs_le; lra) ltac:(lra)).
    pose proof (A 0.04156585616912061 0.05 (108.883 * (1.3 / 10 ^ 11)) ltac:(apply Rabs_le; lra) ltac:(lra)).
    apply delin_encode; [exact LA|exact G|exact hg|]. unfold linear_green. lra.
  - destruct (row_signed _ _ _ fX fY fZ 0.05562093689691305 (-0.20395524564742123) 1.0571799111220335 x y z _ _ _ F5 F6 F7 ltac:(rewrite V5; lra) ltac:(rewrite V6; lra) ltac:(rewrite V7; lra) ltac:(lra) ltac:(lra) ltac:(lra) CX CY CZ ltac:(lra) ltac:(lra) ltac:(lra) ltac:(lra) ltac:(lra) ltac:(lra)) as [G N].
    pose proof (A 0.05562093689691305 0.06 (95.047 * (1.3 / 10 ^ 11)) ltac:(apply Rabs_le; lra) ltac:(lra)).
    pose proof (A (-0.20395524564742123) 0.21 (100 * (1.3 / 10 ^ 11)) ltac:(apply Rabs_le; lra) ltac:(lra)).
    pose proof (A 1.0571799111220335 1.06 (108.883 * (1.3 / 10 ^ 11)) ltac:(apply Rabs_le; lra) ltac:(lra)).
    apply delin_encode; [exact LA|exact G|exact hb|]. unfold linear_blue. lra.
Qed.
End Accurate.

(** ** A case: the middle of the space, and a reddish colour *)
Lemma lab_case : let l := dec "50.0" in let a := dec "20.0" in let b := dec "10.0" in
  let x := lab_x (B2R l) (B2R a) in let y := lab_y (B2R l) in let z := lab_z (B2R l) (B2R b) in
  (is_finite l = true /\ is_finite a = true /\ is_finite b = true) /\
  0 <= linear_red x y z <= 100 /\ 0 <= linear_green x y z <= 100 /\ 0 <= linear_blue x y z <= 100 /\ linear_green x y z < linear_red x y z.
Proof.
  cbv zeta. fconst (dec "50.0"). fconst (dec "20.0"). fconst (dec "10.0"). rewrite V, V0, V1.
  unfold lab_x, lab_y, lab_z, cie_inverse. repeat (destruct (Rlt_dec _ _) as [?|?]; [|lra]).
  unfold linear_red, linear_green, linear_blue. repeat split; try assumption; lra.
Qed.
