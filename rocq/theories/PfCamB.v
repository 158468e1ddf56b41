(** * Cone responses of a colour and the way back.  Proof file. *)
From Coq Require Import ZArith Bool Reals Lra Lia Psatz String List.
From Flocq Require Import Core Relative IEEE754.BinarySingleNaN.
From Verif Require Import F64 MathUtils ColorUtils ViewingConditions Cam16 Spec SpecCam FloatFacts FloatMono FloatCast PfMath PfTones PfLab PfGamma PfLabTrip PfNear PfVc PfCamA.
Import ListNotations.
Open Scope string_scope.
Open Scope R_scope.

Definition cone_r (x y z : f64) : f64 := fsub (fadd (fmul (dec "0.401288") x) (fmul (dec "0.650173") y)) (fmul (dec "0.051461") z).
Definition cone_g (x y z : f64) : f64 := fadd (fadd (fmul (dec "-0.250268") x) (fmul (dec "1.204414") y)) (fmul (dec "0.045854") z).
Definition cone_b (x y z : f64) : f64 := fadd (fadd (fmul (dec "-0.002079") x) (fmul (dec "0.048952") y)) (fmul (dec "0.953127") z).
Definition back_x (r g b : f64) : f64 := fadd (fsub (fmul (dec "1.86206786") r) (fmul (dec "1.01125463") g)) (fmul (dec "0.14918677") b).
Definition back_y (r g b : f64) : f64 := fsub (fadd (fmul (dec "0.38752654") r) (fmul (dec "0.62144744") g)) (fmul (dec "0.00897398") b).
Definition back_z (r g b : f64) : f64 := fadd (fsub (fmul (dec "-0.01584150") r) (fmul (dec "0.03412294") g)) (fmul (dec "1.04996444") b).

Lemma near_cmul (c x : f64) k : fin c -> B2R c = k -> -2 <= k <= 2 -> fin x -> -130 <= B2R x <= 130 -> near (fmul c x) (k * B2R x) (1 / 10 ^ 12).
Proof.
  intros fc vc hk fx bx. pose proof (mul_bnd k (B2R x) 2 130 hk bx) as M.
  destruct (fmul_S c x fc fx ltac:(rewrite vc; unfold HUGE; lra)) as [E F]. rewrite vc in E.
  pose proof (rnd_far (k * B2R x) ltac:(lra)) as R. rewrite <- E in R. split; [exact F|lra].
Qed.
Lemma near_addf x y a b ea eb : near x a ea -> near y b eb -> -1500 <= a + b <= 1500 -> 0 <= ea <= 1 -> 0 <= eb <= 1 -> near (fadd x y) (a + b) (ea + eb + 1 / 10 ^ 12).
Proof.
  intros [fx hx] [fy hy] h pa pb. destruct (fadd_S x y fx fy ltac:(unfold HUGE; lra)) as [E F]. split; [exact F|]. rewrite E.
  pose proof (rnd_far (B2R x + B2R y) ltac:(lra)). lra.
Qed.
Lemma near_subf x y a b ea eb : near x a ea -> near y b eb -> -1500 <= a - b <= 1500 -> 0 <= ea <= 1 -> 0 <= eb <= 1 -> near (fsub x y) (a - b) (ea + eb + 1 / 10 ^ 12).
Proof.
  intros [fx hx] [fy hy] h pa pb. destruct (fsub_S x y fx fy ltac:(unfold HUGE; lra)) as [E F]. split; [exact F|]. rewrite E.
  pose proof (rnd_far (B2R x - B2R y) ltac:(lra)). lra.
Qed.

Section Three.
Variables x y z : f64.
Hypothesis fx : fin x. Hypothesis fy : fin y. Hypothesis fz : fin z.
Hypothesis bx : -130 <= B2R x <= 130. Hypothesis by_ : -130 <= B2R y <= 130. Hypothesis bz : -130 <= B2R z <= 130.

Ltac three op1 op2 a b c :=
  fconst a; fconst b; fconst c;
  match goal with V1 : B2R a = ?ka, V2 : B2R b = ?kb, V3 : B2R c = ?kc, F1 : fin a, F2 : fin b, F3 : fin c |- _ =>
    pose proof (near_cmul a x ka F1 V1 ltac:(lra) fx bx) as N1;
    pose proof (near_cmul b y kb F2 V2 ltac:(lra) fy by_) as N2;
    pose proof (near_cmul c z kc F3 V3 ltac:(lra) fz bz) as N3;
    pose proof (op1 _ _ _ _ _ _ N1 N2 ltac:(lra) ltac:(lra) ltac:(lra)) as N4;
    pose proof (op2 _ _ _ _ _ _ N4 N3 ltac:(lra) ltac:(lra) ltac:(lra)) as N5;
    apply near_move with (1 := N5); lra
  end.

Lemma cone_r_near : near (cone_r x y z) (0.401288 * B2R x + 0.650173 * B2R y - 0.051461 * B2R z) (1 / 10 ^ 11).
Proof using fx fy fz bx by_ bz. unfold cone_r. three near_addf near_subf (dec "0.401288") (dec "0.650173") (dec "0.051461"). Qed.
Lemma cone_g_near : near (cone_g x y z) (-0.250268 * B2R x + 1.204414 * B2R y + 0.045854 * B2R z) (1 / 10 ^ 11).
Proof using fx fy fz bx by_ bz. unfold cone_g. three near_addf near_addf (dec "-0.250268") (dec "1.204414") (dec "0.045854"). Qed.
Lemma cone_b_near : near (cone_b x y z) (-0.002079 * B2R x + 0.048952 * B2R y + 0.953127 * B2R z) (1 / 10 ^ 11).
Proof using fx fy fz bx by_ bz. unfold cone_b. three near_addf near_addf (dec "-0.002079") (dec "0.048952") (dec "0.953127"). Qed.
Lemma back_x_near : near (back_x x y z) (1.86206786 * B2R x - 1.01125463 * B2R y + 0.14918677 * B2R z) (1 / 10 ^ 11).
Proof using fx fy fz bx by_ bz. unfold back_x. three near_subf near_addf (dec "1.86206786") (dec "1.01125463") (dec "0.14918677"). Qed.
Lemma back_y_near : near (back_y x y z) (0.38752654 * B2R x + 0.62144744 * B2R y - 0.00897398 * B2R z) (1 / 10 ^ 11).
Proof using fx fy fz bx by_ bz. unfold back_y. three near_addf near_subf (dec "0.38752654") (dec "0.62144744") (dec "0.00897398"). Qed.
Lemma back_z_near : near (back_z x y z) (-0.01584150 * B2R x - 0.03412294 * B2R y + 1.04996444 * B2R z) (1 / 10 ^ 11).
Proof using fx fy fz bx by_ bz. unfold back_z. three near_subf near_addf (dec "-0.01584150") (dec "0.03412294") (dec "1.04996444"). Qed.
End Three.

Section Acc.
Context {lm : Libm} (LA : libm_accurate (1 / 10 ^ 13) lm).
Let eps := 1 / 10 ^ 13.
Let heps : 0 <= eps <= 1 / 10 ^ 5. Proof. unfold eps. lra. Qed.
Let PA : pow_accurate eps lm := la_pow _ _ LA.

Lemma lin_pos c : (1 <= c <= 255)%Z -> 0.0303 <= B2R (linearized c).
Proof using LA.
  intros hc. destruct (linearized_R eps heps PA c ltac:(lia)) as [_ E].
  assert (M := linR_mono 1 c ltac:(lia) ltac:(lia)). assert (linR 1 = 1 / 255 / 12.92) as L1 by reflexivity. rewrite L1 in M.
  assert (B := linR_range c ltac:(lia)). unfold eps in E. set (l := linR c) in *. clearbody l. lra.
Qed.

(** The cone responses of a colour. *)
Lemma cones cr cg cb : (0 <= cr <= 255)%Z -> (0 <= cg <= 255)%Z -> (0 <= cb <= 255)%Z ->
  let '(x, y, z) := matrix_multiply (linearized cr, linearized cg, linearized cb) srgb_to_xyz in
  (fin x /\ fin y /\ fin z) /\
  (between (cone_r x y z) (-0.001) 109.2 /\ between (cone_g x y z) (-0.001) 109.2 /\ between (cone_b x y z) (-0.001) 109.2) /\
  ((1 <= cr \/ 1 <= cg \/ 1 <= cb)%Z -> 0.0008 <= B2R (cone_r x y z) /\ 0.0008 <= B2R (cone_g x y z) /\ 0.0008 <= B2R (cone_b x y z)) /\
  (forall r g b, near r (B2R (cone_r x y z)) (1 / 10 ^ 4) -> near g (B2R (cone_g x y z)) (1 / 10 ^ 4) -> near b (B2R (cone_b x y z)) (1 / 10 ^ 4) ->
     argb_from_xyz (back_x r g b) (back_y r g b) (back_z r g b) = argb_from_rgb cr cg cb).
Proof using LA.
  intros hr hg hb.
  destruct (linearized_range eps heps PA cr hr) as [Fr Br]. destruct (linearized_range eps heps PA cg hg) as [Fg Bg].
  destruct (linearized_range eps heps PA cb hb) as [Fb Bb].
  pose proof (xyz_R _ _ _ Fr Fg Fb ltac:(lra) ltac:(lra) ltac:(lra)) as X.
  destruct (matrix_multiply _ srgb_to_xyz) as [[x y] z].
  destruct X as ((fx & fy & fz) & ex & ey & ez).
  assert (PR := lin_pos cr). assert (PG := lin_pos cg). assert (PB := lin_pos cb).
  assert (DR := delin_back eps heps PA). 
  destruct (cone_r_near x y z fx fy fz ltac:(lra) ltac:(lra) ltac:(lra)) as [Gr Er].
  destruct (cone_g_near x y z fx fy fz ltac:(lra) ltac:(lra) ltac:(lra)) as [Gg Eg].
  destruct (cone_b_near x y z fx fy fz ltac:(lra) ltac:(lra) ltac:(lra)) as [Gb Eb].
  split; [repeat split; assumption|].
  set (lr := B2R (linearized cr)) in *. set (lg := B2R (linearized cg)) in *. set (lb := B2R (linearized cb)) in *.
  set (kr := cone_r x y z) in *. set (kg := cone_g x y z) in *. set (kb := cone_b x y z) in *. clearbody kr kg kb.
  assert (B1 : -0.001 <= B2R kr <= 109.2) by lra. assert (B2 : -0.001 <= B2R kg <= 109.2) by lra. assert (B3 : -0.001 <= B2R kb <= 109.2) by lra.
  split; [split; [split; [exact Gr|exact B1]|split; split; assumption]|]. split.
  - intros h. assert (0.0303 <= lr \/ 0.0303 <= lg \/ 0.0303 <= lb) as [|[|]].
    { destruct h as [h|[h|h]]; [left; apply PR; lia|right; left; apply PG; lia|right; right; apply PB; lia]. }
    + repeat split; lra.
    + repeat split; lra.
    + repeat split; lra.
  - intros r g b [fr nr] [fg ng] [fb nb]. clear PR PG PB.
    destruct (back_x_near r g b fr fg fb ltac:(lra) ltac:(lra) ltac:(lra)) as [Gx Ex].
    destruct (back_y_near r g b fr fg fb ltac:(lra) ltac:(lra) ltac:(lra)) as [Gy Ey].
    destruct (back_z_near r g b fr fg fb ltac:(lra) ltac:(lra) ltac:(lra)) as [Gz Ez].
    set (x' := back_x r g b) in *. set (y' := back_y r g b) in *. set (z' := back_z r g b) in *. clearbody x' y' z'.
    assert (X : -1 <= B2R x' <= 101 /\ -1 <= B2R y' <= 101 /\ -1 <= B2R z' <= 110) by lra. destruct X as (bx & by_ & bz).
    (* linear images with the published decimals *)
    unfold argb_from_xyz, xyz_to_srgb, v0, v1, v2. cbn [fst snd].
    fconst (dec "3.2413774792388685"). fconst (dec "-1.5376652402851851"). fconst (dec "-0.49885366846268053").
    destruct (dot_R _ _ _ x' y' z' F F0 F1 Gx Gy Gz) as [Qr Er']; [rewrite V; lra|rewrite V0; lra|rewrite V1; lra|].
    rewrite V, V0, V1 in Er'.
    rewrite (DR _ cr ltac:(unfold eps; lra) hr Qr) by (fold lr; clear - ex ey ez Er Eg Eb nr ng nb Ex Ey Ez Er' Br Bg Bb; clearbody lr lg lb; lra).
    fconst (dec "-0.9691452513005321"). fconst (dec "1.8758853451067872"). fconst (dec "0.04156585616912061").
    destruct (dot_R _ _ _ x' y' z' F2 F3 F4 Gx Gy Gz) as [Qg Eg']; [rewrite V2; lra|rewrite V3; lra|rewrite V4; lra|].
    rewrite V2, V3, V4 in Eg'.
    rewrite (DR _ cg ltac:(unfold eps; lra) hg Qg) by (fold lg; clear - ex ey ez Er Eg Eb nr ng nb Ex Ey Ez Eg' Br Bg Bb; clearbody lr lg lb; lra).
    fconst (dec "0.05562093689691305"). fconst (dec "-0.20395524564742123"). fconst (dec "1.0571799111220335").
    destruct (dot_R _ _ _ x' y' z' F5 F6 F7 Gx Gy Gz) as [Qb Eb']; [rewrite V5; lra|rewrite V6; lra|rewrite V7; lra|].
    rewrite V5, V6, V7 in Eb'.
    rewrite (DR _ cb ltac:(unfold eps; lra) hb Qb) by (fold lb; clear - ex ey ez Er Eg Eb nr ng nb Ex Ey Ez Eb' Br Bg Bb; clearbody lr lg lb; lra).
    reflexivity.
Qed.
End Acc.
