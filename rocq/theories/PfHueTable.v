(** * From the integer certificate to the yellow-blue coordinate of every colour.  Proof file. *)
From Coq Require Import ZArith List Bool Reals Lra Lia Psatz.
From Verif Require Import PfGamma PfLabTrip PfNear PfVc PfRel PfCamC PfHueReal PfHueMono HueGrid PfHueGrid.
Import ListNotations.
Open Scope R_scope.

(** [l] is the linear value of the channel value [c], scaled by 2^52 and rounded down. *)
Definition ent (l c : Z) : Prop := IZR l <= IZR (2 ^ 52) * linR c <= IZR l + 1 /\ (0 <= l)%Z.

Lemma pow5_le a b : 0 <= a -> 0 <= b -> a ^ 5 <= b ^ 5 -> a <= b.
Proof.
  intros ha hb h. destruct (Rle_or_lt a b) as [|g]; [assumption|exfalso].
  assert (b * b <= a * a) by (apply Rmult_le_compat; lra). assert (b * b * (b * b) <= a * a * (a * a)) by (apply Rmult_le_compat; try nra).
  assert (0 < a * a * (a * a)) by (apply Rmult_lt_0_compat; nra).
  assert (b * b * (b * b) * b <= a * a * (a * a) * b) by (apply Rmult_le_compat_r; lra). assert (a * a * (a * a) * b < a * a * (a * a) * a) by (apply Rmult_lt_compat_l; lra).
  replace (a ^ 5) with (a * a * (a * a) * a) in h by ring. replace (b ^ 5) with (b * b * (b * b) * b) in h by ring. lra.
Qed.

Lemma lin_ok_ent c l : (0 <= c <= 255)%Z -> lin_ok c l = true -> ent l c.
Proof.
  intros hc H. unfold lin_ok in H. unfold ent, linR. destruct (Z.leb_spec c 10) as [le|gt].
  - apply Z.eqb_eq in H. destruct (div_bounds (Z.shiftl (10 * c) 52) 32946 ltac:(lia)) as [L U]. rewrite <- H in L, U.
    assert (N : (0 <= l)%Z) by (rewrite H; apply Z.div_pos; [rewrite Z.shiftl_mul_pow2 by lia; lia|lia]). rewrite shiftl_R, mult_IZR in L, U by lia. split; [|exact N].
    set (k := IZR (2 ^ 52)) in *. clearbody k. replace (IZR c / 255 / 12.92) with (10 * IZR c / 32946) by (replace 12.92 with (1292 / 100) by lra; field). clear H N. lra.
  - apply andb_prop in H. destruct H as [H H3]. apply andb_prop in H. destruct H as [H1 H2]. apply Z.ltb_lt in H1. apply Z.leb_le, IZR_le in H2, H3. split; [|lia].
    rewrite !shiftl_R, !mult_IZR in H2, H3 by lia.
    assert (E : forall n, IZR (n ^ 12) = IZR n ^ 12) by (intros; rewrite (pow_IZR n 12); reflexivity). assert (E5 : forall n, IZR (n ^ 5) = IZR n ^ 5) by (intros; rewrite (pow_IZR n 5); reflexivity).
    rewrite !E, !E5, !plus_IZR, !mult_IZR in H2, H3.
    assert (P260 : IZR (2 ^ 260) = IZR (2 ^ 52) ^ 5) by (rewrite <- E5; reflexivity). rewrite P260 in H2, H3. clear P260.
    set (k := IZR (2 ^ 52)) in *. assert (K : 0 < k) by (apply IZR_lt; reflexivity). clearbody k.
    assert (C : 10 < IZR c) by (apply IZR_lt; lia). assert (L0 : 0 <= IZR l) by (apply IZR_le; lia).
    set (w := wR c). assert (W0 : w = (1000 * IZR c + 14025) / 269025) by (unfold w, wR; replace 0.055 with (55 / 1000) by lra; replace 1.055 with (1055 / 1000) by lra; field).
    assert (PW : 0 < w) by (rewrite W0; apply Rdiv_lt_0_compat; lra).
    assert (V : Rpower w 2.4 ^ 5 = w ^ 12).
    { rewrite <- (Rpower_pow 5) by apply exp_pos. rewrite Rpower_mult. rewrite <- (Rpower_pow 12) by exact PW. f_equal. cbn [INR]. lra. }
    assert (PV : 0 < Rpower w 2.4) by apply exp_pos. set (v := Rpower w 2.4) in *. clearbody v.
    assert (EN : (1000 * IZR c + 14025) ^ 12 = w ^ 12 * 269025 ^ 12) by (rewrite W0; field). rewrite EN, <- V in H2, H3. clear EN V W0 E E5.
    assert (P12 : 0 < 269025 ^ 12) by (apply pow_lt; lra). set (d := 269025 ^ 12) in *. clearbody d.
    split; (apply pow5_le; [try lra; apply Rmult_le_pos; lra|try lra; apply Rmult_le_pos; lra|]); apply Rmult_le_reg_r with d; try exact P12; rewrite Rpow_mult_distr.
    + apply Rle_trans with (1 := H2). right. ring.
    + rewrite plus_IZR in H3. apply Rle_trans with (2 := H3). right. ring.
Qed.

Lemma lins_ok_nth ls : forall c, (0 <= c)%Z -> lins_ok c ls = true -> (c + Z.of_nat (length ls) = 256)%Z /\
  forall i, (i < length ls)%nat -> lin_ok (c + Z.of_nat i) (nth i ls 0%Z) = true /\
    ((S i < length ls)%nat -> (c + Z.of_nat i <= 9)%Z \/ (nth (S i) ls 0 + 1 <= 2 * nth i ls 0)%Z).
Proof.
  induction ls as [|l rest IH]; intros c hc H; cbn [lins_ok length] in H |- *.
  - apply Z.eqb_eq in H. split; [lia|]. intros i hi. lia.
  - apply andb_prop in H. destruct H as [H H3]. apply andb_prop in H. destruct H as [H1 H2]. destruct (IH (c + 1)%Z ltac:(lia) H3) as [L N]. split; [lia|].
    intros [|i] hi.
    + cbn [nth]. rewrite Z.add_0_r. split; [exact H1|]. intros h2. destruct rest as [|l' rest]; [cbn [length] in h2; lia|]. cbn [nth].
      apply orb_prop in H2. destruct H2 as [H2|H2]; apply Z.leb_le in H2; [left|right]; exact H2.
    + specialize (N i ltac:(lia)). cbn [nth]. replace (c + Z.of_nat (S i))%Z with (c + 1 + Z.of_nat i)%Z by lia. destruct N as [N1 N2]. split; [exact N1|]. intros h2. apply N2. lia.
Qed.

(** ** Excitations *)
Lemma term Q k q l c : (3600000000 <= Q <= 4000000000)%Z -> (0 <= k <= 10 ^ 14)%Z -> IZR Q / 10 ^ 10 <= q <= IZR Q / 10 ^ 10 + 5 / 10 ^ 10 -> ent l c -> (0 <= c <= 255)%Z ->
  0 <= IZR (times (coef Q k) l) /\ IZR (times (coef Q k) l) <= IZR (2 ^ 50) * (q * (IZR k / 10 ^ 14 * linR c)) <= (1 + 14 / 10 ^ 10) * (IZR (times (coef Q k) l) + 2.3).
Proof.
  intros hQ hk hq [he hl] hc. assert (LR := linR_range c hc). unfold coef, times.
  destruct (div_bounds (Z.shiftl (Q * k) 50) (10 ^ 24) ltac:(lia)) as [L U].
  assert (N : (0 <= Z.shiftl (Q * k) 50 / 10 ^ 24)%Z) by (apply Z.div_pos; [apply Z.shiftl_nonneg; lia|lia]).
  set (cf := (Z.shiftl (Q * k) 50 / 10 ^ 24)%Z) in *. clearbody cf. rewrite shiftl_R, mult_IZR in L, U by lia.
  destruct (shiftr_le (cf * l) 52 ltac:(lia)) as [L' U']. assert (N' : (0 <= Z.shiftr (cf * l) 52)%Z) by (apply Z.shiftr_nonneg; lia).
  apply IZR_le in N'. split; [exact N'|]. set (s := IZR (Z.shiftr (cf * l) 52)) in *. clearbody s. rewrite mult_IZR in L', U'.
  apply IZR_le in N, hl. destruct hQ as [Q1 Q2]. apply IZR_le in Q1, Q2. destruct hk as [K1 K2]. apply IZR_le in K1, K2.
  replace (IZR (10 ^ 24)) with (10 ^ 10 * 10 ^ 14) in L, U by lra. replace (IZR (10 ^ 14)) with (10 ^ 14) in K2 by lra.
  set (lam := linR c) in *. set (a := IZR cf) in *. set (b := IZR l) in *. set (w50 := IZR (2 ^ 50)) in *. set (w52 := IZR (2 ^ 52)) in *. set (QQ := IZR Q) in *. set (kk := IZR k) in *.
  assert (E50 : w50 = 1125899906842624) by reflexivity. assert (E52 : w52 = 4503599627370496) by reflexivity. clearbody lam a b w50 w52 QQ kk.
  set (t := w50 * (QQ / 10 ^ 10 * (kk / 10 ^ 14))). 
  assert (T1 : a <= t <= a + 1) by (unfold t; split; lra).
  assert (KK0 : 0 <= kk / 10 ^ 14 <= 1) by lra. 
  assert (TB : t <= w50 * 1).
  { unfold t. apply Rmult_le_compat_l; [lra|]. replace 1 with (1 * 1) by ring. apply Rmult_le_compat; lra. }
  assert (KL : 0 <= kk / 10 ^ 14 * lam) by (apply Rmult_le_pos; lra).
  split.
  - apply Rle_trans with (t * lam).
    + apply Rmult_le_reg_r with w52; [lra|]. apply Rle_trans with (1 := L'). replace (t * lam * w52) with (t * (w52 * lam)) by ring. apply Rmult_le_compat; lra.
    + replace (t * lam) with (w50 * ((QQ / 10 ^ 10) * (kk / 10 ^ 14 * lam))) by (unfold t; ring). apply Rmult_le_compat_l; [lra|]. apply Rmult_le_compat_r; [exact KL|lra].
  - apply Rle_trans with ((1 + 14 / 10 ^ 10) * (t * lam)).
    + replace ((1 + 14 / 10 ^ 10) * (t * lam)) with (w50 * (((1 + 14 / 10 ^ 10) * (QQ / 10 ^ 10)) * (kk / 10 ^ 14 * lam))) by (unfold t; ring).
      apply Rmult_le_compat_l; [lra|]. apply Rmult_le_compat_r; [exact KL|]. lra.
    + apply Rmult_le_compat_l; [lra|]. apply Rmult_le_reg_r with w52; [lra|]. replace (t * lam * w52) with (t * (w52 * lam)) by ring.
      apply Rle_trans with ((a + 1) * (b + 1)); [apply Rmult_le_compat; lra|].
      assert (BW : w52 * lam <= w52 * 1) by (apply Rmult_le_compat_l; lra). clearbody t. lra.
Qed.

Lemma up_ok x y : (0 <= x)%Z -> y <= (1 + 14 / 10 ^ 10) * (IZR x + 6.9) -> y <= IZR (HueGrid.up x).
Proof.
  intros hx h. unfold HueGrid.up. destruct (shiftr_le x 28 ltac:(lia)) as [_ U]. rewrite !plus_IZR. apply IZR_le in hx. replace (IZR (2 ^ 28)) with 268435456 in U by reflexivity. lra.
Qed.

Section Table.
Variables u1 u2 u3 : R.
Hypothesis h1 : IZR HueGrid.q1 / 10 ^ 10 <= u1 <= IZR HueGrid.q1 / 10 ^ 10 + 5 / 10 ^ 10.
Hypothesis h2 : IZR HueGrid.q2 / 10 ^ 10 <= u2 <= IZR HueGrid.q2 / 10 ^ 10 + 5 / 10 ^ 10.
Hypothesis h3 : IZR HueGrid.q3 / 10 ^ 10 <= u3 <= IZR HueGrid.q3 / 10 ^ 10 + 5 / 10 ^ 10.

Definition Y (r g b : Z) : R := yb u1 u2 u3 (linR r) (linR g) (linR b).
Definition byte (c : Z) : Prop := (0 <= c <= 255)%Z.
Definition lit (r g b : Z) : Prop := (1 <= r \/ 1 <= g \/ 1 <= b)%Z.

Lemma u1_b : 0.396 <= u1 <= 0.397. Proof using h1. clear - h1. unfold HueGrid.q1 in h1. lra. Qed.
Lemma u2_b : 0.383 <= u2 <= 0.384. Proof using h2. clear - h2. unfold HueGrid.q2 in h2. lra. Qed.
Lemma u3_b : 0.362 <= u3 <= 0.363. Proof using h3. clear - h3. unfold HueGrid.q3 in h3. lra. Qed.

Lemma linR_pos c : (1 <= c <= 255)%Z -> 0 < linR c.
Proof using.
  intros h. apply Rlt_le_trans with (linR 1); [unfold linR; cbn; lra|]. apply linR_mono; lia.
Qed.

(** Sums of three terms. *)
Lemma sum3 Q q k1 k2 k3 l1 l2 l3 r g b : (3600000000 <= Q <= 4000000000)%Z -> IZR Q / 10 ^ 10 <= q <= IZR Q / 10 ^ 10 + 5 / 10 ^ 10 ->
  (0 < k1 <= 10 ^ 14)%Z -> (0 < k2 <= 10 ^ 14)%Z -> (0 < k3 <= 10 ^ 14)%Z -> ent l1 r -> ent l2 g -> ent l3 b -> byte r -> byte g -> byte b -> lit r g b ->
  let x := (times (coef Q k1) l1 + times (coef Q k2) l2 + times (coef Q k3) l3)%Z in
  let X := q * (IZR k1 / 10 ^ 14 * linR r + IZR k2 / 10 ^ 14 * linR g + IZR k3 / 10 ^ 14 * linR b) in
  0 < X /\ IZR x <= IZR (2 ^ 50) * X /\ IZR (2 ^ 50) * X <= IZR (HueGrid.up x).
Proof using.
  intros hQ hq hk1 hk2 hk3 e1 e2 e3 br bg bb lt x X.
  destruct (term Q k1 q l1 r hQ ltac:(lia) hq e1 br) as [a1 [b1 c1]]. destruct (term Q k2 q l2 g hQ ltac:(lia) hq e2 bg) as [a2 [b2 c2]]. destruct (term Q k3 q l3 b hQ ltac:(lia) hq e3 bb) as [a3 [b3 c3]].
  assert (P : forall k, (0 < k <= 10 ^ 14)%Z -> 0 < IZR k / 10 ^ 14) by (intros k hk; apply Rdiv_lt_0_compat; [apply IZR_lt; lia|lra]).
  assert (Rr := linR_range r br). assert (Rg := linR_range g bg). assert (Rb := linR_range b bb).
  pose proof (P k1 hk1) as p1. pose proof (P k2 hk2) as p2. pose proof (P k3 hk3) as p3. set (c1' := IZR k1 / 10 ^ 14) in *. set (c2' := IZR k2 / 10 ^ 14) in *. set (c3' := IZR k3 / 10 ^ 14) in *. clearbody c1' c2' c3'.
  assert (Q0 : 0 < q). { destruct hQ as [hQ _]. apply IZR_le in hQ. lra. }
  assert (X0 : 0 < X).
  { unfold X. apply Rmult_lt_0_compat; [exact Q0|]. assert (z1 : 0 <= c1' * linR r) by (apply Rmult_le_pos; lra). assert (z2 : 0 <= c2' * linR g) by (apply Rmult_le_pos; lra). assert (z3 : 0 <= c3' * linR b) by (apply Rmult_le_pos; lra).
    unfold byte in *. destruct lt as [lt|[lt|lt]]; [assert (0 < c1' * linR r)|assert (0 < c2' * linR g)|assert (0 < c3' * linR b)]; try (apply Rmult_lt_0_compat; [assumption|apply linR_pos; lia]); lra. }
  assert (EX : IZR (2 ^ 50) * X = IZR (2 ^ 50) * (q * (c1' * linR r)) + IZR (2 ^ 50) * (q * (c2' * linR g)) + IZR (2 ^ 50) * (q * (c3' * linR b))) by (unfold X; ring).
  split; [exact X0|]. rewrite EX. clear EX X0 X Q0 hq hQ.
  assert (x0 : (0 <= x)%Z) by (unfold x; apply le_IZR; rewrite !plus_IZR; lra).
  split; [unfold x; rewrite !plus_IZR; lra|]. apply up_ok; [exact x0|]. unfold x. rewrite !plus_IZR. lra.
Qed.

Let ex Q k1 k2 k3 lr lg lb := (times (coef Q k1) lr + times (coef Q k2) lg + times (coef Q k3) lb)%Z.
Lemma tri_eq lr lg lb : add3 (red_tri lr) (green_tri lg) (blue_tri lb) =
  (ex HueGrid.q1 30269915328759 60238031164330 7047346329738 lr lg lb, ex HueGrid.q2 15374913599554 77736002827076 8535981854956 lr lg lb, ex HueGrid.q3 2796570007202 14784523135458 90895832236388 lr lg lb).
Proof using. reflexivity. Qed.
Lemma pos_eq t a b c : pos t (a, b, c) = larger t a b c. Proof using. reflexivity. Qed.
Lemma neg_eq t a b c : neg t (a, b, c) = smaller t a b c. Proof using. reflexivity. Qed.

Lemma pos_ok lr lg lb r g b : ent lr r -> ent lg g -> ent lb b -> byte r -> byte g -> byte b -> lit r g b ->
  pos the_tree (add3 (red_tri lr) (green_tri lg) (blue_tri lb)) = true -> d0 <= Y r g b.
Proof using h1 h2 h3.
  intros er eg eb br bg bb lt H.
  destruct (sum3 HueGrid.q1 u1 30269915328759 60238031164330 7047346329738 _ _ _ _ _ _ ltac:(unfold HueGrid.q1; lia) h1 ltac:(lia) ltac:(lia) ltac:(lia) er eg eb br bg bb lt) as (A0 & A1 & A2).
  destruct (sum3 HueGrid.q2 u2 15374913599554 77736002827076 8535981854956 _ _ _ _ _ _ ltac:(unfold HueGrid.q2; lia) h2 ltac:(lia) ltac:(lia) ltac:(lia) er eg eb br bg bb lt) as (B0 & B1 & B2).
  destruct (sum3 HueGrid.q3 u3 2796570007202 14784523135458 90895832236388 _ _ _ _ _ _ ltac:(unfold HueGrid.q3; lia) h3 ltac:(lia) ltac:(lia) ltac:(lia) er eg eb br bg bb lt) as (C0 & C1 & C2).
  rewrite tri_eq, pos_eq in H. assert (T := the_tree_sound). set (t := the_tree) in *. clearbody t.
  pose proof (larger_sound t _ _ _ _ _ _ T A0 B0 C0 A1 B1 C2 H) as K. apply Rle_trans with (1 := K). right. clear.
  unfold Y, yb, exr, exg, exb. repeat f_equal; lra.
Qed.
Lemma neg_ok lr lg lb r g b : ent lr r -> ent lg g -> ent lb b -> byte r -> byte g -> byte b -> lit r g b ->
  neg the_tree (add3 (red_tri lr) (green_tri lg) (blue_tri lb)) = true -> Y r g b <= - d0.
Proof using h1 h2 h3.
  intros er eg eb br bg bb lt H.
  destruct (sum3 HueGrid.q1 u1 30269915328759 60238031164330 7047346329738 _ _ _ _ _ _ ltac:(unfold HueGrid.q1; lia) h1 ltac:(lia) ltac:(lia) ltac:(lia) er eg eb br bg bb lt) as (A0 & A1 & A2).
  destruct (sum3 HueGrid.q2 u2 15374913599554 77736002827076 8535981854956 _ _ _ _ _ _ ltac:(unfold HueGrid.q2; lia) h2 ltac:(lia) ltac:(lia) ltac:(lia) er eg eb br bg bb lt) as (B0 & B1 & B2).
  destruct (sum3 HueGrid.q3 u3 2796570007202 14784523135458 90895832236388 _ _ _ _ _ _ ltac:(unfold HueGrid.q3; lia) h3 ltac:(lia) ltac:(lia) ltac:(lia) er eg eb br bg bb lt) as (C0 & C1 & C2).
  rewrite tri_eq, neg_eq in H. assert (T := the_tree_sound). set (t := the_tree) in *. clearbody t.
  pose proof (smaller_sound t _ _ _ _ _ _ T A0 B0 C0 A2 B2 C1 H) as K. apply Rle_trans with (2 := K). right. clear.
  unfold Y, yb, exr, exg, exb. repeat f_equal; lra.
Qed.

(** ** The lattice of colours *)
Variable lin : list Z.
Hypothesis LOK : lins_ok 0 lin = true.

Lemma lin_len : length lin = Z.to_nat 256.
Proof using LOK. destruct (lins_ok_nth lin 0 ltac:(lia) LOK) as [L _]. lia. Qed.
Lemma lin_ent c : byte c -> ent (nth (Z.to_nat c) lin 0%Z) c.
Proof using LOK.
  intros h. unfold byte in h. destruct (lins_ok_nth lin 0 ltac:(lia) LOK) as [L N]. destruct (N (Z.to_nat c) ltac:(lia)) as [E _]. rewrite Z.add_0_l, Z2Nat.id in E by lia. now apply lin_ok_ent.
Qed.
Lemma double c : (1 <= c <= 254)%Z -> linR (c + 1) <= 2 * linR c.
Proof using LOK.
  intros h. destruct (lins_ok_nth lin 0 ltac:(lia) LOK) as [L N]. destruct (N (Z.to_nat c) ltac:(lia)) as [_ D]. specialize (D ltac:(lia)). destruct D as [D|D].
  - unfold linR. destruct (Z.leb_spec (c + 1) 10); [|lia]. destruct (Z.leb_spec c 10); [|lia]. rewrite plus_IZR. assert (1 <= IZR c) by (apply IZR_le; lia). lra.
  - destruct (lin_ent c) as [[E1 _] _]; [unfold byte; lia|]. destruct (lin_ent (c + 1)) as [[_ E2] _]; [unfold byte; lia|].
    replace (Z.to_nat (c + 1)) with (S (Z.to_nat c)) in E2 by lia. apply IZR_le in D. rewrite plus_IZR, mult_IZR in D.
    assert (K : 0 < IZR (2 ^ 52)) by (apply IZR_lt; reflexivity). set (k := IZR (2 ^ 52)) in *. clearbody k. apply Rmult_le_reg_l with k; lra.
Qed.

Lemma red_step r g b : (0 <= r <= 254)%Z -> byte g -> byte b -> lit r g b -> Y r g b <= Y (r + 1) g b.
Proof using h1 h2 h3 LOK.
  intros hr hg hb lt. unfold Y. apply (yb_red u1 u2 u3 u1_b u2_b u3_b).
  - apply linR_range. lia.
  - apply linR_mono; lia.
  - split; [apply linR_pos; lia|apply linR_range; lia].
  - now apply linR_range.
  - now apply linR_range.
  - unfold byte in *. destruct (Z.eq_dec r 0) as [->|ne]; [|left; apply double; lia]. right. destruct lt as [lt|[lt|lt]]; [lia|left|right]; apply linR_mono; lia.
Qed.
Lemma blue_step r g b : (0 <= b <= 254)%Z -> byte g -> byte r -> lit r g b -> Y r g (b + 1) <= Y r g b.
Proof using h1 h2 h3 LOK.
  intros hb hg hr lt. unfold Y. apply (yb_blue u1 u2 u3 u1_b u2_b u3_b).
  - apply linR_range. lia.
  - apply linR_mono; lia.
  - split; [apply linR_pos; lia|apply linR_range; lia].
  - now apply linR_range.
  - now apply linR_range.
  - unfold byte in *. destruct (Z.eq_dec b 0) as [->|ne]; [|left; apply double; lia]. right. destruct lt as [lt|[lt|lt]]; [right|left|lia]; apply linR_mono; lia.
Qed.
Lemma red_mono r r' g b : (0 <= r <= r')%Z -> (r' <= 255)%Z -> byte g -> byte b -> lit r g b -> Y r g b <= Y r' g b.
Proof using h1 h2 h3 LOK.
  intros hr hr' hg hb lt. replace r' with (r + Z.of_nat (Z.to_nat (r' - r)))%Z in * by lia. induction (Z.to_nat (r' - r)) as [|n IH]; [rewrite Z.add_0_r; lra|].
  rewrite Nat2Z.inj_succ. apply Rle_trans with (Y (r + Z.of_nat n) g b); [apply IH; lia|]. replace (r + Z.succ (Z.of_nat n))%Z with (r + Z.of_nat n + 1)%Z by lia. apply red_step; try assumption; [lia|]. unfold lit in *. lia.
Qed.
Lemma blue_mono r g b b' : (0 <= b <= b')%Z -> (b' <= 255)%Z -> byte g -> byte r -> lit r g b -> Y r g b' <= Y r g b.
Proof using h1 h2 h3 LOK.
  intros hb hb' hg hr lt. replace b' with (b + Z.of_nat (Z.to_nat (b' - b)))%Z in * by lia. induction (Z.to_nat (b' - b)) as [|n IH]; [rewrite Z.add_0_r; lra|].
  rewrite Nat2Z.inj_succ. apply Rle_trans with (Y r g (b + Z.of_nat n)); [|apply IH; lia]. replace (b + Z.succ (Z.of_nat n))%Z with (b + Z.of_nat n + 1)%Z by lia. apply blue_step; try assumption; [lia|]. unfold lit in *. lia.
Qed.

Definition sep (r g b : Z) : Prop := d0 <= Y r g b \/ Y r g b <= - d0.
Let reds := map red_tri lin.
Let blues := map blue_tri lin.

Lemma at3_map f c : byte c -> at3 (map f lin) c = f (nth (Z.to_nat c) lin 0%Z).
Proof using LOK.
  intros h. unfold at3. unfold byte in h. rewrite (nth_indep _ zero3 (f 0%Z)) by (rewrite map_length, lin_len; lia). apply map_nth.
Qed.

Lemma pos_at gl r g b : ent gl g -> byte r -> byte g -> byte b -> lit r g b -> pos the_tree (add3 (at3 reds r) (green_tri gl) (at3 blues b)) = true -> d0 <= Y r g b.
Proof using h1 h2 h3 LOK.
  intros eg br bg bb lt H. unfold reds, blues in H. rewrite !at3_map in H by assumption. exact (pos_ok _ _ _ _ _ _ (lin_ent r br) eg (lin_ent b bb) br bg bb lt H).
Qed.
Lemma neg_at gl r g b : ent gl g -> byte r -> byte g -> byte b -> lit r g b -> neg the_tree (add3 (at3 reds r) (green_tri gl) (at3 blues b)) = true -> Y r g b <= - d0.
Proof using h1 h2 h3 LOK.
  intros eg br bg bb lt H. unfold reds, blues in H. rewrite !at3_map in H by assumption. exact (neg_ok _ _ _ _ _ _ (lin_ent r br) eg (lin_ent b bb) br bg bb lt H).
Qed.

Lemma columns_ok gl g : ent gl g -> byte g -> forall rs b, (0 <= b)%Z -> (1 <= g \/ 1 <= b)%Z -> columns the_tree reds blues (green_tri gl) b rs = true ->
  forall b' r, (b <= b' <= 255)%Z -> byte r -> sep r g b'.
Proof using h1 h2 h3 LOK.
  intros eg bg. induction rs as [|r0 rest IH]; intros b hb nb H b' r hb' hr; cbn [columns] in H; unfold byte in *.
  - destruct (Z.ltb_spec 255 b); [lia|]. right. assert (K := neg_at gl 255 g b eg ltac:(unfold byte; lia) bg ltac:(unfold byte; lia) ltac:(unfold lit; lia) H).
    apply Rle_trans with (Y 255 g b'); [apply red_mono; unfold byte, lit; lia|]. apply Rle_trans with (2 := K). apply blue_mono; unfold byte, lit; lia.
  - destruct (Z.leb_spec 1 r0); [|discriminate H]. destruct (Z.leb_spec r0 255); [|discriminate H]. destruct (Z.leb_spec b 255); [|discriminate H]. cbn [andb] in H.
    destruct (pos the_tree _) eqn:P in H; [|discriminate H]. destruct (neg the_tree _) eqn:N in H; [|discriminate H].
    destruct (Z.eq_dec b' b) as [->|ne].
    + destruct (Z.le_gt_cases r0 r) as [ge|lt].
      * left. apply Rle_trans with (Y r0 g b); [apply (pos_at gl); unfold byte, lit; try assumption; lia|]. apply red_mono; unfold byte, lit; lia.
      * right. apply Rle_trans with (Y (r0 - 1) g b); [apply red_mono; unfold byte, lit; lia|]. apply (neg_at gl); unfold byte, lit; try assumption; lia.
    + apply (IH (b + 1)%Z ltac:(lia) ltac:(lia) H b' r); lia.
Qed.

Lemma row_ok gl g h : ent gl g -> (1 <= g <= 255)%Z -> row the_tree reds blues (green_tri gl) h = true -> forall r b, byte r -> byte b -> sep r g b.
Proof using h1 h2 h3 LOK.
  intros eg bg H r b hr hb. destruct h as [b0 rs]. unfold row in H. unfold byte in *.
  destruct (Z.leb_spec 1 b0); [|discriminate H]. destruct (Z.leb_spec b0 256); [|discriminate H]. cbn [andb] in H. destruct (pos the_tree _) eqn:P in H; [|discriminate H].
  destruct (Z.lt_ge_cases b b0) as [lt|ge].
  - left. apply Rle_trans with (Y 0 g (b0 - 1)); [apply (pos_at gl); unfold byte, lit; try assumption; lia|]. apply Rle_trans with (Y 0 g b); [apply blue_mono; unfold byte, lit; lia|]. apply red_mono; unfold byte, lit; lia.
  - apply (columns_ok gl g eg ltac:(unfold byte; lia) rs b0 ltac:(lia) ltac:(lia) H); unfold byte; lia.
Qed.
Lemma row0_ok gl rs : ent gl 0 -> row0 the_tree reds blues (green_tri gl) rs = true -> forall r b, byte r -> byte b -> lit r 0 b -> sep r 0 b.
Proof using h1 h2 h3 LOK.
  intros eg H r b hr hb lt. unfold row0 in H. apply andb_prop in H. destruct H as [P C]. unfold byte, lit in *.
  destruct (Z.eq_dec b 0) as [->|ne].
  - left. apply Rle_trans with (Y 1 0 0); [apply (pos_at gl); unfold byte, lit; try assumption; lia|]. apply red_mono; unfold byte, lit; lia.
  - apply (columns_ok gl 0 eg ltac:(unfold byte; lia) rs 1 ltac:(lia) ltac:(lia) C); unfold byte; lia.
Qed.
Lemma rows_ok ls : forall g0 hs, (1 <= g0)%Z -> (g0 + Z.of_nat (length ls) <= 256)%Z -> (forall i, (i < length ls)%nat -> ent (nth i ls 0%Z) (g0 + Z.of_nat i)) ->
  rows the_tree reds blues (map green_tri ls) hs = true -> forall g r b, (g0 <= g < g0 + Z.of_nat (length ls))%Z -> byte r -> byte b -> sep r g b.
Proof using h1 h2 h3 LOK.
  induction ls as [|l rest IH]; intros g0 hs h0 hl E H g r b hg hr hb; cbn [length map] in *; [lia|].
  destruct hs as [|h hs]; cbn [rows] in H; [discriminate H|]. destruct (row the_tree _ _ _ h) eqn:Rw in H; [|discriminate H].
  destruct (Z.eq_dec g g0) as [->|ne].
  - apply (row_ok l g0 h); try assumption; [|lia]. specialize (E 0%nat ltac:(lia)). cbn [nth] in E. rewrite Z.add_0_r in E. exact E.
  - apply (IH (g0 + 1)%Z hs); try assumption; try lia. intros i hi. specialize (E (S i) ltac:(lia)). cbn [nth] in E. replace (g0 + 1 + Z.of_nat i)%Z with (g0 + Z.of_nat (S i))%Z by lia. exact E.
Qed.

Lemma whole_ok rs0 hs : whole the_tree lin rs0 hs = true -> forall r g b, byte r -> byte g -> byte b -> lit r g b -> sep r g b.
Proof using h1 h2 h3 LOK.
  intros H r g b hr hg hb lt. unfold whole in H. cbv zeta in H. fold reds blues in H. assert (LL := lin_len). assert (EE := lin_ent). assert (LO := LOK).
  assert (RO := row0_ok). assert (RS := rows_ok). clearbody reds blues.
  destruct lin as [|l rest]; [discriminate LL|]. cbn [map] in H. apply andb_prop in H. destruct H as [H0 H1]. unfold byte in *.
  assert (L : Z.of_nat (length rest) = 255%Z) by (cbn [length] in LL; lia).
  destruct (Z.eq_dec g 0) as [->|ne].
  - apply (RO l rs0); try assumption. exact (EE 0%Z ltac:(lia)).
  - apply (RS rest 1%Z hs); try assumption; try lia.
    intros i hi. specialize (EE (1 + Z.of_nat i)%Z ltac:(lia)). replace (Z.to_nat (1 + Z.of_nat i)) with (S i) in EE by lia. exact EE.
Qed.
End Table.
