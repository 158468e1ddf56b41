(** * The description computed from compressed cone responses.  Proof file. *)
From Coq Require Import ZArith Bool Reals Lra Lia Psatz String List.
From Flocq Require Import Core Relative IEEE754.BinarySingleNaN.
From Verif Require Import F64 MathUtils ColorUtils ViewingConditions Cam16 Spec SpecCam FloatFacts FloatMono PfMath PfTones PfLab PfGamma PfNear PfVc PfRel PfCamA PfCamD PfCamE PfCamF PfCamG.
Open Scope string_scope.
Open Scope R_scope.

Section Acc.
Context {lm : Libm} (LA : libm_accurate (1 / 10 ^ 13) lm).

(** ** Staged form of [cam16_from_xyz] *)
Definition fw_u (r g b : f64) : f64 := fdiv (fadd (fadd (fmul (dec "20.0") r) (fmul (dec "20.0") g)) (fmul (dec "21.0") b)) (dec "20.0").
Definition fw_p2 (r g b : f64) : f64 := fdiv (fadd (fadd (fmul (dec "40.0") r) (fmul (dec "20.0") g)) b) (dec "20.0").
Definition fw_a (r g b : f64) : f64 := fdiv (fadd (fadd (fmul (dec "11.0") r) (fmul (dec "-12.0") g)) b) (dec "11.0").
Definition fw_b (r g b : f64) : f64 := fdiv (fsub (fadd r g) (fmul (dec "2.0") b)) (dec "9.0").
Definition fw_j (p2 nbb aw c z : f64) : f64 := fmul (dec "100.0") (powf (fdiv (fmul p2 nbb) aw) (fmul c z)).
Definition fw_p1 (nc ncb h : f64) : f64 :=
  fmul (fmul (fmul (fdiv (dec "50000.0") (dec "13.0")) (fmul (fdiv (dec "1.0") (dec "4.0")) (fadd (cosf (fadd (rad h) (dec "2.0"))) (dec "3.8")))) nc) ncb.
Definition fw_t (p1 a b u : f64) : f64 := fdiv (fmul p1 (fsqrt (fadd (fmul a a) (fmul b b)))) (fadd u (dec "0.305")).
Definition fw_c (t kk j : f64) : f64 := fmul (fmul (powf t (dec "0.9")) kk) (fsqrt (fdiv j (dec "100.0"))).

Lemma fin_mul_c (c x : f64) k B : fin c -> B2R c = k -> fin x -> - B <= B2R x <= B -> -50 <= k <= 50 -> 1 <= B <= 100 -> near (fmul c x) (k * B2R x) (2 * (50 * B) * uu).
Proof using.
  intros fc vc fx bx hk hB.
  pose proof (near_mul c x k (B2R x) 0 0 50 B ltac:(split; [exact fc|lra]) (near_self x fx) ltac:(lra) bx ltac:(lra) ltac:(lra) ltac:(lra) ltac:(lra) ltac:(lra)) as N.
  apply near_weak with (1 := N). lra.
Qed.

Lemma opp_forms (r g b : f64) : between r 0.02 11 -> between g 0.02 11 -> between b 0.02 11 ->
  near (fw_u r g b) ((20 * B2R r + 20 * B2R g + 21 * B2R b) / 20) (2 / 10 ^ 13) /\
  near (fw_a r g b) ((11 * B2R r - 12 * B2R g + B2R b) / 11) (1.5 / 10 ^ 13) /\
  near (fw_b r g b) ((B2R r + B2R g - 2 * B2R b) / 9) (1 / 10 ^ 13).
Proof using.
  intros [fr br] [fg bg] [fb bb]. unfold fw_u, fw_a, fw_b.
  fconst (dec "20.0"). fconst (dec "21.0"). fconst (dec "11.0"). fconst (dec "-12.0"). fconst (dec "2.0"). fconst (dec "9.0").
  assert (D : forall x v d c k Q, near x v d -> fin c -> B2R c = k -> 9 <= k -> - (Q * k) <= v <= Q * k -> 0 <= d <= 1 -> 1 <= Q <= 40 -> near (fdiv x c) (v / k) (d / 9 + 2 * Q * uu)).
  { intros x v d c k Q nx fc vc hk hv hd hQ. 
    pose proof (near_div x c v k d 0 Q 9 nx ltac:(split; [exact fc|lra]) ltac:(lra) ltac:(lra) ltac:(lra)
      ltac:(split; [apply le_div|apply div_le]; lra) ltac:(lra) ltac:(lra) ltac:(lra) ltac:(lra)) as N.
    apply near_weak with (1 := N). lra. }
  split; [|split].
  - pose proof (fin_mul_c _ r _ 11 F V fr ltac:(lra) ltac:(lra) ltac:(lra)) as M1.
    pose proof (fin_mul_c _ g _ 11 F V fg ltac:(lra) ltac:(lra) ltac:(lra)) as M2.
    pose proof (fin_mul_c _ b _ 11 F0 V0 fb ltac:(lra) ltac:(lra) ltac:(lra)) as M3.
    pose proof (near_add _ _ _ _ _ _ 440 M1 M2 ltac:(lra) ltac:(unfold uu; lra) ltac:(unfold uu; lra) ltac:(unfold uu; lra) ltac:(lra)) as M4.
    pose proof (near_add _ _ _ _ _ _ 680 M4 M3 ltac:(lra) ltac:(unfold uu; lra) ltac:(unfold uu; lra) ltac:(unfold uu; lra) ltac:(lra)) as M5.
    pose proof (D _ _ _ _ _ 34 M5 F V ltac:(lra) ltac:(lra) ltac:(unfold uu; lra) ltac:(lra)) as M6. apply near_weak with (1 := M6). unfold uu. lra.
  - pose proof (fin_mul_c _ r _ 11 F1 V1 fr ltac:(lra) ltac:(lra) ltac:(lra)) as M1.
    pose proof (fin_mul_c _ g _ 11 F2 V2 fg ltac:(lra) ltac:(lra) ltac:(lra)) as M2.
    pose proof (near_add _ _ _ _ _ _ 140 M1 M2 ltac:(lra) ltac:(unfold uu; lra) ltac:(unfold uu; lra) ltac:(unfold uu; lra) ltac:(lra)) as M4.
    pose proof (near_add _ _ _ _ _ _ 140 M4 (near_self b fb) ltac:(lra) ltac:(unfold uu; lra) ltac:(unfold uu; lra) ltac:(unfold uu; lra) ltac:(lra)) as M5.
    pose proof (D _ _ _ _ _ 14 M5 F1 V1 ltac:(lra) ltac:(lra) ltac:(unfold uu; lra) ltac:(lra)) as M6.
    replace (11 * B2R r - 12 * B2R g + B2R b) with (11 * B2R r + -12 * B2R g + B2R b) by ring. apply near_weak with (1 := M6). unfold uu. lra.
  - pose proof (fin_mul_c _ b _ 11 F3 V3 fb ltac:(lra) ltac:(lra) ltac:(lra)) as M3.
    pose proof (near_add _ _ _ _ _ _ 22 (near_self r fr) (near_self g fg) ltac:(lra) ltac:(unfold uu; lra) ltac:(unfold uu; lra) ltac:(unfold uu; lra) ltac:(lra)) as M4.
    pose proof (near_sub _ _ _ _ _ _ 24 M4 M3 ltac:(lra) ltac:(unfold uu; lra) ltac:(unfold uu; lra) ltac:(unfold uu; lra) ltac:(lra)) as M5.
    pose proof (D _ _ _ _ _ 3 M5 F4 V4 ltac:(lra) ltac:(lra) ltac:(unfold uu; lra) ltac:(lra)) as M6. apply near_weak with (1 := M6). unfold uu. lra.
Qed.

Lemma p2_rel (r g b : f64) : between r 0.02 11 -> between g 0.02 11 -> between b 0.02 11 ->
  frel (fw_p2 r g b) ((40 * B2R r + 20 * B2R g + B2R b) / 20) (4 / 10 ^ 15).
Proof using.
  intros [fr br] [fg bg] [fb bb]. unfold fw_p2. fconst (dec "40.0"). fconst (dec "20.0").
  assert (K1 : frel (dec "40.0") 40 0) by (apply frel_const with (1 := F) (2 := V); split; lra).
  assert (K2 : frel (dec "20.0") 20 0) by (apply frel_const with (1 := F0) (2 := V0); split; lra).
  pose proof (frel_mul _ _ _ _ _ _ K1 (frel_self r fr ltac:(lra)) ltac:(lra) ltac:(lra) ltac:(lra)) as M1.
  pose proof (frel_mul _ _ _ _ _ _ K2 (frel_self g fg ltac:(lra)) ltac:(lra) ltac:(lra) ltac:(lra)) as M2.
  pose proof (frel_add _ _ _ _ _ M1 M2 ltac:(lra) ltac:(lra)) as M3.
  assert (B4 : frel b (B2R b) (1.1 * (0 + 0) + 3 / 10 ^ 16 + 3 / 10 ^ 16)) by (apply frel_w with (1 := frel_self b fb ltac:(lra)); lra).
  pose proof (frel_add _ _ _ _ _ M3 B4 ltac:(lra) ltac:(lra)) as M4.
  pose proof (frel_div _ _ _ _ _ _ M4 K2 ltac:(lra) ltac:(lra) ltac:(lra)) as M5. apply frel_w with (1 := M5). lra.
Qed.

Lemma fw_j_rel (p2 nbb aw c z : f64) p : between nbb 1 1.04 -> between aw 25 34 -> between c 0.689 0.691 -> between z 1.9 1.92 -> 0.06 <= p <= 34 ->
  frel p2 p (4 / 10 ^ 15) -> frel (fw_j p2 nbb aw c z) (100 * Rpower (p * B2R nbb / B2R aw) (B2R (fmul c z))) (3 / 10 ^ 13).
Proof using LA.
  intros hn ha hc hz hp h. pose proof (X_range _ _ p hn ha hp) as X. destruct (cz_inverse c z hc hz) as (fy & By & _).
  unfold fw_j. set (y := fmul c z) in *. clearbody y. destruct hn as [fn bn]. destruct ha as [fa ba].
  assert (Q : 0.06 <= p * B2R nbb <= 35.36) by (split; [apply Rle_trans with (0.06 * 1); [lra|]|apply Rle_trans with (34 * 1.04); [|lra]]; apply Rmult_le_compat; lra).
  pose proof (frel_mul _ _ _ _ _ _ h (frel_self nbb fn ltac:(lra)) ltac:(lra) ltac:(lra) ltac:(lra)) as M1.
  pose proof (frel_div _ _ _ _ _ _ M1 (frel_self aw fa ltac:(lra)) ltac:(lra) ltac:(lra) ltac:(lra)) as M2.
  assert (M2' : frel (fdiv (fmul p2 nbb) aw) (p * B2R nbb / B2R aw) (8 / 10 ^ 15)) by (apply frel_w with (1 := M2); lra).
  assert (JR := J_range _ _ X By).
  pose proof (frel_pow LA _ y _ _ M2' fy ltac:(lra) ltac:(lra) ltac:(lra)) as M3.
  fconst (dec "100.0"). assert (K : frel (dec "100.0") 100 0) by (apply frel_const with (1 := F) (2 := V); split; lra).
  assert (M3' : frel (powf (fdiv (fmul p2 nbb) aw) y) (Rpower (p * B2R nbb / B2R aw) (B2R y)) (2 / 10 ^ 13)).
  { apply frel_w with (1 := M3). lra. }
  pose proof (frel_mul _ _ _ _ _ _ K M3' ltac:(lra) ltac:(lra) ltac:(lra)) as M4. apply frel_w with (1 := M4). lra.
Qed.

Lemma fw_p1_rel (nc ncb h : f64) th : between nc 1 1 -> between ncb 1 1.04 -> fin (rad h) -> 0 <= B2R (rad h) <= 7 ->
  - (8 / 10 ^ 13) <= cos (B2R (rad h) + 2) - cos (th + 2) <= 8 / 10 ^ 13 ->
  frel (fw_p1 nc ncb h) (P0 nc ncb * (cos (th + 2) + 3.8)) (6 / 10 ^ 13).
Proof using LA.
  intros [fn bn] [fb bb] fh bh ct. unfold fw_p1. set (hr := rad h) in *. clearbody hr. fconst (dec "2.0").
  destruct (fadd_S hr (dec "2.0") fh F ltac:(rewrite V; fsmall)) as [E1 F1]. rewrite V in E1.
  pose proof (rnd_uu (B2R hr + 2) 10 ltac:(lra) ltac:(lra)) as R1. rewrite <- E1 in R1. unfold uu in R1.
  destruct (la_trig _ _ LA (fadd hr (dec "2.0")) F1 ltac:(lra)) as (_ & _ & fc & ec).
  set (x := fadd hr (dec "2.0")) in *. clearbody x.
  pose proof (cos_lip (B2R x) (B2R hr + 2)) as LC. assert (LX : Rabs (B2R x - (B2R hr + 2)) <= 2 / 10 ^ 15) by (apply Rabs_le; lra).
  assert (LC' := Rabs_le_inv _ _ (Rle_trans _ _ _ LC LX)). clear LC LX.
  set (c0 := cos (th + 2)) in *. assert (B0 : -1 <= c0 <= 1) by apply COS_bound.
  assert (NC : near (cosf x) c0 (9.1 / 10 ^ 13)) by (split; [exact fc|]; apply Rabs_le_inv in ec; lra).
  set (cx := cosf x) in *. clearbody cx c0. clear ec fc.
  fconst (dec "3.8"). fconst (fdiv (dec "1.0") (dec "4.0")). fconst (fdiv (dec "50000.0") (dec "13.0")).
  assert (N1 : near (dec "3.8") 3.8 (1 / 10 ^ 15)) by (split; [exact F0|rewrite V0; lra]).
  pose proof (near_add _ _ _ _ _ _ 5 NC N1 ltac:(lra) ltac:(lra) ltac:(lra) ltac:(lra) ltac:(lra)) as N2.
  pose proof (near_frel _ _ _ 2.8 N2 ltac:(lra) ltac:(unfold uu; lra)) as N3.
  assert (N4 : frel (fadd cx (dec "3.8")) (c0 + 3.8) (3.3 / 10 ^ 13)) by (apply frel_w with (1 := N3); unfold uu; lra). clear N2 N3.
  assert (N5 : frel (fdiv (dec "1.0") (dec "4.0")) 0.25 0) by (apply frel_const with (1 := F2) (2 := V1); split; lra).
  pose proof (frel_mul _ _ _ _ _ _ N5 N4 ltac:(lra) ltac:(lra) ltac:(lra)) as N6.
  assert (N7 : frel (fdiv (dec "50000.0") (dec "13.0")) (50000 / 13) (1 / 10 ^ 15)) by (apply frel_const with (1 := F3) (2 := V2); split; lra).
  pose proof (frel_mul _ _ _ _ _ _ N7 N6 ltac:(lra) ltac:(lra) ltac:(lra)) as N8.
  assert (EN : B2R nc = 1) by lra.
  pose proof (frel_mul _ _ _ _ _ _ N8 (frel_self nc fn ltac:(lra)) ltac:(lra) ltac:(lra) ltac:(rewrite EN; lra)) as N9.
  set (K := 50000 / 13 * (0.25 * (c0 + 3.8)) * B2R nc) in *.
  assert (BK : 2692 <= K <= 4616) by (unfold K; rewrite EN; lra).
  assert (KB : 2692 <= K * B2R ncb <= 4801) by (split; [apply Rle_trans with (2692 * 1); [lra|]|apply Rle_trans with (4616 * 1.04); [|lra]]; apply Rmult_le_compat; lra).
  pose proof (frel_mul _ _ _ _ _ _ N9 (frel_self ncb fb ltac:(lra)) ltac:(lra) ltac:(lra) ltac:(lra)) as N10.
  replace (K * B2R ncb) with (P0 nc ncb * (c0 + 3.8)) in N10 by (unfold K, P0; lra).
  apply frel_w with (1 := N10). lra.
Qed.

(** [p] is the exact p1, [r] the exact length, [u] close to the float [uf]. *)
Lemma fw_t_near (p1 a b uf : f64) p r u : frel p1 p (6 / 10 ^ 13) -> 2690 <= p <= 4801 ->
  near (fsqrt (fadd (fmul a a) (fmul b b))) r (4 / 10 ^ 14) -> 0 <= B2R (fsqrt (fadd (fmul a a) (fmul b b))) -> 0 <= r <= 1.2 * (u + 0.305) ->
  0.059 <= u <= 34 -> near uf u (1 / 10 ^ 12) ->
  let t0 := p * r / (u + 0.305) in
  0 <= t0 <= 5770 /\ near (fw_t p1 a b uf) t0 (3 / 10 ^ 8) /\ 0 <= B2R (fw_t p1 a b uf).
Proof using.
  intros hp bp ns ps hr hu nu t0. unfold fw_t. set (s := fsqrt _) in *. clearbody s. fconst (dec "0.305").
  assert (pr : 0 <= p * r <= 4801 * (1.2 * (u + 0.305))) by (split; [apply Rmult_le_pos; lra|apply Rmult_le_compat; lra]).
  assert (T : 0 <= t0 <= 5770) by (unfold t0; split; [apply le_div|apply div_le]; lra). split; [exact T|].
  assert (K : near (dec "0.305") 0.305 (1 / 10 ^ 16)) by (split; [exact F|rewrite V; lra]).
  pose proof (near_add _ _ _ _ _ _ 35 nu K ltac:(lra) ltac:(lra) ltac:(lra) ltac:(lra) ltac:(lra)) as N1.
  assert (N1' : near (fadd uf (dec "0.305")) (u + 0.305) (1.1 / 10 ^ 12)) by (apply near_weak with (1 := N1); unfold uu; lra). clear N1.
  set (d := fadd uf (dec "0.305")) in *. clearbody d. set (M := u + 0.305) in *. assert (MB : 0.364 <= M <= 34.305) by (unfold M; lra).
  assert (N2 : near p1 p (3 / 10 ^ 9)) by (apply near_weak with (1 := frel_near _ _ _ 4801 hp ltac:(lra) ltac:(lra)); lra).
  destruct N2 as [f2 b2]. destruct ns as [fs bs]. destruct N1' as [fd bd].
  assert (b3 : p * (1 - 6 / 10 ^ 13) <= B2R p1 <= p * (1 + 6 / 10 ^ 13)) by (destruct hp as [_ [_ q]]; exact q).
  assert (S : 0 <= B2R s <= 1.2 * M + 1 / 10 ^ 13) by lra.
  (* product *)
  assert (PS : - (p * r * (6 / 10 ^ 13) + 5000 * (4 / 10 ^ 14)) <= B2R p1 * B2R s - p * r <= p * r * (6 / 10 ^ 13) + 5000 * (4 / 10 ^ 14)).
  { replace (B2R p1 * B2R s - p * r) with (B2R p1 * (B2R s - r) + (B2R p1 - p) * r) by ring.
    pose proof (mul_bnd (B2R p1) (B2R s - r) 5000 (4 / 10 ^ 14) ltac:(lra) ltac:(lra)).
    assert (- (p * (6 / 10 ^ 13)) * r <= (B2R p1 - p) * r) by (apply Rmult_le_compat_r; lra).
    assert ((B2R p1 - p) * r <= p * (6 / 10 ^ 13) * r) by (apply Rmult_le_compat_r; lra). lra. }
  assert (PB : 0 <= B2R p1 * B2R s) by (apply Rmult_le_pos; lra).
  assert (PU : p * r <= 198000) by (apply Rle_trans with (4801 * 41.2); [apply Rmult_le_compat; lra|lra]).
  destruct (fmul_S p1 s f2 fs ltac:(unfold HUGE; lra)) as [E1 F1].
  pose proof (rnd_bounds (B2R p1 * B2R s) PB) as R1. rewrite <- E1 in R1. pose proof eta_small as ETA. unfold u53 in R1.
  assert (P1 : 0 <= B2R (fmul p1 s)) by (rewrite E1; apply rnd_ge_0; lra).
  set (n := fmul p1 s) in *. clearbody n.
  assert (NB : - (5761 * M * (8 / 10 ^ 13) + 2.1 / 10 ^ 10) <= B2R n - p * r <= 5761 * M * (8 / 10 ^ 13) + 2.1 / 10 ^ 10) by lra.
  assert (TE : t0 * M = p * r) by (unfold t0; field; lra).
  assert (Q : t0 - 2.5 / 10 ^ 8 <= B2R n / B2R d <= t0 + 2.5 / 10 ^ 8).
  { assert (ND : - (5770 * (1.1 / 10 ^ 12)) <= t0 * (B2R d - M) <= 5770 * (1.1 / 10 ^ 12)) by (apply mul_bnd; lra).
    split; [apply le_div|apply div_le]; lra. }
  assert (Q0 : 0 <= B2R n / B2R d) by (apply le_div; lra).
  destruct (fdiv_S n d F1 ltac:(lra) ltac:(unfold HUGE; lra)) as [E2 F2].
  pose proof (rnd_uu (B2R n / B2R d) 6000 ltac:(lra) ltac:(lra)) as R2. rewrite <- E2 in R2. unfold uu in R2.
  split; [split; [exact F2|lra]|]. rewrite E2. now apply rnd_ge_0.
Qed.

Lemma fw_c_near (t kk j : f64) J : fin t -> 0 <= B2R t <= 5800 -> between kk 0.8 1 -> frel j (100 * J) (3 / 10 ^ 13) -> 0.0002 <= J <= 2 ->
  exists w, 0 <= w <= 2600 /\ B2R t - 1 / 10 ^ 9 <= pw w y10 <= B2R t + 1 / 10 ^ 9 /\
    fin (fw_c t kk j) /\ 0 <= B2R (fw_c t kk j) /\
    sqrt J * (B2R kk * w - 2 / 10 ^ 9) <= B2R (fw_c t kk j) <= sqrt J * (B2R kk * w + 2 / 10 ^ 9).
Proof using LA.
  intros ft bt [fk bk] hj hJ. unfold fw_c. fconst (dec "0.9"). fconst (dec "100.0").
  set (y9 := dec "0.9") in *. assert (By : 0.9 - 1 / 10 ^ 16 <= B2R y9 <= 0.9 + 1 / 10 ^ 16) by lra.
  set (w := pw (B2R t) (B2R y9)). assert (W0 : 0 <= w) by apply pw_nonneg.
  assert (W1 : w <= 2600).
  { apply Rle_trans with (pw 5800 (B2R y9)); [apply pw_mono; lra|]. rewrite pw_pos by lra.
    apply (pow_hi_big _ _ _ 19 21); [lra|lra|lia|apply Rle_trans with 0.9047; [lra|clear; simpl; lra]|lra]. }
  exists w. split; [lra|].
  assert (K : - (6 / 10 ^ 16) <= B2R y9 * y10 - 1 <= 6 / 10 ^ 16).
  { unfold y10. fconst (fdiv (dec "1.0") (dec "0.9")). rewrite V, V1. lra. }
  assert (T : B2R t - 1 / 10 ^ 9 <= pw w y10 <= B2R t + 1 / 10 ^ 9).
  { destruct (Req_dec (B2R t) 0) as [e|n].
    - unfold w. rewrite e, pw_0, pw_0. lra.
    - assert (PT : 0 < B2R t) by lra. unfold w. rewrite (pw_pos (B2R t)) by exact PT. rewrite (pw_pos (Rpower _ _)) by apply exp_pos. rewrite Rpower_mult.
      replace (B2R y9 * y10) with (1 + (B2R y9 * y10 - 1)) by ring. rewrite <- (pw_pos (B2R t)) by exact PT.
      pose proof (pw_one_near (B2R t) (B2R y9 * y10 - 1) ltac:(lra) ltac:(lra)) as P.
      assert (Rabs (B2R y9 * y10 - 1) <= 6 / 10 ^ 16) by (apply Rabs_le; lra). lra. }
  split; [exact T|].
  destruct (pow_any LA t y9 ft F ltac:(lra) ltac:(lra) ltac:(fold w; lra)) as (fp & pp & ep). fold w in ep.
  set (q := powf t y9) in *. clearbody q.
  assert (kw : 0 <= B2R kk * w <= 2600) by (split; [apply Rmult_le_pos; lra|apply Rle_trans with (1 * 2600); [apply Rmult_le_compat; lra|lra]]).
  assert (qk : 0 <= B2R q * B2R kk <= 2601) by (split; [apply Rmult_le_pos; lra|apply Rle_trans with (2601 * 1); [apply Rmult_le_compat; lra|lra]]).
  assert (QK : - (3 / 10 ^ 10) <= B2R q * B2R kk - B2R kk * w <= 3 / 10 ^ 10).
  { replace (B2R q * B2R kk - B2R kk * w) with (B2R kk * (B2R q - w)) by ring. pose proof (mul_bnd (B2R kk) (B2R q - w) 1 (2.7 / 10 ^ 10) ltac:(lra) ltac:(lra)). lra. }
  destruct (fmul_S q kk fp fk ltac:(unfold HUGE; lra)) as [E1 F1].
  pose proof (rnd_uu (B2R q * B2R kk) 2601 ltac:(lra) ltac:(lra)) as R1. rewrite <- E1 in R1. unfold uu in R1.
  assert (P1 : 0 <= B2R (fmul q kk)) by (rewrite E1; apply rnd_ge_0; lra).
  set (al := fmul q kk) in *. clearbody al.
  assert (N0 : frel (dec "100.0") 100 0) by (apply frel_const with (1 := F0) (2 := V0); split; lra).
  pose proof (frel_div _ _ _ _ _ _ hj N0 ltac:(lra) ltac:(lra) ltac:(lra)) as N1. replace (100 * J / 100) with J in N1 by lra.
  pose proof (frel_sqrt _ _ _ N1 ltac:(lra) ltac:(lra)) as N2.
  assert (S : 0.014 <= sqrt J <= 1.5) by (split; [apply Rsqr_incr_0_var|apply Rsqr_incr_0_var]; rewrite ?Rsqr_sqrt by lra; unfold Rsqr; try lra; apply sqrt_pos).
  set (s := fsqrt (fdiv j (dec "100.0"))) in *. clearbody s. set (s0 := sqrt J) in *. clearbody s0. destruct N2 as [fs [_ bs]].
  assert (Ps : 0 < B2R s <= 2) by lra.
  set (d := B2R s / s0 - 1). assert (Ed : B2R s = s0 * (1 + d)) by (unfold d; field; lra).
  assert (Bd : - (5 / 10 ^ 13) <= d <= 5 / 10 ^ 13).
  { assert (s0 * - (5 / 10 ^ 13) <= s0 * d <= s0 * (5 / 10 ^ 13)) by lra. split; apply Rmult_le_reg_l with s0; lra. }
  clearbody d.
  assert (AS : 0 <= B2R al * B2R s <= 5210) by (split; [apply Rmult_le_pos; lra|apply Rle_trans with (2602 * 2); [apply Rmult_le_compat; lra|lra]]).
  assert (AD : - (2602 * (5 / 10 ^ 13)) <= B2R al * d <= 2602 * (5 / 10 ^ 13)) by (apply mul_bnd; lra).
  assert (AE : B2R al * B2R s = s0 * (B2R al + B2R al * d)) by (rewrite Ed; ring).
  assert (A1 : s0 * (B2R kk * w - 1.8 / 10 ^ 9) <= B2R al * B2R s) by (rewrite AE; apply Rmult_le_compat_l; lra).
  assert (A2 : B2R al * B2R s <= s0 * (B2R kk * w + 1.8 / 10 ^ 9)) by (rewrite AE; apply Rmult_le_compat_l; lra).
  destruct (fmul_S al s F1 fs ltac:(unfold HUGE; lra)) as [E2 F2].
  pose proof (rnd_uu (B2R al * B2R s) 5210 ltac:(lra) ltac:(lra)) as R2. rewrite <- E2 in R2. unfold uu in R2.
  split; [exact F2|]. split; [rewrite E2; apply rnd_ge_0; lra|]. lra.
Qed.
End Acc.
