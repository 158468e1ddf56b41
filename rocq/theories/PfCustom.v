(** * Colours an application defines itself.  Proof file. *)
From Coq Require Import ZArith Bool Reals Lra Lia Psatz String List.
From Flocq Require Import Core Relative IEEE754.BinarySingleNaN.
From Verif Require Import F64 MathUtils ColorUtils Contrast Hct Palettes DynamicScheme DynamicColor MaterialDynamicColors
  Spec SpecTones SpecCustom FloatFacts FloatMono FloatCast PfMath PfColor PfContrast PfHct PfTones PfReach PfRoleTable.
Import ListNotations.
Open Scope string_scope.
Open Scope list_scope.
Open Scope R_scope.

(** ** Pairs with any tone difference up to 40 *)
Section Delta.
Variable d : f64.
Hypothesis FD0 : fin d.
Hypothesis BD0 : 0 <= B2R d <= 40.

Definition gap (dark : bool) (n f : f64) : Prop :=
  is_tone n /\ is_tone f /\ B2R d - 1 / 10 ^ 12 <= (B2R f - B2R n) * dirR dark.

Lemma any_dir dark : fin (fmul d (dirF dark)) /\ B2R (fmul d (dirF dark)) = B2R d * dirR dark.
Proof.
  destruct (dir_ok dark) as [FD VD].
  assert (A : -40 <= B2R d * dirR dark <= 40) by (destruct dark; unfold dirR; lra).
  destruct (fmul_S d (dirF dark) FD0 FD ltac:(rewrite VD; fsmall)) as [M FM]. split; [exact FM|]. rewrite M, VD.
  destruct dark; unfold dirR; [now rewrite Rmult_1_r, rnd_B2R|].
  replace (B2R d * -1) with (- B2R d) by lra. now rewrite rnd_opp, rnd_B2R.
Qed.

Lemma expand_gap n f dark : is_tone n -> is_tone f ->
  gap dark (fst (pair_expand n f d (dirF dark))) (snd (pair_expand n f d (dirF dark))).
Proof.
  intros Tn Tf. unfold pair_expand. unfold fge. change Bleb with fle.
  destruct (gap_R n f dark Tn Tf) as [FG VG].
  assert (Far : forall n f, is_tone n -> is_tone f -> fle d (fmul (fsub f n) (dirF dark)) = true -> gap dark n f).
  { intros n0 f0 T1 T2 h. destruct (gap_R n0 f0 dark T1 T2) as [FG0 VG0].
    apply fle_fin in h; try assumption. rewrite VG0 in h. split; [assumption|]. split; [assumption|].
    destruct T1 as [_ b1], T2 as [_ b2].
    pose proof (rnd_near (B2R f0 - B2R n0) ltac:(lra)). destruct dark; unfold dirR in *; lra. }
  destruct (fle d (fmul (fsub f n) (dirF dark))) eqn:C1; [exact (Far _ _ Tn Tf C1)|].
  cbv zeta. destruct (any_dir dark) as [FD VD]. destruct Tn as [fn bn].
  assert (BD : -40 <= B2R d * dirR dark <= 40) by (destruct dark; unfold dirR; lra).
  destruct (fadd_S n _ fn FD ltac:(rewrite VD; fsmall)) as [S FS]. rewrite VD in S.
  fold (ct (fadd n (fmul d (dirF dark)))).
  set (g := fadd n (fmul d (dirF dark))) in *.
  destruct (ct_fin g FS) as (T & I & Lo & Hi). set (f' := ct g) in *.
  destruct (fle d (fmul (fsub f' n) (dirF dark))) eqn:C2; [exact (Far _ _ (conj fn bn) T C2)|]. cbn [fst snd].
  pose proof (rnd_near (B2R n + B2R d * dirR dark) ltac:(lra)) as E. rewrite <- S in E.
  destruct T as [ff' bf'].
  destruct (fsub_S f' _ ff' FD ltac:(rewrite VD; fsmall)) as [S2 FS2]. rewrite VD in S2.
  fold (ct (fsub f' (fmul d (dirF dark)))).
  set (m := fsub f' (fmul d (dirF dark))) in *.
  pose proof (rnd_near (B2R f' - B2R d * dirR dark) ltac:(lra)) as E2. rewrite <- S2 in E2.
  destruct (ct_fin m FS2) as (T2 & I2 & Lo2 & Hi2).
  split; [exact T2|]. split; [now split|].
  destruct T2 as [_ bm].
  destruct (Rlt_or_le (B2R m) 0) as [a|a]; [rewrite (Lo2 a)|
    destruct (Rlt_or_le 100 (B2R m)) as [b|b]; [rewrite (Hi2 b)|rewrite (I2 (conj a b))]];
  destruct (Rlt_or_le (B2R g) 0) as [a'|a']; [pose proof (Lo a')| |pose proof (Lo a')| |pose proof (Lo a')|];
  try (destruct (Rlt_or_le 100 (B2R g)) as [b'|b']; [pose proof (Hi b')|pose proof (I (conj a' b'))]);
  destruct dark; unfold dirR in *; lra.
Qed.

Lemma move_gap f dark : is_tone f ->
  let r := pair_move_both f d (dirF dark) in
  gap dark (fst r) (snd r) /\ outside_zone (fst r) /\ outside_zone (snd r).
Proof.
  intros [ff bf]. cbv zeta. unfold pair_move_both.
  assert (G : fgt (dirF dark) (dec "0.0") = dark) by (destruct dark; vm_compute; reflexivity). rewrite G.
  destruct (any_dir dark) as [FD VD].
  fconst (dec "60.0"). fconst (dec "49.0"). destruct dark; unfold dirR in VD.
  - destruct (fadd_S (dec "60.0") _ F FD ltac:(rewrite V, VD; fsmall)) as [S FS]. rewrite V, VD, Rmult_1_r in S.
    pose proof (rnd_near (60 + B2R d) ltac:(lra)) as E. pose proof (rnd_ge_IZR (60 + B2R d) 60) as L. pose proof (rnd_le_IZR (60 + B2R d) 100) as U.
    rewrite <- S in E, L, U. specialize (L ltac:(lia) ltac:(lra)). specialize (U ltac:(lia) ltac:(lra)).
    destruct (fmax_R f _ ff FS) as [FM VM]. cbn [fst snd].
    unfold gap, is_tone, outside_zone, dirR. rewrite VM, V.
    set (q := B2R (fadd (dec "60.0") (fmul d (dirF true)))) in *.
    pose proof (Rmax_l (B2R f) q). pose proof (Rmax_r (B2R f) q).
    assert (Rmax (B2R f) q <= 100) by (apply Rmax_lub; lra). repeat split; try assumption; lra.
  - destruct (fadd_S (dec "49.0") _ F0 FD ltac:(rewrite V0, VD; fsmall)) as [S FS]. rewrite V0, VD in S.
    pose proof (rnd_near (49 + B2R d * -1) ltac:(lra)) as E. pose proof (rnd_ge_IZR (49 + B2R d * -1) 0) as L. pose proof (rnd_le_IZR (49 + B2R d * -1) 49) as U.
    rewrite <- S in E, L, U. specialize (L ltac:(lia) ltac:(lra)). specialize (U ltac:(lia) ltac:(lra)).
    destruct (fmin_R f _ ff FS) as [FM VM]. cbn [fst snd].
    unfold gap, is_tone, outside_zone, dirR. rewrite VM, V0.
    set (q := B2R (fadd (dec "49.0") (fmul d (dirF false)))) in *.
    pose proof (Rmin_l (B2R f) q). pose proof (Rmin_r (B2R f) q).
    assert (0 <= Rmin (B2R f) q) by (apply Rmin_glb; lra). repeat split; try assumption; lra.
Qed.

Lemma awkward_gap n f dark tog : gap dark n f ->
  let r := pair_awkward n f d (dirF dark) tog in
  gap dark (fst r) (snd r) /\ outside_zone (fst r) /\ outside_zone (snd r).
Proof.
  intros A. pose proof A as ((fn & bn) & (ff & bf) & g). cbv zeta. unfold pair_awkward.
  fold (in_zone n). fold (in_zone f).
  destruct (in_zone n) eqn:Zn; [now apply move_gap|].
  destruct (in_zone f) eqn:Zf.
  - destruct tog; [now apply move_gap|].
    assert (G : fgt (dirF dark) (dec "0.0") = dark) by (destruct dark; vm_compute; reflexivity). rewrite G.
    pose proof (zone_R n fn Zn) as ON. pose proof (zone_R' f ff Zf) as OF. fconst (dec "60.0"). fconst (dec "49.0").
    unfold gap, is_tone, outside_zone, dirR in *.
    destruct dark; cbn [fst snd]; rewrite ?V, ?V0; (split; [|split; [exact ON|lra]]);
      (split; [now split|]); (split; [split; [assumption|lra]|lra]).
  - split; [exact A|]. split; [now apply zone_R|now apply zone_R].
Qed.
End Delta.

Section Custom.
Context {lm : Libm} (PD : pow_defined lm) (s : dynamic_scheme).

Lemma both_ok c : gives_tone s c -> has_curve c -> core_ok s c.
Proof. intros h k. split; [exact h|exact k]. Qed.

Lemma pair_gap p bg : nn bg -> core_ok s (dp_role_a p) -> core_ok s (dp_role_b p) -> fits (dp_delta p) ->
  exists n f, gap (dp_delta p) (ds_is_dark s) n f /\ outside_zone n /\ outside_zone f /\
    forall name, pair_tone s name p bg =
      Ok (if String.eqb name (rc_name (if nearer_of s p then dp_role_a p else dp_role_b p)) then n else f).
Proof.
  intros nb A B [FD BD]. unfold pair_tone. cbv zeta. fold (nearer_of s p).
  set (ne := if nearer_of s p then dp_role_a p else dp_role_b p).
  set (fa := if nearer_of s p then dp_role_b p else dp_role_a p).
  assert (N : core_ok s ne) by (unfold ne; destruct (nearer_of s p); assumption).
  assert (F : core_ok s fa) by (unfold fa; destruct (nearer_of s p); assumption).
  clearbody ne fa. destruct N as ((tn & En & Tn) & cn & Cn & Kn). destruct F as ((tf & Ef & Tf) & cf & Cf & Kf).
  change (if ds_is_dark s then dec "1.0" else fneg (dec "1.0")) with (dirF (ds_is_dark s)).
  rewrite Cn, Cf, En, Ef. cbv beta iota delta [ok_or_panic bind].
  destruct (cc_ratio cn (ds_contrast_level s) Kn) as [Fn _]. destruct (cc_ratio cf (ds_contrast_level s) Kf) as [Ff _].
  pose proof (initial_tone (flt (ds_contrast_level s) (dec "0.0")) bg _ tn PD nb (fin_not_nan _ Fn) Tn) as In.
  pose proof (initial_tone (flt (ds_contrast_level s) (dec "0.0")) bg _ tf PD nb (fin_not_nan _ Ff) Tf) as If.
  set (a := pair_initial _ bg _ tn) in *. set (b := pair_initial _ bg _ tf) in *. clearbody a b.
  pose proof (expand_gap _ FD BD a b (ds_is_dark s) In If) as E.
  destruct (pair_expand a b (dp_delta p) (dirF (ds_is_dark s))) as [n1 f1]. cbn [fst snd] in E.
  pose proof (awkward_gap _ FD BD n1 f1 (ds_is_dark s) (dp_stay_together p) E) as W. cbv zeta in W.
  destruct (pair_awkward n1 f1 (dp_delta p) (dirF (ds_is_dark s)) (dp_stay_together p)) as [n2 f2]. cbn [fst snd] in W.
  exists n2, f2. destruct W as (W1 & W2 & W3). split; [exact W1|]. split; [exact W2|]. split; [exact W3|].
  intros name. reflexivity.
Qed.

Lemma complete_resolves c : complete s c -> exists t, get_tone c s = Ok t /\ is_tone t.
Proof.
  induction 1 as [core p b b2 T|core p b bg T K _ IH|core p b bg bg2 T K _ IH _ IH2|core p b bg bg2 pr _ IH T1 K1 T2 K2 D].
  - change (exists t, get_tone (DC core p b None b2 None) s = Ok t /\ is_tone t).
    replace (get_tone (DC core p b None b2 None) s) with (rc_tone core s); [exact T|]. cbn [get_tone]. now destruct (rc_tone core s).
  - destruct K as (cv & E & K). exact (single_role s PD core p b bg cv IH T E K).
  - destruct K as (cv & E & K). destruct IH as (t & Et & Tt), IH2 as (t2 & Et2 & Tt2), T as (a & Ea & Ta).
    rewrite (get_dual s core p b bg bg2 t t2 a cv Et Et2 Ea E). eexists. split; [reflexivity|].
    destruct (cc_ratio cv (ds_contrast_level s) K) as [F _]. pose proof (fin_not_nan _ F) as N.
    apply dual_ok; try assumption. apply single_ok; try assumption. exact (tone_nn _ Tt).
  - destruct IH as (t & Et & Tt). rewrite (get_pair s core p b bg bg2 pr t Et).
    destruct (pair_gap (pr s) t (tone_nn _ Tt) (both_ok _ T1 K1) (both_ok _ T2 K2) D) as (n & f & (Tn & Tf & _) & _ & _ & E).
    rewrite E. eexists. split; [reflexivity|]. now apply ite_tone.
Qed.

(** Out of the zone, still far enough from the background. *)
Lemma single_zone a t r d : nn t -> nn r -> is_tone a ->
  exists x, single_tone true a t r d = x /\ is_tone x /\ (B2R x < 50 \/ 60 <= B2R x).
Proof.
  intros nt nr Ta. exists (single_tone true a t r d). split; [reflexivity|].
  split; [now apply single_ok|]. unfold single_tone. cbv zeta. cbn [andb].
  set (x := if d then _ else _).
  assert (Tx : is_tone x). { unfold x. pose proof (fg_tone t r PD nt nr) as G. apply ite_tone; [exact G|]. now apply ite_tone. }
  clearbody x. fold (in_zone x). fconst (dec "49.0"). fconst (dec "60.0").
  destruct (in_zone x) eqn:Z; [|exact (zone_R x (tone_fin _ Tx) Z)].
  destruct (fge _ _); lra.
Qed.
End Custom.

Section Reach.
Context {lm : Libm} (PD : pow_defined lm) (PA : pow_accurate (1 / 10 ^ 5) lm).
Lemma single_any isb a t r d : is_tone a -> is_tone t -> fin r -> 0.9 <= B2R r <= 22 -> achievable [t] r ->
  fle r (ratio_of_tones (single_tone isb a t r d) t) = true.
Proof.
  intros Ta Tt fr br h. pose proof (single_reaches PA a t r d PD Ta Tt fr br h) as R. destruct isb; [|exact R].
  pose proof (single_ok false a t r d PD Ta (tone_nn _ Tt) (fin_not_nan _ fr)) as Tx.
  unfold single_tone in *. cbv zeta in *. cbn [andb] in *.
  set (x := if d then _ else _) in *. clearbody x. fold (in_zone x).
  destruct (in_zone x) eqn:Z; [|exact R]. apply zone_R' in Z; [|exact (tone_fin _ Tx)].
  assert (T49 : is_tone (dec "49.0")) by tone_lit. assert (T60 : is_tone (dec "60.0")) by tone_lit.
  unfold fge. change Bleb with fle. destruct (fle r (ratio_of_tones (dec "49.0") t)) eqn:C; [exact C|].
  apply (proj1 (ratio_le t x r (fin_not_nan _ fr) Tt Tx)) in R.
  apply (proj2 (ratio_le t (dec "60.0") r (fin_not_nan _ fr) Tt T60)).
  destruct (Rle_or_lt (B2R t) (B2R x)) as [k|k].
  - apply Rle_trans with (1 := R). rewrite (ratio_sym x t), (ratio_sym (dec "60.0") t) by (now apply tone_nn).
    fconst (dec "60.0"). apply ratio_widen; try (now apply tone_nn); rewrite !val_fin by (now apply tone_fin); lra.
  - exfalso. assert (Q : fle r (ratio_of_tones (dec "49.0") t) = true); [|rewrite Q in C; discriminate C].
    apply (proj2 (ratio_le t (dec "49.0") r (fin_not_nan _ fr) Tt T49)). apply Rle_trans with (1 := R).
    fconst (dec "49.0"). apply ratio_widen; try (now apply tone_nn); rewrite !val_fin by (now apply tone_fin); lra.
Qed.
End Reach.

(** ** The properties *)
Lemma custom_contrast {lm : Libm} : pow_defined lm -> pow_accurate (1 / 10 ^ 5) lm ->
  forall s core palette is_bg bg cv t b,
  complete s (DC core palette is_bg (Some bg) None None) -> rc_contrast_curve core = Some cv ->
  get_tone (DC core palette is_bg (Some bg) None None) s = Ok t -> get_tone (bg s) s = Ok b ->
  achievable [b] (cc_get cv (ds_contrast_level s)) -> fle (cc_get cv (ds_contrast_level s)) (ratio_of_tones t b) = true.
Proof.
  intros PD PA s core p is_bg bg cv t b C E Et Eb A. inversion C as [|? ? ? ? T K CB Q| |]; subst.
  destruct K as (cv' & E' & K). rewrite E in E'. injection E' as <-.
  destruct (complete_resolves PD s _ CB) as (b' & Eb' & Tb). rewrite Eb in Eb'. injection Eb' as <-.
  destruct T as (a & Ea & Ta). rewrite (get_single s core p is_bg bg b a cv Eb Ea E) in Et. injection Et as <-.
  destruct (cc_ratio cv (ds_contrast_level s) K) as [F B].
  apply (single_any PD PA); try assumption. lra.
Qed.

Lemma custom_zone {lm : Libm} : pow_defined lm -> forall s core palette bg bg2 pair,
  complete s (DC core palette true (Some bg) bg2 pair) -> bg2 = None \/ pair <> None ->
  exists t, get_tone (DC core palette true (Some bg) bg2 pair) s = Ok t /\ (B2R t < 50 \/ 60 <= B2R t).
Proof.
  intros PD s core p bg bg2 pair C W. inversion C as [|? ? ? ? T K CB Q|? ? ? ? ? T K CB CB2 Q|? ? ? ? ? pr CB T1 K1 T2 K2 D Q]; subst.
  - destruct K as (cv & E & K). destruct (complete_resolves PD s _ CB) as (b & Eb & Tb). destruct T as (a & Ea & Ta).
    destruct (cc_ratio cv (ds_contrast_level s) K) as [F _].
    destruct (single_zone PD a b (cc_get cv (ds_contrast_level s)) (flt (ds_contrast_level s) (dec "0.0")) (tone_nn _ Tb) (fin_not_nan _ F) Ta) as (x & Ex & _ & Z).
    exists x. rewrite (get_single s core p true bg b a cv Eb Ea E), Ex. split; [reflexivity|exact Z].
  - exfalso. destruct W as [W|W]; [discriminate W|now apply W].
  - destruct (complete_resolves PD s _ CB) as (b & Eb & Tb).
    destruct (pair_gap PD s (pr s) b (tone_nn _ Tb) (both_ok s _ T1 K1) (both_ok s _ T2 K2) D) as (n & f & _ & Zn & Zf & E).
    rewrite (get_pair s core p true bg bg2 pr b Eb), E. eexists. split; [reflexivity|].
    destruct (String.eqb _ _); assumption.
Qed.

Lemma custom_pair {lm : Libm} : pow_defined lm -> forall s bg pair pa isa bga pb isb bgb,
  complete s (DC (dp_role_a pair) pa isa (Some bg) bga (Some (fun _ => pair))) ->
  rc_name (dp_role_a pair) <> rc_name (dp_role_b pair) ->
  exists x y, get_tone (DC (dp_role_a pair) pa isa (Some bg) bga (Some (fun _ => pair))) s = Ok x /\
    get_tone (DC (dp_role_b pair) pb isb (Some bg) bgb (Some (fun _ => pair))) s = Ok y /\
    B2R (dp_delta pair) - 1 / 10 ^ 12 <= lead (ds_is_dark s) (dp_polarity pair) * (B2R x - B2R y).
Proof.
  intros PD s bg pair pa isa bga pb isb bgb C NE. inversion C as [| | |? ? ? ? ? pr CB T1 K1 T2 K2 D Q]; subst. cbv beta in *.
  destruct (complete_resolves PD s _ CB) as (b & Eb & Tb).
  destruct (pair_gap PD s pair b (tone_nn _ Tb) (both_ok s _ T1 K1) (both_ok s _ T2 K2) D) as (n & f & (_ & _ & G) & _ & _ & E).
  rewrite !(get_pair s _ _ _ _ _ _ b Eb), !E. eexists _, _. split; [reflexivity|]. split; [reflexivity|].
  assert (X : String.eqb (rc_name (dp_role_b pair)) (rc_name (dp_role_a pair)) = false) by (apply String.eqb_neq; congruence).
  assert (Y : String.eqb (rc_name (dp_role_a pair)) (rc_name (dp_role_b pair)) = false) by (apply String.eqb_neq; congruence).
  destruct (nearer_of s pair) eqn:Nr; rewrite ?String.eqb_refl, ?X, ?Y; unfold nearer_of in Nr; unfold lead;
    destruct (dp_polarity pair), (ds_is_dark s); cbn [is_nearer is_lighter is_darker negb andb orb] in Nr; try discriminate Nr; unfold dirR in G; lra.
Qed.

Lemma custom_same_name {lm : Libm} : forall s bg pair pa isa bga pb isb bgb,
  rc_name (dp_role_a pair) = rc_name (dp_role_b pair) ->
  get_tone (DC (dp_role_a pair) pa isa (Some bg) bga (Some (fun _ => pair))) s =
  get_tone (DC (dp_role_b pair) pb isb (Some bg) bgb (Some (fun _ => pair))) s.
Proof. intros s bg pair pa isa bga pb isb bgb E. cbn [get_tone]. rewrite E. reflexivity. Qed.

Lemma custom_incomplete {lm : Libm} : forall s core palette is_bg bg2 pair bg,
  get_tone (DC core palette is_bg None bg2 (Some pair)) s = Panic /\
  (rc_contrast_curve core = None -> get_tone (DC core palette is_bg (Some bg) bg2 None) s = Panic).
Proof.
  intros. split; [reflexivity|]. intros E. cbn [get_tone]. destruct (rc_tone core s); [|reflexivity]. cbn [bind].
  destruct (get_tone (bg s) s); [|reflexivity]. cbn [bind]. rewrite E. reflexivity.
Qed.

(** ** Counterexamples *)
Definition fixed_core (name : string) (tone : f64) (cv : option contrast_curve) : role_core :=
  {| rc_name := name; rc_tone := fun _ => Ok tone; rc_contrast_curve := cv |}.
Definition steady (r : f64) : contrast_curve := cc_new r r r r.
Definition plain (name : string) (tone : f64) : dynamic_color := DC (fixed_core name tone None) ds_neutral_palette true None None None.
Lemma plain_complete s name tone : is_tone tone -> complete s (plain name tone).
Proof. intros T. apply complete_plain. exists tone. split; [reflexivity|exact T]. Qed.
Lemma steady_proper r : is_finite r && fle (dec "1.0") r && fle r (dec "21.0") = true -> proper (steady r).
Proof.
  intros h. apply andb_true_iff in h as [h h3]. apply andb_true_iff in h as [h1 h2]. fconst (dec "1.0"). fconst (dec "21.0").
  apply fle_fin in h2; [|assumption..]. apply fle_fin in h3; [|assumption..].
  unfold proper, steady. cbn [cc_new cc_low cc_normal cc_medium cc_high]. repeat split; (assumption || lra).
Qed.
Definition dull (dark : bool) : dynamic_scheme :=
  let h := {| h_hue := dec "120.0"; h_chroma := dec "8.0"; h_tone := dec "45.0"; h_argb := 0xFF6A6F60%Z |} in
  let p := {| tp_hue := dec "120.0"; tp_chroma := dec "8.0"; tp_key_color := h; tp_cache := []; tp_is_from_cache := false |} in
  {| ds_source_color_argb := 0xFF6A6F60%Z; ds_source_color_hct := h; ds_variant := TonalSpot; ds_is_dark := dark; ds_contrast_level := dec "0.0";
     ds_primary_palette := p; ds_secondary_palette := p; ds_tertiary_palette := p; ds_neutral_palette := p;
     ds_neutral_variant_palette := p; ds_error_palette := p |}.

(** A pair 45 tones apart, with tones 52 and 97, in the dark theme: moved out of the zone it ends at 60 and 105. *)
Definition wide : tone_delta_pair := {|
  dp_role_a := fixed_core "near" (dec "52.0") (Some (steady (dec "1.0")));
  dp_role_b := fixed_core "far" (dec "97.0") (Some (steady (dec "1.0")));
  dp_delta := dec "45.0"; dp_polarity := Nearer; dp_stay_together := false |}.

Lemma fixed_gives s name tone cv : is_tone tone -> gives_tone s (fixed_core name tone cv).
Proof. intros T. exists tone. split; [reflexivity|exact T]. Qed.
Lemma steady_curve name tone r : is_finite r && fle (dec "1.0") r && fle r (dec "21.0") = true ->
  has_curve (fixed_core name tone (Some (steady r))).
Proof. intros h. exists (steady r). split; [reflexivity|exact (steady_proper r h)]. Qed.

Lemma wide_overshoots {lm : Libm} : exists s bg pair palette t,
  complete s (bg s) /\ gives_tone s (dp_role_a pair) /\ has_curve (dp_role_a pair) /\
  gives_tone s (dp_role_b pair) /\ has_curve (dp_role_b pair) /\ 40 < B2R (dp_delta pair) <= 100 /\
  get_tone (DC (dp_role_b pair) palette true (Some bg) None (Some (fun _ => pair))) s = Ok t /\ 100 < B2R t.
Proof.
  exists (dull true), (fun _ => plain "surface" (dec "6.0")), wide, ds_neutral_palette, (dec "105.0").
  split; [apply plain_complete, tone_ok; vm_compute; reflexivity|].
  split; [apply fixed_gives, tone_ok; vm_compute; reflexivity|].
  split; [apply steady_curve; vm_compute; reflexivity|].
  split; [apply fixed_gives, tone_ok; vm_compute; reflexivity|].
  split; [apply steady_curve; vm_compute; reflexivity|].
  split; [cbn [wide dp_delta]; fconst (dec "45.0"); lra|].
  split; [apply same_ok; vm_compute; reflexivity|fconst (dec "105.0"); lra].
Qed.

(** Over tones 50 and 59, white gives 4.48 and 3.28, black gives more than 4 on both; white is chosen. *)
Definition on_both : role_core := fixed_core "text" (dec "100.0") (Some (steady (dec "4.0"))).
Lemma white_chosen {lm : Libm} : pow_defined lm -> pow_accurate (1 / 10 ^ 5) lm ->
  exists s core palette bg bg2 cv b b2 t,
  complete s (DC core palette false (Some bg) (Some bg2) None) /\ rc_contrast_curve core = Some cv /\
  get_tone (bg s) s = Ok b /\ get_tone (bg2 s) s = Ok b2 /\
  achievable [b; b2] (cc_get cv (ds_contrast_level s)) /\
  get_tone (DC core palette false (Some bg) (Some bg2) None) s = Ok t /\
  fle (cc_get cv (ds_contrast_level s)) (ratio_of_tones t b2) = false.
Proof.
  intros PD PA.
  exists (dull false), on_both, ds_neutral_palette, (fun _ => plain "low" (dec "50.0")), (fun _ => plain "high" (dec "59.0")),
    (steady (dec "4.0")), (dec "50.0"), (dec "59.0"), (dec "100.0").
  split. { apply complete_double; [apply fixed_gives, tone_ok; vm_compute; reflexivity|apply steady_curve; vm_compute; reflexivity|
    apply plain_complete, tone_ok; vm_compute; reflexivity..]. }
  split; [reflexivity|]. split; [reflexivity|]. split; [reflexivity|].
  split. { exists (dec "0.0"). split; [apply tone_ok; vm_compute; reflexivity|].
    repeat (apply Forall_cons; [vm_compute; reflexivity|]). constructor. }
  split; [|vm_compute; reflexivity].
  rewrite (get_dual (dull false) on_both _ _ _ _ (dec "50.0") (dec "59.0") (dec "100.0") (steady (dec "4.0"))); try reflexivity.
  apply (f_equal (@Ok f64)).
  assert (K : flt (ds_contrast_level (dull false)) (dec "0.0") = false) by (vm_compute; reflexivity). rewrite K.
  rewrite single_keep by (vm_compute; reflexivity).
  apply (dual_white PD PA); [apply tone_ok|..|apply ratio_ok| | |]; vm_compute; reflexivity.
Qed.

(** Two unnamed colours (the name is optional when a colour is made): both take the nearer one's tone. *)
Definition unnamed : tone_delta_pair := {|
  dp_role_a := fixed_core "" (dec "30.0") (Some (steady (dec "1.0")));
  dp_role_b := fixed_core "" (dec "80.0") (Some (steady (dec "1.0")));
  dp_delta := dec "10.0"; dp_polarity := Nearer; dp_stay_together := false |}.
Lemma unnamed_coincide {lm : Libm} : exists s bg pair pa pb t,
  complete s (DC (dp_role_a pair) pa true (Some bg) None (Some (fun _ => pair))) /\ 1 <= B2R (dp_delta pair) /\
  get_tone (DC (dp_role_a pair) pa true (Some bg) None (Some (fun _ => pair))) s = Ok t /\
  get_tone (DC (dp_role_b pair) pb true (Some bg) None (Some (fun _ => pair))) s = Ok t.
Proof.
  exists (dull true), (fun _ => plain "surface" (dec "6.0")), unnamed, ds_neutral_palette, ds_neutral_palette, (dec "30.0").
  split. { apply complete_pair; [apply plain_complete, tone_ok; vm_compute; reflexivity|
    apply fixed_gives, tone_ok; vm_compute; reflexivity|apply steady_curve; vm_compute; reflexivity|
    apply fixed_gives, tone_ok; vm_compute; reflexivity|apply steady_curve; vm_compute; reflexivity|].
    cbn [unnamed dp_delta]. unfold fits. fconst (dec "10.0"). split; [assumption|lra]. }
  split; [cbn [unnamed dp_delta]; fconst (dec "10.0"); lra|].
  split; apply same_ok; vm_compute; reflexivity.
Qed.
Lemma fits_20 : fits (dec "20.0").
Proof. fconst (dec "20.0"). split; [assumption|lra]. Qed.

(** ** Two backgrounds on one side of the zone, ten tones apart *)
Lemma dual_sym {lm : Libm} a x y r : fin x -> fin y -> B2R x < B2R y -> dual_tone a y x r = dual_tone a x y r.
Proof.
  intros fx fy h. unfold dual_tone. cbv zeta.
  assert (A : flt x y = true) by now apply (proj2 (flt_fin x y fx fy)).
  assert (B : flt y x = false) by (apply (proj2 (flt_fin_f y x fy fx)); lra).
  assert (nx : is_nan x = false) by now apply fin_not_nan. assert (ny : is_nan y = false) by now apply fin_not_nan.
  assert (MX : fmax y x = fmax x y) by (unfold fmax; now rewrite nx, ny, A, B).
  assert (MN : fmin y x = fmin x y) by (unfold fmin; now rewrite nx, ny, A, B).
  rewrite MX, MN, (orb_comm (tone_prefers_light_foreground y)). reflexivity.
Qed.

Lemma custom_two {lm : Libm} : pow_defined lm -> pow_accurate (1 / 10 ^ 5) lm ->
  forall s core palette is_bg bg bg2 cv t b b2,
  complete s (DC core palette is_bg (Some bg) (Some bg2) None) -> rc_contrast_curve core = Some cv ->
  get_tone (DC core palette is_bg (Some bg) (Some bg2) None) s = Ok t ->
  get_tone (bg s) s = Ok b -> get_tone (bg2 s) s = Ok b2 ->
  9.9 <= Rabs (B2R b - B2R b2) -> (B2R b < 50 /\ B2R b2 < 50) \/ (60 <= B2R b /\ 60 <= B2R b2) ->
  achievable [b; b2] (cc_get cv (ds_contrast_level s)) ->
  fle (cc_get cv (ds_contrast_level s)) (ratio_of_tones t b) = true /\
  fle (cc_get cv (ds_contrast_level s)) (ratio_of_tones t b2) = true.
Proof.
  intros PD PA s core p is_bg bg bg2 cv t b b2 C E Et Eb Eb2 G side A. inversion C as [| |? ? ? ? ? T K CB CB2 Q|]; subst.
  destruct K as (cv' & E' & K). rewrite E in E'. injection E' as <-.
  destruct (complete_resolves PD s _ CB) as (b' & Eb' & Tb). rewrite Eb in Eb'. injection Eb' as <-.
  destruct (complete_resolves PD s _ CB2) as (b' & Eb' & Tb2). rewrite Eb2 in Eb'. injection Eb' as <-.
  destruct T as (a & Ea & Ta). rewrite (get_dual s core p is_bg bg bg2 b b2 a cv Eb Eb2 Ea E) in Et. injection Et as <-.
  destruct (cc_ratio cv (ds_contrast_level s) K) as [F B].
  pose proof (single_ok is_bg a b _ (flt (ds_contrast_level s) (dec "0.0")) PD Ta (tone_nn _ Tb) (fin_not_nan _ F)) as TS.
  set (r := cc_get cv (ds_contrast_level s)) in *. set (x := single_tone is_bg a b r _) in *. clearbody r x.
  destruct (Rle_or_lt (B2R b) (B2R b2)) as [o|o].
  - rewrite Rabs_left1 in G by lra. apply (dual_reaches PA); try assumption; lra.
  - rewrite Rabs_right in G by lra. rewrite (dual_sym x b2 b r (tone_fin _ Tb2) (tone_fin _ Tb) o).
    destruct A as (u & Tu & A). pose proof (Forall_inv A) as A1. pose proof (Forall_inv (Forall_inv_tail A)) as A2.
    apply and_comm. apply (dual_reaches PA); try assumption; try lra.
    exists u. split; [exact Tu|]. constructor; [exact A2|]. constructor; [exact A1|constructor].
Qed.

(** A stay-together pair with tones 40 and 70, 20 apart: the tones are kept, on the two sides of the zone. *)
Definition split_pair : tone_delta_pair := {|
  dp_role_a := fixed_core "near" (dec "40.0") (Some (steady (dec "1.0")));
  dp_role_b := fixed_core "far" (dec "70.0") (Some (steady (dec "1.0")));
  dp_delta := dec "20.0"; dp_polarity := Nearer; dp_stay_together := true |}.
Lemma split_apart {lm : Libm} : exists s bg pair pa pb x y,
  complete s (DC (dp_role_a pair) pa true (Some bg) None (Some (fun _ => pair))) /\ dp_stay_together pair = true /\
  rc_name (dp_role_a pair) <> rc_name (dp_role_b pair) /\
  get_tone (DC (dp_role_a pair) pa true (Some bg) None (Some (fun _ => pair))) s = Ok x /\
  get_tone (DC (dp_role_b pair) pb true (Some bg) None (Some (fun _ => pair))) s = Ok y /\
  B2R x < 50 /\ 60 <= B2R y.
Proof.
  exists (dull true), (fun _ => plain "surface" (dec "6.0")), split_pair, ds_neutral_palette, ds_neutral_palette, (dec "40.0"), (dec "70.0").
  split. { apply complete_pair; [apply plain_complete, tone_ok; vm_compute; reflexivity|
    apply fixed_gives, tone_ok; vm_compute; reflexivity|apply steady_curve; vm_compute; reflexivity|
    apply fixed_gives, tone_ok; vm_compute; reflexivity|apply steady_curve; vm_compute; reflexivity|exact fits_20]. }
  split; [reflexivity|]. split; [discriminate|].
  split; [apply same_ok; vm_compute; reflexivity|]. split; [apply same_ok; vm_compute; reflexivity|].
  fconst (dec "40.0"). fconst (dec "70.0"). lra.
Qed.
