(** * Proofs about ARGB packing and hexadecimal strings.  Proof file. *)
From Coq Require Import ZArith Bool List Ascii String Lia.
From Verif Require Import F64 ColorUtils StringUtils Spec.
Import ListNotations.
Open Scope list_scope.
Open Scope Z_scope.

Lemma land255 z : Z.land z 255 = z mod 256.
Proof. change 255 with (Z.ones 8). rewrite Z.land_ones by lia. reflexivity. Qed.

Lemma lor_add x b n : 0 <= n -> x mod 2 ^ n = 0 -> 0 <= b < 2 ^ n -> Z.lor x b = x + b.
Proof.
  intros hn hx hb.
  assert (L : Z.land x b = 0).
  { apply Z.bits_inj'. intros k hk. rewrite Z.land_spec, Z.bits_0.
    destruct (Z.lt_ge_cases k n).
    - replace (Z.testbit x k) with (Z.testbit (x mod 2 ^ n) k)
        by (apply Z.mod_pow2_bits_low; lia).
      rewrite hx, Z.bits_0. reflexivity.
    - replace b with (b mod 2 ^ n) by (apply Z.mod_small; lia).
      rewrite Z.mod_pow2_bits_high by lia. apply andb_false_r. }
  rewrite <- Z.lxor_lor by assumption. symmetry. apply Z.add_nocarry_lxor. assumption.
Qed.

Lemma argb_from_rgb_sum r g b :
  argb_from_rgb r g b = 0xFF000000 + (r mod 256) * 65536 + (g mod 256) * 256 + b mod 256.
Proof.
  unfold argb_from_rgb. rewrite !land255, !Z.shiftl_mul_pow2 by lia.
  pose proof (Z.mod_pos_bound r 256 ltac:(lia)). pose proof (Z.mod_pos_bound g 256 ltac:(lia)).
  pose proof (Z.mod_pos_bound b 256 ltac:(lia)).
  set (R := r mod 256) in *. set (G := g mod 256) in *. set (B := b mod 256) in *.
  change (255 * 2 ^ 24) with 0xFF000000. change (2 ^ 16) with 65536. change (2 ^ 8) with 256.
  rewrite (lor_add 0xFF000000 (R * 65536) 24) by (reflexivity || lia).
  rewrite (lor_add _ (G * 256) 16). 2: lia. 3: lia.
  2:{ change (2 ^ 16) with 65536. change 0xFF000000 with (0xFF00 * 65536).
      rewrite <- Z.mul_add_distr_r. apply Z.mod_mul. lia. }
  rewrite (lor_add _ B 8). 2: lia. 3: lia. { reflexivity. }
  change (2 ^ 8) with 256. 
  replace (0xFF000000 + R * 65536 + G * 256) with ((0xFF0000 + R * 256 + G) * 256) by lia.
  apply Z.mod_mul. lia.
Qed.

Lemma channel_div z n : 0 <= n -> Z.land (Z.shiftr z n) 255 = (z / 2 ^ n) mod 256.
Proof. intros. rewrite land255, Z.shiftr_div_pow2 by assumption. reflexivity. Qed.
Lemma red_div z : red_from_argb z = (z / 65536) mod 256.
Proof. apply (channel_div z 16). lia. Qed.
Lemma green_div z : green_from_argb z = (z / 256) mod 256.
Proof. apply (channel_div z 8). lia. Qed.
Lemma blue_div z : blue_from_argb z = z mod 256.
Proof. apply land255. Qed.
Lemma alpha_div z : alpha_from_argb z = (z / 16777216) mod 256.
Proof. apply (channel_div z 24). lia. Qed.

Lemma pack_channels r g b :
  0xFF000000 <= argb_from_rgb r g b <= 0xFFFFFFFF /\
  red_from_argb (argb_from_rgb r g b) = r mod 256 /\
  green_from_argb (argb_from_rgb r g b) = g mod 256 /\
  blue_from_argb (argb_from_rgb r g b) = b mod 256 /\
  alpha_from_argb (argb_from_rgb r g b) = 255.
Proof.
  rewrite red_div, green_div, blue_div, alpha_div, argb_from_rgb_sum.
  pose proof (Z.mod_pos_bound r 256 ltac:(lia)). pose proof (Z.mod_pos_bound g 256 ltac:(lia)).
  pose proof (Z.mod_pos_bound b 256 ltac:(lia)).
  set (R := r mod 256) in *. set (G := g mod 256) in *. set (B := b mod 256) in *.
  repeat split; try lia.
  - replace (_ / 65536) with (0xFF00 + R). 2:{ apply (Z.div_unique _ _ _ (G * 256 + B)); lia. }
    symmetry. apply (Z.mod_unique _ _ 0xFF); lia.
  - replace (_ / 256) with (0xFF0000 + R * 256 + G).
    2:{ apply (Z.div_unique _ _ _ B); lia. }
    symmetry. apply (Z.mod_unique _ _ (0xFF00 + R)); lia.
  - symmetry. apply (Z.mod_unique _ _ (0xFF0000 + R * 256 + G)); lia.
  - replace (_ / 16777216) with 0xFF; [reflexivity|].
    apply (Z.div_unique _ _ _ (R * 65536 + G * 256 + B)); lia.
Qed.

Lemma opaque_of_rgb r g b : opaque (argb_from_rgb r g b).
Proof. apply pack_channels. Qed.

Lemma mod24 z : z mod 16777216 = (z / 65536) mod 256 * 65536 + (z / 256) mod 256 * 256 + z mod 256.
Proof.
  change 16777216 with (256 * 65536). rewrite (Z.mul_comm 256), Z.rem_mul_r by lia.
  change 65536 with (256 * 256) at 1. rewrite Z.rem_mul_r by lia. lia.
Qed.

Lemma repack z :
  argb_from_rgb (red_from_argb z) (green_from_argb z) (blue_from_argb z) =
  0xFF000000 + z mod 2 ^ 24.
Proof.
  rewrite argb_from_rgb_sum, red_div, green_div, blue_div, !Z.mod_mod by lia.
  change (2 ^ 24) with 16777216. rewrite mod24. lia.
Qed.

Lemma repack_iff z :
  argb_from_rgb (red_from_argb z) (green_from_argb z) (blue_from_argb z) = z <->
  0xFF000000 <= z <= 0xFFFFFFFF.
Proof.
  rewrite repack. pose proof (Z.mod_pos_bound z (2 ^ 24) ltac:(lia)).
  change (2 ^ 24) with 16777216 in *. split; intros h; [lia|].
  assert (z mod 16777216 = z - 0xFF000000) by (symmetry; apply (Z.mod_unique _ _ 255); lia).
  lia.
Qed.

Lemma accessors_range z :
  0 <= alpha_from_argb z <= 255 /\ 0 <= red_from_argb z <= 255 /\
  0 <= green_from_argb z <= 255 /\ 0 <= blue_from_argb z <= 255.
Proof.
  rewrite red_div, green_div, blue_div, alpha_div.
  pose proof (Z.mod_pos_bound (z / 16777216) 256 ltac:(lia)).
  pose proof (Z.mod_pos_bound (z / 65536) 256 ltac:(lia)).
  pose proof (Z.mod_pos_bound (z / 256) 256 ltac:(lia)).
  pose proof (Z.mod_pos_bound z 256 ltac:(lia)). lia.
Qed.

Lemma is_opaque_bits z :
  is_opaque z = true <-> (forall i, 24 <= i < 32 -> Z.testbit z i = true).
Proof.
  unfold is_opaque. rewrite Z.leb_le. pose proof (accessors_range z) as [A _].
  assert (B : forall i, 0 <= i < 8 -> Z.testbit (alpha_from_argb z) i = Z.testbit z (i + 24)).
  { intros i hi. unfold alpha_from_argb. change 255 with (Z.ones 8).
    rewrite Z.land_spec, Z.shiftr_spec by lia. rewrite Z.ones_spec_low by lia.
    apply andb_true_r. }
  split.
  - intros h i hi. assert (E : alpha_from_argb z = Z.ones 8) by (change (Z.ones 8) with 255; lia).
    replace i with (i - 24 + 24) by lia. rewrite <- B by lia. rewrite E.
    apply Z.ones_spec_low. lia.
  - intros h. enough (alpha_from_argb z = 255) by lia.
    change 255 with (Z.ones 8). apply Z.bits_inj'. intros k hk.
    destruct (Z.lt_ge_cases k 8).
    + rewrite B, h, Z.ones_spec_low by lia. reflexivity.
    + rewrite Z.ones_spec_high by lia. unfold alpha_from_argb. change 255 with (Z.ones 8).
      rewrite Z.land_spec, Z.ones_spec_high by lia. apply andb_false_r.
Qed.

(** ** Finite sweeps over a byte *)
Lemma byte_cases (P : Z -> bool) :
  forallb P (map Z.of_nat (seq 0 256)) = true -> forall z, 0 <= z <= 255 -> P z = true.
Proof.
  intros h z hz. rewrite forallb_forall in h. apply h.
  rewrite in_map_iff. exists (Z.to_nat z). split; [lia|]. rewrite in_seq. lia.
Qed.

Definition upper_hex (c : ascii) : bool :=
  let n := Z.of_N (N_of_ascii c) in
  ((48 <=? n) && (n <=? 57) || (65 <=? n) && (n <=? 70)).

Lemma byte_hex z : 0 <= z <= 255 ->
  exists c1 c2 d1 d2, map to_upper (fmt_02x z) = [c1; c2] /\ upper_hex c1 = true /\ upper_hex c2 = true /\
  hex_val c1 = Some d1 /\ hex_val c2 = Some d2 /\ 0 <= d1 < 16 /\ 0 <= d2 < 16 /\ z = d1 * 16 + d2.
Proof.
  intros hz.
  pose (P := fun z => match map to_upper (fmt_02x z) with
    | [c1; c2] => upper_hex c1 && upper_hex c2 && match hex_val c1, hex_val c2 with
        | Some d1, Some d2 => (0 <=? d1) && (d1 <? 16) && (0 <=? d2) && (d2 <? 16) && (z =? d1 * 16 + d2)
        | _, _ => false end
    | _ => false end).
  assert (h : P z = true). { apply byte_cases; [vm_compute; reflexivity|assumption]. }
  unfold P in h. clear P.
  destruct (map to_upper (fmt_02x z)) as [|c1 [|c2 [|]]]; try discriminate.
  destruct (hex_val c1) as [d1|] eqn:E1, (hex_val c2) as [d2|] eqn:E2;
    rewrite ?andb_false_r in h; try discriminate.
  rewrite !andb_true_iff, ?Z.leb_le, ?Z.ltb_lt, ?Z.eqb_eq in h.
  exists c1, c2, d1, d2. intuition.
Qed.

Lemma upper_hex_not c : upper_hex c = true ->
  Ascii.eqb c "#" = false /\ Ascii.eqb c "+" = false /\ Ascii.eqb c "-" = false.
Proof.
  intros h. repeat split; apply Ascii.eqb_neq; intros ->; discriminate h.
Qed.

Lemma radix_step (neg : bool) c s acc d : hex_val c = Some d -> in_i64 (acc * 16) = true ->
  in_i64 (if neg then acc * 16 - d else acc * 16 + d) = true ->
  radix_loop neg (c :: s) acc = radix_loop neg s (if neg then acc * 16 - d else acc * 16 + d).
Proof. intros E h1 h2. cbn [radix_loop]. rewrite E, h1, h2. reflexivity. Qed.

Lemma in_i64_true z : - 2 ^ 63 <= z <= 2 ^ 63 - 1 -> in_i64 z = true.
Proof. intros. unfold in_i64, i64_min, i64_max. rewrite andb_true_iff, !Z.leb_le. lia. Qed.
Lemma in_i64_iff z : in_i64 z = true <-> - 2 ^ 63 <= z <= 2 ^ 63 - 1.
Proof. unfold in_i64, i64_min, i64_max. rewrite andb_true_iff, !Z.leb_le. lia. Qed.

Lemma hex_shape z flag : exists ds,
  hex_from_argb z flag = (if match flag with Some b => b | None => true end then ["#"%char] else []) ++ ds /\
  List.length ds = 6%nat /\ Forall (fun c => upper_hex c = true) ds /\
  argb_from_hex (hex_from_argb z flag) = Some (z mod 2 ^ 24).
Proof.
  pose proof (accessors_range z) as (_ & hr & hg & hb).
  destruct (byte_hex _ hr) as (r1 & r2 & p1 & p2 & Er & U1 & U2 & V1 & V2 & B1 & B2 & Sr).
  destruct (byte_hex _ hg) as (g1 & g2 & q1 & q2 & Eg & U3 & U4 & V3 & V4 & B3 & B4 & Sg).
  destruct (byte_hex _ hb) as (b1 & b2 & s1 & s2 & Eb & U5 & U6 & V5 & V6 & B5 & B6 & Sb).
  exists [r1; r2; g1; g2; b1; b2].
  assert (EQ : hex_from_argb z flag =
    (if match flag with Some b => b | None => true end then ["#"%char] else []) ++ [r1; r2; g1; g2; b1; b2]).
  { unfold hex_from_argb. rewrite !map_app, Er, Eg, Eb. reflexivity. }
  split; [assumption|]. split; [reflexivity|]. split; [repeat constructor; assumption|].
  rewrite EQ. destruct (upper_hex_not _ U1) as (N1 & N2 & N3).
  assert (T : trim_start_hash ((if match flag with Some b => b | None => true end then ["#"%char] else []) ++
     [r1; r2; g1; g2; b1; b2]) = [r1; r2; g1; g2; b1; b2]).
  { destruct (match flag with Some b => b | None => true end); cbn [app trim_start_hash].
    - change (Ascii.eqb "#" "#") with true. cbv iota. rewrite N1. reflexivity.
    - rewrite N1. reflexivity. }
  unfold argb_from_hex. rewrite T. unfold i64_from_str_radix_16. rewrite N2, N3.
  erewrite radix_step by first [eassumption | apply in_i64_true; lia]. cbv iota.
  do 5 (erewrite radix_step by first [eassumption | apply in_i64_true; lia]; cbv iota).
  cbn [radix_loop]. f_equal. change (2 ^ 24) with 16777216. rewrite mod24.
  rewrite <- red_div, <- green_div, <- blue_div. lia.
Qed.

Lemma ascii_all (P : ascii -> bool) :
  forallb P (map ascii_of_nat (seq 0 256)) = true -> forall c, P c = true.
Proof.
  intros h c. rewrite forallb_forall in h. apply h. rewrite in_map_iff.
  exists (nat_of_ascii c). split; [apply ascii_nat_embedding|]. rewrite in_seq.
  pose proof (nat_ascii_bounded c). lia.
Qed.

Definition optz_eqb (a b : option Z) : bool :=
  match a, b with Some x, Some y => x =? y | None, None => true | _, _ => false end.

Lemma hex_val_spec c : hex_val c = hex_digit_value c.
Proof.
  assert (h : optz_eqb (hex_val c) (hex_digit_value c) = true)
    by (apply (ascii_all (fun c => optz_eqb (hex_val c) (hex_digit_value c))); vm_compute; reflexivity).
  destruct (hex_val c), (hex_digit_value c); try discriminate; [|reflexivity].
  apply Z.eqb_eq in h. now subst.
Qed.

Lemma upper_hex_spec c : upper_hex c = true <-> upper_hex_char c.
Proof.
  assert (h : Bool.eqb (upper_hex c) (existsb (Ascii.eqb c) (String.list_ascii_of_string "0123456789ABCDEF"%string)) = true)
    by (apply (ascii_all (fun c => Bool.eqb (upper_hex c)
      (existsb (Ascii.eqb c) (String.list_ascii_of_string "0123456789ABCDEF"%string)))); vm_compute; reflexivity).
  apply Bool.eqb_prop in h. rewrite h. unfold upper_hex_char. rewrite existsb_exists. split.
  - intros (x & hx & e). apply Ascii.eqb_eq in e. now subst.
  - intros hx. exists c. split; [assumption|apply Ascii.eqb_refl].
Qed.

Lemma hex_val_range c d : hex_val c = Some d ->
  0 <= d < 16 /\ Ascii.eqb c "#" = false /\ Ascii.eqb c "+" = false /\ Ascii.eqb c "-" = false.
Proof.
  intros h.
  assert (A : match hex_val c with None => true | Some d => (0 <=? d) && (d <? 16) &&
     negb (Ascii.eqb c "#") && negb (Ascii.eqb c "+") && negb (Ascii.eqb c "-") end = true)
   by (apply (ascii_all (fun c => match hex_val c with None => true | Some d => (0 <=? d) && (d <? 16) &&
     negb (Ascii.eqb c "#") && negb (Ascii.eqb c "+") && negb (Ascii.eqb c "-") end)); vm_compute; reflexivity).
  rewrite h in A. rewrite !andb_true_iff, !negb_true_iff, Z.leb_le, Z.ltb_lt in A. tauto.
Qed.

(** The digit loop, from the right end. *)
Lemma hex_number_nonneg ds v : hex_number ds v -> 0 <= v /\ ds <> [].
Proof.
  induction 1 as [c d e|ds v c d h [IH _] e]; rewrite <- hex_val_spec in e; apply hex_val_range in e;
    (split; [lia|]); [discriminate|]. destruct ds; discriminate.
Qed.

Lemma hex_number_snoc_inv ds c v : hex_number (ds ++ [c]) v -> ds <> [] ->
  exists w d, hex_number ds w /\ hex_digit_value c = Some d /\ v = 16 * w + d.
Proof.
  intros h n. inversion h as [c' d e q|ds' w c' d h' e q]; subst.
  - destruct ds as [|x [|]]; try discriminate; congruence.
  - apply app_inj_tail in q. destruct q; subst. eauto.
Qed.

Lemma radix_loop_app neg a b acc :
  radix_loop neg (a ++ b) acc =
  match radix_loop neg a acc with Some x => radix_loop neg b x | None => None end.
Proof.
  revert acc. induction a as [|c a IH]; intros acc; [reflexivity|].
  cbn [radix_loop app]. destruct (hex_val c); [|reflexivity].
  destruct (in_i64 _); [|reflexivity]. destruct (in_i64 _); [apply IH|reflexivity].
Qed.

Lemma radix_loop_spec (neg : bool) ds r : ds <> [] ->
  (radix_loop neg ds 0 = Some r <->
   exists v, hex_number ds v /\ r = (if neg then - v else v) /\ is_i64 r).
Proof.
  revert r. induction ds as [|c ds IH] using rev_ind; intros r n; [congruence|].
  destruct ds as [|c0 ds].
  - cbn [app radix_loop]. rewrite Z.mul_0_l. change (in_i64 0) with true. cbv iota.
    destruct (hex_val c) as [d|] eqn:E.
    + pose proof (hex_val_range _ _ E) as [B _].
      rewrite in_i64_true by (destruct neg; lia). split.
      * intros q. inversion q; subst. exists d. split; [constructor; now rewrite <- hex_val_spec|].
        unfold is_i64. destruct neg; lia.
      * intros (v & h & -> & _). inversion h as [c' d' e|ds' w c' d' h' e q]; subst.
        -- rewrite <- hex_val_spec, E in e. inversion e; subst. destruct neg; reflexivity.
        -- apply hex_number_nonneg in h'. destruct h' as [_ nn]. destruct ds'; [congruence|].
           destruct ds'; discriminate.
    + split; [discriminate|]. intros (v & h & _).
      inversion h as [c' d' e|ds' w c' d' h' e q]; subst.
      * rewrite <- hex_val_spec, E in e. discriminate.
      * apply hex_number_nonneg in h'. destruct h' as [_ nn]. destruct ds'; [congruence|].
        destruct ds'; discriminate.
  - set (l := c0 :: ds) in *. assert (nl : l <> []) by discriminate.
    rewrite radix_loop_app. split.
    + destruct (radix_loop neg l 0) as [x|] eqn:EL; [|discriminate].
      destruct (IH x nl) as [IH1 _]. destruct (IH1 eq_refl) as (v & hv & -> & hi).
      cbn [radix_loop]. destruct (hex_val c) as [d|] eqn:E; [|discriminate].
      destruct (in_i64 _) eqn:I1; [|discriminate]. destruct (in_i64 (if neg then _ else _)) eqn:I2; [|discriminate].
      intros q. inversion q; subst. exists (16 * v + d). split.
      * constructor; [assumption|]. now rewrite <- hex_val_spec.
      * apply in_i64_iff in I2. unfold is_i64. destruct neg; lia.
    + intros (v & hv & -> & hi). destruct (hex_number_snoc_inv _ _ _ hv nl) as (w & d & hw & e & ->).
      pose proof (hex_number_nonneg _ _ hw) as [pw _].
      rewrite <- hex_val_spec in e. pose proof (hex_val_range _ _ e) as [B _].
      unfold is_i64 in hi.
      assert (EL : radix_loop neg l 0 = Some (if neg then - w else w)).
      { apply IH; [assumption|]. exists w. unfold is_i64. destruct neg; repeat split; lia || assumption. }
      rewrite EL. cbn [radix_loop]. rewrite e.
      rewrite in_i64_true by (destruct neg; lia). rewrite in_i64_true by (destruct neg; lia).
      f_equal. destruct neg; lia.
Qed.

Lemma hex_number_head ds v : hex_number ds v -> exists c s d, ds = c :: s /\ hex_val c = Some d.
Proof.
  induction 1 as [c d e|ds v c d h (c0 & s & d0 & -> & e0) e].
  - exists c, [], d. now rewrite hex_val_spec.
  - exists c0, (s ++ [c]), d0. easy.
Qed.

Lemma radix16_spec s r : i64_from_str_radix_16 s = Some r <-> hex_numeral s r /\ is_i64 r.
Proof.
  destruct s as [|c s].
  { split; [discriminate|]. intros [h _]. inversion h as [ds v h'| |]; subst.
    apply hex_number_nonneg in h'. now destruct h'. }
  unfold i64_from_str_radix_16.
  assert (X : forall b : bool, match s with [] => None | _ :: _ => radix_loop b s 0 end = Some r <->
     exists v, hex_number s v /\ r = (if b then - v else v) /\ is_i64 r).
  { intros b. destruct s as [|c' s'].
    - split; [discriminate|]. intros (v & h & _). apply hex_number_nonneg in h. now destruct h.
    - apply radix_loop_spec. discriminate. }
  destruct (Ascii.eqb c "+") eqn:E1.
  - apply Ascii.eqb_eq in E1. subst. rewrite X. split.
    + intros (v & h & -> & i). split; [now constructor|assumption].
    + intros [h i]. inversion h as [ds v h'|ds v h'|]; subst.
      * apply hex_number_head in h'. destruct h' as (c & s' & d & q & e). inversion q; subst. discriminate e.
      * eauto.
  - destruct (Ascii.eqb c "-") eqn:E2.
    + apply Ascii.eqb_eq in E2. subst. rewrite X. split.
      * intros (v & h & -> & i). split; [now constructor|assumption].
      * intros [h i]. inversion h as [ds v h'| |ds v h']; subst.
        -- apply hex_number_head in h'. destruct h' as (c & s' & d & q & e). inversion q; subst. discriminate e.
        -- eauto.
    + rewrite (radix_loop_spec false) by discriminate. split.
      * intros (v & h & -> & i). split; [now constructor|assumption].
      * intros [h i]. inversion h as [ds v h'|ds v h'|ds v h']; subst; try discriminate. eauto.
Qed.

Lemma trim_spec s : exists n, s = repeat "#"%char n ++ trim_start_hash s /\
  (forall c t, trim_start_hash s = c :: t -> c <> "#"%char).
Proof.
  induction s as [|c s (n & E & N)].
  - exists 0%nat. split; [reflexivity|]. discriminate.
  - cbn [trim_start_hash]. destruct (Ascii.eqb c "#") eqn:Q.
    + apply Ascii.eqb_eq in Q. subst. exists (S n). split; [cbn; now rewrite <- E|assumption].
    + exists 0%nat. split; [reflexivity|]. intros c' t q. inversion q; subst.
      now apply Ascii.eqb_neq.
Qed.

Lemma trim_repeat n s : (forall c t, s = c :: t -> c <> "#"%char) ->
  trim_start_hash (repeat "#"%char n ++ s) = s.
Proof.
  intros N. induction n as [|n IH].
  - cbn. destruct s as [|c s]; [reflexivity|]. cbn. specialize (N c s eq_refl).
    apply Ascii.eqb_neq in N. now rewrite N.
  - cbn [repeat app trim_start_hash]. rewrite Ascii.eqb_refl. apply IH.
Qed.

Lemma argb_from_hex_spec s r :
  argb_from_hex s = Some r <->
  exists n t, s = repeat "#"%char n ++ t /\ hex_numeral t r /\ is_i64 r.
Proof.
  unfold argb_from_hex. rewrite radix16_spec. split.
  - intros [h i]. destruct (trim_spec s) as (n & E & _). eauto.
  - intros (n & t & -> & h & i). rewrite trim_repeat; [tauto|].
    intros c t' ->. inversion h as [ds v h'|ds v h'|ds v h']; subst; try discriminate.
    apply hex_number_head in h'. destruct h' as (c' & s' & d & q & e). inversion q; subst.
    apply hex_val_range in e. apply Ascii.eqb_neq. tauto.
Qed.

Lemma hex_shape_full argb hash : exists digits : list ascii,
    hex_from_argb argb hash =
      (match hash with Some false => [] | _ => ["#"%char] end) ++ digits /\
    List.length digits = 6%nat /\ Forall upper_hex_char digits /\
    argb_from_hex (hex_from_argb argb hash) = Some (argb mod 2 ^ 24) /\
    (opaque argb -> argb_from_hex (hex_from_argb argb hash) <> Some argb).
Proof.
  destruct (hex_shape argb hash) as (ds & E & L & U & P). exists ds. split.
  { rewrite E. destruct hash as [[]|]; reflexivity. }
  split; [assumption|]. split.
  { eapply Forall_impl; [|exact U]. intros c. apply upper_hex_spec. }
  split; [assumption|]. rewrite P. unfold opaque. intros o [= q].
  pose proof (Z.mod_pos_bound argb (2 ^ 24) ltac:(lia)). lia.
Qed.
