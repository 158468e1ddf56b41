(** * Proofs about QuantizerMap. Proof file. *)
From Coq Require Import ZArith List Bool Lia Permutation.
From Verif Require Import F64 ColorUtils Assoc ViewingConditions QuantizerMap SpecQuantize AssocFacts.
Import ListNotations.
Open Scope Z_scope.

Lemma alpha_lt p : alpha_from_argb p <? 255 = negb (opaque_b p).
Proof.
  unfold alpha_from_argb, opaque_b. destruct (Z.eqb_spec (Z.land (Z.shiftr p 24) 255) 255) as [->|D]; [reflexivity|].
  assert (B : 0 <= Z.land (Z.shiftr p 24) 255 < 256).
  { change 255 with (Z.ones 8). rewrite Z.land_ones by lia. apply Z.mod_pos_bound. lia. }
  apply Z.ltb_lt. lia.
Qed.
Lemma opaque_iff p : opaque_b p = true <-> opaque p. Proof. apply Z.eqb_eq. Qed.
Lemma step_eq m p : map_step m p = if opaque_b p then ainsert Z.eqb m p (get0 m p + 1) else m.
Proof.
  unfold map_step. rewrite alpha_lt. destruct (opaque_b p); cbn [negb]; [|reflexivity].
  unfold get0. now destruct (afind Z.eqb m p).
Qed.
Lemma occ_cons p q l : occurrences p (q :: l) = (if q =? p then 1 else 0) + occurrences p l.
Proof. unfold occurrences. cbn [count_occ]. destruct (Z.eq_dec q p), (Z.eqb_spec q p); try contradiction; lia. Qed.
Lemma occ_nonneg p l : 0 <= occurrences p l. Proof. unfold occurrences. lia. Qed.
Lemma fold_spec pixels : forall m, NoDup (map fst m) -> let r := fold_left map_step pixels m in
  NoDup (map fst r) /\
  (forall p, afind Z.eqb r p = if opaque_b p && (0 <? occurrences p pixels) then Some (get0 m p + occurrences p pixels) else afind Z.eqb m p) /\
  sumv r = sumv m + Z.of_nat (List.length (filter opaque_b pixels)).
Proof.
  induction pixels as [|q l IH]; intros m N r; unfold r; cbn [fold_left].
  - split; [exact N|]. split; [|cbn; lia]. intros p. cbn. now rewrite andb_false_r.
  - rewrite step_eq. destruct (opaque_b q) eqn:O.
    + destruct (IH _ (nodup_ainsert m q (get0 m q + 1) N)) as (I1 & I2 & I3). split; [exact I1|]. split.
      * intros p. rewrite I2, occ_cons. unfold get0 at 1. rewrite find_ainsert.
        pose proof (occ_nonneg p l). destruct (Z.eqb_spec q p) as [<-|D].
        -- rewrite O. cbn [andb]. destruct (Z.ltb_spec 0 (1 + occurrences q l)); [|lia].
           destruct (Z.ltb_spec 0 (occurrences q l)); f_equal; lia.
        -- cbn [Z.add]. unfold get0. reflexivity.
      * rewrite I3, (sumv_ainsert m q _ N). cbn [filter]. rewrite O. cbn [List.length]. lia.
    + destruct (IH m N) as (I1 & I2 & I3). split; [exact I1|]. split.
      * intros p. rewrite I2, occ_cons. destruct (Z.eqb_spec q p) as [<-|D]; [now rewrite O|reflexivity].
      * cbn [filter]. rewrite O. exact I3.
Qed.
Lemma map_counts pixels p n : In (p, n) (qr_color_to_count (map_quantize pixels)) <->
  opaque p /\ n = occurrences p pixels /\ 0 < n.
Proof.
  destruct (fold_spec pixels [] (NoDup_nil _)) as (N & F & _). cbn [map_quantize qr_color_to_count].
  rewrite <- (find_in _ p n N), F. rewrite <- opaque_iff. cbn [afind]. unfold get0. cbn [afind].
  destruct (opaque_b p); cbn [andb]; [|split; [discriminate|now intros (X & _)]].
  destruct (Z.ltb_spec 0 (occurrences p pixels)).
  - split; [intros [= <-]|intros (_ & -> & _)]; [split; [reflexivity|split; lia]|f_equal; lia].
  - split; [discriminate|]. intros (_ & -> & X). lia.
Qed.
Lemma map_keys pixels : NoDup (map fst (qr_color_to_count (map_quantize pixels))).
Proof. now destruct (fold_spec pixels [] (NoDup_nil _)). Qed.
Lemma map_total pixels : total_count (qr_color_to_count (map_quantize pixels)) = Z.of_nat (List.length (filter opaque_b pixels)).
Proof. destruct (fold_spec pixels [] (NoDup_nil _)) as (_ & _ & S). exact S. Qed.
Lemma map_perm pixels pixels' : Permutation pixels pixels' ->
  Permutation (qr_color_to_count (map_quantize pixels)) (qr_color_to_count (map_quantize pixels')).
Proof.
  intros P. apply NoDup_Permutation; [apply (NoDup_map_inv fst), map_keys|apply (NoDup_map_inv fst), map_keys|].
  intros (p, n). rewrite !map_counts. unfold occurrences. now rewrite (proj1 (Permutation_count_occ Z.eq_dec pixels pixels') P p).
Qed.
