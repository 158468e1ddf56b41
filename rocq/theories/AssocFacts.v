(** * Facts about association lists standing for hash maps. Proof file. *)
From Coq Require Import ZArith List Bool Lia Permutation.
From Verif Require Import Assoc.
Import ListNotations.
Open Scope Z_scope.

Section ZKeys.
Context {V : Type}.
Implicit Types m : list (Z * V).
Lemma find_in m k v : NoDup (map fst m) -> (afind Z.eqb m k = Some v <-> In (k, v) m).
Proof.
  induction m as [|(k', v') m IH]; intros N; cbn [afind In map fst] in *; [easy|].
  inversion N as [|? ? NI N']; subst. destruct (Z.eqb_spec k' k) as [->|D].
  - split; [intros [= ->]; now left|]. intros [[= ->]|I]; [reflexivity|]. elim NI. apply (in_map fst) in I. exact I.
  - rewrite (IH N'). split; [now right|]. intros [[= -> ->]|I]; [congruence|exact I].
Qed.
Lemma find_none m k : afind Z.eqb m k = None <-> ~ In k (map fst m).
Proof.
  induction m as [|(k', v') m IH]; cbn [afind In map fst]; [tauto|]. destruct (Z.eqb_spec k' k) as [->|D].
  - split; [discriminate|]. intros H. elim H. now left.
  - rewrite IH. intuition.
Qed.
Lemma find_ainsert m k v k' : afind Z.eqb (ainsert Z.eqb m k v) k' = if k =? k' then Some v else afind Z.eqb m k'.
Proof.
  induction m as [|(a, b) m IH]; cbn [ainsert afind].
  - reflexivity.
  - destruct (Z.eqb_spec a k) as [->|D]; cbn [afind].
    + destruct (Z.eqb_spec k k'); reflexivity.
    + rewrite IH. destruct (Z.eqb_spec a k') as [->|]; [|reflexivity]. destruct (Z.eqb_spec k k'); congruence.
Qed.
Lemma keys_ainsert m k v k' : In k' (map fst (ainsert Z.eqb m k v)) <-> k' = k \/ In k' (map fst m).
Proof.
  induction m as [|(a, b) m IH]; cbn [ainsert map fst In]; [intuition|].
  destruct (Z.eqb_spec a k) as [->|D]; cbn [map fst In]; [intuition|]. rewrite IH. intuition.
Qed.
Lemma nodup_ainsert m k v : NoDup (map fst m) -> NoDup (map fst (ainsert Z.eqb m k v)).
Proof.
  induction m as [|(a, b) m IH]; intros N; cbn [ainsert map fst] in *; [repeat constructor; easy|].
  inversion N as [|? ? NI N']; subst. destruct (Z.eqb_spec a k) as [->|D]; cbn [map fst]; [now constructor|].
  constructor; [|now apply IH]. rewrite keys_ainsert. intros [E|I]; congruence.
Qed.
(** Two maps with the same lookups have the same content. *)
Lemma same_content m m' : NoDup (map fst m) -> NoDup (map fst m') ->
  (forall k, afind Z.eqb m k = afind Z.eqb m' k) -> Permutation m m'.
Proof.
  intros N N' H. apply NoDup_Permutation.
  - apply (NoDup_map_inv fst _ N).
  - apply (NoDup_map_inv fst _ N').
  - intros (k, v). rewrite <- (find_in m k v N), <- (find_in m' k v N'). now rewrite H.
Qed.
End ZKeys.

Definition sumv (m : list (Z * Z)) : Z := fold_right Z.add 0 (map snd m).
Definition get0 (m : list (Z * Z)) (k : Z) : Z := match afind Z.eqb m k with Some v => v | None => 0 end.
Lemma sumv_ainsert m k v : NoDup (map fst m) -> sumv (ainsert Z.eqb m k v) = sumv m - get0 m k + v.
Proof.
  unfold sumv, get0. induction m as [|(a, b) m IH]; intros N; cbn [ainsert afind map fst snd fold_right] in *; [lia|].
  inversion N as [|? ? NI N']; subst. destruct (Z.eqb_spec a k) as [->|D]; cbn [map snd fold_right]; [lia|].
  rewrite (IH N'). lia.
Qed.
