(** * The names of the material roles.  Proof file. *)
From Coq Require Import ZArith Bool List String.
From Verif Require Import F64 Hct Palettes DynamicScheme DynamicColor MaterialDynamicColors.
Import ListNotations.

Lemma role_names {lm : Libm} : NoDup (map fst getters) /\ (forall name role, In (name, role) getters -> dc_name role = name) /\
  (forall role, In role all_roles <-> In role (map snd getters)).
Proof.
  split; [|split].
  - assert (E : nodup string_dec (map fst getters) = map fst getters) by (vm_compute; reflexivity). rewrite <- E. apply NoDup_nodup.
  - intros name role I. assert (F : Forall (fun e => dc_name (snd e) = fst e) getters) by (unfold getters; repeat constructor).
    rewrite Forall_forall in F. exact (F _ I).
  - intros role. assert (E : map snd getters = all_roles) by reflexivity. rewrite E. reflexivity.
Qed.
