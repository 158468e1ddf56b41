(** * The yellow-blue coordinate of every colour but black is away from zero.  Proof file. *)
From Coq Require Import ZArith List Bool Reals.
From Verif Require Import HueGrid HueData PfHueGrid PfHueTable.

Lemma lin_tab_ok : lins_ok 0 lin_tab = true.
Proof. vm_cast_no_check (eq_refl true). Qed.
Lemma certificate : whole the_tree lin_tab first_row other_rows = true.
Proof. vm_cast_no_check (eq_refl true). Qed.

Definition separated u1 u2 u3 h1 h2 h3 := whole_ok u1 u2 u3 h1 h2 h3 lin_tab lin_tab_ok first_row other_rows certificate.
