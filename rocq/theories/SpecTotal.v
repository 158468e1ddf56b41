(** * Vocabulary: a call that does not panic. *)
From Verif Require Import F64.
Definition returns {A} (r : res A) : Prop := exists x, r = Ok x.
