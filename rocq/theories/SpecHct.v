(** * Vocabulary for the Hct properties: histories of setter calls on one value. *)
From Coq Require Import ZArith List.
From Verif Require Import F64 Hct.
Import ListNotations.

Inductive setter := SetHue (x : f64) | SetChroma (x : f64) | SetTone (x : f64).

Section WithLibm.
Context {lm : Libm}.
Definition call_setter (h : hct) (s : setter) : res hct :=
  match s with SetHue x => set_hue h x | SetChroma x => set_chroma h x | SetTone x => set_tone h x end.
(** The value after a list of calls, [Panic] as soon as one of them panics. *)
Fixpoint call_setters (h : hct) (l : list setter) : res hct :=
  match l with [] => Ok h | s :: l' => bind (call_setter h s) (fun h' => call_setters h' l') end.
End WithLibm.
