(** * Vocabulary for constructed schemes whose tones are looked up or searched for. *)
From Coq Require Import Bool String.
From Verif Require Import F64 Palettes DynamicScheme MaterialDynamicColors SpecTotal.
Open Scope string_scope.

Section WithLibm.
Context {lm : Libm}.
(** The scheme does not need the upward search for a tone: it is light, or its variant takes its tones from
    fixed tables; ... *)
Definition no_upward_search (v : variant) (dark : bool) : Prop := dark = false \/ v <> Fidelity /\ v <> Content.
(** ... or the upward search, from tone 30 for the hue and chroma of the secondary palette, comes to an end. *)
Definition search_ends (s : dynamic_scheme) : Prop :=
  returns (find_desired_chroma_by_tone (tp_hue (ds_secondary_palette s)) (tp_chroma (ds_secondary_palette s)) (dec "30.0") false).
End WithLibm.
