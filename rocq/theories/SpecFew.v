(** * Vocabulary for images of few colours. *)
From Coq Require Import ZArith List Bool.
Import ListNotations.
Open Scope Z_scope.

(** The colours of an image, each once, in the order of their first pixel. *)
Fixpoint first_seen (pixels : list Z) : list Z :=
  match pixels with
  | [] => []
  | p :: rest => p :: filter (fun q => negb (q =? p)) (first_seen rest)
  end.
