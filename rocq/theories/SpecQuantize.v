(** * Vocabulary for the quantizer properties. *)
From Coq Require Import ZArith List Bool.
Import ListNotations.
Open Scope Z_scope.

(** An opaque pixel: its top byte is 255. *)
Definition opaque (p : Z) : Prop := Z.land (Z.shiftr p 24) 255 = 255.
Definition opaque_b (p : Z) : bool := Z.land (Z.shiftr p 24) 255 =? 255.

(** How often [p] occurs in [l]. *)
Definition occurrences (p : Z) (l : list Z) : Z := Z.of_nat (count_occ Z.eq_dec l p).

(** The sum of the counts of a colour map. *)
Definition total_count (m : list (Z * Z)) : Z := fold_right Z.add 0 (map snd m).
