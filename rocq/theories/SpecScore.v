(** * Vocabulary for the Score properties: the score of a colour within a population. *)
From Coq Require Import ZArith List Bool String.
From Verif Require Import F64 Hct Score.
Import ListNotations.
Open Scope string_scope.
Open Scope list_scope.
Open Scope Z_scope.

(** A population: colours with how often they occur. *)
Definition population := list (hct * Z).

(** How many pixels there are, and how many have a hue in [k, k+1). *)
Definition total (cs : population) : Z := fold_right Z.add 0 (map snd cs).
Definition hue_count (cs : population) (k : Z) : Z :=
  total (filter (fun c => to_i64 (h_hue (fst c)) =? k) cs).

(** Hue [i] lies in the 30-degree window k-14 .. k+15 around hue [k]. *)
Definition in_window (k i : Z) : bool := (i - k + 14) mod 360 <? 30.

(** The excited proportion of hue [i]: the shares of all hues whose window contains [i]. *)
Definition excited (cs : population) (i : Z) : f64 :=
  fold_left (fun acc k =>
      if in_window k i then fadd acc (fdiv (of_Z (hue_count cs k)) (of_Z (total cs))) else acc)
    (map Z.of_nat (seq 0 360)) (dec "0.0").

(** ... and of a colour: that of its hue rounded to whole degrees. *)
Definition proportion_of (cs : population) (h : hct) : f64 := excited cs (to_i64 (fround (h_hue h)) mod 360).

(** 70 % of the proportion in percent, plus the chroma above (weight 0.3) or below (0.1) 48. *)
Definition rank_score (cs : population) (h : hct) : f64 :=
  fadd (fmul (fmul (proportion_of cs h) (dec "100.0")) (dec "0.7"))
       (fmul (fsub (h_chroma h) (dec "48.0")) (if flt (h_chroma h) (dec "48.0") then dec "0.1" else dec "0.3")).

(** No two colours tie. *)
Definition distinct_scores (cs : population) : Prop :=
  forall c c', In c cs -> In c' cs -> feq (rank_score cs (fst c)) (rank_score cs (fst c')) = true -> c = c'.

Section WithLibm.
Context {lm : Libm}.
(** [cs] is the content of the map [entries] with each colour's Hct. *)
Definition resolves (entries : list (Z * Z)) (cs : population) : Prop :=
  Forall2 (fun e c => hct_from_int (fst e) = Ok (fst c) /\ snd c = snd e) entries cs.
End WithLibm.
