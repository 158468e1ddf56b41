(** * A screen colour that has a given hue and chroma, in real numbers.
    SpecAppear.v has the published model CAM16 and SpecCie.v the encoding of a channel.  Nothing here mentions the code. *)
From Coq Require Import ZArith Bool Reals.
From Verif Require Import ColorUtils SpecViewing SpecAppear SpecCie.
Open Scope R_scope.

(** The stimulus of linear sRGB channels (0 to 100). *)
Definition linear_x (r g b : R) : R := 0.41233895 * r + 0.35762064 * g + 0.18051042 * b.
Definition linear_y (r g b : R) : R := 0.2126 * r + 0.7152 * g + 0.0722 * b.
Definition linear_z (r g b : R) : R := 0.01932141 * r + 0.11916382 * g + 0.95034478 * b.

(** The channels of [argb] are the nearest ones to the linear values [r], [g], [b], which may exceed 100 by a hundredth. *)
Definition shows (argb : Z) (r g b : R) : Prop :=
  (0 <= r <= 100.011 /\ 0 <= g <= 100.011 /\ 0 <= b <= 100.011) /\
  channel_of (red_from_argb argb) (Rmin r 100) /\ channel_of (green_from_argb argb) (Rmin g 100) /\ channel_of (blue_from_argb argb) (Rmin b 100).

(** The linear colour [lr], [lg], [lb] has the hue [h] (in degrees) and the chroma [c] under the conditions [k]: so have responses that agree
    with those of its stimulus to a part in a million. *)
Definition looks (k : conditions) (lr lg lb h c : R) : Prop :=
  let x := linear_x lr lg lb in let y := linear_y lr lg lb in let z := linear_z lr lg lb in
  exists r g b : R,
    Rabs (r - red_response k x y z) <= red_response k x y z / 10 ^ 6 /\
    Rabs (g - green_response k x y z) <= green_response k x y z / 10 ^ 6 /\
    Rabs (b - blue_response k x y z) <= blue_response k x y z / 10 ^ 6 /\
    0 < opponent_length r g b /\
    Rabs (redness r g b - opponent_length r g b * cos (radians h)) <= opponent_length r g b / 10 ^ 9 /\
    Rabs (yellowness r g b - opponent_length r g b * sin (radians h)) <= opponent_length r g b / 10 ^ 9 /\
    Rabs (chroma k r g b h - c) <= c / 10 ^ 6.
