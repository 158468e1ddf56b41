(** * Vocabulary for the properties of colours an application defines itself. *)
From Coq Require Import ZArith Bool List String Reals.
From Flocq Require Import Core IEEE754.BinarySingleNaN.
From Verif Require Import F64 Contrast DynamicScheme DynamicColor SpecTones.
Open Scope R_scope.

Section Scheme.
Context (s : dynamic_scheme).
(** The tone function of the colour gives a tone for the scheme [s]. *)
Definition gives_tone (c : role_core) : Prop := exists t, rc_tone c s = Ok t /\ is_tone t.
(** The contrast curve asks for ratios between 1 and 21. *)
Definition proper (cv : contrast_curve) : Prop :=
  (is_finite (cc_low cv) = true /\ is_finite (cc_normal cv) = true /\ is_finite (cc_medium cv) = true /\ is_finite (cc_high cv) = true) /\
  1 <= B2R (cc_low cv) <= 21 /\ 1 <= B2R (cc_normal cv) <= 21 /\ 1 <= B2R (cc_medium cv) <= 21 /\ 1 <= B2R (cc_high cv) <= 21.
Definition has_curve (c : role_core) : Prop := exists cv, rc_contrast_curve c = Some cv /\ proper cv.
(** A tone difference that fits above tone 60 and below tone 49. *)
Definition fits (delta : f64) : Prop := is_finite delta = true /\ 0 <= B2R delta <= 40.

(** A colour is complete when what its resolution needs is there: tones everywhere, contrast curves where there is
    a background, and a background where there is a pair. *)
Inductive complete : dynamic_color -> Prop :=
| complete_plain core palette is_bg bg2 : gives_tone core -> complete (DC core palette is_bg None bg2 None)
| complete_single core palette is_bg bg : gives_tone core -> has_curve core -> complete (bg s) ->
    complete (DC core palette is_bg (Some bg) None None)
| complete_double core palette is_bg bg bg2 : gives_tone core -> has_curve core -> complete (bg s) -> complete (bg2 s) ->
    complete (DC core palette is_bg (Some bg) (Some bg2) None)
| complete_pair core palette is_bg bg bg2 pair : complete (bg s) ->
    gives_tone (dp_role_a (pair s)) -> has_curve (dp_role_a (pair s)) ->
    gives_tone (dp_role_b (pair s)) -> has_curve (dp_role_b (pair s)) -> fits (dp_delta (pair s)) ->
    complete (DC core palette is_bg (Some bg) bg2 (Some pair)).
End Scheme.

(** Whether the first colour of a pair is to be lighter (1) or darker (-1) than the second: nearer to the surface
    means darker in the dark theme and lighter in the light theme. *)
Definition lead (dark : bool) (p : tone_polarity) : R :=
  match p with
  | Lighter => 1
  | Darker => -1
  | Nearer => if dark then -1 else 1
  | Farther => if dark then 1 else -1
  end.
