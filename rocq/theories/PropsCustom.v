(** * C95: colours an application defines itself.  Property theorems only. *)
From Coq Require Import ZArith Bool List String Reals.
From Flocq Require Import Core IEEE754.BinarySingleNaN.
From Verif Require Import F64 Contrast Palettes DynamicScheme DynamicColor Spec SpecTones SpecCustom PfRoleTable PfCustom SampleLibm PropsTones.
Import ListNotations.
Open Scope string_scope.
Open Scope list_scope.
Open Scope R_scope.

(** A colour with all its parts resolves to a tone, however deep its chain of backgrounds is. *)
Theorem C95_resolves : forall lm : Libm, pow_defined lm -> forall (s : dynamic_scheme) (c : dynamic_color),
  complete s c -> exists t, get_tone c s = Ok t /\ is_tone t.
Proof. exact (@complete_resolves). Qed.
Print Assumptions C95_resolves.

(** A colour on one background meets its contrast curve whenever some tone would. *)
Theorem C95_contrast : forall lm : Libm, pow_defined lm -> pow_accurate (1 / 10 ^ 5) lm ->
  forall (s : dynamic_scheme) (core : role_core) (palette : dynamic_scheme -> tonal_palette) (is_bg : bool)
    (bg : dynamic_scheme -> dynamic_color) (cv : contrast_curve) (t b : f64),
  complete s (DC core palette is_bg (Some bg) None None) -> rc_contrast_curve core = Some cv ->
  get_tone (DC core palette is_bg (Some bg) None None) s = Ok t -> get_tone (bg s) s = Ok b ->
  achievable [b] (cc_get cv (ds_contrast_level s)) -> fle (cc_get cv (ds_contrast_level s)) (ratio_of_tones t b) = true.
Proof. exact (@custom_contrast). Qed.
Print Assumptions C95_contrast.

(** Backgrounds stay out of the tones 50 to 59, where neither black nor white text is legible. *)
Theorem C95_zone : forall lm : Libm, pow_defined lm -> forall (s : dynamic_scheme) (core : role_core)
    (palette : dynamic_scheme -> tonal_palette) (bg : dynamic_scheme -> dynamic_color)
    (bg2 : option (dynamic_scheme -> dynamic_color)) (pair : option (dynamic_scheme -> tone_delta_pair)),
  complete s (DC core palette true (Some bg) bg2 pair) -> bg2 = None \/ pair <> None ->
  exists t, get_tone (DC core palette true (Some bg) bg2 pair) s = Ok t /\ (B2R t < 50 \/ 60 <= B2R t).
Proof. exact (@custom_zone). Qed.
Print Assumptions C95_zone.

(** Two paired colours with different names are apart by the tone difference, on the sides the polarity asks for. *)
Theorem C95_pair : forall lm : Libm, pow_defined lm -> forall (s : dynamic_scheme)
    (bg : dynamic_scheme -> dynamic_color) (pair : tone_delta_pair)
    (pa : dynamic_scheme -> tonal_palette) (isa : bool) (bga : option (dynamic_scheme -> dynamic_color))
    (pb : dynamic_scheme -> tonal_palette) (isb : bool) (bgb : option (dynamic_scheme -> dynamic_color)),
  complete s (DC (dp_role_a pair) pa isa (Some bg) bga (Some (fun _ => pair))) ->
  rc_name (dp_role_a pair) <> rc_name (dp_role_b pair) ->
  exists x y, get_tone (DC (dp_role_a pair) pa isa (Some bg) bga (Some (fun _ => pair))) s = Ok x /\
    get_tone (DC (dp_role_b pair) pb isb (Some bg) bgb (Some (fun _ => pair))) s = Ok y /\
    B2R (dp_delta pair) - 1 / 10 ^ 12 <= lead (ds_is_dark s) (dp_polarity pair) * (B2R x - B2R y).
Proof. exact (@custom_pair). Qed.
Print Assumptions C95_pair.

(** With the same name (unnamed colours have the empty name) they are not apart at all. *)
Theorem C95_unnamed_pair_refuted : forall lm : Libm, exists s bg pair pa pb t,
  complete s (DC (dp_role_a pair) pa true (Some bg) None (Some (fun _ => pair))) /\ 1 <= B2R (dp_delta pair) /\
  get_tone (DC (dp_role_a pair) pa true (Some bg) None (Some (fun _ => pair))) s = Ok t /\
  get_tone (DC (dp_role_b pair) pb true (Some bg) None (Some (fun _ => pair))) s = Ok t.
Proof. exact (@unnamed_coincide). Qed.
Print Assumptions C95_unnamed_pair_refuted.

(** A pair asked to stay together can end on the two sides of the tones 50 to 59. *)
Theorem C95_stay_together_refuted : forall lm : Libm, exists s bg pair pa pb x y,
  complete s (DC (dp_role_a pair) pa true (Some bg) None (Some (fun _ => pair))) /\ dp_stay_together pair = true /\
  rc_name (dp_role_a pair) <> rc_name (dp_role_b pair) /\
  get_tone (DC (dp_role_a pair) pa true (Some bg) None (Some (fun _ => pair))) s = Ok x /\
  get_tone (DC (dp_role_b pair) pb true (Some bg) None (Some (fun _ => pair))) s = Ok y /\
  B2R x < 50 /\ 60 <= B2R y.
Proof. exact (@split_apart). Qed.
Print Assumptions C95_stay_together_refuted.

(** With a difference above 40 a pair can leave the tones 0 to 100. *)
Theorem C95_large_difference_refuted : forall lm : Libm, exists s bg pair palette t,
  complete s (bg s) /\ gives_tone s (dp_role_a pair) /\ has_curve (dp_role_a pair) /\
  gives_tone s (dp_role_b pair) /\ has_curve (dp_role_b pair) /\ 40 < B2R (dp_delta pair) <= 100 /\
  get_tone (DC (dp_role_b pair) palette true (Some bg) None (Some (fun _ => pair))) s = Ok t /\ 100 < B2R t.
Proof. exact (@wide_overshoots). Qed.
Print Assumptions C95_large_difference_refuted.

(** On two backgrounds ten tones apart on one side of the tones 50 to 59 it meets its curve on both whenever some tone does. *)
Theorem C95_two_backgrounds : forall lm : Libm, pow_defined lm -> pow_accurate (1 / 10 ^ 5) lm ->
  forall (s : dynamic_scheme) (core : role_core) (palette : dynamic_scheme -> tonal_palette) (is_bg : bool)
    (bg bg2 : dynamic_scheme -> dynamic_color) (cv : contrast_curve) (t b b2 : f64),
  complete s (DC core palette is_bg (Some bg) (Some bg2) None) -> rc_contrast_curve core = Some cv ->
  get_tone (DC core palette is_bg (Some bg) (Some bg2) None) s = Ok t ->
  get_tone (bg s) s = Ok b -> get_tone (bg2 s) s = Ok b2 ->
  9.9 <= Rabs (B2R b - B2R b2) -> (B2R b < 50 /\ B2R b2 < 50) \/ (60 <= B2R b /\ 60 <= B2R b2) ->
  achievable [b; b2] (cc_get cv (ds_contrast_level s)) ->
  fle (cc_get cv (ds_contrast_level s)) (ratio_of_tones t b) = true /\
  fle (cc_get cv (ds_contrast_level s)) (ratio_of_tones t b2) = true.
Proof. exact (@custom_two). Qed.
Print Assumptions C95_two_backgrounds.

(** In the zone the contrast curve can be missed although some tone meets it on both. *)
Theorem C95_two_backgrounds_refuted : forall lm : Libm, pow_defined lm -> pow_accurate (1 / 10 ^ 5) lm ->
  exists s core palette bg bg2 cv b b2 t,
  complete s (DC core palette false (Some bg) (Some bg2) None) /\ rc_contrast_curve core = Some cv /\
  get_tone (bg s) s = Ok b /\ get_tone (bg2 s) s = Ok b2 /\
  achievable [b; b2] (cc_get cv (ds_contrast_level s)) /\
  get_tone (DC core palette false (Some bg) (Some bg2) None) s = Ok t /\
  fle (cc_get cv (ds_contrast_level s)) (ratio_of_tones t b2) = false.
Proof. exact (@white_chosen). Qed.
Print Assumptions C95_two_backgrounds_refuted.

(** A pair without a background, and a background without a contrast curve, panic. *)
Theorem C95_incomplete : forall lm : Libm, forall (s : dynamic_scheme) (core : role_core)
    (palette : dynamic_scheme -> tonal_palette) (is_bg : bool) (bg2 : option (dynamic_scheme -> dynamic_color))
    (pair : dynamic_scheme -> tone_delta_pair) (bg : dynamic_scheme -> dynamic_color),
  get_tone (DC core palette is_bg None bg2 (Some pair)) s = Panic /\
  (rc_contrast_curve core = None -> get_tone (DC core palette is_bg (Some bg) bg2 None) s = Panic).
Proof. exact (@custom_incomplete). Qed.
Print Assumptions C95_incomplete.

(** A button on a card on the surface, in a scheme of raised contrast. *)
Definition card : dynamic_color :=
  DC (fixed_core "card" (dec "55.0") (Some (steady (dec "1.5")))) ds_neutral_palette true (Some (fun _ => plain "surface" (dec "98.0"))) None None.
Definition button : dynamic_color :=
  DC (fixed_core "button" (dec "40.0") (Some (steady (dec "3.0")))) ds_primary_palette true (Some (fun _ => card)) None None.
Example C95_case : complete (a_scheme TonalSpot false (dec "0.5")) button.
Proof.
  apply complete_single; [apply fixed_gives, tone_ok; vm_compute; reflexivity|apply steady_curve; vm_compute; reflexivity|].
  apply complete_single; [apply fixed_gives, tone_ok; vm_compute; reflexivity|apply steady_curve; vm_compute; reflexivity|].
  apply plain_complete, tone_ok. vm_compute. reflexivity.
Qed.
Example C95_case_tones :
  match @get_tone sample_libm card (a_scheme TonalSpot false (dec "0.5")), @get_tone sample_libm button (a_scheme TonalSpot false (dec "0.5")) with
  | Ok c, Ok b => feq c (dec "49.0") && negb (feq b (dec "40.0")) && fle (dec "3.0") (ratio_of_tones b c)
  | _, _ => false
  end = true.
Proof. vm_compute. reflexivity. Qed.
(** A named pair, 20 apart, one of whose tones starts in the avoided zone. *)
Definition chips : tone_delta_pair := {|
  dp_role_a := fixed_core "chip" (dec "52.0") (Some (steady (dec "1.0")));
  dp_role_b := fixed_core "label" (dec "60.0") (Some (steady (dec "3.0")));
  dp_delta := dec "20.0"; dp_polarity := Darker; dp_stay_together := true |}.
Example C95_pair_case : complete (a_scheme TonalSpot true (dec "0.0"))
  (DC (dp_role_a chips) ds_primary_palette true (Some (fun _ => plain "surface" (dec "6.0"))) None (Some (fun _ => chips))) /\
  rc_name (dp_role_a chips) <> rc_name (dp_role_b chips) /\
  match @get_tone sample_libm (DC (dp_role_a chips) ds_primary_palette true (Some (fun _ => plain "surface" (dec "6.0"))) None (Some (fun _ => chips)))
    (a_scheme TonalSpot true (dec "0.0")) with Ok t => feq t (dec "60.0") | Panic => false end = true.
Proof.
  split; [|split; [discriminate|vm_compute; reflexivity]].
  apply complete_pair; [apply plain_complete, tone_ok; vm_compute; reflexivity|
    apply fixed_gives, tone_ok; vm_compute; reflexivity|apply steady_curve; vm_compute; reflexivity|
    apply fixed_gives, tone_ok; vm_compute; reflexivity|apply steady_curve; vm_compute; reflexivity|].
  exact fits_20.
Qed.
(** Text on a light card and a lighter one. *)
Example C95_two_case : let text := DC (fixed_core "text" (dec "100.0") (Some (steady (dec "4.5")))) ds_primary_palette false
    (Some (fun _ => plain "light" (dec "90.0"))) (Some (fun _ => plain "dim" (dec "75.0"))) None in
  complete (a_scheme TonalSpot true (dec "0.0")) text /\ achievable [dec "90.0"; dec "75.0"] (dec "4.5") /\
  match @get_tone sample_libm text (a_scheme TonalSpot true (dec "0.0")) with
  | Ok t => flt t (dec "60.0") && fle (dec "4.5") (ratio_of_tones t (dec "75.0")) | Panic => false end = true.
Proof.
  split; [|split; [|vm_compute; reflexivity]].
  - apply complete_double; [apply fixed_gives, tone_ok; vm_compute; reflexivity|apply steady_curve; vm_compute; reflexivity|
      apply plain_complete, tone_ok; vm_compute; reflexivity..].
  - exists (dec "0.0"). split; [apply tone_ok; vm_compute; reflexivity|].
    repeat (apply Forall_cons; [vm_compute; reflexivity|]). constructor.
Qed.
