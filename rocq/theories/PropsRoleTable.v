(** * C94: the documented palette and default tone of every material role. *)
From Coq Require Import ZArith Bool List String Reals.
From Flocq Require Import Core IEEE754.BinarySingleNaN.
From Verif Require Import F64 Hct Palettes DynamicScheme DynamicColor MaterialDynamicColors Spec SpecTones SpecRoleTable
  SampleLibm RefLibm PropsTones PfRoleTable PfNames.
Import ListNotations.
Open Scope string_scope.
Open Scope R_scope.

(** At the default contrast level the roles have the documented tones, whatever the source colour and palettes. *)
Theorem C94_default_tones : forall lm : Libm, pow_defined lm -> pow_accurate (1 / 10 ^ 5) lm ->
  forall (s : dynamic_scheme) (name : string) (light dark : Z),
  feq (ds_contrast_level s) (dec "0.0") = true -> In (name, (light, dark)) (default_tones (ds_variant s)) ->
  tone_of s name = Ok (of_Z (if ds_is_dark s then dark else light)).
Proof. exact (@default_tone). Qed.
Print Assumptions C94_default_tones.

(** Backgrounds, shadows and the like keep their tone at every contrast level. *)
Theorem C94_level_independent : forall lm : Libm, forall (s : dynamic_scheme) (name : string) (light dark : Z),
  In (name, (light, dark)) plain_tones -> tone_of s name = Ok (of_Z (if ds_is_dark s then dark else light)).
Proof. exact (@plain_tone). Qed.
Print Assumptions C94_level_independent.

(** The surfaces pass through the documented tones as the contrast level rises. *)
Theorem C94_surfaces : forall lm : Libm, forall (s : dynamic_scheme) (name : string) (light dark : Z * Z * Z),
  In (name, (light, dark)) surface_tones ->
  exists t, tone_of s name = Ok t /\
    let '(low, medium, high) := if ds_is_dark s then dark else light in at_levels (ds_contrast_level s) t low medium high.
Proof. exact (@surface_tone). Qed.
Print Assumptions C94_surfaces.

(** A getter delivers its own palette's colour at the role's tone. *)
Theorem C94_palettes : forall lm : Libm, forall (s : dynamic_scheme) (palette : dynamic_scheme -> tonal_palette)
    (names : list string) (name : string) (role : dynamic_color),
  In (palette, names) role_palettes -> In name names -> In (name, role) getters ->
  ds_get_argb s role = (do t <- tone_of s name; do h <- tp_get_hct (palette s) t; Ok (hct_to_int h)).
Proof. exact (@role_colour). Qed.
Print Assumptions C94_palettes.

(** Together: the default colour of each role is a fixed tone of a fixed palette. *)
Theorem C94_default_colours : forall lm : Libm, pow_defined lm -> pow_accurate (1 / 10 ^ 5) lm ->
  forall (s : dynamic_scheme) (palette : dynamic_scheme -> tonal_palette) (names : list string) (name : string)
    (role : dynamic_color) (light dark : Z),
  feq (ds_contrast_level s) (dec "0.0") = true ->
  In (palette, names) role_palettes -> In name names -> In (name, role) getters ->
  In (name, (light, dark)) (default_tones (ds_variant s)) ->
  ds_get_argb s role = (do h <- tp_get_hct (palette s) (of_Z (if ds_is_dark s then dark else light)); Ok (hct_to_int h)).
Proof. exact (@default_colour). Qed.
Print Assumptions C94_default_colours.

(** The tables leave no role out. *)
Theorem C94_every_role : forall lm : Libm, forall name : string, In name (map fst getters) ->
  (exists palette names, In (palette, names) role_palettes /\ In name names) /\
  (In name key_color_roles \/
   forall v, v <> Fidelity -> v <> Content -> exists light dark, In (name, (light, dark)) (default_tones v)).
Proof. exact (@tables_complete). Qed.
Print Assumptions C94_every_role.

(** Every getter delivers the colour of its own name, and no two have the same name. *)
Theorem C94_names : forall lm : Libm, NoDup (map fst getters) /\ (forall name role, In (name, role) getters -> dc_name role = name) /\
  (forall role, In role all_roles <-> In role (map snd getters)).
Proof. exact (@role_names). Qed.
Print Assumptions C94_names.

Example C94_case : exists name light dark, In (name, (light, dark)) (default_tones (ds_variant (a_scheme Monochrome true (dec "0.0")))) /\
  feq (ds_contrast_level (a_scheme Monochrome true (dec "0.0"))) (dec "0.0") = true /\
  match @tone_of sample_libm (a_scheme Monochrome true (dec "0.0")) name with Ok t => feq t (of_Z dark) | Panic => false end = true.
Proof.
  exists "on_tertiary_container", 100%Z, 0%Z. split; [|split; vm_compute; reflexivity].
  cbn. do 48 right. left. reflexivity.
Qed.
Example C94_surface_case : match @tone_of sample_libm (a_scheme Vibrant true (dec "0.5")) "surface_container_high" with
  Ok t => feq t (of_Z 21) | Panic => false end = true.
Proof. vm_compute. reflexivity. Qed.
