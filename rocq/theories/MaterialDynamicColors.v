(** * Model of /repo/src/dynamiccolor/material_dynamic_colors.rs *)
From Coq Require Import ZArith Bool String List.
From Verif Require Import F64 MathUtils ColorUtils Contrast ViewingConditions Cam16 HctSolver Hct Assoc Palettes DynamicScheme DynamicColor.
Import ListNotations.
Open Scope string_scope.
Open Scope list_scope.
Open Scope f64_scope.

(** material_dynamic_colors.rs 13-18. *)
Definition is_fidelity (s : dynamic_scheme) : bool :=
  variant_eqb (ds_variant s) Fidelity || variant_eqb (ds_variant s) Content.
Definition is_monochrome (s : dynamic_scheme) : bool := variant_eqb (ds_variant s) Monochrome.

Section WithLibm.
Context {lm : Libm}.

(** material_dynamic_colors.rs 988-1005: the loop of [_find_desired_chroma_by_tone].  The Rust loop is
    unbounded; running out of [fuel] yields [Panic], which then stands for not having terminated. *)
Fixpoint desired_chroma_loop (fuel : nat) (hue chroma : f64) (by_decreasing_tone : bool)
    (answer : f64) (closest : hct) (chroma_peak : f64) : res f64 :=
  match fuel with
  | O => Panic
  | S fuel' =>
      if h_chroma closest <? chroma then
        let answer := answer + (if by_decreasing_tone then - dec "1.0" else dec "1.0") in
        do potential <- hct_from hue chroma answer;
        if chroma_peak >? h_chroma potential then Ok answer
        else if fabs (h_chroma potential - chroma) <? dec "0.4" then Ok answer
        else
          let potential_delta := fabs (h_chroma potential - chroma) in
          let current_delta := fabs (h_chroma closest - chroma) in
          let chroma_peak := fmax chroma_peak (h_chroma potential) in
          let closest := if potential_delta <? current_delta then potential else closest in
          desired_chroma_loop fuel' hue chroma by_decreasing_tone answer closest chroma_peak
      else Ok answer
  end.

(** material_dynamic_colors.rs 978-1008: [_find_desired_chroma_by_tone]. *)
Definition find_desired_chroma_by_tone (hue chroma tone : f64) (by_decreasing_tone : bool) : res f64 :=
  do closest <- hct_from hue chroma tone;
  if h_chroma closest <? chroma
  then desired_chroma_loop 1000 hue chroma by_decreasing_tone tone closest (h_chroma closest)
  else Ok tone.

(** material_dynamic_colors.rs 31-42: name, tone and contrast curve of [primary_palette_key_color]. *)
Definition primary_palette_key_color_core : role_core := {|
  rc_name := "primary_palette_key_color";
  rc_tone := fun s =>
    Ok (h_tone (tp_key_color (ds_primary_palette s)));
  rc_contrast_curve := None
|}.

(** material_dynamic_colors.rs 31-42: [primary_palette_key_color]. *)
Definition primary_palette_key_color : dynamic_color :=
  DC primary_palette_key_color_core ds_primary_palette false None None None.

(** material_dynamic_colors.rs 44-55: name, tone and contrast curve of [secondary_palette_key_color]. *)
Definition secondary_palette_key_color_core : role_core := {|
  rc_name := "secondary_palette_key_color";
  rc_tone := fun s =>
    Ok (h_tone (tp_key_color (ds_secondary_palette s)));
  rc_contrast_curve := None
|}.

(** material_dynamic_colors.rs 44-55: [secondary_palette_key_color]. *)
Definition secondary_palette_key_color : dynamic_color :=
  DC secondary_palette_key_color_core ds_secondary_palette false None None None.

(** material_dynamic_colors.rs 57-68: name, tone and contrast curve of [tertiary_palette_key_color]. *)
Definition tertiary_palette_key_color_core : role_core := {|
  rc_name := "tertiary_palette_key_color";
  rc_tone := fun s =>
    Ok (h_tone (tp_key_color (ds_tertiary_palette s)));
  rc_contrast_curve := None
|}.

(** material_dynamic_colors.rs 57-68: [tertiary_palette_key_color]. *)
Definition tertiary_palette_key_color : dynamic_color :=
  DC tertiary_palette_key_color_core ds_tertiary_palette false None None None.

(** material_dynamic_colors.rs 70-81: name, tone and contrast curve of [neutral_palette_key_color]. *)
Definition neutral_palette_key_color_core : role_core := {|
  rc_name := "neutral_palette_key_color";
  rc_tone := fun s =>
    Ok (h_tone (tp_key_color (ds_neutral_palette s)));
  rc_contrast_curve := None
|}.

(** material_dynamic_colors.rs 70-81: [neutral_palette_key_color]. *)
Definition neutral_palette_key_color : dynamic_color :=
  DC neutral_palette_key_color_core ds_neutral_palette false None None None.

(** material_dynamic_colors.rs 83-94: name, tone and contrast curve of [neutral_variant_palette_key_color]. *)
Definition neutral_variant_palette_key_color_core : role_core := {|
  rc_name := "neutral_variant_palette_key_color";
  rc_tone := fun s =>
    Ok (h_tone (tp_key_color (ds_neutral_variant_palette s)));
  rc_contrast_curve := None
|}.

(** material_dynamic_colors.rs 83-94: [neutral_variant_palette_key_color]. *)
Definition neutral_variant_palette_key_color : dynamic_color :=
  DC neutral_variant_palette_key_color_core ds_neutral_variant_palette false None None None.

(** material_dynamic_colors.rs 96-107: name, tone and contrast curve of [background]. *)
Definition background_core : role_core := {|
  rc_name := "background";
  rc_tone := fun s =>
    Ok (if ds_is_dark s then dec "6.0" else dec "98.0");
  rc_contrast_curve := None
|}.

(** material_dynamic_colors.rs 96-107: [background]. *)
Definition background : dynamic_color :=
  DC background_core ds_neutral_palette true None None None.

(** material_dynamic_colors.rs 109-120: name, tone and contrast curve of [on_background]. *)
Definition on_background_core : role_core := {|
  rc_name := "on_background";
  rc_tone := fun s =>
    Ok (if ds_is_dark s then dec "90.0" else dec "10.0");
  rc_contrast_curve := (Some (cc_new (dec "3.0") (dec "3.0") (dec "4.5") (dec "7.0")))
|}.

(** material_dynamic_colors.rs 109-120: [on_background]. *)
Definition on_background : dynamic_color :=
  DC on_background_core ds_neutral_palette false (Some (fun _ => background)) None None.

(** material_dynamic_colors.rs 122-133: name, tone and contrast curve of [surface]. *)
Definition surface_core : role_core := {|
  rc_name := "surface";
  rc_tone := fun s =>
    Ok (if ds_is_dark s then dec "6.0" else dec "98.0");
  rc_contrast_curve := None
|}.

(** material_dynamic_colors.rs 122-133: [surface]. *)
Definition surface : dynamic_color :=
  DC surface_core ds_neutral_palette true None None None.

(** material_dynamic_colors.rs 135-152: name, tone and contrast curve of [surface_dim]. *)
Definition surface_dim_core : role_core := {|
  rc_name := "surface_dim";
  rc_tone := fun s =>
    Ok (if ds_is_dark s then dec "6.0" else cc_get (cc_new (dec "87.0") (dec "87.0") (dec "80.0") (dec "75.0")) (ds_contrast_level s));
  rc_contrast_curve := None
|}.

(** material_dynamic_colors.rs 135-152: [surface_dim]. *)
Definition surface_dim : dynamic_color :=
  DC surface_dim_core ds_neutral_palette true None None None.

(** material_dynamic_colors.rs 154-171: name, tone and contrast curve of [surface_bright]. *)
Definition surface_bright_core : role_core := {|
  rc_name := "surface_bright";
  rc_tone := fun s =>
    Ok (if ds_is_dark s then cc_get (cc_new (dec "24.0") (dec "24.0") (dec "29.0") (dec "34.0")) (ds_contrast_level s) else dec "98.0");
  rc_contrast_curve := None
|}.

(** material_dynamic_colors.rs 154-171: [surface_bright]. *)
Definition surface_bright : dynamic_color :=
  DC surface_bright_core ds_neutral_palette true None None None.

(** material_dynamic_colors.rs 173-190: name, tone and contrast curve of [surface_container_lowest]. *)
Definition surface_container_lowest_core : role_core := {|
  rc_name := "surface_container_lowest";
  rc_tone := fun s =>
    Ok (if ds_is_dark s then cc_get (cc_new (dec "4.0") (dec "4.0") (dec "2.0") (dec "0.0")) (ds_contrast_level s) else dec "100.0");
  rc_contrast_curve := None
|}.

(** material_dynamic_colors.rs 173-190: [surface_container_lowest]. *)
Definition surface_container_lowest : dynamic_color :=
  DC surface_container_lowest_core ds_neutral_palette true None None None.

(** material_dynamic_colors.rs 192-209: name, tone and contrast curve of [surface_container_low]. *)
Definition surface_container_low_core : role_core := {|
  rc_name := "surface_container_low";
  rc_tone := fun s =>
    Ok (if ds_is_dark s then cc_get (cc_new (dec "10.0") (dec "10.0") (dec "11.0") (dec "12.0")) (ds_contrast_level s) else cc_get (cc_new (dec "96.0") (dec "96.0") (dec "96.0") (dec "95.0")) (ds_contrast_level s));
  rc_contrast_curve := None
|}.

(** material_dynamic_colors.rs 192-209: [surface_container_low]. *)
Definition surface_container_low : dynamic_color :=
  DC surface_container_low_core ds_neutral_palette true None None None.

(** material_dynamic_colors.rs 211-228: name, tone and contrast curve of [surface_container]. *)
Definition surface_container_core : role_core := {|
  rc_name := "surface_container";
  rc_tone := fun s =>
    Ok (if ds_is_dark s then cc_get (cc_new (dec "12.0") (dec "12.0") (dec "16.0") (dec "20.0")) (ds_contrast_level s) else cc_get (cc_new (dec "94.0") (dec "94.0") (dec "92.0") (dec "90.0")) (ds_contrast_level s));
  rc_contrast_curve := None
|}.

(** material_dynamic_colors.rs 211-228: [surface_container]. *)
Definition surface_container : dynamic_color :=
  DC surface_container_core ds_neutral_palette true None None None.

(** material_dynamic_colors.rs 230-247: name, tone and contrast curve of [surface_container_high]. *)
Definition surface_container_high_core : role_core := {|
  rc_name := "surface_container_high";
  rc_tone := fun s =>
    Ok (if ds_is_dark s then cc_get (cc_new (dec "17.0") (dec "17.0") (dec "21.0") (dec "25.0")) (ds_contrast_level s) else cc_get (cc_new (dec "92.0") (dec "92.0") (dec "88.0") (dec "85.0")) (ds_contrast_level s));
  rc_contrast_curve := None
|}.

(** material_dynamic_colors.rs 230-247: [surface_container_high]. *)
Definition surface_container_high : dynamic_color :=
  DC surface_container_high_core ds_neutral_palette true None None None.

(** material_dynamic_colors.rs 249-266: name, tone and contrast curve of [surface_container_highest]. *)
Definition surface_container_highest_core : role_core := {|
  rc_name := "surface_container_highest";
  rc_tone := fun s =>
    Ok (if ds_is_dark s then cc_get (cc_new (dec "22.0") (dec "22.0") (dec "26.0") (dec "30.0")) (ds_contrast_level s) else cc_get (cc_new (dec "90.0") (dec "90.0") (dec "84.0") (dec "80.0")) (ds_contrast_level s));
  rc_contrast_curve := None
|}.

(** material_dynamic_colors.rs 249-266: [surface_container_highest]. *)
Definition surface_container_highest : dynamic_color :=
  DC surface_container_highest_core ds_neutral_palette true None None None.

(** material_dynamic_colors.rs 268-279: name, tone and contrast curve of [on_surface]. *)
Definition on_surface_core : role_core := {|
  rc_name := "on_surface";
  rc_tone := fun s =>
    Ok (if ds_is_dark s then dec "90.0" else dec "10.0");
  rc_contrast_curve := (Some (cc_new (dec "4.5") (dec "7.0") (dec "11.0") (dec "21.0")))
|}.

(** material_dynamic_colors.rs 23-29: [highest_surface]. *)
Definition highest_surface (s : dynamic_scheme) : dynamic_color :=
  if ds_is_dark s then surface_bright else surface_dim.

(** material_dynamic_colors.rs 268-279: [on_surface]. *)
Definition on_surface : dynamic_color :=
  DC on_surface_core ds_neutral_palette false (Some highest_surface) None None.

(** material_dynamic_colors.rs 281-292: name, tone and contrast curve of [surface_variant]. *)
Definition surface_variant_core : role_core := {|
  rc_name := "surface_variant";
  rc_tone := fun s =>
    Ok (if ds_is_dark s then dec "30.0" else dec "90.0");
  rc_contrast_curve := None
|}.

(** material_dynamic_colors.rs 281-292: [surface_variant]. *)
Definition surface_variant : dynamic_color :=
  DC surface_variant_core ds_neutral_variant_palette true None None None.

(** material_dynamic_colors.rs 294-305: name, tone and contrast curve of [on_surface_variant]. *)
Definition on_surface_variant_core : role_core := {|
  rc_name := "on_surface_variant";
  rc_tone := fun s =>
    Ok (if ds_is_dark s then dec "80.0" else dec "30.0");
  rc_contrast_curve := (Some (cc_new (dec "3.0") (dec "4.5") (dec "7.0") (dec "11.0")))
|}.

(** material_dynamic_colors.rs 294-305: [on_surface_variant]. *)
Definition on_surface_variant : dynamic_color :=
  DC on_surface_variant_core ds_neutral_variant_palette false (Some highest_surface) None None.

(** material_dynamic_colors.rs 307-318: name, tone and contrast curve of [inverse_surface]. *)
Definition inverse_surface_core : role_core := {|
  rc_name := "inverse_surface";
  rc_tone := fun s =>
    Ok (if ds_is_dark s then dec "90.0" else dec "20.0");
  rc_contrast_curve := None
|}.

(** material_dynamic_colors.rs 307-318: [inverse_surface]. *)
Definition inverse_surface : dynamic_color :=
  DC inverse_surface_core ds_neutral_palette false None None None.

(** material_dynamic_colors.rs 320-331: name, tone and contrast curve of [inverse_on_surface]. *)
Definition inverse_on_surface_core : role_core := {|
  rc_name := "inverse_on_surface";
  rc_tone := fun s =>
    Ok (if ds_is_dark s then dec "20.0" else dec "95.0");
  rc_contrast_curve := (Some (cc_new (dec "4.5") (dec "7.0") (dec "11.0") (dec "21.0")))
|}.

(** material_dynamic_colors.rs 320-331: [inverse_on_surface]. *)
Definition inverse_on_surface : dynamic_color :=
  DC inverse_on_surface_core ds_neutral_palette false (Some (fun _ => inverse_surface)) None None.

(** material_dynamic_colors.rs 333-344: name, tone and contrast curve of [outline]. *)
Definition outline_core : role_core := {|
  rc_name := "outline";
  rc_tone := fun s =>
    Ok (if ds_is_dark s then dec "60.0" else dec "50.0");
  rc_contrast_curve := (Some (cc_new (dec "1.5") (dec "3.0") (dec "4.5") (dec "7.0")))
|}.

(** material_dynamic_colors.rs 333-344: [outline]. *)
Definition outline : dynamic_color :=
  DC outline_core ds_neutral_variant_palette false (Some highest_surface) None None.

(** material_dynamic_colors.rs 346-357: name, tone and contrast curve of [outline_variant]. *)
Definition outline_variant_core : role_core := {|
  rc_name := "outline_variant";
  rc_tone := fun s =>
    Ok (if ds_is_dark s then dec "30.0" else dec "80.0");
  rc_contrast_curve := (Some (cc_new (dec "1.0") (dec "1.0") (dec "3.0") (dec "4.5")))
|}.

(** material_dynamic_colors.rs 346-357: [outline_variant]. *)
Definition outline_variant : dynamic_color :=
  DC outline_variant_core ds_neutral_variant_palette false (Some highest_surface) None None.

(** material_dynamic_colors.rs 359-370: name, tone and contrast curve of [shadow]. *)
Definition shadow_core : role_core := {|
  rc_name := "shadow";
  rc_tone := fun s =>
    Ok (dec "0.0");
  rc_contrast_curve := None
|}.

(** material_dynamic_colors.rs 359-370: [shadow]. *)
Definition shadow : dynamic_color :=
  DC shadow_core ds_neutral_palette false None None None.

(** material_dynamic_colors.rs 372-383: name, tone and contrast curve of [scrim]. *)
Definition scrim_core : role_core := {|
  rc_name := "scrim";
  rc_tone := fun s =>
    Ok (dec "0.0");
  rc_contrast_curve := None
|}.

(** material_dynamic_colors.rs 372-383: [scrim]. *)
Definition scrim : dynamic_color :=
  DC scrim_core ds_neutral_palette false None None None.

(** material_dynamic_colors.rs 385-396: name, tone and contrast curve of [surface_tint]. *)
Definition surface_tint_core : role_core := {|
  rc_name := "surface_tint";
  rc_tone := fun s =>
    Ok (if ds_is_dark s then dec "80.0" else dec "40.0");
  rc_contrast_curve := None
|}.

(** material_dynamic_colors.rs 385-396: [surface_tint]. *)
Definition surface_tint : dynamic_color :=
  DC surface_tint_core ds_primary_palette true None None None.

(** material_dynamic_colors.rs 398-422: name, tone and contrast curve of [primary]. *)
Definition primary_core : role_core := {|
  rc_name := "primary";
  rc_tone := fun s =>
    if is_monochrome s then Ok (if ds_is_dark s then dec "100.0" else dec "0.0") else Ok (if ds_is_dark s then dec "80.0" else dec "40.0");
  rc_contrast_curve := (Some (cc_new (dec "3.0") (dec "4.5") (dec "7.0") (dec "7.0")))
|}.

(** material_dynamic_colors.rs 443-470: name, tone and contrast curve of [primary_container]. *)
Definition primary_container_core : role_core := {|
  rc_name := "primary_container";
  rc_tone := fun s =>
    if is_fidelity s then Ok (h_tone (ds_source_color_hct s))
    else if is_monochrome s then Ok (if ds_is_dark s then dec "85.0" else dec "25.0") else Ok (if ds_is_dark s then dec "30.0" else dec "90.0");
  rc_contrast_curve := (Some (cc_new (dec "1.0") (dec "1.0") (dec "3.0") (dec "4.5")))
|}.

(** material_dynamic_colors.rs 398-422: [primary]. *)
Definition primary : dynamic_color :=
  DC primary_core ds_primary_palette true (Some highest_surface) None (Some (fun _ =>
    {| dp_role_a := primary_container_core; dp_role_b := primary_core; dp_delta := dec "10.0";
       dp_polarity := Nearer; dp_stay_together := false |})).

(** material_dynamic_colors.rs 424-441: name, tone and contrast curve of [on_primary]. *)
Definition on_primary_core : role_core := {|
  rc_name := "on_primary";
  rc_tone := fun s =>
    if is_monochrome s then Ok (if ds_is_dark s then dec "10.0" else dec "90.0") else Ok (if ds_is_dark s then dec "20.0" else dec "100.0");
  rc_contrast_curve := (Some (cc_new (dec "4.5") (dec "7.0") (dec "11.0") (dec "21.0")))
|}.

(** material_dynamic_colors.rs 424-441: [on_primary]. *)
Definition on_primary : dynamic_color :=
  DC on_primary_core ds_primary_palette false (Some (fun _ => primary)) None None.

(** material_dynamic_colors.rs 443-470: [primary_container]. *)
Definition primary_container : dynamic_color :=
  DC primary_container_core ds_primary_palette true (Some highest_surface) None (Some (fun _ =>
    {| dp_role_a := primary_container_core; dp_role_b := primary_core; dp_delta := dec "10.0";
       dp_polarity := Nearer; dp_stay_together := false |})).

(** material_dynamic_colors.rs 472-494: name, tone and contrast curve of [on_primary_container]. *)
Definition on_primary_container_core : role_core := {|
  rc_name := "on_primary_container";
  rc_tone := fun s =>
    if is_fidelity s then (do t <- get_tone primary_container s; Ok (foreground_tone t (dec "4.5")))
    else if is_monochrome s then Ok (if ds_is_dark s then dec "0.0" else dec "100.0") else Ok (if ds_is_dark s then dec "90.0" else dec "10.0");
  rc_contrast_curve := (Some (cc_new (dec "4.5") (dec "7.0") (dec "11.0") (dec "21.0")))
|}.

(** material_dynamic_colors.rs 472-494: [on_primary_container]. *)
Definition on_primary_container : dynamic_color :=
  DC on_primary_container_core ds_primary_palette false (Some (fun _ => primary_container)) None None.

(** material_dynamic_colors.rs 496-507: name, tone and contrast curve of [inverse_primary]. *)
Definition inverse_primary_core : role_core := {|
  rc_name := "inverse_primary";
  rc_tone := fun s =>
    Ok (if ds_is_dark s then dec "40.0" else dec "80.0");
  rc_contrast_curve := (Some (cc_new (dec "3.0") (dec "4.5") (dec "7.0") (dec "7.0")))
|}.

(** material_dynamic_colors.rs 496-507: [inverse_primary]. *)
Definition inverse_primary : dynamic_color :=
  DC inverse_primary_core ds_primary_palette false (Some (fun _ => inverse_surface)) None None.

(** material_dynamic_colors.rs 509-528: name, tone and contrast curve of [secondary]. *)
Definition secondary_core : role_core := {|
  rc_name := "secondary";
  rc_tone := fun s =>
    Ok (if ds_is_dark s then dec "80.0" else dec "40.0");
  rc_contrast_curve := (Some (cc_new (dec "3.0") (dec "4.5") (dec "7.0") (dec "7.0")))
|}.

(** material_dynamic_colors.rs 549-588: name, tone and contrast curve of [secondary_container]. *)
Definition secondary_container_core : role_core := {|
  rc_name := "secondary_container";
  rc_tone := fun s =>
    let initial_tone := if ds_is_dark s then dec "30.0" else dec "90.0" in
    if is_monochrome s then Ok (if ds_is_dark s then dec "30.0" else dec "85.0")
    else if negb (is_fidelity s) then Ok initial_tone
    else find_desired_chroma_by_tone (tp_hue (ds_secondary_palette s)) (tp_chroma (ds_secondary_palette s))
           initial_tone (if ds_is_dark s then false else true);
  rc_contrast_curve := (Some (cc_new (dec "1.0") (dec "1.0") (dec "3.0") (dec "4.5")))
|}.

(** material_dynamic_colors.rs 509-528: [secondary]. *)
Definition secondary : dynamic_color :=
  DC secondary_core ds_secondary_palette true (Some highest_surface) None (Some (fun _ =>
    {| dp_role_a := secondary_container_core; dp_role_b := secondary_core; dp_delta := dec "10.0";
       dp_polarity := Nearer; dp_stay_together := false |})).

(** material_dynamic_colors.rs 530-547: name, tone and contrast curve of [on_secondary]. *)
Definition on_secondary_core : role_core := {|
  rc_name := "on_secondary";
  rc_tone := fun s =>
    if is_monochrome s then Ok (if ds_is_dark s then dec "10.0" else dec "100.0") else Ok (if ds_is_dark s then dec "20.0" else dec "100.0");
  rc_contrast_curve := (Some (cc_new (dec "4.5") (dec "7.0") (dec "11.0") (dec "21.0")))
|}.

(** material_dynamic_colors.rs 530-547: [on_secondary]. *)
Definition on_secondary : dynamic_color :=
  DC on_secondary_core ds_secondary_palette false (Some (fun _ => secondary)) None None.

(** material_dynamic_colors.rs 549-588: [secondary_container]. *)
Definition secondary_container : dynamic_color :=
  DC secondary_container_core ds_secondary_palette true (Some highest_surface) None (Some (fun _ =>
    {| dp_role_a := secondary_container_core; dp_role_b := secondary_core; dp_delta := dec "10.0";
       dp_polarity := Nearer; dp_stay_together := false |})).

(** material_dynamic_colors.rs 590-609: name, tone and contrast curve of [on_secondary_container]. *)
Definition on_secondary_container_core : role_core := {|
  rc_name := "on_secondary_container";
  rc_tone := fun s =>
    if negb (is_fidelity s) then Ok (if ds_is_dark s then dec "90.0" else dec "10.0")
    else (do t <- get_tone secondary_container s; Ok (foreground_tone t (dec "4.5")));
  rc_contrast_curve := (Some (cc_new (dec "4.5") (dec "7.0") (dec "11.0") (dec "21.0")))
|}.

(** material_dynamic_colors.rs 590-609: [on_secondary_container]. *)
Definition on_secondary_container : dynamic_color :=
  DC on_secondary_container_core ds_secondary_palette false (Some (fun _ => secondary_container)) None None.

(** material_dynamic_colors.rs 611-635: name, tone and contrast curve of [tertiary]. *)
Definition tertiary_core : role_core := {|
  rc_name := "tertiary";
  rc_tone := fun s =>
    if is_monochrome s then Ok (if ds_is_dark s then dec "90.0" else dec "25.0") else Ok (if ds_is_dark s then dec "80.0" else dec "40.0");
  rc_contrast_curve := (Some (cc_new (dec "3.0") (dec "4.5") (dec "7.0") (dec "7.0")))
|}.

(** material_dynamic_colors.rs 655-683: name, tone and contrast curve of [tertiary_container]. *)
Definition tertiary_container_core : role_core := {|
  rc_name := "tertiary_container";
  rc_tone := fun s =>
    if is_monochrome s then Ok (if ds_is_dark s then dec "60.0" else dec "49.0")
    else if negb (is_fidelity s) then Ok (if ds_is_dark s then dec "30.0" else dec "90.0")
    else
      do proposed_hct <- tp_get_hct (ds_tertiary_palette s) (h_tone (ds_source_color_hct s));
      do fixed <- fix_if_disliked proposed_hct;
      Ok (h_tone fixed);
  rc_contrast_curve := (Some (cc_new (dec "1.0") (dec "1.0") (dec "3.0") (dec "4.5")))
|}.

(** material_dynamic_colors.rs 611-635: [tertiary]. *)
Definition tertiary : dynamic_color :=
  DC tertiary_core ds_tertiary_palette true (Some highest_surface) None (Some (fun _ =>
    {| dp_role_a := tertiary_container_core; dp_role_b := tertiary_core; dp_delta := dec "10.0";
       dp_polarity := Nearer; dp_stay_together := false |})).

(** material_dynamic_colors.rs 637-653: name, tone and contrast curve of [on_tertiary]. *)
Definition on_tertiary_core : role_core := {|
  rc_name := "on_tertiary";
  rc_tone := fun s =>
    if is_monochrome s then Ok (if ds_is_dark s then dec "10.0" else dec "90.0") else Ok (if ds_is_dark s then dec "20.0" else dec "100.0");
  rc_contrast_curve := (Some (cc_new (dec "4.5") (dec "7.0") (dec "11.0") (dec "21.0")))
|}.

(** material_dynamic_colors.rs 637-653: [on_tertiary]. *)
Definition on_tertiary : dynamic_color :=
  DC on_tertiary_core ds_tertiary_palette false (Some (fun _ => tertiary)) None None.

(** material_dynamic_colors.rs 655-683: [tertiary_container]. *)
Definition tertiary_container : dynamic_color :=
  DC tertiary_container_core ds_tertiary_palette true (Some highest_surface) None (Some (fun _ =>
    {| dp_role_a := tertiary_container_core; dp_role_b := tertiary_core; dp_delta := dec "10.0";
       dp_polarity := Nearer; dp_stay_together := false |})).

(** material_dynamic_colors.rs 685-707: name, tone and contrast curve of [on_tertiary_container]. *)
Definition on_tertiary_container_core : role_core := {|
  rc_name := "on_tertiary_container";
  rc_tone := fun s =>
    if is_monochrome s then Ok (if ds_is_dark s then dec "0.0" else dec "100.0")
    else if negb (is_fidelity s) then Ok (if ds_is_dark s then dec "90.0" else dec "10.0")
    else (do t <- get_tone tertiary_container s; Ok (foreground_tone t (dec "4.5")));
  rc_contrast_curve := (Some (cc_new (dec "4.5") (dec "7.0") (dec "11.0") (dec "21.0")))
|}.

(** material_dynamic_colors.rs 685-707: [on_tertiary_container]. *)
Definition on_tertiary_container : dynamic_color :=
  DC on_tertiary_container_core ds_tertiary_palette false (Some (fun _ => tertiary_container)) None None.

(** material_dynamic_colors.rs 709-728: name, tone and contrast curve of [error]. *)
Definition error_core : role_core := {|
  rc_name := "error";
  rc_tone := fun s =>
    Ok (if ds_is_dark s then dec "80.0" else dec "40.0");
  rc_contrast_curve := (Some (cc_new (dec "3.0") (dec "4.5") (dec "7.0") (dec "7.0")))
|}.

(** material_dynamic_colors.rs 743-762: name, tone and contrast curve of [error_container]. *)
Definition error_container_core : role_core := {|
  rc_name := "error_container";
  rc_tone := fun s =>
    Ok (if ds_is_dark s then dec "30.0" else dec "90.0");
  rc_contrast_curve := (Some (cc_new (dec "1.0") (dec "1.0") (dec "3.0") (dec "4.5")))
|}.

(** material_dynamic_colors.rs 709-728: [error]. *)
Definition error : dynamic_color :=
  DC error_core ds_error_palette true (Some highest_surface) None (Some (fun _ =>
    {| dp_role_a := error_container_core; dp_role_b := error_core; dp_delta := dec "10.0";
       dp_polarity := Nearer; dp_stay_together := false |})).

(** material_dynamic_colors.rs 730-741: name, tone and contrast curve of [on_error]. *)
Definition on_error_core : role_core := {|
  rc_name := "on_error";
  rc_tone := fun s =>
    Ok (if ds_is_dark s then dec "20.0" else dec "100.0");
  rc_contrast_curve := (Some (cc_new (dec "4.5") (dec "7.0") (dec "11.0") (dec "21.0")))
|}.

(** material_dynamic_colors.rs 730-741: [on_error]. *)
Definition on_error : dynamic_color :=
  DC on_error_core ds_error_palette false (Some (fun _ => error)) None None.

(** material_dynamic_colors.rs 743-762: [error_container]. *)
Definition error_container : dynamic_color :=
  DC error_container_core ds_error_palette true (Some highest_surface) None (Some (fun _ =>
    {| dp_role_a := error_container_core; dp_role_b := error_core; dp_delta := dec "10.0";
       dp_polarity := Nearer; dp_stay_together := false |})).

(** material_dynamic_colors.rs 763-774: name, tone and contrast curve of [on_error_container]. *)
Definition on_error_container_core : role_core := {|
  rc_name := "on_error_container";
  rc_tone := fun s =>
    Ok (if ds_is_dark s then dec "90.0" else dec "10.0");
  rc_contrast_curve := (Some (cc_new (dec "4.5") (dec "7.0") (dec "11.0") (dec "21.0")))
|}.

(** material_dynamic_colors.rs 763-774: [on_error_container]. *)
Definition on_error_container : dynamic_color :=
  DC on_error_container_core ds_error_palette false (Some (fun _ => error_container)) None None.

(** material_dynamic_colors.rs 776-795: name, tone and contrast curve of [primary_fixed]. *)
Definition primary_fixed_core : role_core := {|
  rc_name := "primary_fixed";
  rc_tone := fun s =>
    Ok (if is_monochrome s then dec "40.0" else dec "90.0");
  rc_contrast_curve := (Some (cc_new (dec "1.0") (dec "1.0") (dec "3.0") (dec "4.5")))
|}.

(** material_dynamic_colors.rs 797-816: name, tone and contrast curve of [primary_fixed_dim]. *)
Definition primary_fixed_dim_core : role_core := {|
  rc_name := "primary_fixed_dim";
  rc_tone := fun s =>
    Ok (if is_monochrome s then dec "30.0" else dec "80.0");
  rc_contrast_curve := (Some (cc_new (dec "1.0") (dec "1.0") (dec "3.0") (dec "4.5")))
|}.

(** material_dynamic_colors.rs 776-795: [primary_fixed]. *)
Definition primary_fixed : dynamic_color :=
  DC primary_fixed_core ds_primary_palette true (Some highest_surface) None (Some (fun _ =>
    {| dp_role_a := primary_fixed_core; dp_role_b := primary_fixed_dim_core; dp_delta := dec "10.0";
       dp_polarity := Lighter; dp_stay_together := true |})).

(** material_dynamic_colors.rs 797-816: [primary_fixed_dim]. *)
Definition primary_fixed_dim : dynamic_color :=
  DC primary_fixed_dim_core ds_primary_palette true (Some highest_surface) None (Some (fun _ =>
    {| dp_role_a := primary_fixed_core; dp_role_b := primary_fixed_dim_core; dp_delta := dec "10.0";
       dp_polarity := Lighter; dp_stay_together := true |})).

(** material_dynamic_colors.rs 818-829: name, tone and contrast curve of [on_primary_fixed]. *)
Definition on_primary_fixed_core : role_core := {|
  rc_name := "on_primary_fixed";
  rc_tone := fun s =>
    Ok (if is_monochrome s then dec "100.0" else dec "10.0");
  rc_contrast_curve := (Some (cc_new (dec "4.5") (dec "7.0") (dec "11.0") (dec "21.0")))
|}.

(** material_dynamic_colors.rs 818-829: [on_primary_fixed]. *)
Definition on_primary_fixed : dynamic_color :=
  DC on_primary_fixed_core ds_primary_palette false (Some (fun _ => primary_fixed_dim)) (Some (fun _ => primary_fixed)) None.

(** material_dynamic_colors.rs 831-842: name, tone and contrast curve of [on_primary_fixed_variant]. *)
Definition on_primary_fixed_variant_core : role_core := {|
  rc_name := "on_primary_fixed_variant";
  rc_tone := fun s =>
    Ok (if is_monochrome s then dec "90.0" else dec "30.0");
  rc_contrast_curve := (Some (cc_new (dec "3.0") (dec "4.5") (dec "7.0") (dec "11.0")))
|}.

(** material_dynamic_colors.rs 831-842: [on_primary_fixed_variant]. *)
Definition on_primary_fixed_variant : dynamic_color :=
  DC on_primary_fixed_variant_core ds_primary_palette false (Some (fun _ => primary_fixed_dim)) (Some (fun _ => primary_fixed)) None.

(** material_dynamic_colors.rs 844-863: name, tone and contrast curve of [secondary_fixed]. *)
Definition secondary_fixed_core : role_core := {|
  rc_name := "secondary_fixed";
  rc_tone := fun s =>
    Ok (if is_monochrome s then dec "80.0" else dec "90.0");
  rc_contrast_curve := (Some (cc_new (dec "1.0") (dec "1.0") (dec "3.0") (dec "4.5")))
|}.

(** material_dynamic_colors.rs 865-884: name, tone and contrast curve of [secondary_fixed_dim]. *)
Definition secondary_fixed_dim_core : role_core := {|
  rc_name := "secondary_fixed_dim";
  rc_tone := fun s =>
    Ok (if is_monochrome s then dec "70.0" else dec "80.0");
  rc_contrast_curve := (Some (cc_new (dec "1.0") (dec "1.0") (dec "3.0") (dec "4.5")))
|}.

(** material_dynamic_colors.rs 844-863: [secondary_fixed]. *)
Definition secondary_fixed : dynamic_color :=
  DC secondary_fixed_core ds_secondary_palette true (Some highest_surface) None (Some (fun _ =>
    {| dp_role_a := secondary_fixed_core; dp_role_b := secondary_fixed_dim_core; dp_delta := dec "10.0";
       dp_polarity := Lighter; dp_stay_together := true |})).

(** material_dynamic_colors.rs 865-884: [secondary_fixed_dim]. *)
Definition secondary_fixed_dim : dynamic_color :=
  DC secondary_fixed_dim_core ds_secondary_palette true (Some highest_surface) None (Some (fun _ =>
    {| dp_role_a := secondary_fixed_core; dp_role_b := secondary_fixed_dim_core; dp_delta := dec "10.0";
       dp_polarity := Lighter; dp_stay_together := true |})).

(** material_dynamic_colors.rs 886-897: name, tone and contrast curve of [on_secondary_fixed]. *)
Definition on_secondary_fixed_core : role_core := {|
  rc_name := "on_secondary_fixed";
  rc_tone := fun s =>
    Ok (dec "10.0");
  rc_contrast_curve := (Some (cc_new (dec "4.5") (dec "7.0") (dec "11.0") (dec "21.0")))
|}.

(** material_dynamic_colors.rs 886-897: [on_secondary_fixed]. *)
Definition on_secondary_fixed : dynamic_color :=
  DC on_secondary_fixed_core ds_secondary_palette false (Some (fun _ => secondary_fixed_dim)) (Some (fun _ => secondary_fixed)) None.

(** material_dynamic_colors.rs 899-910: name, tone and contrast curve of [on_secondary_fixed_variant]. *)
Definition on_secondary_fixed_variant_core : role_core := {|
  rc_name := "on_secondary_fixed_variant";
  rc_tone := fun s =>
    Ok (if is_monochrome s then dec "25.0" else dec "30.0");
  rc_contrast_curve := (Some (cc_new (dec "3.0") (dec "4.5") (dec "7.0") (dec "11.0")))
|}.

(** material_dynamic_colors.rs 899-910: [on_secondary_fixed_variant]. *)
Definition on_secondary_fixed_variant : dynamic_color :=
  DC on_secondary_fixed_variant_core ds_secondary_palette false (Some (fun _ => secondary_fixed_dim)) (Some (fun _ => secondary_fixed)) None.

(** material_dynamic_colors.rs 912-931: name, tone and contrast curve of [tertiary_fixed]. *)
Definition tertiary_fixed_core : role_core := {|
  rc_name := "tertiary_fixed";
  rc_tone := fun s =>
    Ok (if is_monochrome s then dec "40.0" else dec "90.0");
  rc_contrast_curve := (Some (cc_new (dec "1.0") (dec "1.0") (dec "3.0") (dec "4.5")))
|}.

(** material_dynamic_colors.rs 933-952: name, tone and contrast curve of [tertiary_fixed_dim]. *)
Definition tertiary_fixed_dim_core : role_core := {|
  rc_name := "tertiary_fixed_dim";
  rc_tone := fun s =>
    Ok (if is_monochrome s then dec "30.0" else dec "80.0");
  rc_contrast_curve := (Some (cc_new (dec "1.0") (dec "1.0") (dec "3.0") (dec "4.5")))
|}.

(** material_dynamic_colors.rs 912-931: [tertiary_fixed]. *)
Definition tertiary_fixed : dynamic_color :=
  DC tertiary_fixed_core ds_tertiary_palette true (Some highest_surface) None (Some (fun _ =>
    {| dp_role_a := tertiary_fixed_core; dp_role_b := tertiary_fixed_dim_core; dp_delta := dec "10.0";
       dp_polarity := Lighter; dp_stay_together := true |})).

(** material_dynamic_colors.rs 933-952: [tertiary_fixed_dim]. *)
Definition tertiary_fixed_dim : dynamic_color :=
  DC tertiary_fixed_dim_core ds_tertiary_palette true (Some highest_surface) None (Some (fun _ =>
    {| dp_role_a := tertiary_fixed_core; dp_role_b := tertiary_fixed_dim_core; dp_delta := dec "10.0";
       dp_polarity := Lighter; dp_stay_together := true |})).

(** material_dynamic_colors.rs 954-965: name, tone and contrast curve of [on_tertiary_fixed]. *)
Definition on_tertiary_fixed_core : role_core := {|
  rc_name := "on_tertiary_fixed";
  rc_tone := fun s =>
    Ok (if is_monochrome s then dec "100.0" else dec "10.0");
  rc_contrast_curve := (Some (cc_new (dec "4.5") (dec "7.0") (dec "11.0") (dec "21.0")))
|}.

(** material_dynamic_colors.rs 954-965: [on_tertiary_fixed]. *)
Definition on_tertiary_fixed : dynamic_color :=
  DC on_tertiary_fixed_core ds_tertiary_palette false (Some (fun _ => tertiary_fixed_dim)) (Some (fun _ => tertiary_fixed)) None.

(** material_dynamic_colors.rs 966-977: name, tone and contrast curve of [on_tertiary_fixed_variant]. *)
Definition on_tertiary_fixed_variant_core : role_core := {|
  rc_name := "on_tertiary_fixed_variant";
  rc_tone := fun s =>
    Ok (if is_monochrome s then dec "90.0" else dec "30.0");
  rc_contrast_curve := (Some (cc_new (dec "3.0") (dec "4.5") (dec "7.0") (dec "11.0")))
|}.

(** material_dynamic_colors.rs 966-977: [on_tertiary_fixed_variant]. *)
Definition on_tertiary_fixed_variant : dynamic_color :=
  DC on_tertiary_fixed_variant_core ds_tertiary_palette false (Some (fun _ => tertiary_fixed_dim)) (Some (fun _ => tertiary_fixed)) None.

(** All roles in the order of the source file. *)
Definition all_roles : list dynamic_color :=
  [ primary_palette_key_color;
    secondary_palette_key_color;
    tertiary_palette_key_color;
    neutral_palette_key_color;
    neutral_variant_palette_key_color;
    background;
    on_background;
    surface;
    surface_dim;
    surface_bright;
    surface_container_lowest;
    surface_container_low;
    surface_container;
    surface_container_high;
    surface_container_highest;
    on_surface;
    surface_variant;
    on_surface_variant;
    inverse_surface;
    inverse_on_surface;
    outline;
    outline_variant;
    shadow;
    scrim;
    surface_tint;
    primary;
    on_primary;
    primary_container;
    on_primary_container;
    inverse_primary;
    secondary;
    on_secondary;
    secondary_container;
    on_secondary_container;
    tertiary;
    on_tertiary;
    tertiary_container;
    on_tertiary_container;
    error;
    on_error;
    error_container;
    on_error_container;
    primary_fixed;
    primary_fixed_dim;
    on_primary_fixed;
    on_primary_fixed_variant;
    secondary_fixed;
    secondary_fixed_dim;
    on_secondary_fixed;
    on_secondary_fixed_variant;
    tertiary_fixed;
    tertiary_fixed_dim;
    on_tertiary_fixed;
    on_tertiary_fixed_variant ].

(** dynamic_scheme.rs 145-306: the getters [get_X] of DynamicScheme, with the role each one evaluates. *)
Definition getters : list (string * dynamic_color) :=
  [ ("primary_palette_key_color", primary_palette_key_color);
    ("secondary_palette_key_color", secondary_palette_key_color);
    ("tertiary_palette_key_color", tertiary_palette_key_color);
    ("neutral_palette_key_color", neutral_palette_key_color);
    ("neutral_variant_palette_key_color", neutral_variant_palette_key_color);
    ("background", background);
    ("on_background", on_background);
    ("surface", surface);
    ("surface_dim", surface_dim);
    ("surface_bright", surface_bright);
    ("surface_container_lowest", surface_container_lowest);
    ("surface_container_low", surface_container_low);
    ("surface_container", surface_container);
    ("surface_container_high", surface_container_high);
    ("surface_container_highest", surface_container_highest);
    ("on_surface", on_surface);
    ("surface_variant", surface_variant);
    ("on_surface_variant", on_surface_variant);
    ("inverse_surface", inverse_surface);
    ("inverse_on_surface", inverse_on_surface);
    ("outline", outline);
    ("outline_variant", outline_variant);
    ("shadow", shadow);
    ("scrim", scrim);
    ("surface_tint", surface_tint);
    ("primary", primary);
    ("on_primary", on_primary);
    ("primary_container", primary_container);
    ("on_primary_container", on_primary_container);
    ("inverse_primary", inverse_primary);
    ("secondary", secondary);
    ("on_secondary", on_secondary);
    ("secondary_container", secondary_container);
    ("on_secondary_container", on_secondary_container);
    ("tertiary", tertiary);
    ("on_tertiary", on_tertiary);
    ("tertiary_container", tertiary_container);
    ("on_tertiary_container", on_tertiary_container);
    ("error", error);
    ("on_error", on_error);
    ("error_container", error_container);
    ("on_error_container", on_error_container);
    ("primary_fixed", primary_fixed);
    ("primary_fixed_dim", primary_fixed_dim);
    ("on_primary_fixed", on_primary_fixed);
    ("on_primary_fixed_variant", on_primary_fixed_variant);
    ("secondary_fixed", secondary_fixed);
    ("secondary_fixed_dim", secondary_fixed_dim);
    ("on_secondary_fixed", on_secondary_fixed);
    ("on_secondary_fixed_variant", on_secondary_fixed_variant);
    ("tertiary_fixed", tertiary_fixed);
    ("tertiary_fixed_dim", tertiary_fixed_dim);
    ("on_tertiary_fixed", on_tertiary_fixed);
    ("on_tertiary_fixed_variant", on_tertiary_fixed_variant) ].
End WithLibm.
