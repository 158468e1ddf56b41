(** * Model of /repo/src/dynamiccolor/dynamic_color.rs and src/tone_delta_pair.rs *)
From Coq Require Import ZArith Bool String List.
From Verif Require Import F64 MathUtils ColorUtils Contrast ViewingConditions Cam16 HctSolver Hct Assoc Palettes DynamicScheme.
Import ListNotations.
Open Scope string_scope.
Open Scope list_scope.
Open Scope f64_scope.

(** The fields of a DynamicColor that [get_tone] reads from the two members of a tone delta pair
    (dynamic_color.rs 13, 15, 19).  A pair in Rust owns two full DynamicColors, and the roles of
    MaterialDynamicColors contain themselves through that field; the model keeps the part that is
    used. *)
Record role_core := {
  rc_name : string;
  rc_tone : dynamic_scheme -> res f64;
  rc_contrast_curve : option contrast_curve
}.

(** tone_delta_pair.rs 4-9: enum TonePolarity. *)
Inductive tone_polarity := Darker | Lighter | Nearer | Farther.
Definition is_nearer p := match p with Nearer => true | _ => false end.
Definition is_lighter p := match p with Lighter => true | _ => false end.
Definition is_darker p := match p with Darker => true | _ => false end.

(** tone_delta_pair.rs 17-23: struct ToneDeltaPair. *)
Record tone_delta_pair := {
  dp_role_a : role_core; dp_role_b : role_core; dp_delta : f64;
  dp_polarity : tone_polarity; dp_stay_together : bool
}.

(** dynamic_color.rs 12-22: struct DynamicColor; [_hct_cache] is passed separately.  Backgrounds are
    well founded: a Rust value whose background chain never ends makes [get_tone] recurse forever. *)
Inductive dynamic_color := DC {
  dc_core : role_core;
  dc_palette : dynamic_scheme -> tonal_palette;
  dc_is_background : bool;
  dc_background : option (dynamic_scheme -> dynamic_color);
  dc_second_background : option (dynamic_scheme -> dynamic_color);
  dc_tone_delta_pair : option (dynamic_scheme -> tone_delta_pair)
}.
Definition dc_name (c : dynamic_color) : string := rc_name (dc_core c).
Definition dc_tone (c : dynamic_color) : dynamic_scheme -> res f64 := rc_tone (dc_core c).
Definition dc_contrast_curve (c : dynamic_color) : option contrast_curve := rc_contrast_curve (dc_core c).

(** dynamic_color.rs 411-413: [tone_prefers_light_foreground]. *)
Definition tone_prefers_light_foreground (tone : f64) : bool := fround tone <? dec "60.0".

(** dynamic_color.rs 417-419: [tone_allows_light_foreground]. *)
Definition tone_allows_light_foreground (tone : f64) : bool := fround tone <=? dec "49.0".

(** dynamic_color.rs 394-399: [enable_light_foreground]. *)
Definition enable_light_foreground (tone : f64) : f64 :=
  if tone_prefers_light_foreground tone && negb (tone_allows_light_foreground tone) then dec "49.0" else tone.

Section WithLibm.
Context {lm : Libm}.

(** dynamic_color.rs 357-390: [foreground_tone]. *)
Definition foreground_tone (bg_tone ratio : f64) : f64 :=
  let lighter_tone := lighter_unsafe bg_tone ratio in
  let darker_tone := darker_unsafe bg_tone ratio in
  let lighter_ratio := ratio_of_tones lighter_tone bg_tone in
  let darker_ratio := ratio_of_tones darker_tone bg_tone in
  if tone_prefers_light_foreground bg_tone then
    let negligible_difference :=
      (fabs (lighter_ratio - darker_ratio) <? dec "0.1") && (lighter_ratio <? ratio) && (darker_ratio <? ratio) in
    if (lighter_ratio >=? ratio) || (lighter_ratio >=? darker_ratio) || negligible_difference
    then lighter_tone else darker_tone
  else
    if (darker_ratio >=? ratio) || (darker_ratio >=? lighter_ratio) then darker_tone else lighter_tone.

(** dynamic_color.rs 186-213: the first round, for one member of the pair. *)
Definition pair_initial (decreasing_contrast : bool) (bg_tone contrast initial_tone : f64) : f64 :=
  let tone := if ratio_of_tones bg_tone initial_tone >=? contrast then initial_tone
              else foreground_tone bg_tone contrast in
  if decreasing_contrast then foreground_tone bg_tone contrast else tone.

(** dynamic_color.rs 214-226: the second and third round. *)
Definition pair_expand (n_tone f_tone delta expansion_dir : f64) : f64 * f64 :=
  if (f_tone - n_tone) * expansion_dir >=? delta then (n_tone, f_tone)
  else
    let f_tone := clamp_double (dec "0.0") (dec "100.0") (n_tone + delta * expansion_dir) in
    if (f_tone - n_tone) * expansion_dir >=? delta then (n_tone, f_tone)
    else (clamp_double (dec "0.0") (dec "100.0") (f_tone - delta * expansion_dir), f_tone).

(** dynamic_color.rs 232-238 and 243-249: moving both tones out of the 50-59 zone. *)
Definition pair_move_both (f_tone delta expansion_dir : f64) : f64 * f64 :=
  if expansion_dir >? dec "0.0" then
    (dec "60.0", fmax f_tone (dec "60.0" + delta * expansion_dir))
  else
    (dec "49.0", fmin f_tone (dec "49.0" + delta * expansion_dir)).

(** dynamic_color.rs 228-258: leaving the awkward zone. *)
Definition pair_awkward (n_tone f_tone delta expansion_dir : f64) (stay_together : bool) : f64 * f64 :=
  if (dec "50.0" <=? n_tone) && (n_tone <? dec "60.0") then pair_move_both f_tone delta expansion_dir
  else if (dec "50.0" <=? f_tone) && (f_tone <? dec "60.0") then
    if stay_together then pair_move_both f_tone delta expansion_dir
    else if expansion_dir >? dec "0.0" then (n_tone, dec "60.0") else (n_tone, dec "49.0")
  else (n_tone, f_tone).

(** dynamic_color.rs 155-261: case 1 of [get_tone], given the tone of the background. *)
Definition pair_tone (s : dynamic_scheme) (self_name : string) (pair : tone_delta_pair) (bg_tone : f64) : res f64 :=
  let decreasing_contrast := ds_contrast_level s <? dec "0.0" in
  let role_a := dp_role_a pair in
  let role_b := dp_role_b pair in
  let delta := dp_delta pair in
  let polarity := dp_polarity pair in
  let a_is_nearer := is_nearer polarity || (is_lighter polarity && negb (ds_is_dark s))
                     || (is_darker polarity && ds_is_dark s) in
  let nearer := if a_is_nearer then role_a else role_b in
  let farther := if a_is_nearer then role_b else role_a in
  let am_nearer := String.eqb self_name (rc_name nearer) in
  let expansion_dir := if ds_is_dark s then dec "1.0" else - dec "1.0" in
  do n_curve <- ok_or_panic (rc_contrast_curve nearer);
  let n_contrast := cc_get n_curve (ds_contrast_level s) in
  do f_curve <- ok_or_panic (rc_contrast_curve farther);
  let f_contrast := cc_get f_curve (ds_contrast_level s) in
  do n_initial_tone <- rc_tone nearer s;
  do f_initial_tone <- rc_tone farther s;
  let n_tone := pair_initial decreasing_contrast bg_tone n_contrast n_initial_tone in
  let f_tone := pair_initial decreasing_contrast bg_tone f_contrast f_initial_tone in
  let '(n_tone, f_tone) := pair_expand n_tone f_tone delta expansion_dir in
  let '(n_tone, f_tone) := pair_awkward n_tone f_tone delta expansion_dir (dp_stay_together pair) in
  Ok (if am_nearer then n_tone else f_tone).

(** dynamic_color.rs 265-294: case 2, given the tone of the background. *)
Definition single_tone (is_background : bool) (answer bg_tone desired_ratio : f64) (decreasing_contrast : bool) : f64 :=
  let answer := if ratio_of_tones bg_tone answer >=? desired_ratio then answer
                else foreground_tone bg_tone desired_ratio in
  let answer := if decreasing_contrast then foreground_tone bg_tone desired_ratio else answer in
  if is_background && (dec "50.0" <=? answer) && (answer <? dec "60.0") then
    if ratio_of_tones (dec "49.0") bg_tone >=? desired_ratio then dec "49.0" else dec "60.0"
  else answer.

(** dynamic_color.rs 304-343: case 3, two backgrounds. *)
Definition dual_tone (answer bg_tone1 bg_tone2 desired_ratio : f64) : f64 :=
  let upper := fmax bg_tone1 bg_tone2 in
  let lower := fmin bg_tone1 bg_tone2 in
  if (ratio_of_tones upper answer >=? desired_ratio) && (ratio_of_tones lower answer >=? desired_ratio)
  then answer
  else
    let light_option := lighter upper desired_ratio in
    let dark_option := darker lower desired_ratio in
    let availables := (if light_option <>? - dec "1.0" then [light_option] else [])
                      ++ (if dark_option <>? - dec "1.0" then [dark_option] else []) in
    let prefers_light := tone_prefers_light_foreground bg_tone1 || tone_prefers_light_foreground bg_tone2 in
    if prefers_light then (if light_option <? dec "0.0" then dec "100.0" else light_option)
    else match availables with
         | [x] => x
         | _ => if dark_option <? dec "0.0" then dec "0.0" else dark_option
         end.

(** dynamic_color.rs 149-349: [get_tone]. *)
Fixpoint get_tone (self : dynamic_color) (s : dynamic_scheme) {struct self} : res f64 :=
  match self with
  | DC core palette is_background background second_background delta_pair =>
      match delta_pair with
      | Some pair_of =>
          match background with
          | None => Panic
          | Some bg =>
              do bg_tone <- get_tone (bg s) s;
              pair_tone s (rc_name core) (pair_of s) bg_tone
          end
      | None =>
          do answer <- rc_tone core s;
          match background with
          | None => Ok answer
          | Some bg =>
              do bg_tone <- get_tone (bg s) s;
              do curve <- ok_or_panic (rc_contrast_curve core);
              let desired_ratio := cc_get curve (ds_contrast_level s) in
              let answer := single_tone is_background answer bg_tone desired_ratio
                              (ds_contrast_level s <? dec "0.0") in
              match second_background with
              | None => Ok answer
              | Some bg2 =>
                  do bg_tone2 <- get_tone (bg2 s) s;
                  Ok (dual_tone answer bg_tone bg_tone2 desired_ratio)
              end
          end
      end
  end.

(** dynamic_color.rs 128: lookup in [_hct_cache]: a stored key is found when it has the same hash and
    is equal (hash collisions between different data are not modelled). *)
Fixpoint cache_find (cache : list (dynamic_scheme * hct)) (s : dynamic_scheme) : res (option hct) :=
  match cache with
  | [] => Ok None
  | (k, v) :: cache' =>
      do h <- ds_same_hash s k;
      do e <- (if h : bool then ds_eqb s k else Ok false);
      if e : bool then Ok (Some v) else cache_find cache' s
  end.

(** dynamic_color.rs 127-141: [get_hct]; [cache] is the state of [_hct_cache]. *)
Definition dc_get_hct (self : dynamic_color) (cache : list (dynamic_scheme * hct)) (s : dynamic_scheme)
    : res (hct * list (dynamic_scheme * hct)) :=
  do cached <- cache_find cache s;
  match cached with
  | Some answer => Ok (answer, cache)
  | None =>
      do tone <- get_tone self s;
      do answer <- tp_get_hct (dc_palette self s) tone;
      let cache := if Nat.ltb 4 (List.length cache) then [] else cache in
      Ok (answer, (s, answer) :: cache)
  end.

(** dynamic_color.rs 117-119: [get_argb]. *)
Definition dc_get_argb (self : dynamic_color) (cache : list (dynamic_scheme * hct)) (s : dynamic_scheme)
    : res (Z * list (dynamic_scheme * hct)) :=
  do r <- dc_get_hct self cache s; Ok (hct_to_int (fst r), snd r).

(** dynamic_scheme.rs 137-142 and the getters 145-306: a fresh DynamicColor, hence an empty cache. *)
Definition ds_get_hct (s : dynamic_scheme) (c : dynamic_color) : res hct :=
  do r <- dc_get_hct c [] s; Ok (fst r).
Definition ds_get_argb (s : dynamic_scheme) (c : dynamic_color) : res Z :=
  do r <- dc_get_argb c [] s; Ok (fst r).
End WithLibm.
