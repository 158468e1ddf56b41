(** * Property theorems: DynamicColor cache, scheme equality, rotated hues, scheme constructors. *)
From Coq Require Import ZArith Bool Reals List String Lia.
From Flocq Require Import Core IEEE754.BinarySingleNaN.
From Verif Require Import F64 MathUtils ColorUtils Hct Palettes DynamicScheme DynamicColor MaterialDynamicColors
  Temperature Schemes Spec SpecPalette SpecScheme SampleLibm PfPalettes PfScheme.
Import ListNotations.
Open Scope string_scope.
Open Scope list_scope.
Open Scope Z_scope.

(** C65.  [answers] and [uncached] are histories of [get_hct] calls (SpecScheme.v). *)
Theorem C65_cache_bounded_and_sound : forall (lm : Libm) (role : dynamic_color) (ss : list dynamic_scheme)
    (hs : list hct) (cache : list (dynamic_scheme * hct)),
  answers role [] ss = Ok (hs, cache) ->
  (List.length cache <= 5)%nat /\ List.length hs = List.length ss /\
  forall i s h, nth_error ss i = Some s -> nth_error hs i = Some h ->
    exists j s', (j <= i)%nat /\ nth_error ss j = Some s' /\ uncached role s' = Ok h /\
      (j = i \/ ds_eqb s s' = Ok true).
Proof. exact (fun lm => cache_theorem). Qed.
Print Assumptions C65_cache_bounded_and_sound.

Example C65_case : exists (lm : Libm) role s s' hs cache, answers role [] [s; s'] = Ok (hs, cache).
Proof. destruct too_coarse as (lm & s & s' & a & b & cache & H). exists lm, surface_dim, s, s', [a; a], cache. apply H. Qed.

(** C66 *)
Theorem C66_reading_a_palette_keeps_equality : forall (lm : Libm) (s s' : dynamic_scheme),
  plain_scheme s -> read_from s s' -> ds_eqb s s' = Ok true /\ ds_same_hash s s' = Ok true.
Proof. exact (fun lm => read_equal). Qed.
Print Assumptions C66_reading_a_palette_keeps_equality.

(** What two schemes that compare equal have in common. *)
Theorem C66_equal_schemes_agree : forall (lm : Libm) (s s' : dynamic_scheme), ds_eqb s s' = Ok true ->
  ds_source_color_argb s = ds_source_color_argb s' /\ h_argb (ds_source_color_hct s) = h_argb (ds_source_color_hct s') /\
  ds_variant s = ds_variant s' /\ ds_is_dark s = ds_is_dark s' /\ feq (ds_contrast_level s) (ds_contrast_level s') = true /\
  tp_eqb (ds_primary_palette s) (ds_primary_palette s') = Ok true /\
  tp_eqb (ds_secondary_palette s) (ds_secondary_palette s') = Ok true /\
  tp_eqb (ds_tertiary_palette s) (ds_tertiary_palette s') = Ok true /\
  tp_eqb (ds_neutral_palette s) (ds_neutral_palette s') = Ok true /\
  tp_eqb (ds_neutral_variant_palette s) (ds_neutral_variant_palette s') = Ok true /\
  tp_eqb (ds_error_palette s) (ds_error_palette s') = Ok true.
Proof. exact (fun lm => equal_means). Qed.
Print Assumptions C66_equal_schemes_agree.
(** [C66_equality_too_coarse] shows two different schemes that compare equal. *)

Theorem C66_equal_schemes_share_the_cached_answer : forall (lm : Libm) (role : dynamic_color) (s s' : dynamic_scheme)
    (h : hct) (cache : list (dynamic_scheme * hct)),
  dc_get_hct role [] s = Ok (h, cache) -> ds_same_hash s' s = Ok true -> ds_eqb s' s = Ok true ->
  dc_get_hct role cache s' = Ok (h, cache).
Proof. exact (fun lm => stale). Qed.
Print Assumptions C66_equal_schemes_share_the_cached_answer.

Theorem C66_equality_too_coarse : exists (lm : Libm) (s s' : dynamic_scheme) (a b : hct)
    (cache : list (dynamic_scheme * hct)),
  ds_eqb s s' = Ok true /\ ds_same_hash s s' = Ok true /\
  uncached surface_dim s = Ok a /\ uncached surface_dim s' = Ok b /\ hct_to_int a <> hct_to_int b /\
  answers surface_dim [] [s; s'] = Ok ([a; a], cache).
Proof. exact too_coarse. Qed.
Print Assumptions C66_equality_too_coarse.
(** A scheme before and after one of its palettes is read. *)
Example C66_case : exists (s s' : dynamic_scheme), plain_scheme s /\ @read_from sample_libm s s' /\
  tp_cache (ds_neutral_palette s) = [] /\ tp_cache (ds_neutral_palette s') <> [].
Proof.
  destruct stale_case as (h & c & p & _ & G & Q). unfold stale_check in Q.
  destruct (uncached surface_dim (scheme_with h (tp_from_hct h))); [|discriminate Q].
  destruct (uncached surface_dim (scheme_with h p)); [|discriminate Q].
  rewrite !andb_true_iff, !negb_true_iff in Q. destruct Q as ((_ & Q2) & Q3).
  exists (scheme_with h (tp_from_hct h)), (scheme_with h p). split; [|split; [|split; [reflexivity|]]].
  - split; [vm_compute; reflexivity|]. intros sel I.
    repeat (destruct I as [<-|I]; [split; [reflexivity|split; assumption]|]). destruct I.
  - repeat (split; [reflexivity|]). intros sel I.
    repeat (destruct I as [<-|I]; [first [exists (@nil Z); reflexivity | exists [83]; cbn [after_gets scheme_with ds_neutral_palette]; rewrite G; reflexivity]|]).
    destruct I.
  - unfold tp_get in G. cbn [tp_from_hct tp_cache Assoc.afind] in G.
    destruct (hct_from _ _ _) as [x|]; [|discriminate G]. injection G as _ <-. discriminate.
Qed.

(** C67 *)
Theorem C67_band : forall (src : hct) (hues rotations : list f64) (i : nat) (lo hi r : f64),
  List.length hues = List.length rotations ->
  nth_error hues i = Some lo -> nth_error hues (S i) = Some hi -> nth_error rotations i = Some r ->
  flt lo (h_hue src) = true -> flt (h_hue src) hi = true ->
  (forall j lo' hi', (j < i)%nat -> nth_error hues j = Some lo' -> nth_error hues (S j) = Some hi' ->
     flt lo' (h_hue src) = false \/ flt (h_hue src) hi' = false) ->
  get_rotated_hue src hues rotations = Ok (sanitize_degrees_double (fadd (h_hue src) r)).
Proof. exact rotated_band. Qed.
Print Assumptions C67_band.

Theorem C67_breakpoints_unrotated : forall (src : hct) (hues rotations : list f64) (k : nat),
  List.length hues = List.length rotations -> List.length hues <> 1%nat ->
  (forall j a b, nth_error hues j = Some a -> nth_error hues (S j) = Some b -> flt a b = true) ->
  nth_error hues k = Some (h_hue src) ->
  get_rotated_hue src hues rotations = Ok (h_hue src).
Proof. exact rotated_breakpoint. Qed.
Print Assumptions C67_breakpoints_unrotated.

Theorem C67_outside_every_band : forall (src : hct) (hues rotations : list f64),
  List.length hues = List.length rotations -> List.length hues <> 1%nat ->
  (forall j lo' hi', nth_error hues j = Some lo' -> nth_error hues (S j) = Some hi' ->
     flt lo' (h_hue src) = false \/ flt (h_hue src) hi' = false) ->
  get_rotated_hue src hues rotations = Ok (h_hue src).
Proof. exact rotated_none. Qed.
Print Assumptions C67_outside_every_band.

Theorem C67_single_and_mismatch : forall (src : hct),
  (forall x r, get_rotated_hue src [x] [r] = Ok (sanitize_degrees_double (fadd (h_hue src) r))) /\
  (forall hues rotations, List.length hues <> List.length rotations -> get_rotated_hue src hues rotations = Panic).
Proof. exact (fun src => conj (rotated_one src) (rotated_panics src)). Qed.
Print Assumptions C67_single_and_mismatch.
Definition hue_only (h : f64) : hct := {| h_hue := h; h_chroma := dec "1.0"; h_tone := dec "1.0"; h_argb := 0 |}.
(** Hue 100 in the second band [41, 200], and exactly at 41. *)
Example C67_case :
  let hues := [dec "0.0"; dec "41.0"; dec "200.0"] in
  flt (dec "41.0") (h_hue (hue_only (dec "100.0"))) = true /\ flt (h_hue (hue_only (dec "100.0"))) (dec "200.0") = true /\
  nth_error hues 1 = Some (h_hue (hue_only (dec "41.0"))) /\
  forall j a b, nth_error hues j = Some a -> nth_error hues (S j) = Some b -> flt a b = true.
Proof.
  cbv zeta. split; [vm_compute; reflexivity|]. split; [vm_compute; reflexivity|]. split; [reflexivity|].
  intros [|[|[|j]]] a b A B; cbn [nth_error] in A, B; try discriminate; injection A as <-; injection B as <-; vm_compute; reflexivity.
Qed.

(** C68.  The table [documented] is in SpecScheme.v. *)
Theorem C68_documented_palettes : forall (lm : Libm) (v : variant) (source : hct) (dark : bool) (level : f64) (s : dynamic_scheme),
  construct v source dark level = Ok s -> v <> Content -> v <> Fidelity ->
  Forall2 (fun entry palette => exists hue, fst entry = Ok hue /\ tp_of hue (of_Z (snd entry)) = Ok palette)
    (documented v source) (five s).
Proof. exact (fun lm => documented_ok). Qed.
Print Assumptions C68_documented_palettes.

Theorem C68_common_fields : forall (lm : Libm) (v : variant) (source : hct) (dark : bool) (level : f64) (s : dynamic_scheme),
  construct v source dark level = Ok s ->
  ds_source_color_argb s = hct_to_int source /\ hct_from_int (hct_to_int source) = Ok (ds_source_color_hct s) /\
  ds_variant s = v /\ ds_is_dark s = dark /\ ds_contrast_level s = level /\
  tp_of (of_Z 25) (of_Z 84) = Ok (ds_error_palette s).
Proof. exact (fun lm => construct_fields). Qed.
Print Assumptions C68_common_fields.

Theorem C68_content : forall (lm : Libm) (source : hct) (dark : bool) (level : f64) (s : dynamic_scheme),
  construct Content source dark level = Ok s ->
  tp_of (h_hue source) (h_chroma source) = Ok (ds_primary_palette s) /\
  tp_of (h_hue source) (fmax (fsub (h_chroma source) (dec "32.0")) (fmul (h_chroma source) (dec "0.5"))) = Ok (ds_secondary_palette s) /\
  (exists l c a f, analogous (tc_new source) (Some 3) (Some 6) = Ok (l, c) /\ nth_error l (List.length l - 1) = Some a /\
     fix_if_disliked a = Ok f /\ ds_tertiary_palette s = tp_from_hct f) /\
  tp_of (h_hue source) (fdiv (h_chroma source) (dec "8.0")) = Ok (ds_neutral_palette s) /\
  tp_of (h_hue source) (fadd (fdiv (h_chroma source) (dec "8.0")) (dec "4.0")) = Ok (ds_neutral_variant_palette s).
Proof. exact (fun lm => content_ok). Qed.
Print Assumptions C68_content.

Theorem C68_fidelity : forall (lm : Libm) (source : hct) (dark : bool) (level : f64) (s : dynamic_scheme),
  construct Fidelity source dark level = Ok s ->
  tp_of (h_hue source) (h_chroma source) = Ok (ds_primary_palette s) /\
  tp_of (h_hue source) (fmax (fsub (h_chroma source) (dec "32.0")) (fmul (h_chroma source) (dec "0.5"))) = Ok (ds_secondary_palette s) /\
  (exists a c f, get_complement (tc_new source) = Ok (a, c) /\
     fix_if_disliked a = Ok f /\ ds_tertiary_palette s = tp_from_hct f) /\
  tp_of (h_hue source) (fdiv (h_chroma source) (dec "8.0")) = Ok (ds_neutral_palette s) /\
  tp_of (h_hue source) (fadd (fdiv (h_chroma source) (dec "8.0")) (dec "4.0")) = Ok (ds_neutral_variant_palette s).
Proof. exact (fun lm => fidelity_ok). Qed.
Print Assumptions C68_fidelity.
Example C68_case : match purple with
  | Ok h => match @construct sample_libm FruitSalad h true (dec "0.5") with
            | Ok s => ds_is_dark s && negb (feq (tp_hue (ds_primary_palette s)) (h_hue h)) | Panic => false end
  | Panic => false end = true.
Proof. vm_compute. reflexivity. Qed.

(** C69 *)
Theorem C69_monochrome_is_grey : forall (lm : Libm) (source : hct) (dark : bool) (level : f64) (s : dynamic_scheme)
    (role : dynamic_color) (c : Z),
  construct Monochrome source dark level = Ok s -> In role all_roles ->
  ~ In (dc_name role) ["error"; "on_error"; "error_container"; "on_error_container"] ->
  ds_get_argb s role = Ok c -> is_grey c.
Proof. exact (fun lm => monochrome_grey). Qed.
Print Assumptions C69_monochrome_is_grey.
(** Any libm will do: this one treats greys as colourless, so that their key colour is found at once,
    which keeps the computation short. *)
Definition quiet_libm : Libm := {|
  powf := fun x y => if feq y (dec "0.9") && flt x (dec "10.0") then dec "0.0" else sample_pow x y;
  expf := sample_exp; lnf := sample_ln; sinf := sample_sin; cosf := sample_cos; atan2f := sample_atan2 |}.
Example C69_case : match @construct quiet_libm Monochrome (hue_only (dec "120.0")) true (dec "0.5") with
  | Ok s => match @ds_get_argb quiet_libm s primary_container with
            | Ok c => Z.ltb 0xFF101010 c && Z.ltb c 0xFFF0F0F0 | Panic => false end
  | Panic => false end = true.
Proof. vm_compute. reflexivity. Qed.
