(** * Property theorems: tonal palettes, core palettes, legacy schemes. *)
From Coq Require Import ZArith Bool Reals List String.
From Flocq Require Import Core IEEE754.BinarySingleNaN.
From Verif Require Import F64 Cam16 Hct Palettes LegacyScheme Spec SpecPalette SampleLibm RefLibm PfPalettes PfToneCase.
Import ListNotations.
Open Scope string_scope.
Open Scope list_scope.
Open Scope Z_scope.

(** C34, after any history of [get] calls too. *)
Theorem C34_list_round_trip : forall (lm : Libm) (l : list Z) (p : tonal_palette) (ts : list Z) (p1 : tonal_palette),
  tp_from_list l = Ok p -> after_gets p ts = Ok p1 -> exists p', tp_get_as_list p1 = Ok (l, p').
Proof. exact (fun lm => list_roundtrip). Qed.
Print Assumptions C34_list_round_trip.

Theorem C34_other_lengths_panic : forall (lm : Libm) (l : list Z),
  List.length l <> 13%nat -> tp_from_list l = Panic.
Proof. exact (fun lm => from_list_panics). Qed.
Print Assumptions C34_other_lengths_panic.
(** Thirteen different numbers, one of them negative. *)
Definition some_list : list Z :=
  [0xFF000000; 0xFF6750A4; 1; 2; 3; 0xFF6750A3; 0xFF6750A5; 7; -8; 9; 10; 11; 0xFFFFFFFF].
Lemma some_list_loads : exists p, @tp_from_list sample_libm some_list = Ok p.
Proof.
  destruct (checked (@tp_from_list sample_libm some_list) (fun _ => true)) as (p & H & _); [vm_compute; reflexivity|].
  now exists p.
Qed.
Example C34_case : exists p p', @tp_from_list sample_libm some_list = Ok p /\
  @after_gets sample_libm p [40; 0; 100; 40] = Ok p' .
Proof.
  destruct some_list_loads as (p & H). exists p, p. split; [exact H|].
  apply (@list_gets sample_libm some_list p _ H). simpl. intuition.
Qed.

(** C35 *)
Theorem C35_of : forall (lm : Libm) (hue chroma : f64) (ts : list Z) (p p' : tonal_palette) (t : Z),
  tp_of hue chroma = Ok p -> after_gets p ts = Ok p' ->
  rmap fst (tp_get p' t) = rmap hct_to_int (hct_from hue chroma (of_Z t)).
Proof. exact (fun lm => of_history). Qed.
Print Assumptions C35_of.

Theorem C35_from_hct : forall (lm : Libm) (h : hct) (ts : list Z) (p' : tonal_palette) (t : Z),
  after_gets (tp_from_hct h) ts = Ok p' ->
  rmap fst (tp_get p' t) = rmap hct_to_int (hct_from (h_hue h) (h_chroma h) (of_Z t)).
Proof. exact (fun lm => from_hct_history). Qed.
Print Assumptions C35_from_hct.

Theorem C35_from_list : forall (lm : Libm) (l ts : list Z) (p p' : tonal_palette),
  tp_from_list l = Ok p -> after_gets p ts = Ok p' ->
  (forall i t c, nth_error common_tones i = Some t -> nth_error l i = Some c -> rmap fst (tp_get p' t) = Ok c) /\
  (forall t, ~ In t common_tones ->
     rmap fst (tp_get p' t) = rmap hct_to_int (hct_from (tp_hue p) (tp_chroma p) (of_Z t))).
Proof. exact (fun lm => list_history). Qed.
Print Assumptions C35_from_list.
(** The hue and chroma of a palette built from a list are those of the first colour of greatest chroma among the colours whose
    tone is at most 98, and zero when none of these has a positive chroma. *)
Theorem C35_from_list_source : forall (lm : Libm) (l : list Z) (p : tonal_palette), tp_from_list l = Ok p ->
  (tp_hue p = dec "0.0" /\ tp_chroma p = dec "0.0" /\
   forall y k, In y l -> hct_from_int y = Ok k -> flt (dec "98.0") (h_tone k) = true \/ flt (dec "0.0") (h_chroma k) = false) \/
  (exists before x after k, l = before ++ x :: after /\ hct_from_int x = Ok k /\ flt (dec "98.0") (h_tone k) = false /\
     tp_hue p = h_hue k /\ tp_chroma p = h_chroma k /\ flt (dec "0.0") (h_chroma k) = true /\
     (forall y k', In y before -> hct_from_int y = Ok k' -> flt (dec "98.0") (h_tone k') = true \/ fle (h_chroma k) (h_chroma k') = false) /\
     (forall y k', In y after -> hct_from_int y = Ok k' -> flt (dec "98.0") (h_tone k') = true \/ flt (h_chroma k) (h_chroma k') = false)).
Proof. exact (fun lm => from_list_source). Qed.
Print Assumptions C35_from_list_source.
Example C35_case : match @hct_from_int sample_libm 0xFFFF0000 with
  | Ok h => match @after_gets sample_libm (tp_from_hct h) [40; 90; 40] with
            | Ok p => Nat.eqb (List.length (tp_cache p)) 2 | Panic => false end
  | Panic => false end = true.
Proof. vm_compute. reflexivity. Qed.

(** C36 *)
Theorem C36_untouched : forall (lm : Libm) (p : tonal_palette) (t : f64),
  (exists hue chroma, tp_of hue chroma = Ok p) \/ (exists h, p = tp_from_hct h) ->
  tp_get_hct p t = hct_from (tp_hue p) (tp_chroma p) t.
Proof. exact (fun lm => get_hct_untouched). Qed.
Print Assumptions C36_untouched.

Theorem C36_after_get : forall (lm : Libm) (p : tonal_palette) (k c : Z) (p1 : tonal_palette) (ts : list Z)
    (p2 : tonal_palette) (t : f64),
  tp_get p k = Ok (c, p1) -> after_gets p1 ts = Ok p2 -> to_i64 t = k -> tp_get_hct p2 t = hct_from_int c.
Proof. exact (fun lm => get_hct_after). Qed.
Print Assumptions C36_after_get.

Theorem C36_other_tones_unaffected : forall (lm : Libm) (p : tonal_palette) (ts : list Z) (p' : tonal_palette) (t : f64),
  (exists hue chroma, tp_of hue chroma = Ok p) \/ (exists h, p = tp_from_hct h) ->
  after_gets p ts = Ok p' -> ~ In (to_i64 t) ts ->
  tp_get_hct p' t = hct_from (tp_hue p) (tp_chroma p) t.
Proof. exact (fun lm => get_hct_other). Qed.
Print Assumptions C36_other_tones_unaffected.
(** The two answers differ: tone 40.9 of pure red's palette, before and after [get(40)]. *)
Example C36_history_dependence : match @hct_from_int sample_libm 0xFFFF0000 with
  | Ok h => match @tp_get_hct sample_libm (tp_from_hct h) (dec "40.9"), @tp_get sample_libm (tp_from_hct h) 40 with
            | Ok a, Ok (_, p) => match @tp_get_hct sample_libm p (dec "40.9") with
                                 | Ok b => negb (Z.eqb (hct_to_int a) (hct_to_int b)) && Z.eqb (to_i64 (dec "40.9")) 40
                                 | Panic => false end
            | _, _ => false end
  | Panic => false end = true.
Proof. vm_compute. reflexivity. Qed.

(** C37.  [Panic] in a comparison can only come from generating a colour. *)
Theorem C37_symmetric : forall (lm : Libm) (a b : tonal_palette), tp_eqb a b = tp_eqb b a.
Proof. exact (fun lm => eqb_sym). Qed.
Print Assumptions C37_symmetric.

Theorem C37_reflexive_unless_nan : forall (lm : Libm) (p : tonal_palette),
  (tp_is_from_cache p = false ->
     (tp_eqb p p = Ok true <-> is_nan (tp_hue p) = false /\ is_nan (tp_chroma p) = false)) /\
  (tp_is_from_cache p = true -> forall l p', tp_get_as_list p = Ok (l, p') -> tp_eqb p p = Ok true).
Proof. exact (fun lm p => conj (eqb_refl_plain p) (fun e l p' => eqb_refl_list p l p' e)). Qed.
Print Assumptions C37_reflexive_unless_nan.

Theorem C37_meaning : forall (lm : Libm) (a b : tonal_palette),
  (tp_is_from_cache a = false -> tp_is_from_cache b = false ->
    (tp_eqb a b = Ok true <-> feq (tp_hue a) (tp_hue b) = true /\ feq (tp_chroma a) (tp_chroma b) = true)) /\
  (forall la lb pa pb, (tp_is_from_cache a || tp_is_from_cache b)%bool = true ->
    tp_get_as_list a = Ok (la, pa) -> tp_get_as_list b = Ok (lb, pb) -> (tp_eqb a b = Ok true <-> la = lb)).
Proof. exact (fun lm a b => conj (eqb_plain_iff a b) (eqb_list_iff a b)). Qed.
Print Assumptions C37_meaning.

Theorem C37_not_transitive_and_hash_disagrees : forall (lm : Libm) (a b : tonal_palette) (l : list Z) (pa : tonal_palette),
  tp_of (dec "10.0") (dec "0.0") = Ok a -> tp_get_as_list a = Ok (l, pa) -> tp_from_list l = Ok b ->
  exists c, tp_of (dec "20.0") (dec "0.0") = Ok c /\
  tp_eqb a b = Ok true /\ tp_eqb b c = Ok true /\ tp_eqb a c = Ok false /\
  tp_hash a = Ok (HashHueChroma (dec "10.0") (dec "0.0")) /\ tp_hash b = Ok (HashList l).
Proof. exact (fun lm => not_transitive'). Qed.
Print Assumptions C37_not_transitive_and_hash_disagrees.
(** Any libm will do: with this one the key colour of a grey palette is found at once, which keeps the
    computation short. *)
Definition grey_libm : Libm := {|
  powf := fun x y => if feq y (dec "0.9") then dec "0.0" else x; expf := fun _ => dec "1.0"; lnf := fun _ => dec "1.0";
  sinf := fun _ => dec "0.5"; cosf := fun _ => dec "0.5"; atan2f := fun _ _ => dec "1.0" |}.
Example C37_case : match @tp_of grey_libm (dec "10.0") (dec "0.0") with
  | Ok a => match @tp_get_as_list grey_libm a with
      | Ok (l, _) => match @tp_from_list grey_libm l with Ok b => negb (Z.eqb (nth 3 l 0) (nth 6 l 0)) | Panic => false end
      | Panic => false end
  | Panic => false end = true.
Proof. vm_compute. reflexivity. Qed.

(** C38 *)
Theorem C38_key_color : forall (lm : Libm) (hue chroma : f64) (key : hct), create_key_color hue chroma = Ok key ->
  (exists t, 1 <= t <= 99 /\ hct_from hue chroma (of_Z t) = Ok key) /\
  (feq (fround chroma) (fround (h_chroma key)) = true \/
   forall t, 1 <= t <= 99 -> exists h, hct_from hue chroma (of_Z t) = Ok h /\
     flt (fabs (fsub (h_chroma h) chroma)) (fabs (fsub (h_chroma key) chroma)) = false).
Proof. exact (fun lm => key_color). Qed.
Print Assumptions C38_key_color.
Example C38_case : match @create_key_color sample_libm (dec "27.0") (dec "102.0") with
  | Ok h => feq (fround (h_chroma h)) (dec "102.0") | Panic => false end = true.
Proof. vm_compute. reflexivity. Qed.

(** C39 *)
Theorem C39_core_list_round_trip : forall (lm : Libm) (l : list Z) (c : core_palette),
  cp_from_list l = Ok c -> exists c', cp_as_list c = Ok (l, c').
Proof. exact (fun lm => cp_roundtrip). Qed.
Print Assumptions C39_core_list_round_trip.

Theorem C39_other_lengths_panic : forall (lm : Libm) (l : list Z), List.length l <> 65%nat -> cp_from_list l = Panic.
Proof. exact (fun lm => cp_from_list_panics). Qed.
Print Assumptions C39_other_lengths_panic.

Theorem C39_as_list_has_65_entries : forall (lm : Libm) (c : core_palette) (l : list Z) (c' : core_palette),
  cp_as_list c = Ok (l, c') -> List.length l = 65%nat.
Proof. exact (fun lm => cp_as_list_length). Qed.
Print Assumptions C39_as_list_has_65_entries.
Example C39_case : exists c, @cp_from_list sample_libm (some_list ++ some_list ++ some_list ++ some_list ++ some_list) = Ok c.
Proof.
  destruct some_list_loads as (p & H).
  destruct (checked (@default_error sample_libm) (fun _ => true)) as (e & E & _); [vm_compute; reflexivity|].
  exact (@cp_from_five sample_libm some_list p e H E).
Qed.

(** C40.  [tp_of h c] is the palette with hue [h] and chroma [c] (C35). *)
Theorem C40_of : forall (lm : Libm) (z : Z) (c : core_palette), cp_of z = Ok c ->
  exists h, hct_from_int z = Ok h /\
  (exists k, tp_of (h_hue h) k = Ok (cp_primary c) /\ (fle (dec "48.0") (h_chroma h) = true -> k = h_chroma h) /\
             (fle (dec "48.0") (h_chroma h) = false -> k = dec "48.0")) /\
  tp_of (h_hue h) (dec "16.0") = Ok (cp_secondary c) /\
  tp_of (fadd (h_hue h) (dec "60.0")) (dec "24.0") = Ok (cp_tertiary c) /\
  tp_of (h_hue h) (dec "4.0") = Ok (cp_neutral c) /\
  tp_of (h_hue h) (dec "8.0") = Ok (cp_neutral_variant c) /\
  tp_of (dec "25.0") (dec "84.0") = Ok (cp_error c).
Proof. exact (fun lm => cp_of_spec). Qed.
Print Assumptions C40_of.

Theorem C40_content_of : forall (lm : Libm) (z : Z) (c : core_palette), cp_content_of z = Ok c ->
  exists h, hct_from_int z = Ok h /\
  tp_of (h_hue h) (h_chroma h) = Ok (cp_primary c) /\
  tp_of (h_hue h) (fdiv (h_chroma h) (dec "3.0")) = Ok (cp_secondary c) /\
  tp_of (fadd (h_hue h) (dec "60.0")) (fdiv (h_chroma h) (dec "2.0")) = Ok (cp_tertiary c) /\
  (exists k, tp_of (h_hue h) k = Ok (cp_neutral c) /\
    (fle (fdiv (h_chroma h) (dec "12.0")) (dec "4.0") = true -> k = fdiv (h_chroma h) (dec "12.0")) /\
    (fle (fdiv (h_chroma h) (dec "12.0")) (dec "4.0") = false -> k = dec "4.0")) /\
  (exists k, tp_of (h_hue h) k = Ok (cp_neutral_variant c) /\
    (fle (fdiv (h_chroma h) (dec "6.0")) (dec "8.0") = true -> k = fdiv (h_chroma h) (dec "6.0")) /\
    (fle (fdiv (h_chroma h) (dec "6.0")) (dec "8.0") = false -> k = dec "8.0")) /\
  tp_of (dec "25.0") (dec "84.0") = Ok (cp_error c).
Proof. exact (fun lm => cp_content_spec). Qed.
Print Assumptions C40_content_of.
Example C40_case : match @cp_of sample_libm 0xFF6750A4 with
  | Ok c => feq (tp_chroma (cp_secondary c)) (dec "16.0") && fle (dec "48.0") (tp_chroma (cp_primary c))
  | Panic => false end = true.
Proof. vm_compute. reflexivity. Qed.

(** C41.  [light_roles] and [dark_roles] are the role tables of SpecPalette.v. *)
Theorem C41_light_and_dark : forall (lm : Libm) (z : Z) (s : scheme),
  (scheme_light z = Ok s -> exists c, cp_of z = Ok c /\ forall field p tone, In (field, p, tone) light_roles ->
     exists h, hct_from (tp_hue (cp_sel c p)) (tp_chroma (cp_sel c p)) (of_Z tone) = Ok h /\ hct_to_int h = field s) /\
  (scheme_dark z = Ok s -> exists c, cp_of z = Ok c /\ forall field p tone, In (field, p, tone) dark_roles ->
     exists h, hct_from (tp_hue (cp_sel c p)) (tp_chroma (cp_sel c p)) (of_Z tone) = Ok h /\ hct_to_int h = field s).
Proof. exact (fun lm z s => conj (light_scheme z s) (dark_scheme z s)). Qed.
Print Assumptions C41_light_and_dark.

Theorem C41_content : forall (lm : Libm) (z : Z) (s : scheme),
  (scheme_light_content z = Ok s -> exists c, cp_content_of z = Ok c /\ forall field p tone, In (field, p, tone) light_roles ->
     exists h, hct_from (tp_hue (cp_sel c p)) (tp_chroma (cp_sel c p)) (of_Z tone) = Ok h /\ hct_to_int h = field s) /\
  (scheme_dark_content z = Ok s -> exists c, cp_content_of z = Ok c /\ forall field p tone, In (field, p, tone) dark_roles ->
     exists h, hct_from (tp_hue (cp_sel c p)) (tp_chroma (cp_sel c p)) (of_Z tone) = Ok h /\ hct_to_int h = field s).
Proof. exact (fun lm z s => conj (light_content_scheme z s) (dark_content_scheme z s)). Qed.
Print Assumptions C41_content.

Theorem C41_any_palette_history : forall (lm : Libm) (c : core_palette) (s : scheme),
  (light_from_core_palette c = Ok s -> forall field p tone, In (field, p, tone) light_roles ->
     rmap fst (tp_get (cp_sel c p) tone) = Ok (field s)) /\
  (dark_from_core_palette c = Ok s -> forall field p tone, In (field, p, tone) dark_roles ->
     rmap fst (tp_get (cp_sel c p) tone) = Ok (field s)).
Proof. exact (fun lm => palette_reads). Qed.
Print Assumptions C41_any_palette_history.
Example C41_case : exists s s', @scheme_light ref_libm 0xFF6750A4 = Ok s /\ @scheme_dark_content ref_libm 0xFFFFFF00 = Ok s'.
Proof. exact legacy_case. Qed.
