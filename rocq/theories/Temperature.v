(** * Model of /repo/src/temperature/temperature_cache.rs *)
From Coq Require Import ZArith Bool String List.
From Verif Require Import F64 MathUtils ColorUtils Cam16 HctSolver Hct Assoc ViewingConditions.
Import ListNotations.
Open Scope string_scope.
Open Scope list_scope.
Open Scope f64_scope.

(** temperature_cache.rs 12-19: struct TemperatureCache (empty list/None/-1.0 = not computed yet). *)
Record temp_cache := {
  t_input : hct;
  t_hcts_by_temp : list hct;
  t_hcts_by_hue : list hct;
  t_temps_by_hct : list (hct * f64);
  t_input_relative_temperature : f64;
  t_complement : option hct
}.

(** temperature_cache.rs 21-30: [new]. *)
Definition tc_new (input : hct) : temp_cache :=
  {| t_input := input; t_hcts_by_temp := []; t_hcts_by_hue := []; t_temps_by_hct := [];
     t_input_relative_temperature := dec "-1.0"; t_complement := None |}.

(** temperature_cache.rs 298-303: [is_between]. *)
Definition is_between (angle a b : f64) : bool :=
  if a <? b then (a <=? angle) && (angle <=? b) else (a <=? angle) || (angle <=? b).

(** [map[&key]] on a HashMap<Hct, f64>: panics when the key is missing. *)
Definition temp_at (m : list (hct * f64)) (h : hct) : res f64 := ok_or_panic (afind hct_eqb m h).

Section WithLibm.
Context {lm : Libm}.

(** temperature_cache.rs 322-334: [raw_temperature]. *)
Definition raw_temperature (color : hct) : f64 :=
  let lab := lab_from_argb (h_argb color) in
  let hue := sanitize_degrees_double (atan2f (v2 lab) (v1 lab) * dec "180.0" / PI64) in
  let chroma := fsqrt (v1 lab * v1 lab + v2 lab * v2 lab) in
  dec "-0.5" + dec "0.02" * powf chroma (dec "1.07") *
    cosf (sanitize_degrees_double (hue - dec "50.0") * PI64 / dec "180.0").

(** temperature_cache.rs 287-291: the colour wheel at the input's chroma and tone. *)
Fixpoint wheel (hues : list Z) (chroma tone : f64) : res (list hct) :=
  match hues with
  | [] => Ok []
  | hue :: hues' =>
      do h <- hct_from (of_Z hue) chroma tone;
      do rest <- wheel hues' chroma tone;
      Ok (h :: rest)
  end.

(** temperature_cache.rs 282-295: [get_hcts_by_hue]. *)
Definition get_hcts_by_hue (self : temp_cache) : res (list hct * temp_cache) :=
  match t_hcts_by_hue self with
  | _ :: _ => Ok (t_hcts_by_hue self, self)
  | [] =>
      do hcts <- wheel (zrange 360) (h_chroma (t_input self)) (h_tone (t_input self));
      Ok (hcts, {| t_input := t_input self; t_hcts_by_temp := t_hcts_by_temp self; t_hcts_by_hue := hcts;
                   t_temps_by_hct := t_temps_by_hct self;
                   t_input_relative_temperature := t_input_relative_temperature self;
                   t_complement := t_complement self |})
  end.

(** temperature_cache.rs 265-278: [get_temps_by_hct]. *)
Definition get_temps_by_hct (self : temp_cache) : res (list (hct * f64) * temp_cache) :=
  match t_temps_by_hct self with
  | _ :: _ => Ok (t_temps_by_hct self, self)
  | [] =>
      do r <- get_hcts_by_hue self;
      let '(all_hcts, self) := r in
      let all_hcts := all_hcts ++ [t_input self] in
      let temps := fold_left (fun m e => ainsert hct_eqb m e (raw_temperature e)) all_hcts [] in
      Ok (temps, {| t_input := t_input self; t_hcts_by_temp := t_hcts_by_temp self;
                    t_hcts_by_hue := t_hcts_by_hue self; t_temps_by_hct := temps;
                    t_input_relative_temperature := t_input_relative_temperature self;
                    t_complement := t_complement self |})
  end.

(** The comparison of temperature_cache.rs 253-259 as a strict order test.  Every key is present
    (proved in PfTemperature.v, [T_in]), so the default is never used. *)
Definition temp_lt (temps : list (hct * f64)) (a b : hct) : bool :=
  match afind hct_eqb temps a, afind hct_eqb temps b with
  | Some x, Some y => x <? y
  | _, _ => false
  end.

(** temperature_cache.rs 241-262: [get_hcts_by_temp]. *)
Definition get_hcts_by_temp (self : temp_cache) : res (list hct * temp_cache) :=
  match t_hcts_by_temp self with
  | _ :: _ => Ok (t_hcts_by_temp self, self)
  | [] =>
      do r <- get_hcts_by_hue self;
      let '(hcts, self) := r in
      let hcts := hcts ++ [t_input self] in
      do r <- get_temps_by_hct self;
      let '(temps, self) := r in
      let sorted := stable_sort (temp_lt temps) hcts in
      Ok (sorted, {| t_input := t_input self; t_hcts_by_temp := sorted;
                     t_hcts_by_hue := t_hcts_by_hue self; t_temps_by_hct := t_temps_by_hct self;
                     t_input_relative_temperature := t_input_relative_temperature self;
                     t_complement := t_complement self |})
  end.

(** temperature_cache.rs 31-36 and 37-42: [get_warmest], [get_coldest]. *)
Definition get_warmest (self : temp_cache) : res (hct * temp_cache) :=
  do r <- get_hcts_by_temp self;
  do h <- ok_or_panic (nth_error (rev (fst r)) 0);
  Ok (h, snd r).
Definition get_coldest (self : temp_cache) : res (hct * temp_cache) :=
  do r <- get_hcts_by_temp self;
  do h <- ok_or_panic (nth_error (fst r) 0);
  Ok (h, snd r).

(** temperature_cache.rs 204-215: [relative_temperature].  Receiver evaluation order in an index
    expression [self.get_temps_by_hct()[&self.get_warmest()]] is map first, key second; both only
    fill caches. *)
Definition relative_temperature (self : temp_cache) (h : hct) : res (f64 * temp_cache) :=
  do r <- get_temps_by_hct self; let '(temps, self) := r in
  do r <- get_warmest self; let '(warmest, self) := r in
  do tw <- temp_at temps warmest;
  do r <- get_temps_by_hct self; let '(temps, self) := r in
  do r <- get_coldest self; let '(coldest, self) := r in
  do tcold <- temp_at temps coldest;
  let range := tw - tcold in
  do r <- get_temps_by_hct self; let '(temps, self) := r in
  do th <- temp_at temps h;
  do r <- get_temps_by_hct self; let '(temps, self) := r in
  do r <- get_coldest self; let '(coldest, self) := r in
  do tcold2 <- temp_at temps coldest;
  let difference_from_coldest := th - tcold2 in
  if range =? dec "0.0" then Ok (dec "0.5", self)
  else Ok (difference_from_coldest / range, self).

(** temperature_cache.rs 218-237: [get_input_relative_temperature]. *)
Definition get_input_relative_temperature (self : temp_cache) : res (f64 * temp_cache) :=
  if t_input_relative_temperature self >=? dec "0.0" then Ok (t_input_relative_temperature self, self) else
  do r <- get_temps_by_hct self; let '(temps, self) := r in
  do r <- get_coldest self; let '(coldest, self) := r in
  do coldest_temp <- temp_at temps coldest;
  do r <- get_temps_by_hct self; let '(temps, self) := r in
  do r <- get_warmest self; let '(warmest, self) := r in
  do warmest_temp <- temp_at temps warmest;
  let range := warmest_temp - coldest_temp in
  do r <- get_temps_by_hct self; let '(temps, self) := r in
  do ti <- temp_at temps (t_input self);
  let difference_from_coldest := ti - coldest_temp in
  let v := if range =? dec "0.0" then dec "0.5" else difference_from_coldest / range in
  Ok (v, {| t_input := t_input self; t_hcts_by_temp := t_hcts_by_temp self;
            t_hcts_by_hue := t_hcts_by_hue self; t_temps_by_hct := t_temps_by_hct self;
            t_input_relative_temperature := v; t_complement := t_complement self |}).

(** temperature_cache.rs 183-197: the search loop of [get_complement]. *)
Fixpoint complement_loop (addends : list Z) (by_hue : list hct) (temps : list (hct * f64))
    (start_hue end_hue coldest_temp range target : f64) (smallest_error : f64) (answer : hct) : res hct :=
  match addends with
  | [] => Ok answer
  | k :: ks =>
      let hue := sanitize_degrees_double (start_hue + dec "1.0" * of_Z k) in
      if negb (is_between hue start_hue end_hue)
      then complement_loop ks by_hue temps start_hue end_hue coldest_temp range target smallest_error answer
      else
        do possible_answer <- index by_hue (to_usize (fround hue));
        do tp <- temp_at temps possible_answer;
        let relative_temp := (tp - coldest_temp) / range in
        let error := fabs (target - relative_temp) in
        if error <? smallest_error
        then complement_loop ks by_hue temps start_hue end_hue coldest_temp range target error possible_answer
        else complement_loop ks by_hue temps start_hue end_hue coldest_temp range target smallest_error answer
  end.

(** temperature_cache.rs 150-200: [get_complement]. *)
Definition get_complement (self : temp_cache) : res (hct * temp_cache) :=
  match t_complement self with
  | Some c => Ok (c, self)
  | None =>
      do r <- get_coldest self; let '(coldest, self) := r in
      let coldest_hue := h_hue coldest in
      do r <- get_temps_by_hct self; let '(temps, self) := r in
      do r <- get_coldest self; let '(coldest, self) := r in
      do coldest_temp <- temp_at temps coldest;
      do r <- get_warmest self; let '(warmest, self) := r in
      let warmest_hue := h_hue warmest in
      do r <- get_temps_by_hct self; let '(temps, self) := r in
      do r <- get_warmest self; let '(warmest, self) := r in
      do warmest_temp <- temp_at temps warmest;
      let range := warmest_temp - coldest_temp in
      let c2w := is_between (h_hue (t_input self)) coldest_hue warmest_hue in
      let start_hue := if c2w then warmest_hue else coldest_hue in
      let end_hue := if c2w then coldest_hue else warmest_hue in
      do answer <- index (t_hcts_by_hue self) (to_usize (fround (h_hue (t_input self))));
      do r <- get_input_relative_temperature self; let '(irt, self) := r in
      let target := dec "1.0" - irt in
      do answer <- complement_loop (zrange 360) (t_hcts_by_hue self) (t_temps_by_hct self)
                     start_hue end_hue coldest_temp range target (dec "1000.0") answer;
      Ok (answer, {| t_input := t_input self; t_hcts_by_temp := t_hcts_by_temp self;
                     t_hcts_by_hue := t_hcts_by_hue self; t_temps_by_hct := t_temps_by_hct self;
                     t_input_relative_temperature := t_input_relative_temperature self;
                     t_complement := Some answer |})
  end.

(** temperature_cache.rs 66-73: total absolute temperature change around the wheel. *)
Fixpoint total_delta_loop (self : temp_cache) (start_hue : Z) (is : list Z) (last_temp total : f64)
    : res (f64 * temp_cache) :=
  match is with
  | [] => Ok (total, self)
  | i :: is' =>
      let hue := sanitize_degrees_int (start_hue + i) in
      do r <- get_hcts_by_hue self; let '(by_hue, self) := r in
      do h <- index by_hue hue;
      do r <- relative_temperature self h; let '(temp, self) := r in
      let temp_delta := fabs (temp - last_temp) in
      total_delta_loop self start_hue is' temp (total + temp_delta)
  end.

(** temperature_cache.rs 96-102: pushing one hue while it satisfies the index.  Recursion on
    [room], the number of pushes still allowed by [all_colors.len() < divisions]. *)
Fixpoint push_loop (room : nat) (h : hct) (total_temp_delta temp_step : f64) (index_satisfied : bool)
    (index_addend : Z) (all_colors : list hct) : list hct :=
  match room with
  | O => all_colors
  | S room' =>
      if index_satisfied then
        let all_colors := all_colors ++ [h] in
        let desired := of_Z (Z.of_nat (List.length all_colors) + index_addend) * temp_step in
        push_loop room' h total_temp_delta temp_step (total_temp_delta >=? desired) (index_addend + 1) all_colors
      else all_colors
  end.

(** The number of pushes allowed before [all_colors.len() >= divisions]. *)
Definition room (divisions : Z) (all_colors : list hct) : nat :=
  Z.to_nat (divisions - Z.of_nat (List.length all_colors)).

(** temperature_cache.rs 78-111: the main loop of [analogous].  [addends] are the values 1..360 that
    [hue_addend] can take inside the loop body. *)
Fixpoint analogous_loop (self : temp_cache) (start_hue divisions : Z) (temp_step : f64) (addends : list Z)
    (total_temp_delta last_temp : f64) (all_colors : list hct) : res (list hct * temp_cache) :=
  if negb (Z.of_nat (List.length all_colors) <? divisions)%Z then Ok (all_colors, self) else
  match addends with
  | [] => Ok (all_colors, self)
  | hue_addend :: addends' =>
      let hue := sanitize_degrees_int (start_hue + hue_addend) in
      do r <- get_hcts_by_hue self; let '(by_hue, self) := r in
      do h <- index by_hue hue;
      do r <- relative_temperature self h; let '(temp, self) := r in
      let temp_delta := fabs (temp - last_temp) in
      let total_temp_delta := total_temp_delta + temp_delta in
      let desired := of_Z (Z.of_nat (List.length all_colors)) * temp_step in
      let all_colors := push_loop (room divisions all_colors) h total_temp_delta temp_step
                          (total_temp_delta >=? desired) 1 all_colors in
      if (360 <? hue_addend + 1)%Z then Ok (all_colors ++ repeat h (room divisions all_colors), self)
      else analogous_loop self start_hue divisions temp_step addends' total_temp_delta temp all_colors
  end.

(** temperature_cache.rs 120-126 / 133-139: wrapping an index into [all_colors]. *)
Definition wrap_index (i : Z) (len : Z) : Z := (i mod len)%Z.

(** temperature_cache.rs 118-127: analogues counter-clockwise. *)
Fixpoint ccw_loop (is : list Z) (all_colors answers : list hct) : res (list hct) :=
  match is with
  | [] => Ok answers
  | i :: is' =>
      do h <- index all_colors (wrap_index (0 - i) (Z.of_nat (List.length all_colors)));
      ccw_loop is' all_colors (h :: answers)
  end.

(** temperature_cache.rs 131-140: analogues clockwise. *)
Fixpoint cw_loop (is : list Z) (all_colors answers : list hct) : res (list hct) :=
  match is with
  | [] => Ok answers
  | i :: is' =>
      do h <- index all_colors (wrap_index i (Z.of_nat (List.length all_colors)));
      cw_loop is' all_colors (answers ++ [h])
  end.

(** temperature_cache.rs 55-143: [analogous]. *)
Definition analogous (self : temp_cache) (count divisions : option Z) : res (list hct * temp_cache) :=
  let count := unwrap_or count 5%Z in
  let divisions := unwrap_or divisions 12%Z in
  let start_hue := to_i64 (fround (h_hue (t_input self))) in
  do r <- get_hcts_by_hue self; let '(by_hue, self) := r in
  do start_hct <- index by_hue start_hue;
  do r <- relative_temperature self start_hct; let '(last_temp, self) := r in
  do r <- total_delta_loop self start_hue (zrange 360) last_temp (dec "0.0"); let '(absolute_total, self) := r in
  let temp_step := absolute_total / of_Z divisions in
  do r <- relative_temperature self start_hct; let '(last_temp, self) := r in
  do r <- analogous_loop self start_hue divisions temp_step (map Z.of_nat (seq 1 360)) (dec "0.0") last_temp
            [start_hct];
  let '(all_colors, self) := r in
  do cm1 <- chk (count - 1);
  let increase_hue_count := to_i64 (ffloor (of_Z cm1 / dec "2.0")) in
  do answers <- ccw_loop (map Z.of_nat (seq 1 (Z.to_nat increase_hue_count))) all_colors [t_input self];
  do d1 <- chk (count - increase_hue_count);
  do decrease_hue_count <- chk (d1 - 1);
  do answers <- cw_loop (map Z.of_nat (seq 1 (Z.to_nat decrease_hue_count))) all_colors answers;
  Ok (answers, self).
End WithLibm.
