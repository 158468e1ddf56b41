(** * Property theorems: which wheel colours [analogous] chooses. *)
From Coq Require Import ZArith List String.
From Verif Require Import F64 ViewingConditions Hct Temperature SpecTemperature SpecAnalogous SampleLibm PropsTemperature PfAnalogous.
Import ListNotations.
Open Scope string_scope.
Open Scope list_scope.
Open Scope Z_scope.

(** C92: the colours are taken at equal steps of travelled temperature, by the rule [follows]. *)
Theorem C92_analogous_steps : forall (lm : Libm) (argb : Z) (h : hct) (count divisions : option Z) (l : list hct) (c : temp_cache),
  hct_from_int argb = Ok h -> count_fits count -> analogous (tc_new h) count divisions = Ok (l, c) ->
  analogous_steps h (unwrap_or count 5) (unwrap_or divisions 12) l.
Proof. exact @analogous_follows. Qed.
Print Assumptions C92_analogous_steps.
(** The rule leaves no choice: temperatures and the step determine the offsets. *)
Theorem C92_the_rule_is_complete : forall (temp : Z -> f64) (step : f64) (i p r : Z) (os : list Z),
  follows temp step i p r os -> forall os' : list Z, follows temp step i p r os' ->
  List.length os = List.length os' -> os = os'.
Proof. exact follows_unique. Qed.
Print Assumptions C92_the_rule_is_complete.
Example C92_case : exists h l c, @hct_from_int sample_libm 0xFFFFFFFF = Ok h /\
  @analogous sample_libm (tc_new h) (Some 3) (Some 6) = Ok (l, c).
Proof. exact C47_case. Qed.
(** A temperature that rises for four degrees, in steps of one half. *)
Example C92_rule_case : follows ramp (dec "0.5") 1 0 0 [1; 2; 2; 3; 3; 4].
Proof. exact ramp_case. Qed.
