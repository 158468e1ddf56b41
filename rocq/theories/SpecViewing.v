(** * The viewing conditions of CAM16, as published, in real numbers.
    C. Li et al., "Comprehensive color solutions: CAM16, CAT16, and CAM16-UCS", 2017, steps 0 and 1; the
    surround runs from 0 (dark) over 1 (dim) to 2 (average) with the published values at these three points and
    straight lines between them.  Nothing here mentions the code. *)
From Coq Require Import ZArith Bool Reals List.
From Flocq Require Import Core IEEE754.BinarySingleNaN.
From Verif Require Import F64 MathUtils ColorUtils ViewingConditions.
Import ListNotations.
Open Scope R_scope.

(** CIE: the luminance (0 to 100) of a lightness. *)
Definition luminance (l : R) : R :=
  if Rlt_dec 8 l then 100 * ((l + 16) / 116) ^ 3 else 100 * l * (27 / 24389).

(** Dark 0.8, dim 0.9, average 1. *)
Definition surround_F (s : R) : R := 0.8 + s / 10.
(** Dark 0.525, dim 0.59, average 0.69. *)
Definition surround_c (s : R) : R :=
  if Rle_dec 1 s then 0.59 + (0.69 - 0.59) * (s - 1) else 0.525 + (0.59 - 0.525) * s.

(** The degree of adaptation D. *)
Definition adaptation (discounting : bool) (s la : R) : R :=
  if discounting then 1 else surround_F s * (1 - 1 / 3.6 * exp ((- la - 42) / 92)).

(** The cone responses of X, Y, Z (matrix M16). *)
Definition cone_red (x y z : R) : R := 0.401288 * x + 0.650173 * y - 0.051461 * z.
Definition cone_green (x y z : R) : R := - 0.250268 * x + 1.204414 * y + 0.045854 * z.
Definition cone_blue (x y z : R) : R := - 0.002079 * x + 0.048952 * y + 0.953127 * z.

(** The gain on a cone whose response to the white is [w]. *)
Definition gain (d w : R) : R := d * (100 / w) + 1 - d.

(** The luminance-level adaptation factor F_L. *)
Definition level_k (la : R) : R := 1 / (5 * la + 1).
Definition level (la : R) : R :=
  0.2 * level_k la ^ 4 * (5 * la) + 0.1 * (1 - level_k la ^ 4) ^ 2 * Rpower (5 * la) (1 / 3).

(** The background: n, N_bb (equal to N_cb) and z. *)
Definition induction_nbb (n : R) : R := 0.725 * Rpower (1 / n) 0.2.
Definition exponent_z (n : R) : R := 1.48 + sqrt n.

(** The compressed response of one cone to the white, and the achromatic response A_w. *)
Definition response (fl g w : R) : R :=
  400 * Rpower (fl * g * w / 100) 0.42 / (Rpower (fl * g * w / 100) 0.42 + 27.13).
Definition achromatic (fl d nbb rw gw bw : R) : R :=
  (2 * response fl (gain d rw) rw + response fl (gain d gw) gw + response fl (gain d bw) bw / 20) * nbb.

(** A double that is right to nine digits. *)
Definition close (x : f64) (r : R) : Prop := is_finite x = true /\ Rabs (B2R x - r) <= Rabs r / 10 ^ 9.

(** [vc] holds the CAM16 quantities for a white of X, Y, Z = [x], [y], [z], an adapting luminance [la], a
    background of lightness [l] and a surround [s]. *)
Record follows_cam16 (vc : viewing_conditions) (x y z la l s : R) (discounting : bool) : Prop := {
  fc_n : close (vc_n vc) (luminance l / y);
  fc_z : close (vc_z vc) (exponent_z (luminance l / y));
  fc_nbb : close (vc_nbb vc) (induction_nbb (luminance l / y));
  fc_ncb : close (vc_ncb vc) (induction_nbb (luminance l / y));
  fc_c : close (vc_c vc) (surround_c s);
  fc_nc : close (vc_n_c vc) (surround_F s);
  fc_red : close (v0 (vc_rgb_d vc)) (gain (adaptation discounting s la) (cone_red x y z));
  fc_green : close (v1 (vc_rgb_d vc)) (gain (adaptation discounting s la) (cone_green x y z));
  fc_blue : close (v2 (vc_rgb_d vc)) (gain (adaptation discounting s la) (cone_blue x y z));
  fc_fl : close (vc_fl vc) (level la);
  fc_fl_root : close (vc_f_lroot vc) (Rpower (level la) 0.25);
  fc_aw : close (vc_aw vc) (achromatic (level la) (adaptation discounting s la) (induction_nbb (luminance l / y))
                              (cone_red x y z) (cone_green x y z) (cone_blue x y z))
}.

(** Ordinary conditions: a white with X, Y, Z at most 200 whose luminance and cone responses are at least 20
    (this covers the CIE illuminants, A included), an adapting luminance from 1/100 to 10000 and a background no
    lighter than white. *)
Definition ordinary (x y z la l s : f64) : Prop :=
  (is_finite x = true /\ is_finite y = true /\ is_finite z = true /\ is_finite la = true /\ is_finite l = true /\
   is_finite s = true) /\
  0 <= B2R x <= 200 /\ 20 <= B2R y <= 200 /\ 0 <= B2R z <= 200 /\
  20 <= cone_red (B2R x) (B2R y) (B2R z) <= 200 /\ 20 <= cone_green (B2R x) (B2R y) (B2R z) <= 200 /\
  20 <= cone_blue (B2R x) (B2R y) (B2R z) <= 200 /\
  1 / 100 <= B2R la <= 10000 /\ B2R l <= 100 /\ 0 <= B2R s <= 2.

(** A double that is right to six decimals. *)
Definition to_six (x : f64) (r : R) : Prop := is_finite x = true /\ Rabs (B2R x - r) <= 1 / 10 ^ 6.
