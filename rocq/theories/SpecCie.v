(** * The colour spaces around ARGB, as published, in real numbers: sRGB (IEC 61966-2-1), CIE XYZ and CIE 1976 L*a*b* with white D65,
    and the WCAG contrast of two luminances.  SpecAppear.v has the curve that decodes a channel and SpecViewing.v the luminance of a lightness.
    Nothing here mentions the code. *)
From Coq Require Import ZArith Bool Reals.
From Flocq Require Import Core IEEE754.BinarySingleNaN.
From Verif Require Import F64 SpecViewing SpecAppear.
Open Scope R_scope.

(** CIE 15: the function f of L*a*b*. *)
Definition cie_f (t : R) : R := if Rlt_dec (216 / 24389) t then Rpower t (1 / 3) else (24389 / 27 * t + 16) / 116.
(** The lightness of a luminance [y], where white has 100. *)
Definition cie_lightness (y : R) : R := 116 * cie_f (y / 100) - 16.

(** XYZ of an sRGB colour. *)
Definition srgb_x (r g b : Z) : R := 100 * (0.41233895 * srgb_curve r + 0.35762064 * srgb_curve g + 0.18051042 * srgb_curve b).
Definition srgb_y (r g b : Z) : R := 100 * (0.2126 * srgb_curve r + 0.7152 * srgb_curve g + 0.0722 * srgb_curve b).
Definition srgb_z (r g b : Z) : R := 100 * (0.01932141 * srgb_curve r + 0.11916382 * srgb_curve g + 0.95034478 * srgb_curve b).

(** L*a*b* of an sRGB colour, with the white X, Y, Z = 95.047, 100, 108.883. *)
Definition srgb_lightness (r g b : Z) : R := cie_lightness (srgb_y r g b).
Definition srgb_a (r g b : Z) : R := 500 * (cie_f (srgb_x r g b / 95.047) - cie_f (srgb_y r g b / 100)).
Definition srgb_b (r g b : Z) : R := 200 * (cie_f (srgb_y r g b / 100) - cie_f (srgb_z r g b / 108.883)).

(** The curve that encodes a linear channel (0 to 1). *)
Definition srgb_encode (v : R) : R := if Rle_dec v 0.0031308 then 12.92 * v else 1.055 * Rpower v (1 / 2.4) - 0.055.

(** WCAG 2: the contrast of two lightnesses. *)
Definition wcag_contrast (l l' : R) : R := (Rmax (luminance l) (luminance l') + 5) / (Rmin (luminance l) (luminance l') + 5).

(** The linear channels of a stimulus: the inverse of the matrix above. *)
Definition linear_red (x y z : R) : R := 3.2413774792388685 * x - 1.5376652402851851 * y - 0.49885366846268053 * z.
Definition linear_green (x y z : R) : R := - 0.9691452513005321 * x + 1.8758853451067872 * y + 0.04156585616912061 * z.
Definition linear_blue (x y z : R) : R := 0.05562093689691305 * x - 0.20395524564742123 * y + 1.0571799111220335 * z.

(** [x] is the real number [r] up to [e]. *)
Definition right_to (e : R) (x : f64) (r : R) : Prop := is_finite x = true /\ Rabs (B2R x - r) <= e.
(** [c] is the channel whose encoded value is nearest to the linear value [v] (0 to 100), up to a part in ten thousand of a step. *)
Definition channel_of (c : Z) (v : R) : Prop := (0 <= c <= 255)%Z /\ Rabs (IZR c - 255 * srgb_encode (v / 100)) <= 1 / 2 + 1 / 10 ^ 4.
