(** * Model of /repo/src/quantize/quantizer.rs and quantizer_map.rs *)
From Coq Require Import ZArith Bool List.
From Verif Require Import F64 ColorUtils Assoc ViewingConditions.
Import ListNotations.
Open Scope Z_scope.

(** quantizer.rs 12-27: struct QuantizerResult. *)
Record quantizer_result := {
  qr_color_to_count : list (Z * Z);
  qr_input_pixel_to_cluster_pixel : list (Z * Z)
}.

(** quantizer_map.rs 16-22: one iteration (the count cannot overflow: it is at most the length of
    a Vec). *)
Definition map_step (m : list (Z * Z)) (pixel : Z) : list (Z * Z) :=
  if alpha_from_argb pixel <? 255 then m
  else ainsert Z.eqb m pixel (unwrap_or (afind Z.eqb m pixel) 0 + 1).

(** quantizer_map.rs 9-24: [QuantizerMap::quantize]. *)
Definition map_quantize (pixels : list Z) : quantizer_result :=
  {| qr_color_to_count := fold_left map_step pixels []; qr_input_pixel_to_cluster_pixel := [] |}.
