(** * C96: images of few colours. *)
From Coq Require Import ZArith Bool List Permutation String Reals Lra Lia.
From Verif Require Import F64 MathUtils ColorUtils Assoc ViewingConditions QuantizerMap QuantizerWu QuantizerWsmeans Spec SpecQuantize SpecWu SpecWsmeans SpecFew
  RefLibm SampleLibm PfFewColors PropsGamma.
Import ListNotations.
Open Scope string_scope.
Open Scope list_scope.
Open Scope Z_scope.

(** A colour that shares its cluster with no other colour comes back as itself (made opaque), with its exact number of pixels. *)
Theorem C96_alone : forall (lm : Libm) (eps : R) rng pixels max_colors starting max_iterations r,
  (0 <= eps <= 1 / 10 ^ 10)%R -> pow_accurate eps lm ->
  Z.of_nat (List.length pixels) <= i64_max -> 1 <= unwrap_or max_iterations 5 ->
  ws_quantize rng pixels max_colors starting max_iterations (Some true) = Ok r ->
  let colors := qr_color_to_count r in let m := qr_input_pixel_to_cluster_pixel r in
  forall p c, In (p, c) m -> (forall q, In (q, c) m -> q = p) ->
  c = argb_from_rgb (red_from_argb p) (green_from_argb p) (blue_from_argb p) /\
  In (c, occurrences p pixels) colors /\ (forall n, In (c, n) colors -> n = occurrences p pixels).
Proof. exact (fun lm eps rng pixels max_colors starting max_iterations r he pa => ws_alone eps he pa rng pixels max_colors starting max_iterations r). Qed.
Print Assumptions C96_alone.

(** An image of one colour quantizes to that colour, with all its pixels. *)
Theorem C96_flat_image : forall (lm : Libm) (eps : R) rng order1 order2 pixels max_colors return_map c,
  (0 <= eps <= 1 / 10 ^ 10)%R -> pow_accurate eps lm ->
  Permutation (order1 (qr_color_to_count (map_quantize pixels))) (qr_color_to_count (map_quantize pixels)) ->
  1 <= max_colors -> image_fits pixels -> Z.of_nat (List.length pixels) <= i64_max -> rng <> [] ->
  pixels <> [] -> (forall p, In p pixels -> p = c) ->
  let solid := argb_from_rgb (red_from_argb c) (green_from_argb c) (blue_from_argb c) in
  celebi_quantize rng order1 order2 pixels max_colors return_map =
  Ok {| qr_color_to_count := [(solid, Z.of_nat (List.length pixels))];
        qr_input_pixel_to_cluster_pixel := if unwrap_or return_map false then [(c, solid)] else [] |}.
Proof. exact (fun lm eps rng order1 order2 pixels max_colors return_map c he pa => celebi_flat eps he pa rng order1 order2 pixels max_colors return_map c). Qed.
Print Assumptions C96_flat_image.
(** Three pixels of one blue, and three of the same blue half transparent. *)
Example C96_flat_case :
  @celebi_quantize ref_libm [5] (fun l => l) (fun l => l) [0xFF0102FE; 0xFF0102FE; 0xFF0102FE] 16 (Some true) =
    Ok {| qr_color_to_count := [(0xFF0102FE, 3)]; qr_input_pixel_to_cluster_pixel := [(0xFF0102FE, 0xFF0102FE)] |} /\
  @celebi_quantize ref_libm [5] (fun l => l) (fun l => l) [0x800102FE; 0x800102FE; 0x800102FE] 16 (Some true) =
    Ok {| qr_color_to_count := [(0xFF0102FE, 3)]; qr_input_pixel_to_cluster_pixel := [(0x800102FE, 0xFF0102FE)] |}.
Proof.
  split.
  - apply (C96_flat_image ref_libm (1 / 10 ^ 10) [5] (fun l => l) (fun l => l) [0xFF0102FE; 0xFF0102FE; 0xFF0102FE] 16 (Some true) 0xFF0102FE); try lra; try discriminate;
      [apply pow_hypotheses_met|apply Permutation_refl|intros p [<-|[<-|[<-|[]]]]; reflexivity].
  - apply (C96_flat_image ref_libm (1 / 10 ^ 10) [5] (fun l => l) (fun l => l) [0x800102FE; 0x800102FE; 0x800102FE] 16 (Some true) 0x800102FE); try lra; try discriminate;
      [apply pow_hypotheses_met|apply Permutation_refl|intros p [<-|[<-|[<-|[]]]]; reflexivity].
Qed.

(** The k-means quantizer started from the colours of the image in the order of their first pixels keeps all of them, with their exact
    numbers of pixels, if there are at most [max_colors]. *)
Theorem C96_own_colours : forall (lm : Libm) (eps : R) rng pixels max_colors max_iterations return_map,
  (0 <= eps <= 1 / 10 ^ 10)%R -> pow_accurate eps lm ->
  Z.of_nat (List.length pixels) <= i64_max -> 1 <= unwrap_or max_iterations 5 ->
  (forall p, In p pixels -> Spec.opaque p) -> distinct pixels <= max_colors ->
  exists r, ws_quantize rng pixels max_colors (Some (first_seen pixels)) max_iterations return_map = Ok r /\
    NoDup (map fst (qr_color_to_count r)) /\
    (forall p n, In (p, n) (qr_color_to_count r) <-> In p pixels /\ n = occurrences p pixels) /\
    (forall p c, In (p, c) (qr_input_pixel_to_cluster_pixel r) <-> unwrap_or return_map false = true /\ In p pixels /\ c = p).
Proof. exact (fun lm eps rng pixels max_colors max_iterations return_map he pa => ws_own eps he pa rng pixels max_colors max_iterations return_map). Qed.
Print Assumptions C96_own_colours.
Example C96_own_case : first_seen [0xFF303030; 0xFF101010; 0xFF303030; 0xFFF0F0F0] = [0xFF303030; 0xFF101010; 0xFFF0F0F0] /\
  exists r, @ws_quantize ref_libm [] [0xFF303030; 0xFF101010; 0xFF303030; 0xFFF0F0F0] 8 (Some [0xFF303030; 0xFF101010; 0xFFF0F0F0]) None None = Ok r /\
    In (0xFF303030, 2) (qr_color_to_count r) /\ In (0xFF101010, 1) (qr_color_to_count r).
Proof.
  split; [reflexivity|].
  destruct (C96_own_colours ref_libm (1 / 10 ^ 10) [] [0xFF303030; 0xFF101010; 0xFF303030; 0xFFF0F0F0] 8 None None ltac:(lra) (proj1 (proj2 pow_hypotheses_met))
    ltac:(unfold i64_max; cbn; lia) ltac:(cbn; lia)) as (r & E & _ & H & _).
  - intros p [<-|[<-|[<-|[<-|[]]]]]; unfold Spec.opaque; lia.
  - cbn; lia.
  - exists r. split; [exact E|]. split; apply H; (split; [|reflexivity]); cbn [In]; auto.
Qed.

(** But Celebi hands Wu's colours over in the iteration order of a hash map, and in another order two colours of the image can melt into one:
    the same image, with as many colours allowed as it has, keeps all of them in one order and loses one in another. *)
Theorem C96_any_order_refuted : exists (lm : Libm) pixels max_colors order order' r r',
  (forall l : list Z, Permutation (order l) l) /\ (forall l : list Z, Permutation (order' l) l) /\
  (forall p, In p pixels -> Spec.opaque p) /\ distinct pixels <= max_colors /\
  celebi_quantize [] (fun l => l) order pixels max_colors None = Ok r /\
  celebi_quantize [] (fun l => l) order' pixels max_colors None = Ok r' /\
  (forall p, In p pixels <-> In p (map fst (qr_color_to_count r))) /\
  Z.of_nat (List.length (qr_color_to_count r')) < distinct pixels.
Proof. exact celebi_order. Qed.
Print Assumptions C96_any_order_refuted.

(** In [C96_any_order_refuted]'s image every grey that is alone comes back unchanged: an instance of [C96_alone]. *)
Example C96_alone_case : match @ws_quantize sample_libm [] [0xFF101010; 0xFFF0F0F0; 0xFF303030] 3 (Some [0xFF303030; 0xFFF0F0F0; 0xFF101010]) None (Some true) with
  | Ok r => forallb (fun e => (fst e =? 0xFFF0F0F0) || negb (snd e =? 0xFFF0F0F0)) (qr_input_pixel_to_cluster_pixel r) &&
            existsb (fun e => (fst e =? 0xFFF0F0F0) && (snd e =? 1)) (qr_color_to_count r) &&
            existsb (fun e => (fst e =? 0xFF202020) && (snd e =? 2)) (qr_color_to_count r)
  | Panic => false end = true.
Proof. vm_compute. reflexivity. Qed.
