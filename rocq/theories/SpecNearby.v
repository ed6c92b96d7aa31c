(** Images with nearly the same coefficients (C87). *)
From Verif Require Import Base SpecBlock SpecFrame SpecSegments SpecScan SpecFile SpecEncoder SpecEdit SpecFlip SpecChannel.

(** How far the block [b'] with the quantisation values [q'] is from [b] with [q]: the absolute
    differences of the dequantised coefficients added up. *)
Definition distance (q q' : list Z) (b b' : qblock) : Z :=
  fold_right Z.add 0 (map (fun i => Z.abs (coef b' i * nth i q' 0 - coef b i * nth i q 0)) (seq 0 64)).
(** For the component [k] of two images with the quantisation tables [qs] and [qs'] of their
    components: every block is within [e]; in neither image a sample leaves the range in which
    samples are limited to 0..255. *)
Definition nearby (e : Z) (k : nat) (qs qs' : list (list Z)) (ms ms' : list mcu) : Prop :=
  forall q q', nth_error qs k = Some q -> nth_error qs' k = Some q' ->
    Forall2 (fun m m' => Forall2 (fun b b' => distance q q' b b' <= e) (nth k m []) (nth k m' [])) ms ms' /\
    modest_component k q ms /\ modest_component k q' ms'.
(** [b'] is [b] quantised again: every coefficient is the nearest multiple of the value in [q']. *)
Definition requantised (q q' : list Z) (b b' : qblock) : Prop :=
  forall i, (i < 64)%nat -> 2 * Z.abs (coef b' i * nth i q' 0 - coef b i * nth i q 0) <= nth i q' 0.
