(** The negative of an image, made by changing the signs of all its coefficients (C84). *)
From Verif Require Import Base SpecBlock SpecFrame SpecSegments SpecScan SpecFile SpecEncoder SpecEdit SpecFlip SpecChannel.

(** [b'] with the quantisation values [q'] is the negative of [b] with [q]: every dequantised
    coefficient has the opposite sign. *)
Definition negative_block (q q' : list Z) (b b' : qblock) : Prop :=
  forall i, (i < 64)%nat -> coef b' i * nth i q' 0 = - (coef b i * nth i q 0).
Definition negative_component (k : nat) (q q' : list Z) (ms ms' : list mcu) : Prop :=
  Forall2 (fun m m' => Forall2 (negative_block q q') (nth k m []) (nth k m' [])) ms ms'.
(** For the component [k] of two images with the quantisation tables [qs] and [qs'] of their
    components; in neither image a sample leaves the range in which samples are limited to 0..255. *)
Definition negated (k : nat) (qs qs' : list (list Z)) (ms ms' : list mcu) : Prop :=
  forall q q', nth_error qs k = Some q -> nth_error qs' k = Some q' ->
    negative_component k q q' ms ms' /\ modest_component k q ms /\ modest_component k q' ms'.

(** The negative as a function, on the images of SpecEncoder.v. *)
Definition negate_block (b : qblock) : qblock := mkQ (- q_dc b) (map Z.opp (q_ac b)).
Definition negate (im : image) : image :=
  mkImage (im_lines im) (im_samples im) (im_factors im) (im_quant im) (map (map (map negate_block)) (im_mcus im)) (im_transform im) (im_restart im).
