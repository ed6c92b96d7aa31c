(** Adding the coefficients of two images (C85). *)
From Verif Require Import Base SpecBlock SpecFrame SpecSegments SpecScan SpecEdit SpecFlip.

(** Every dequantised coefficient of [b''] is the sum of those of [b] and [b']. *)
Definition sum_block (q q' q'' : list Z) (b b' b'' : qblock) : Prop :=
  forall i, (i < 64)%nat -> coef b'' i * nth i q'' 0 = coef b i * nth i q 0 + coef b' i * nth i q' 0.
(** A block of which no sample has to be limited: the inverse transform does not overflow and its
    samples lie within 0..255 by themselves. *)
Definition unclipped (q : list Z) (b : qblock) : Prop :=
  fold_right Z.add 0 (map (fun i => Z.abs (coef b i * nth i q 0)) (seq 0 64)) <= 65536 /\
  forall y x, (y < 8)%nat -> (x < 8)%nat -> 0 <= raw_sample q b y x <= 255.
(** Lists of blocks: every block of the third is the sum of those of the first two, and none of
    them is clipped. *)
Inductive sum_blocks (q q' q'' : list Z) : list qblock -> list qblock -> list qblock -> Prop :=
| blocks_none : sum_blocks q q' q'' [] [] []
| blocks_more : forall b b' b'' l l' l'', sum_block q q' q'' b b' b'' -> unclipped q b -> unclipped q' b' -> unclipped q'' b'' ->
    sum_blocks q q' q'' l l' l'' -> sum_blocks q q' q'' (b :: l) (b' :: l') (b'' :: l'').
(** The same for the component [k] of three images, MCU by MCU. *)
Inductive sum_component (k : nat) (q q' q'' : list Z) : list mcu -> list mcu -> list mcu -> Prop :=
| sum_none : sum_component k q q' q'' [] [] []
| sum_more : forall m m' m'' ms ms' ms'', sum_blocks q q' q'' (nth k m []) (nth k m' []) (nth k m'' []) ->
    sum_component k q q' q'' ms ms' ms'' -> sum_component k q q' q'' (m :: ms) (m' :: ms') (m'' :: ms'').
(** For the component [k] of three images with the tables [qs], [qs'] and [qs'']. *)
Definition summed (k : nat) (qs qs' qs'' : list (list Z)) (ms ms' ms'' : list mcu) : Prop :=
  forall q q' q'', nth_error qs k = Some q -> nth_error qs' k = Some q' -> nth_error qs'' k = Some q'' -> sum_component k q q' q'' ms ms' ms''.

(** A byte that has not been limited. *)
Definition inner (a : Z) : Prop := 0 < a < 255.
