(** Images of which only some components differ (C74), and images made brighter by editing the
    DC coefficients (C75). *)
From Verif Require Import Base SpecBlock SpecFrame SpecSegments SpecScan SpecEdit SpecFlip.

(** The blocks of component [k] of the images [ms] and [ms'] stand for the same frequencies with
    the quantisation values [q] and [q']. *)
Definition same_component (k : nat) (q q' : list Z) (ms ms' : list mcu) : Prop :=
  Forall2 (fun m m' => Forall2 (same_products q q') (nth k m []) (nth k m' [])) ms ms'.

(** [b'] with [q'] is the block [b] with [q] made brighter by [n]: the dequantised DC coefficient
    is larger by 8 * [n], the others are the same. *)
Definition brighter_block (n : Z) (q q' : list Z) (b b' : qblock) : Prop :=
  forall i, (i < 64)%nat -> coef b' i * nth i q' 0 = coef b i * nth i q 0 + if (i =? 0)%nat then 8 * n else 0.
Definition brighter_component (n : Z) (k : nat) (q q' : list Z) (ms ms' : list mcu) : Prop :=
  Forall2 (fun m m' => Forall2 (brighter_block n q q') (nth k m []) (nth k m' [])) ms ms'.
(** No sample of the component leaves the range in which samples are limited to 0..255. *)
Definition modest_component (k : nat) (q : list Z) (ms : list mcu) : Prop :=
  forall m b, In m ms -> In b (nth k m []) -> modest q b.
(** The component is not subsampled. *)
Definition full_component (cs : list comp_spec) (c : comp_spec) : Prop :=
  cs_h c = largest (map cs_h cs) /\ cs_v c = largest (map cs_v cs).

(** For the component [k] of two images with the quantisation tables [qs] and [qs'] of their
    components (no quantisation value is zero). *)
Definition unchanged (k : nat) (qs qs' : list (list Z)) (ms ms' : list mcu) : Prop :=
  forall q q', nth_error qs k = Some q -> nth_error qs' k = Some q' -> no_zero q /\ no_zero q' /\ same_component k q q' ms ms'.
Definition brightened (n : Z) (k : nat) (qs qs' : list (list Z)) (ms ms' : list mcu) : Prop :=
  forall q q', nth_error qs k = Some q -> nth_error qs' k = Some q' ->
    brighter_component n k q q' ms ms' /\ modest_component k q ms /\ modest_component k q' ms'.
