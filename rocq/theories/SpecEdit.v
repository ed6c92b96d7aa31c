(** Edits of the coefficients of an image: other quantisation tables (C68), and cutting out a
    part (C69). *)
From Verif Require Import Base SpecFrame SpecSegments SpecScan.

(** ** Quantisation *)
(** Coefficient number [i] of a block in zigzag order; number 0 is the DC coefficient. *)
Definition coef (b : qblock) (i : nat) : Z := nth i (q_dc b :: q_ac b) 0.
(** The block [b] with the table [q] (zigzag order) stands for the same frequencies as [b']
    with [q']. *)
Definition same_products (q q' : list Z) (b b' : qblock) : Prop :=
  forall i, (i < 64)%nat -> coef b i * nth i q 0 = coef b' i * nth i q' 0.
(** So do all blocks of an MCU, the [k]-th component with the [k]-th tables. *)
Definition same_mcu (qs qs' : list (list Z)) (m m' : mcu) : Prop :=
  forall k q q' bs bs', nth_error qs k = Some q -> nth_error qs' k = Some q' -> nth_error m k = Some bs -> nth_error m' k = Some bs' ->
    Forall2 (same_products q q') bs bs'.
(** T.81 B.2.4.1: no quantisation value is zero. *)
Definition no_zero (q : list Z) : Prop := forall i, (i < 64)%nat -> nth i q 0 <> 0.

(** ** Cutting out *)
(** The MCUs [ms'] of an image of [h'] rows of [w'] MCUs are those of the image [ms] with [w]
    MCUs per row from row [r0] and column [c0] on. *)
Definition cut_out (w : Z) (ms : list mcu) (r0 c0 h' w' : Z) (ms' : list mcu) : Prop :=
  0 <= r0 /\ 0 <= c0 /\ c0 + w' <= w /\ lenZ ms' = h' * w' /\
  forall r c, 0 <= r < h' -> 0 <= c < w' ->
    (Z.to_nat ((r0 + r) * w + (c0 + c)) < length ms)%nat /\
    nth (Z.to_nat (r * w' + c)) ms' [] = nth (Z.to_nat ((r0 + r) * w + (c0 + c))) ms [].

(** All components have the largest factors. *)
Definition full_resolution (cs : list comp_spec) : Prop :=
  Forall (fun c => cs_h c = largest (map cs_h cs) /\ cs_v c = largest (map cs_v cs)) cs.
(** Pixels that interpolation across the cut does not reach: [y], [x] in the part of size
    [lines'] by [samples'], which begins at MCU row [r0] and column [c0] of the image of size
    [lines] by [samples]; [hm], [vm] are the largest factors. *)
Definition clear_of_cut (lines samples hm vm r0 c0 lines' samples' y x : Z) : Prop :=
  (c0 = 0 \/ 1 <= x) /\ x + 4 <= samples' /\ x + 8 * hm * c0 + 4 <= samples /\ (r0 = 0 \/ vm <= y) /\ 2 <= lines' /\ 2 <= lines.
