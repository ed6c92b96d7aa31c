(** The forward transform and quantisation of T.81 A.3.3 and A.3.4 over the real numbers
    (C72). *)
From Coq Require Import Reals.
From Verif Require Import Base SpecBlock SpecFrame SpecSegments SpecScan SpecFile SpecDct SpecExact.
Open Scope R_scope.

(** [F(v, u) = 1/4 C(u) C(v) sum_x sum_y f(x, y) cos ((2 x + 1) u pi / 16) cos ((2 y + 1) v pi / 16)] *)
Definition fdct_real (f : nat -> nat -> R) (v u : nat) : R :=
  / 4 * dct_norm u * dct_norm v * rsum8 (fun x => rsum8 (fun y => f y x *
    cos ((2 * INR x + 1) * INR u * PI / 16) * cos ((2 * INR y + 1) * INR v * PI / 16))).

(** The block [b] holds the samples [f] (row, column; from 0 to 255), quantised by [q]: level
    shift, forward transform, and the nearest multiple of the quantisation value. *)
Definition quantised_block (f : nat -> nat -> R) (q : list Z) (b : qblock) : Prop :=
  forall v u, (v < 8)%nat -> (u < 8)%nat ->
    Rabs (spectrum b q v u - fdct_real (fun y x => f y x - 128) v u) <= IZR (at_position zigzag q v u) / 2.
(** The blocks of an image without subsampling hold the picture [p] (component, row, column). *)
Definition quantised_picture (p : nat -> Z -> Z -> R) (lines samples : Z) (qs : list (list Z)) (ms : list mcu) : Prop :=
  forall k q y x, nth_error qs k = Some q -> (0 <= y < lines)%Z -> (0 <= x < samples)%Z ->
    quantised_block (fun i j => p k (8 * (y / 8) + Z.of_nat i)%Z (8 * (x / 8) + Z.of_nat j)%Z) q (block_444 ms samples k y x).

(** The squares of the quantisation values, summed. *)
Definition table_energy (q : list Z) : R := rsum8 (fun u => rsum8 (fun v => IZR (at_position zigzag q v u) ^ 2)).
