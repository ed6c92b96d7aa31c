(** Images whose lines and columns are exchanged (C77). *)
From Verif Require Import Base SpecBlock SpecFrame SpecSegments SpecScan SpecEncoder SpecEdit.

(** Values in zigzag order with vertical and horizontal frequencies exchanged. *)
Definition exchanged (f f' : nat -> Z) : Prop :=
  forall i j r c, (i < 64)%nat -> (j < 64)%nat -> nth i zigzag (0, 0)%nat = (r, c) -> nth j zigzag (0, 0)%nat = (c, r) -> f' j = f i.
Definition transposed_block (b b' : qblock) : Prop := exchanged (coef b) (coef b').
Definition transposed_table (q q' : list Z) : Prop := exchanged (fun i => nth i q 0) (fun i => nth i q' 0).
(** The image [ms'] of [w] rows of [h] MCUs is the image [ms] of [h] rows of [w] MCUs with lines
    and columns exchanged; an MCU is one block of every component. *)
Definition transposed (w h : Z) (ms ms' : list mcu) : Prop :=
  forall r c, 0 <= r < h -> 0 <= c < w ->
    Forall2 (Forall2 transposed_block) (nth (Z.to_nat (r * w + c)) ms []) (nth (Z.to_nat (c * h + r)) ms' []).

(** Transposing as a function, on the images of SpecEncoder.v. *)
Definition swapped (j : nat) : nat :=
  let (r, c) := nth j zigzag (0, 0)%nat in
  match find (fun i => let (r', c') := nth i zigzag (0, 0)%nat in (r' =? c)%nat && (c' =? r)%nat) (seq 0 64) with Some i => i | None => 0%nat end.
Definition transpose_block (b : qblock) : qblock := mkQ (q_dc b) (map (fun j => coef b (swapped j)) (seq 1 63)).
Definition transpose_table (q : list Z) : list Z := map (fun j => nth (swapped j) q 0) (seq 0 64).
Definition transpose (im : image) : image :=
  let w := mcus (im_samples im) 1 in let h := mcus (im_lines im) 1 in
  mkImage (im_samples im) (im_lines im) (im_factors im) (map transpose_table (im_quant im))
    (map (fun i => map (map transpose_block) (nth (Z.to_nat (i mod h * w + i / h)) (im_mcus im) [])) (zrange (w * h)))
    (im_transform im) (im_restart im).
