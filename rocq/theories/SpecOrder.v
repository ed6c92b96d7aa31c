(** Images with their components in another order (C89). *)
From Verif Require Import Base SpecBlock SpecFrame SpecSegments SpecScan SpecFile SpecEncoder.

(** The list whose entries are those of [l] with the numbers [order]. *)
Definition pick {A} (d : A) (order : list nat) (l : list A) : list A := map (fun j => nth j l d) order.
Definition reorder (order : list nat) (im : image) : image :=
  mkImage (im_lines im) (im_samples im) (pick (1, 1) order (im_factors im)) (pick [] order (im_quant im)) (map (pick [] order) (im_mcus im)) (im_transform im) (im_restart im).
