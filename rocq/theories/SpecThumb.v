(** An image of which only the DC coefficients are kept (C88). *)
From Verif Require Import Base SpecBlock SpecFrame SpecSegments SpecScan SpecFile SpecEncoder.

Definition dc_block (b : qblock) : qblock := mkQ (q_dc b) (repeat 0 63).
Definition dc_only (im : image) : image :=
  mkImage (im_lines im) (im_samples im) (im_factors im) (im_quant im) (map (map (map dc_block)) (im_mcus im)) (im_transform im) (im_restart im).
