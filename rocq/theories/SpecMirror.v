(** Mirroring an image with any sampling factors by editing its coefficients (C73). *)
From Verif Require Import Base SpecBlock SpecFrame SpecSegments SpecScan SpecFile SpecEncoder SpecEdit SpecFlip.

(** The blocks of a component in an MCU, [v] rows of [h] blocks: every row of blocks is reversed and
    the blocks are mirrored. *)
Definition mirrored_blocks (h v : Z) (bs bs' : list qblock) : Prop :=
  forall r c, 0 <= r < v -> 0 <= c < h ->
    mirrored_block (nth (Z.to_nat (r * h + c)) bs (mkQ 0 [])) (nth (Z.to_nat (r * h + (h - 1 - c))) bs' (mkQ 0 [])).
(** The image [ms'] of [rows] rows of [w] MCUs is [ms] with left and right exchanged; [factors] are
    the sampling factors (horizontal, vertical) of the components. *)
Definition mirrored_mcus (factors : list (Z * Z)) (w rows : Z) (ms ms' : list mcu) : Prop :=
  forall r c k h v, 0 <= r < rows -> 0 <= c < w -> nth_error factors k = Some (h, v) ->
    mirrored_blocks h v (nth k (nth (Z.to_nat (r * w + c)) ms []) []) (nth k (nth (Z.to_nat (r * w + (w - 1 - c))) ms' []) []).

(** As a function, on the images of SpecEncoder.v. *)
Definition mirror_block (b : qblock) : qblock :=
  mkQ (q_dc b) (map (fun i => if Nat.odd (snd (nth i zigzag (0, 0)%nat)) then - coef b i else coef b i) (seq 1 63)).
Definition mirror_blocks (f : Z * Z) (bs : list qblock) : list qblock :=
  map (fun i => mirror_block (nth (Z.to_nat (i / fst f * fst f + (fst f - 1 - i mod fst f))) bs (mkQ 0 []))) (zrange (fst f * snd f)).
Fixpoint mirror_mcu (fs : list (Z * Z)) (m : mcu) : mcu :=
  match fs, m with f :: fs, bs :: m => mirror_blocks f bs :: mirror_mcu fs m | _, _ => [] end.
Definition mirror (im : image) : image :=
  let w := mcus (im_samples im) (largest (map fst (im_factors im))) in let h := mcus (im_lines im) (largest (map snd (im_factors im))) in
  mkImage (im_lines im) (im_samples im) (im_factors im) (im_quant im)
    (map (fun i => mirror_mcu (im_factors im) (nth (Z.to_nat (i / w * w + (w - 1 - i mod w))) (im_mcus im) [])) (zrange (h * w)))
    (im_transform im) (im_restart im).
