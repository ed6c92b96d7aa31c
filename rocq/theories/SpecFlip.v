(** Turning an image upside down by editing its coefficients (C73). *)
From Verif Require Import Base SpecBlock SpecFrame SpecSegments SpecScan SpecIdct SpecEncoder SpecEdit.

(** The block [b'] is the block [b] upside down: the signs of the coefficients of odd vertical
    frequency (the odd rows of the matrix of coefficients) are changed. *)
Definition upside_down (b b' : qblock) : Prop :=
  forall i, (i < 64)%nat -> coef b' i = if Nat.odd (fst (nth i zigzag (0, 0)%nat)) then - coef b i else coef b i.
(** The image [ms'] of [h] rows of [w] MCUs is [ms] upside down; an MCU has one row of blocks of
    every component. *)
Definition flipped (w h : Z) (ms ms' : list mcu) : Prop :=
  forall r c, 0 <= r < h -> 0 <= c < w ->
    Forall2 (Forall2 upside_down) (nth (Z.to_nat (r * w + c)) ms []) (nth (Z.to_nat ((h - 1 - r) * w + c)) ms' []).

(** The same for left and right: the odd columns. *)
Definition mirrored_block (b b' : qblock) : Prop :=
  forall i, (i < 64)%nat -> coef b' i = if Nat.odd (snd (nth i zigzag (0, 0)%nat)) then - coef b i else coef b i.
Definition mirrored (w h : Z) (ms ms' : list mcu) : Prop :=
  forall r c, 0 <= r < h -> 0 <= c < w ->
    Forall2 (Forall2 mirrored_block) (nth (Z.to_nat (r * w + c)) ms []) (nth (Z.to_nat (r * w + (w - 1 - c))) ms' []).
(** The dequantised coefficient of vertical frequency [v] and horizontal frequency [u]. *)
Definition dequantised_at (q : list Z) (b : qblock) (v u : nat) : Z :=
  match find (fun i => let (r, c) := nth i zigzag (0, 0)%nat in (r =? v)%nat && (c =? u)%nat) (seq 0 64) with Some i => coef b i * nth i q 0 | None => 0 end.
(** The sample in line [y], column [x] of a block before it is limited to 0..255, in the fixed-point
    arithmetic of the decoder without overflow (C46_no_overflow): columns, then lines, each rounded. *)
Definition raw_sample (q : list Z) (b : qblock) (y x : nat) : Z :=
  (65536 + 128 * 131072 + sum8 (fun u => mx x u * ((512 + sum8 (fun v => mx y v * dequantised_at q b v u)) / 1024))) / 131072.
(** A block that the inverse transform neither overflows (the absolute values of the dequantised
    coefficients add up to at most 65536) nor takes out of the range -256..767 in which samples are
    limited to 0..255 (C34), with one to spare.  This is so if the absolute values add up to at most
    1472 ([modest_small] in FlipP3.v), and if the exact samples are not far outside 0..255 (C46). *)
Definition modest (q : list Z) (b : qblock) : Prop :=
  fold_right Z.add 0 (map (fun i => Z.abs (coef b i * nth i q 0)) (seq 0 64)) <= 65536 /\
  forall y x, (y < 8)%nat -> (x < 8)%nat -> -255 <= raw_sample q b y x <= 766.
(** All blocks of an image with the tables [qs] are of this kind. *)
Definition all_modest (qs : list (list Z)) (ms : list mcu) : Prop :=
  forall m k q bs, In m ms -> nth_error qs k = Some q -> nth_error m k = Some bs -> Forall (modest q) bs.

(** Turning as a function, on the images of SpecEncoder.v. *)
Definition turn_block (b : qblock) : qblock :=
  mkQ (q_dc b) (map (fun i => if Nat.odd (fst (nth i zigzag (0, 0)%nat)) then - coef b i else coef b i) (seq 1 63)).
Definition turn (im : image) : image :=
  let w := mcus (im_samples im) (largest (map fst (im_factors im))) in let h := im_lines im / 8 in
  mkImage (im_lines im) (im_samples im) (im_factors im) (im_quant im)
    (map (fun i => map (map turn_block) (nth (Z.to_nat ((h - 1 - i / w) * w + i mod w)) (im_mcus im) [])) (zrange (h * w)))
    (im_transform im) (im_restart im).
