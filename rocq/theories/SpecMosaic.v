(** Pictures made of square tiles (C71). *)
From Verif Require Import Base SpecBits SpecFrame SpecBlock SpecSegments SpecScan SpecFile SpecEncoder.

(** A picture of [lines] x [samples] pixels in [n] components, made of tiles of 8x8 pixels: the
    tile in row [r] and column [c] has the value [colour r c k] in component [k].  Nothing is
    subsampled; every tile is one block with a DC value only (quantised by 8). *)
Definition tile (n : nat) (colour : nat -> Z) : mcu := map (fun k => [mkQ (colour k - 128) (repeat 0 63)]) (seq 0 n).
Definition mosaic (lines samples : Z) (n : nat) (colour : Z -> Z -> nat -> Z) (transform : option Z) : image :=
  let w := mcus samples 1 in
  mkImage lines samples (repeat (1, 1) n) (repeat (8 :: repeat 1 63) n)
    (map (fun i => tile n (colour (i / w) (i mod w))) (zrange (mcus lines 1 * w))) transform 0.
