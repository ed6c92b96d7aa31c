(** Specification of the inverse DCT without its shortcuts: both passes of the
    fixed-point kernel are applied to every column and every row of the block.
    Used by C33 and C34. *)
From Verif Require Import Base Idct SpecColor.

(** The column pass on column [i] of a dequantised block: eight values, scaled by 4. *)
Definition full_column (coefs quant : list Z) (i : nat) : list Z :=
  map (fun x => Z.shiftr x 10) (kernel8 (map (fun k => nth (i + 8 * k) coefs 0 * nth (i + 8 * k) quant 0) (seq 0 8)) 512).

(** Row [r] of the intermediate result. *)
Definition full_temp (coefs quant : list Z) (r : nat) : list Z :=
  map (fun i => nth r (full_column coefs quant i) 0) (seq 0 8).

(** The row pass: sample values before they are limited to a byte. *)
Definition full_values (coefs quant : list Z) : list (list Z) :=
  map (fun r => map (fun x => Z.shiftr x 17) (kernel8 (full_temp coefs quant r) (65536 + Z.shiftl 128 17))) (seq 0 8).

(** A block with no coefficient but the first. *)
Definition flat (coefs : list Z) : Prop := forall k, (1 <= k < 64)%nat -> nth k coefs 0 = 0.

(** The clamp table has 1024 entries: the representative of [x] modulo 1024 in [-256..767]. *)
Definition wrap10 (x : Z) : Z := (x + 256) mod 1024 - 256.

(** Dequantised coefficients bounded by [2^19]: baseline coefficients (at most 2047 in
    magnitude) with 8-bit tables always are. *)
Definition moderate (coefs quant : list Z) : Prop :=
  forall k, - 2 ^ 19 < nth k coefs 0 * nth k quant 0 < 2 ^ 19.

(** Sum over eight indices. *)
Definition sum8 (f : nat -> Z) : Z := f 0%nat + f 1%nat + f 2%nat + f 3%nat + f 4%nat + f 5%nat + f 6%nat + f 7%nat.

(** The matrix of [kernel8]: entry [u] of row [x] is close to [4096 * sqrt 2 * cos ((2 x + 1) u pi / 16)]. *)
Definition M8 : list (list Z) := [
  [4096; 5683; 5352; 4816; 4096; 3219; 2217; 1131];
  [4096; 4816; 2217; -1129; -4096; -5681; -5350; -3218];
  [4096; 3219; -2217; -5681; -4096; 1132; 5350; 4816];
  [4096; 1131; -5352; -3218; 4096; 4816; -2217; -5680];
  [4096; -1131; -5352; 3218; 4096; -4816; -2217; 5680];
  [4096; -3219; -2217; 5681; -4096; -1132; 5350; -4816];
  [4096; -4816; 2217; 1129; -4096; 5681; -5350; 3218];
  [4096; -5683; 5352; -4816; 4096; -3219; 2217; -1131]].
Definition mx (x u : nat) : Z := nth u (nth x M8 []) 0.
