(** Where the samples of a component come from (T.81 A.2): a plane consists of the MCUs in
    raster order; an MCU of a component with factors h, v is v rows of h blocks of 8x8
    samples. *)
From Verif Require Import Base Idct.

(** The sample of a plane with [stride] samples per line; [None] while not written. *)
Definition sample_at (p : plane) (stride r c : Z) : option Z := nth (Z.to_nat (r * stride + c)) p None.

(** MCU (row, column) that contains the sample at row [r], column [c]. *)
Definition mcu_row (v r : Z) : Z := r / (8 * v).
Definition mcu_col (h c : Z) : Z := c / (8 * h).
(** Number, inside the MCU, of the block that contains it. *)
Definition block_no (h v r c : Z) : Z := (r mod (8 * v)) / 8 * h + (c mod (8 * h)) / 8.

(** Sample of an 8x8 block given by its rows. *)
Definition in_block (rows : list (list Z)) (r c : Z) : Z := nth (Z.to_nat (c mod 8)) (nth (Z.to_nat (r mod 8)) rows []) 0.

(** [log] has for every MCU of a scan (raster order, [w] MCUs per line) its blocks; the block
    that contains the sample at row [r], column [c] of a component whose blocks start at
    number [first] of each MCU. *)
Definition containing_block (log : list (list (list Z))) (w : Z) (first : nat) (h v r c : Z) : list Z :=
  nth (first + Z.to_nat (block_no h v r c)) (nth (Z.to_nat (mcu_row v r * w + mcu_col h c)) log []) [].
