(** Images with other sampling factors of the same ratios (C90). *)
From Verif Require Import Base SpecBlock SpecFrame SpecSegments SpecScan SpecFile.

(** The block in row [r] and column [s] of the blocks of the [k]-th component with factors [h]
    and [v], in an image with [w] MCUs per line. *)
Definition block_at (ms : list mcu) (w : Z) (k : nat) (h v r s : Z) : qblock :=
  nth (Z.to_nat (r mod v * h + s mod h)) (nth k (nth (Z.to_nat (r / v * w + s / h)) ms []) []) (mkQ 0 []).

(** Every component has the same ratios to the largest factors in both lists. *)
Definition same_ratios (cs cs' : list comp_spec) : Prop :=
  Forall2 (fun c c' => cs_h c' * largest (map cs_h cs) = cs_h c * largest (map cs_h cs') /\ cs_v c' * largest (map cs_v cs) = cs_v c * largest (map cs_v cs')) cs cs'.

(** The components have the same blocks wherever a block has a sample inside the image, which
    has [lines] lines of [samples] samples.  Blocks that only fill up the last MCUs may differ. *)
Definition same_blocks (lines samples : Z) (cs cs' : list comp_spec) (ms ms' : list mcu) : Prop :=
  forall k c c', nth_error cs k = Some c -> nth_error cs' k = Some c' ->
  forall r s, 0 <= r -> 0 <= s -> 8 * r < extent lines (cs_v c) (largest (map cs_v cs)) -> 8 * s < extent samples (cs_h c) (largest (map cs_h cs)) ->
    block_at ms' (mcus samples (largest (map cs_h cs'))) k (cs_h c') (cs_v c') r s = block_at ms (mcus samples (largest (map cs_h cs))) k (cs_h c) (cs_v c) r s.
