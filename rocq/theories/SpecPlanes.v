(** Pictures with subsampled components, and an encoder for them: the forward transform and the
    quantisation of T.81 A.3 for any sampling factors and quantisation tables (C72). *)
From Coq Require Import Reals.
From Verif Require Import Base SpecBlock SpecFrame SpecSegments SpecUpsample SpecScan SpecFile SpecImage SpecPlane SpecDct SpecExact SpecFdct SpecEncoder.
Open Scope R_scope.

(** The blocks of an image hold the planes [p] (component, row, column; every component with
    its own number of rows and columns). *)
Definition quantised_planes (p : nat -> Z -> Z -> R) (lines samples : Z) (cs : list comp_spec) (qs : list (list Z)) (ms : list mcu) : Prop :=
  forall k c q r x, nth_error cs k = Some c -> nth_error qs k = Some q ->
    (0 <= r < plane_rows lines cs c)%Z -> (0 <= x < plane_stride samples cs c)%Z ->
    quantised_block (fun i j => p k (8 * (r / 8) + Z.of_nat i)%Z (8 * (x / 8) + Z.of_nat j)%Z) q
      (q_at ms (mcus samples (largest (map cs_h cs))) k (cs_h c) (cs_v c) r x).

(** What a component with the plane [p] shows at row [row] and column [x] of the image:
    interpolated as the decoder does it, but without rounding, if it has fewer samples. *)
Definition comp_picture (lines samples : Z) (cs : list comp_spec) (c : comp_spec) (p : Z -> Z -> R) (row x : Z) : R :=
  shown_exact (h_ratio samples cs c) (v_ratio lines cs c) p
    (extent samples (cs_h c) (largest (map cs_h cs))) (extent lines (cs_v c) (largest (map cs_v cs))) row x.

(** ** An encoder *)
(** The nearest integer. *)
Definition nearest (r : R) : Z := Int_part (r + / 2).
(** The samples [f] of a block, transformed and divided by the steps [q]. *)
Definition quantise (f : nat -> nat -> R) (q : list Z) : qblock :=
  let level (s : Z * (nat * nat)) := nearest (fdct_real (fun y x => f y x - 128) (fst (snd s)) (snd (snd s)) / IZR (fst s)) in
  let levels := map level (combine q zigzag) in mkQ (hd 0%Z levels) (tl levels).
(** MCU number [i] of an image with [w] MCUs per line. *)
Definition planes_mcu (p : nat -> Z -> Z -> R) (factors : list (Z * Z)) (qs : list (list Z)) (w i : Z) : mcu :=
  map (fun k => let '(h, v) := nth k factors (1, 1)%Z in
    map (fun b => let top := (8 * (i / w * v + b / h))%Z in let left := (8 * (i mod w * h + b mod h))%Z in
      quantise (fun i j => p k (top + Z.of_nat i)%Z (left + Z.of_nat j)%Z) (nth k qs [])) (zrange (h * v)))
    (seq 0 (length factors)).
Definition planes_image (p : nat -> Z -> Z -> R) (lines samples : Z) (factors : list (Z * Z)) (qs : list (list Z)) (transform : option Z) (restart : Z) : image :=
  let w := mcus samples (largest (map fst factors)) in let h := mcus lines (largest (map snd factors)) in
  mkImage lines samples factors qs (map (planes_mcu p factors qs w) (zrange (h * w))) transform restart.
