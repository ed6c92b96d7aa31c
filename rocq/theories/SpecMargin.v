(** Images that agree where their samples are used (C96). *)
From Verif Require Import Base SpecFrame SpecSegments SpecBlock SpecScan SpecFile.

(** Planes consist of whole MCUs, so they may have samples to the right of the image and below
    it.  The MCUs [ms] and [ms'] have the same block wherever one of its samples lies in the part
    of its component that belongs to the image. *)
Definition same_inside (lines samples : Z) (cs : list comp_spec) (ms ms' : list mcu) : Prop :=
  let hm := largest (map cs_h cs) in let vm := largest (map cs_v cs) in
  forall k c y x, nth_error cs k = Some c -> 0 <= y < extent lines (cs_v c) vm -> 0 <= x < extent samples (cs_h c) hm ->
    q_at ms' (mcus samples hm) k (cs_h c) (cs_v c) y x = q_at ms (mcus samples hm) k (cs_h c) (cs_v c) y x.
