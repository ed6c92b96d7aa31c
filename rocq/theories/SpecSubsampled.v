(** Images with flat components of which other samples are left out (C91). *)
From Verif Require Import Base SpecBlock SpecFrame SpecSegments SpecScan SpecFile SpecImage SpecAnswer SpecFlat SpecRatio.

Section Component.
  Variables (lines samples : Z) (cs cs' : list comp_spec) (qs qs' : list (list Z)) (ms ms' : list mcu) (k : nat).
  (** The [k]-th component has the same quantisation table, the same ratios to the largest
      factors, and the same blocks wherever a block has a sample inside the image. *)
  Definition kept_component : Prop :=
    forall c c' q q', nth_error cs k = Some c -> nth_error cs' k = Some c' -> nth_error qs k = Some q -> nth_error qs' k = Some q' ->
      q' = q /\ cs_h c' * largest (map cs_h cs) = cs_h c * largest (map cs_h cs') /\ cs_v c' * largest (map cs_v cs) = cs_v c * largest (map cs_v cs') /\
      forall r s, 0 <= r -> 0 <= s -> 8 * r < extent lines (cs_v c) (largest (map cs_v cs)) -> 8 * s < extent samples (cs_h c) (largest (map cs_h cs)) ->
        block_at ms' (mcus samples (largest (map cs_h cs'))) k (cs_h c') (cs_v c') r s = block_at ms (mcus samples (largest (map cs_h cs))) k (cs_h c) (cs_v c) r s.
  (** All blocks of the [k]-th component are flat and stand for the same sample in both images;
      the factors may be any for which no columns are left out (C39). *)
  Definition flat_both : Prop :=
    exists dc dc', flat_component ms k dc /\ flat_component ms' k dc' /\
      forall c c' q q', nth_error cs k = Some c -> nth_error cs' k = Some c' -> nth_error qs k = Some q -> nth_error qs' k = Some q' ->
        full_width lines samples cs c /\ full_width lines samples cs' c' /\ dc_sample dc' q' = dc_sample dc q.
End Component.
