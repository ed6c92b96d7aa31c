(** Memory that a decoder holds (C81). *)
From Verif Require Import Base SpecFrame SpecSegments SpecGlobal Types Idct.

(** All samples of some planes, and all coefficients of some blocks. *)
Definition samples_in (ps : list plane) : Z := lenZ (concat ps).
Definition coefs_in (bs : list (list Z)) : Z := lenZ (concat bs).

(** The most that an image of this size may take: for each component, the lines and the samples
    per line rounded up to whole MCUs, which are at most 32 by 32 pixels. *)
Definition room_for (lines samples components : Z) : Z := components * ((lines + 31) * (samples + 31)).

(** [n] samples are accounted for by a frame header of the input with at most four components. *)
Definition declared (input : list Z) (n : Z) : Prop :=
  exists lines samples cs, header_in input lines samples cs /\ lenZ cs <= 4 /\ n <= room_for lines samples (lenZ cs).

(** The same for a codec and the bytes it has been given so far: the frame header (lines, samples,
    components) comes behind a marker SOF0..SOF2 and two length bytes.  If the segment behind the
    marker ends before its frame header does, the codec asks for more and takes the next bytes
    for the segment, so other bytes may lie between. *)
Definition header_behind (got : list Z) (m lines samples : Z) (cs : list comp_spec) : Prop :=
  exists pre between l1 l0 precision post,
    got = pre ++ [255; 0xC0 + m] ++ between ++ [l1; l0] ++ sof_bytes precision lines samples cs ++ post.
Definition declared_so_far (got : list Z) (n : Z) : Prop :=
  exists m lines samples cs, 0 <= m <= 2 /\ header_behind got m lines samples cs /\ lenZ cs <= 4 /\ n <= room_for lines samples (lenZ cs).

(** Samples of component [c] of an image, in whole MCUs. *)
Definition padded (lines samples : Z) (cs : list comp_spec) (c : comp_spec) : Z :=
  (8 * (mcus lines (largest (map cs_v cs)) * cs_v c)) * (8 * (mcus samples (largest (map cs_h cs)) * cs_h c)).
