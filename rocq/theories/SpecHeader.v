(** Frame headers inside arbitrary bytes (C67). *)
From Verif Require Import Base SpecSegments Types.

(** [fr] is the frame of a header that stands in the input: a marker SOF0..SOF2, two length
    bytes, the header. *)
Definition frame_in (input : list Z) (fr : frame) : Prop :=
  exists pre m l1 l0 precision lines samples cs post, 0 <= m <= 2 /\ header_ok lines samples cs /\
    input = pre ++ [255; 0xC0 + m; l1; l0] ++ sof_bytes precision lines samples cs ++ post /\
    fr = frame_of m precision lines samples cs.

(** No marker SOF0..SOF2 anywhere. *)
Definition no_frame_marker (l : list Z) : Prop := forall a m b, 0 <= m <= 2 -> l <> a ++ [255; 0xC0 + m] ++ b.
