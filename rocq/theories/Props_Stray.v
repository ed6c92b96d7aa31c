(** Stray start-of-image and restart markers (C94). *)
From Verif Require Import Base SpecBits SpecMarker SpecGlobal SpecStream SpecFile SpecLimits Biterator Types Decode CommentP StrayP Props_Scan.

(** Between segments, and behind a scan, a start-of-image or restart marker has no effect. *)
Theorem C94_stray_markers :
  forall dbg rayon d a fill c b, reachable dbg rayon d -> between_segments dbg rayon d a ->
    c = 0xD8 \/ 0xD0 <= c <= 0xD7 -> bytes (a ++ marker_bytes fill c ++ b) ->
    decode dbg rayon d (a ++ marker_bytes fill c ++ b) = decode dbg rayon d (a ++ b).
Proof. exact stray_ignored. Qed.
Print Assumptions C94_stray_markers.

(** A file may begin without its start-of-image marker. *)
Theorem C94_start_optional :
  forall dbg rayon d fill b, reachable dbg rayon d -> bytes (marker_bytes fill 0xD8 ++ b) ->
    decode dbg rayon d (marker_bytes fill 0xD8 ++ b) = decode dbg rayon d b.
Proof. exact start_optional. Qed.
Print Assumptions C94_start_optional.

(** The example file without its first marker, with three of them, and with restart markers
    among its segments. *)
Example C94_case :
  between_segments true false decoder_default (marker_bytes 0 0xD8 ++ flat_map hseg_bytes ex_segs) /\
  firstn 2 (ex_file 0xD0) = marker_bytes 0 0xD8 /\
  exists img, decode_fresh true false (ex_file 0xD0) = Ok img /\ decode_fresh true false (skipn 2 (ex_file 0xD0)) = Ok img /\
    decode_fresh true false (marker_bytes 3 0xD8 ++ marker_bytes 0 0xD8 ++ ex_file 0xD0) = Ok img /\
    decode_fresh true false (marker_bytes 0 0xD5 ++ firstn 2 (ex_file 0xD0) ++ marker_bytes 1 0xD0 ++ skipn 2 (ex_file 0xD0)) = Ok img.
Proof.
  split; [apply header_between; [apply fresh|apply ex_encodes]|]. split; [vm_compute; reflexivity|].
  eexists. split; [vm_compute; reflexivity|]. split; [vm_compute; reflexivity|]. split; vm_compute; reflexivity.
Qed.
