(** Progressive images (C64). *)
From Verif Require Import Base SpecBits SpecMarker SpecSegments SpecGlobal SpecFile SpecLimits
  Biterator Marker Types Decode FileP CommentP ProgressiveP Samples.

(** ** C64: progressive images *)

(** Refuted, for every progressive image: after a progressive frame header (SOF2) that the decoder accepts and
    any tables, a scan header of components of that frame ends the call in a panic, for every
    decoder a user can hold, whatever the call has read before, whatever the scan header selects and whatever follows it. *)
Theorem C64_refuted :
  forall dbg rayon d a fill1 precision lines samples cs tabs fill2 s ks rest,
    reachable dbg rayon d -> between_segments dbg rayon d a ->
    header_ok lines samples cs -> Forall (fun s => hseg_ok (snd s)) tabs -> sofs tabs = [] ->
    scan_ok s -> scan_in_frame (frame_of 2 precision lines samples cs) s ks ->
    let input := a ++ marker_bytes fill1 0xC2 ++ segment (sof_bytes precision lines samples cs) ++ flat_map hseg_bytes tabs ++
                 marker_bytes fill2 0xDA ++ segment (sos_bytes s) ++ rest in
    bytes input -> snd (decode dbg rayon d input) = Panic PUnimplemented.
Proof. exact progressive_panics. Qed.
Print Assumptions C64_refuted.

(** The usual first scan of a progressive colour image: the DC coefficients, without their
    lowest bit. *)
Definition prog_comps : list comp_spec := [mkCS 1 2 2 0; mkCS 2 1 1 0; mkCS 3 1 1 0].
Definition prog_scan : scan_spec := mkSpS [mkSC 1 0 0; mkSC 2 1 0; mkSC 3 1 0] 0 0 0 1.
Example C64_case :
  between_segments true false decoder_default [0xFF; 0xD8] /\ header_ok 480 640 prog_comps /\ scan_ok prog_scan /\
  scan_in_frame (frame_of 2 8 480 640 prog_comps) prog_scan [0; 1; 2] /\
  decode_fresh true false ([0xFF; 0xD8] ++ marker_bytes 0 0xC2 ++ segment (sof_bytes 8 480 640 prog_comps) ++
    flat_map hseg_bytes [] ++ marker_bytes 0 0xDA ++ segment (sos_bytes prog_scan) ++ []) = Panic PUnimplemented.
Proof.
  split; [apply (header_between true false decoder_default 0 []); constructor|].
  split; [split; [lia|lia|discriminate|cbn; lia| |]; repeat apply Forall_cons; try apply Forall_nil; unfold comp_range, factors_ok, is_byte, nibble; cbn; lia|].
  split; [split; [|unfold is_byte, nibble; cbn; lia]; repeat constructor; cbn; unfold is_byte, nibble; lia|].
  split; [|vm_compute; reflexivity].
  split; [cbn; lia|]. split; [|repeat constructor; lia].
  repeat constructor; cbn; try lia; intros [|[|[|j]]] H; try (exfalso; lia); cbn; discriminate.
Qed.
