(** The memory a decoder takes (C81). *)
From Verif Require Import Base SpecBits SpecMarker SpecHuffman SpecBlock SpecTables SpecFrame SpecSegments SpecScan SpecImage SpecFile SpecAnswer SpecLimits SpecStream SpecGlobal SpecMemory
  Idct Types Decode MemoryP MemoryP2 MemoryCase Props_Scan Props_Answer.

(** ** C81: the samples held fit the size in a frame header of the input *)
(** Any bytes.  In every state that a fresh decoder passes through, and in the state in which it
    ends (whatever came out), both the planes of the last scan and the planes under
    construction hold no samples, or no more than a frame header of the input with at most four
    components accounts for.  The block buffer holds at most 10 blocks. *)
Theorem C81_bounded :
  forall dbg rayon input d,
    bytes input -> passes dbg rayon input d \/ d = fst (decode dbg rayon decoder_default input) ->
    (samples_in (d_planes d) = 0 \/ declared input (samples_in (d_planes d))) /\
    (samples_in (ss_results (d_ss d)) = 0 \/ declared input (samples_in (ss_results (d_ss d)))) /\
    coefs_in (ss_coefs (d_ss d)) <= 640.
Proof. exact bounded_by_header. Qed.
Print Assumptions C81_bounded.

(** ** C81: no use of a decoder or of a codec takes more than the largest size accounts for *)
Theorem C81_history :
  forall dbg rerun rayon p d b, occurs dbg rerun rayon (p, d, b) ->
    samples_in (d_planes d) <= room_for 65535 65535 4 /\ samples_in (ss_results (d_ss d)) <= room_for 65535 65535 4 /\
    coefs_in (ss_coefs (d_ss d)) <= 640.
Proof. exact bounded_history. Qed.
Print Assumptions C81_history.

(** ** C81: a codec holds no more than a frame header among the bytes that have arrived *)
(** Any chunks and any calls, also across several images, and also in the state that a failing
    call leaves. *)
Theorem C81_stream :
  forall dbg rerun rayon k buf got k',
    history dbg rerun rayon k buf got -> k' = k \/ k' = fst (fst (codec_decode dbg rerun rayon k buf)) ->
    (samples_in (d_planes (k_dec k')) = 0 \/ declared_so_far got (samples_in (d_planes (k_dec k')))) /\
    (samples_in (ss_results (d_ss (k_dec k'))) = 0 \/ declared_so_far got (samples_in (ss_results (d_ss (k_dec k'))))) /\
    coefs_in (ss_coefs (d_ss (k_dec k'))) <= 640.
Proof. exact stream_bounded. Qed.
Print Assumptions C81_stream.

(** ** C81: the memory is taken at the scan header, before any scan data *)
(** Any header and scan header, then any bytes or none. *)
Theorem C81_early :
  forall dbg rayon segs h fill1 fill2 ss ts qs rest,
    header_for segs h ss ts qs ->
    let file := marker_bytes fill1 0xD8 ++ flat_map hseg_bytes segs ++ marker_bytes fill2 0xDA ++ segment (sos_bytes (mkSpS ss 0 63 0 0)) ++ rest in
    bytes file ->
    exists d, passes dbg rayon file d /\ map (@lenZ _) (ss_results (d_ss d)) = map (padded (fh_lines h) (fh_samples h) (fh_comps h)) (fh_comps h).
Proof. exact taken_early. Qed.
Print Assumptions C81_early.

(** ** C81: so 200 bytes are enough to make the decoder take memory for any size *)
Theorem C81_short :
  forall dbg rayon lines samples, 0 <= lines < 65536 -> 0 <= samples < 65536 ->
    exists file d, bytes file /\ lenZ file <= 200 /\ passes dbg rayon file d /\ 3 * (lines * samples) <= samples_in (ss_results (d_ss d)).
Proof. exact few_bytes. Qed.
Print Assumptions C81_short.

(** An image of 1 line of 8 samples and three components takes 3 times 64 samples; the header accounts for more. *)
Example C81_bounded_case :
  let file := flat_file 1 8 [mkCS 1 1 1 0; mkCS 2 1 1 0; mkCS 3 1 1 0] [0x49; 0x7F] in
  let d := fst (decode true false decoder_default file) in
  bytes file /\ samples_in (d_planes d) = 192 /\ samples_in (ss_results (d_ss d)) = 0 /\ coefs_in (ss_coefs (d_ss d)) = 640 /\ 192 <= room_for 1 8 3.
Proof.
  cbv zeta. split; [vm_compute; repeat constructor; discriminate|]. split; [vm_compute; reflexivity|]. split; [vm_compute; reflexivity|]. split; [vm_compute; reflexivity|vm_compute; discriminate].
Qed.

(** The same file in two chunks, the second of 5 bytes: nothing is held before the scan header
    has arrived, then 3 times 64 samples are under construction, then they are finished. *)
Example C81_stream_case :
  let file := flat_file 1 8 [mkCS 1 1 1 0; mkCS 2 1 1 0; mkCS 3 1 1 0] [0x49; 0x7F] in
  let n := (length file - 4)%nat in
  let '(k1, buf1, r1) := codec_decode true false false codec_new (firstn n file) in
  let '(k2, buf2, r2) := codec_decode true false false k1 (buf1 ++ skipn n file) in
  history true false false k1 buf1 (firstn n file) /\ history true false false k2 buf2 (firstn n file ++ skipn n file) /\
  samples_in (d_planes (k_dec k1)) = 0 /\ samples_in (ss_results (d_ss (k_dec k1))) = 192 /\
  samples_in (d_planes (k_dec k2)) = 192 /\ samples_in (ss_results (d_ss (k_dec k2))) = 0.
Proof.
  cbv zeta. destruct (codec_decode true false false codec_new _) as [[k1 buf1] r1] eqn:E1.
  destruct (codec_decode true false false k1 _) as [[k2 buf2] r2] eqn:E2.
  assert (H0 : history true false false codec_new (firstn (length (flat_file 1 8 [mkCS 1 1 1 0; mkCS 2 1 1 0; mkCS 3 1 1 0] [0x49; 0x7F]) - 4) (flat_file 1 8 [mkCS 1 1 1 0; mkCS 2 1 1 0; mkCS 3 1 1 0] [0x49; 0x7F]))
    (firstn (length (flat_file 1 8 [mkCS 1 1 1 0; mkCS 2 1 1 0; mkCS 3 1 1 0] [0x49; 0x7F]) - 4) (flat_file 1 8 [mkCS 1 1 1 0; mkCS 2 1 1 0; mkCS 3 1 1 0] [0x49; 0x7F]))).
  { apply (history_more true false false codec_new [] []); [constructor|vm_compute; repeat constructor; discriminate]. }
  vm_compute in E1. injection E1 as <- <- <-. vm_compute in E2. injection E2 as <- <- <-.
  assert (H1 : history true false false _ _ _) by (eapply history_call; [exact H0|vm_compute; reflexivity]).
  split; [exact H1|]. split; [eapply history_call; [apply history_more; [exact H1|vm_compute; repeat constructor; discriminate]|vm_compute; reflexivity]|].
  repeat split; reflexivity.
Qed.

(** Headers for the largest size, with no data behind: 3 planes of 65536 by 65536 samples. *)
Example C81_early_case :
  let cs := [mkCS 1 1 1 0; mkCS 2 1 1 0; mkCS 3 1 1 0] in
  header_for (flat_segs 65535 65535 cs) (flat_h 65535 65535 cs) ex_ss [ex_ts; ex_ts; ex_ts] [ex_q; ex_q; ex_q] /\
  bytes (marker_bytes 0 0xD8 ++ flat_map hseg_bytes (flat_segs 65535 65535 cs) ++ marker_bytes 0 0xDA ++ segment (sos_bytes (mkSpS ex_ss 0 63 0 0)) ++ []) /\
  map (padded 65535 65535 cs) cs = [65536 * 65536; 65536 * 65536; 65536 * 65536].
Proof.
  cbv zeta. split; [apply (flat_header_for 65535 65535 1 1 1); [flat_header|cbn; lia]|]. split; [vm_compute; repeat constructor; discriminate|reflexivity].
Qed.
