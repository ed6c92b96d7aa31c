(** Damaged files in pieces: noticed, or waited for (C78). *)
From Verif Require Import Base SpecBits SpecReader SpecMarker SpecHuffman SpecBlock SpecTables SpecFrame SpecSegments SpecScan SpecPlane SpecUpsample SpecImage SpecColor SpecFile SpecAnswer SpecStream SpecPieces SpecCode SpecWait SpecLimits Huffman Decode WaitP WaitP2 Props_Scan Props_Answer Props_Pieces.

(** ** C78: bits that are no code are waited for *)
(** The whole file has arrived, and any bytes [s] behind it, in any pieces.  The scan data
    [ds] hold bits that begin with no Huffman code where a code is due (the reference finds
    no MCUs).  The codec still asks for more, and everything from the damaged MCU on stays
    in its buffer, all of [s] included, so that no number of further bytes ends it.  Only
    where the end of the input is known, for one-shot decoding and the blocking reader, is
    there an error: the one for the end of the input. *)
Theorem C78_notices_refuted :
  forall dbg rerun rayon segs h fill1 fill2 ss ts qs ds post fill3 s chunks,
    header_for segs h ss ts qs -> bytes ds -> clean_end ds -> post_ok post ->
    let cs := fh_comps h in let lines := fh_lines h in let samples := fh_samples h in 0 < lines -> 0 < samples ->
    sequential_tables segs -> no_intervals segs -> dc_sizes ts ->
    ref_scan cs ts 0 0 (mcus lines (largest (map cs_v cs)) * mcus samples (largest (map cs_h cs))) ds [] = None ->
    let after := flat_map hseg_bytes post ++ marker_bytes fill3 0xD9 in
    let file := file_bytes segs fill1 fill2 (mkSpS ss 0 63 0 0) (stuff ds) post fill3 in
    Forall bytes chunks -> concat chunks = file ++ s ->
    decode_fresh dbg rayon (file ++ s) = Fail EEof /\
    snd (read_decode dbg rerun rayon codec_new [] chunks) = Fail EEof /\
    exists k kept, codec_feed dbg rerun rayon codec_new [] chunks = (k, kept ++ after ++ s, Ok None).
Proof. exact waits. Qed.
Print Assumptions C78_notices_refuted.

(** ** C78: data in which all MCUs are found are answered *)
(** The scan data are any bytes with any RSTn markers between them in which the reference
    finds the MCUs [ms].  The call whose piece completes the file gives the answer of
    decoding the file at once (an image, an error or a panic, see C63_file); the calls before
    it ask for more; the bytes behind the file are left. *)
Theorem C78_readable_partial :
  forall dbg rerun rayon segs h fill1 fill2 ss ts qs ds more post fill3 ms s chunks,
    header_for segs h ss ts qs -> bytes ds -> more_ok more -> post_ok post ->
    let cs := fh_comps h in let lines := fh_lines h in let samples := fh_samples h in 0 < lines -> 0 < samples ->
    let file := file_bytes segs fill1 fill2 (mkSpS ss 0 63 0 0) (scan_bytes ds more) post fill3 in
    sequential_tables (segs ++ post) -> rerun = false \/ no_intervals (segs ++ post) ->
    ref_scan cs ts (last (dris segs) 0) 0 (mcus lines (largest (map cs_v cs)) * mcus samples (largest (map cs_h cs))) ds more = Some ms ->
    Forall bytes chunks -> concat chunks = file ++ s ->
    exists done c rest k0 buf0 k buf', chunks = done ++ c :: rest /\
      codec_feed dbg rerun rayon codec_new [] done = (k0, buf0, Ok None) /\
      codec_decode dbg rerun rayon k0 (buf0 ++ c) = (k, buf', lift (decode_fresh dbg rayon file)) /\
      (exists left, left ++ concat rest = s /\ ((forall p, decode_fresh dbg rayon file <> Panic p) -> left = buf')) /\
      lift (decode_fresh dbg rayon file) <> Ok None.
Proof. exact data_tail. Qed.
Print Assumptions C78_readable_partial.

(** ** C78: any data are answered or waited for, and only the end of the input is waited for *)
(** The scan data are any bytes with any RSTn markers, damaged in any way, with or without
    restart intervals.  Either decoding the file at once reports the end of the input; then
    whatever follows the file does not change that, the codec asks for more for ever, and
    everything behind the damaged MCU stays in its buffer.  Or decoding the file at once
    gives another outcome; then the call that completes some part of the file gives the same
    outcome, the calls before it ask for more, and after an image exactly [s] is left. *)
Theorem C78_any_data_partial :
  forall dbg rerun rayon segs h fill1 fill2 ss ts qs data post fill3 s chunks,
    header_for segs h ss ts qs -> rst_only data -> post_ok post ->
    sequential_tables (segs ++ post) -> rerun = false \/ no_intervals (segs ++ post) ->
    let after := flat_map hseg_bytes post ++ marker_bytes fill3 0xD9 in
    let file := file_bytes segs fill1 fill2 (mkSpS ss 0 63 0 0) data post fill3 in
    Forall bytes chunks -> concat chunks = file ++ s ->
    (decode_fresh dbg rayon file = Fail EEof /\ decode_fresh dbg rayon (file ++ s) = Fail EEof /\
     snd (read_decode dbg rerun rayon codec_new [] chunks) = Fail EEof /\
     exists k kept, codec_feed dbg rerun rayon codec_new [] chunks = (k, kept ++ after ++ s, Ok None)) \/
    (decode_fresh dbg rayon file <> Fail EEof /\
     exists done c rest k0 buf0 k buf', chunks = done ++ c :: rest /\
       codec_feed dbg rerun rayon codec_new [] done = (k0, buf0, Ok None) /\
       codec_decode dbg rerun rayon k0 (buf0 ++ c) = (k, buf', lift (decode_fresh dbg rayon file)) /\
       (forall img, decode_fresh dbg rayon file = Ok img -> buf' ++ concat rest = s)).
Proof. exact any_data. Qed.
Print Assumptions C78_any_data_partial.

(** An 8x1 file without restart interval.  111 begins no DC code of its table.  Followed by a
    second, intact file, in two pieces: the codec holds both files but for the header of the
    first and waits; decoding at once reports the end of the input. *)
Definition wait_file (ds : list Z) : list Z := file_bytes (flat_segs 1 8 ex_cs) 0 0 (mkSpS ex_ss 0 63 0 0) (stuff ds) [] 0.
Definition wait_ds : list Z := [0xFE; 0; 0; 0; 0; 0; 0].
Example C78_notices_case :
  mcus 1 (largest (map cs_v ex_cs)) * mcus 8 (largest (map cs_h ex_cs)) = 1 /\
  header_for (flat_segs 1 8 ex_cs) (flat_h 1 8 ex_cs) ex_ss [ex_ts; ex_ts; ex_ts] [ex_q; ex_q; ex_q] /\ clean_end wait_ds /\
  sequential_tables (flat_segs 1 8 ex_cs) /\ no_intervals (flat_segs 1 8 ex_cs) /\ dc_sizes [ex_ts; ex_ts; ex_ts] /\
  ref_scan ex_cs [ex_ts; ex_ts; ex_ts] 0 0 1 wait_ds [] = None /\
  let good_file := wait_file [0x49; 0x7F] in
  let r := codec_feed true true false codec_new [] [firstn 100 (wait_file wait_ds); skipn 100 (wait_file wait_ds); good_file] in
  snd (fst r) = wait_ds ++ [255; 0xD9] ++ good_file /\ snd r = Ok None /\
  decode_fresh true false (wait_file wait_ds) = Fail EEof.
Proof.
  assert (En : encodes (flat_segs 1 8 ex_cs) (flat_h 1 8 ex_cs) ex_ss [ex_ts; ex_ts; ex_ts] [ex_q; ex_q; ex_q] [flat_mcu ex_cs] [0x49; 0x7F]).
  { apply (flat_encodes 1 8 1 1 1 [0x49; 0x7F] 3 (repeat true 7)); try reflexivity; [flat_header|lia|byte_list|cbn; lia]. }
  split; [reflexivity|]. split; [destruct En; constructor; assumption|].
  split; [repeat first [apply Forall_nil | apply Forall_cons]; lia|]. split; [apply few_symbols; vm_compute; reflexivity|]. split; [constructor|].
  split; [repeat first [apply Forall_nil | apply Forall_cons]; cbn; lia|]. split; [vm_compute; reflexivity|]. cbv zeta. split; [vm_compute; reflexivity|]. split; vm_compute; reflexivity.
Qed.
(** The same file with other bytes, which no encoder wrote, in which the MCU is found. *)
Example C78_readable_case :
  ref_scan ex_cs [ex_ts; ex_ts; ex_ts] 0 0 1 [0x49; 0x7F; 7] [] = Some [map (fun _ => [mkQ 0 (repeat 0 63)]) [1; 2; 3]] /\
  snd (codec_feed true true false codec_new [] [firstn 100 (wait_file [0x49; 0x7F; 7]); skipn 100 (wait_file [0x49; 0x7F; 7])])
    = Ok (Some (concat (repeat [128; 128; 128] 8))).
Proof. split; vm_compute; reflexivity. Qed.
(** Data that begin with no code, with no zero bytes at their end and a marker RST0: waited for.  Data of a
    file with a restart interval of 1 whose marker is the wrong one: noticed at once. *)
Definition cut_file : list Z := file_bytes (flat_segs 1 8 ex_cs) 0 0 (mkSpS ex_ss 0 63 0 0) [0xFE; 0xFF; 0xD0; 3] [] 0.
Definition rst_segs : list (nat * hseg) := flat_segs 1 16 ex_cs ++ [(0%nat, HDri 1)].
Definition rst_file : list Z := file_bytes rst_segs 0 0 (mkSpS ex_ss 0 63 0 0) [0x49; 0x7F; 0xFF; 0xD1; 0x49; 0x7F] [] 0.
Example C78_any_data_case :
  rst_only [0xFE; 0xFF; 0xD0; 3] /\ rst_only [0x49; 0x7F; 0xFF; 0xD1; 0x49; 0x7F] /\
  decode_fresh true false cut_file = Fail EEof /\
  (let r := codec_feed true true false codec_new [] [firstn 100 cut_file; skipn 100 cut_file; wait_file [0x49; 0x7F]] in
   snd (fst r) = [0xFE; 0xFF; 0xD0; 3] ++ [255; 0xD9] ++ wait_file [0x49; 0x7F] /\ snd r = Ok None) /\
  decode_fresh true false rst_file = Fail ERstNumber /\
  snd (codec_feed true false false codec_new [] [firstn 100 rst_file; skipn 100 rst_file; [1]]) = Fail ERstNumber.
Proof.
  split; [repeat first [apply (ro_rst 0 0); [lia|] | apply ro_byte; [lia|] | constructor]|].
  split; [repeat first [apply (ro_rst 0 1); [lia|] | apply ro_byte; [lia|] | constructor]|].
  split; [vm_compute; reflexivity|]. split; [cbv zeta; split; vm_compute; reflexivity|]. split; vm_compute; reflexivity.
Qed.
