(** Streaming: the codec, the blocking reader, prefixes and trailing data (C05-C08, C43, C48). *)
From Verif Require Import Base SpecBits Biterator Types Huffman Idct Parsers Decode SpecGlobal SpecStream HuffmanP3 GlobalP StreamP2 TraceP RowState RowStateP Samples.

(** ** C05: the result does not depend on the chunking *)

(** Proved for files without end-of-band-run symbols in their AC tables (that is, for every
    sequential file) and, if combine re-runs a resumed [factory] (rerun = true), without
    restart intervals.  The two theorems below show that both restrictions are needed. *)
Theorem C05_chunking_partial :
  forall dbg rerun rayon chunks img, Forall bytes chunks ->
    decode_fresh dbg rayon (concat chunks) = Ok img ->
    no_eob_runs dbg rayon (concat chunks) ->
    rerun = false \/ no_restarts dbg rayon (concat chunks) ->
    exists k, codec_feed dbg rerun rayon codec_new [] chunks = (k, [], Ok (Some img)).
Proof. exact stream_image. Qed.
Print Assumptions C05_chunking_partial.

(** Errors other than end of input are also independent of the chunking. *)
Theorem C05_chunking_error_partial :
  forall dbg rerun rayon chunks e, Forall bytes chunks ->
    decode_fresh dbg rayon (concat chunks) = Fail e -> e <> EEof ->
    no_eob_runs dbg rayon (concat chunks) ->
    rerun = false \/ no_restarts dbg rayon (concat chunks) ->
    exists k buf, codec_feed dbg rerun rayon codec_new [] chunks = (k, buf, Fail e).
Proof. exact stream_error. Qed.
Print Assumptions C05_chunking_error_partial.

Example tiny_ok : decode_fresh true false tiny = Ok [128; 128; 128].
Proof. vm_compute. reflexivity. Qed.
Example tiny_no_eob : no_eob_runs true false tiny.
Proof. eapply no_eob_runs_check; [exact tiny_ok|vm_compute; reflexivity]. Qed.
Example tiny_no_restarts : no_restarts true false tiny.
Proof. eapply no_restarts_check; [exact tiny_ok|vm_compute; reflexivity]. Qed.
(** [tiny] cut inside a marker, inside a segment, with an empty chunk, and before EOI. *)
Definition tiny_chunks : list (list Z) :=
  [firstn 1 tiny; firstn 9 (skipn 1 tiny); []; firstn 140 (skipn 10 tiny); skipn 150 tiny].
Example C05_case :
  concat tiny_chunks = tiny /\
  snd (codec_feed true true false codec_new [] tiny_chunks) = Ok (Some [128; 128; 128]) /\
  no_eob_runs true false tiny /\ no_restarts true false tiny.
Proof. split; [vm_compute; reflexivity|]. split; [vm_compute; reflexivity|]. exact (conj tiny_no_eob tiny_no_restarts). Qed.

(** Refuted in general.  A cut inside the extra bits of an end-of-band run is an error: the
    check there reports a message instead of asking for more input. *)
Theorem C05_chunking_refuted :
  exists chunks img,
    decode_fresh true false (concat chunks) = Ok img /\
    decode_fresh false false (concat chunks) = Ok img /\
    (forall rerun, snd (codec_feed true rerun false codec_new [] chunks) = Fail EOutOfBits) /\
    (forall rerun, snd (codec_feed false rerun false codec_new [] chunks) = Fail EOutOfBits).
Proof.
  exists [eob_head ++ eob_scan1; eob_scan2], [0; 135; 0].
  split; [vm_compute; reflexivity|]. split; [vm_compute; reflexivity|]. split; intros [|]; vm_compute; reflexivity.
Qed.
Print Assumptions C05_chunking_refuted.

(** If the closure counting MCUs is run again when the parser resumes inside a restart
    marker, a cut there loses the image (a panic in the debug build, no answer in release);
    if it is not, the same cut is harmless. *)
Theorem C05_chunking_restart_refuted :
  exists a b img,
    decode_fresh true false (a ++ b) = Ok img /\ decode_fresh false false (a ++ b) = Ok img /\
    snd (codec_feed true true false codec_new [] [a; b]) = Panic POverflow /\
    snd (codec_feed false true false codec_new [] [a; b]) = Ok None /\
    snd (codec_feed true false false codec_new [] [a; b]) = Ok (Some img).
Proof.
  exists rst_part1, rst_part2. eexists.
  split; [vm_compute; reflexivity|]. split; [vm_compute; reflexivity|].
  split; [vm_compute; reflexivity|]. split; vm_compute; reflexivity.
Qed.
Print Assumptions C05_chunking_restart_refuted.

(** ** C06: no early answer, no second answer, no lost bytes *)

(** On a proper prefix of a decodable file, however cut, the codec asks for more. *)
Theorem C06_no_early_answer_partial :
  forall dbg rerun rayon input s chunks img, Forall bytes chunks -> bytes s -> s <> [] -> concat chunks ++ s = input ->
    decode_fresh dbg rayon input = Ok img ->
    no_eob_runs dbg rayon input -> rerun = false \/ no_restarts dbg rayon input ->
    exists k buf, codec_feed dbg rerun rayon codec_new [] chunks = (k, buf, Ok None).
Proof. exact stream_prefix. Qed.
Print Assumptions C06_no_early_answer_partial.

(** When more bytes follow the file, the image comes with the chunk that completes it, and
    exactly the bytes after the file are left. *)
Theorem C06_answer_in_time_partial :
  forall dbg rerun rayon input s chunks img, Forall bytes chunks -> concat chunks = input ++ s ->
    decode_fresh dbg rayon input = Ok img ->
    no_eob_runs dbg rayon input -> rerun = false \/ no_restarts dbg rayon input ->
    exists done c rest k0 buf0 k buf', chunks = done ++ c :: rest /\
      codec_feed dbg rerun rayon codec_new [] done = (k0, buf0, Ok None) /\
      codec_decode dbg rerun rayon k0 (buf0 ++ c) = (k, buf', Ok (Some img)) /\ buf' ++ concat rest = s.
Proof. exact stream_tail. Qed.
Print Assumptions C06_answer_in_time_partial.

(** The bytes received are those dropped so far followed by those in the buffer, after any
    sequence of arrivals and calls, whatever the calls answered. *)
Theorem C06_bytes_accounted :
  forall dbg rerun rayon k buf got, history dbg rerun rayon k buf got -> exists dropped, got = dropped ++ buf.
Proof. exact bytes_accounted. Qed.
Print Assumptions C06_bytes_accounted.

(** An image is answered only by a call that drops an end-of-image marker, and everything up
    to it; so no marker is answered twice and nothing is answered before one arrives. *)
Theorem C06_image_at_marker :
  forall dbg rerun rayon k buf k' buf' img, streaming dbg rerun rayon k buf ->
    codec_decode dbg rerun rayon k buf = (k', buf', Ok (Some img)) ->
    exists pre, buf = pre ++ [255; 0xD9] ++ buf'.
Proof. exact image_at_eoi. Qed.
Print Assumptions C06_image_at_marker.

Example C06_case :
  let r := codec_feed true true false codec_new [] (firstn 4 tiny_chunks) in
  snd r = Ok None /\
  let x := codec_decode true true false (fst (fst r)) (snd (fst r) ++ skipn 150 tiny ++ [1; 2; 3]) in
  snd x = Ok (Some [128; 128; 128]) /\ snd (fst x) = [1; 2; 3].
Proof. vm_compute. repeat split; reflexivity. Qed.

(** ** C07: the blocking reader *)

Theorem C07_reader_partial :
  forall dbg rerun rayon reads img, Forall bytes reads ->
    decode_fresh dbg rayon (concat reads) = Ok img ->
    no_eob_runs dbg rayon (concat reads) -> rerun = false \/ no_restarts dbg rayon (concat reads) ->
    snd (read_decode dbg rerun rayon codec_new [] reads) = Ok img.
Proof. exact read_image. Qed.
Print Assumptions C07_reader_partial.

Theorem C07_reader_error_partial :
  forall dbg rerun rayon reads e, Forall bytes reads ->
    decode_fresh dbg rayon (concat reads) = Fail e -> e <> EEof ->
    no_eob_runs dbg rayon (concat reads) -> rerun = false \/ no_restarts dbg rayon (concat reads) ->
    snd (read_decode dbg rerun rayon codec_new [] reads) = Fail e.
Proof. exact read_error. Qed.
Print Assumptions C07_reader_error_partial.

(** The reader inherits the codec's dependence on the cuts. *)
Theorem C07_reader_refuted :
  exists reads img,
    decode_fresh true false (concat reads) = Ok img /\
    (forall rerun, snd (read_decode true rerun false codec_new [] reads) = Fail EOutOfBits).
Proof.
  exists [eob_head ++ eob_scan1; eob_scan2], [0; 135; 0].
  split; [vm_compute; reflexivity|]. intros [|]; vm_compute; reflexivity.
Qed.
Print Assumptions C07_reader_refuted.

Example C07_case : snd (read_decode true true false codec_new [] [firstn 77 tiny; skipn 77 tiny]) = Ok [128; 128; 128].
Proof. vm_compute. reflexivity. Qed.

(** ** C08: a failed MCU is rolled back *)

(** About the stateful model, in which the reader, predictors and run are mutated while the
    blocks are decoded and put back on failure. *)
Theorem C08_rollback :
  forall dbg d b d' b' e, row_state dbg d b = ((d', b'), Fail e) ->
    (bi_input b' = bi_input b /\ bi_bits b' = bi_bits b /\ bi_count b' = bi_count b) /\
    ss_preds (d_ss d') = ss_preds (d_ss d) /\ ss_eob (d_ss d') = ss_eob (d_ss d) /\
    (exists scratch, d' = set_ss d (set_coefs (d_ss d) scratch)).
Proof. exact rollback. Qed.
Print Assumptions C08_rollback.

(** So an attempt after the failure, with whatever input, does what a first attempt does. *)
Theorem C08_retry :
  forall dbg d b d' b' e c, row_state dbg d b = ((d', b'), Fail e) -> row_state dbg d' c = row_state dbg d c.
Proof. exact row_retry. Qed.
Print Assumptions C08_retry.

(** The stateful model is the one the decoder runs. *)
Theorem C08_same_row :
  forall dbg d b,
    match decode_row dbg d b with
    | Ok (d', b') => row_state dbg d b = ((d', b'), Ok tt)
    | Fail e => snd (row_state dbg d b) = Fail e
    | Panic p => snd (row_state dbg d b) = Panic p
    | UB => snd (row_state dbg d b) = UB
    end.
Proof. exact same_row. Qed.
Print Assumptions C08_same_row.

(** A scan that runs out of input inside an MCU has done the MCUs before that one, holds their
    state and the position after them, and goes on with the MCU that failed. *)
Theorem C08_scan :
  forall dbg rerun final todo ph d b d' b' todo', scan_loop dbg rerun final todo ph d b = (d', b', ScNeed todo' PhRow) ->
    exists done, todo = done ++ todo' /\ todo' <> [] /\ scan_loop dbg rerun final done ph d b = (d', b', ScDone) /\ decode_row dbg d' b' = Fail EEof.
Proof. exact scan_suspended. Qed.
Print Assumptions C08_scan.

(** The second of two MCUs is incomplete: the reader is behind the restart marker. *)
Example C08_scan_case :
  let d := k_dec (fst (fst (codec_feed true false false codec_new [] [rst_head]))) in
  exists d', scan_loop true false true [(0, 0); (0, 1)] PhRow d (biter_new (rst_mcu ++ [0xFF; 0xD0; 0; 0])) = (d', biter_new [0; 0], ScNeed [(0, 1)] PhRow).
Proof. vm_compute. eexists. reflexivity. Qed.

(** A failure that strikes after the first blocks changed the reader, and then a retry. *)
Example C08_case :
  let d := k_dec (fst (fst (codec_feed true false false codec_new [] [eob_head]))) in
  let b := biter_new (eob_scan1) in
  let r := row_state true d b in
  snd r = Fail EOutOfBits /\ snd (fst r) = b /\
  (match d_scan d, d_frame d with
   | Some sc, Some fr =>
       let st := fst (comps_state true d sc (f_components fr) (s_headers sc) 0 MAX_BLOCKS ([], b, ss_eob (d_ss d), ss_preds (d_ss d))) in
       snd (fst (fst st)) <> b /\ snd st <> ss_preds (d_ss d)
   | _, _ => False
   end) /\
  snd (row_state true (fst (fst r)) (biter_new (eob_scan1 ++ eob_scan2))) = Ok tt.
Proof. vm_compute. repeat split; discriminate || reflexivity. Qed.

(** ** C43: data after the end of image *)

(** Refuted for every file and every suffix: one-shot decode panics. *)
Theorem C43_trailing_refuted :
  forall dbg rayon d input s img, snd (decode dbg rayon d input) = Ok img -> s <> [] ->
    snd (decode dbg rayon d (input ++ s)) = Panic PAssert.
Proof. exact decode_trailing. Qed.
Print Assumptions C43_trailing_refuted.

(** The codec and the reader accept it: C06_answer_in_time_partial for the codec; for the
    reader the image is returned whatever follows the file. *)
Theorem C43_trailing_reader_partial :
  forall dbg rerun rayon input s reads img, Forall bytes reads -> concat reads = input ++ s ->
    decode_fresh dbg rayon input = Ok img ->
    no_eob_runs dbg rayon input -> rerun = false \/ no_restarts dbg rayon input ->
    snd (read_decode dbg rerun rayon codec_new [] reads) = Ok img.
Proof. exact read_tail. Qed.
Print Assumptions C43_trailing_reader_partial.

Example C43_case :
  decode_fresh true false (tiny ++ [0]) = Panic PAssert /\ decode_fresh false true (tiny ++ [0]) = Panic PAssert /\
  snd (read_decode true true false codec_new [] [tiny ++ [0]]) = Ok [128; 128; 128].
Proof. vm_compute. repeat split; reflexivity. Qed.

(** ** C48: prefixes *)

(** A proper prefix of a decodable input is reported as incomplete.  What is missing: with
    an end-of-band-run symbol in a table the error may be another one. *)
Theorem C48_prefix_partial :
  forall dbg rayon d a s img, reachable dbg rayon d -> bytes a -> s <> [] ->
    snd (decode dbg rayon d (a ++ s)) = Ok img ->
    snd (decode dbg rayon d a) = Fail EEof \/
    snd (decode dbg rayon d a) = Fail EOutOfBits /\
      exists p e b, from dbg false rayon (PcMarker, d, biter_new (a ++ s)) (p, e, b) /\ has_eob_runs e.
Proof. exact decode_prefix. Qed.
Print Assumptions C48_prefix_partial.

(** In particular it never is another image. *)
Theorem C48_no_other_image :
  forall dbg rayon d a s img img', reachable dbg rayon d -> bytes a -> s <> [] ->
    snd (decode dbg rayon d (a ++ s)) = Ok img -> snd (decode dbg rayon d a) <> Ok img'.
Proof. exact prefix_no_image. Qed.
Print Assumptions C48_no_other_image.

Theorem C48_prefix_refuted :
  exists a s img, s <> [] /\ decode_fresh true false (a ++ s) = Ok img /\ decode_fresh true false a = Fail EOutOfBits /\
    decode_fresh false false (a ++ s) = Ok img /\ decode_fresh false false a = Fail EOutOfBits.
Proof.
  exists (eob_head ++ eob_scan1), eob_scan2, [0; 135; 0]. split; [discriminate|].
  split; [vm_compute; reflexivity|]. split; [vm_compute; reflexivity|]. split; vm_compute; reflexivity.
Qed.
Print Assumptions C48_prefix_refuted.

Example C48_case : decode_fresh true false (firstn 150 tiny) = Fail EEof /\ decode_fresh true false (firstn 1 tiny) = Fail EEof.
Proof. vm_compute. split; reflexivity. Qed.
