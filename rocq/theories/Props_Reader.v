(** What a blocking reader reads (C82, C07), and the images it gives one after another (C83). *)
From Verif Require Import Base SpecBits SpecReader SpecMarker SpecHuffman SpecBlock SpecTables SpecFrame SpecSegments SpecScan SpecPlane SpecFile SpecPieces Biterator Types Decode SpecGlobal SpecStream Framed SpecFramed ReaderP Samples TraceP SpecUpsample SpecImage SpecColor SpecAnswer Props_Framed Props_Scan Props_Answer Props_Pieces SpecRepeat.

(** ** C82: a blocking reader reads no more than it needs *)
(** Whatever the reader was used for before and whatever its source delivers: a call uses the
    reads [used].  Each was made only after the bytes before it had left the parser waiting (with
    only those reads, the call ends for lack of input).  If it ends for any other reason, it would
    have ended in the same way whatever the source delivers later, and leaves that untouched. *)
Theorem C82_no_read_ahead :
  forall dbg rerun rayon k buf evs k' buf' evs' a, reader_call dbg rerun rayon k buf evs = (k', buf', evs', a) ->
    exists used, evs = used ++ evs' /\
      (forall u v, used = u ++ v -> v <> [] -> snd (reader_call dbg rerun rayon k buf u) = AError EEof) /\
      ((evs' = [] /\ a = AError EEof) \/
       forall others, reader_call dbg rerun rayon k buf (used ++ others) = (k', buf', others, a)).
Proof. exact (fun dbg rerun rayon k buf evs => reads_needed dbg rerun rayon evs k buf). Qed.
Print Assumptions C82_no_read_ahead.

(** No byte is lost: what was held before and what was read are what has been used, followed by
    what is held for the next call. *)
Theorem C82_bytes_kept :
  forall dbg rerun rayon k buf evs k' buf' evs' a, streaming dbg rerun rayon k buf -> Forall (fun e => bytes (chunk_of e)) evs ->
    reader_call dbg rerun rayon k buf evs = (k', buf', evs', a) ->
    exists used dropped, evs = used ++ evs' /\ buf ++ delivered used = dropped ++ buf' /\
      ((exists img, a = AImage img) \/ a = AIo -> streaming dbg rerun rayon k' buf').
Proof. exact (fun dbg rerun rayon k buf evs k' buf' evs' a S B => call_bytes dbg rerun rayon evs k buf k' buf' evs' a B S). Qed.
Print Assumptions C82_bytes_kept.

(** The first file of [C49_case] in two reads, with two bytes behind it in the second; the third
    read is not made. *)
Example C82_case : forall dbg, let rerun := true in let rayon := false in
  let evs := [Data (firstn 100 seven); Data (skipn 100 seven ++ [1; 2]); Data [3]] in
  streaming dbg rerun rayon codec_new [] /\ Forall (fun e => bytes (chunk_of e)) evs /\
  exists k', reader_call dbg rerun rayon codec_new [] evs = (k', [1; 2], [Data [3]], AImage [135; 135; 135]).
Proof.
  intros dbg. cbv zeta. split; [constructor|]. split.
  - vm_compute. repeat constructor; discriminate.
  - eexists. destruct dbg; vm_compute; reflexivity.
Qed.

(** ** C07: the reads of a whole file *)
(** The answer comes with the read that delivers the last byte of the file, whatever bytes follow
    it; those that arrived with it are kept, and no further read is made. *)
Theorem C07_reads_partial :
  forall dbg rerun rayon file s reads img, Forall bytes reads -> concat reads = file ++ s ->
    decode_fresh dbg rayon file = Ok img -> no_eob_runs dbg rayon file -> rerun = false \/ no_restarts dbg rayon file ->
    exists before c rest k buf, reads = before ++ c :: rest /\ (length (concat before) < length file)%nat /\
      reader_call dbg rerun rayon codec_new [] (map Data reads) = (k, buf, map Data rest, AImage img) /\ buf ++ concat rest = s.
Proof. exact image_reads. Qed.
Print Assumptions C07_reads_partial.
Theorem C07_file_reads_partial :
  forall dbg rerun rayon segs h fill1 fill2 ss ts qs ms data post fill3 s reads,
    encodes segs h ss ts qs ms data -> post_ok post ->
    let file := file_bytes segs fill1 fill2 (mkSpS ss 0 63 0 0) data post fill3 in
    sequential_tables (segs ++ post) -> rerun = false \/ no_intervals (segs ++ post) -> Forall bytes reads -> concat reads = file ++ s ->
    exists before c rest k buf, reads = before ++ c :: rest /\ (length (concat before) < length file)%nat /\
      reader_call dbg rerun rayon codec_new [] (map Data reads) = (k, buf, map Data rest, answered (decode_fresh dbg rayon file)) /\
      ((forall p, decode_fresh dbg rayon file <> Panic p) -> buf ++ concat rest = s).
Proof. exact file_reads. Qed.
Print Assumptions C07_file_reads_partial.
(** The files of [C82_case] and [C05_files_case] satisfy the hypotheses. *)
Example C07_reads_case :
  bytes seven /\ decode_fresh true false seven = Ok [135; 135; 135] /\ no_eob_runs true false seven /\ no_restarts true false seven /\
  let reads := [firstn 100 seven; skipn 100 seven ++ [1; 2]; [3]] in
  concat reads = seven ++ [1; 2; 3] /\ (length (concat (firstn 1 reads)) < length seven)%nat.
Proof.
  destruct (two_ok seven (or_intror eq_refl)) as [A [_ [B C]]]. split; [exact A|]. split; [vm_compute; reflexivity|]. split; [exact B|]. split; [exact C|].
  cbv zeta. split; [vm_compute; reflexivity|]. apply Nat.ltb_lt. vm_compute. reflexivity.
Qed.
Example C07_file_reads_case :
  let cs := comps_422 1 2 3 0 0 0 in
  encodes (flat_segs 1 3 cs) (flat_h 1 3 cs) ex_ss [ex_ts; ex_ts; ex_ts] [ex_q; ex_q; ex_q] [flat_mcu cs] [0x49; 0x2F] /\ sequential_tables (flat_segs 1 3 cs ++ []) /\ no_intervals (flat_segs 1 3 cs ++ []) /\
  let f := flat_file 1 3 cs [0x49; 0x2F] in
  snd (reader_call true true false codec_new [] (map Data [firstn 100 f; skipn 100 f; [7]])) = APanic PIndex.
Proof.
  cbv zeta. destruct C05_files_case as (_ & _ & A & B & C & _). split; [exact A|]. split; [exact B|]. split; [exact C|]. vm_compute. reflexivity.
Qed.

(** ** C83: one image after another, read or framed *)
(** A caller that calls [ReadDecoder::decode] again after every image gets the images of a framed
    stream over [DecoderCodec] on the same pieces, in the same order, and the same error or panic
    after them; at the end of the input the framed stream ends (with an error if bytes are left)
    and the reader reports the end of the input.  Both always come to an end. *)
Theorem C83_read_as_framed :
  forall dbg rerun rayon k buf pieces, Forall bytes pieces -> streaming dbg rerun rayon k buf ->
    exists imgs framed_end read_end, same_end framed_end read_end /\
      (forall l, frames dbg rerun rayon (fun k => k) k buf pieces l <-> l = map AImage imgs ++ framed_end) /\
      (forall l, repeated dbg rerun rayon k buf (map Data pieces) l <-> l = map AImage imgs ++ read_end) /\
      length read_end = 1%nat /\ (forall img, ~ In (AImage img) read_end).
Proof. exact framed_as_read. Qed.
Print Assumptions C83_read_as_framed.

(** The two streams of C49_refuted: the first ends with bytes left over, the second does not. *)
Example C83_case : forall dbg, let rerun := true in let rayon := false in
  Forall bytes [tiny; tiny] /\ Forall bytes [tiny0; seven] /\ streaming dbg rerun rayon codec_new [] /\
  repeated dbg rerun rayon codec_new [] [Data tiny; Data tiny] [AImage [128; 128; 128]; AError EEof] /\
  repeated dbg rerun rayon codec_new [] [Data tiny0; Data seven] [AImage [128; 128; 128]; AImage [128; 128; 128]; AError EEof].
Proof.
  intros dbg. cbv zeta. split; [vm_compute; repeat constructor; discriminate|]. split; [vm_compute; repeat constructor; discriminate|]. split; [constructor|]. split.
  - eapply repeated_image; [destruct dbg; vm_compute; reflexivity|].
    eapply repeated_last; [destruct dbg; vm_compute; reflexivity|discriminate].
  - eapply repeated_image; [destruct dbg; vm_compute; reflexivity|].
    eapply repeated_image; [destruct dbg; vm_compute; reflexivity|].
    eapply repeated_last; [destruct dbg; vm_compute; reflexivity|discriminate].
Qed.
