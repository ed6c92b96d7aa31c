(** The bytes a streaming decoder keeps (C79). *)
From Verif Require Import Base SpecBits SpecReader SpecMarker SpecHuffman SpecBlock SpecTables SpecFrame SpecSegments SpecScan SpecPlane SpecUpsample SpecImage SpecColor SpecFile SpecAnswer SpecStream SpecPieces SpecCode SpecWait SpecLimits Biterator Marker MarkerP Huffman Decode BufferP Props_Scan Props_Answer Props_Pieces Props_Wait.

(** ** C79: a decoder that is going to answer keeps at most 65536 bytes, or has seen no marker *)
(** The input arrives in the pieces [chunks], and handed over at once it would be answered
    (image, error or panic).  After any of the pieces, if the codec asks for more, the buffer
    holds at most 65536 bytes or no complete marker at all.  As for C05, progressive files
    with end-of-band runs are left out, and restart intervals where the check is done again. *)
Theorem C79_bounded_partial :
  forall dbg rerun rayon chunks done rest k buf,
    Forall bytes chunks -> no_eob_runs dbg rayon (concat chunks) -> rerun = false \/ no_restarts dbg rayon (concat chunks) ->
    snd (codec_decode dbg rerun rayon codec_new (concat chunks)) <> Ok None ->
    chunks = done ++ rest -> codec_feed dbg rerun rayon codec_new [] done = (k, buf, Ok None) ->
    lenZ buf <= 65536 \/ without_marker buf.
Proof. exact bounded. Qed.
Print Assumptions C79_bounded_partial.

(** ** C79: the same for files *)
(** Any header, any scan data with any RSTn markers, any bytes [s] behind the file, any
    pieces.  Only data for which decoding at once reports the end of the input are left out
    (C78_any_data_partial says what happens to those). *)
Theorem C79_files_partial :
  forall dbg rerun rayon segs h fill1 fill2 ss ts qs data post fill3 s chunks done rest k buf,
    header_for segs h ss ts qs -> rst_only data -> post_ok post ->
    sequential_tables (segs ++ post) -> rerun = false \/ no_intervals (segs ++ post) ->
    let file := file_bytes segs fill1 fill2 (mkSpS ss 0 63 0 0) data post fill3 in
    decode_fresh dbg rayon file <> Fail EEof ->
    Forall bytes chunks -> concat chunks = file ++ s -> chunks = done ++ rest ->
    codec_feed dbg rerun rayon codec_new [] done = (k, buf, Ok None) ->
    lenZ buf <= 65536 \/ without_marker buf.
Proof. exact bounded_files. Qed.
Print Assumptions C79_files_partial.

(** ** C79: a decoder that keeps more is lost *)
(** Any bytes at all have arrived, of any build and any kind of file.  The codec asks for
    more, and asking it again with nothing new changes nothing.  If it then holds more than
    65536 bytes with a marker among them it asks for more for ever, and keeps every byte. *)
Theorem C79_stuck :
  forall dbg rerun rayon done k buf,
    Forall bytes done -> codec_feed dbg rerun rayon codec_new [] done = (k, buf, Ok None) ->
    codec_decode dbg rerun rayon k buf = (k, buf, Ok None) ->
    65536 < lenZ buf -> ~ without_marker buf ->
    forall more, codec_feed dbg rerun rayon k buf more = (k, buf ++ concat more, Ok None).
Proof. exact stuck. Qed.
Print Assumptions C79_stuck.

(** ** C79: without a marker everything is kept *)
(** Behind SOI come any bytes below 0xFF in any pieces: all of them stay in the buffer,
    although nothing in them can matter. *)
Theorem C79_junk_refuted :
  forall dbg rerun rayon js, Forall (Forall (fun x => 0 <= x < 255)) js ->
    exists k, codec_feed dbg rerun rayon codec_new [] ([255; 216] :: js) = (k, concat js, Ok None).
Proof. intros. exists codec_new. apply junk_kept. assumption. Qed.
Print Assumptions C79_junk_refuted.

(** The 8x1 file of Props_Wait.v in pieces; after the second, which ends in front of EOI, the codec holds the three bytes of the
    scan data. *)
Example C79_bounded_case :
  let file := wait_file [0x49; 0x7F; 7] in let n := (length file - 2)%nat in
  header_for (flat_segs 1 8 ex_cs) (flat_h 1 8 ex_cs) ex_ss [ex_ts; ex_ts; ex_ts] [ex_q; ex_q; ex_q] /\
  sequential_tables (flat_segs 1 8 ex_cs ++ []) /\ no_intervals (flat_segs 1 8 ex_cs ++ []) /\ rst_only [0x49; 0x7F; 7] /\
  file = file_bytes (flat_segs 1 8 ex_cs) 0 0 (mkSpS ex_ss 0 63 0 0) [0x49; 0x7F; 7] [] 0 /\
  decode_fresh true false file <> Fail EEof /\
  let r := codec_feed true true false codec_new [] [firstn 100 file; firstn (n - 100) (skipn 100 file)] in
  snd r = Ok None /\ snd (fst r) = [0x49; 0x7F; 7].
Proof.
  assert (En : encodes (flat_segs 1 8 ex_cs) (flat_h 1 8 ex_cs) ex_ss [ex_ts; ex_ts; ex_ts] [ex_q; ex_q; ex_q] [flat_mcu ex_cs] [0x49; 0x7F]).
  { apply (flat_encodes 1 8 1 1 1 [0x49; 0x7F] 3 (repeat true 7)); try reflexivity; [flat_header|lia|byte_list|cbn; lia]. }
  cbv zeta. split; [destruct En; constructor; assumption|]. split; [apply few_symbols; vm_compute; reflexivity|]. split; [repeat constructor|].
  split; [repeat first [apply ro_byte; [lia|] | constructor]|]. split; [reflexivity|]. split; [vm_compute; discriminate|]. split; vm_compute; reflexivity.
Qed.
(** The damaged file of C78_notices_case, followed by any long [s]: the hypotheses of
    C79_stuck hold, so no bound holds for damaged files. *)
Definition wait_codec : codec := fst (fst (codec_feed true true false codec_new [] [wait_file wait_ds])).
Lemma wait_step : forall s, step true true false (k_pc wait_codec) (k_dec wait_codec) (mkBiter (wait_ds ++ 255 :: 217 :: s) (k_bits wait_codec) (k_count wait_codec))
  = (k_dec wait_codec, mkBiter (wait_ds ++ 255 :: 217 :: s) (k_bits wait_codec) (k_count wait_codec), SStop (RNeed (k_pc wait_codec))).
Proof. intros s. vm_compute. reflexivity. Qed.
Lemma wait_decode : forall s, codec_decode true true false wait_codec (wait_ds ++ 255 :: 217 :: s) = (wait_codec, wait_ds ++ 255 :: 217 :: s, Ok None).
Proof.
  intros s. pose proof (wait_step s) as W. destruct wait_codec as [d p bits count]. cbn [k_pc k_dec k_bits k_count] in W. unfold codec_decode. cbn [k_pc k_dec k_bits k_count].
  change (match wait_ds ++ 255 :: 217 :: s with [] => ?x | _ :: _ => ?y end) with y. set (b := mkBiter (wait_ds ++ 255 :: 217 :: s) bits count) in *.
  assert (R : run true true false (run_fuel b) p d b = (d, b, RNeed p)) by (unfold run_fuel; rewrite Nat.add_comm; cbn [run Nat.add]; rewrite W; reflexivity).
  rewrite R. reflexivity.
Qed.
Example C79_stuck_case : forall s, 65536 < lenZ s ->
  let buf := wait_ds ++ 255 :: 217 :: s in
  codec_feed true true false codec_new [] [wait_file wait_ds; s] = (wait_codec, buf, Ok None) /\
  codec_decode true true false wait_codec buf = (wait_codec, buf, Ok None) /\ 65536 < lenZ buf /\ ~ without_marker buf.
Proof.
  intros s L buf. split; [|split; [apply wait_decode|split]].
  - cbn [codec_feed app]. assert (E : codec_decode true true false codec_new (wait_file wait_ds) = (wait_codec, wait_ds ++ [255; 217], Ok None)) by (vm_compute; reflexivity).
    rewrite E, <- app_assoc. cbn [app]. change (254 :: 0 :: 0 :: 0 :: 0 :: 0 :: 0 :: 255 :: 217 :: s) with buf. rewrite wait_decode. reflexivity.
  - unfold buf, lenZ in *. rewrite app_length. cbn [length]. lia.
  - intros W. apply parse_marker_eof in W. discriminate W.
Qed.
Example C79_junk_case : Forall (Forall (fun x => 0 <= x < 255)) [repeat 7 3; repeat 0 5].
Proof. repeat first [apply Forall_nil | apply Forall_cons]; lia. Qed.
