(** Encoded files decoded in pieces (C05, C06, C07 in terms of the file alone). *)
From Verif Require Import Base SpecBits SpecReader SpecMarker SpecHuffman SpecBlock SpecTables SpecFrame SpecSegments SpecScan SpecPlane SpecUpsample SpecImage SpecColor SpecFile SpecAnswer SpecStream SpecPieces Huffman Decode Framed SpecFramed PiecesP Props_Scan Props_Answer.

(** However an encoded file is cut, the codec gives the answer of decoding it at once (the
    image, the error or the panic of C45_every_file), whatever bytes follow the file. *)
Theorem C05_files_partial :
  forall dbg rerun rayon segs h fill1 fill2 ss ts qs ms data post fill3 s chunks,
    encodes segs h ss ts qs ms data -> post_ok post ->
    let file := file_bytes segs fill1 fill2 (mkSpS ss 0 63 0 0) data post fill3 in
    sequential_tables (segs ++ post) -> rerun = false \/ no_intervals (segs ++ post) -> Forall bytes chunks ->
    concat chunks = file ++ s ->
    exists k buf, codec_feed dbg rerun rayon codec_new [] chunks = (k, buf, lift (decode_fresh dbg rayon file)).
Proof. exact pieces_feed. Qed.
Print Assumptions C05_files_partial.

(** The answer is given by the call whose chunk completes the file: the chunks before it are
    answered with "more", the chunks after it hold bytes behind the file only, and the bytes
    left in the buffer (unless the call panics) are exactly those behind the file. *)
Theorem C06_files_partial :
  forall dbg rerun rayon segs h fill1 fill2 ss ts qs ms data post fill3 s chunks,
    encodes segs h ss ts qs ms data -> post_ok post ->
    let file := file_bytes segs fill1 fill2 (mkSpS ss 0 63 0 0) data post fill3 in
    sequential_tables (segs ++ post) -> rerun = false \/ no_intervals (segs ++ post) -> Forall bytes chunks ->
    concat chunks = file ++ s ->
    exists done c rest k0 buf0 k buf', chunks = done ++ c :: rest /\
      codec_feed dbg rerun rayon codec_new [] done = (k0, buf0, Ok None) /\
      codec_decode dbg rerun rayon k0 (buf0 ++ c) = (k, buf', lift (decode_fresh dbg rayon file)) /\
      (exists left, left ++ concat rest = s /\ ((forall p, decode_fresh dbg rayon file <> Panic p) -> left = buf')) /\
      lift (decode_fresh dbg rayon file) <> Ok None.
Proof. exact pieces_tail. Qed.
Print Assumptions C06_files_partial.

(** Nothing is answered while a byte of the file is missing. *)
Theorem C06_files_wait_partial :
  forall dbg rerun rayon segs h fill1 fill2 ss ts qs ms data post fill3 chunks s,
    encodes segs h ss ts qs ms data -> post_ok post ->
    let file := file_bytes segs fill1 fill2 (mkSpS ss 0 63 0 0) data post fill3 in
    sequential_tables (segs ++ post) -> rerun = false \/ no_intervals (segs ++ post) ->
    Forall bytes chunks -> bytes s -> s <> [] -> concat chunks ++ s = file ->
    exists k buf, codec_feed dbg rerun rayon codec_new [] chunks = (k, buf, Ok None).
Proof. exact pieces_early. Qed.
Print Assumptions C06_files_wait_partial.

(** The blocking reader, however the reads are split. *)
Theorem C07_files_partial :
  forall dbg rerun rayon segs h fill1 fill2 ss ts qs ms data post fill3 s reads,
    encodes segs h ss ts qs ms data -> post_ok post ->
    let file := file_bytes segs fill1 fill2 (mkSpS ss 0 63 0 0) data post fill3 in
    sequential_tables (segs ++ post) -> rerun = false \/ no_intervals (segs ++ post) -> Forall bytes reads ->
    concat reads = file ++ s ->
    snd (read_decode dbg rerun rayon codec_new [] reads) = decode_fresh dbg rayon file.
Proof. exact pieces_read. Qed.
Print Assumptions C07_files_partial.

(** A reader whose reads fail: a caller that tries again gets each I/O error and then the
    answer to the whole file, or the error for the end of the input if the file is cut short. *)
Theorem C50_files_partial :
  forall dbg rerun rayon segs h fill1 fill2 ss ts qs ms data post fill3 evs c rest answers,
    encodes segs h ss ts qs ms data -> post_ok post ->
    let file := file_bytes segs fill1 fill2 (mkSpS ss 0 63 0 0) data post fill3 in
    sequential_tables (segs ++ post) -> rerun = false \/ no_intervals (segs ++ post) ->
    bytes file -> c <> [] -> delivered evs ++ c = file ->
    session dbg rerun rayon codec_new [] (evs ++ Data c :: rest) answers <->
    answers = repeat AIo (io_errors evs) ++ [answered (decode_fresh dbg rayon file)].
Proof. exact pieces_retry. Qed.
Print Assumptions C50_files_partial.
Theorem C50_files_cut_partial :
  forall dbg rerun rayon segs h fill1 fill2 ss ts qs ms data post fill3 evs s answers,
    encodes segs h ss ts qs ms data -> post_ok post ->
    let file := file_bytes segs fill1 fill2 (mkSpS ss 0 63 0 0) data post fill3 in
    sequential_tables (segs ++ post) -> rerun = false \/ no_intervals (segs ++ post) ->
    bytes file -> s <> [] -> delivered evs ++ s = file ->
    session dbg rerun rayon codec_new [] evs answers <-> answers = repeat AIo (io_errors evs) ++ [AError EEof].
Proof. exact pieces_cut. Qed.
Print Assumptions C50_files_cut_partial.

(** The file of C45 has restart intervals, that of C38 has none; their tables are sequential. *)
Lemma few_symbols : forall segs, forallb (fun t => match th_class t with AC => forallb (fun v => negb ((Z.land v 15 =? 0) && (0 <? Z.shiftr v 4) && negb (Z.shiftr v 4 =? 15))) (th_values t) | DC => true end) (dhts segs) = true ->
  sequential_tables segs.
Proof.
  intros segs H. rewrite forallb_forall in H. apply Forall_forall. intros t It A. specialize (H t It). rewrite A in H. rewrite forallb_forall in H.
  apply Forall_forall. intros v Iv [E1 [E2 E3]]. specialize (H v Iv). lia.
Qed.
Example C05_files_case :
  let cs := comps_422 1 2 3 0 0 0 in
  encodes ex_segs ex_h ex_ss [ex_ts; ex_ts; ex_ts] [ex_q; ex_q; ex_q] [ex_m1; ex_m2] ex_data /\ sequential_tables (ex_segs ++ ex_post) /\
  encodes (flat_segs 1 3 cs) (flat_h 1 3 cs) ex_ss [ex_ts; ex_ts; ex_ts] [ex_q; ex_q; ex_q] [flat_mcu cs] [0x49; 0x2F] /\ sequential_tables (flat_segs 1 3 cs ++ []) /\ no_intervals (flat_segs 1 3 cs ++ []) /\
  let f := flat_file 1 3 cs [0x49; 0x2F] in
  snd (read_decode true true false codec_new [] [firstn 100 f; skipn 100 f; [7]]) = Panic PIndex.
Proof.
  split; [exact ex_encodes|]. split; [apply few_symbols; vm_compute; reflexivity|].
  split; [apply C38_files_case|]. split; [apply few_symbols; vm_compute; reflexivity|]. split; [constructor|]. vm_compute. reflexivity.
Qed.
Example C50_files_case :
  let cs := [mkCS 1 4 1 0; mkCS 2 1 1 0; mkCS 3 1 1 0] in let f := flat_file 1 6 cs [0x49; 0x24; 0xBF] in
  encodes (flat_segs 1 6 cs) (flat_h 1 6 cs) ex_ss [ex_ts; ex_ts; ex_ts] [ex_q; ex_q; ex_q] [flat_mcu cs] [0x49; 0x24; 0xBF] /\
  sequential_tables (flat_segs 1 6 cs ++ []) /\ no_intervals (flat_segs 1 6 cs ++ []) /\
  session true true false codec_new [] [IoError; Data (firstn 120 f); IoError; IoError; Data (skipn 120 f); IoError]
    [AIo; AIo; AIo; AImage (repeat 128 12 ++ [0; 255; 0; 0; 255; 0])] /\
  session true true false codec_new [] [IoError; Data (firstn 120 f); IoError] [AIo; AIo; AError EEof].
Proof.
  cbv zeta. set (cs := [mkCS 1 4 1 0; mkCS 2 1 1 0; mkCS 3 1 1 0]). set (f := flat_file 1 6 cs [0x49; 0x24; 0xBF]).
  pose proof C45_every_case as C. cbv zeta in C. fold cs f in C. destruct C as [En [_ [_ D]]].
  assert (Sq : sequential_tables (flat_segs 1 6 cs ++ [])) by (apply few_symbols; vm_compute; reflexivity).
  assert (NI : no_intervals (flat_segs 1 6 cs ++ [])) by constructor.
  assert (PO : post_ok []) by (split; constructor).
  assert (Bf : bytes f) by (let l := eval vm_compute in f in change (bytes l); byte_list).
  assert (Nn : skipn 120 f <> []) by (intros E; apply (f_equal (@length Z)) in E; vm_compute in E; discriminate E).
  assert (EF : forall evs, delivered evs = firstn 120 f -> delivered evs ++ skipn 120 f = f) by (intros evs ->; apply firstn_skipn).
  split; [exact En|]. split; [exact Sq|]. split; [exact NI|]. split.
  - pose proof (C50_files_partial true true false (flat_segs 1 6 cs) (flat_h 1 6 cs) 0 0 ex_ss _ _ _ _ [] 0 [IoError; Data (firstn 120 f); IoError; IoError] (skipn 120 f) [IoError]
      [AIo; AIo; AIo; AImage (repeat 128 12 ++ [0; 255; 0; 0; 255; 0])] En PO) as T.
    cbv zeta in T. fold (flat_file 1 6 cs [0x49; 0x24; 0xBF]) in T. fold f in T. rewrite D in T.
    apply T; [exact Sq|right; exact NI|exact Bf|exact Nn|apply EF; cbn [delivered map concat chunk_of app]; reflexivity|reflexivity].
  - pose proof (C50_files_cut_partial true true false (flat_segs 1 6 cs) (flat_h 1 6 cs) 0 0 ex_ss _ _ _ _ [] 0 [IoError; Data (firstn 120 f); IoError] (skipn 120 f)
      [AIo; AIo; AError EEof] En PO) as T.
    cbv zeta in T. fold (flat_file 1 6 cs [0x49; 0x24; 0xBF]) in T. fold f in T.
    apply T; [exact Sq|right; exact NI|exact Bf|exact Nn|apply EF; cbn [delivered map concat chunk_of app]; reflexivity|reflexivity].
Qed.
(** Files without lines (the empty image) and without columns (a panic), in two reads with an
    I/O error between them. *)
Example C50_empty_files_case :
  let cs := [mkCS 1 2 1 0; mkCS 2 1 1 0; mkCS 3 1 1 0] in
  let f lines samples := flat_file lines samples cs [] in
  encodes (flat_segs 0 5 cs) (flat_h 0 5 cs) ex_ss [ex_ts; ex_ts; ex_ts] [ex_q; ex_q; ex_q] [] [] /\
  encodes (flat_segs 5 0 cs) (flat_h 5 0 cs) ex_ss [ex_ts; ex_ts; ex_ts] [ex_q; ex_q; ex_q] [] [] /\
  session true true false codec_new [] [Data (firstn 60 (f 0 5)); IoError; Data (skipn 60 (f 0 5))] [AIo; AImage []] /\
  session true true false codec_new [] [Data (firstn 60 (f 5 0)); IoError; Data (skipn 60 (f 5 0))] [AIo; APanic PAssert] /\
  session true true false codec_new [] [Data (firstn 60 (f 5 0)); IoError] [AIo; AError EEof].
Proof.
  cbv zeta. set (cs := [mkCS 1 2 1 0; mkCS 2 1 1 0; mkCS 3 1 1 0]).
  assert (E1 := empty_encodes 0 5 ltac:(lia)). assert (E2 := empty_encodes 5 0 ltac:(lia)). cbv zeta in E1, E2. fold cs in E1, E2.
  split; [exact E1|]. split; [exact E2|].
  assert (PO : post_ok []) by (split; constructor).
  assert (T : forall lines samples r, lines = 0 /\ samples = 5 \/ lines = 5 /\ samples = 0 -> answered (decode_fresh true false (flat_file lines samples cs [])) = r ->
    let f := flat_file lines samples cs [] in
    session true true false codec_new [] [Data (firstn 60 f); IoError; Data (skipn 60 f)] [AIo; r] /\
    session true true false codec_new [] [Data (firstn 60 f); IoError] [AIo; AError EEof]).
  { intros lines samples r D <-. cbv zeta.
    assert (En := empty_encodes lines samples D). cbv zeta in En. fold cs in En.
    assert (Sq : sequential_tables (flat_segs lines samples cs ++ [])) by (apply few_symbols; vm_compute; reflexivity).
    assert (NI : no_intervals (flat_segs lines samples cs ++ [])) by constructor.
    assert (Bf : bytes (flat_file lines samples cs [])).
    { destruct D as [[-> ->]|[-> ->]]; match goal with |- bytes ?f => let l := eval vm_compute in f in change (bytes l); byte_list end. }
    assert (Nn : skipn 60 (flat_file lines samples cs []) <> []) by (destruct D as [[-> ->]|[-> ->]]; intros E; apply (f_equal (@length Z)) in E; vm_compute in E; discriminate E).
    split.
    - apply (C50_files_partial true true false (flat_segs lines samples cs) (flat_h lines samples cs) 0 0 ex_ss _ _ _ _ [] 0 [Data (firstn 60 (flat_file lines samples cs [])); IoError] (skipn 60 (flat_file lines samples cs [])) [] _
        En PO Sq (or_intror NI) Bf Nn); [|reflexivity]. cbn [delivered map concat chunk_of]. rewrite app_nil_r. apply firstn_skipn.
    - apply (C50_files_cut_partial true true false (flat_segs lines samples cs) (flat_h lines samples cs) 0 0 ex_ss _ _ _ _ [] 0 [Data (firstn 60 (flat_file lines samples cs [])); IoError] (skipn 60 (flat_file lines samples cs [])) _
        En PO Sq (or_intror NI) Bf Nn); [|reflexivity]. cbn [delivered map concat chunk_of]. rewrite app_nil_r. apply firstn_skipn. }
  split; [apply (T 0 5 (AImage [])); [lia|vm_compute; reflexivity]|]. apply (T 5 0 (APanic PAssert)); [lia|vm_compute; reflexivity].
Qed.
