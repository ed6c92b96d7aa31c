(** C49: what a codec answers to the next file on its stream. *)
From Verif Require Import Base SpecBits SpecReader SpecHuffman SpecBlock SpecTables SpecFrame SpecSegments SpecScan SpecPlane SpecUpsample SpecImage SpecColor SpecFile SpecAnswer SpecLimits SpecCode SpecGlobal SpecNext Biterator Huffman Types Idct Decode NextP3 Samples Props_Scan Props_Code Props_Framed Tactics.

(** ** C49: the answer to the next file *)
(** A codec has answered with an image; what is left in its buffer and what has [arrived] since
    begin with another file, whose scan holds any bytes at all.  It is read as if the bits left
    over came in front of its scan data, with the restart interval and the Adobe transform
    that are still set where the file has none of its own.  If this reading finds the MCUs
    [ms], the answer is that of SpecAnswer.v for their planes, and the bytes behind the file
    stay in the buffer; if it does not, there is no image. *)
Theorem C49_next :
  forall dbg rerun rayon k0 buf0 k buf img0 arrived segs h fill1 fill2 ss ts qs ds more post fill3 extra,
    streaming dbg rerun rayon k0 buf0 -> codec_decode dbg rerun rayon k0 buf0 = (k, buf, Ok (Some img0)) -> bytes arrived ->
    header_for segs h ss ts qs -> bytes ds -> more_ok more -> post_ok post ->
    let cs := fh_comps h in let lines := fh_lines h in let samples := fh_samples h in 0 < lines -> 0 < samples ->
    let file := file_bytes segs fill1 fill2 (mkSpS ss 0 63 0 0) (scan_bytes ds more) post fill3 in buf ++ arrived = file ++ extra ->
    match ref_scan_after (bits_left k) cs ts (last (dris segs) (interval_left k)) (mcus lines (largest (map cs_v cs)) * mcus samples (largest (map cs_h cs))) ds more with
    | Some ms => exists ps a, length ps = length cs /\
        (forall i c, nth_error cs i = Some c -> exists q p, nth_error qs i = Some q /\ nth_error ps i = Some p /\ plane_from lines samples cs ms i c q p) /\
        final_answer rayon lines samples cs ps (last (map Some (adobes (segs ++ post))) (transform_left k)) a /\
        exists k' buf', codec_decode dbg rerun rayon k (buf ++ arrived) = (k', buf', answered a) /\ (forall img, a = Ok img -> buf' = extra)
    | None => Forall clean_end (ds :: map snd more) ->
        exists k' buf' r, codec_decode dbg rerun rayon k (buf ++ arrived) = (k', buf', r) /\ (r = Ok None \/ exists e, r = Fail e)
    end.
Proof. exact next_file. Qed.
Print Assumptions C49_next.

(** So the answer is that of a new decoder to a file in which the MCUs that were read are
    coded, and not the one to the file that arrived. *)
Theorem C49_next_reading :
  forall dbg rerun rayon k0 buf0 k buf img0 arrived segs h fill1 fill2 ss ts qs ds more post fill3 extra ms segs' h' fill1' fill2' ss' ts' ds' more' post' fill3',
    streaming dbg rerun rayon k0 buf0 -> codec_decode dbg rerun rayon k0 buf0 = (k, buf, Ok (Some img0)) -> bytes arrived ->
    header_for segs h ss ts qs -> bytes ds -> more_ok more -> post_ok post -> header_for segs' h' ss' ts' qs -> bytes ds' -> more_ok more' -> post_ok post' ->
    fh_lines h' = fh_lines h -> fh_samples h' = fh_samples h -> 0 < fh_lines h -> 0 < fh_samples h ->
    map (fun c => (cs_h c, cs_v c)) (fh_comps h') = map (fun c => (cs_h c, cs_v c)) (fh_comps h) ->
    last_transform (segs' ++ post') = last (map Some (adobes (segs ++ post))) (transform_left k) ->
    let N := mcus (fh_lines h) (largest (map cs_v (fh_comps h))) * mcus (fh_samples h) (largest (map cs_h (fh_comps h))) in
    ref_scan_after (bits_left k) (fh_comps h) ts (last (dris segs) (interval_left k)) N ds more = Some ms -> ref_scan (fh_comps h') ts' (last (dris segs') 0) 0 N ds' more' = Some ms ->
    let file := file_bytes segs fill1 fill2 (mkSpS ss 0 63 0 0) (scan_bytes ds more) post fill3 in
    let file' := file_bytes segs' fill1' fill2' (mkSpS ss' 0 63 0 0) (scan_bytes ds' more') post' fill3' in
    buf ++ arrived = file ++ extra -> bytes file' ->
    exists k' buf', codec_decode dbg rerun rayon k (buf ++ arrived) = (k', buf', answered (decode_fresh dbg rayon file')) /\
      (forall img, decode_fresh dbg rayon file' = Ok img -> buf' = extra).
Proof. exact next_same. Qed.
Print Assumptions C49_next_reading.

(** The next file is answered as on its own if no bits are left over and it sets, or the files
    before did not set, a restart interval and an Adobe transform.  Missing: codecs with bits
    left over, for which the claim is false (C49_refuted), and files with progressive scans. *)
Theorem C49_next_partial :
  forall dbg rerun rayon k0 buf0 k buf img0 arrived segs h fill1 fill2 ss ts qs ds more post fill3 extra ms,
    streaming dbg rerun rayon k0 buf0 -> codec_decode dbg rerun rayon k0 buf0 = (k, buf, Ok (Some img0)) -> bytes arrived ->
    header_for segs h ss ts qs -> bytes ds -> more_ok more -> post_ok post -> 0 < fh_lines h -> 0 < fh_samples h ->
    bits_left k = [] -> (dris segs <> [] \/ interval_left k = 0) -> (adobes (segs ++ post) <> [] \/ transform_left k = None) ->
    ref_scan (fh_comps h) ts (last (dris segs) 0) 0 (mcus (fh_lines h) (largest (map cs_v (fh_comps h))) * mcus (fh_samples h) (largest (map cs_h (fh_comps h)))) ds more = Some ms ->
    let file := file_bytes segs fill1 fill2 (mkSpS ss 0 63 0 0) (scan_bytes ds more) post fill3 in
    buf ++ arrived = file ++ extra ->
    exists k' buf', codec_decode dbg rerun rayon k (buf ++ arrived) = (k', buf', answered (decode_fresh dbg rayon file)) /\
      (forall img, decode_fresh dbg rayon file = Ok img -> buf' = extra).
Proof. exact next_clean. Qed.
Print Assumptions C49_next_partial.

(** After [tiny0], 58 zero bits are left over.  They are read as 28 coefficients -1 of the
    first block of the next file and a half of the 29th; a file in which these bits are part of
    the data gets the same answer. *)
Definition zeros_file : list Z := code_file_of [0xC9; 0x7F] [(0, ex_data2)].
Definition zeros_same : list Z := code_file_of [0; 0; 0; 0; 0; 0; 0; 0x32; 0x5F] [(0, ex_data2)].
Definition zeros_mcu : mcu := [[mkQ 0 (repeat (-1) 28 ++ [1] ++ repeat 0 34)]; [mkQ 0 (repeat 0 63)]; [mkQ 0 (repeat 0 63)]].
Example C49_next_case : forall rerun, let dbg := true in let rayon := false in
  exists k k', codec_decode dbg rerun rayon codec_new tiny0 = (k, [], Ok (Some [128; 128; 128])) /\
    bits_left k = repeat false 58 /\ interval_left k = 0 /\ transform_left k = None /\
    header_for ex_segs ex_h ex_ss [ex_ts; ex_ts; ex_ts] [ex_q; ex_q; ex_q] /\
    ref_scan_after (bits_left k) ex_cs [ex_ts; ex_ts; ex_ts] (last (dris ex_segs) (interval_left k)) 2 [0xC9; 0x7F] [(0, ex_data2)] = Some [zeros_mcu; ex_m2] /\
    ref_of [0; 0; 0; 0; 0; 0; 0; 0x32; 0x5F] [(0, ex_data2)] = Some [zeros_mcu; ex_m2] /\
    codec_decode dbg rerun rayon k (zeros_file ++ [1; 2]) = (k', [1; 2], answered (decode_fresh dbg rayon zeros_same)) /\
    decode_fresh dbg rayon zeros_file <> decode_fresh dbg rayon zeros_same /\
    ref_scan_after (bits_left k) ex_cs [ex_ts; ex_ts; ex_ts] (last (dris ex_segs) (interval_left k)) 2 ex_data1 [(0, ex_data2)] = None /\
    Forall clean_end [ex_data1; ex_data2] /\ snd (codec_decode dbg rerun rayon k (code_file_of ex_data1 [(0, ex_data2)])) = Ok None.
Proof.
  intros rerun. cbv zeta. eexists _, _. split; [destruct rerun; vm_compute; reflexivity|]. split; [vm_compute; reflexivity|]. split; [reflexivity|]. split; [reflexivity|].
  split; [destruct ex_encodes; constructor; assumption|]. split; [vm_compute; reflexivity|]. split; [vm_compute; reflexivity|]. split; [destruct rerun; vm_compute; reflexivity|].
  split; [vm_compute; discriminate|]. split; [vm_compute; reflexivity|]. split; [repeat first [apply Forall_nil | apply Forall_cons]; lia|]. destruct rerun; vm_compute; reflexivity.
Qed.
(** A 1x1 file whose one MCU takes 64 bits, so that none are left over. *)
Definition even_dht : list Z :=
  [0xFF; 0xC4; 0; 0x14; 0; 1] ++ repeat 0 15 ++ [4] ++ [0xFF; 0xC4; 0; 0x16; 0x10; 1; 1; 1] ++ repeat 0 13 ++ [0; 8; 0xE0].
Definition even_file : list Z := [0xFF; 0xD8] ++ tiny_dqt ++ tiny_sof ++ even_dht ++ tiny_sos ++ [0x45; 0; 0x45; 1; 0x40; 0x11; 0x80; 0] ++ [0xFF; 0xD9].
Example C49_next_partial_case : forall rerun, let dbg := true in let rayon := false in
  exists k k' img, codec_decode dbg rerun rayon codec_new even_file = (k, [], Ok (Some [152; 135; 231])) /\
    bits_left k = [] /\ interval_left k = 0 /\ transform_left k = None /\
    ref_of ex_data1 [(0, ex_data2)] = Some [ex_m1; ex_m2] /\
    decode_fresh dbg rayon (code_file_of ex_data1 [(0, ex_data2)]) = Ok img /\ length img = 27%nat /\
    codec_decode dbg rerun rayon k (code_file_of ex_data1 [(0, ex_data2)] ++ [1; 2]) = (k', [1; 2], Ok (Some img)).
Proof.
  intros rerun. cbv zeta. eexists _, _, _. split; [destruct rerun; vm_compute; reflexivity|]. split; [vm_compute; reflexivity|]. split; [reflexivity|]. split; [reflexivity|].
  split; [vm_compute; reflexivity|]. split; [vm_compute; reflexivity|]. split; [reflexivity|]. destruct rerun; vm_compute; reflexivity.
Qed.
