(** Images can be written again (C99). *)
From Verif Require Import Base SpecBits SpecReader SpecMarker SpecHuffman SpecBlock SpecTables SpecFrame SpecSegments SpecScan SpecPlane SpecUpsample SpecImage SpecColor SpecFile SpecAnswer SpecLimits SpecCode SpecEncoder
  Biterator Huffman Types Decode BitsP RewriteP Props_Scan Props_Code.

(** A file with any bytes between the markers of its scan, however they came about.  If the
    plain reading of SpecCode.v finds MCUs in it and their DC values have at most the eleven
    bits of T.81, they are an image that the encoder of SpecEncoder.v can write, with any
    restart interval, and its file gets the same answer: the same image, error or panic. *)
Theorem C99_rewritten :
  forall dbg rayon segs h fill1 fill2 ss ts qs ds more post fill3 ms restart,
    header_for segs h ss ts qs -> bytes ds -> more_ok more -> post_ok post -> 0 < fh_lines h -> 0 < fh_samples h -> 0 <= restart < 65536 ->
    let file := file_bytes segs fill1 fill2 (mkSpS ss 0 63 0 0) (scan_bytes ds more) post fill3 in bytes file ->
    ref_scan (fh_comps h) ts (last (dris segs) 0) 0 (mcus (fh_lines h) (largest (map cs_v (fh_comps h))) * mcus (fh_samples h) (largest (map cs_h (fh_comps h)))) ds more = Some ms ->
    Forall (Forall (Forall (fun q => -1024 <= q_dc q <= 1023))) ms ->
    let im := mkImage (fh_lines h) (fh_samples h) (map (fun c => (cs_h c, cs_v c)) (fh_comps h)) qs ms (last_transform (segs ++ post)) restart in
    image_ok im /\ decode_fresh dbg rayon (encode im) = decode_fresh dbg rayon file.
Proof. exact rewritten_same. Qed.
Print Assumptions C99_rewritten.

(** If an image is returned, and none of the last seven bytes before a marker is 0xFF, the
    plain reading does find MCUs. *)
Theorem C99_image :
  forall dbg rayon segs h fill1 fill2 ss ts qs ds more post fill3 img,
    header_for segs h ss ts qs -> bytes ds -> more_ok more -> post_ok post -> 0 < fh_lines h -> 0 < fh_samples h -> Forall clean_end (ds :: map snd more) ->
    let file := file_bytes segs fill1 fill2 (mkSpS ss 0 63 0 0) (scan_bytes ds more) post fill3 in bytes file ->
    decode_fresh dbg rayon file = Ok img ->
    exists ms, ref_scan (fh_comps h) ts (last (dris segs) 0) 0 (mcus (fh_lines h) (largest (map cs_v (fh_comps h))) * mcus (fh_samples h) (largest (map cs_h (fh_comps h)))) ds more = Some ms /\
      (Forall (Forall (Forall (fun q => -1024 <= q_dc q <= 1023))) ms -> forall restart, 0 <= restart < 65536 ->
       let im := mkImage (fh_lines h) (fh_samples h) (map (fun c => (cs_h c, cs_v c)) (fh_comps h)) qs ms (last_transform (segs ++ post)) restart in
       image_ok im /\ decode_fresh dbg rayon (encode im) = Ok img).
Proof. exact rewritten_image. Qed.
Print Assumptions C99_image.

(** The file of C63 with one byte instead of three in its first interval, written again without
    restart markers. *)
Definition rw_ms : list mcu := [map (fun dc => [mkQ dc (repeat (-1) 63)]) [-3; 0; 0]; ex_m2].
Example C99_case :
  header_for ex_segs ex_h ex_ss [ex_ts; ex_ts; ex_ts] [ex_q; ex_q; ex_q] /\ Forall clean_end ([0x80] :: map snd [(0, ex_data2)]) /\ ref_of [0x80] [(0, ex_data2)] = Some rw_ms /\
  Forall (Forall (Forall (fun q => -1024 <= q_dc q <= 1023))) rw_ms /\
  exists img, decode_fresh true false (code_file_of [0x80] [(0, ex_data2)]) = Ok img /\ decode_fresh true false (encode (mkImage 1 9 [(1, 1); (1, 1); (1, 1)] [ex_q; ex_q; ex_q] rw_ms None 0)) = Ok img.
Proof.
  destruct C63_case as [H [_ [_ [_ [R _]]]]]. split; [exact H|]. split; [repeat first [apply Forall_nil | apply Forall_cons]; lia|]. split; [exact R|].
  split; [repeat first [apply Forall_nil | apply Forall_cons]; cbn [q_dc]; lia|]. eexists. split; [vm_compute; reflexivity|vm_compute; reflexivity].
Qed.
