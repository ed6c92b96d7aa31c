(** Bytes behind the coded data (C97). *)
From Verif Require Import Base SpecBits SpecReader SpecMarker SpecHuffman SpecBlock SpecTables SpecFrame SpecSegments SpecScan SpecPlane SpecUpsample SpecImage SpecColor SpecFile SpecAnswer SpecLimits SpecCode SpecTrailing
  Biterator Huffman Types Decode TrailingP Props_Scan.

(** Two files that differ only in the data of their scan.  If the second has, in every restart
    interval, the bits of the same MCUs and then anything else, it gets the same answer as the
    first: the same image, the same error, the same panic. *)
Theorem C97_trailing :
  forall dbg rayon segs h fill1 fill2 ss ts qs ms data data' post fill3,
    encodes segs h ss ts qs ms data -> scan_longer ts (last (dris segs) 0) 0 ms data' -> post_ok post -> 0 < fh_lines h -> 0 < fh_samples h ->
    let file := fun data => file_bytes segs fill1 fill2 (mkSpS ss 0 63 0 0) data post fill3 in
    bytes (file data) -> bytes (file data') -> decode_fresh dbg rayon (file data') = decode_fresh dbg rayon (file data).
Proof. exact trailing_same. Qed.
Print Assumptions C97_trailing.

(** The example file with bytes behind both intervals, 0xFF bytes among them, and a third
    interval with a restart marker that is out of sequence. *)
Lemma tr_bits1 : forall e, bytes e -> interval_longer [ex_ts; ex_ts; ex_ts] [ex_m1] (stuff (ex_data1 ++ e)).
Proof.
  intros e B. exists (ex_data1 ++ e), (firstn 19 (bits_of ex_data1)). split; [apply Forall_app; split; [byte_list|exact B]|]. split; [reflexivity|].
  split; [exists ([true; true; true; true; true] ++ bits_of e); unfold bits_of; rewrite flat_map_app; reflexivity|].
  change (firstn 19 (bits_of ex_data1)) with
    (((((([true; false] ++ [true; true] ++ []) ++ ([false] ++ [true] ++ [true; false] ++ [] ++ [])) ++ []) ++ 
       (((([true; true; false] ++ [false; true; false] ++ []) ++ [true; false]) ++ []) ++
       (((([false] ++ [] ++ []) ++ [true; false]) ++ []) ++ []))) ++ [])).
  apply (msb_cons _ _ _ _ _ _ [3; -5; 0]); [|constructor].
  apply mb_cons.
  - apply (ex_dc 0 [] 3 1%nat [true; false]); try reflexivity; [cbn; lia|repeat first [apply Forall_nil | apply Forall_cons]; cbn; lia| |constructor].
    change (ac_symbols 0 ([1] ++ repeat 0 62)) with [(1, [true]); (0, [])]. coded_by 0%nat. coded_by 1%nat. constructor.
  - apply mb_cons.
    + apply (ex_dc 0 [] (-5) 2%nat [true; true; false]); try reflexivity; [cbn; lia|apply ex_small|apply ex_eob|constructor].
    + apply mb_cons; [|constructor]. apply (ex_dc 0 [] 0 0%nat [false]); try reflexivity; [cbn; lia|apply ex_small|apply ex_eob|constructor].
Qed.
Lemma tr_bits2 : forall e, bytes e -> interval_longer [ex_ts; ex_ts; ex_ts] [ex_m2] (stuff (ex_data2 ++ e)).
Proof.
  intros e B. exists (ex_data2 ++ e), (firstn 23 (bits_of ex_data2)). split; [apply Forall_app; split; [byte_list|exact B]|]. split; [reflexivity|].
  split; [exists ([true] ++ bits_of e); unfold bits_of; rewrite flat_map_app; reflexivity|].
  change (firstn 23 (bits_of ex_data2)) with
    (((((([true; false] ++ [true; false] ++ []) ++ [true; false]) ++ []) ++ 
       (((([false] ++ [] ++ []) ++ [true; false]) ++ []) ++
       (((([true; true; false] ++ [true; true; false] ++ []) ++ ([true; true; false; false] ++ [false; true] ++ [true; false] ++ [] ++ [])) ++ []) ++ []))) ++ [])).
  apply (msb_cons _ _ _ _ _ _ [2; 0; 6]); [|constructor].
  apply mb_cons.
  - apply (ex_dc 0 [] 2 1%nat [true; false]); try reflexivity; [cbn; lia|apply ex_small|apply ex_eob|constructor].
  - apply mb_cons.
    + apply (ex_dc 0 [] 0 0%nat [false]); try reflexivity; [cbn; lia|apply ex_small|apply ex_eob|constructor].
    + apply mb_cons; [|constructor]. apply (ex_dc 0 [] 6 2%nat [true; true; false]); try reflexivity; [cbn; lia|repeat first [apply Forall_nil | apply Forall_cons]; cbn; lia| |constructor].
      change (ac_symbols 0 ([0; -2] ++ repeat 0 61)) with [(18, [false; true]); (0, [])]. coded_by 2%nat. coded_by 1%nat. constructor.
Qed.
Definition tr_data : list Z := stuff (ex_data1 ++ [7; 255; 255; 1; 2]) ++ [255; 0xD0] ++ stuff (ex_data2 ++ [255; 9]) ++ flat_map rst_bytes [(5, [1; 255])].
Example C97_case :
  let file := fun data => file_bytes ex_segs 0 1 (mkSpS ex_ss 0 63 0 0) data ex_post 2 in
  encodes ex_segs ex_h ex_ss [ex_ts; ex_ts; ex_ts] [ex_q; ex_q; ex_q] [ex_m1; ex_m2] ex_data /\
  scan_longer [ex_ts; ex_ts; ex_ts] (last (dris ex_segs) 0) 0 [ex_m1; ex_m2] tr_data /\ lenZ tr_data = lenZ ex_data + 15 /\
  bytes (file ex_data) /\ bytes (file tr_data) /\
  exists img, decode_fresh true false (file ex_data) = Ok img /\ decode_fresh true false (file tr_data) = Ok img.
Proof.
  cbv zeta. split; [exact ex_encodes|]. split.
  { change (last (dris ex_segs) 0) with 1. apply (sl_more _ _ 0 [ex_m1] _ [ex_m2] _); [lia|reflexivity|discriminate|apply tr_bits1; byte_list|].
    apply sl_last; [right; reflexivity|apply tr_bits2; byte_list|repeat constructor; cbn [fst]; try lia; byte_list]. }
  split; [vm_compute; reflexivity|]. split; [match goal with |- bytes ?x => let l := eval vm_compute in x in change (bytes l) end; byte_list|].
  split; [match goal with |- bytes ?x => let l := eval vm_compute in x in change (bytes l) end; byte_list|].
  eexists. split; [vm_compute; reflexivity|vm_compute; reflexivity].
Qed.
