(** Arbitrary scan data: the decoder agrees with a plain reading of the bits (C63). *)
From Verif Require Import Base SpecBits SpecReader SpecHuffman SpecBlock SpecTables SpecFrame SpecSegments SpecScan SpecPlane SpecUpsample SpecImage SpecColor SpecFile SpecAnswer SpecLimits SpecCode Biterator Huffman Types Idct Decode CodeP CodeP2 CodeP3 CodeP4 CodeP5 Props_Scan.

(** ** C63: one block *)
(** [ds] are the bytes of a restart interval, [tail] is the marker that ends it, and [run]
    blocks still end without being coded.  The decoder reads the block that the reference
    reads and leaves the rest of the bits; where no code comes next it reports an error. *)
Theorem C63_block :
  forall dbg ts dct act sc ds tail run pred,
    built dbg ts dct act -> s_start sc = 0 -> 63 <= s_end sc -> s_low sc = 0 -> bytes ds -> marker_tail tail -> bytes tail -> 0 <= run ->
    match ref_block (ends_clean ds) ts run pred (bits_of ds) with
    | Some (q, run', rest) =>
        exists blk b', decode_block dbg sc dct act zero_block (biter_new (stuff ds ++ tail)) run pred = Ok (blk, b', run', q_dc q) /\
          q_values blk q /\ holds_at tail b' rest
    | None => clean_end ds -> exists e, decode_block dbg sc dct act zero_block (biter_new (stuff ds ++ tail)) run pred = Fail e
    end.
Proof. exact block_code. Qed.
Print Assumptions C63_block.

(** ** C63: a file *)
(** [ds] and [more] are any bytes at all, with any RSTn markers between them.  If the
    reference finds the MCUs [ms] in them, the answer is that of SpecAnswer.v for the planes
    of [ms]; if it does not, the decoder reports an error. *)
Theorem C63_file :
  forall dbg rayon segs h fill1 fill2 ss ts qs ds more post fill3,
    header_for segs h ss ts qs -> bytes ds -> more_ok more -> post_ok post ->
    let cs := fh_comps h in let lines := fh_lines h in let samples := fh_samples h in 0 < lines -> 0 < samples ->
    let file := file_bytes segs fill1 fill2 (mkSpS ss 0 63 0 0) (scan_bytes ds more) post fill3 in bytes file ->
    match ref_scan cs ts (last (dris segs) 0) 0 (mcus lines (largest (map cs_v cs)) * mcus samples (largest (map cs_h cs))) ds more with
    | Some ms => exists ps, length ps = length cs /\
        (forall k c, nth_error cs k = Some c -> exists q p, nth_error qs k = Some q /\ nth_error ps k = Some p /\ plane_from lines samples cs ms k c q p) /\
        final_answer rayon lines samples cs ps (last_transform (segs ++ post)) (decode_fresh dbg rayon file)
    | None => Forall clean_end (ds :: map snd more) -> exists e, decode_fresh dbg rayon file = Fail e
    end.
Proof. exact code_file. Qed.
Print Assumptions C63_file.

(** ** C63: the reference reads what encoders write *)
Theorem C63_reference :
  forall cs ts r n ms data,
    Forall codes_ok ts -> scan_data ts r n ms data -> Forall (mcu_shape cs) ms -> 0 <= r -> 0 <= n <= 7 ->
    exists ds more, data = scan_bytes ds more /\ bytes ds /\ more_ok more /\ ref_scan cs ts r n (lenZ ms) ds more = Some ms.
Proof. exact scan_reads. Qed.
Print Assumptions C63_reference.

(** ** C63: two files *)
(** Files with any scan data get the same answer if the reference reads the same MCUs in
    them (and size, factors, quantisation and colour transform are the same). *)
Theorem C63_same_reading :
  forall dbg rayon segs h fill1 fill2 ss ts ds more post fill3 segs' h' fill1' fill2' ss' ts' ds' more' post' fill3' qs ms,
    header_for segs h ss ts qs -> bytes ds -> more_ok more -> post_ok post -> header_for segs' h' ss' ts' qs -> bytes ds' -> more_ok more' -> post_ok post' ->
    fh_lines h' = fh_lines h -> fh_samples h' = fh_samples h -> 0 < fh_lines h -> 0 < fh_samples h ->
    map (fun c => (cs_h c, cs_v c)) (fh_comps h') = map (fun c => (cs_h c, cs_v c)) (fh_comps h) ->
    last_transform (segs' ++ post') = last_transform (segs ++ post) ->
    let N := mcus (fh_lines h) (largest (map cs_v (fh_comps h))) * mcus (fh_samples h) (largest (map cs_h (fh_comps h))) in
    ref_scan (fh_comps h) ts (last (dris segs) 0) 0 N ds more = Some ms -> ref_scan (fh_comps h') ts' (last (dris segs') 0) 0 N ds' more' = Some ms ->
    let file := file_bytes segs fill1 fill2 (mkSpS ss 0 63 0 0) (scan_bytes ds more) post fill3 in
    let file' := file_bytes segs' fill1' fill2' (mkSpS ss' 0 63 0 0) (scan_bytes ds' more') post' fill3' in
    bytes file -> bytes file' -> decode_fresh dbg rayon file' = decode_fresh dbg rayon file.
Proof. exact code_same. Qed.
Print Assumptions C63_same_reading.

(** The file of C45: its own two intervals; other bytes in the first one, which still make
    an MCU; a wrong number in the marker; and bytes that begin with no code. *)
Definition code_file_of (ds : list Z) (more : list (Z * list Z)) : list Z := file_bytes ex_segs 0 1 (mkSpS ex_ss 0 63 0 0) (scan_bytes ds more) ex_post 2.
Definition ref_of (ds : list Z) (more : list (Z * list Z)) : option (list mcu) := ref_scan ex_cs [ex_ts; ex_ts; ex_ts] (last (dris ex_segs) 0) 0 2 ds more.
Example C63_case :
  header_for ex_segs ex_h ex_ss [ex_ts; ex_ts; ex_ts] [ex_q; ex_q; ex_q] /\ Forall codes_ok [ex_ts; ex_ts; ex_ts] /\
  mcus 1 (largest (map cs_v ex_cs)) * mcus 9 (largest (map cs_h ex_cs)) = 2 /\
  ref_of ex_data1 [(0, ex_data2)] = Some [ex_m1; ex_m2] /\
  ref_of [0x80] [(0, ex_data2)] = Some [map (fun dc => [mkQ dc (repeat (-1) 63)]) [-3; 0; 0]; ex_m2] /\
  ref_of ex_data1 [(1, ex_data2)] = None /\ Forall clean_end [ex_data1; ex_data2] /\ decode_fresh true false (code_file_of ex_data1 [(1, ex_data2)]) = Fail ERstNumber /\
  ref_of [0xFE; 0; 0; 0; 0; 0; 0] [(0, ex_data2)] = None /\ clean_end [0xFE; 0; 0; 0; 0; 0; 0] /\
  decode_fresh true false (code_file_of [0xFE; 0; 0; 0; 0; 0; 0] [(0, ex_data2)]) = Fail EEof.
Proof.
  split; [destruct ex_encodes; constructor; assumption|]. split.
  { repeat first [apply Forall_nil | apply Forall_cons]; (split; (split; [split; [reflexivity|byte_list]|vm_compute; discriminate])). }
  split; [vm_compute; reflexivity|]. split; [vm_compute; reflexivity|]. split; [vm_compute; reflexivity|]. split; [vm_compute; reflexivity|].
  split; [repeat first [apply Forall_nil | apply Forall_cons]; lia|]. split; [vm_compute; reflexivity|]. split; [vm_compute; reflexivity|].
  split; [repeat first [apply Forall_nil | apply Forall_cons]; lia|]. vm_compute; reflexivity.
Qed.
(** Bytes after the last MCU of an interval, 0xFF bytes among them, and further intervals
    make no difference. *)
Example C63_same_case :
  ref_of ex_data1 [(0, ex_data2)] = Some [ex_m1; ex_m2] /\ ref_of (ex_data1 ++ [7; 255; 255; 1; 2]) [(0, ex_data2 ++ [255; 9]); (5, [1; 255])] = Some [ex_m1; ex_m2] /\
  decode_fresh true false (code_file_of (ex_data1 ++ [7; 255; 255; 1; 2]) [(0, ex_data2 ++ [255; 9]); (5, [1; 255])]) = decode_fresh true false (code_file_of ex_data1 [(0, ex_data2)]).
Proof. split; [vm_compute; reflexivity|]. split; vm_compute; reflexivity. Qed.

(** ** C17: bits that are no code inside a block *)
(** No DC code comes next. *)
Theorem C17_no_dc_code :
  forall dbg ts dct act sc ds tail run pred,
    built dbg ts dct act -> s_start sc = 0 -> 63 <= s_end sc -> s_low sc = 0 -> bytes ds -> clean_end ds -> marker_tail tail -> bytes tail -> 0 <= run ->
    (forall c, In c (canonical (dc_counts ts)) -> ~ prefix c (bits_of ds ++ repeat false 16)) ->
    exists e, decode_block dbg sc dct act zero_block (biter_new (stuff ds ++ tail)) run pred = Fail e.
Proof. exact no_dc_code. Qed.
Print Assumptions C17_no_dc_code.

(** No AC code comes next, after the DC difference [diff] and the coefficients [l] (fewer
    than 63, the last one not 0). *)
Theorem C17_no_ac_code :
  forall dbg ts dct act sc ds tail pred diff l bd ba rest,
    built dbg ts dct act -> s_start sc = 0 -> 63 <= s_end sc -> s_low sc = 0 -> bytes ds -> clean_end ds -> marker_tail tail -> bytes tail ->
    category diff <= 11 -> coded (dc_counts ts) (dc_values ts) [dc_symbol diff] bd ->
    (length l < 63)%nat -> last l 1 <> 0 -> Forall (fun v => category v <= 15) l -> coded (ac_counts ts) (ac_values ts) (ac_symbols 0 l) ba ->
    bits_of ds = bd ++ ba ++ rest -> (forall c, In c (canonical (ac_counts ts)) -> ~ prefix c (rest ++ repeat false 16)) ->
    exists e, decode_block dbg sc dct act zero_block (biter_new (stuff ds ++ tail)) 0 pred = Fail e.
Proof. exact no_ac_code. Qed.
Print Assumptions C17_no_ac_code.

(** The tables of the file of C45: 111 is no DC code; after the difference 0 (code 0) and the
    coefficient 1 (code 0, bit 1), 11111 is no AC code. *)
Example C17_block_case :
  (exists dct act, built true ex_ts dct act) /\ marker_tail [255; 217] /\
  clean_end [0xE0] /\ (forall c, In c (canonical (dc_counts ex_ts)) -> ~ prefix c (bits_of [0xE0] ++ repeat false 16)) /\
  clean_end [0x3F] /\ bits_of [0x3F] = [false] ++ [false; true] ++ repeat true 5 /\
  coded (dc_counts ex_ts) (dc_values ex_ts) [dc_symbol 0] [false] /\ coded (ac_counts ex_ts) (ac_values ex_ts) (ac_symbols 0 [1]) [false; true] /\
  (forall c, In c (canonical (ac_counts ex_ts)) -> ~ prefix c (repeat true 5 ++ repeat false 16)).
Proof.
  assert (NP : forall (a b : bool) l r, a <> b -> ~ prefix (a :: l) (b :: r)) by (intros a b l r N [x E]; injection E as E _; congruence).
  assert (NS : forall (a : bool) l r, ~ prefix l r -> ~ prefix (a :: l) (a :: r)) by (intros a l r N [x E]; injection E as E; apply N; exists x; exact E).
  split; [eexists _, _; constructor; try (vm_compute; reflexivity); try (split; [reflexivity|]); byte_list|]. split; [eexists _, _; split; [reflexivity|lia]|].
  split; [byte_list|]. split; [|split; [byte_list|split; [reflexivity|split; [|split]]]].
  - intros c I. vm_compute in I. repeat (destruct I as [<-|I]; [cbn; repeat first [apply NP; discriminate | apply NS]|]). contradiction.
  - change [false] with ([false] ++ [] ++ []). coded_by 0%nat. constructor.
  - change [false; true] with ([false] ++ [true] ++ []). coded_by 0%nat. constructor.
  - intros c I. vm_compute in I. repeat (destruct I as [<-|I]; [cbn; repeat first [apply NP; discriminate | apply NS]|]). contradiction.
Qed.
