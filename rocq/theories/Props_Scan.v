(** Scans and whole files: DC prediction, restart intervals, placement of blocks, and the
    image of an encoded file (C21, C22, C32, C45). *)
From Verif Require Import Base SpecBits SpecReader SpecMarker SpecHuffman SpecBlock SpecTables SpecFrame SpecSegments SpecScan SpecPlane SpecUpsample SpecImage SpecColor SpecFile Biterator Marker Huffman Types Idct IdctP Color Parsers Decode Samples RestartP PlacedP EncodeP FileP SpecGlobal SpecStream CommentP.

(** ** The example file *)
(** A 9x1 image: two MCUs with a restart marker between them, a comment, fill bytes. *)
Definition ex_q : list Z := 8 :: repeat 2 63.
Definition ex_dcs : dht_spec := mkDht DC 0 ([1; 1; 1] ++ repeat 0 13) [0; 2; 3].
Definition ex_acs : dht_spec := mkDht AC 0 ([1; 1; 0; 2; 0; 0; 0; 0; 1] ++ repeat 0 7) [1; 0; 18; 240; 50].
Definition ex_ts : tables := mkTables (th_counts ex_dcs) (th_values ex_dcs) (th_counts ex_acs) (th_values ex_acs).
Definition ex_cs : list comp_spec := [mkCS 1 1 1 0; mkCS 2 1 1 0; mkCS 3 1 1 0].
Definition ex_h : frame_header := mkFH 0 8 1 9 ex_cs.
Definition ex_segs : list (nat * hseg) :=
  [(0%nat, HDqt [mkDqt 0 0 ex_q]); (0%nat, HCom [1; 2; 255; 0; 3]); (1%nat, HSof ex_h); (0%nat, HDht [ex_dcs; ex_acs]); (2%nat, HDri 1)].
Definition ex_post : list (nat * hseg) := [(0%nat, HApp 2 [255; 217]); (3%nat, HCom [7])].
Definition ex_ss : list scan_comp := [mkSC 1 0 0; mkSC 2 0 0; mkSC 3 0 0].
Definition ex_m1 : mcu := [[mkQ 3 ([1] ++ repeat 0 62)]; [mkQ (-5) (repeat 0 63)]; [mkQ 0 (repeat 0 63)]].
Definition ex_m2 : mcu := [[mkQ 2 (repeat 0 63)]; [mkQ 0 (repeat 0 63)]; [mkQ 6 ([0; -2] ++ repeat 0 61)]].
(** 10 11 0 1 10 | 110 010 10 | 0 10 | 11111;   10 10 10 | 0 10 | 110 110 1100 01 10 | 1 *)
Definition ex_data1 : list Z := [0xB6; 0xCA; 0x5F].
Definition ex_data2 : list Z := [0xA9; 0x6D; 0x8D].
Definition ex_data : list Z := ex_data1 ++ [255; 0xD0] ++ ex_data2.

Ltac coded_by n := apply (coded_cons _ _ n); [reflexivity|reflexivity|].
Ltac byte_list := repeat first [apply Forall_nil | apply Forall_cons]; unfold is_byte; try lia.

Lemma ex_dc : forall p qs diff n c bs ac ba pred', n = n -> category diff <= 11 -> length ac = 63%nat -> Forall (fun v => category v <= 15) ac ->
  nth_error [0; 2; 3] n = Some (category diff) -> nth_error (canonical (dc_counts ex_ts)) n = Some c -> coded (ac_counts ex_ts) (ac_values ex_ts) (ac_symbols 0 ac) ba ->
  comp_bits ex_ts (int16 (p + diff)) qs bs pred' -> comp_bits ex_ts p (mkQ (int16 (p + diff)) ac :: qs) (((c ++ magnitude diff ++ []) ++ ba) ++ bs) pred'.
Proof.
  intros p qs diff n c bs ac ba pred' _ H1 H2 H3 H4 H5 H6 H7. apply (cb_cons _ _ _ _ diff); auto; [split; [exact H1|split; [exact H2|exact H3]]|].
  exists (c ++ magnitude diff ++ []), ba. split; [reflexivity|]. split; [|exact H6]. cbn [b_diff]. unfold dc_symbol. apply (coded_cons _ _ n); [exact H4|exact H5|constructor].
Qed.
Lemma ex_eob : coded (ac_counts ex_ts) (ac_values ex_ts) (ac_symbols 0 (repeat 0 63)) [true; false].
Proof. change (ac_symbols 0 (repeat 0 63)) with [(0, @nil bool)]. change [true; false] with ([true; false] ++ [] ++ []). coded_by 1%nat. constructor. Qed.
Lemma ex_small : Forall (fun v => category v <= 15) (repeat 0 63).
Proof. apply Forall_forall. intros v I. apply repeat_spec in I. subst. cbn. lia. Qed.

Lemma ex_bits1 : interval_data [ex_ts; ex_ts; ex_ts] [ex_m1] ex_data1.
Proof.
  exists ex_data1, (firstn 19 (bits_of ex_data1)). split; [byte_list|]. split; [reflexivity|]. split; [left; exists [true; true; true; true; true]; split; [reflexivity|cbn; lia]|].
  change (firstn 19 (bits_of ex_data1)) with
    (((((([true; false] ++ [true; true] ++ []) ++ ([false] ++ [true] ++ [true; false] ++ [] ++ [])) ++ []) ++ 
       (((([true; true; false] ++ [false; true; false] ++ []) ++ [true; false]) ++ []) ++
       (((([false] ++ [] ++ []) ++ [true; false]) ++ []) ++ []))) ++ [])).
  apply (msb_cons _ _ _ _ _ _ [3; -5; 0]); [|constructor].
  apply mb_cons.
  - apply (ex_dc 0 [] 3 1%nat [true; false]); try reflexivity; [cbn; lia|repeat first [apply Forall_nil | apply Forall_cons]; cbn; lia| |constructor].
    change (ac_symbols 0 ([1] ++ repeat 0 62)) with [(1, [true]); (0, [])]. coded_by 0%nat. coded_by 1%nat. constructor.
  - apply mb_cons.
    + apply (ex_dc 0 [] (-5) 2%nat [true; true; false]); try reflexivity; [cbn; lia|apply ex_small|apply ex_eob|constructor].
    + apply mb_cons; [|constructor]. apply (ex_dc 0 [] 0 0%nat [false]); try reflexivity; [cbn; lia|apply ex_small|apply ex_eob|constructor].
Qed.
Lemma ex_bits2 : interval_data [ex_ts; ex_ts; ex_ts] [ex_m2] ex_data2.
Proof.
  exists ex_data2, (firstn 23 (bits_of ex_data2)). split; [byte_list|]. split; [reflexivity|]. split; [left; exists [true]; split; [reflexivity|cbn; lia]|].
  change (firstn 23 (bits_of ex_data2)) with
    (((((([true; false] ++ [true; false] ++ []) ++ [true; false]) ++ []) ++ 
       (((([false] ++ [] ++ []) ++ [true; false]) ++ []) ++
       (((([true; true; false] ++ [true; true; false] ++ []) ++ ([true; true; false; false] ++ [false; true] ++ [true; false] ++ [] ++ [])) ++ []) ++ []))) ++ [])).
  apply (msb_cons _ _ _ _ _ _ [2; 0; 6]); [|constructor].
  apply mb_cons.
  - apply (ex_dc 0 [] 2 1%nat [true; false]); try reflexivity; [cbn; lia|apply ex_small|apply ex_eob|constructor].
  - apply mb_cons.
    + apply (ex_dc 0 [] 0 0%nat [false]); try reflexivity; [cbn; lia|apply ex_small|apply ex_eob|constructor].
    + apply mb_cons; [|constructor]. apply (ex_dc 0 [] 6 2%nat [true; true; false]); try reflexivity; [cbn; lia|repeat first [apply Forall_nil | apply Forall_cons]; cbn; lia| |constructor].
      change (ac_symbols 0 ([0; -2] ++ repeat 0 61)) with [(18, [false; true]); (0, [])]. coded_by 2%nat. coded_by 1%nat. constructor.
Qed.
Lemma ex_scan_data : scan_data [ex_ts; ex_ts; ex_ts] 1 0 [ex_m1; ex_m2] ex_data.
Proof.
  apply (sd_more _ _ 0 [ex_m1] ex_data1 [ex_m2] ex_data2); [lia|reflexivity|discriminate|apply ex_bits1|]. apply sd_last; [right; reflexivity|apply ex_bits2].
Qed.

Ltac small_list := repeat first [apply Forall_nil | apply Forall_cons]; cbn; lia.
Example ex_encodes : encodes ex_segs ex_h ex_ss [ex_ts; ex_ts; ex_ts] [ex_q; ex_q; ex_q] [ex_m1; ex_m2] ex_data.
Proof.
  assert (CC : forall c s, In c ex_cs -> sc_id s = cs_id c -> sc_dc s = 0 -> sc_ac s = 0 -> comp_coding ex_segs c s ex_ts ex_q).
  { intros c s I E1 E2 E3. assert (T : cs_tq c = 0) by (destruct I as [<-|[<-|[<-|[]]]]; reflexivity). constructor; rewrite ?E2, ?E3, ?T; auto; try lia.
    - exists ex_dcs. split; [reflexivity|split; reflexivity].
    - exists ex_acs. split; [reflexivity|split; reflexivity].
    - exists (mkDqt 0 0 ex_q). split; reflexivity. }
  constructor.
  - repeat first [apply Forall_nil | apply Forall_cons]; cbn [snd]; split; try (cbn; lia).
    + apply Forall_cons; [|apply Forall_nil]. split; [cbn; lia|]. split; [cbn; lia|]. split; [reflexivity|small_list].
    + split; [byte_list|]. cbn. do 4 (apply nm_byte; [lia|]). apply (nm_stuffed 0). apply nm_byte; [lia|constructor].
    + split; [cbn; lia|]. constructor; try (cbn; lia); try discriminate; repeat first [apply Forall_nil | apply Forall_cons]; unfold comp_range, factors_ok, is_byte, nibble; cbn; lia.
    + repeat first [apply Forall_nil | apply Forall_cons]; (split; [cbn; lia|]; split; [split; [reflexivity|byte_list]|]; split; [byte_list|]; split; [reflexivity|]; split; [cbn; lia|vm_compute; discriminate]).
  - reflexivity.
  - cbn. repeat constructor; cbn; intuition discriminate.
  - cbn. lia.
  - cbn. lia.
  - do 3 (apply ccs_cons; [apply CC; cbn; tauto|]). apply ccs_nil.
  - repeat constructor.
  - reflexivity.
  - exact ex_scan_data.
Qed.

(** ** C21: DC prediction across a scan *)
(** The decoder is about to read a scan of all components with the tables [ts]; [data] codes
    the MCUs [ms] with DC differences that start again at every restart ([comp_bits],
    [scan_data]).  Every block is read with its DC value.  (For the blocks of one component
    in isolation see [C21_dc_running_sum].) *)
Theorem C21_scan :
  forall dbg d0 m pr lines samples cs sc ts ms data tail d,
    header_ok lines samples cs -> lenZ cs <= 4 -> (blocks_before cs (length cs) <= 10)%nat -> 0 <= m <= 1 ->
    let fr := frame_of m pr lines samples cs in
    d_frame d0 = Some fr -> d_scan d0 = Some sc -> s_start sc = 0 -> 63 <= s_end sc -> s_low sc = 0 ->
    comps_ready dbg d0 (f_components fr) (s_headers sc) ts ->
    Forall (fun c => exists qt, index (d_qt d0) (cs_tq c) = Ok (Some qt)) cs ->
    0 <= d_restart d0 -> scan_init true d0 = Ok d -> marker_tail tail -> bytes tail ->
    Forall (mcu_shape cs) ms ->
    lenZ ms = mcus lines (largest (map cs_v cs)) * mcus samples (largest (map cs_h cs)) ->
    scan_data ts (d_restart d0) 0 ms data ->
    exists log d' b', mcus_read dbg (mcu_list (f_mcu fr)) d (mkBiter (data ++ tail) 0 0) log d' b' /\ Forall2 logged log ms.
Proof. exact scan_dc. Qed.
Print Assumptions C21_scan.

(** The decoder after the header of the example file. *)
Definition ex_head : list Z := firstn (length (file_bytes ex_segs 0 0 (mkSpS ex_ss 0 63 0 0) ex_data [] 0) - 10) (file_bytes ex_segs 0 0 (mkSpS ex_ss 0 63 0 0) ex_data [] 0).
Definition ex_d : decoder := fst (decode true false decoder_default ex_head).
Example C21_scan_case :
  match scan_init true ex_d with
  | Ok d => match scan_loop true false true (mcu_list (mkDims 2 1)) PhRow d (mkBiter (ex_data ++ [255; 217]) 0 0) with
            | (d', b', ScDone) => bi_input b' = [255; 217] /\ map (fun k => nth 0 k 0) (firstn 3 (ss_coefs (d_ss d'))) = [2; 0; 6]
            | _ => False
            end
  | _ => False
  end /\ d_restart ex_d = 1.
Proof. vm_compute. auto. Qed.

(** ** C22: restart intervals *)
(** MCU number i = [lenZ pre] of the scan has been read.  If a restart is due ([restart_due]:
    i + 1 is a multiple of the interval and this is not the last MCU), then RSTn with
    n = (i / r) mod 8 is required: found, it clears predictors and bit buffer; any other
    marker makes the scan fail; if there is none the decoder waits for it.  If none is due,
    nothing is read. *)
Theorem C22_restart_intervals :
  forall dbg d0 d fr b pre y x rest log d1 b1 d2 b2,
    scan_init true d0 = Ok d -> 0 <= d_restart d0 -> d_frame d0 = Some fr -> mcu_list (f_mcu fr) = pre ++ (y, x) :: rest ->
    mcus_read dbg pre d b log d1 b1 -> decode_row dbg d1 b1 = Ok (d2, b2) ->
    let r := d_restart d0 in
    let i := lenZ pre in
    if restart_due r (lenZ (mcu_list (f_mcu fr))) i then
      (forall rest', first_marker (bi_input b2) (0xD0 + (i / r) mod 8) rest' ->
         exists s, after_mcu dbg x y d2 b2 = Ok (set_ss d2 s, mkBiter rest' 0 0) /\ ss_preds s = [0; 0; 0; 0] /\ ss_eob s = 0) /\
      (forall c rest', first_marker (bi_input b2) c rest' -> c <> 0xD0 + (i / r) mod 8 ->
         exists d' b' e, scan_loop dbg false true (mcu_list (f_mcu fr)) PhRow d b = (d', b', ScFail e)) /\
      (without_marker (bi_input b2) -> exists d' b', scan_loop dbg false true (mcu_list (f_mcu fr)) PhRow d b = (d', b', ScNeed ((y, x) :: rest) PhRestart))
    else
      exists s, after_mcu dbg x y d2 b2 = Ok (set_ss d2 s, b2) /\ ss_preds s = ss_preds (d_ss d2) /\ ss_eob s = ss_eob (d_ss d2).
Proof. exact restart_intervals. Qed.
Print Assumptions C22_restart_intervals.

(** The interval [d_restart] is that of the last DRI segment read so far. *)
Theorem C22_interval_of_dri :
  forall dbg rayon d fill segs, reachable dbg rayon d -> Forall (fun s => hseg_ok (snd s)) segs ->
    exists d' junk bits count, no_marker junk /\ d_restart d' = last (dris segs) (d_restart d) /\
      from dbg false rayon (PcMarker, d, biter_new (marker_bytes fill 0xD8 ++ flat_map hseg_bytes segs)) (PcMarker, d', mkBiter junk bits count).
Proof. exact header_interval. Qed.
Print Assumptions C22_interval_of_dri.
Example C22_dri_case : Forall (fun s => hseg_ok (snd s)) [(0%nat, HDri 3); (1%nat, HDri 7)] /\ last (dris [(0%nat, HDri 3); (1%nat, HDri 7)]) 0 = 7.
Proof. split; [repeat constructor; cbn; lia|reflexivity]. Qed.

(** The scan of MCUs that was cut off by a restart marker is exactly the one in the loop. *)
Theorem C22_scan_reads :
  forall dbg todo d b d' b', scan_loop dbg false true todo PhRow d b = (d', b', ScDone) <-> exists log, mcus_read dbg todo d b log d' b'.
Proof. exact ScanP.scan_loop_reads. Qed.
Print Assumptions C22_scan_reads.

(** The example with the right marker, with a wrong number and with another marker. *)
Definition ex_file (mk : Z) : list Z := file_bytes ex_segs 0 0 (mkSpS ex_ss 0 63 0 0) (ex_data1 ++ [255; mk] ++ ex_data2) [] 0.
Example C22_case :
  (exists img, decode_fresh true false (ex_file 0xD0) = Ok img) /\ (exists e, decode_fresh true false (ex_file 0xD1) = Fail e) /\
  (exists e, decode_fresh true false (ex_file 0xC4) = Fail e) /\ restart_due 1 2 0 = true /\ restart_due 1 2 1 = false.
Proof. split; [eexists; vm_compute; reflexivity|]. split; [eexists; vm_compute; reflexivity|]. split; [eexists; vm_compute; reflexivity|]. auto. Qed.

(** ** C32: placement of blocks *)
(** [fr] is the frame parsed from the header bytes.  After a complete scan the plane of every component of the scan has 8 * (MCU rows * v) lines
    of 8 * (MCU columns * h) samples, and every sample is the sample of the inverse transform of
    the block that contains it ([containing_block]), at its place within the block. *)
Theorem C32_placement :
  forall dbg rayon d0 m pr lines samples cs extra rest fr sc d b d' b',
    header_ok lines samples cs -> sof dbg m (sof_bytes pr lines samples cs ++ extra) = Ok (fr, rest) ->
    d_frame d0 = Some fr -> d_scan d0 = Some sc -> NoDup (map h_index (s_headers sc)) -> scan_init true d0 = Ok d ->
    step dbg false rayon (PcScan true (mcu_list (f_mcu fr)) PhRow) d b = (d', b', SNext PcMarker) ->
    let mw := mcus samples (largest (map cs_h cs)) in
    let mh := mcus lines (largest (map cs_v cs)) in
    exists log d1, mcus_read dbg (mcu_list (f_mcu fr)) d b log d1 b' /\ length (d_planes d') = length (s_headers sc) /\
      forall j hd c, nth_error (s_headers sc) j = Some hd -> nth_error cs (Z.to_nat (h_index hd)) = Some c ->
        exists p, nth_error (d_planes d') j = Some p /\ lenZ p = 8 * (mh * cs_v c) * (8 * (mw * cs_h c)) /\
          forall r q, 0 <= r < 8 * (mh * cs_v c) -> 0 <= q < 8 * (mw * cs_h c) ->
            exists qt, index (d_qt d0) (cs_tq c) = Ok (Some qt) /\
              sample_at p (8 * (mw * cs_h c)) r q =
                Some (in_block (block_samples (containing_block log mw (blocks_before cs (Z.to_nat (h_index hd))) (cs_h c) (cs_v c) r q) qt) r q).
Proof. exact scan_placed_parsed. Qed.
Print Assumptions C32_placement.

Example C32_case :
  (exists fr, d_frame ex_d = Some fr /\ sof true 0 (sof_bytes 8 1 9 ex_cs) = Ok (fr, []) /\ f_mcu fr = mkDims 2 1) /\
  match scan_init true ex_d with
  | Ok d => match step true false false (PcScan true (mcu_list (mkDims 2 1)) PhRow) d (mkBiter (ex_data ++ [255; 217]) 0 0) with
            | (d', _, SNext PcMarker) => map lenZ (d_planes d') = [128; 128; 128] /\ map (fun p => (sample_at p 16 0 0, sample_at p 16 0 8)) (d_planes d') <> []
            | _ => False
            end
  | _ => False
  end.
Proof.
  split; [eexists; split; [vm_compute; reflexivity|split; reflexivity]|]. vm_compute. split; [reflexivity|discriminate].
Qed.

(** ** C45: whole files *)
(** The file of an encoded image decodes to its image: the planes are the inverse transforms
    of the blocks written, and the pixels are the converted upsampled samples
    ([comp_shown], [rgb_pixel] as in C37).  The missing part: sampling factors that do not
    divide the largest one, widths for which the upsampler fails ([width_works], see C38 and C39),
    comments that contain marker codes (C44), images in several scans (C47); and with
    vertical subsampling the row shown for a line is [shown_row] (C40), not the line itself. *)
Theorem C45_ycbcr_file_partial :
  forall dbg rayon segs h fill1 fill2 ss ts qs ms data post fill3 c0 c1 c2,
    encodes segs h ss ts qs ms data -> fh_comps h = [c0; c1; c2] ->
    let cs := fh_comps h in let lines := fh_lines h in let samples := fh_samples h in
    0 < lines -> 0 < samples -> Forall (whole_ratios cs) cs -> Forall (width_works lines samples cs) cs -> post_ok post ->
    last (adobes (segs ++ post)) 1 <> 0 ->
    let file := file_bytes segs fill1 fill2 (mkSpS ss 0 63 0 0) data post fill3 in bytes file ->
    exists q0 q1 q2 p0 p1 p2 img, qs = [q0; q1; q2] /\
      plane_from lines samples cs ms 0 c0 q0 p0 /\ plane_from lines samples cs ms 1 c1 q1 p1 /\ plane_from lines samples cs ms 2 c2 q2 p2 /\
      decode_fresh dbg rayon file = Ok img /\ lenZ img = 3 * samples * lines /\
      forall y x, 0 <= y < lines -> 0 <= x < samples ->
        let row := shown_row rayon (largest (map cs_v cs)) y in
        rgb_pixel (comp_shown lines samples cs c0 p0 row x) (comp_shown lines samples cs c1 p1 row x)
                  (comp_shown lines samples cs c2 p2 row x) (pixel 3 samples y x img).
Proof. exact file_ycbcr. Qed.
Print Assumptions C45_ycbcr_file_partial.

(** Four components with an Adobe segment of transform 0: inverted CMYK. *)
Theorem C45_cmyk_file_partial :
  forall dbg rayon segs h fill1 fill2 ss ts qs ms data post fill3 c0 c1 c2 c3,
    encodes segs h ss ts qs ms data -> fh_comps h = [c0; c1; c2; c3] ->
    let cs := fh_comps h in let lines := fh_lines h in let samples := fh_samples h in
    0 < lines -> 0 < samples -> Forall (whole_ratios cs) cs -> Forall (width_works lines samples cs) cs -> post_ok post ->
    adobes (segs ++ post) <> [] -> last (adobes (segs ++ post)) 1 = 0 ->
    let file := file_bytes segs fill1 fill2 (mkSpS ss 0 63 0 0) data post fill3 in bytes file ->
    exists q0 q1 q2 q3 p0 p1 p2 p3 img, qs = [q0; q1; q2; q3] /\
      plane_from lines samples cs ms 0 c0 q0 p0 /\ plane_from lines samples cs ms 1 c1 q1 p1 /\
      plane_from lines samples cs ms 2 c2 q2 p2 /\ plane_from lines samples cs ms 3 c3 q3 p3 /\
      decode_fresh dbg rayon file = Ok img /\ lenZ img = 4 * samples * lines /\
      forall y x, 0 <= y < lines -> 0 <= x < samples ->
        let row := shown_row rayon (largest (map cs_v cs)) y in
        pixel 4 samples y x img = [255 - comp_shown lines samples cs c0 p0 row x; 255 - comp_shown lines samples cs c1 p1 row x;
                                   255 - comp_shown lines samples cs c2 p2 row x; 255 - comp_shown lines samples cs c3 p3 row x].
Proof. exact file_cmyk. Qed.
Print Assumptions C45_cmyk_file_partial.

Example C45_case :
  encodes ex_segs ex_h ex_ss [ex_ts; ex_ts; ex_ts] [ex_q; ex_q; ex_q] [ex_m1; ex_m2] ex_data /\
  Forall (whole_ratios ex_cs) ex_cs /\ Forall (width_works 1 9 ex_cs) ex_cs /\
  post_ok ex_post /\ bytes (file_bytes ex_segs 0 1 (mkSpS ex_ss 0 63 0 0) ex_data ex_post 2) /\
  match decode_fresh true false (file_bytes ex_segs 0 1 (mkSpS ex_ss 0 63 0 0) ex_data ex_post 2) with
  | Ok img => length img = 27%nat /\ firstn 3 img <> skipn 24 img
  | _ => False
  end.
Proof.
  split; [exact ex_encodes|]. split; [repeat constructor|]. split; [|split; [|split]].
  - repeat first [apply Forall_nil | apply Forall_cons]; (split; [intros H; vm_compute in H; discriminate|intros [H|H]; vm_compute in H; discriminate]).
  - split; [|reflexivity]. repeat first [apply Forall_nil | apply Forall_cons]; (split; [cbn|cbn; lia]).
    + split; [lia|]. split; [lia|]. byte_list.
    + split; [byte_list|]. do 3 (apply nm_byte; [lia|]). constructor.
  - unfold bytes. apply Forall_forall. intros b I. assert (G : forallb (fun b => (0 <=? b) && (b <? 256)) (file_bytes ex_segs 0 1 (mkSpS ex_ss 0 63 0 0) ex_data ex_post 2) = true) by (vm_compute; reflexivity).
    rewrite forallb_forall in G. specialize (G b I). unfold is_byte. lia.
  - vm_compute. split; [reflexivity|discriminate].
Qed.

(** An inverted CMYK file of 3 x 2 pixels. *)
Definition ck_cs : list comp_spec := [mkCS 1 1 1 0; mkCS 2 1 1 0; mkCS 3 1 1 0; mkCS 4 1 1 0].
Definition ck_h : frame_header := mkFH 0 8 2 3 ck_cs.
Definition ck_segs : list (nat * hseg) :=
  [(0%nat, HAdobe 100 [0; 0; 0; 0] 0); (0%nat, HDqt [mkDqt 0 0 ex_q]); (0%nat, HSof ck_h); (0%nat, HDht [ex_dcs; ex_acs])].
Definition ck_ss : list scan_comp := [mkSC 1 0 0; mkSC 2 0 0; mkSC 3 0 0; mkSC 4 0 0].
Definition ck_m : mcu := [[mkQ 3 ([1] ++ repeat 0 62)]; [mkQ 0 (repeat 0 63)]; [mkQ 0 (repeat 0 63)]; [mkQ 0 (repeat 0 63)]].
(** 10 11 0 1 10 | 0 10 | 0 10 | 0 10 | 1111111 *)
Definition ck_data : list Z := [0xB6; 0x49; 0x7F].
Lemma ck_bits : interval_data [ex_ts; ex_ts; ex_ts; ex_ts] [ck_m] ck_data.
Proof.
  exists ck_data, (firstn 17 (bits_of ck_data)). split; [byte_list|]. split; [reflexivity|]. split; [left; exists [true; true; true; true; true; true; true]; split; [reflexivity|cbn; lia]|].
  change (firstn 17 (bits_of ck_data)) with
    (((((([true; false] ++ [true; true] ++ []) ++ ([false] ++ [true] ++ [true; false] ++ [] ++ [])) ++ []) ++ 
       (((([false] ++ [] ++ []) ++ [true; false]) ++ []) ++
       (((([false] ++ [] ++ []) ++ [true; false]) ++ []) ++
       (((([false] ++ [] ++ []) ++ [true; false]) ++ []) ++ [])))) ++ [])).
  apply (msb_cons _ _ _ _ _ _ [3; 0; 0; 0]); [|constructor].
  apply mb_cons; [|do 3 (apply mb_cons; [apply (ex_dc 0 [] 0 0%nat [false]); try reflexivity; [cbn; lia|apply ex_small|apply ex_eob|constructor]|]); constructor].
  apply (ex_dc 0 [] 3 1%nat [true; false]); try reflexivity; [cbn; lia|repeat first [apply Forall_nil | apply Forall_cons]; cbn; lia| |constructor].
  change (ac_symbols 0 ([1] ++ repeat 0 62)) with [(1, [true]); (0, [])]. coded_by 0%nat. coded_by 1%nat. constructor.
Qed.
Example ck_encodes : encodes ck_segs ck_h ck_ss [ex_ts; ex_ts; ex_ts; ex_ts] [ex_q; ex_q; ex_q; ex_q] [ck_m] ck_data.
Proof.
  assert (CC : forall c s, In c ck_cs -> sc_id s = cs_id c -> sc_dc s = 0 -> sc_ac s = 0 -> comp_coding ck_segs c s ex_ts ex_q).
  { intros c s I E1 E2 E3. assert (T : cs_tq c = 0) by (destruct I as [<-|[<-|[<-|[<-|[]]]]]; reflexivity). constructor; rewrite ?E2, ?E3, ?T; auto; try lia.
    - exists ex_dcs. split; [reflexivity|split; reflexivity].
    - exists ex_acs. split; [reflexivity|split; reflexivity].
    - exists (mkDqt 0 0 ex_q). split; reflexivity. }
  constructor.
  - repeat first [apply Forall_nil | apply Forall_cons]; cbn [snd]; split; try (cbn; lia).
    + split; [lia|]. split; [reflexivity|]. split; [byte_list|lia].
    + apply Forall_cons; [|apply Forall_nil]. split; [cbn; lia|]. split; [cbn; lia|]. split; [reflexivity|small_list].
    + split; [cbn; lia|]. constructor; try (cbn; lia); try discriminate; repeat first [apply Forall_nil | apply Forall_cons]; unfold comp_range, factors_ok, is_byte, nibble; cbn; lia.
    + repeat first [apply Forall_nil | apply Forall_cons]; (split; [cbn; lia|]; split; [split; [reflexivity|byte_list]|]; split; [byte_list|]; split; [reflexivity|]; split; [cbn; lia|vm_compute; discriminate]).
  - reflexivity.
  - cbn. repeat constructor; cbn; intuition discriminate.
  - cbn. lia.
  - cbn. lia.
  - do 4 (apply ccs_cons; [apply CC; cbn; tauto|]). apply ccs_nil.
  - repeat constructor.
  - reflexivity.
  - change (last (dris ck_segs) 0) with 0. apply sd_last; [left; reflexivity|exact ck_bits].
Qed.
Example C45_cmyk_case :
  encodes ck_segs ck_h ck_ss [ex_ts; ex_ts; ex_ts; ex_ts] [ex_q; ex_q; ex_q; ex_q] [ck_m] ck_data /\
  Forall (whole_ratios ck_cs) ck_cs /\ Forall (width_works 2 3 ck_cs) ck_cs /\ last (adobes (ck_segs ++ [])) 1 = 0 /\
  bytes (file_bytes ck_segs 0 0 (mkSpS ck_ss 0 63 0 0) ck_data [] 0) /\
  match decode_fresh true false (file_bytes ck_segs 0 0 (mkSpS ck_ss 0 63 0 0) ck_data [] 0) with
  | Ok img => length img = 24%nat /\ firstn 4 img = [124; 127; 127; 127]
  | _ => False
  end.
Proof.
  split; [exact ck_encodes|]. split; [repeat constructor|]. split; [|split; [reflexivity|split]].
  - repeat first [apply Forall_nil | apply Forall_cons]; (split; [intros H; vm_compute in H; discriminate|intros [H|H]; vm_compute in H; discriminate]).
  - unfold bytes. apply Forall_forall. intros b I. assert (G : forallb (fun b => (0 <=? b) && (b <? 256)) (file_bytes ck_segs 0 0 (mkSpS ck_ss 0 63 0 0) ck_data [] 0) = true) by (vm_compute; reflexivity).
    rewrite forallb_forall in G. specialize (G b I). unfold is_byte. lia.
  - vm_compute. split; reflexivity.
Qed.
