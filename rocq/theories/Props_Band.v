(** C58: bands of coefficients and runs of ended blocks. *)
From Verif Require Import Base Biterator SpecBits SpecReader Huffman SpecHuffman SpecBlock SpecTables SpecFrame SpecSegments SpecScan SpecFile Marker Types Parsers Decode
  SpecBand BandP BandScanP.

(** C58.  A scan for the band [lo .. hi] (two coefficients or more), shifted by [s_low]:
    [ks] are the blocks, [bk] their bits (T.81 G.1.2), [run] and [run'] the number of blocks
    covered by an open EOBn before and after them. *)
Theorem C58_band_inverts_encoding :
  forall (dbg : bool) (ts : tables) (dct : base_table) (act : ac_table) (sc : scan) (w : band_of) (tail : list Z)
         (ks : list block) (b : biter) (bs bk : list bool) (pred run run' : Z),
    built dbg ts dct act -> marker_tail tail -> bytes tail ->
    lo w = s_start sc /\ hi w = Z.min (s_end sc) 63 /\ 0 <= lo w /\ band_first w < hi w -> 0 <= s_low sc -> -32768 <= pred < 32768 ->
    Forall (band_block_ok w) ks -> band_bits w ts run ks bk run' -> holds_at tail b (bk ++ bs) ->
    exists blks b' pred',
      decode_blocks dbg sc dct act (length ks) b run pred = Ok (blks, b', run', pred') /\
      (lo w = 0 -> pred' = int16 (pred + sum_diffs ks)) /\ (lo w <> 0 -> pred' = pred) /\
      band_values w (s_low sc) blks pred ks /\ holds_at tail b' bs.
Proof. exact band_inverts. Qed.
Print Assumptions C58_band_inverts_encoding.

(** The band 1..5 scaled by 2: a value and EOB1 with the extra bit 1, which ends that block
    and the next two; a block with runs of 1 and 2 zeros whose band is full. *)
Definition band_tables : tables :=
  mkTables ([1; 1; 1] ++ repeat 0 13) [0; 2; 3] ([0; 3; 1; 1] ++ repeat 0 12) [1; 16; 0; 18; 33].
Definition band_scan : scan := mkScan [] 1 5 0 1.
Definition ex_blocks : list block :=
  [mkBlock 0 [1; 0; 0; 0; 0]; mkBlock 0 [0; 0; 0; 0; 0]; mkBlock 0 [0; 0; 0; 0; 0]; mkBlock 0 [0; -2; 0; 0; 1]].
Definition ex_bits1 : list bool := [false; false] ++ [true] ++ [false; true] ++ [true] ++ [].
Definition ex_bits2 : list bool := [true; true; false] ++ [false; true] ++ [true; true; true; false] ++ [true] ++ [].

Example C58_case :
  exists dct act, built true band_tables dct act /\
    Forall (band_block_ok (mkBand 1 5)) ex_blocks /\
    band_bits (mkBand 1 5) band_tables 0 ex_blocks (ex_bits1 ++ ex_bits2) 0 /\
    let bs := ex_bits1 ++ ex_bits2 in
    let b := mkBiter [255; 217] (of_bits bs * 2 ^ 30) (Z.of_nat (length bs) + 30) in
    match decode_blocks true band_scan dct act 4 b 0 7 with
    | Ok (blks, _, 0, 7) =>
        map (firstn 18) blks =
          [[0; 2] ++ repeat 0 16; repeat 0 18; repeat 0 18;
           [0; 0; 2; 0; 0; 0; 0; 0; -4] ++ repeat 0 9]
    | _ => False
    end.
Proof.
  eexists _, _. split; [|split; [|split]].
  - constructor; [split; [reflexivity|]; repeat constructor; unfold is_byte; lia|reflexivity|
      repeat constructor; unfold is_byte; lia|vm_compute; reflexivity|
      split; [reflexivity|]; repeat constructor; unfold is_byte; lia|reflexivity|
      repeat constructor; unfold is_byte; lia|vm_compute; reflexivity].
  - repeat constructor; cbn; lia.
  - apply (band_ends _ _ _ _ [] ex_bits1 ex_bits2 _ 1 1); [reflexivity|lia|cbn; lia|reflexivity| |].
    + change (band_symbols (eobn 1 1) 0 (b_ac (mkBlock 0 [1; 0; 0; 0; 0]))) with [(1, [true]); (16, [true])].
      apply (coded_cons _ _ 0%nat); [reflexivity|reflexivity|].
      apply (coded_cons _ _ 1%nat); [reflexivity|reflexivity|]. constructor.
    + apply (band_covered _ _ _ _ _ [] ex_bits2); [reflexivity|repeat constructor|reflexivity|].
      apply (band_covered _ _ _ _ _ [] ex_bits2); [reflexivity|repeat constructor|reflexivity|].
      apply (band_full _ _ _ _ [] ex_bits2 [] 0); [cbn; lia|reflexivity| |constructor].
      change (band_symbols (0, []) 0 (b_ac (mkBlock 0 [0; -2; 0; 0; 1]))) with [(18, [false; true]); (33, [true])].
      apply (coded_cons _ _ 3%nat); [reflexivity|reflexivity|].
      apply (coded_cons _ _ 4%nat); [reflexivity|reflexivity|]. constructor.
  - vm_compute. reflexivity.
Qed.

(** A whole scan: [data] codes the MCUs [ms]; an open run goes on in the next component and
    in the next MCU and ends at a restart ([scan_band_data]).  [fr] is the frame parsed from
    the header bytes. *)
Theorem C58_scan :
    forall dbg d0 m pr lines samples cs extra rest fr sc w ts ms data tail d,
    header_ok lines samples cs -> lenZ cs <= 4 -> (blocks_before cs (length cs) <= 10)%nat -> 0 <= m <= 1 ->
    sof dbg m (sof_bytes pr lines samples cs ++ extra) = Ok (fr, rest) ->
    d_frame d0 = Some fr -> d_scan d0 = Some sc ->
    lo w = s_start sc /\ hi w = Z.min (s_end sc) 63 /\ 0 <= lo w /\ band_first w < hi w -> 0 <= s_low sc ->
    comps_ready dbg d0 (f_components fr) (s_headers sc) ts -> Forall (fun c => exists qt, index (d_qt d0) (cs_tq c) = Ok (Some qt)) cs ->
    0 <= d_restart d0 -> scan_init true d0 = Ok d -> marker_tail tail -> bytes tail ->
    Forall (mcu_shape cs) ms -> lenZ ms = mcus lines (largest (map cs_v cs)) * mcus samples (largest (map cs_h cs)) ->
    scan_band_data w ts (d_restart d0) 0 ms data ->
    exists log d' b', mcus_read dbg (mcu_list (f_mcu fr)) d (mkBiter (data ++ tail) 0 0) log d' b' /\
      Forall2 (band_logged w (s_low sc)) log ms /\ exists ds, bi_input b' = stuff ds ++ tail.
Proof. exact band_scan_reads. Qed.
Print Assumptions C58_scan.

(** A 24x1 image with one component: three MCUs; EOB1 in the first one covers the second. *)
Definition run_dcs : dht_spec := mkDht DC 0 (dc_counts band_tables) (dc_values band_tables).
Definition run_acs : dht_spec := mkDht AC 0 (ac_counts band_tables) (ac_values band_tables).
Definition run_head : list Z :=
  marker_bytes 0 0xD8 ++ flat_map hseg_bytes
    [(0%nat, HDqt [mkDqt 0 0 (repeat 1 64)]); (0%nat, HSof (mkFH 0 8 1 24 [mkCS 1 1 1 0])); (0%nat, HDht [run_dcs; run_acs])] ++
  marker_bytes 0 0xDA ++ segment (sos_bytes (mkSpS [mkSC 1 0 0] 0 63 0 0)).
Definition run_d : decoder := fst (decode true false decoder_default (run_head ++ [255])).
Definition run_ms : list mcu := [[[mkQ 0 (repeat 0 63)]]; [[mkQ 3 (repeat 0 63)]]; [[mkQ 3 (1 :: repeat 0 62)]]].
Definition run_data : list Z := [0x2B; 0x1B].
Lemma small_zeros : Forall (fun v => category v <= 15) (repeat 0 63).
Proof. apply Forall_forall. intros v I. apply repeat_spec in I. subst. cbn. lia. Qed.

Example C58_scan_case :
  scan_band_data (mkBand 0 63) [band_tables] 0 0 run_ms run_data /\
  match scan_init true run_d with
  | Ok d => match scan_loop true false true (mcu_list (mkDims 3 1)) PhRow d (mkBiter (run_data ++ [255; 217]) 0 0) with
            | (d', b', ScDone) => bi_input b' = [255; 217] /\ firstn 3 (nth 0 (ss_coefs (d_ss d')) []) = [3; 1; 0] /\ ss_eob (d_ss d') = 0
            | _ => False
            end
  | _ => False
  end.
Proof.
  split; [|vm_compute; auto].
  apply sbd_last; [left; reflexivity|].
  exists run_data, (firstn 14 (bits_of run_data)). split; [repeat constructor; unfold is_byte; lia|]. split; [reflexivity|]. split; [left; exists [true; true]; split; [reflexivity|cbn; lia]|].
  change (firstn 14 (bits_of run_data)) with
    (((([false] ++ ([false; true] ++ [false] ++ []) ++ []) ++ []) ++
      ((([true; false] ++ [true; true] ++ []) ++ []) ++ []) ++
      ((([false] ++ ([false; false] ++ [true] ++ [true; false] ++ [] ++ []) ++ []) ++ []) ++ []))).
  apply (mwb_cons _ _ _ _ _ _ _ _ [0] 1).
  { apply (mw_cons _ _ _ _ _ _ _ _ _ _ _ 1); [|constructor].
    exists [mkBlock 0 (repeat 0 63)]. split; [constructor; [|constructor]; split; [cbn; lia|split; [reflexivity|apply small_zeros]]|].
    split; [|apply dch_cons; [reflexivity|reflexivity|constructor]].
    apply (band_ends _ _ _ _ [false] ([false; true] ++ [false] ++ []) [] 1 1 0); [reflexivity|lia|cbn; lia| | |constructor].
    - apply (coded_cons _ _ 0%nat 0 [] [false] [] []); [reflexivity|reflexivity|constructor].
    - change (band_symbols (eobn 1 0) 0 (b_ac (mkBlock 0 (repeat 0 63)))) with [(16, [false])].
      apply (coded_cons _ _ 1%nat); [reflexivity|reflexivity|constructor]. }
  apply (mwb_cons _ _ _ _ _ _ _ _ [3] 0).
  { apply (mw_cons _ _ _ _ _ _ _ _ _ _ _ 0); [|constructor].
    exists [mkBlock 3 (repeat 0 63)]. split; [constructor; [|constructor]; split; [cbn; lia|split; [reflexivity|apply small_zeros]]|].
    split; [|apply dch_cons; [reflexivity|reflexivity|constructor]].
    apply (band_covered _ _ _ _ _ ([true; false] ++ [true; true] ++ []) []); [lia| | |constructor].
    - apply Forall_forall. intros v I. apply repeat_spec in I. exact I.
    - apply (coded_cons _ _ 1%nat 2 [true; true] [true; false] [] []); [reflexivity|reflexivity|constructor]. }
  rewrite <- (app_nil_r (([false] ++ _) ++ [])).
  apply (mwb_cons _ _ _ _ _ _ _ _ [3] 0); [|constructor].
  apply (mw_cons _ _ _ _ _ _ _ _ _ _ _ 0); [|constructor].
  exists [mkBlock 0 (1 :: repeat 0 62)]. split.
  { constructor; [|constructor]. split; [cbn; lia|]. split; [reflexivity|]. constructor; [cbn; lia|].
    apply Forall_forall. intros v I. apply repeat_spec in I. subst. cbn. lia. }
  split; [|apply dch_cons; [reflexivity|reflexivity|constructor]].
  apply (band_ends _ _ _ _ [false] ([false; false] ++ [true] ++ [true; false] ++ [] ++ []) [] 0 0 0); [reflexivity|lia|cbn; lia| | |constructor].
  - apply (coded_cons _ _ 0%nat 0 [] [false] [] []); [reflexivity|reflexivity|constructor].
  - change (band_symbols (eobn 0 0) 0 (b_ac (mkBlock 0 (1 :: repeat 0 62)))) with [(1, [true]); (0, [])].
    apply (coded_cons _ _ 0%nat); [reflexivity|reflexivity|]. apply (coded_cons _ _ 2%nat); [reflexivity|reflexivity|constructor].
Qed.

(** A band of one coefficient above the DC is never read: the block stays zero and no bit is
    consumed, whatever the data says. *)
Theorem C58_single_coefficient_ignored :
  forall (dbg : bool) (sc : scan) (dct : base_table) (act : ac_table) (b : biter) (pred : Z),
    1 <= s_start sc <= 63 -> s_end sc = s_start sc ->
    decode_block dbg sc dct act zero_block b 0 pred = Ok (zero_block, b, 0, pred).
Proof. exact single_ignored. Qed.
Print Assumptions C58_single_coefficient_ignored.

(** So the claim fails for such bands: this scan codes the value 1 at zigzag position 5. *)
Theorem C58_single_coefficient_refuted :
  exists (ts : tables) (dct : base_table) (act : ac_table) (sc : scan) (w : band_of) (ks : list block) (b : biter)
         (bk : list bool),
    built true ts dct act /\
    lo w = s_start sc /\ hi w = s_end sc /\ 1 <= lo w /\ band_size w = 1 /\
    Forall (band_block_ok w) ks /\ band_bits w ts 0 ks bk 0 /\ holds_at [255; 217] b bk /\
    forall blks b' run' pred', decode_blocks true sc dct act (length ks) b 0 0 = Ok (blks, b', run', pred') ->
      ~ band_values w (s_low sc) blks 0 ks.
Proof. exact single_refuted. Qed.
Print Assumptions C58_single_coefficient_refuted.
