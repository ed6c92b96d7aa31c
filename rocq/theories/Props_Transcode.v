(** Lossless transcoding (C61). *)
From Verif Require Import Base SpecBits SpecReader SpecMarker SpecHuffman SpecBlock SpecTables SpecFrame SpecSegments SpecScan SpecPlane SpecUpsample SpecImage SpecColor SpecFile SpecAnswer Huffman Decode TransP Props_Scan.

(** Two files with the same quantised coefficients [ms], quantisation values [qs], size,
    sampling factors and Adobe transform get the same answer.  Everything else may differ:
    Huffman tables, restart intervals, kind of frame (SOF0 or SOF1) and precision byte,
    component identifiers, table slots, order and number of segments, comments, application
    segments, fill bytes, padding, and whatever stands between the scan and EOI. *)
Theorem C61_transcoding :
  forall dbg rayon segs h fill1 fill2 ss ts data post fill3 segs' h' fill1' fill2' ss' ts' data' post' fill3' qs ms,
    encodes segs h ss ts qs ms data -> encodes segs' h' ss' ts' qs ms data' -> post_ok post -> post_ok post' ->
    fh_lines h' = fh_lines h -> fh_samples h' = fh_samples h ->
    map (fun c => (cs_h c, cs_v c)) (fh_comps h') = map (fun c => (cs_h c, cs_v c)) (fh_comps h) ->
    last_transform (segs' ++ post') = last_transform (segs ++ post) ->
    let file := file_bytes segs fill1 fill2 (mkSpS ss 0 63 0 0) data post fill3 in
    let file' := file_bytes segs' fill1' fill2' (mkSpS ss' 0 63 0 0) data' post' fill3' in
    bytes file -> bytes file' -> decode_fresh dbg rayon file' = decode_fresh dbg rayon file.
Proof. exact same_answer. Qed.
Print Assumptions C61_transcoding.

(** The image of C45 again, with another DC table, without restart interval, as SOF1, with
    other identifiers and slots. *)
Definition tr_dcs : dht_spec := mkDht DC 3 ([1; 1; 1; 1] ++ repeat 0 12) [0; 1; 2; 3].
Definition tr_acs : dht_spec := mkDht AC 1 (th_counts ex_acs) (th_values ex_acs).
Definition tr_ts : tables := mkTables (th_counts tr_dcs) (th_values tr_dcs) (th_counts tr_acs) (th_values tr_acs).
Definition tr_cs : list comp_spec := [mkCS 7 1 1 2; mkCS 8 1 1 2; mkCS 9 1 1 2].
Definition tr_h : frame_header := mkFH 1 8 1 9 tr_cs.
Definition tr_segs : list (nat * hseg) := [(0%nat, HSof tr_h); (0%nat, HDht [tr_acs]); (4%nat, HDht [tr_dcs]); (0%nat, HDqt [mkDqt 1 2 ex_q])].
Definition tr_ss : list scan_comp := [mkSC 7 3 1; mkSC 8 3 1; mkSC 9 3 1].
(** 110 11 0 1 10 | 1110 010 10 | 0 10 | 10 0 10 | 1110 101 10 | 1110 110 1100 01 10 | 111111 *)
Definition tr_data : list Z := [0xDB; 0x72; 0x94; 0xBA; 0xDD; 0xB1; 0xBF].

Lemma tr_dc : forall p qs diff n c bs ac ba pred', category diff <= 11 -> length ac = 63%nat -> Forall (fun v => category v <= 15) ac ->
  nth_error [0; 1; 2; 3] n = Some (category diff) -> nth_error (canonical (dc_counts tr_ts)) n = Some c -> coded (ac_counts tr_ts) (ac_values tr_ts) (ac_symbols 0 ac) ba ->
  comp_bits tr_ts (int16 (p + diff)) qs bs pred' -> comp_bits tr_ts p (mkQ (int16 (p + diff)) ac :: qs) (((c ++ magnitude diff ++ []) ++ ba) ++ bs) pred'.
Proof.
  intros p qs diff n c bs ac ba pred' H1 H2 H3 H4 H5 H6 H7. apply (cb_cons _ _ _ _ diff); auto; [split; [exact H1|split; [exact H2|exact H3]]|].
  exists (c ++ magnitude diff ++ []), ba. split; [reflexivity|]. split; [|exact H6]. cbn [b_diff]. unfold dc_symbol. apply (coded_cons _ _ n); [exact H4|exact H5|constructor].
Qed.
Lemma tr_bits : interval_data [tr_ts; tr_ts; tr_ts] [ex_m1; ex_m2] tr_data.
Proof.
  exists tr_data, (firstn 50 (bits_of tr_data)). split; [byte_list|]. split; [reflexivity|]. split; [left; exists [true; true; true; true; true; true]; split; [reflexivity|cbn; lia]|].
  change (firstn 50 (bits_of tr_data)) with
    ((((([true; true; false] ++ [true; true] ++ []) ++ ([false] ++ [true] ++ [true; false] ++ [] ++ [])) ++ []) ++ 
       (((([true; true; true; false] ++ [false; true; false] ++ []) ++ [true; false]) ++ []) ++
       (((([false] ++ [] ++ []) ++ [true; false]) ++ []) ++ []))) ++
     ((((([true; false] ++ [false] ++ []) ++ [true; false]) ++ []) ++ 
       (((([true; true; true; false] ++ [true; false; true] ++ []) ++ [true; false]) ++ []) ++
       (((([true; true; true; false] ++ [true; true; false] ++ []) ++ ([true; true; false; false] ++ [false; true] ++ [true; false] ++ [] ++ [])) ++ []) ++ []))) ++ [])).
  apply (msb_cons _ _ _ _ _ _ [3; -5; 0]).
  - apply mb_cons; [|apply mb_cons; [|apply mb_cons; [|constructor]]].
    + apply (tr_dc 0 [] 3 2%nat [true; true; false]); try reflexivity; [cbn; lia|repeat first [apply Forall_nil | apply Forall_cons]; cbn; lia| |constructor].
      change (ac_symbols 0 ([1] ++ repeat 0 62)) with [(1, [true]); (0, [])]. coded_by 0%nat. coded_by 1%nat. constructor.
    + apply (tr_dc 0 [] (-5) 3%nat [true; true; true; false]); try reflexivity; [cbn; lia|apply ex_small|apply ex_eob|constructor].
    + apply (tr_dc 0 [] 0 0%nat [false]); try reflexivity; [cbn; lia|apply ex_small|apply ex_eob|constructor].
  - apply (msb_cons _ _ _ _ _ _ [2; 0; 6]); [|constructor]. apply mb_cons; [|apply mb_cons; [|apply mb_cons; [|constructor]]].
    + apply (tr_dc 3 [] (-1) 1%nat [true; false]); try reflexivity; [cbn; lia|apply ex_small|apply ex_eob|constructor].
    + apply (tr_dc (-5) [] 5 3%nat [true; true; true; false]); try reflexivity; [cbn; lia|apply ex_small|apply ex_eob|constructor].
    + apply (tr_dc 0 [] 6 3%nat [true; true; true; false]); try reflexivity; [cbn; lia|repeat first [apply Forall_nil | apply Forall_cons]; cbn; lia| |constructor].
      change (ac_symbols 0 ([0; -2] ++ repeat 0 61)) with [(18, [false; true]); (0, [])]. coded_by 2%nat. coded_by 1%nat. constructor.
Qed.
Example tr_encodes : encodes tr_segs tr_h tr_ss [tr_ts; tr_ts; tr_ts] [ex_q; ex_q; ex_q] [ex_m1; ex_m2] tr_data.
Proof.
  assert (CC : forall c s, In c tr_cs -> sc_id s = cs_id c -> sc_dc s = 3 -> sc_ac s = 1 -> comp_coding tr_segs c s tr_ts ex_q).
  { intros c s I E1 E2 E3. assert (T : cs_tq c = 2) by (destruct I as [<-|[<-|[<-|[]]]]; reflexivity). constructor; rewrite ?E2, ?E3, ?T; auto; try lia.
    - exists tr_dcs. split; [reflexivity|split; reflexivity].
    - exists tr_acs. split; [reflexivity|split; reflexivity].
    - exists (mkDqt 1 2 ex_q). split; reflexivity. }
  constructor.
  - repeat first [apply Forall_nil | apply Forall_cons]; cbn [snd]; split; try (cbn; lia).
    + split; [cbn; lia|]. constructor; try (cbn; lia); try discriminate; repeat first [apply Forall_nil | apply Forall_cons]; unfold comp_range, factors_ok, is_byte, nibble; cbn; lia.
    + repeat first [apply Forall_nil | apply Forall_cons]; (split; [cbn; lia|]; split; [split; [reflexivity|byte_list]|]; split; [byte_list|]; split; [reflexivity|]; split; [cbn; lia|vm_compute; discriminate]).
    + repeat first [apply Forall_nil | apply Forall_cons]; (split; [cbn; lia|]; split; [split; [reflexivity|byte_list]|]; split; [byte_list|]; split; [reflexivity|]; split; [cbn; lia|vm_compute; discriminate]).
    + apply Forall_cons; [|apply Forall_nil]. split; [cbn; lia|]. split; [cbn; lia|]. split; [reflexivity|small_list].
  - reflexivity.
  - cbn. repeat constructor; cbn; intuition discriminate.
  - cbn. lia.
  - cbn. lia.
  - do 3 (apply ccs_cons; [apply CC; cbn; tauto|]). apply ccs_nil.
  - repeat constructor.
  - reflexivity.
  - apply sd_last; [left; reflexivity|exact tr_bits].
Qed.
Example C61_case :
  encodes ex_segs ex_h ex_ss [ex_ts; ex_ts; ex_ts] [ex_q; ex_q; ex_q] [ex_m1; ex_m2] ex_data /\
  encodes tr_segs tr_h tr_ss [tr_ts; tr_ts; tr_ts] [ex_q; ex_q; ex_q] [ex_m1; ex_m2] tr_data /\
  last_transform (tr_segs ++ []) = last_transform (ex_segs ++ ex_post) /\
  exists img, decode_fresh true false (file_bytes ex_segs 0 1 (mkSpS ex_ss 0 63 0 0) ex_data ex_post 2) = Ok img /\
    decode_fresh true false (file_bytes tr_segs 1 0 (mkSpS tr_ss 0 63 0 0) tr_data [] 0) = Ok img /\ length img = 27%nat.
Proof.
  split; [exact ex_encodes|]. split; [exact tr_encodes|]. split; [reflexivity|]. eexists. split; [vm_compute; reflexivity|]. split; vm_compute; reflexivity.
Qed.
