(** Bits that are missing at the end of the data (C98). *)
From Verif Require Import Base SpecBits SpecReader SpecMarker SpecHuffman SpecBlock SpecTables SpecFrame SpecSegments SpecScan SpecPlane SpecUpsample SpecImage SpecColor SpecFile SpecAnswer SpecLimits SpecCode SpecMissing
  Biterator Huffman Types Decode BitsP MissingP Props_Scan.

(** Two files with any bytes between the markers of their scan.  If they differ only in zero
    bytes in front of these markers, and none of the seven bytes before is 0xFF, they get the
    same answer or both an error.  So the bits that are missing where data were cut off count
    as zeros. *)
Theorem C98_zeros_partial :
  forall dbg rayon segs h fill1 fill2 ss ts qs ds more ds' more' post fill3,
    header_for segs h ss ts qs -> bytes ds -> more_ok more -> post_ok post -> 0 < fh_lines h -> 0 < fh_samples h ->
    Forall clean_end (ds :: map snd more) -> zeros_behind ds ds' -> zeros_between more more' ->
    let file := fun data => file_bytes segs fill1 fill2 (mkSpS ss 0 63 0 0) data post fill3 in
    bytes (file (scan_bytes ds more)) -> bytes (file (scan_bytes ds' more')) ->
    same_or_errors (decode_fresh dbg rayon (file (scan_bytes ds more))) (decode_fresh dbg rayon (file (scan_bytes ds' more'))).
Proof. exact missing_same. Qed.
Print Assumptions C98_zeros_partial.

Ltac all_bytes := unfold bytes; apply Forall_forall; let b := fresh in let I := fresh in intros b I;
  match type of I with In _ ?l => let G := fresh in assert (G : forallb (fun b => (0 <=? b) && (b <? 256)) l = true) by (vm_compute; reflexivity);
    rewrite forallb_forall in G; specialize (G b I); unfold is_byte; lia end.
(** The example file with one byte instead of three in its first interval. *)
Example C98_case :
  let file := fun data => file_bytes ex_segs 0 1 (mkSpS ex_ss 0 63 0 0) data ex_post 2 in
  header_for ex_segs ex_h ex_ss [ex_ts; ex_ts; ex_ts] [ex_q; ex_q; ex_q] /\ Forall clean_end ([0x80] :: map snd [(0, ex_data2)]) /\
  zeros_behind [0x80] ([0x80] ++ repeat 0 40) /\ zeros_between [(0, ex_data2)] [(0, ex_data2 ++ repeat 0 3)] /\
  bytes (file (scan_bytes [0x80] [(0, ex_data2)])) /\ bytes (file (scan_bytes ([0x80] ++ repeat 0 40) [(0, ex_data2 ++ repeat 0 3)])) /\
  exists img, decode_fresh true false (file (scan_bytes [0x80] [(0, ex_data2)])) = Ok img /\
    decode_fresh true false (file (scan_bytes ([0x80] ++ repeat 0 40) [(0, ex_data2 ++ repeat 0 3)])) = Ok img.
Proof.
  cbv zeta. split; [destruct ex_encodes; constructor; assumption|]. split; [repeat first [apply Forall_nil | apply Forall_cons]; lia|].
  split; [exists 40%nat; reflexivity|]. split; [constructor; [split; [reflexivity|exists 3%nat; reflexivity]|constructor]|].
  split; [all_bytes|]. split; [all_bytes|].
  eexists. split; [vm_compute; reflexivity|vm_compute; reflexivity].
Qed.

(** Without the condition on the last seven bytes it is false: data bytes are delivered a
    second time (C12), here the last of three, behind 64 bits of the eleven MCUs of an image. *)
Definition mi_dcs : dht_spec := mkDht DC 0 ([1] ++ repeat 0 15) [0].
Definition mi_acs : dht_spec := mkDht AC 0 ([1; 1] ++ repeat 0 14) [0; 15].
Definition mi_ts : tables := mkTables (th_counts mi_dcs) (th_values mi_dcs) (th_counts mi_acs) (th_values mi_acs).
Definition mi_q : list Z := repeat 1 64.
Definition mi_h : frame_header := mkFH 0 8 1 88 ex_cs.
Definition mi_segs : list (nat * hseg) := [(0%nat, HDqt [mkDqt 0 0 mi_q]); (0%nat, HSof mi_h); (0%nat, HDht [mi_dcs; mi_acs])].
(** 0 | 10 11111 11111111 01 | 0 ... *)
Definition mi_file (k : nat) : list Z := file_bytes mi_segs 0 0 (mkSpS ex_ss 0 63 0 0) (scan_bytes ([0x5F; 0xFF; 0x40] ++ repeat 0 k) []) [] 0.
Theorem C98_refuted :
  header_for mi_segs mi_h ex_ss [mi_ts; mi_ts; mi_ts] [mi_q; mi_q; mi_q] /\ zeros_behind [0x5F; 0xFF; 0x40] ([0x5F; 0xFF; 0x40] ++ repeat 0 1) /\
  bytes (mi_file 0) /\ bytes (mi_file 1) /\ ~ same_or_errors (decode_fresh true false (mi_file 0)) (decode_fresh true false (mi_file 1)).
Proof.
  split.
  { assert (CC : forall c s, In c ex_cs -> sc_id s = cs_id c -> sc_dc s = 0 -> sc_ac s = 0 -> comp_coding mi_segs c s mi_ts mi_q).
    { intros c s I E1 E2 E3. assert (T : cs_tq c = 0) by (destruct I as [<-|[<-|[<-|[]]]]; reflexivity). constructor; rewrite ?E2, ?E3, ?T; auto; try lia.
      - exists mi_dcs. split; [reflexivity|split; reflexivity].
      - exists mi_acs. split; [reflexivity|split; reflexivity].
      - exists (mkDqt 0 0 mi_q). split; reflexivity. }
    constructor.
    - repeat first [apply Forall_nil | apply Forall_cons]; cbn [snd]; split; try (cbn; lia).
      + apply Forall_cons; [|apply Forall_nil]. split; [cbn; lia|]. split; [cbn; lia|]. split; [reflexivity|small_list].
      + split; [cbn; lia|]. constructor; try (cbn; lia); try discriminate; repeat first [apply Forall_nil | apply Forall_cons]; unfold comp_range, factors_ok, is_byte, nibble; cbn; lia.
      + repeat first [apply Forall_nil | apply Forall_cons]; (split; [cbn; lia|]; split; [split; [reflexivity|byte_list]|]; split; [byte_list|]; split; [reflexivity|]; split; [cbn; lia|vm_compute; discriminate]).
    - reflexivity.
    - cbn. repeat constructor; cbn; intuition discriminate.
    - cbn. lia.
    - cbn. lia.
    - do 3 (apply ccs_cons; [apply CC; cbn; tauto|]). apply ccs_nil. }
  split; [exists 1%nat; reflexivity|]. split; [all_bytes|]. split; [all_bytes|].
  assert (F : decode_fresh true false (mi_file 0) = Fail EEof) by (vm_compute; reflexivity).
  assert (K : exists img, decode_fresh true false (mi_file 1) = Ok img) by (eexists; vm_compute; reflexivity). destruct K as [img K].
  rewrite F, K. intros [H|[_ [e H]]]; discriminate H.
Qed.
Print Assumptions C98_refuted.
