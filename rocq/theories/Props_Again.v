(** Files that bring everything they need, decoded again and in any order (C95). *)
From Verif Require Import Base SpecBits SpecReader SpecMarker SpecHuffman SpecBlock SpecTables SpecFrame SpecSegments SpecScan SpecPlane SpecUpsample SpecImage SpecColor SpecFile SpecAnswer SpecEncoder SpecLimits SpecReuse SpecAgain
  Huffman Decode EncoderP AgainP Props_Scan Props_Answer Props_Reuse Props_Channel.

(** One decoder, any number of files, each complete in itself, in any order and with any
    repetitions: a file gets the answer of a fresh decoder, unless it relies on a restart
    interval or a colour transform being unset that files before it have set. *)
Theorem C95_any_sequence_partial :
  forall dbg rayon files f, Forall (encodes_with []) (files ++ [f]) ->
    (forall a g b, files ++ [f] = a ++ g :: b -> own_interval a g) -> own_transform files f ->
    snd (decode dbg rayon (decoder_after dbg rayon (map coded_bytes files)) (coded_bytes f)) = decode_fresh dbg rayon (coded_bytes f).
Proof. exact again_any. Qed.
Print Assumptions C95_any_sequence_partial.

(** In particular the same file again, any number of times, unless a restart interval is set
    behind its scan only. *)
Theorem C95_again_partial :
  forall dbg rayon n f, encodes_with [] f -> dris (cf_segs f) <> [] \/ last (dris (cf_post f)) 0 = 0 ->
    snd (decode dbg rayon (decoder_after dbg rayon (repeat (coded_bytes f) n)) (coded_bytes f)) = decode_fresh dbg rayon (coded_bytes f).
Proof. exact again_repeat. Qed.
Print Assumptions C95_again_partial.

(** An image of 8 x 16 pixels in two MCUs, and a restart interval behind its scan. *)
Definition ag_image : image :=
  mkImage 8 16 [(1, 1); (1, 1); (1, 1)] [repeat 8 64; repeat 7 64; repeat 2 64] [[[ch_q 5 6]; [ch_q 1 2]; [ch_q 3 4]]; [[ch_q 9 2]; [ch_q 4 1]; [ch_q 1 1]]] None 0.
Definition ag_segs : list (nat * hseg) := firstn 3 (enc_segs ag_image).
Definition ag_file (post : list (nat * hseg)) : coded :=
  mkCoded ag_segs (enc_header ag_image) 0 0 (enc_ss ag_image) (repeat enc_ts 3) (im_quant ag_image) (im_mcus ag_image) (enc_data ag_image) post 0.
Lemma ag_scan : encodes ag_segs (enc_header ag_image) (enc_ss ag_image) (repeat enc_ts 3) (im_quant ag_image) (im_mcus ag_image) (enc_data ag_image).
Proof.
  assert (En : encodes (enc_segs ag_image) (enc_header ag_image) (enc_ss ag_image) (repeat enc_ts 3) (im_quant ag_image) (im_mcus ag_image) (enc_data ag_image)) by (apply (enc_encodes ag_image); unfold ag_image, ch_q; ok_image).
  destruct En as [F Sf ND L4 Few CC Sh Lm SD]. constructor; auto.
  - apply Forall_cons_iff in F. destruct F as [F1 F]. apply Forall_cons_iff in F. destruct F as [F2 F]. apply Forall_cons_iff in F. destruct F as [F3 _]. apply Forall_cons; [exact F1|]. apply Forall_cons; [exact F2|]. apply Forall_cons; [exact F3|constructor].
  - clear - CC. assert (Q : forall c s t q, comp_coding (enc_segs ag_image) c s t q -> comp_coding ag_segs c s t q) by (intros c s t q [X1 X2 X3 X4 X5 X6 X7]; constructor; assumption).
    revert CC. generalize (fh_comps (enc_header ag_image)), (enc_ss ag_image), (repeat enc_ts 3), (im_quant ag_image). intros cs ss ts qs CC. induction CC; constructor; auto.
Qed.
Lemma ag_encodes : forall post, post_ok post -> bytes (flat_map hseg_bytes post) -> encodes_with [] (ag_file post).
Proof.
  intros post Hp B. split; [exact ag_scan|split; [exact Hp|]].
  assert (X : bytes (encode ag_image)) by (clear; apply (enc_bytes ag_image); unfold ag_image, ch_q; ok_image).
  revert X. unfold encode, bytes_with, file_bytes, ag_file, bytes. cbn [cf_segs cf_fill1 cf_fill2 cf_ss cf_data cf_post cf_fill3 app].
  replace (enc_segs ag_image) with (ag_segs ++ skipn 3 (enc_segs ag_image)) by reflexivity. rewrite flat_map_app, !Forall_app. tauto.
Qed.
(** The same file gets a different answer the second time. *)
Theorem C95_again_refuted :
  exists f img, encodes_with [] f /\ decode_fresh true false (coded_bytes f) = Ok img /\
    snd (decode true false (decoder_after true false [coded_bytes f]) (coded_bytes f)) <> Ok img.
Proof.
  exists (ag_file [(0%nat, HDri 1)]). eexists. split.
  - apply ag_encodes; [split; [repeat constructor; cbn; lia|reflexivity]|cbn; byte_list].
  - split; [vm_compute; reflexivity|vm_compute; discriminate].
Qed.
Print Assumptions C95_again_refuted.

(** A file without an Adobe segment gets a different answer after one that has one. *)
Theorem C95_sequence_refuted :
  exists f g img, encodes_with [] f /\ encodes_with [] g /\ own_interval [f] g /\ decode_fresh true false (coded_bytes g) = Ok img /\
    snd (decode true false (decoder_after true false [coded_bytes f]) (coded_bytes g)) <> Ok img.
Proof.
  exists (ag_file [(0%nat, HAdobe 100 [0; 0; 0; 0] 0)]), se_first. eexists. split.
  - apply ag_encodes; [split; [repeat constructor; cbn; lia|reflexivity]|cbn; byte_list].
  - split; [exact se_flat|]. split; [right; reflexivity|]. split; [vm_compute; reflexivity|vm_compute; discriminate].
Qed.
Print Assumptions C95_sequence_refuted.

(** A file without a restart interval and a transform, one that sets a restart interval of 0 and
    has an Adobe segment, both behind the scan, and the first again with a comment. *)
Definition ag_post : list (nat * hseg) := [(0%nat, HDri 3); (0%nat, HAdobe 100 [0; 0; 0; 0] 0); (1%nat, HDri 0)].
Example C95_case :
  let files := [se_first; ag_file []; se_first] in let f := ag_file ag_post in
  Forall (encodes_with []) (files ++ [f]) /\ (forall a g b, files ++ [f] = a ++ g :: b -> own_interval a g) /\ own_transform files f /\
  last (dris (cf_post f)) 0 = 0 /\ adobes (cf_segs f) = [] /\
  snd (decode true true (decoder_after true true (map coded_bytes files)) (coded_bytes f)) = Ok (repeat 0 (Z.to_nat 384)) /\
  snd (decode true true (decoder_after true true [coded_bytes f; coded_bytes f]) (coded_bytes f)) = Ok (repeat 0 (Z.to_nat 384)).
Proof.
  cbv zeta. assert (A : encodes_with [] (ag_file [])) by (apply ag_encodes; [split; [constructor|reflexivity]|constructor]). pose proof se_flat as S.
  assert (B : encodes_with [] (ag_file ag_post)) by (apply ag_encodes; [split; [repeat constructor; cbn; lia|reflexivity]|cbn; byte_list]).
  split; [cbn [app]; repeat (apply Forall_cons; [assumption|]); apply Forall_nil|].
  split; [|split; [left; discriminate|split; [reflexivity|split; [reflexivity|split; vm_compute; reflexivity]]]].
  intros [|f1 [|f2 [|f3 [|f4 a]]]] g b E; cbn [app] in E; try (right; injection E as <- <- <- <- <-; reflexivity); try (right; injection E as <- <- <- <-; reflexivity); try (right; injection E as <- <- <-; reflexivity); try (right; injection E as <- <-; reflexivity).
  all: try (right; inversion E; reflexivity). inversion E. destruct a; discriminate.
Qed.
