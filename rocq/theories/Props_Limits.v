(** What the decoder does not support or does only in part: segments that should have no
    effect (C31, C44), images in several scans (C47), malformed input (C42), decoders that were used before (C09). *)
From Verif Require Import Base SpecBits SpecMarker SpecFrame SpecSegments SpecScan SpecUpsample SpecFile SpecGlobal SpecStream SpecLimits SpecScans Biterator Marker Types Color Decode Samples CommentP ScansP CorruptP ReuseP ScansP2 Props_Scan.

(** ** C44: comments *)
(** A comment that contains a marker code changes the image ... *)
Theorem C44_refuted :
  forall dbg rayon, exists a payload b, bytes (a ++ marker_bytes 0 0xFE ++ segment payload ++ b) /\ between_segments dbg rayon decoder_default a /\
    decode_fresh dbg rayon (a ++ b) = Ok [128; 128; 128] /\
    decode_fresh dbg rayon (a ++ marker_bytes 0 0xFE ++ segment payload ++ b) = Ok [0; 0; 0].
Proof.
  intros dbg rayon. exists [0xFF; 0xD8], [255; 238; 0; 14; 65; 100; 111; 98; 101; 0; 100; 0; 0; 0; 0; 0], (skipn 2 tiny).
  split; [|split; [|split]].
  - unfold bytes. apply Forall_forall. intros v I.
    assert (G : forallb (fun b => (0 <=? b) && (b <? 256)) ([0xFF; 0xD8] ++ marker_bytes 0 0xFE ++ segment [255; 238; 0; 14; 65; 100; 111; 98; 101; 0; 100; 0; 0; 0; 0; 0] ++ skipn 2 tiny) = true) by (vm_compute; reflexivity).
    rewrite forallb_forall in G. specialize (G v I). unfold is_byte. lia.
  - apply (header_between dbg rayon decoder_default 0 []); constructor.
  - destruct dbg, rayon; vm_compute; reflexivity.
  - destruct dbg, rayon; vm_compute; reflexivity.
Qed.
Print Assumptions C44_refuted.

(** ... or makes the decoder panic. *)
Theorem C44_panic_refuted :
  forall dbg rayon, exists a payload b, between_segments dbg rayon decoder_default a /\
    decode_fresh dbg rayon (a ++ b) = Ok [128; 128; 128] /\
    decode_fresh dbg rayon (a ++ marker_bytes 0 0xFE ++ segment payload ++ b) = Panic PUnwrap.
Proof.
  intros dbg rayon. exists [0xFF; 0xD8], [255; 217], (skipn 2 tiny). split; [|split].
  - apply (header_between dbg rayon decoder_default 0 []); constructor.
  - destruct dbg, rayon; vm_compute; reflexivity.
  - destruct dbg, rayon; vm_compute; reflexivity.
Qed.
Print Assumptions C44_panic_refuted.

(** A comment without marker codes (the length field included) has no effect, wherever the
    decoder expects a marker, for every decoder a user can hold: neither on the result nor on
    the state of the decoder. *)
Theorem C44_comment_partial :
  forall dbg rayon d a fill payload b,
    reachable dbg rayon d -> between_segments dbg rayon d a -> no_marker (segment payload) ->
    let comment := marker_bytes fill 0xFE ++ segment payload in
    bytes (a ++ comment ++ b) ->
    decode dbg rayon d (a ++ comment ++ b) = decode dbg rayon d (a ++ b).
Proof. exact comment_skipped. Qed.
Print Assumptions C44_comment_partial.

(** What happens to a comment in general: only its marker is dropped.  The length and the
    payload are read as bytes between segments, so any marker codes in them take effect. *)
Theorem C44_exact :
  forall dbg rayon d a fill rest, reachable dbg rayon d -> between_segments dbg rayon d a ->
    bytes (a ++ marker_bytes fill 0xFE ++ rest) ->
    decode dbg rayon d (a ++ marker_bytes fill 0xFE ++ rest) = decode dbg rayon d (a ++ rest).
Proof. exact comment_exact. Qed.
Print Assumptions C44_exact.

(** A comment holding an EOI marker, as in [C44_panic_refuted], and its bytes without the marker. *)
Example C44_exact_case :
  decode_fresh true false ([0xFF; 0xD8] ++ marker_bytes 1 0xFE ++ segment [255; 217] ++ skipn 2 tiny) = Panic PUnwrap /\
  decode_fresh true false ([0xFF; 0xD8] ++ [0; 4; 255; 217] ++ skipn 2 tiny) = Panic PUnwrap.
Proof. split; vm_compute; reflexivity. Qed.

(** Such places are: the start, and everything after SOI and a number of segments. *)
Theorem C44_places :
  forall dbg rayon d fill segs, reachable dbg rayon d -> Forall (fun s => hseg_ok (snd s)) segs ->
    between_segments dbg rayon d [] /\ between_segments dbg rayon d (marker_bytes fill 0xD8 ++ flat_map hseg_bytes segs).
Proof. intros dbg rayon d fill segs R F. split; [apply start_between|exact (header_between dbg rayon d fill segs R F)]. Qed.
Print Assumptions C44_places.

Example C44_case :
  no_marker (segment [104; 105; 255; 0; 33]) /\ ~ no_marker (segment [255; 217]) /\
  decode_fresh true false ([0xFF; 0xD8] ++ marker_bytes 1 0xFE ++ segment [104; 105; 255; 0; 33] ++ skipn 2 tiny) = Ok [128; 128; 128].
Proof.
  split; [|split].
  - cbn. do 4 (apply nm_byte; [lia|]). apply (nm_stuffed 0). apply nm_byte; [lia|constructor].
  - cbn. intros H. inversion H as [|x r N H1|]; subst. inversion H1 as [|x r N1 H2|]; subst. inversion H2 as [|x r N2|k r H3 E]; subst; [congruence|].
    destruct k; discriminate.
  - vm_compute. reflexivity.
Qed.

(** ** C31 for whole files *)
(** An APPn segment other than APP14, with any payload, has no effect on the result or on the
    decoder. *)
Theorem C31_app_file :
  forall dbg rayon d a fill n payload b,
    reachable dbg rayon d -> between_segments dbg rayon d a -> 0 <= n <= 15 -> n <> 14 -> lenZ payload + 2 < 65536 ->
    let app := marker_bytes fill (0xE0 + n) ++ segment payload in
    bytes (a ++ app ++ b) ->
    decode dbg rayon d (a ++ app ++ b) = decode dbg rayon d (a ++ b).
Proof. exact app_skipped. Qed.
Print Assumptions C31_app_file.

Example C31_app_file_case :
  between_segments true false decoder_default [0xFF; 0xD8] /\
  decode_fresh true false ([0xFF; 0xD8] ++ (marker_bytes 2 0xE1 ++ segment [255; 217; 255; 218]) ++ skipn 2 tiny) = Ok [128; 128; 128].
Proof. split; [apply (header_between true false decoder_default 0 []); constructor|vm_compute; reflexivity]. Qed.

(** Bytes that form no marker are skipped wherever a marker is expected. *)
Theorem C23_skipped_in_files :
  forall dbg rayon d a x b,
    reachable dbg rayon d -> between_segments dbg rayon d a -> no_marker x -> bytes (a ++ x ++ b) ->
    decode dbg rayon d (a ++ x ++ b) = decode dbg rayon d (a ++ b).
Proof. exact junk_skipped. Qed.
Print Assumptions C23_skipped_in_files.

Example C23_skipped_case : decode_fresh true false ([0xFF; 0xD8] ++ [1; 255; 255; 0; 2] ++ skipn 2 tiny) = Ok [128; 128; 128].
Proof. vm_compute. reflexivity. Qed.

(** ** C47: several scans *)
(** The components of the 1x1 example in three scans (the same six code bits 00 00 00, each
    pair padded with 1 bits) instead of one. *)
Definition three_scans : list Z :=
  [0xFF; 0xD8] ++ tiny_dqt ++ tiny_sof ++ tiny_dht ++
  flat_map (fun id => marker_bytes 0 0xDA ++ segment [1; id; 0; 0; 0x3F; 0] ++ [0x3F]) [1; 2; 3] ++ [0xFF; 0xD9].
Theorem C47_refuted :
  forall dbg rayon, decode_fresh dbg rayon tiny = Ok [128; 128; 128] /\ exists e, decode_fresh dbg rayon three_scans = Fail e.
Proof. intros dbg rayon. split; [|exists EEof]; destruct dbg, rayon; vm_compute; reflexivity. Qed.
Print Assumptions C47_refuted.

(** In general: whenever there is an image, the last scan read has (at least) as many
    components as the frame, so that an image whose scans have fewer components is never
    decoded.  Missing: what the property asks for. *)
Theorem C47_last_scan_partial :
  forall dbg rayon input d img,
    decode dbg rayon decoder_default input = (d, Ok img) -> img <> [] ->
    exists fr, d_frame d = Some fr /\
      (all_used dbg (length (f_components fr)) (d_color d) ->
       exists sc, d_scan d = Some sc /\ (length (f_components fr) <= length (s_headers sc))%nat).
Proof. exact one_scan_only. Qed.
Print Assumptions C47_last_scan_partial.

Example C47_case :
  exists d, decode true false decoder_default tiny = (d, Ok [128; 128; 128]) /\ all_used false 3 (d_color d) /\
    match d_frame d, d_scan d with Some fr, Some sc => length (f_components fr) = 3%nat /\ length (s_headers sc) = 3%nat | _, _ => False end.
Proof. eexists. split; [vm_compute; reflexivity|]. split; [right; left; split; [reflexivity|discriminate]|split; reflexivity]. Qed.

(** No image in several scans is ever decoded: if every frame header in the input has at least
    [n] components and every scan header fewer, there is no image (but an empty one), whatever
    the input is otherwise.  (Release builds: for files without an APP14 marker; with one, three
    components may give a black image, C36.) *)
Theorem C47_several_scans_refuted :
  forall dbg rayon input n img, bytes input ->
    (forall lines samples cs, header_in input lines samples cs -> n <= lenZ cs) -> (forall k, scan_in input k -> k < n) ->
    dbg = true \/ ~ has_code 0xEE input -> decode_fresh dbg rayon input = Ok img -> img = [].
Proof. exact no_full_scan. Qed.
Print Assumptions C47_several_scans_refuted.

(** The file in three scans above is such an input, with n = 3. *)
Lemma count_check : forall input n,
  forallb (fun i => negb ((nth i input 0 =? 255) && (192 <=? nth (i + 1) input 0) && (nth (i + 1) input 0 <=? 194)) || (n <=? nth (i + 9) input 0))%bool (seq 0 (length input)) = true ->
  forall lines samples cs, header_in input lines samples cs -> n <= lenZ cs.
Proof.
  intros input n H lines samples cs [pre [m [l1 [l0 [pr [po [Hm E]]]]]]]. rewrite forallb_forall in H. specialize (H (length pre)).
  assert (N : forall k x, nth k ([255; 0xC0 + m; l1; l0] ++ sof_bytes pr lines samples cs ++ po) 0 = x -> nth (length pre + k) input 0 = x).
  { intros k x <-. rewrite E, app_nth2 by lia. f_equal. lia. }
  assert (L : In (length pre) (seq 0 (length input))) by (apply in_seq; rewrite E, !app_length; cbn [length]; lia).
  specialize (H L). pose proof (N 0%nat _ eq_refl) as N0. pose proof (N 1%nat _ eq_refl) as N1. pose proof (N 9%nat _ eq_refl) as N9. rewrite Nat.add_0_r in N0.
  rewrite N0, N1, N9 in H. cbn [nth app sof_bytes be16] in H. lia.
Qed.
Lemma scan_check : forall input n,
  forallb (fun i => negb ((nth i input 0 =? 255) && (nth (i + 1) input 0 =? 0xDA)) || (nth (i + 4) input 0 <? n))%bool (seq 0 (length input)) = true ->
  forall k, scan_in input k -> k < n.
Proof.
  intros input n H k [pre [l1 [l0 [po E]]]]. rewrite forallb_forall in H. specialize (H (length pre)).
  assert (N : forall j x, nth j ([255; 0xDA; l1; l0; k] ++ po) 0 = x -> nth (length pre + j) input 0 = x).
  { intros j x <-. rewrite E, app_nth2 by lia. f_equal. lia. }
  assert (L : In (length pre) (seq 0 (length input))) by (apply in_seq; rewrite E, !app_length; cbn [length]; lia).
  specialize (H L). pose proof (N 0%nat _ eq_refl) as N0. pose proof (N 1%nat _ eq_refl) as N1. pose proof (N 4%nat _ eq_refl) as N4. rewrite Nat.add_0_r in N0.
  rewrite N0, N1, N4 in H. cbn [nth app] in H. lia.
Qed.
Example C47_several_scans_case :
  bytes three_scans /\ (forall lines samples cs, header_in three_scans lines samples cs -> 3 <= lenZ cs) /\ (forall k, scan_in three_scans k -> k < 3) /\
  header_in three_scans 1 1 [mkCS 1 1 1 0; mkCS 2 1 1 0; mkCS 3 1 1 0] /\ scan_in three_scans 1.
Proof.
  split; [|split; [apply count_check; vm_compute; reflexivity|split; [apply scan_check; vm_compute; reflexivity|split]]].
  - let l := eval vm_compute in three_scans in change (bytes l); byte_list.
  - exists ([0xFF; 0xD8] ++ tiny_dqt), 0, 0, 17, 8, (tiny_dht ++ flat_map (fun id => marker_bytes 0 0xDA ++ segment [1; id; 0; 0; 0x3F; 0] ++ [0x3F]) [1; 2; 3] ++ [0xFF; 0xD9]).
    split; [lia|]. vm_compute. reflexivity.
  - exists ([0xFF; 0xD8] ++ tiny_dqt ++ tiny_sof ++ tiny_dht), 0, 8, ([1; 0; 0; 0x3F; 0; 0x3F] ++ flat_map (fun id => marker_bytes 0 0xDA ++ segment [1; id; 0; 0; 0x3F; 0] ++ [0x3F]) [2; 3] ++ [0xFF; 0xD9]).
    vm_compute. reflexivity.
Qed.

(** ** C42: malformed input *)
(** The statement is false.  Each of these panics in every build: an end-of-image marker
    without a frame; a greyscale image; a progressive frame; a frame of width 0; a frame whose
    quantisation table is missing; a Huffman table without codes; a byte after the image. *)
Definition with_frame (sof : list Z) : list Z := [0xFF; 0xD8] ++ tiny_dqt ++ sof ++ tiny_dht ++ tiny_sos ++ [3] ++ [0xFF; 0xD9].
Definition panicking : list (list Z * panic) :=
  [ ([0xFF; 0xD8; 0xFF; 0xD9], PUnwrap);
    ([0xFF; 0xD8] ++ tiny_dqt ++ [0xFF; 0xC0; 0; 0x0B; 8; 0; 1; 0; 1; 1; 1; 0x11; 0] ++ tiny_dht ++ [0xFF; 0xDA; 0; 0x08; 1; 1; 0; 0; 0x3F; 0] ++ [3] ++ [0xFF; 0xD9], PComponents);
    (with_frame [0xFF; 0xC2; 0; 0x11; 8; 0; 1; 0; 1; 3; 1; 0x11; 0; 2; 0x11; 0; 3; 0x11; 0], PUnimplemented);
    (with_frame [0xFF; 0xC0; 0; 0x11; 8; 0; 1; 0; 0; 3; 1; 0x11; 0; 2; 0x11; 0; 3; 0x11; 0], PAssert);
    (with_frame [0xFF; 0xC0; 0; 0x11; 8; 0; 1; 0; 1; 3; 1; 0x11; 1; 2; 0x11; 0; 3; 0x11; 0], PMissing);
    ([0xFF; 0xD8; 0xFF; 0xC4; 0; 0x13; 0] ++ repeat 0 16, PIndex);
    (tiny ++ [0], PAssert) ].
Theorem C42_refuted :
  forall dbg rayon input p, In (input, p) panicking -> bytes input /\ decode_fresh dbg rayon input = Panic p.
Proof.
  intros dbg rayon input p I. split.
  - assert (G : forallb (fun x => forallb (fun b => (0 <=? b) && (b <? 256)) (fst x)) panicking = true) by (vm_compute; reflexivity).
    rewrite forallb_forall in G. specialize (G _ I). cbn [fst] in G. rewrite forallb_forall in G. apply Forall_forall. intros b J. specialize (G b J). unfold is_byte. lia.
  - unfold panicking in I. repeat (destruct I as [E|I]; [injection E as <- <-; destruct dbg, rayon; vm_compute; reflexivity|]). destruct I.
Qed.
Print Assumptions C42_refuted.

(** The missing part: damage outside the scan data.  When the segments around the scan are
    well formed, no damage to the scan data panics, wherever the file is cut off: [data] is any
    bytes without a marker other than RST0..RST7, and need not encode anything. *)
Theorem C42_damaged_scan_partial :
  forall dbg rayon segs h fill1 fill2 ss ts qs data post fill3 input more,
    header_for segs h ss ts qs -> shows h (adobes (segs ++ post)) -> rst_only data -> post_ok post ->
    input ++ more = file_bytes segs fill1 fill2 (mkSpS ss 0 63 0 0) data post fill3 -> bytes (input ++ more) ->
    returns (decode_fresh dbg rayon input).
Proof. exact damaged_scan. Qed.
Print Assumptions C42_damaged_scan_partial.

(** Nothing that is appended to an input makes a panic go away: a panic is decided by the
    bytes that were read. *)
Theorem C42_panics_persist :
  forall dbg rayon d input more, reachable dbg rayon d -> bytes (input ++ more) ->
    ~ returns (snd (decode dbg rayon d input)) -> ~ returns (snd (decode dbg rayon d (input ++ more))).
Proof. exact panics_persist. Qed.
Print Assumptions C42_panics_persist.

(** The file of C45 with other scan data: the restart markers are in the wrong order, which is
    an error. *)
Definition bad_data : list Z := [0; 255; 0xD5; 255; 255; 0; 3; 255; 0xD0; 255; 0].
Example C42_case :
  header_for ex_segs ex_h ex_ss [ex_ts; ex_ts; ex_ts] [ex_q; ex_q; ex_q] /\ shows ex_h (adobes (ex_segs ++ ex_post)) /\ rst_only bad_data /\ post_ok ex_post /\
  decode_fresh true false (file_bytes ex_segs 0 1 (mkSpS ex_ss 0 63 0 0) bad_data ex_post 2) = Fail ERstNumber.
Proof.
  split; [destruct ex_encodes; constructor; assumption|]. split; [|split; [|split]].
  - unfold shows. split; [reflexivity|]. split; [reflexivity|]. split; [repeat constructor|]. split.
    + repeat first [apply Forall_nil | apply Forall_cons]; (split; [intros H; vm_compute in H; discriminate|intros [H|H]; vm_compute in H; discriminate]).
    + left. split; [reflexivity|discriminate].
  - unfold bad_data. apply ro_byte; [lia|]. apply (ro_rst 0 5); [lia|]. apply (ro_stuffed 1). apply ro_byte; [lia|]. apply (ro_rst 0 0); [lia|]. apply (ro_stuffed 0). constructor.
  - split; [|reflexivity]. repeat first [apply Forall_nil | apply Forall_cons]; (split; [cbn|cbn; lia]).
    + split; [lia|]. split; [lia|]. byte_list.
    + split; [byte_list|]. do 3 (apply nm_byte; [lia|]). constructor.
  - vm_compute. reflexivity.
Qed.

(** ** C09: using a decoder again *)
(** Two files after which [tiny] (which is self-contained) is decoded differently: the Adobe
    transform and the restart interval of the earlier file still apply.  [wide] is the example
    with two MCUs. *)
Definition tiny_adobe : list Z := [0xFF; 0xD8] ++ marker_bytes 0 0xEE ++ segment (adobe_bytes 100 [0; 0; 0; 0] 0) ++ skipn 2 tiny.
Definition wide_sof : list Z := [0xFF; 0xC0; 0; 0x11; 8; 0; 1; 0; 9; 3; 1; 0x11; 0; 2; 0x11; 0; 3; 0x11; 0].
Definition wide : list Z := [0xFF; 0xD8] ++ tiny_dqt ++ wide_sof ++ tiny_dht ++ tiny_sos ++ [0; 0x0F] ++ [0xFF; 0xD9].
Definition wide_dri : list Z :=
  [0xFF; 0xD8] ++ marker_bytes 0 0xDD ++ segment [0; 1] ++ tiny_dqt ++ wide_sof ++ tiny_dht ++ tiny_sos ++ [3; 0xFF; 0xD0; 3] ++ [0xFF; 0xD9].
Theorem C09_refuted :
  forall dbg rayon,
    (decode_fresh dbg rayon tiny = Ok [128; 128; 128] /\ snd (decode dbg rayon (decoder_after dbg rayon [tiny_adobe]) tiny) = Ok [0; 0; 0]) /\
    (decode_fresh dbg rayon wide = Ok (repeat 128 27) /\ decode_fresh dbg rayon wide_dri = Ok (repeat 128 27) /\
     exists e, snd (decode dbg rayon (decoder_after dbg rayon [wide_dri]) wide) = Fail e).
Proof. intros dbg rayon. split; [split|split; [|split; [|exists ERstMarker]]]; destruct dbg, rayon; vm_compute; reflexivity. Qed.
Print Assumptions C09_refuted.

(** After any history in which no earlier input contains the code of a DRI or APP14 marker (or
    if the segments at the start of the file set the interval and the transform themselves),
    whatever came of the earlier calls, an image that a fresh decoder returns is also returned by
    the used one.  In a release build the image must not be all black: a file without any scan
    may give a black image, or show what is left of an earlier one.  Missing: the statement for
    inputs that a fresh decoder rejects (a used decoder may accept them, with the tables of an
    earlier file). *)
Theorem C09_reuse_partial :
  forall dbg rayon history input img,
    Forall bytes history -> never 0xDD history -> never 0xEE history ->
    decode_fresh dbg rayon input = Ok img -> dbg = true \/ not_black img ->
    snd (decode dbg rayon (decoder_after dbg rayon history) input) = Ok img.
Proof. exact reuse. Qed.
Print Assumptions C09_reuse_partial.

Theorem C09_reuse_header_partial :
  forall dbg rayon history fill segs rest img,
    let input := marker_bytes fill 0xD8 ++ flat_map hseg_bytes segs ++ rest in
    Forall bytes history -> bytes input -> Forall (fun s => hseg_ok (snd s)) segs ->
    dris segs <> [] \/ never 0xDD history -> adobes segs <> [] \/ never 0xEE history ->
    decode_fresh dbg rayon input = Ok img -> dbg = true \/ not_black img ->
    snd (decode dbg rayon (decoder_after dbg rayon history) input) = Ok img.
Proof. exact reuse_header. Qed.
Print Assumptions C09_reuse_header_partial.

(** [tiny] after a larger image, a rejected file and a truncated file. *)
Definition ex_history : list (list Z) := [wide; [0xFF; 0xD8; 0xFF; 0xC4; 0; 3; 0x20]; firstn 40 tiny].
Example C09_case :
  Forall bytes ex_history /\ never 0xDD ex_history /\ never 0xEE ex_history /\ decode_fresh true false tiny = Ok [128; 128; 128] /\
  decode_fresh true false [0xFF; 0xD8; 0xFF; 0xC4; 0; 3; 0x20] = Fail EDhtClass /\ decode_fresh true false (firstn 40 tiny) = Fail EEof /\
  not_black [128; 128; 128] /\
  (* the used decoder accepts a file without tables of its own *)
  snd (decode true false (decoder_after true false [tiny]) ([0xFF; 0xD8] ++ tiny_sof ++ tiny_sos ++ [3; 0xFF; 0xD9])) = Ok [128; 128; 128] /\
  decode_fresh true false ([0xFF; 0xD8] ++ tiny_sof ++ tiny_sos ++ [3; 0xFF; 0xD9]) = Fail EUnsetDc.
Proof.
  assert (N : forall c, (forall i, In i ex_history -> forallb (fun n => negb ((nth n i 0 =? 255) && (nth (S n) i 0 =? c))) (seq 0 (length i)) = true) -> never c ex_history).
  { intros c H i I [a [b E]]. specialize (H i I). rewrite forallb_forall in H. specialize (H (length a)).
    assert (A0 : nth (length a) i 0 = 255).
    { rewrite E, app_nth2 by lia. replace (length a - length a)%nat with 0%nat by lia. reflexivity. }
    assert (A1 : nth (S (length a)) i 0 = c).
    { rewrite E, app_nth2 by lia. replace (S (length a) - length a)%nat with 1%nat by lia. reflexivity. }
    rewrite A0, A1, !Z.eqb_refl in H. discriminate H.
    apply in_seq. rewrite E, app_length. cbn [length app]. lia. }
  split; [|split; [|split; [|split; [|split; [|split; [|split; [|split]]]]]]]; try (vm_compute; reflexivity).
  - repeat first [apply Forall_nil | apply Forall_cons]; byte_list.
  - apply N. intros i I. unfold ex_history in I. repeat (destruct I as [<-|I]; [vm_compute; reflexivity|]). destruct I.
  - apply N. intros i I. unfold ex_history in I. repeat (destruct I as [<-|I]; [vm_compute; reflexivity|]). destruct I.
  - exists 128. split; [left; reflexivity|lia].
Qed.
