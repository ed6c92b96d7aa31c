(** Edits of the coefficients: other quantisation tables (C68), and images cut out of others
    (C69). *)
From Verif Require Import Base SpecBits SpecReader SpecMarker SpecHuffman SpecBlock SpecTables SpecFrame SpecSegments SpecScan SpecPlane SpecUpsample SpecImage SpecColor SpecFile SpecAnswer SpecEdit Huffman Decode EditP EditP2 Props_Scan Props_Flat.

(** ** C68: requantisation *)
(** Two files get the same answer if the products of coefficients and quantisation values are
    the same (and size, sampling factors and Adobe transform). *)
Theorem C68_requantised :
  forall dbg rayon segs h fill1 fill2 ss ts data post fill3 segs' h' fill1' fill2' ss' ts' data' post' fill3' qs ms qs' ms',
    encodes segs h ss ts qs ms data -> encodes segs' h' ss' ts' qs' ms' data' -> post_ok post -> post_ok post' ->
    fh_lines h' = fh_lines h -> fh_samples h' = fh_samples h ->
    map (fun c => (cs_h c, cs_v c)) (fh_comps h') = map (fun c => (cs_h c, cs_v c)) (fh_comps h) ->
    last_transform (segs' ++ post') = last_transform (segs ++ post) ->
    Forall no_zero qs -> Forall no_zero qs' -> Forall2 (same_mcu qs qs') ms ms' ->
    let file := file_bytes segs fill1 fill2 (mkSpS ss 0 63 0 0) data post fill3 in
    let file' := file_bytes segs' fill1' fill2' (mkSpS ss' 0 63 0 0) data' post' fill3' in
    bytes file -> bytes file' -> decode_fresh dbg rayon file' = decode_fresh dbg rayon file.
Proof. exact products_answer. Qed.
Print Assumptions C68_requantised.

(** ** C69: cutting out *)
(** The MCUs of the second file are a rectangle of those of the first.  If both give an image,
    the pixels of the second are those of the first at the place that was cut out: all of them
    if no component is subsampled, otherwise those that interpolation across the cut does not
    reach.  (The parallel build draws other rows where a component is vertically subsampled,
    C41.) *)
Theorem C69_cut_out :
  forall dbg rayon segs h fill1 fill2 ss ts data post fill3 segs' h' fill1' fill2' ss' ts' data' post' fill3' qs ms ms' r0 c0 img img' y x,
    encodes segs h ss ts qs ms data -> encodes segs' h' ss' ts' qs ms' data' -> post_ok post -> post_ok post' ->
    let cs := fh_comps h in let hm := largest (map cs_h cs) in let vm := largest (map cs_v cs) in
    let lines := fh_lines h in let samples := fh_samples h in let lines' := fh_lines h' in let samples' := fh_samples h' in
    map (fun c => (cs_h c, cs_v c)) (fh_comps h') = map (fun c => (cs_h c, cs_v c)) cs ->
    last_transform (segs' ++ post') = last_transform (segs ++ post) ->
    cut_out (mcus samples hm) ms r0 c0 (mcus lines' vm) (mcus samples' hm) ms' -> rayon = false \/ vm = 1 ->
    let file := file_bytes segs fill1 fill2 (mkSpS ss 0 63 0 0) data post fill3 in
    let file' := file_bytes segs' fill1' fill2' (mkSpS ss' 0 63 0 0) data' post' fill3' in
    bytes file -> bytes file' -> decode_fresh dbg rayon file = Ok img -> decode_fresh dbg rayon file' = Ok img' ->
    0 <= y < lines' -> 0 <= x < samples' -> y + 8 * vm * r0 < lines -> x + 8 * hm * c0 < samples ->
    full_resolution cs \/ clear_of_cut lines samples hm vm r0 c0 lines' samples' y x ->
    pixel (lenZ cs) samples' y x img' = pixel (lenZ cs) samples (y + 8 * vm * r0) (x + 8 * hm * c0) img.
Proof. exact cut_image. Qed.
Print Assumptions C69_cut_out.

(** ** Cases *)
(** Files with two quantisation tables and the restart interval [r]. *)
Definition edit_segs (h : frame_header) (qa qb : list Z) (r : Z) : list (nat * hseg) :=
  [(0%nat, HDqt [mkDqt 0 0 qa; mkDqt 0 1 qb]); (0%nat, HSof h); (0%nat, HDht [ex_dcs; ex_acs]); (0%nat, HDri r)].
Lemma edit_encodes : forall h qa qb r ms data, 0 <= fh_marker h <= 1 -> header_ok (fh_lines h) (fh_samples h) (fh_comps h) -> map cs_id (fh_comps h) = [1; 2; 3] ->
  map cs_tq (fh_comps h) = [0; 1; 0] -> (blocks_before (fh_comps h) (length (fh_comps h)) <= 10)%nat -> Forall (mcu_shape (fh_comps h)) ms ->
  lenZ ms = mcus (fh_lines h) (largest (map cs_v (fh_comps h))) * mcus (fh_samples h) (largest (map cs_h (fh_comps h))) ->
  0 <= r < 65536 -> length qa = 64%nat -> bytes qa -> length qb = 64%nat -> bytes qb ->
  scan_data [ex_ts; ex_ts; ex_ts] r 0 ms data -> encodes (edit_segs h qa qb r) h ex_ss [ex_ts; ex_ts; ex_ts] [qa; qb; qa] ms data.
Proof.
  intros [mk pr l w cs] qa qb r ms data. cbn [fh_marker fh_lines fh_samples fh_comps]. intros Hm HO Hi Ht Hb Sh Hn Hr La Ba Lb Bb Hd.
  destruct cs as [|c0 [|c1 [|c2 [|]]]]; try discriminate Hi. injection Hi as I0 I1 I2. injection Ht as T0 T1 T2.
  assert (CC : forall c s q, (cs_tq c = 0 /\ q = qa \/ cs_tq c = 1 /\ q = qb) -> sc_id s = cs_id c -> sc_dc s = 0 -> sc_ac s = 0 -> comp_coding (edit_segs (mkFH mk pr l w [c0; c1; c2]) qa qb r) c s ex_ts q).
  { intros c s q T E1 E2 E3. constructor; rewrite ?E2, ?E3; auto; try lia.
    - exists ex_dcs. split; [reflexivity|split; reflexivity].
    - exists ex_acs. split; [reflexivity|split; reflexivity].
    - destruct T as [[-> ->]|[-> ->]]; [exists (mkDqt 0 0 qa)|exists (mkDqt 0 1 qb)]; split; reflexivity. }
  constructor.
  - repeat first [apply Forall_nil | apply Forall_cons]; cbn [snd]; split; try (cbn; lia).
    + repeat first [apply Forall_nil | apply Forall_cons]; (split; [cbn; lia|]; split; [cbn; lia|]; split; [assumption|]); cbn; assumption.
    + cbn [hseg_payload flat_map]. unfold dqt_bytes. cbn [tq_prec tq_dest tq_values Z.eqb]. unfold lenZ. rewrite !app_length. cbn [length]. rewrite La, Lb. cbn. lia.
    + split; [exact Hm|exact HO].
    + repeat first [apply Forall_nil | apply Forall_cons]; (split; [cbn; lia|]; split; [split; [reflexivity|byte_list]|]; split; [byte_list|]; split; [reflexivity|]; split; [cbn; lia|vm_compute; discriminate]).
  - reflexivity.
  - cbn. rewrite I0, I1, I2. repeat constructor; cbn; intuition discriminate.
  - cbn. lia.
  - exact Hb.
  - apply ccs_cons; [apply CC; auto|]. apply ccs_cons; [apply CC; auto|]. apply ccs_cons; [apply CC; auto|]. apply ccs_nil.
  - exact Sh.
  - exact Hn.
  - exact Hd.
Qed.

(** 4:2:0 with six blocks per MCU; all blocks are flat. *)
Definition edit_cs : list comp_spec := [mkCS 1 2 2 0; mkCS 2 1 1 1; mkCS 3 1 1 0].
Lemma edit_bits : forall p a d0 d1 d2 n0 n1 n2 k0 k1 k2, a = int16 (p + d0) -> p = 0 -> 0 <= category d0 <= 11 -> 0 <= category d1 <= 11 -> 0 <= category d2 <= 11 ->
  nth_error [0; 2; 3] n0 = Some (category d0) -> nth_error [0; 2; 3] n1 = Some (category d1) -> nth_error [0; 2; 3] n2 = Some (category d2) ->
  nth_error (canonical (dc_counts ex_ts)) n0 = Some k0 -> nth_error (canonical (dc_counts ex_ts)) n1 = Some k1 -> nth_error (canonical (dc_counts ex_ts)) n2 = Some k2 ->
  int16 (a + 0) = a ->
  let z := ([false] ++ [] ++ []) ++ [true; false] in
  mcu_bits [ex_ts; ex_ts; ex_ts] [0; 0; 0] [repeat (flat_q a) 4; [flat_q (int16 d1)]; [flat_q (int16 d2)]]
    ((((k0 ++ magnitude d0 ++ []) ++ [true; false]) ++ z ++ z ++ z ++ []) ++ (((k1 ++ magnitude d1 ++ []) ++ [true; false]) ++ []) ++ (((k2 ++ magnitude d2 ++ []) ++ [true; false]) ++ []) ++ [])
    [a; int16 d1; int16 d2].
Proof.
  intros p a d0 d1 d2 n0 n1 n2 k0 k1 k2 Ea Ep C0 C1 C2 N0 N1 N2 K0 K1 K2 Sa z. subst p. unfold z. cbn [repeat].
  apply mb_cons; [|apply mb_cons; [|apply mb_cons; [|constructor]]].
  - rewrite Ea at 1. apply (flat_block_bits 0 d0 n0); auto. rewrite <- Ea.
    rewrite <- Sa at 2. apply (flat_block_bits a 0 0); try reflexivity; [cbn; lia|]. rewrite Sa.
    rewrite <- Sa at 2. apply (flat_block_bits a 0 0); try reflexivity; [cbn; lia|]. rewrite Sa.
    rewrite <- Sa at 2. apply (flat_block_bits a 0 0); try reflexivity; [cbn; lia|]. rewrite Sa. constructor.
  - apply (flat_block_bits 0 d1 n1); auto. constructor.
  - apply (flat_block_bits 0 d2 n2); auto. constructor.
Qed.
Definition edit_m (a b c : Z) : mcu := [repeat (flat_q a) 4; [flat_q b]; [flat_q c]].
(** DC values 3, -5, 6; the same divided by 12/8, 10/8 and 12/8; 0, 6, -5. *)
Definition edit_data1 : list Z := flat_data420.
Definition edit_data2 : list Z := [0xA9; 0x25; 0x9D; 0xA5].
Definition edit_data3 : list Z := [0x49; 0x2D; 0xAC; 0xAF].

Lemma edit_int1 : interval_data [ex_ts; ex_ts; ex_ts] [edit_m 3 (-5) 6] edit_data1.
Proof.
  exists edit_data1, (firstn 31 (bits_of edit_data1)). split; [byte_list|]. split; [reflexivity|]. split; [left; exists [true]; split; [reflexivity|cbn; lia]|].
  pose proof (edit_bits 0 3 3 (-5) 6 1 2 2 [true; false] [true; true; false] [true; true; false] eq_refl eq_refl ltac:(cbn; lia) ltac:(cbn; lia) ltac:(cbn; lia) eq_refl eq_refl eq_refl eq_refl eq_refl eq_refl eq_refl) as H.
  exact (msb_cons _ _ _ _ _ [] _ H (msb_nil _ _)).
Qed.
Lemma edit_int2 : interval_data [ex_ts; ex_ts; ex_ts] [edit_m 2 (-4) 4] edit_data2.
Proof.
  exists edit_data2, (firstn 31 (bits_of edit_data2)). split; [byte_list|]. split; [reflexivity|]. split; [left; exists [true]; split; [reflexivity|cbn; lia]|].
  pose proof (edit_bits 0 2 2 (-4) 4 1 2 2 [true; false] [true; true; false] [true; true; false] eq_refl eq_refl ltac:(cbn; lia) ltac:(cbn; lia) ltac:(cbn; lia) eq_refl eq_refl eq_refl eq_refl eq_refl eq_refl eq_refl) as H.
  exact (msb_cons _ _ _ _ _ [] _ H (msb_nil _ _)).
Qed.
Lemma edit_int3 : interval_data [ex_ts; ex_ts; ex_ts] [edit_m 0 6 (-5)] edit_data3.
Proof.
  exists edit_data3, (firstn 28 (bits_of edit_data3)). split; [byte_list|]. split; [reflexivity|]. split; [left; exists [true; true; true; true]; split; [reflexivity|cbn; lia]|].
  pose proof (edit_bits 0 0 0 6 (-5) 0 2 2 [false] [true; true; false] [true; true; false] eq_refl eq_refl ltac:(cbn; lia) ltac:(cbn; lia) ltac:(cbn; lia) eq_refl eq_refl eq_refl eq_refl eq_refl eq_refl eq_refl) as H.
  exact (msb_cons _ _ _ _ _ [] _ H (msb_nil _ _)).
Qed.
Definition edit_h (lines samples : Z) : frame_header := mkFH 0 8 lines samples edit_cs.
Lemma edit_header : forall lines samples, 0 <= lines < 65536 -> 0 <= samples < 65536 -> header_ok lines samples edit_cs.
Proof.
  intros lines samples Hl Hs. split; [exact Hl|exact Hs|discriminate|cbn; lia| |]; repeat first [apply Forall_nil | apply Forall_cons]; unfold comp_range, factors_ok, is_byte, nibble; cbn; lia.
Qed.
Lemma edit_one : forall qa qb m data samples, 0 < samples <= 16 -> mcu_shape edit_cs m -> length qa = 64%nat -> bytes qa -> length qb = 64%nat -> bytes qb ->
  interval_data [ex_ts; ex_ts; ex_ts] [m] data -> encodes (edit_segs (edit_h 4 samples) qa qb 0) (edit_h 4 samples) ex_ss [ex_ts; ex_ts; ex_ts] [qa; qb; qa] [m] data.
Proof.
  intros qa qb m data samples Hs Sh La Ba Lb Bb D. apply edit_encodes; auto; try lia; try reflexivity.
  - cbn. lia.
  - apply edit_header; cbn; lia.
  - cbn [edit_h fh_lines fh_samples fh_comps]. change (largest (map cs_v edit_cs)) with 2. change (largest (map cs_h edit_cs)) with 2. change (mcus 4 2) with 1. unfold mcus, ceil_div.
    assert (E : (samples + 8 * 2 - 1) / (8 * 2) = 1) by (symmetry; apply Z.div_unique with (r := samples - 1); lia). rewrite E. reflexivity.
  - apply sd_last; [left; reflexivity|exact D].
Qed.
Lemma edit_shape : forall a b c, mcu_shape edit_cs (edit_m a b c).
Proof. intros. repeat constructor. Qed.

(** The same image with other tables: 3 * 8 = 2 * 12, -5 * 8 = -4 * 10, 6 * 8 = 4 * 12. *)
Definition edit_qa : list Z := 12 :: repeat 7 63.
Definition edit_qb : list Z := 10 :: repeat 3 63.
Example C68_case :
  encodes (edit_segs (edit_h 4 5) ex_q ex_q 0) (edit_h 4 5) ex_ss [ex_ts; ex_ts; ex_ts] [ex_q; ex_q; ex_q] [edit_m 3 (-5) 6] edit_data1 /\
  encodes (edit_segs (edit_h 4 5) edit_qa edit_qb 0) (edit_h 4 5) ex_ss [ex_ts; ex_ts; ex_ts] [edit_qa; edit_qb; edit_qa] [edit_m 2 (-4) 4] edit_data2 /\
  Forall no_zero [ex_q; ex_q; ex_q] /\ Forall no_zero [edit_qa; edit_qb; edit_qa] /\
  Forall2 (same_mcu [ex_q; ex_q; ex_q] [edit_qa; edit_qb; edit_qa]) [edit_m 3 (-5) 6] [edit_m 2 (-4) 4] /\
  decode_fresh true false (file_bytes (edit_segs (edit_h 4 5) edit_qa edit_qb 0) 0 0 (mkSpS ex_ss 0 63 0 0) edit_data2 [] 0) = Ok (concat (repeat [139; 128; 122] 20)).
Proof.
  assert (NZ : forall a b, a <> 0 -> b <> 0 -> no_zero (a :: repeat b 63)).
  { intros a b Ha Hb [|i] Hi; cbn [nth]; [exact Ha|]. intros E. apply Hb. rewrite <- E. symmetry. apply (repeat_spec 63). apply nth_In. rewrite repeat_length. lia. }
  assert (SP : forall a b q x q' x', a * q = b * q' -> same_products (q :: repeat x 63) (q' :: repeat x' 63) (mkQ a (repeat 0 63)) (mkQ b (repeat 0 63))).
  { intros a b q x q' x' E [|i] Hi; unfold coef; cbn [nth q_dc q_ac]; [exact E|]. rewrite !nth_repeat. ring. }
  split; [apply edit_one; [lia|apply edit_shape|reflexivity|byte_list|reflexivity|byte_list|exact edit_int1]|].
  split; [apply edit_one; [lia|apply edit_shape|reflexivity|byte_list|reflexivity|byte_list|exact edit_int2]|].
  split; [repeat constructor; apply NZ; lia|]. split; [repeat constructor; apply NZ; lia|]. split; [|vm_compute; reflexivity].
  constructor; [|constructor]. intros [|[|[|k]]] q q' bs bs' E1 E2 E3 E4; cbn [nth_error edit_m] in *.
  - assert (q = ex_q) by congruence. assert (q' = edit_qa) by congruence. assert (bs = repeat (flat_q 3) 4) by congruence. assert (bs' = repeat (flat_q 2) 4) by congruence. subst. repeat constructor; apply SP; reflexivity.
  - assert (q = ex_q) by congruence. assert (q' = edit_qb) by congruence. assert (bs = [flat_q (-5)]) by congruence. assert (bs' = [flat_q (-4)]) by congruence. subst. repeat constructor; apply SP; reflexivity.
  - assert (q = ex_q) by congruence. assert (q' = edit_qa) by congruence. assert (bs = [flat_q 6]) by congruence. assert (bs' = [flat_q 4]) by congruence. subst. repeat constructor; apply SP; reflexivity.
  - destruct k; discriminate E1.
Qed.

(** The second MCU of the file of C45 (9 columns, no subsampling). *)
Definition cut_h : frame_header := mkFH 0 8 1 1 ex_cs.
Example C69_case :
  encodes ex_segs ex_h ex_ss [ex_ts; ex_ts; ex_ts] [ex_q; ex_q; ex_q] [ex_m1; ex_m2] ex_data /\
  encodes (flat_segs cut_h) cut_h ex_ss [ex_ts; ex_ts; ex_ts] [ex_q; ex_q; ex_q] [ex_m2] ex_data2 /\
  cut_out (mcus 9 1) [ex_m1; ex_m2] 0 1 (mcus 1 1) (mcus 1 1) [ex_m2] /\ full_resolution ex_cs /\
  last_transform (flat_segs cut_h ++ []) = last_transform (ex_segs ++ ex_post) /\
  exists img img', decode_fresh true false (file_bytes ex_segs 0 1 (mkSpS ex_ss 0 63 0 0) ex_data ex_post 2) = Ok img /\
    decode_fresh true false (file_bytes (flat_segs cut_h) 0 0 (mkSpS ex_ss 0 63 0 0) ex_data2 [] 0) = Ok img' /\
    pixel 3 9 0 0 img <> pixel 3 9 0 8 img /\ pixel 3 1 0 0 img' = pixel 3 9 0 8 img.
Proof.
  split; [exact ex_encodes|]. split.
  { apply flat_encodes; try reflexivity; try (cbn; lia).
    - split; [cbn; lia|cbn; lia|discriminate|cbn; lia| |]; repeat first [apply Forall_nil | apply Forall_cons]; unfold comp_range, factors_ok, is_byte, nibble; cbn; lia.
    - repeat constructor.
    - exact ex_bits2. }
  split; [split; [lia|]; split; [lia|]; split; [vm_compute; discriminate|]; split; [reflexivity|]; intros r c Hr Hc; change (mcus 1 1) with 1 in *; assert (r = 0) by lia; assert (c = 0) by lia; subst; split; [vm_compute; lia|reflexivity]|].
  split; [repeat constructor|]. split; [reflexivity|]. eexists. eexists. split; [vm_compute; reflexivity|]. split; [vm_compute; reflexivity|]. split; [vm_compute; discriminate|vm_compute; reflexivity].
Qed.

(** The right half of a 4:2:0 image of 32 columns: the first column is interpolated across the
    cut and differs, the others are the same. *)
Example C69_subsampled_case :
  encodes (edit_segs (edit_h 4 32) ex_q ex_q 1) (edit_h 4 32) ex_ss [ex_ts; ex_ts; ex_ts] [ex_q; ex_q; ex_q] [edit_m 3 (-5) 6; edit_m 0 6 (-5)] (edit_data1 ++ [255; 0xD0] ++ edit_data3) /\
  encodes (edit_segs (edit_h 4 16) ex_q ex_q 0) (edit_h 4 16) ex_ss [ex_ts; ex_ts; ex_ts] [ex_q; ex_q; ex_q] [edit_m 0 6 (-5)] edit_data3 /\
  cut_out (mcus 32 2) [edit_m 3 (-5) 6; edit_m 0 6 (-5)] 0 1 (mcus 4 2) (mcus 16 2) [edit_m 0 6 (-5)] /\
  clear_of_cut 4 32 2 2 0 1 4 16 0 1 /\
  exists img img', decode_fresh true false (file_bytes (edit_segs (edit_h 4 32) ex_q ex_q 1) 0 0 (mkSpS ex_ss 0 63 0 0) (edit_data1 ++ [255; 0xD0] ++ edit_data3) [] 0) = Ok img /\
    decode_fresh true false (file_bytes (edit_segs (edit_h 4 16) ex_q ex_q 0) 0 0 (mkSpS ex_ss 0 63 0 0) edit_data3 [] 0) = Ok img' /\
    pixel 3 16 0 0 img' <> pixel 3 32 0 16 img /\ pixel 3 16 0 1 img' = pixel 3 32 0 17 img.
Proof.
  split.
  { apply edit_encodes; try reflexivity; try (cbn; lia); try byte_list.
    - apply edit_header; cbn; lia.
    - apply edit_shape.
    - apply edit_shape.
    - exact (sd_more _ 1 0 [edit_m 3 (-5) 6] edit_data1 [edit_m 0 6 (-5)] edit_data3 ltac:(lia) eq_refl ltac:(discriminate) edit_int1 (sd_last _ 1 1 [edit_m 0 6 (-5)] edit_data3 (or_intror (Z.le_refl 1)) edit_int3)). }
  split; [apply edit_one; [lia|apply edit_shape|reflexivity|byte_list|reflexivity|byte_list|exact edit_int3]|].
  split; [split; [lia|]; split; [lia|]; split; [vm_compute; discriminate|]; split; [reflexivity|]; intros r c Hr Hc; change (mcus 4 2) with 1 in *; change (mcus 16 2) with 1 in *; assert (r = 0) by lia; assert (c = 0) by lia; subst; split; [vm_compute; lia|reflexivity]|].
  split; [unfold clear_of_cut; lia|]. eexists. eexists. split; [vm_compute; reflexivity|]. split; [vm_compute; reflexivity|]. split; [vm_compute; discriminate|vm_compute; reflexivity].
Qed.
