(** Images of one colour (C65) and grey images (C66). *)
From Verif Require Import Base SpecBits SpecReader SpecMarker SpecHuffman SpecBlock SpecFrame SpecSegments SpecScan SpecPlane SpecUpsample SpecImage SpecColor SpecIdct SpecFile SpecAnswer SpecFlat
  Biterator Marker Huffman Types Idct Color Decode FlatP Props_Scan.

(** ** C65: images of one colour *)

(** YCbCr: if every component has the same DC value in all its blocks and no AC coefficients,
    then every pixel has the colour that these values stand for.  The missing part: columns
    that are left out when samples are repeated ([full_width]; see C65_exact). *)
Theorem C65_solid_partial :
  forall dbg rayon segs h fill1 fill2 ss ts qs ms data post fill3 img,
    let cs := fh_comps h in let lines := fh_lines h in let samples := fh_samples h in
    let file := file_bytes segs fill1 fill2 (mkSpS ss 0 63 0 0) data post fill3 in
    encodes segs h ss ts qs ms data -> 0 < lines -> 0 < samples -> post_ok post -> bytes file -> decode_fresh dbg rayon file = Ok img ->
    forall c0 c1 c2 q0 q1 q2 d0 d1 d2, cs = [c0; c1; c2] -> qs = [q0; q1; q2] -> last_transform (segs ++ post) <> Some 0 ->
      flat_component ms 0 d0 -> flat_component ms 1 d1 -> flat_component ms 2 d2 -> Forall (full_width lines samples cs) cs ->
      forall y x, 0 <= y < lines -> 0 <= x < samples -> pixel 3 samples y x img = rgb_fixed (dc_sample d0 q0) (dc_sample d1 q1) (dc_sample d2 q2).
Proof. exact solid_ycbcr. Qed.
Print Assumptions C65_solid_partial.

(** CMYK. *)
Theorem C65_solid_cmyk_partial :
  forall dbg rayon segs h fill1 fill2 ss ts qs ms data post fill3 img,
    let cs := fh_comps h in let lines := fh_lines h in let samples := fh_samples h in
    let file := file_bytes segs fill1 fill2 (mkSpS ss 0 63 0 0) data post fill3 in
    encodes segs h ss ts qs ms data -> 0 < lines -> 0 < samples -> post_ok post -> bytes file -> decode_fresh dbg rayon file = Ok img ->
    forall c0 c1 c2 c3 q0 q1 q2 q3 d0 d1 d2 d3, cs = [c0; c1; c2; c3] -> qs = [q0; q1; q2; q3] ->
      flat_component ms 0 d0 -> flat_component ms 1 d1 -> flat_component ms 2 d2 -> flat_component ms 3 d3 -> Forall (full_width lines samples cs) cs ->
      forall y x, 0 <= y < lines -> 0 <= x < samples ->
        pixel 4 samples y x img = [255 - dc_sample d0 q0; 255 - dc_sample d1 q1; 255 - dc_sample d2 q2; 255 - dc_sample d3 q3].
Proof. exact solid_cmyk. Qed.
Print Assumptions C65_solid_cmyk_partial.

(** Exactly, for every size and all sampling factors: components whose columns are left out
    show the sample 0 there. *)
Theorem C65_exact :
  forall dbg rayon segs h fill1 fill2 ss ts qs ms data post fill3 img,
    let cs := fh_comps h in let lines := fh_lines h in let samples := fh_samples h in
    let file := file_bytes segs fill1 fill2 (mkSpS ss 0 63 0 0) data post fill3 in
    encodes segs h ss ts qs ms data -> 0 < lines -> 0 < samples -> post_ok post -> bytes file -> decode_fresh dbg rayon file = Ok img ->
    forall c0 c1 c2 q0 q1 q2 d0 d1 d2, cs = [c0; c1; c2] -> qs = [q0; q1; q2] -> last_transform (segs ++ post) <> Some 0 ->
      flat_component ms 0 d0 -> flat_component ms 1 d1 -> flat_component ms 2 d2 ->
      forall y x, 0 <= y < lines -> 0 <= x < samples ->
        pixel 3 samples y x img = rgb_fixed (flat_shown lines samples cs c0 d0 q0 x) (flat_shown lines samples cs c1 d1 q1 x) (flat_shown lines samples cs c2 d2 q2 x).
Proof. exact flat_ycbcr. Qed.
Print Assumptions C65_exact.

Theorem C65_cmyk_exact :
  forall dbg rayon segs h fill1 fill2 ss ts qs ms data post fill3 img,
    let cs := fh_comps h in let lines := fh_lines h in let samples := fh_samples h in
    let file := file_bytes segs fill1 fill2 (mkSpS ss 0 63 0 0) data post fill3 in
    encodes segs h ss ts qs ms data -> 0 < lines -> 0 < samples -> post_ok post -> bytes file -> decode_fresh dbg rayon file = Ok img ->
    forall c0 c1 c2 c3 q0 q1 q2 q3 d0 d1 d2 d3, cs = [c0; c1; c2; c3] -> qs = [q0; q1; q2; q3] ->
      flat_component ms 0 d0 -> flat_component ms 1 d1 -> flat_component ms 2 d2 -> flat_component ms 3 d3 ->
      forall y x, 0 <= y < lines -> 0 <= x < samples ->
        pixel 4 samples y x img = [255 - flat_shown lines samples cs c0 d0 q0 x; 255 - flat_shown lines samples cs c1 d1 q1 x;
                                   255 - flat_shown lines samples cs c2 d2 q2 x; 255 - flat_shown lines samples cs c3 d3 q3 x].
Proof. exact flat_cmyk. Qed.
Print Assumptions C65_cmyk_exact.

(** ** C66: grey images *)

(** If the blocks of both chroma components are zero, then every pixel is grey, with the value
    of the luma component; whatever the luma component is.  The missing part as in C65. *)
Theorem C66_grey_partial :
  forall dbg rayon segs h fill1 fill2 ss ts qs ms data post fill3 img,
    let cs := fh_comps h in let lines := fh_lines h in let samples := fh_samples h in
    let file := file_bytes segs fill1 fill2 (mkSpS ss 0 63 0 0) data post fill3 in
    encodes segs h ss ts qs ms data -> 0 < lines -> 0 < samples -> post_ok post -> bytes file -> decode_fresh dbg rayon file = Ok img ->
    forall c0 c1 c2, cs = [c0; c1; c2] -> last_transform (segs ++ post) <> Some 0 -> flat_component ms 1 0 -> flat_component ms 2 0 ->
      full_width lines samples cs c1 -> full_width lines samples cs c2 ->
      exists q0 p0, nth_error qs 0 = Some q0 /\ plane_from lines samples cs ms 0 c0 q0 p0 /\
        forall y x, 0 <= y < lines -> 0 <= x < samples ->
          pixel 3 samples y x img = repeat (comp_drawn lines samples cs c0 p0 (shown_row rayon (largest (map cs_v cs)) y) x) 3.
Proof. exact grey_image. Qed.
Print Assumptions C66_grey_partial.

(** The condition is needed: otherwise the last column is never grey. *)
Theorem C66_grey_iff :
  forall dbg rayon segs h fill1 fill2 ss ts qs ms data post fill3 img,
    let cs := fh_comps h in let lines := fh_lines h in let samples := fh_samples h in
    let file := file_bytes segs fill1 fill2 (mkSpS ss 0 63 0 0) data post fill3 in
    encodes segs h ss ts qs ms data -> 0 < lines -> 0 < samples -> post_ok post -> bytes file -> decode_fresh dbg rayon file = Ok img ->
    forall c0 c1 c2, cs = [c0; c1; c2] -> last_transform (segs ++ post) <> Some 0 -> flat_component ms 1 0 -> flat_component ms 2 0 ->
      (forall y x, 0 <= y < lines -> 0 <= x < samples -> grey (pixel 3 samples y x img)) <-> full_width lines samples cs c1 /\ full_width lines samples cs c2.
Proof. exact grey_iff. Qed.
Print Assumptions C66_grey_iff.

(** *** Cases *)
(** Files with the tables of the file of C45, no restart interval and one MCU. *)
Definition flat_segs (h : frame_header) : list (nat * hseg) := [(0%nat, HDqt [mkDqt 0 0 ex_q]); (1%nat, HSof h); (0%nat, HDht [ex_dcs; ex_acs])].
Definition flat_q (dc : Z) : qblock := mkQ dc (repeat 0 63).
(** 4:2:0: four luma blocks with DC value 3 and two chroma blocks with -5 and 6:
    10 11 10 | 0 10 | 0 10 | 0 10 | 110 010 10 | 110 110 10 *)
Definition flat_420 : frame_header := mkFH 0 8 3 5 [mkCS 1 2 2 0; mkCS 2 1 1 0; mkCS 3 1 1 0].
Definition flat_m420 : mcu := [repeat (flat_q 3) 4; [flat_q (-5)]; [flat_q 6]].
Definition flat_data420 : list Z := [0xB9; 0x25; 0x95; 0xB5].
(** 4:1:1, all values 0: 0 10 for each of the six blocks. *)
Definition flat_411 : frame_header := mkFH 0 8 1 5 [mkCS 1 4 1 0; mkCS 2 1 1 0; mkCS 3 1 1 0].
Definition flat_m411 : mcu := [repeat (flat_q 0) 4; [flat_q 0]; [flat_q 0]].
Definition flat_data411 : list Z := [0x49; 0x24; 0xBF].
Definition flat_file (h : frame_header) (data : list Z) : list Z := file_bytes (flat_segs h) 0 0 (mkSpS ex_ss 0 63 0 0) data [] 0.

Lemma flat_encodes : forall h m data, 0 <= fh_marker h <= 1 -> header_ok (fh_lines h) (fh_samples h) (fh_comps h) -> map cs_id (fh_comps h) = [1; 2; 3] ->
  map cs_tq (fh_comps h) = [0; 0; 0] -> (blocks_before (fh_comps h) (length (fh_comps h)) <= 10)%nat -> mcu_shape (fh_comps h) m ->
  mcus (fh_lines h) (largest (map cs_v (fh_comps h))) * mcus (fh_samples h) (largest (map cs_h (fh_comps h))) = 1 ->
  interval_data [ex_ts; ex_ts; ex_ts] [m] data -> encodes (flat_segs h) h ex_ss [ex_ts; ex_ts; ex_ts] [ex_q; ex_q; ex_q] [m] data.
Proof.
  intros [mk pr l w cs] m data. cbn [fh_marker fh_lines fh_samples fh_comps]. intros Hm HO Hi Ht Hb Sh Hn Hd. 
  destruct cs as [|c0 [|c1 [|c2 [|]]]]; try discriminate Hi. injection Hi as I0 I1 I2. injection Ht as T0 T1 T2.
  assert (CC : forall c s, cs_tq c = 0 -> sc_id s = cs_id c -> sc_dc s = 0 -> sc_ac s = 0 -> comp_coding (flat_segs (mkFH mk pr l w [c0; c1; c2])) c s ex_ts ex_q).
  { intros c s T E1 E2 E3. constructor; rewrite ?E2, ?E3, ?T; auto; try lia.
    - exists ex_dcs. split; [reflexivity|split; reflexivity].
    - exists ex_acs. split; [reflexivity|split; reflexivity].
    - exists (mkDqt 0 0 ex_q). split; reflexivity. }
  constructor.
  - repeat first [apply Forall_nil | apply Forall_cons]; cbn [snd]; split; try (cbn; lia).
    + apply Forall_cons; [|apply Forall_nil]. split; [cbn; lia|]. split; [cbn; lia|]. split; [reflexivity|small_list].
    + split; [exact Hm|exact HO].
    + repeat first [apply Forall_nil | apply Forall_cons]; (split; [cbn; lia|]; split; [split; [reflexivity|byte_list]|]; split; [byte_list|]; split; [reflexivity|]; split; [cbn; lia|vm_compute; discriminate]).
  - reflexivity.
  - cbn. rewrite I0, I1, I2. repeat constructor; cbn; intuition discriminate.
  - cbn. lia.
  - exact Hb.
  - apply ccs_cons; [apply CC; auto|]. apply ccs_cons; [apply CC; auto|]. apply ccs_cons; [apply CC; auto|]. apply ccs_nil.
  - repeat constructor. exact Sh.
  - cbn [fh_lines fh_samples fh_comps]. rewrite Hn. reflexivity.
  - cbn. apply sd_last; [left; reflexivity|exact Hd].
Qed.
Lemma flat_block_bits : forall p diff n c qs bs pred', 0 <= category diff <= 11 -> nth_error [0; 2; 3] n = Some (category diff) -> nth_error (canonical (dc_counts ex_ts)) n = Some c ->
  comp_bits ex_ts (int16 (p + diff)) qs bs pred' -> comp_bits ex_ts p (flat_q (int16 (p + diff)) :: qs) (((c ++ magnitude diff ++ []) ++ [true; false]) ++ bs) pred'.
Proof. intros p diff n c qs bs pred' H1 H2 H3 H4. apply (ex_dc p qs diff n c); auto; [lia|apply ex_small|apply ex_eob]. Qed.

Example flat_420_encodes : encodes (flat_segs flat_420) flat_420 ex_ss [ex_ts; ex_ts; ex_ts] [ex_q; ex_q; ex_q] [flat_m420] flat_data420.
Proof.
  apply flat_encodes; try reflexivity; try (cbn; lia).
  - split; [cbn; lia|cbn; lia|discriminate|cbn; lia| |]; repeat first [apply Forall_nil | apply Forall_cons]; unfold comp_range, factors_ok, is_byte, nibble; cbn; lia.
  - repeat constructor.
  - exists flat_data420, (firstn 31 (bits_of flat_data420)). split; [byte_list|]. split; [reflexivity|]. split; [left; exists [true]; split; [reflexivity|cbn; lia]|].
    change (firstn 31 (bits_of flat_data420)) with
      (((((([true; false] ++ [true; true] ++ []) ++ [true; false]) ++ ((([false] ++ [] ++ []) ++ [true; false]) ++ ((([false] ++ [] ++ []) ++ [true; false]) ++ ((([false] ++ [] ++ []) ++ [true; false]) ++ [])))) ++
         (((([true; true; false] ++ [false; true; false] ++ []) ++ [true; false]) ++ []) ++
         (((([true; true; false] ++ [true; true; false] ++ []) ++ [true; false]) ++ []) ++ []))) ++ [])).
    apply (msb_cons _ _ _ _ _ _ [3; -5; 6]); [|constructor]. unfold flat_m420. cbn [repeat].
    apply mb_cons; [|apply mb_cons; [|apply mb_cons; [|constructor]]].
    + apply (flat_block_bits 0 3 1); try reflexivity; [cbn; lia|]. do 3 (apply (flat_block_bits 3 0 0); try reflexivity; [cbn; lia|]). constructor.
    + apply (flat_block_bits 0 (-5) 2); try reflexivity; [cbn; lia|constructor].
    + apply (flat_block_bits 0 6 2); try reflexivity; [cbn; lia|constructor].
Qed.
Example flat_411_encodes : encodes (flat_segs flat_411) flat_411 ex_ss [ex_ts; ex_ts; ex_ts] [ex_q; ex_q; ex_q] [flat_m411] flat_data411.
Proof.
  apply flat_encodes; try reflexivity; try (cbn; lia).
  - split; [cbn; lia|cbn; lia|discriminate|cbn; lia| |]; repeat first [apply Forall_nil | apply Forall_cons]; unfold comp_range, factors_ok, is_byte, nibble; cbn; lia.
  - repeat constructor.
  - exists flat_data411, (firstn 18 (bits_of flat_data411)). split; [byte_list|]. split; [reflexivity|]. split; [left; exists [true; true; true; true; true; true]; split; [reflexivity|cbn; lia]|].
    pose (z := ([false] ++ [] ++ []) ++ [true; false]).
    change (firstn 18 (bits_of flat_data411)) with (((z ++ z ++ z ++ z ++ []) ++ (z ++ []) ++ (z ++ []) ++ []) ++ []). unfold z.
    apply (msb_cons _ _ _ _ _ _ [0; 0; 0]); [|constructor]. unfold flat_m411. cbn [repeat].
    apply mb_cons; [|apply mb_cons; [|apply mb_cons; [|constructor]]]; repeat (apply (flat_block_bits 0 0 0); try reflexivity; [cbn; lia|]); constructor.
Qed.

(** The 4:2:0 file has one colour. *)
Example C65_case :
  encodes (flat_segs flat_420) flat_420 ex_ss [ex_ts; ex_ts; ex_ts] [ex_q; ex_q; ex_q] [flat_m420] flat_data420 /\
  flat_component [flat_m420] 0 3 /\ flat_component [flat_m420] 1 (-5) /\ flat_component [flat_m420] 2 6 /\
  Forall (full_width 3 5 (fh_comps flat_420)) (fh_comps flat_420) /\
  rgb_fixed (dc_sample 3 ex_q) (dc_sample (-5) ex_q) (dc_sample 6 ex_q) = [139; 128; 122] /\
  decode_fresh true false (flat_file flat_420 flat_data420) = Ok (concat (repeat [139; 128; 122] 15)).
Proof.
  split; [exact flat_420_encodes|].
  assert (Z : forall dc, Forall (fun a => a = 0) (q_ac (flat_q dc))) by (intros dc; apply Forall_forall; intros a I; apply repeat_spec in I; exact I).
  split; [intros m b [<-|[]] I; apply repeat_spec in I; subst b; split; [reflexivity|apply Z]|].
  split; [intros m b [<-|[]] [<-|[]]; split; [reflexivity|apply Z]|]. split; [intros m b [<-|[]] [<-|[]]; split; [reflexivity|apply Z]|].
  split; [repeat constructor; intros [R|R]; vm_compute in R; discriminate R|]. split; [reflexivity|]. vm_compute. reflexivity.
Qed.

(** The 4:1:1 file of width 5 has flat components, but its last column is green. *)
Example C66_case :
  encodes (flat_segs flat_411) flat_411 ex_ss [ex_ts; ex_ts; ex_ts] [ex_q; ex_q; ex_q] [flat_m411] flat_data411 /\
  flat_component [flat_m411] 1 0 /\ flat_component [flat_m411] 2 0 /\ ~ full_width 1 5 (fh_comps flat_411) (mkCS 2 1 1 0) /\
  decode_fresh true false (flat_file flat_411 flat_data411) = Ok (concat (repeat [128; 128; 128] 4) ++ [0; 255; 0]).
Proof.
  split; [exact flat_411_encodes|].
  assert (Z : forall dc, Forall (fun a => a = 0) (q_ac (flat_q dc))) by (intros dc; apply Forall_forall; intros a I; apply repeat_spec in I; exact I).
  split; [intros m b [<-|[]] [<-|[]]; split; [reflexivity|apply Z]|]. split; [intros m b [<-|[]] [<-|[]]; split; [reflexivity|apply Z]|].
  split; [intros W; assert (R : 5 mod 4 = 0) by (apply W; left; reflexivity); discriminate R|]. vm_compute. reflexivity.
Qed.

(** Without a condition on the size and the sampling factors the claim is false: all blocks of
    this file are the same, its pixels are not. *)
Theorem C65_refuted :
  exists segs h ss ts qs ms data img,
    encodes segs h ss ts qs ms data /\ 0 < fh_lines h /\ 0 < fh_samples h /\ (forall k, (k < length (fh_comps h))%nat -> flat_component ms k 0) /\
    (forall dbg rayon, decode_fresh dbg rayon (file_bytes segs 0 0 (mkSpS ss 0 63 0 0) data [] 0) = Ok img) /\
    exists x1 x2, 0 <= x1 < fh_samples h /\ 0 <= x2 < fh_samples h /\ pixel 3 (fh_samples h) 0 x1 img <> pixel 3 (fh_samples h) 0 x2 img.
Proof.
  exists (flat_segs flat_411), flat_411, ex_ss, [ex_ts; ex_ts; ex_ts], [ex_q; ex_q; ex_q], [flat_m411], flat_data411, (concat (repeat [128; 128; 128] 4) ++ [0; 255; 0]).
  split; [exact flat_411_encodes|]. split; [reflexivity|]. split; [reflexivity|]. split.
  - intros k _ m b [<-|[]] I. unfold flat_m411 in I. destruct k as [|[|[|k]]]; cbn [nth] in I.
    + apply repeat_spec in I. subst b. split; [reflexivity|]. apply Forall_forall. intros a I. apply repeat_spec in I. exact I.
    + destruct I as [<-|[]]. split; [reflexivity|]. apply Forall_forall. intros a I. apply repeat_spec in I. exact I.
    + destruct I as [<-|[]]. split; [reflexivity|]. apply Forall_forall. intros a I. apply repeat_spec in I. exact I.
    + destruct k; destruct I.
  - split; [intros [|] [|]; vm_compute; reflexivity|]. exists 0, 4. cbn [fh_samples flat_411]. split; [lia|]. split; [lia|]. vm_compute. discriminate.
Qed.
Print Assumptions C65_refuted.
