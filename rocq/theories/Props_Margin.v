(** Blocks outside the image (C96). *)
From Verif Require Import Base SpecBits SpecReader SpecMarker SpecHuffman SpecBlock SpecTables SpecFrame SpecSegments SpecScan SpecPlane SpecUpsample SpecImage SpecColor SpecFile SpecAnswer SpecEncoder SpecMargin
  Huffman Decode EncoderP MarginP Props_Channel.

(** Two files of the same size, sampling factors, quantisation and Adobe transform, whose blocks
    are the same as far as they overlap the image: the same picture, byte for byte. *)
Theorem C96_margin :
  forall dbg rayon segs segs' h h' fill1 fill2 fill1' fill2' ss ss' ts ts' qs ms ms' data data' post post' fill3 fill3' img,
    let cs := fh_comps h in let lines := fh_lines h in let samples := fh_samples h in
    encodes segs h ss ts qs ms data -> encodes segs' h' ss' ts' qs ms' data' -> post_ok post -> post_ok post' ->
    fh_lines h' = lines -> fh_samples h' = samples -> 0 < lines -> 0 < samples ->
    map (fun c => (cs_h c, cs_v c)) (fh_comps h') = map (fun c => (cs_h c, cs_v c)) cs ->
    last_transform (segs' ++ post') = last_transform (segs ++ post) ->
    let file := file_bytes segs fill1 fill2 (mkSpS ss 0 63 0 0) data post fill3 in
    let file' := file_bytes segs' fill1' fill2' (mkSpS ss' 0 63 0 0) data' post' fill3' in
    bytes file -> bytes file' -> decode_fresh dbg rayon file = Ok img ->
    same_inside lines samples cs ms ms' -> decode_fresh dbg rayon file' = Ok img.
Proof. exact margin_image. Qed.
Print Assumptions C96_margin.

(** 8 x 8 pixels with half the colour resolution: three of the four luminance blocks are outside. *)
Definition mg_image (b : qblock) : image :=
  mkImage 8 8 [(2, 2); (1, 1); (1, 1)] [repeat 2 64; repeat 5 64; repeat 3 64] [[[ch_q 5 6; b; ch_q 1 (q_dc b); b]; [ch_q 3 4]; [ch_q 2 9]]] None 0.
Example C96_case :
  let im := mg_image (ch_q 7 8) in let im' := mg_image (ch_q (-90) 70) in let cs := enc_comps 0 (im_factors im) in
  encodes (enc_segs im) (enc_header im) (enc_ss im) (repeat enc_ts 3) (im_quant im) (im_mcus im) (enc_data im) /\
  encodes (enc_segs im') (enc_header im') (enc_ss im') (repeat enc_ts 3) (im_quant im) (im_mcus im') (enc_data im') /\
  bytes (encode im) /\ bytes (encode im') /\ same_inside 8 8 cs (im_mcus im) (im_mcus im') /\ im_mcus im <> im_mcus im' /\ encode im <> encode im' /\
  exists img, decode_fresh true true (encode im) = Ok img /\ decode_fresh true true (encode im') = Ok img.
Proof.
  cbv zeta. split; [apply (enc_encodes (mg_image (ch_q 7 8))); unfold mg_image, ch_q; ok_image|]. split; [apply (enc_encodes (mg_image (ch_q (-90) 70))); unfold mg_image, ch_q; ok_image|].
  split; [apply enc_bytes; unfold mg_image, ch_q; ok_image|]. split; [apply enc_bytes; unfold mg_image, ch_q; ok_image|]. split.
  - intros k c y x Ec Hy Hx. destruct k as [|k].
    + injection Ec as <-. cbn [cs_h cs_v] in *. change (extent _ _ _) with 8 in Hy, Hx. unfold q_at.
      assert (E : block_no 2 2 y x = 0) by (unfold block_no; rewrite !Z.mod_small, !Z.div_small by lia; reflexivity). rewrite E.
      assert (E2 : mcu_row 2 y * mcus 8 2 + mcu_col 2 x = 0) by (unfold mcu_row, mcu_col; rewrite !Z.div_small by lia; reflexivity).
      change (largest (map cs_h (enc_comps 0 (im_factors (mg_image (ch_q 7 8)))))) with 2. rewrite E2. reflexivity.
    + unfold q_at. destruct (Z.to_nat (_ + _)) as [|i]; [|destruct i; reflexivity]. destruct k as [|[|k]]; [reflexivity|reflexivity|destruct k; discriminate Ec].
  - split; [discriminate|]. split; [vm_compute; discriminate|]. eexists. split; [vm_compute; reflexivity|vm_compute; reflexivity].
Qed.
