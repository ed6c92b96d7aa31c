(** An image of which only the DC coefficients are kept (C88). *)
From Verif Require Import Base SpecBits SpecReader SpecMarker SpecHuffman SpecBlock SpecTables SpecFrame SpecSegments SpecScan SpecPlane SpecUpsample SpecImage SpecColor SpecFile SpecAnswer SpecFlat SpecEncoder SpecEdit SpecFlip SpecChannel SpecSum SpecMean SpecThumb
  Huffman Decode EncoderP FlipP3 ChannelP SumP MeanP ThumbP Props_Channel Props_Mean.

(** Without the other coefficients, every pixel of a square shows the mean of the 64 bytes that
    the square shows with them, up to 65/64. *)
Theorem C88_dc_only :
  forall im, image_ok im -> forall dbg rayon img, 0 < im_lines im -> 0 < im_samples im -> decode_fresh dbg rayon (encode im) = Ok img ->
    let cs := fh_comps (enc_header im) in largest (map cs_v cs) = 1 -> lenZ (im_factors im) = 4 ->
    exists img', decode_fresh dbg rayon (encode (dc_only im)) = Ok img' /\
      forall r s k c q, 0 <= r -> 0 <= s -> 8 * r + 8 <= im_lines im -> 8 * s + 8 <= im_samples im ->
        nth_error cs k = Some c -> nth_error (im_quant im) k = Some q -> full_component cs c ->
        unclipped q (q_at (im_mcus im) (mcus (im_samples im) (largest (map cs_h cs))) k (cs_h c) (cs_v c) (8 * r) (8 * s)) ->
        forall y x, 8 * r <= y < 8 * r + 8 -> 8 * s <= x < 8 * s + 8 ->
          Z.abs (64 * nth k (pixel 4 (im_samples im) y x img') 0 - square_sum (fun y x => nth k (pixel 4 (im_samples im) y x img) 0) r s) <= 65.
Proof. exact dc_only_four. Qed.
Print Assumptions C88_dc_only.

(** The image of C88_case: 64 * 122 = 7808 for the sum 7816. *)
Example C88_dc_only_case :
  exists img img', decode_fresh true false (encode mn_image) = Ok img /\ decode_fresh true false (encode (dc_only mn_image)) = Ok img' /\
    square_sum (fun y x => nth 1 (pixel 4 17 y x img) 0) 0 1 = 7816 /\ nth 1 (pixel 4 17 3 9 img') 0 = 122 /\
    map (fun x => nth 1 (pixel 4 17 3 x img) 0) [8; 9; 10; 11] <> repeat 122 4.
Proof.
  eexists. eexists. split; [vm_compute; reflexivity|]. split; [vm_compute; reflexivity|]. split; [vm_compute; reflexivity|]. split; [vm_compute; reflexivity|]. vm_compute. discriminate.
Qed.
