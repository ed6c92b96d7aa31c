(** The mean of a block is its DC coefficient (C88). *)
From Verif Require Import Base SpecBits SpecReader SpecMarker SpecHuffman SpecBlock SpecTables SpecFrame SpecSegments SpecScan SpecPlane SpecUpsample SpecImage SpecColor SpecFile SpecAnswer SpecFlat SpecEncoder SpecEdit SpecFlip SpecChannel SpecSum SpecMean
  Huffman Decode EncoderP FlipP3 ChannelP SumP MeanP Props_Channel.

(** Four components, none of them vertically subsampled: the square of 8 x 8 pixels in row [r]
    and column [s] of the squares of the picture shows, in a component [k] that is not
    subsampled, one block.  If no sample of it is cut off, the 64 bytes add up to 64 * 127 minus
    8 times the dequantised DC coefficient (inks are inverted), give or take 33: their mean is
    127 - DC / 8 with an error of 33/64, whatever the other coefficients are. *)
Theorem C88_mean :
  forall dbg rayon segs h fill1 fill2 ss ts qs ms data post fill3 img,
    let cs := fh_comps h in let lines := fh_lines h in let samples := fh_samples h in
    let file := file_bytes segs fill1 fill2 (mkSpS ss 0 63 0 0) data post fill3 in
    encodes segs h ss ts qs ms data -> 0 < lines -> 0 < samples -> post_ok post -> bytes file -> decode_fresh dbg rayon file = Ok img ->
    largest (map cs_v cs) = 1 ->
    forall r s, 0 <= r -> 0 <= s -> 8 * r + 8 <= lines -> 8 * s + 8 <= samples ->
    let block k c := q_at ms (mcus samples (largest (map cs_h cs))) k (cs_h c) (cs_v c) (8 * r) (8 * s) in
    forall k c q, lenZ cs = 4 -> nth_error cs k = Some c -> nth_error qs k = Some q -> full_component cs c -> unclipped q (block k c) ->
      Z.abs (square_sum (fun y x => nth k (pixel 4 samples y x img) 0) r s - (64 * 127 - 8 * (q_dc (block k c) * nth 0 q 0))) <= 33.
Proof. exact mean_four. Qed.
Print Assumptions C88_mean.

(** The same for each byte of the pixels of a grey image: the mean is 128 + DC / 8. *)
Theorem C88_mean_grey :
  forall dbg rayon segs h fill1 fill2 ss ts qs ms data post fill3 img,
    let cs := fh_comps h in let lines := fh_lines h in let samples := fh_samples h in
    let file := file_bytes segs fill1 fill2 (mkSpS ss 0 63 0 0) data post fill3 in
    encodes segs h ss ts qs ms data -> 0 < lines -> 0 < samples -> post_ok post -> bytes file -> decode_fresh dbg rayon file = Ok img ->
    largest (map cs_v cs) = 1 ->
    forall r s, 0 <= r -> 0 <= s -> 8 * r + 8 <= lines -> 8 * s + 8 <= samples ->
    let block k c := q_at ms (mcus samples (largest (map cs_h cs))) k (cs_h c) (cs_v c) (8 * r) (8 * s) in
    forall c0 c1 c2 q, cs = [c0; c1; c2] -> last_transform (segs ++ post) <> Some 0 -> flat_component ms 1 0 -> flat_component ms 2 0 ->
      full_width lines samples cs c1 -> full_width lines samples cs c2 -> nth_error qs 0 = Some q -> full_component cs c0 -> unclipped q (block 0%nat c0) ->
      forall i, (i < 3)%nat -> Z.abs (square_sum (fun y x => nth i (pixel 3 samples y x img) 0) r s - (64 * 128 + 8 * (q_dc (block 0%nat c0) * nth 0 q 0))) <= 33.
Proof. exact mean_grey. Qed.
Print Assumptions C88_mean_grey.

(** 9 x 17 pixels, four components; the second block in the first line of blocks has the DC value
    13 * 3 and other coefficients: its bytes add up to 64 * 127 - 8 * 39 = 7816. *)
Definition mn_image : image :=
  let m := [[ch_q 5 6]; [ch_q 7 8]; [ch_q 1 2]; [ch_q 3 4]] in
  mkImage 9 17 (repeat (1, 1) 4) [repeat 2 64; repeat 3 64; repeat 3 64; repeat 4 64]
    [m; [[ch_q 5 6]; [mkQ 13 (7 :: -9 :: 4 :: repeat 2 60)]; [ch_q 1 2]; [ch_q 3 4]]; m; m; m; m] (Some 0) 0.
Example C88_case :
  let cs := fh_comps (enc_header mn_image) in let b := q_at (im_mcus mn_image) 3 1 1 1 (8 * 0) (8 * 1) in
  image_ok mn_image /\ largest (map cs_v cs) = 1 /\ Forall (full_component cs) cs /\
  b = mkQ 13 (7 :: -9 :: 4 :: repeat 2 60) /\ unclipped (repeat 3 64) b /\
  exists img, decode_fresh true false (encode mn_image) = Ok img /\ square_sum (fun y x => nth 1 (pixel 4 17 y x img) 0) 0 1 = 7816.
Proof.
  cbv zeta. split; [unfold mn_image, ch_q; ok_image|]. split; [reflexivity|]. split; [repeat constructor|]. split; [vm_compute; reflexivity|].
  split; [apply unclipped_small; vm_compute; discriminate|]. eexists. split; [vm_compute; reflexivity|vm_compute; reflexivity].
Qed.
(** A grey image. *)
Definition mn_grey : image :=
  mkImage 8 8 [(1, 1); (1, 1); (1, 1)] [repeat 3 64; repeat 1 64; repeat 1 64]
    [[[mkQ 13 (7 :: -9 :: 4 :: repeat 2 60)]; [mkQ 0 (repeat 0 63)]; [mkQ 0 (repeat 0 63)]]] None 0.
Example C88_grey_case :
  let cs := fh_comps (enc_header mn_grey) in
  image_ok mn_grey /\ largest (map cs_v cs) = 1 /\ Forall (full_component cs) cs /\ flat_component (im_mcus mn_grey) 1 0 /\ flat_component (im_mcus mn_grey) 2 0 /\
  exists img, decode_fresh true false (encode mn_grey) = Ok img /\ square_sum (fun y x => nth 2 (pixel 3 8 y x img) 0) 0 0 = 8504.
Proof.
  cbv zeta. split; [unfold mn_grey; ok_image|]. split; [reflexivity|]. split; [repeat constructor|]. split; [|split].
  1-2: intros m b [<-|[]] [<-|[]]; (split; [reflexivity|repeat constructor]).
  eexists. split; [vm_compute; reflexivity|vm_compute; reflexivity].
Qed.
