(** The bytes of a pixel are in the order of the components (C89). *)
From Coq Require Import Permutation.
From Verif Require Import Base SpecBits SpecReader SpecMarker SpecHuffman SpecBlock SpecTables SpecFrame SpecSegments SpecScan SpecPlane SpecUpsample SpecImage SpecColor SpecFile SpecAnswer SpecFlat SpecEncoder SpecEdit SpecFlip SpecChannel SpecOrder
  Huffman Decode EncoderP FlipP3 ChannelP OrderP Props_Channel.

(** Two files with four components, the second with those of the first in another order
    (sampling factors, quantisation tables and blocks move together; Huffman tables,
    identifiers and table numbers may differ): if the first decodes, so does the second, and its
    pixels are those of the first with the bytes in the other order. *)
Theorem C89_files :
  forall dbg rayon segs segs' h h' fill1 fill2 fill1' fill2' ss ss' ts ts' qs qs' ms ms' data data' post post' fill3 fill3' img order,
    let cs := fh_comps h in let cs' := fh_comps h' in let lines := fh_lines h in let samples := fh_samples h in
    encodes segs h ss ts qs ms data -> encodes segs' h' ss' ts' qs' ms' data' -> post_ok post -> post_ok post' ->
    fh_lines h' = lines -> fh_samples h' = samples -> 0 < lines -> 0 < samples ->
    lenZ cs = 4 -> Permutation order (seq 0 4) ->
    map (fun c => (cs_h c, cs_v c)) cs' = pick (1, 1) order (map (fun c => (cs_h c, cs_v c)) cs) ->
    qs' = pick [] order qs -> ms' = map (pick [] order) ms ->
    last_transform (segs' ++ post') = last_transform (segs ++ post) ->
    let file := file_bytes segs fill1 fill2 (mkSpS ss 0 63 0 0) data post fill3 in
    let file' := file_bytes segs' fill1' fill2' (mkSpS ss' 0 63 0 0) data' post' fill3' in
    bytes file -> bytes file' -> decode_fresh dbg rayon file = Ok img ->
    exists img', decode_fresh dbg rayon file' = Ok img' /\
      forall y x, 0 <= y < lines -> 0 <= x < samples -> pixel 4 samples y x img' = pick 0 order (pixel 4 samples y x img).
Proof. exact reordered. Qed.
Print Assumptions C89_files.

(** Every image with four components can be put into every order. *)
Theorem C89_reorder :
  forall im order, image_ok im -> lenZ (im_factors im) = 4 -> Permutation order (seq 0 4) ->
    forall dbg rayon img, 0 < im_lines im -> 0 < im_samples im -> decode_fresh dbg rayon (encode im) = Ok img ->
    image_ok (reorder order im) /\
    exists img', decode_fresh dbg rayon (encode (reorder order im)) = Ok img' /\
      forall y x, 0 <= y < im_lines im -> 0 <= x < im_samples im -> pixel 4 (im_samples im) y x img' = pick 0 order (pixel 4 (im_samples im) y x img).
Proof. exact (fun im order OK C4 Po dbg rayon img L0 S0 D => conj (reorder_ok im order OK C4 Po) (reorder_image im order OK C4 Po dbg rayon img L0 S0 D)). Qed.
Print Assumptions C89_reorder.

(** Four components, two of them subsampled, in the order 3, 0, 2, 1. *)
Example C89_case :
  let im := ch_four 3 (ch_q 10 20) in let order := [3; 0; 2; 1]%nat in
  image_ok im /\ Permutation order (seq 0 4) /\ im_factors (reorder order im) = [(1, 1); (2, 2); (2, 2); (1, 1)] /\
  exists img img', decode_fresh true false (encode im) = Ok img /\ decode_fresh true false (encode (reorder order im)) = Ok img' /\
    pixel 4 10 8 9 img = [124; 127; 123; 125] /\ pixel 4 10 8 9 img' = [125; 124; 123; 127].
Proof.
  cbv zeta. split; [unfold ch_four, ch_q; ok_image|]. split.
  - apply NoDup_Permutation; [repeat constructor; cbn; lia|apply seq_NoDup|]. intros j. cbn. lia.
  - split; [reflexivity|]. eexists. eexists. split; [vm_compute; reflexivity|]. split; [vm_compute; reflexivity|]. split; vm_compute; reflexivity.
Qed.
