(** Only the ratios of the sampling factors matter (C90). *)
From Verif Require Import Base SpecBits SpecReader SpecMarker SpecHuffman SpecBlock SpecTables SpecFrame SpecSegments SpecScan SpecPlane SpecUpsample SpecImage SpecColor SpecFile SpecAnswer SpecFlat SpecEncoder SpecEdit SpecFlip SpecChannel SpecRatio
  Huffman Decode EncoderP FlipP3 ChannelP RatioP RatioP2 Props_Channel.

(** Two files of the same size, with the same quantisation tables and the same blocks inside the
    image, whose sampling factors have the same ratios to the largest ones: if both decode,
    they give the same pixels, at least if the largest vertical factors are the same; otherwise
    without rayon on the lines that are multiples of both.
    Missing: the other lines, where the claim is false (C90_refuted), and that the second
    file decodes if the first does (false as well, C90_decodes_refuted). *)
Theorem C90_ratios_partial :
  forall dbg rayon segs segs' h h' fill1 fill2 fill1' fill2' ss ss' ts ts' qs ms ms' data data' post post' fill3 fill3' img img',
    let cs := fh_comps h in let cs' := fh_comps h' in let lines := fh_lines h in let samples := fh_samples h in
    let vm := largest (map cs_v cs) in let vm' := largest (map cs_v cs') in
    encodes segs h ss ts qs ms data -> encodes segs' h' ss' ts' qs ms' data' -> post_ok post -> post_ok post' ->
    fh_lines h' = lines -> fh_samples h' = samples -> 0 < lines -> 0 < samples ->
    same_ratios cs cs' -> same_blocks lines samples cs cs' ms ms' ->
    last_transform (segs' ++ post') = last_transform (segs ++ post) ->
    let file := file_bytes segs fill1 fill2 (mkSpS ss 0 63 0 0) data post fill3 in
    let file' := file_bytes segs' fill1' fill2' (mkSpS ss' 0 63 0 0) data' post' fill3' in
    bytes file -> bytes file' -> decode_fresh dbg rayon file = Ok img -> decode_fresh dbg rayon file' = Ok img' ->
    forall y x, 0 <= y < lines -> 0 <= x < samples ->
      vm' = vm \/ rayon = false /\ y mod vm = 0 /\ y mod vm' = 0 ->
      pixel (lenZ cs) samples y x img' = pixel (lenZ cs) samples y x img.
Proof. exact ratio_files. Qed.
Print Assumptions C90_ratios_partial.

(** Exactly which lines agree: those for which the decoder draws the same row (C40).  For
    example, if the largest vertical factor of the first file is 1, line [y] of the second shows
    line [y / vm' * vm'] of the first, and with rayon line [y / vm']. *)
Theorem C90_lines :
  forall dbg rayon segs segs' h h' fill1 fill2 fill1' fill2' ss ss' ts ts' qs ms ms' data data' post post' fill3 fill3' img img',
    let cs := fh_comps h in let cs' := fh_comps h' in let lines := fh_lines h in let samples := fh_samples h in
    let vm := largest (map cs_v cs) in let vm' := largest (map cs_v cs') in
    encodes segs h ss ts qs ms data -> encodes segs' h' ss' ts' qs ms' data' -> post_ok post -> post_ok post' ->
    fh_lines h' = lines -> fh_samples h' = samples -> 0 < lines -> 0 < samples ->
    same_ratios cs cs' -> same_blocks lines samples cs cs' ms ms' ->
    last_transform (segs' ++ post') = last_transform (segs ++ post) ->
    let file := file_bytes segs fill1 fill2 (mkSpS ss 0 63 0 0) data post fill3 in
    let file' := file_bytes segs' fill1' fill2' (mkSpS ss' 0 63 0 0) data' post' fill3' in
    bytes file -> bytes file' -> decode_fresh dbg rayon file = Ok img -> decode_fresh dbg rayon file' = Ok img' ->
    forall y y0 x, 0 <= y < lines -> 0 <= y0 < lines -> 0 <= x < samples ->
      (if rayon then y / vm' = y0 / vm else y / vm' * vm' = y0 / vm * vm) ->
      pixel (lenZ cs) samples y x img' = pixel (lenZ cs) samples y0 x img.
Proof. exact ratio_lines. Qed.
Print Assumptions C90_lines.

(** Blocks that only fill up the last MCUs do not matter: with the same factors and the same
    blocks inside the image the second file decodes if the first does, to the same pixels. *)
Theorem C90_padding :
  forall dbg rayon segs segs' h h' fill1 fill2 fill1' fill2' ss ss' ts ts' qs ms ms' data data' post post' fill3 fill3' img,
    let cs := fh_comps h in let cs' := fh_comps h' in let lines := fh_lines h in let samples := fh_samples h in
    encodes segs h ss ts qs ms data -> encodes segs' h' ss' ts' qs ms' data' -> post_ok post -> post_ok post' ->
    fh_lines h' = lines -> fh_samples h' = samples -> 0 < lines -> 0 < samples ->
    map (fun c => (cs_h c, cs_v c)) cs' = map (fun c => (cs_h c, cs_v c)) cs -> same_blocks lines samples cs cs' ms ms' ->
    last_transform (segs' ++ post') = last_transform (segs ++ post) ->
    let file := file_bytes segs fill1 fill2 (mkSpS ss 0 63 0 0) data post fill3 in
    let file' := file_bytes segs' fill1' fill2' (mkSpS ss' 0 63 0 0) data' post' fill3' in
    bytes file -> bytes file' -> decode_fresh dbg rayon file = Ok img ->
    exists img', decode_fresh dbg rayon file' = Ok img' /\
      forall y x, 0 <= y < lines -> 0 <= x < samples -> pixel (lenZ cs) samples y x img' = pixel (lenZ cs) samples y x img.
Proof. exact padding_files. Qed.
Print Assumptions C90_padding.

(** 20 x 4 samples with chroma of half the width: once two MCUs with factors 2, 1, 1, once a
    single MCU with factors 4, 2, 2.  The fourth luma block is outside the image. *)
Definition ra_q (dc a b : Z) : qblock := mkQ dc ([a; b; 3] ++ repeat 0 60).
Definition ra_two (b : qblock) : image :=
  mkImage 4 20 [(2, 1); (1, 1); (1, 1)] [repeat 2 64; repeat 3 64; repeat 4 64]
    [[[ra_q 5 6 1; ra_q 7 8 2]; [ra_q 1 2 3]; [ra_q 3 4 2]]; [[ra_q 9 6 0; b]; [ra_q 8 2 1]; [ra_q 3 9 7]]] None 0.
Definition ra_one (b : qblock) : image :=
  mkImage 4 20 [(4, 1); (2, 1); (2, 1)] [repeat 2 64; repeat 3 64; repeat 4 64]
    [[[ra_q 5 6 1; ra_q 7 8 2; ra_q 9 6 0; b]; [ra_q 1 2 3; ra_q 8 2 1]; [ra_q 3 4 2; ra_q 3 9 7]]] None 0.
Ltac ra_number H := match type of H with _ < ?e => let v := eval vm_compute in e in change e with v in H end.
Ltac ra_blocks :=
  intros k c c' Ec Ec' r s R0 S0 R1 S1; destruct k as [|[|[|k]]]; [| | |destruct k; discriminate Ec];
  injection Ec as <-; injection Ec' as <-; ra_number R1; ra_number S1;
  (assert (E : r = 0) by lia); subst r; (assert (E : s = 0 \/ s = 1 \/ s = 2) by lia); destruct E as [->|[->| ->]]; first [reflexivity|exfalso; lia].
Example C90_case :
  let im := ra_two (ra_q 7 7 7) in let im' := ra_one (ra_q 90 20 50) in let cs := fh_comps (enc_header im) in let cs' := fh_comps (enc_header im') in
  image_ok im /\ image_ok im' /\ same_ratios cs cs' /\ same_blocks 4 20 cs cs' (im_mcus im) (im_mcus im') /\
  largest (map cs_v cs') = largest (map cs_v cs) /\ largest (map cs_h cs') <> largest (map cs_h cs) /\
  exists img img', decode_fresh true false (encode im) = Ok img /\ decode_fresh true false (encode im') = Ok img' /\
    pixel 3 20 3 19 img = [138; 125; 135] /\ pixel 3 20 3 19 img' = [138; 125; 135].
Proof.
  cbv zeta. split; [unfold ra_two, ra_q; ok_image|]. split; [unfold ra_one, ra_q; ok_image|]. split; [repeat constructor|]. split; [ra_blocks|].
  split; [reflexivity|]. split; [discriminate|]. eexists. eexists. split; [vm_compute; reflexivity|]. split; [vm_compute; reflexivity|]. split; vm_compute; reflexivity.
Qed.
Example C90_padding_case :
  let im := ra_two (ra_q 7 7 7) in let im' := ra_two (ra_q 90 20 50) in let cs := fh_comps (enc_header im) in let cs' := fh_comps (enc_header im') in
  image_ok im /\ image_ok im' /\ im_mcus im' <> im_mcus im /\ same_blocks 4 20 cs cs' (im_mcus im) (im_mcus im') /\
  exists img, decode_fresh true false (encode im) = Ok img /\ decode_fresh true false (encode im') = Ok img.
Proof.
  cbv zeta. split; [unfold ra_two, ra_q; ok_image|]. split; [unfold ra_two, ra_q; ok_image|]. split; [discriminate|]. split; [ra_blocks|].
  eexists. split; [vm_compute; reflexivity|vm_compute; reflexivity].
Qed.

(** With the largest vertical factor 2 instead of 1 (and no other difference inside the image)
    line 1 shows another row, as found for C40. *)
Definition ra_flat : image :=
  mkImage 8 8 [(1, 1); (1, 1); (1, 1)] [repeat 2 64; repeat 3 64; repeat 4 64] [[[ra_q 5 60 90]; [ra_q 1 2 3]; [ra_q 3 4 2]]] None 0.
Definition ra_tall : image :=
  mkImage 8 8 [(1, 2); (1, 2); (1, 2)] [repeat 2 64; repeat 3 64; repeat 4 64] [[[ra_q 5 60 90; ra_q 0 0 0]; [ra_q 1 2 3; ra_q 0 0 0]; [ra_q 3 4 2; ra_q 0 0 0]]] None 0.
Theorem C90_refuted :
  exists im im' : image,
    image_ok im /\ image_ok im' /\ im_lines im' = im_lines im /\ im_samples im' = im_samples im /\ im_quant im' = im_quant im /\ im_transform im' = im_transform im /\
    same_ratios (fh_comps (enc_header im)) (fh_comps (enc_header im')) /\
    same_blocks (im_lines im) (im_samples im) (fh_comps (enc_header im)) (fh_comps (enc_header im')) (im_mcus im) (im_mcus im') /\
    forall dbg rayon, exists img img', decode_fresh dbg rayon (encode im) = Ok img /\ decode_fresh dbg rayon (encode im') = Ok img' /\
      pixel 3 8 1 0 img' <> pixel 3 8 1 0 img /\ pixel 3 8 1 0 img' = pixel 3 8 0 0 img.
Proof.
  exists ra_flat, ra_tall. split; [unfold ra_flat, ra_q; ok_image|]. split; [unfold ra_tall, ra_q; ok_image|]. do 4 (split; [reflexivity|]). split; [repeat constructor|]. split; [ra_blocks|].
  intros [|] [|]; eexists; eexists; (split; [vm_compute; reflexivity|]); (split; [vm_compute; reflexivity|]); (split; [vm_compute; discriminate|vm_compute; reflexivity]).
Qed.
Print Assumptions C90_refuted.

(** Whether chroma of half the width is accepted depends on the number of filling blocks (C38):
    the image with the factors 4, 2, 2 decodes, the one with 2, 1, 1 panics. *)
Definition ra_wide (b : list (list (list qblock))) (fs : list (Z * Z)) : image := mkImage 8 16 fs [repeat 2 64; repeat 3 64; repeat 4 64] b None 0.
Definition ra_wide4 : image := ra_wide [[[ra_q 5 6 1; ra_q 7 8 2; ra_q 0 0 0; ra_q 0 0 0]; [ra_q 1 2 3; ra_q 0 0 0]; [ra_q 3 4 2; ra_q 0 0 0]]] [(4, 1); (2, 1); (2, 1)].
Definition ra_wide2 : image := ra_wide [[[ra_q 5 6 1; ra_q 7 8 2]; [ra_q 1 2 3]; [ra_q 3 4 2]]] [(2, 1); (1, 1); (1, 1)].
Theorem C90_decodes_refuted :
  exists im im' : image,
    image_ok im /\ image_ok im' /\ im_lines im' = im_lines im /\ im_samples im' = im_samples im /\ im_quant im' = im_quant im /\ im_transform im' = im_transform im /\
    same_ratios (fh_comps (enc_header im)) (fh_comps (enc_header im')) /\
    same_blocks (im_lines im) (im_samples im) (fh_comps (enc_header im)) (fh_comps (enc_header im')) (im_mcus im) (im_mcus im') /\
    forall dbg, (exists img, decode_fresh dbg false (encode im) = Ok img) /\ exists p, decode_fresh dbg false (encode im') = Panic p.
Proof.
  exists ra_wide4, ra_wide2. split; [unfold ra_wide4, ra_wide, ra_q; ok_image|]. split; [unfold ra_wide2, ra_wide, ra_q; ok_image|]. do 4 (split; [reflexivity|]). split; [repeat constructor|]. split; [ra_blocks|].
  intros [|]; (split; eexists; vm_compute; reflexivity).
Qed.
Print Assumptions C90_decodes_refuted.
