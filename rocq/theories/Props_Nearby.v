(** Nearly the same coefficients give nearly the same picture (C87). *)
From Verif Require Import Base SpecBits SpecReader SpecMarker SpecHuffman SpecBlock SpecTables SpecFrame SpecSegments SpecScan SpecPlane SpecUpsample SpecImage SpecColor SpecFile SpecAnswer SpecFlat SpecEncoder SpecEdit SpecFlip SpecChannel SpecNearby
  Huffman Decode EncoderP FlipP3 ChannelP NearbyP Props_Channel.

(** Two files of the same size, sampling factors and Adobe transform, in each block of which the
    dequantised coefficients differ by [e] in all.  No byte of a pixel differs by more than a
    quarter of [e] (rounded: [(e + 5) / 4]) with four components, and by more than three times
    that with three.  The missing part: blocks that leave the range in which samples are limited
    to 0..255 (C34; C87_refuted). *)
Theorem C87_nearby_partial :
  forall dbg rayon segs segs' h h' fill1 fill2 fill1' fill2' ss ss' ts ts' qs qs' ms ms' data data' post post' fill3 fill3' img e,
    let cs := fh_comps h in let lines := fh_lines h in let samples := fh_samples h in
    encodes segs h ss ts qs ms data -> encodes segs' h' ss' ts' qs' ms' data' -> post_ok post -> post_ok post' ->
    fh_lines h' = lines -> fh_samples h' = samples -> 0 < lines -> 0 < samples ->
    map (fun c => (cs_h c, cs_v c)) (fh_comps h') = map (fun c => (cs_h c, cs_v c)) cs ->
    last_transform (segs' ++ post') = last_transform (segs ++ post) ->
    let file := file_bytes segs fill1 fill2 (mkSpS ss 0 63 0 0) data post fill3 in
    let file' := file_bytes segs' fill1' fill2' (mkSpS ss' 0 63 0 0) data' post' fill3' in
    bytes file -> bytes file' -> decode_fresh dbg rayon file = Ok img -> 0 <= e ->
    (forall k, nearby e k qs qs' ms ms') ->
    exists img', decode_fresh dbg rayon file' = Ok img' /\
      forall y x, 0 <= y < lines -> 0 <= x < samples ->
        Forall2 (fun a' a => Z.abs (a' - a) <= if lenZ cs =? 4 then (e + 5) / 4 else 3 * ((e + 5) / 4)) (pixel (lenZ cs) samples y x img') (pixel (lenZ cs) samples y x img).
Proof. exact nearby_images. Qed.
Print Assumptions C87_nearby_partial.

(** So an image that is quantised again with other tables changes by no more than an eighth of
    the sum of the new quantisation values ([e] is half that sum). *)
Theorem C87_requantised_partial :
  forall dbg rayon im im' img e, image_ok im -> image_ok im' ->
    im_lines im' = im_lines im -> im_samples im' = im_samples im -> im_factors im' = im_factors im -> im_transform im' = im_transform im ->
    0 < im_lines im -> 0 < im_samples im -> decode_fresh dbg rayon (encode im) = Ok img -> 0 <= e ->
    (forall k q q', nth_error (im_quant im) k = Some q -> nth_error (im_quant im') k = Some q' ->
      Forall2 (fun m m' => Forall2 (requantised q q') (nth k m []) (nth k m' [])) (im_mcus im) (im_mcus im') /\
      modest_component k q (im_mcus im) /\ modest_component k q' (im_mcus im') /\ fold_right Z.add 0 q' <= 2 * e) ->
    exists img', decode_fresh dbg rayon (encode im') = Ok img' /\
      forall y x, 0 <= y < im_lines im -> 0 <= x < im_samples im ->
        let n := lenZ (im_factors im) in
        Forall2 (fun a' a => Z.abs (a' - a) <= if n =? 4 then (e + 5) / 4 else 3 * ((e + 5) / 4)) (pixel n (im_samples im) y x img') (pixel n (im_samples im) y x img).
Proof. exact requantised_images. Qed.
Print Assumptions C87_requantised_partial.

(** An image of 8 x 8 pixels, two blocks of which differ by 10 and by 8: the bound is 9. *)
Example C87_nearby_case :
  let im := ch_three 40 (ch_q 10 20) (ch_q 30 4) in let im' := ch_three 41 (ch_q 10 20) (ch_q 32 7) in
  image_ok im /\ image_ok im' /\ (forall k, nearby 10 k (im_quant im) (im_quant im') (im_mcus im) (im_mcus im')) /\
  distance (repeat 2 64) (repeat 2 64) (ch_q 30 4) (ch_q 32 7) = 10 /\
  exists img img', decode_fresh true false (encode im) = Ok img /\ decode_fresh true false (encode im') = Ok img' /\
    pixel 3 8 3 2 img = [184; 162; 208] /\ pixel 3 8 3 2 img' = [186; 163; 209].
Proof.
  cbv zeta. split; [unfold ch_three, ch_q; ok_image|]. split; [unfold ch_three, ch_q; ok_image|]. split; [|split; [vm_compute; reflexivity|]].
  - unfold ch_three. cbn [im_quant im_mcus]. intros [|[|[|[|k]]]] q q' Eq Eq'; try discriminate Eq; assert (Q := f_equal (fun o => match o with Some v => v | None => [] end) Eq); assert (Q' := f_equal (fun o => match o with Some v => v | None => [] end) Eq');
      cbn beta iota zeta delta [nth_error] in Q, Q'; subst q q'; (split; [repeat constructor; vm_compute; discriminate|split]); intros m b [<-|[]] [<-|[]]; apply modest_small; vm_compute; discriminate.
  - eexists. eexists. split; [vm_compute; reflexivity|]. split; [vm_compute; reflexivity|]. split; vm_compute; reflexivity.
Qed.
(** The same image quantised again, with 5 instead of 8, 7 and 2. *)
Definition nb_image : image :=
  mkImage 8 8 [(1, 1); (1, 1); (1, 1)] (repeat (repeat 5 64) 3)
    [[[mkQ 72 ([10; 0; 5] ++ repeat 0 60)]; [mkQ 14 ([28; 0; 4] ++ repeat 0 60)]; [mkQ 12 ([2; 0; 1] ++ repeat 0 60)]]] None 0.
Lemma nb_requantised : forall q q' b b', forallb (fun i => 2 * Z.abs (coef b' i * nth i q' 0 - coef b i * nth i q 0) <=? nth i q' 0) (seq 0 64) = true -> requantised q q' b b'.
Proof. intros q q' b b' H i Hi. rewrite forallb_forall in H. specialize (H i ltac:(apply in_seq; lia)). lia. Qed.
Example C87_requantised_case :
  let im := ch_three 40 (ch_q 10 20) (ch_q 30 4) in
  image_ok im /\ image_ok nb_image /\
  (forall k q q', nth_error (im_quant im) k = Some q -> nth_error (im_quant nb_image) k = Some q' ->
    Forall2 (fun m m' => Forall2 (requantised q q') (nth k m []) (nth k m' [])) (im_mcus im) (im_mcus nb_image) /\
    modest_component k q (im_mcus im) /\ modest_component k q' (im_mcus nb_image) /\ fold_right Z.add 0 q' <= 2 * 160) /\
  exists img img', decode_fresh true false (encode im) = Ok img /\ decode_fresh true false (encode nb_image) = Ok img' /\
    pixel 3 8 3 2 img = [184; 162; 208] /\ pixel 3 8 3 2 img' = [185; 162; 208].
Proof.
  cbv zeta. split; [unfold ch_three, ch_q; ok_image|]. split; [unfold nb_image; ok_image|]. split.
  - unfold ch_three, nb_image. cbn [im_quant im_mcus repeat]. intros [|[|[|[|k]]]] q q' Eq Eq'; try discriminate Eq; assert (Q := f_equal (fun o => match o with Some v => v | None => [] end) Eq); assert (Q' := f_equal (fun o => match o with Some v => v | None => [] end) Eq');
      cbn beta iota zeta delta [nth_error] in Q, Q'; subst q q'; (split; [repeat constructor; apply nb_requantised; vm_compute; reflexivity|split; [|split; [|vm_compute; discriminate]]]); intros m b [<-|[]] [<-|[]]; apply modest_small; vm_compute; discriminate.
  - eexists. eexists. split; [vm_compute; reflexivity|]. split; [vm_compute; reflexivity|]. split; vm_compute; reflexivity.
Qed.

(** For blocks that are not moderate it is false: the smallest change of one coefficient turns
    white into black (the table of clamped values is left, C34). *)
Theorem C87_refuted :
  exists im im' img img', image_ok im /\ image_ok im' /\ im_quant im' = im_quant im /\
    Forall2 (Forall2 (Forall2 (fun b b' => distance (repeat 8 64) (repeat 8 64) b b' <= 8))) (im_mcus im) (im_mcus im') /\
    Forall (eq (repeat 8 64)) (im_quant im) /\
    decode_fresh true false (encode im) = Ok img /\ decode_fresh true false (encode im') = Ok img' /\
    pixel 3 8 0 0 img = [255; 255; 255] /\ pixel 3 8 0 0 img' = [0; 0; 0].
Proof.
  exists (ch_dc 639), (ch_dc 640). eexists. eexists. split; [unfold ch_dc; ok_image|]. split; [unfold ch_dc; ok_image|]. split; [reflexivity|].
  split; [repeat constructor; vm_compute; discriminate|]. split; [repeat constructor|].
  split; [vm_compute; reflexivity|]. split; [vm_compute; reflexivity|]. split; vm_compute; reflexivity.
Qed.
Print Assumptions C87_refuted.
