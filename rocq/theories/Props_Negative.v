(** The negative of an image (C84). *)
From Verif Require Import Base SpecBits SpecReader SpecMarker SpecHuffman SpecBlock SpecTables SpecFrame SpecSegments SpecScan SpecPlane SpecUpsample SpecImage SpecColor SpecFile SpecAnswer SpecFlat SpecEncoder SpecEdit SpecFlip SpecChannel SpecNegative
  Huffman Decode EncoderP FlipP3 ChannelP NegativeP Props_Channel.

(** Two files of the same size, sampling factors and Adobe transform, the second with the
    opposite of every dequantised coefficient of a component.  With four components, the two
    bytes of that component add up to 254 in every pixel, give or take one (rounding; one more
    below if the component is subsampled).  The missing part: blocks that leave the range in which samples
    are limited to 0..255 (C34; C84_refuted), and columns that are left out (C39;
    C84_left_out_refuted). *)
Theorem C84_four_components_partial :
  forall dbg rayon segs segs' h h' fill1 fill2 fill1' fill2' ss ss' ts ts' qs qs' ms ms' data data' post post' fill3 fill3' img,
    let cs := fh_comps h in let lines := fh_lines h in let samples := fh_samples h in
    encodes segs h ss ts qs ms data -> encodes segs' h' ss' ts' qs' ms' data' -> post_ok post -> post_ok post' ->
    fh_lines h' = lines -> fh_samples h' = samples -> 0 < lines -> 0 < samples ->
    map (fun c => (cs_h c, cs_v c)) (fh_comps h') = map (fun c => (cs_h c, cs_v c)) cs ->
    last_transform (segs' ++ post') = last_transform (segs ++ post) ->
    let file := file_bytes segs fill1 fill2 (mkSpS ss 0 63 0 0) data post fill3 in
    let file' := file_bytes segs' fill1' fill2' (mkSpS ss' 0 63 0 0) data' post' fill3' in
    bytes file -> bytes file' -> decode_fresh dbg rayon file = Ok img -> lenZ cs = 4 ->
    exists img', decode_fresh dbg rayon file' = Ok img' /\
      forall k c y x, negated k qs qs' ms ms' -> nth_error cs k = Some c -> 0 <= y < lines -> 0 <= x < samples ->
        let a := nth k (pixel 4 samples y x img) 0 in let a' := nth k (pixel 4 samples y x img') 0 in
        (full_width lines samples cs c -> 252 <= a + a' <= 255) /\ (full_component cs c -> 253 <= a + a' <= 255).
Proof. exact negative_four. Qed.
Print Assumptions C84_four_components_partial.

(** With three components, all with the opposite coefficients, every byte of a pixel and that
    of its negative add up to 256, give or take three without subsampling. *)
Theorem C84_three_components_partial :
  forall dbg rayon segs segs' h h' fill1 fill2 fill1' fill2' ss ss' ts ts' qs qs' ms ms' data data' post post' fill3 fill3' img,
    let cs := fh_comps h in let lines := fh_lines h in let samples := fh_samples h in
    encodes segs h ss ts qs ms data -> encodes segs' h' ss' ts' qs' ms' data' -> post_ok post -> post_ok post' ->
    fh_lines h' = lines -> fh_samples h' = samples -> 0 < lines -> 0 < samples ->
    map (fun c => (cs_h c, cs_v c)) (fh_comps h') = map (fun c => (cs_h c, cs_v c)) cs ->
    last_transform (segs' ++ post') = last_transform (segs ++ post) ->
    let file := file_bytes segs fill1 fill2 (mkSpS ss 0 63 0 0) data post fill3 in
    let file' := file_bytes segs' fill1' fill2' (mkSpS ss' 0 63 0 0) data' post' fill3' in
    bytes file -> bytes file' -> decode_fresh dbg rayon file = Ok img -> lenZ cs = 3 -> last_transform (segs ++ post) <> Some 0 ->
    (forall k, negated k qs qs' ms ms') ->
    exists img', decode_fresh dbg rayon file' = Ok img' /\
      forall y x, 0 <= y < lines -> 0 <= x < samples ->
        (Forall (full_width lines samples cs) cs -> Forall2 (fun a a' => 252 <= a + a' <= 262) (pixel 3 samples y x img) (pixel 3 samples y x img')) /\
        (Forall (full_component cs) cs -> Forall2 (fun a a' => 253 <= a + a' <= 259) (pixel 3 samples y x img) (pixel 3 samples y x img')).
Proof. exact negative_three. Qed.
Print Assumptions C84_three_components_partial.

(** Every image whose DC coefficients are not the least possible one has such a negative, which
    can be encoded, and whose negative is the image again. *)
Theorem C84_negate_partial :
  forall dbg rayon im img, image_ok im -> Forall (Forall (Forall (fun b => q_dc b <> -1024))) (im_mcus im) ->
    (forall k q, nth_error (im_quant im) k = Some q -> modest_component k q (im_mcus im) /\ modest_component k q (im_mcus (negate im))) ->
    0 < im_lines im -> 0 < im_samples im -> decode_fresh dbg rayon (encode im) = Ok img ->
    lenZ (im_factors im) = 3 -> im_transform im <> Some 0 ->
    let cs := fh_comps (enc_header im) in
    image_ok (negate im) /\ negate (negate im) = im /\
    exists img', decode_fresh dbg rayon (encode (negate im)) = Ok img' /\
      forall y x, 0 <= y < im_lines im -> 0 <= x < im_samples im ->
        (Forall (full_width (im_lines im) (im_samples im) cs) cs -> Forall2 (fun a a' => 252 <= a + a' <= 262) (pixel 3 (im_samples im) y x img) (pixel 3 (im_samples im) y x img')) /\
        (Forall (full_component cs) cs -> Forall2 (fun a a' => 253 <= a + a' <= 259) (pixel 3 (im_samples im) y x img) (pixel 3 (im_samples im) y x img')).
Proof. exact (fun dbg rayon im img OK Low Mo L S D C T => conj (negate_ok im OK Low) (conj (negate_twice im) (negate_three im OK Low Mo dbg rayon img L S D C T))). Qed.
Print Assumptions C84_negate_partial.

Theorem C84_negate_cmyk_partial :
  forall dbg rayon im img, image_ok im -> Forall (Forall (Forall (fun b => q_dc b <> -1024))) (im_mcus im) ->
    (forall k q, nth_error (im_quant im) k = Some q -> modest_component k q (im_mcus im) /\ modest_component k q (im_mcus (negate im))) ->
    0 < im_lines im -> 0 < im_samples im -> decode_fresh dbg rayon (encode im) = Ok img -> lenZ (im_factors im) = 4 ->
    let cs := fh_comps (enc_header im) in
    exists img', decode_fresh dbg rayon (encode (negate im)) = Ok img' /\
      forall k c y x, nth_error cs k = Some c -> 0 <= y < im_lines im -> 0 <= x < im_samples im ->
        let a := nth k (pixel 4 (im_samples im) y x img) 0 in let a' := nth k (pixel 4 (im_samples im) y x img') 0 in
        (full_width (im_lines im) (im_samples im) cs c -> 252 <= a + a' <= 255) /\ (full_component cs c -> 253 <= a + a' <= 255).
Proof. exact (fun dbg rayon im img OK Low Mo L S D C => negate_four im OK Low Mo dbg rayon img L S D C). Qed.
Print Assumptions C84_negate_cmyk_partial.

(** An image of 8 x 8 pixels and its negative. *)
Ltac all_modest := intros m b [<-|[]] [<-|[]]; apply modest_small; vm_compute; discriminate.
Example C84_negate_case :
  let im := ch_three 40 (ch_q 10 20) (ch_q 30 4) in
  image_ok im /\ Forall (Forall (Forall (fun b => q_dc b <> -1024))) (im_mcus im) /\
  (forall k q, nth_error (im_quant im) k = Some q -> modest_component k q (im_mcus im) /\ modest_component k q (im_mcus (negate im))) /\
  Forall (full_component (fh_comps (enc_header im))) (fh_comps (enc_header im)) /\
  exists img img', decode_fresh true false (encode im) = Ok img /\ decode_fresh true false (encode (negate im)) = Ok img' /\
    pixel 3 8 3 2 img = [184; 162; 208] /\ pixel 3 8 3 2 img' = [72; 94; 48].
Proof.
  cbv zeta. split; [unfold ch_three, ch_q; ok_image|]. split; [repeat constructor; cbn; lia|]. split; [|split].
  - unfold negate, ch_three. cbn [im_quant im_mcus map]. intros [|[|[|[|k]]]] q Eq; try discriminate Eq; assert (Q := f_equal (fun o => match o with Some v => v | None => [] end) Eq); cbn beta iota zeta delta [nth_error] in Q; subst q; split; all_modest.
  - repeat constructor.
  - eexists. eexists. split; [vm_compute; reflexivity|]. split; [vm_compute; reflexivity|]. split; vm_compute; reflexivity.
Qed.
(** Four components, two of them subsampled. *)
Example C84_cmyk_case :
  let im := ch_four 3 (ch_q 10 20) in
  image_ok im /\ Forall (Forall (Forall (fun b => q_dc b <> -1024))) (im_mcus im) /\
  exists img img', decode_fresh true false (encode im) = Ok img /\ decode_fresh true false (encode (negate im)) = Ok img' /\
    pixel 4 10 8 9 img = [124; 127; 123; 125] /\ pixel 4 10 8 9 img' = [130; 127; 131; 129].
Proof.
  cbv zeta. split; [unfold ch_four, ch_q; ok_image|]. split; [repeat constructor; cbn; lia|].
  eexists. eexists. split; [vm_compute; reflexivity|]. split; [vm_compute; reflexivity|]. split; vm_compute; reflexivity.
Qed.

(** For blocks that are not moderate it is false: an image and its negative can both be white
    (the table of clamped values is left, C34). *)
Theorem C84_refuted :
  exists im img img', image_ok im /\ image_ok (negate im) /\
    decode_fresh true false (encode im) = Ok img /\ decode_fresh true false (encode (negate im)) = Ok img' /\
    pixel 3 8 0 0 img = [255; 255; 255] /\ pixel 3 8 0 0 img' = [255; 255; 255].
Proof.
  exists (ch_dc 572). eexists. eexists. split; [unfold ch_dc; ok_image|]. split; [apply negate_ok; [unfold ch_dc; ok_image|repeat constructor; cbn; lia]|].
  split; [vm_compute; reflexivity|]. split; [vm_compute; reflexivity|]. split; vm_compute; reflexivity.
Qed.
Print Assumptions C84_refuted.

(** Columns that are left out are the same in an image and its negative: the last column of a
    grey image, which is its own negative, is green (C39, C66). *)
Definition ng_grey : image :=
  mkImage 8 4 [(3, 1); (1, 1); (1, 1)] (repeat (repeat 8 64) 3) [[repeat (mkQ 0 (repeat 0 63)) 3; [mkQ 0 (repeat 0 63)]; [mkQ 0 (repeat 0 63)]]] None 0.
Theorem C84_left_out_refuted :
  exists im img, image_ok im /\ negate im = im /\
    (forall k q, nth_error (im_quant im) k = Some q -> modest_component k q (im_mcus im)) /\
    decode_fresh true false (encode im) = Ok img /\ pixel 3 4 0 2 img = [128; 128; 128] /\ pixel 3 4 0 3 img = [0; 255; 0].
Proof.
  exists ng_grey. eexists. split; [unfold ng_grey; ok_image|]. split; [reflexivity|]. split; [|split; [vm_compute; reflexivity|]; split; vm_compute; reflexivity].
  intros k q Eq m b [<-|[]] I. assert (Q : q = repeat 8 64) by (apply nth_error_In in Eq; exact (repeat_spec _ _ _ Eq)). subst q.
  assert (B : b = mkQ 0 (repeat 0 63)) by (destruct k as [|[|[|[|k]]]]; cbn [nth] in I; try (destruct I as [<-|I]; [reflexivity|]); try (exact (repeat_spec _ _ _ I)); destruct I).
  subst b. apply modest_small. vm_compute. discriminate.
Qed.
Print Assumptions C84_left_out_refuted.
