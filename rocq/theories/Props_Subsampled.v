(** Subsampling a flat component makes no difference (C91). *)
From Verif Require Import Base SpecBits SpecReader SpecMarker SpecHuffman SpecBlock SpecTables SpecFrame SpecSegments SpecScan SpecPlane SpecUpsample SpecImage SpecColor SpecFile SpecAnswer SpecFlat SpecEncoder SpecEdit SpecFlip SpecChannel SpecRatio SpecSubsampled
  Huffman Decode EncoderP FlipP3 ChannelP RatioP SubsampledP Props_Channel.

(** Two files of the same size, of which every component is the same in both (same ratios, same
    table, same blocks inside the image) or is flat with the same sample in both, with any
    factors: if both decode, they give the same pixels, at least if the largest vertical
    factors are the same; otherwise without rayon on the lines that are multiples of both.
    Missing: the other lines, where the claim is false (C91_refuted). *)
Theorem C91_subsampled_partial :
  forall dbg rayon segs segs' h h' fill1 fill2 fill1' fill2' ss ss' ts ts' qs qs' ms ms' data data' post post' fill3 fill3' img img',
    let cs := fh_comps h in let cs' := fh_comps h' in let lines := fh_lines h in let samples := fh_samples h in
    let vm := largest (map cs_v cs) in let vm' := largest (map cs_v cs') in
    encodes segs h ss ts qs ms data -> encodes segs' h' ss' ts' qs' ms' data' -> post_ok post -> post_ok post' ->
    fh_lines h' = lines -> fh_samples h' = samples -> 0 < lines -> 0 < samples -> length cs' = length cs ->
    (forall k, (k < length cs)%nat -> kept_component lines samples cs cs' qs qs' ms ms' k \/ flat_both lines samples cs cs' qs qs' ms ms' k) ->
    last_transform (segs' ++ post') = last_transform (segs ++ post) ->
    let file := file_bytes segs fill1 fill2 (mkSpS ss 0 63 0 0) data post fill3 in
    let file' := file_bytes segs' fill1' fill2' (mkSpS ss' 0 63 0 0) data' post' fill3' in
    bytes file -> bytes file' -> decode_fresh dbg rayon file = Ok img -> decode_fresh dbg rayon file' = Ok img' ->
    forall y x, 0 <= y < lines -> 0 <= x < samples ->
      vm' = vm \/ rayon = false /\ y mod vm = 0 /\ y mod vm' = 0 ->
      pixel (lenZ cs) samples y x img' = pixel (lenZ cs) samples y x img.
Proof. exact subsampled_same. Qed.
Print Assumptions C91_subsampled_partial.

(** Exactly which lines agree: those for which the decoder draws the same row (C40). *)
Theorem C91_lines :
  forall dbg rayon segs segs' h h' fill1 fill2 fill1' fill2' ss ss' ts ts' qs qs' ms ms' data data' post post' fill3 fill3' img img',
    let cs := fh_comps h in let cs' := fh_comps h' in let lines := fh_lines h in let samples := fh_samples h in
    let vm := largest (map cs_v cs) in let vm' := largest (map cs_v cs') in
    encodes segs h ss ts qs ms data -> encodes segs' h' ss' ts' qs' ms' data' -> post_ok post -> post_ok post' ->
    fh_lines h' = lines -> fh_samples h' = samples -> 0 < lines -> 0 < samples -> length cs' = length cs ->
    (forall k, (k < length cs)%nat -> kept_component lines samples cs cs' qs qs' ms ms' k \/ flat_both lines samples cs cs' qs qs' ms ms' k) ->
    last_transform (segs' ++ post') = last_transform (segs ++ post) ->
    let file := file_bytes segs fill1 fill2 (mkSpS ss 0 63 0 0) data post fill3 in
    let file' := file_bytes segs' fill1' fill2' (mkSpS ss' 0 63 0 0) data' post' fill3' in
    bytes file -> bytes file' -> decode_fresh dbg rayon file = Ok img -> decode_fresh dbg rayon file' = Ok img' ->
    forall y y0 x, 0 <= y < lines -> 0 <= y0 < lines -> 0 <= x < samples ->
      (if rayon then y / vm' = y0 / vm else y / vm' * vm' = y0 / vm * vm) ->
      pixel (lenZ cs) samples y x img' = pixel (lenZ cs) samples y0 x img.
Proof. exact subsampled_files. Qed.
Print Assumptions C91_lines.

(** 20 x 4 samples, chroma flat: once of half the width, once of full width. *)
Definition su_q (dc a b : Z) : qblock := mkQ dc ([a; b; 3] ++ repeat 0 60).
Definition su_flat (dc : Z) : qblock := mkQ dc (repeat 0 63).
Definition su_half : image :=
  mkImage 4 20 [(2, 1); (1, 1); (1, 1)] [repeat 2 64; repeat 3 64; repeat 4 64]
    [[[su_q 5 6 1; su_q 7 8 2]; [su_flat 10]; [su_flat (-20)]]; [[su_q 9 6 0; su_q 90 9 9]; [su_flat 10]; [su_flat (-20)]]] None 0.
Definition su_full : image :=
  mkImage 4 20 [(1, 1); (1, 1); (1, 1)] [repeat 2 64; repeat 6 64; repeat 2 64]
    [[[su_q 5 6 1]; [su_flat 5]; [su_flat (-40)]]; [[su_q 7 8 2]; [su_flat 5]; [su_flat (-40)]]; [[su_q 9 6 0]; [su_flat 5]; [su_flat (-40)]]] None 0.
Ltac su_number H := match type of H with _ < ?e => let v := eval vm_compute in e in change e with v in H end.
Ltac su_kept :=
  intros c c' q q' Ec Ec' Eq Eq'; injection Ec as <-; injection Ec' as <-; injection Eq as <-; injection Eq' as <-;
  (split; [reflexivity|]); (split; [reflexivity|]); (split; [reflexivity|]); intros r s R0 S0 R1 S1; su_number R1; su_number S1;
  (assert (E : r = 0) by lia); subst r; (assert (E : s = 0 \/ s = 1 \/ s = 2) by lia); destruct E as [->|[->| ->]]; first [reflexivity|exfalso; lia].
Ltac su_even :=
  let m := fresh "m" in let b := fresh "b" in let Im := fresh "Im" in let Ib := fresh "Ib" in
  intros m b Im Ib; cbn in Im; repeat (destruct Im as [<-|Im]; [cbn in Ib; destruct Ib as [<-|[]]; split; [reflexivity|apply Forall_forall; intros v Iv; exact (repeat_spec _ _ _ Iv)]|]); destruct Im.
Ltac su_both a b :=
  exists a, b; split; [su_even|split; [su_even|]];
  intros c c' q q' Ec Ec' Eq Eq'; injection Ec as <-; injection Ec' as <-; injection Eq as <-; injection Eq' as <-;
  (split; [intros _; reflexivity|split; [intros _; reflexivity|reflexivity]]).
Example C91_case :
  let cs := fh_comps (enc_header su_half) in let cs' := fh_comps (enc_header su_full) in
  image_ok su_half /\ image_ok su_full /\ length cs' = length cs /\ largest (map cs_v cs') = largest (map cs_v cs) /\
  (forall k, (k < length cs)%nat -> kept_component 4 20 cs cs' (im_quant su_half) (im_quant su_full) (im_mcus su_half) (im_mcus su_full) k \/
     flat_both 4 20 cs cs' (im_quant su_half) (im_quant su_full) (im_mcus su_half) (im_mcus su_full) k) /\
  exists img, decode_fresh true false (encode su_half) = Ok img /\ decode_fresh true false (encode su_full) = Ok img.
Proof.
  cbv zeta. split; [unfold su_half, su_q, su_flat; ok_image|]. split; [unfold su_full, su_q, su_flat; ok_image|]. split; [reflexivity|]. split; [reflexivity|]. split.
  - intros [|[|[|k]]] Hk; [left; su_kept|right; su_both 10 5|right; su_both (-20) (-40)|cbn in Hk; lia].
  - eexists. split; [vm_compute; reflexivity|vm_compute; reflexivity].
Qed.

(** 8 x 8 samples with flat chroma of half the width and height: line 1 shows line 0 of the
    image without subsampling, as found for C40. *)
Definition su_small (q : qblock) : image :=
  mkImage 8 8 [(1, 1); (1, 1); (1, 1)] [repeat 2 64; repeat 3 64; repeat 4 64] [[[q]; [su_flat 10]; [su_flat (-20)]]] None 0.
Definition su_420 (q : qblock) : image :=
  mkImage 8 8 [(2, 2); (1, 1); (1, 1)] [repeat 2 64; repeat 3 64; repeat 4 64] [[[q; su_flat 0; su_flat 0; su_flat 0]; [su_flat 10]; [su_flat (-20)]]] None 0.
Theorem C91_refuted :
  exists im im' : image, let cs := fh_comps (enc_header im) in let cs' := fh_comps (enc_header im') in
    image_ok im /\ image_ok im' /\ im_lines im' = im_lines im /\ im_samples im' = im_samples im /\ im_transform im' = im_transform im /\ length cs' = length cs /\
    (forall k, (k < length cs)%nat -> kept_component (im_lines im) (im_samples im) cs cs' (im_quant im) (im_quant im') (im_mcus im) (im_mcus im') k \/
       flat_both (im_lines im) (im_samples im) cs cs' (im_quant im) (im_quant im') (im_mcus im) (im_mcus im') k) /\
    forall dbg rayon, exists img img', decode_fresh dbg rayon (encode im) = Ok img /\ decode_fresh dbg rayon (encode im') = Ok img' /\
      pixel 3 8 1 0 img' <> pixel 3 8 1 0 img.
Proof.
  exists (su_small (su_q 5 60 90)), (su_420 (su_q 5 60 90)). cbv zeta. split; [unfold su_small, su_q, su_flat; ok_image|]. split; [unfold su_420, su_q, su_flat; ok_image|]. do 4 (split; [reflexivity|]). split.
  - intros [|[|[|k]]] Hk; [left; su_kept|right; su_both 10 10|right; su_both (-20) (-20)|cbn in Hk; lia].
  - intros [|] [|]; eexists; eexists; (split; [vm_compute; reflexivity|]); (split; [vm_compute; reflexivity|]); vm_compute; discriminate.
Qed.
Print Assumptions C91_refuted.
