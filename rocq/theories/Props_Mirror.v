(** Images with any sampling factors mirrored by editing their coefficients (C73). *)
From Verif Require Import Base SpecBits SpecReader SpecMarker SpecHuffman SpecBlock SpecTables SpecFrame SpecSegments SpecScan SpecPlane SpecUpsample SpecImage SpecColor SpecFile SpecAnswer SpecEncoder SpecEdit SpecFlip SpecMirror
  Huffman Decode EncoderP FlipP3 MirrorP.

(** As C73_mirror_partial, for any sampling factors: the columns of MCUs are put in the opposite
    order, and so are the blocks in every row of blocks of an MCU; the coefficients of odd
    horizontal frequency change sign.  If the columns of the image are whole MCUs, the image is the
    mirrored one up to 1 per byte with four components and up to 3 with three, in both builds. *)
Theorem C73_mirror_any_partial :
  forall dbg rayon segs h fill1 fill2 ss ts data post fill3 segs' h' fill1' fill2' ss' ts' data' post' fill3' qs ms ms' img,
    encodes segs h ss ts qs ms data -> encodes segs' h' ss' ts' qs ms' data' -> post_ok post -> post_ok post' ->
    let cs := fh_comps h in let lines := fh_lines h in let samples := fh_samples h in let fs := map (fun c => (cs_h c, cs_v c)) cs in
    fh_lines h' = lines -> fh_samples h' = samples -> 0 < lines -> 0 < samples ->
    map (fun c => (cs_h c, cs_v c)) (fh_comps h') = fs ->
    last_transform (segs' ++ post') = last_transform (segs ++ post) ->
    samples mod (8 * largest (map fst fs)) = 0 -> mirrored_mcus fs (mcus samples (largest (map fst fs))) (mcus lines (largest (map snd fs))) ms ms' -> all_modest qs ms ->
    let file := file_bytes segs fill1 fill2 (mkSpS ss 0 63 0 0) data post fill3 in
    let file' := file_bytes segs' fill1' fill2' (mkSpS ss' 0 63 0 0) data' post' fill3' in
    bytes file -> bytes file' -> decode_fresh dbg rayon file = Ok img ->
    exists img', decode_fresh dbg rayon file' = Ok img' /\
      forall y x, 0 <= y < lines -> 0 <= x < samples ->
        Forall2 (fun a b => Z.abs (a - b) <= if lenZ cs =? 4 then 1 else 3) (pixel (lenZ cs) samples y x img') (pixel (lenZ cs) samples y (samples - 1 - x) img).
Proof. exact mirror_any. Qed.
Print Assumptions C73_mirror_any_partial.

(** Every such image can be mirrored: [mirror] makes an image that can be encoded, and decoding it
    gives the mirrored picture. *)
Theorem C73_mirror_function_partial :
  forall dbg rayon im img, image_ok im -> im_samples im mod (8 * largest (map fst (im_factors im))) = 0 -> all_modest (im_quant im) (im_mcus im) ->
    0 < im_lines im -> 0 < im_samples im -> decode_fresh dbg rayon (encode im) = Ok img ->
    image_ok (mirror im) /\
    mirrored_mcus (im_factors im) (mcus (im_samples im) (largest (map fst (im_factors im)))) (mcus (im_lines im) (largest (map snd (im_factors im)))) (im_mcus im) (im_mcus (mirror im)) /\
    exists img', decode_fresh dbg rayon (encode (mirror im)) = Ok img' /\
      forall y x, 0 <= y < im_lines im -> 0 <= x < im_samples im ->
        Forall2 (fun a b => Z.abs (a - b) <= if lenZ (im_factors im) =? 4 then 1 else 3)
          (pixel (lenZ (im_factors im)) (im_samples im) y x img') (pixel (lenZ (im_factors im)) (im_samples im) y (im_samples im - 1 - x) img).
Proof. exact (fun dbg rayon im img OK M8 MD L S D => conj (mirror_ok im OK) (conj (mirror_mcus im OK) (mirror_decoded im OK dbg rayon img M8 MD L S D))). Qed.
Print Assumptions C73_mirror_function_partial.

(** A 4:2:0 image of 32 x 3 pixels, two MCUs of six blocks. *)
Definition wide_q (dc a b : Z) : qblock := mkQ dc ([a; b; 0; 5; 0; 0; -3] ++ repeat 0 56).
Definition wide_case : image :=
  mkImage 3 32 [(2, 2); (1, 1); (1, 1)] [repeat 3 64; repeat 7 64; repeat 2 64]
    [[[wide_q 5 20 30; wide_q 9 1 2; wide_q 0 0 0; wide_q 0 0 0]; [wide_q 1 20 3]; [wide_q 0 7 8]];
     [[wide_q (-50) 0 60; wide_q 40 (-20) 0; wide_q 0 0 0; wide_q 0 0 0]; [wide_q 1 0 3]; [wide_q 4 (-30) 1]]] None 0.
Lemma wide_small : forall l, forallb (fun v => (-32767 <=? v) && (v <=? 32767)) l = true -> Forall (fun v => -32767 <= v <= 32767) l.
Proof. intros l H. rewrite forallb_forall in H. apply Forall_forall. intros v I. specialize (H v I). lia. Qed.
Example C73_mirror_any_case : image_ok wide_case /\ im_samples wide_case mod (8 * largest (map fst (im_factors wide_case))) = 0 /\ all_modest (im_quant wide_case) (im_mcus wide_case) /\
  exists img img', decode_fresh true false (encode wide_case) = Ok img /\ decode_fresh true false (encode (mirror wide_case)) = Ok img' /\
    pixel 3 32 2 3 img <> pixel 3 32 2 28 img /\ pixel 3 32 2 3 img' = pixel 3 32 2 28 img.
Proof.
  split; [|split; [reflexivity|split]].
  - unfold wide_case, wide_q. split; cbn [im_lines im_samples im_factors im_quant im_mcus im_transform im_restart]; try lia; try reflexivity; try (cbn; lia); try exact I.
    + repeat apply Forall_cons; try apply Forall_nil; cbn; lia.
    + repeat apply Forall_cons; try apply Forall_nil; (split; [reflexivity|]); apply Forall_forall; intros v H; apply repeat_spec in H; lia.
    + repeat apply Forall_cons; try apply Forall_nil; repeat apply Forall2_cons; try apply Forall2_nil; reflexivity.
    + repeat apply Forall_cons; try apply Forall_nil; (split; [cbn [q_dc]; lia|split; [reflexivity|apply wide_small; reflexivity]]).
  - intros m k q bs Im Eq Eb. assert (M : forallb (fun m => forallb (fun k => forallb (fun b => fold_right Z.add 0 (map (fun i => Z.abs (coef b i * nth i (nth k (im_quant wide_case) []) 0)) (seq 0 64)) <=? 1472) (nth k m [])) (seq 0 3)) (im_mcus wide_case) = true) by (vm_compute; reflexivity).
    rewrite forallb_forall in M. specialize (M m Im). rewrite forallb_forall in M.
    assert (K : (k < 3)%nat) by (change 3%nat with (length (im_quant wide_case)); apply nth_error_Some; congruence).
    specialize (M k ltac:(apply in_seq; lia)). rewrite (nth_error_nth _ _ _ Eq), (nth_error_nth _ _ _ Eb) in M. rewrite forallb_forall in M.
    apply Forall_forall. intros b Ib. apply modest_small. specialize (M b Ib). lia.
  - eexists. eexists. split; [vm_compute; reflexivity|]. split; [vm_compute; reflexivity|]. split; [vm_compute; discriminate|vm_compute; reflexivity].
Qed.
