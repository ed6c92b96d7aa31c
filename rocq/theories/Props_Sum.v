(** Adding the coefficients of two images adds the pictures (C85). *)
From Verif Require Import Base SpecBits SpecReader SpecMarker SpecHuffman SpecBlock SpecTables SpecFrame SpecSegments SpecScan SpecPlane SpecUpsample SpecImage SpecColor SpecFile SpecAnswer SpecFlat SpecEncoder SpecEdit SpecFlip SpecChannel SpecSum
  Huffman Decode EncoderP FlipP3 ChannelP SumP Props_Channel.

(** Three files of the same size, sampling factors and Adobe transform; in a component, the
    dequantised coefficients of the third are the sums of those of the first two, and no sample
    has to be limited.  With four (inverted) components, the byte of the third picture is the
    sum of the other two minus 127, give or take one (two if the component is subsampled).  The
    missing part: columns that are left out (C39; C85_left_out_refuted). *)
Theorem C85_four_components_partial :
  forall dbg rayon segs segs' segs'' h h' h'' fill1 fill2 fill1' fill2' fill1'' fill2'' ss ss' ss'' ts ts' ts'' qs qs' qs'' ms ms' ms'' data data' data'' post post' post'' fill3 fill3' fill3'' img,
    let cs := fh_comps h in let lines := fh_lines h in let samples := fh_samples h in
    encodes segs h ss ts qs ms data -> encodes segs' h' ss' ts' qs' ms' data' -> encodes segs'' h'' ss'' ts'' qs'' ms'' data'' ->
    post_ok post -> post_ok post' -> post_ok post'' ->
    fh_lines h' = lines -> fh_lines h'' = lines -> fh_samples h' = samples -> fh_samples h'' = samples -> 0 < lines -> 0 < samples ->
    map (fun c => (cs_h c, cs_v c)) (fh_comps h') = map (fun c => (cs_h c, cs_v c)) cs ->
    map (fun c => (cs_h c, cs_v c)) (fh_comps h'') = map (fun c => (cs_h c, cs_v c)) cs ->
    last_transform (segs' ++ post') = last_transform (segs ++ post) -> last_transform (segs'' ++ post'') = last_transform (segs ++ post) ->
    let file := file_bytes segs fill1 fill2 (mkSpS ss 0 63 0 0) data post fill3 in
    let file' := file_bytes segs' fill1' fill2' (mkSpS ss' 0 63 0 0) data' post' fill3' in
    let file'' := file_bytes segs'' fill1'' fill2'' (mkSpS ss'' 0 63 0 0) data'' post'' fill3'' in
    bytes file -> bytes file' -> bytes file'' -> decode_fresh dbg rayon file = Ok img -> lenZ cs = 4 ->
    exists img' img'', decode_fresh dbg rayon file' = Ok img' /\ decode_fresh dbg rayon file'' = Ok img'' /\
      forall k c y x, summed k qs qs' qs'' ms ms' ms'' -> nth_error cs k = Some c -> 0 <= y < lines -> 0 <= x < samples ->
        let a := nth k (pixel 4 samples y x img) 0 in let a' := nth k (pixel 4 samples y x img') 0 in let a'' := nth k (pixel 4 samples y x img'') 0 in
        (full_width lines samples cs c -> -2 <= a'' - (a + a' - 127) <= 2) /\ (full_component cs c -> -1 <= a'' - (a + a' - 127) <= 1).
Proof. exact sum_four. Qed.
Print Assumptions C85_four_components_partial.

(** With three components, all of them sums, the bytes that are neither 0 nor 255 in any of the
    three pictures add up relative to 128, give or take four (seven with subsampling). *)
Theorem C85_three_components_partial :
  forall dbg rayon segs segs' segs'' h h' h'' fill1 fill2 fill1' fill2' fill1'' fill2'' ss ss' ss'' ts ts' ts'' qs qs' qs'' ms ms' ms'' data data' data'' post post' post'' fill3 fill3' fill3'' img,
    let cs := fh_comps h in let lines := fh_lines h in let samples := fh_samples h in
    encodes segs h ss ts qs ms data -> encodes segs' h' ss' ts' qs' ms' data' -> encodes segs'' h'' ss'' ts'' qs'' ms'' data'' ->
    post_ok post -> post_ok post' -> post_ok post'' ->
    fh_lines h' = lines -> fh_lines h'' = lines -> fh_samples h' = samples -> fh_samples h'' = samples -> 0 < lines -> 0 < samples ->
    map (fun c => (cs_h c, cs_v c)) (fh_comps h') = map (fun c => (cs_h c, cs_v c)) cs ->
    map (fun c => (cs_h c, cs_v c)) (fh_comps h'') = map (fun c => (cs_h c, cs_v c)) cs ->
    last_transform (segs' ++ post') = last_transform (segs ++ post) -> last_transform (segs'' ++ post'') = last_transform (segs ++ post) ->
    let file := file_bytes segs fill1 fill2 (mkSpS ss 0 63 0 0) data post fill3 in
    let file' := file_bytes segs' fill1' fill2' (mkSpS ss' 0 63 0 0) data' post' fill3' in
    let file'' := file_bytes segs'' fill1'' fill2'' (mkSpS ss'' 0 63 0 0) data'' post'' fill3'' in
    bytes file -> bytes file' -> bytes file'' -> decode_fresh dbg rayon file = Ok img -> lenZ cs = 3 -> last_transform (segs ++ post) <> Some 0 ->
    (forall k, summed k qs qs' qs'' ms ms' ms'') ->
    exists img' img'', decode_fresh dbg rayon file' = Ok img' /\ decode_fresh dbg rayon file'' = Ok img'' /\
      forall k y x, 0 <= y < lines -> 0 <= x < samples ->
        let a := nth k (pixel 3 samples y x img) 0 in let a' := nth k (pixel 3 samples y x img') 0 in let a'' := nth k (pixel 3 samples y x img'') 0 in
        inner a -> inner a' -> inner a'' ->
        (Forall (full_width lines samples cs) cs -> -7 <= a'' - (a + a' - 128) <= 7) /\ (Forall (full_component cs) cs -> -4 <= a'' - (a + a' - 128) <= 4).
Proof. exact sum_three. Qed.
Print Assumptions C85_three_components_partial.

(** Two images of 8 x 8 pixels and their sum; the tables are 8, 7 and 2. *)
Definition su_q (dc a b c : Z) : qblock := mkQ dc ([a; b; c] ++ repeat 0 60).
Definition su_three (b0 b1 b2 : qblock) : image :=
  mkImage 8 8 [(1, 1); (1, 1); (1, 1)] [repeat 8 64; repeat 7 64; repeat 2 64] [[[b0]; [b1]; [b2]]] None 0.
Lemma su_sum : forall v a b c d a' b' c' d',
  unclipped (repeat v 64) (su_q a b c d) -> unclipped (repeat v 64) (su_q a' b' c' d') -> unclipped (repeat v 64) (su_q (a + a') (b + b') (c + c') (d + d')) ->
  sum_blocks (repeat v 64) (repeat v 64) (repeat v 64) [su_q a b c d] [su_q a' b' c' d'] [su_q (a + a') (b + b') (c + c') (d + d')].
Proof.
  intros v a b c d a' b' c' d' U U' U''. constructor; [|exact U|exact U'|exact U''|constructor]. intros i Hi. rewrite <- Z.mul_add_distr_r. f_equal. unfold coef, su_q. cbn [q_dc q_ac].
  destruct i as [|[|[|[|i]]]]; try reflexivity. cbn [nth app]. rewrite !nth_repeat. reflexivity.
Qed.
Example C85_case :
  let im := su_three (su_q 10 5 (-3) 2) (su_q 4 8 0 1) (su_q (-20) 3 3 0) in let im' := su_three (su_q (-30) 1 6 (-2)) (su_q 5 (-2) 1 1) (su_q 7 0 (-9) 4) in
  let im'' := su_three (su_q (10 + -30) (5 + 1) (-3 + 6) (2 + -2)) (su_q (4 + 5) (8 + -2) (0 + 1) (1 + 1)) (su_q (-20 + 7) (3 + 0) (3 + -9) (0 + 4)) in
  image_ok im /\ image_ok im' /\ image_ok im'' /\ (forall k, summed k (im_quant im) (im_quant im') (im_quant im'') (im_mcus im) (im_mcus im') (im_mcus im'')) /\
  Forall (full_component (fh_comps (enc_header im))) (fh_comps (enc_header im)) /\
  exists img img' img'', decode_fresh true false (encode im) = Ok img /\ decode_fresh true false (encode im') = Ok img' /\ decode_fresh true false (encode im'') = Ok img'' /\
    pixel 3 8 3 2 img = [132; 138; 152] /\ pixel 3 8 3 2 img' = [103; 102; 107] /\ pixel 3 8 3 2 img'' = [108; 113; 132].
Proof.
  cbv zeta. split; [unfold su_three, su_q; ok_image|]. split; [unfold su_three, su_q; ok_image|]. split; [unfold su_three, su_q; ok_image|]. split; [|split].
  - unfold su_three. cbn [im_quant im_mcus]. intros k q q' q'' Eq Eq' Eq''. assert (q' = q) by congruence. assert (q'' = q) by congruence. subst q' q''. constructor; [|constructor].
    destruct k as [|[|[|[|k]]]]; try discriminate Eq; cbn [nth]; try (assert (Q := f_equal (fun o => match o with Some v => v | None => [] end) Eq); cbn beta iota zeta delta [nth_error] in Q; subst q;
      apply su_sum; apply unclipped_small; vm_compute; discriminate).
  - repeat constructor.
  - eexists. eexists. eexists. split; [vm_compute; reflexivity|]. split; [vm_compute; reflexivity|]. split; [vm_compute; reflexivity|]. split; [vm_compute; reflexivity|]. split; vm_compute; reflexivity.
Qed.

(** Columns that are left out do not add up: in the last column of the grey image with four
    components, which is the sum of itself and itself, three bytes are 255 in all pictures. *)
Definition su_grey : image :=
  mkImage 8 4 [(3, 1); (1, 1); (1, 1); (1, 1)] (repeat (repeat 8 64) 4) [repeat (mkQ 0 (repeat 0 63)) 3 :: repeat [mkQ 0 (repeat 0 63)] 3] (Some 0) 0.
Theorem C85_left_out_refuted :
  exists im img, image_ok im /\ (forall k, (k < 4)%nat -> summed k (im_quant im) (im_quant im) (im_quant im) (im_mcus im) (im_mcus im) (im_mcus im)) /\
    decode_fresh true false (encode im) = Ok img /\ pixel 4 4 0 2 img = [127; 127; 127; 127] /\ pixel 4 4 0 3 img = [127; 255; 255; 255].
Proof.
  exists su_grey. eexists. split; [unfold su_grey; ok_image|]. split; [|split; [vm_compute; reflexivity|]; split; vm_compute; reflexivity].
  intros k Hk q q' q'' Eq Eq' Eq''. assert (q' = q) by congruence. assert (q'' = q) by congruence. subst q' q''. assert (Q : q = repeat 8 64) by (apply nth_error_In in Eq; exact (repeat_spec _ _ _ Eq)). subst q.
  assert (U : unclipped (repeat 8 64) (mkQ 0 (repeat 0 63))) by (apply unclipped_small; vm_compute; discriminate).
  assert (S : sum_block (repeat 8 64) (repeat 8 64) (repeat 8 64) (mkQ 0 (repeat 0 63)) (mkQ 0 (repeat 0 63)) (mkQ 0 (repeat 0 63))).
  { intros i Hi. unfold coef. cbn [q_dc q_ac]. change (0 :: repeat 0 63) with (repeat 0 64). rewrite nth_repeat. reflexivity. }
  constructor; [|constructor]. destruct k as [|[|[|[|k]]]]; [| | | |lia]; cbn [nth repeat]; repeat (apply blocks_more; [exact S|exact U|exact U|exact U|]); apply blocks_none.
Qed.
Print Assumptions C85_left_out_refuted.
