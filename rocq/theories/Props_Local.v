(** A change of an MCU changes only the pixels near it (C76). *)
From Verif Require Import Base SpecBits SpecReader SpecMarker SpecHuffman SpecBlock SpecTables SpecFrame SpecSegments SpecScan SpecPlane SpecUpsample SpecImage SpecColor SpecFile SpecAnswer SpecEncoder SpecEdit SpecLocal
  Huffman Decode EncoderP LocalP.

(** ** C76: changes stay local *)
(** Two files of the same size, sampling factors, quantisation tables and Adobe transform.  A
    pixel is the same in both images if its MCU is the same and no component is subsampled; with
    subsampled components it is the same if the MCUs of the pixels at most one column away and
    up to as many lines above as the largest vertical factor are the same. *)
Theorem C76_local_partial :
  forall dbg rayon segs segs' h h' fill1 fill2 fill1' fill2' ss ss' ts ts' qs ms ms' data data' post post' fill3 fill3' img,
    let cs := fh_comps h in let lines := fh_lines h in let samples := fh_samples h in
    encodes segs h ss ts qs ms data -> encodes segs' h' ss' ts' qs ms' data' -> post_ok post -> post_ok post' ->
    fh_lines h' = lines -> fh_samples h' = samples -> 0 < lines -> 0 < samples ->
    map (fun c => (cs_h c, cs_v c)) (fh_comps h') = map (fun c => (cs_h c, cs_v c)) cs ->
    last_transform (segs' ++ post') = last_transform (segs ++ post) ->
    let file := file_bytes segs fill1 fill2 (mkSpS ss 0 63 0 0) data post fill3 in
    let file' := file_bytes segs' fill1' fill2' (mkSpS ss' 0 63 0 0) data' post' fill3' in
    bytes file -> bytes file' -> decode_fresh dbg rayon file = Ok img ->
    let vm := largest (map cs_v cs) in
    rayon = false \/ vm = 1 ->
    exists img', decode_fresh dbg rayon file' = Ok img' /\
      forall y x, 0 <= y < lines -> 0 <= x < samples ->
        full_resolution cs /\ mcu_of samples cs ms' y x = mcu_of samples cs ms y x \/
        (forall y2 x2, 0 <= y2 < lines -> 0 <= x2 < samples -> y - vm <= y2 <= y -> x - 1 <= x2 <= x + 1 ->
           mcu_of samples cs ms' y2 x2 = mcu_of samples cs ms y2 x2) ->
        pixel (lenZ cs) samples y x img' = pixel (lenZ cs) samples y x img.
Proof. exact local_image. Qed.
Print Assumptions C76_local_partial.

(** In every build, with any sampling factors: the MCUs of the pixels at most one line away from
    the row that is shown (for line [y]: the first line of its group of [vm] lines; in the
    parallel build line [y / vm]) and at most one column away. *)
Theorem C76_near_row :
  forall dbg rayon segs segs' h h' fill1 fill2 fill1' fill2' ss ss' ts ts' qs ms ms' data data' post post' fill3 fill3' img,
    let cs := fh_comps h in let lines := fh_lines h in let samples := fh_samples h in
    encodes segs h ss ts qs ms data -> encodes segs' h' ss' ts' qs ms' data' -> post_ok post -> post_ok post' ->
    fh_lines h' = lines -> fh_samples h' = samples -> 0 < lines -> 0 < samples ->
    map (fun c => (cs_h c, cs_v c)) (fh_comps h') = map (fun c => (cs_h c, cs_v c)) cs ->
    last_transform (segs' ++ post') = last_transform (segs ++ post) ->
    let file := file_bytes segs fill1 fill2 (mkSpS ss 0 63 0 0) data post fill3 in
    let file' := file_bytes segs' fill1' fill2' (mkSpS ss' 0 63 0 0) data' post' fill3' in
    bytes file -> bytes file' -> decode_fresh dbg rayon file = Ok img ->
    let vm := largest (map cs_v cs) in
    exists img', decode_fresh dbg rayon file' = Ok img' /\
      forall y x, 0 <= y < lines -> 0 <= x < samples ->
        (let row := shown_row rayon vm y in
         forall y2 x2, 0 <= y2 < lines -> 0 <= x2 < samples -> row - 1 <= y2 <= row + 1 -> x - 1 <= x2 <= x + 1 ->
           mcu_of samples cs ms' y2 x2 = mcu_of samples cs ms y2 x2) ->
        pixel (lenZ cs) samples y x img' = pixel (lenZ cs) samples y x img.
Proof. exact near_image. Qed.
Print Assumptions C76_near_row.

(** An image of 16 x 32 pixels with half the colour resolution (4:2:0): two MCUs side by side,
    of which the first is changed.  The column next to the changed MCU differs, the one after
    it does not: one column is as little as can be said. *)
Definition lo_q (dc a : Z) : qblock := mkQ dc ([a; 0; 3] ++ repeat 0 60).
Definition lo_mcu (d : Z) : mcu := [[lo_q 5 6; lo_q 7 8; lo_q 1 2; lo_q 3 4]; [lo_q d 1]; [lo_q 9 d]].
Definition lo_im (lines samples d : Z) : image :=
  mkImage lines samples [(2, 2); (1, 1); (1, 1)] [repeat 2 64; repeat 3 64; repeat 4 64] [lo_mcu d; lo_mcu 10] None 0.
Lemma lo_small : forall l, forallb (fun v => (-32767 <=? v) && (v <=? 32767)) l = true -> Forall (fun v => -32767 <= v <= 32767) l.
Proof. intros l H. rewrite forallb_forall in H. apply Forall_forall. intros v I. specialize (H v I). lia. Qed.
Ltac ok_image :=
  split; cbn [im_lines im_samples im_factors im_quant im_mcus im_transform im_restart]; try lia; try reflexivity; try (cbn; lia); try exact I;
  [repeat apply Forall_cons; try apply Forall_nil; cbn; lia
  |repeat apply Forall_cons; try apply Forall_nil; (split; [reflexivity|]); apply Forall_forall; intros v H; apply repeat_spec in H; lia
  |repeat apply Forall_cons; try apply Forall_nil; repeat apply Forall2_cons; try apply Forall2_nil; reflexivity
  |repeat apply Forall_cons; try apply Forall_nil; (split; [cbn [q_dc]; lia|split; [reflexivity|apply lo_small; reflexivity]])].
Example C76_case :
  let im := lo_im 16 32 10 in let im' := lo_im 16 32 90 in let cs := fh_comps (enc_header im) in
  encodes (enc_segs im) (enc_header im) (enc_ss im) (repeat enc_ts 3) (im_quant im) (im_mcus im) (enc_data im) /\
  encodes (enc_segs im') (enc_header im') (enc_ss im') (repeat enc_ts 3) (im_quant im) (im_mcus im') (enc_data im') /\
  (forall y x, 0 <= y < 16 -> 16 <= x < 32 -> mcu_of 32 cs (im_mcus im') y x = mcu_of 32 cs (im_mcus im) y x) /\
  exists img img', decode_fresh true false (encode im) = Ok img /\ decode_fresh true false (encode im') = Ok img' /\
    pixel 3 32 5 17 img' = pixel 3 32 5 17 img /\ pixel 3 32 5 16 img' <> pixel 3 32 5 16 img.
Proof.
  cbv zeta. split; [apply (enc_encodes (lo_im 16 32 10)); unfold lo_im, lo_mcu, lo_q; ok_image|]. split; [apply (enc_encodes (lo_im 16 32 90)); unfold lo_im, lo_mcu, lo_q; ok_image|]. split.
  - intros y x Hy Hx. unfold mcu_of. cbv zeta. change (largest (map cs_v (fh_comps (enc_header (lo_im 16 32 10))))) with 2. change (largest (map cs_h (fh_comps (enc_header (lo_im 16 32 10))))) with 2. change (8 * 2) with 16.
    replace (y / 16) with 0 by (symmetry; apply Z.div_small; lia). replace (x / 16) with 1 by (apply Z.div_unique with (r := x - 16); lia). reflexivity.
  - eexists. eexists. split; [vm_compute; reflexivity|]. split; [vm_compute; reflexivity|]. split; [vm_compute; reflexivity|vm_compute; discriminate].
Qed.

(** The parallel build shows other rows where a component is vertically subsampled (C41), so that
    a change of the upper MCU of 32 lines changes pixels of the lower one, far from it. *)
Theorem C76_rayon_refuted :
  exists im im' img img' y x, image_ok im /\ image_ok im' /\
    im_lines im = 32 /\ im_samples im = 16 /\ im_factors im = [(2, 2); (1, 1); (1, 1)] /\
    im' = mkImage 32 16 (im_factors im) (im_quant im) (im_mcus im') (im_transform im) (im_restart im) /\
    nth 1 (im_mcus im') [] = nth 1 (im_mcus im) [] /\
    decode_fresh true true (encode im) = Ok img /\ decode_fresh true true (encode im') = Ok img' /\
    20 <= y < 32 /\ 0 <= x < 16 /\ pixel 3 16 y x img' <> pixel 3 16 y x img.
Proof.
  exists (lo_im 32 16 10), (lo_im 32 16 90). eexists. eexists. exists 24, 3.
  split; [unfold lo_im, lo_mcu, lo_q; ok_image|]. split; [unfold lo_im, lo_mcu, lo_q; ok_image|]. do 5 (split; [reflexivity|]).
  split; [vm_compute; reflexivity|]. split; [vm_compute; reflexivity|]. split; [lia|]. split; [lia|]. vm_compute. discriminate.
Qed.
Print Assumptions C76_rayon_refuted.
