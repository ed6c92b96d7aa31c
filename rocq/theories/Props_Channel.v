(** Which bytes of a pixel depend on which component (C74), and brighter images (C75). *)
From Verif Require Import Base SpecBits SpecReader SpecMarker SpecHuffman SpecBlock SpecTables SpecFrame SpecSegments SpecScan SpecPlane SpecUpsample SpecImage SpecColor SpecFile SpecAnswer SpecEncoder SpecEdit SpecChannel
  Huffman Decode EncoderP FlipP3 ChannelP.

(** ** C74: components do not disturb one another *)
(** Two files of the same size, sampling factors and Adobe transform.  With four components, the
    byte of a component whose coefficients are the same is the same in every pixel, whatever the
    other components are. *)
Theorem C74_four_components :
  forall dbg rayon segs segs' h h' fill1 fill2 fill1' fill2' ss ss' ts ts' qs qs' ms ms' data data' post post' fill3 fill3' img,
    let cs := fh_comps h in let lines := fh_lines h in let samples := fh_samples h in
    encodes segs h ss ts qs ms data -> encodes segs' h' ss' ts' qs' ms' data' -> post_ok post -> post_ok post' ->
    fh_lines h' = lines -> fh_samples h' = samples -> 0 < lines -> 0 < samples ->
    map (fun c => (cs_h c, cs_v c)) (fh_comps h') = map (fun c => (cs_h c, cs_v c)) cs ->
    last_transform (segs' ++ post') = last_transform (segs ++ post) ->
    let file := file_bytes segs fill1 fill2 (mkSpS ss 0 63 0 0) data post fill3 in
    let file' := file_bytes segs' fill1' fill2' (mkSpS ss' 0 63 0 0) data' post' fill3' in
    bytes file -> bytes file' -> decode_fresh dbg rayon file = Ok img -> lenZ cs = 4 ->
    exists img', decode_fresh dbg rayon file' = Ok img' /\
      forall k y x, unchanged k qs qs' ms ms' -> 0 <= y < lines -> 0 <= x < samples ->
        nth k (pixel 4 samples y x img') 0 = nth k (pixel 4 samples y x img) 0.
Proof. exact channel_four. Qed.
Print Assumptions C74_four_components.

(** With three components and the same luminance, red does not depend on the second component
    (blue difference), and blue does not depend on the third (red difference). *)
Theorem C74_three_components :
  forall dbg rayon segs segs' h h' fill1 fill2 fill1' fill2' ss ss' ts ts' qs qs' ms ms' data data' post post' fill3 fill3' img,
    let cs := fh_comps h in let lines := fh_lines h in let samples := fh_samples h in
    encodes segs h ss ts qs ms data -> encodes segs' h' ss' ts' qs' ms' data' -> post_ok post -> post_ok post' ->
    fh_lines h' = lines -> fh_samples h' = samples -> 0 < lines -> 0 < samples ->
    map (fun c => (cs_h c, cs_v c)) (fh_comps h') = map (fun c => (cs_h c, cs_v c)) cs ->
    last_transform (segs' ++ post') = last_transform (segs ++ post) ->
    let file := file_bytes segs fill1 fill2 (mkSpS ss 0 63 0 0) data post fill3 in
    let file' := file_bytes segs' fill1' fill2' (mkSpS ss' 0 63 0 0) data' post' fill3' in
    bytes file -> bytes file' -> decode_fresh dbg rayon file = Ok img -> lenZ cs = 3 -> unchanged 0 qs qs' ms ms' ->
    exists img', decode_fresh dbg rayon file' = Ok img' /\
      forall y x, 0 <= y < lines -> 0 <= x < samples ->
        (unchanged 2 qs qs' ms ms' -> nth 0 (pixel 3 samples y x img') 0 = nth 0 (pixel 3 samples y x img) 0) /\
        (unchanged 1 qs qs' ms ms' -> nth 2 (pixel 3 samples y x img') 0 = nth 2 (pixel 3 samples y x img) 0).
Proof. exact channel_three. Qed.
Print Assumptions C74_three_components.

(** Images of 9 x 10 pixels in one MCU, the second and fourth component with half the
    resolution in both directions. *)
Definition ch_q (dc a : Z) : qblock := mkQ dc ([a; 0; 3] ++ repeat 0 60).
Definition ch_four (q : Z) (b : qblock) : image :=
  mkImage 9 10 [(2, 2); (1, 1); (2, 2); (1, 1)] [repeat 2 64; repeat q 64; repeat 3 64; repeat 4 64]
    [[[ch_q 5 6; ch_q 7 8; ch_q 1 2; ch_q 3 4]; [b]; [ch_q 5 6; ch_q 7 8; ch_q 1 2; ch_q 3 4]; [ch_q 9 6]]] (Some 0) 0.
Definition ch_three (d : Z) (b c : qblock) : image :=
  mkImage 8 8 [(1, 1); (1, 1); (1, 1)] [repeat 8 64; repeat 7 64; repeat 2 64] [[[ch_q (5 + d) 6]; [b]; [c]]] None 0.
Lemma ch_small : forall l, forallb (fun v => (-32767 <=? v) && (v <=? 32767)) l = true -> Forall (fun v => -32767 <= v <= 32767) l.
Proof. intros l H. rewrite forallb_forall in H. apply Forall_forall. intros v I. specialize (H v I). lia. Qed.
Ltac ok_image :=
  split; cbn [im_lines im_samples im_factors im_quant im_mcus im_transform im_restart]; try lia; try reflexivity; try (cbn; lia); try exact I;
  [repeat apply Forall_cons; try apply Forall_nil; cbn; lia
  |repeat apply Forall_cons; try apply Forall_nil; (split; [reflexivity|]); apply Forall_forall; intros v H; apply repeat_spec in H; lia
  |repeat apply Forall_cons; try apply Forall_nil; repeat apply Forall2_cons; try apply Forall2_nil; reflexivity
  |repeat apply Forall_cons; try apply Forall_nil; (split; [cbn [q_dc]; lia|split; [reflexivity|apply ch_small; reflexivity]])].
Lemma ch_same : forall q b, Forall2 (same_products (repeat q 64) (repeat q 64)) b b.
Proof. intros q b. induction b; constructor; [intros i _; reflexivity|assumption]. Qed.
Lemma ch_nonzero : forall q, q <> 0 -> no_zero (repeat q 64).
Proof. intros q N i Hi. rewrite (nth_indep _ 0 q) by (rewrite repeat_length; exact Hi). rewrite nth_repeat. exact N. Qed.
Lemma ch_one : forall k qs qs' m m' v, nth_error qs k = Some (repeat v 64) -> nth_error qs' k = Some (repeat v 64) -> v <> 0 -> nth k m' [] = nth k m [] -> unchanged k qs qs' [m] [m'].
Proof.
  intros k qs qs' m m' v E E' N Em q q' Eq Eq'. rewrite E in Eq. rewrite E' in Eq'. assert (Q : q = repeat v 64) by congruence. assert (Q' : q' = repeat v 64) by congruence. rewrite Q, Q'.
  split; [apply ch_nonzero; exact N|]. split; [apply ch_nonzero; exact N|]. apply Forall2_cons; [|apply Forall2_nil]. rewrite Em. apply ch_same.
Qed.
Lemma ch_none : forall k qs qs' ms ms', nth_error qs k = None -> unchanged k qs qs' ms ms'.
Proof. intros k qs qs' ms ms' E q q' Eq. congruence. Qed.
(** Changing the second of four components (and its table): two files as in the theorem, and
    only the second byte of a pixel differs. *)
Example C74_four_case :
  let im := ch_four 3 (ch_q 10 20) in let im' := ch_four 5 (ch_q (-7) 1) in
  encodes (enc_segs im) (enc_header im) (enc_ss im) (repeat enc_ts 4) (im_quant im) (im_mcus im) (enc_data im) /\
  encodes (enc_segs im') (enc_header im') (enc_ss im') (repeat enc_ts 4) (im_quant im') (im_mcus im') (enc_data im') /\
  (forall k, k <> 1%nat -> unchanged k (im_quant im) (im_quant im') (im_mcus im) (im_mcus im')) /\
  exists img img', decode_fresh true false (encode im) = Ok img /\ decode_fresh true false (encode im') = Ok img' /\
    pixel 4 10 8 9 img = [124; 127; 123; 125] /\ pixel 4 10 8 9 img' = [124; 134; 123; 125].
Proof.
  cbv zeta. split; [apply (enc_encodes (ch_four 3 (ch_q 10 20))); unfold ch_four, ch_q; ok_image|]. split; [apply (enc_encodes (ch_four 5 (ch_q (-7) 1))); unfold ch_four, ch_q; ok_image|]. split.
  - intros k Hk. unfold ch_four. cbn [im_quant im_mcus]. destruct k as [|[|[|[|k]]]].
    + apply (ch_one _ _ _ _ _ 2); [reflexivity|reflexivity|lia|reflexivity].
    + congruence.
    + apply (ch_one _ _ _ _ _ 3); [reflexivity|reflexivity|lia|reflexivity].
    + apply (ch_one _ _ _ _ _ 4); [reflexivity|reflexivity|lia|reflexivity].
    + apply ch_none. destruct k; reflexivity.
  - eexists. eexists. split; [vm_compute; reflexivity|]. split; [vm_compute; reflexivity|]. split; vm_compute; reflexivity.
Qed.
(** Changing the second or the third of three components. *)
Example C74_three_case :
  let im := ch_three 0 (ch_q 1 2) (ch_q 3 4) in let im1 := ch_three 0 (ch_q 9 2) (ch_q 3 4) in let im2 := ch_three 0 (ch_q 1 2) (ch_q 30 4) in
  image_ok im /\ image_ok im1 /\ image_ok im2 /\
  unchanged 0 (im_quant im) (im_quant im1) (im_mcus im) (im_mcus im1) /\ unchanged 2 (im_quant im) (im_quant im1) (im_mcus im) (im_mcus im1) /\
  unchanged 0 (im_quant im) (im_quant im2) (im_mcus im) (im_mcus im2) /\ unchanged 1 (im_quant im) (im_quant im2) (im_mcus im) (im_mcus im2) /\
  exists img img1 img2, decode_fresh true false (encode im) = Ok img /\ decode_fresh true false (encode im1) = Ok img1 /\ decode_fresh true false (encode im2) = Ok img2 /\
    pixel 3 8 3 2 img = [135; 134; 132] /\ pixel 3 8 3 2 img1 = [135; 131; 145] /\ pixel 3 8 3 2 img2 = [144; 129; 132].
Proof.
  cbv zeta. split; [unfold ch_three, ch_q; ok_image|]. split; [unfold ch_three, ch_q; ok_image|]. split; [unfold ch_three, ch_q; ok_image|]. unfold ch_three at 1 2 3 4 5 6 7 8 9 10 11 12 13 14 15 16. cbn [im_quant im_mcus].
  split; [apply (ch_one _ _ _ _ _ 8); [reflexivity|reflexivity|lia|reflexivity]|]. split; [apply (ch_one _ _ _ _ _ 2); [reflexivity|reflexivity|lia|reflexivity]|].
  split; [apply (ch_one _ _ _ _ _ 8); [reflexivity|reflexivity|lia|reflexivity]|]. split; [apply (ch_one _ _ _ _ _ 7); [reflexivity|reflexivity|lia|reflexivity]|].
  eexists. eexists. eexists. split; [vm_compute; reflexivity|]. split; [vm_compute; reflexivity|]. split; [vm_compute; reflexivity|]. split; [vm_compute; reflexivity|]. split; vm_compute; reflexivity.
Qed.

(** ** C75: brighter images *)
(** The second file is the first with the dequantised DC coefficients of a component raised by
    8 * n in every block.  With four components (which are output inverted) the byte of that
    component is lower by at most n, and lower by exactly n, down to 0, where it was below 255
    and the component is not subsampled.  The other bytes stay the same (C74). *)
Theorem C75_four_components_partial :
  forall dbg rayon segs segs' h h' fill1 fill2 fill1' fill2' ss ss' ts ts' qs qs' ms ms' data data' post post' fill3 fill3' img,
    let cs := fh_comps h in let lines := fh_lines h in let samples := fh_samples h in
    encodes segs h ss ts qs ms data -> encodes segs' h' ss' ts' qs' ms' data' -> post_ok post -> post_ok post' ->
    fh_lines h' = lines -> fh_samples h' = samples -> 0 < lines -> 0 < samples ->
    map (fun c => (cs_h c, cs_v c)) (fh_comps h') = map (fun c => (cs_h c, cs_v c)) cs ->
    last_transform (segs' ++ post') = last_transform (segs ++ post) ->
    let file := file_bytes segs fill1 fill2 (mkSpS ss 0 63 0 0) data post fill3 in
    let file' := file_bytes segs' fill1' fill2' (mkSpS ss' 0 63 0 0) data' post' fill3' in
    bytes file -> bytes file' -> decode_fresh dbg rayon file = Ok img ->
    forall n, lenZ cs = 4 -> 0 <= n ->
    exists img', decode_fresh dbg rayon file' = Ok img' /\
      forall k c y x, brightened n k qs qs' ms ms' -> nth_error cs k = Some c -> 0 <= y < lines -> 0 <= x < samples ->
        let a := nth k (pixel 4 samples y x img) 0 in let a' := nth k (pixel 4 samples y x img') 0 in
        a - n <= a' <= a /\ (full_component cs c -> a < 255 -> a' = Z.max 0 (a - n)).
Proof. exact brighter_four. Qed.
Print Assumptions C75_four_components_partial.

(** With three components and the luminance raised, every byte is higher by at most n, and all
    three by exactly n where none was 0 before and none is 255 after and the luminance is not
    subsampled. *)
Theorem C75_three_components_partial :
  forall dbg rayon segs segs' h h' fill1 fill2 fill1' fill2' ss ss' ts ts' qs qs' ms ms' data data' post post' fill3 fill3' img,
    let cs := fh_comps h in let lines := fh_lines h in let samples := fh_samples h in
    encodes segs h ss ts qs ms data -> encodes segs' h' ss' ts' qs' ms' data' -> post_ok post -> post_ok post' ->
    fh_lines h' = lines -> fh_samples h' = samples -> 0 < lines -> 0 < samples ->
    map (fun c => (cs_h c, cs_v c)) (fh_comps h') = map (fun c => (cs_h c, cs_v c)) cs ->
    last_transform (segs' ++ post') = last_transform (segs ++ post) ->
    let file := file_bytes segs fill1 fill2 (mkSpS ss 0 63 0 0) data post fill3 in
    let file' := file_bytes segs' fill1' fill2' (mkSpS ss' 0 63 0 0) data' post' fill3' in
    bytes file -> bytes file' -> decode_fresh dbg rayon file = Ok img ->
    forall n c0 c1 c2, cs = [c0; c1; c2] -> 0 <= n ->
    brightened n 0 qs qs' ms ms' -> unchanged 1 qs qs' ms ms' -> unchanged 2 qs qs' ms ms' ->
    exists img', decode_fresh dbg rayon file' = Ok img' /\
      forall y x, 0 <= y < lines -> 0 <= x < samples ->
        Forall2 (fun a a' => a <= a' <= a + n) (pixel 3 samples y x img) (pixel 3 samples y x img') /\
        (full_component cs c0 -> Forall (fun a => 0 < a) (pixel 3 samples y x img) -> Forall (fun a' => a' < 255) (pixel 3 samples y x img') ->
         Forall2 (fun a a' => a' = a + n) (pixel 3 samples y x img) (pixel 3 samples y x img')).
Proof. exact brighter_three. Qed.
Print Assumptions C75_three_components_partial.

(** The luminance raised by 20: 20 * 8 with the quantisation value 8. *)
Example C75_three_case :
  let im := ch_three 0 (ch_q 1 2) (ch_q 3 4) in let im' := ch_three 20 (ch_q 1 2) (ch_q 3 4) in
  image_ok im /\ image_ok im' /\ brightened 20 0 (im_quant im) (im_quant im') (im_mcus im) (im_mcus im') /\
  exists img img', decode_fresh true false (encode im) = Ok img /\ decode_fresh true false (encode im') = Ok img' /\
    pixel 3 8 3 2 img = [135; 134; 132] /\ pixel 3 8 3 2 img' = [155; 154; 152].
Proof.
  cbv zeta. split; [unfold ch_three, ch_q; ok_image|]. split; [unfold ch_three, ch_q; ok_image|]. split.
  - unfold ch_three. cbn [im_quant im_mcus]. intros q q' Eq Eq'. assert (q = repeat 8 64) by (cbn [nth_error] in Eq; congruence). assert (q' = repeat 8 64) by (cbn [nth_error] in Eq'; congruence). subst q q'.
    split; [|split].
    + apply Forall2_cons; [|apply Forall2_nil]. apply Forall2_cons; [|apply Forall2_nil]. intros [|i] Hi; [reflexivity|]. unfold coef, ch_q. cbn [nth q_dc q_ac]. destruct i; cbn [Nat.eqb]; lia.
    + intros m b [<-|[]] [<-|[]]. apply modest_small. vm_compute. discriminate.
    + intros m b [<-|[]] [<-|[]]. apply modest_small. vm_compute. discriminate.
  - eexists. eexists. split; [vm_compute; reflexivity|]. split; [vm_compute; reflexivity|]. split; vm_compute; reflexivity.
Qed.

(** For blocks that are not moderate it is false: raising the DC coefficient of a white block
    far enough makes it black (the table of clamped values is left, C34). *)
Definition ch_dc (d : Z) : image :=
  mkImage 8 8 [(1, 1); (1, 1); (1, 1)] (repeat (repeat 8 64) 3) [[[mkQ d (repeat 0 63)]; [mkQ 0 (repeat 0 63)]; [mkQ 0 (repeat 0 63)]]] None 0.
Theorem C75_refuted :
  exists im im' n img img', 0 < n /\ image_ok im /\ image_ok im' /\
    (forall q q', nth_error (im_quant im) 0 = Some q -> nth_error (im_quant im') 0 = Some q' -> brighter_component n 0 q q' (im_mcus im) (im_mcus im')) /\
    unchanged 1 (im_quant im) (im_quant im') (im_mcus im) (im_mcus im') /\ unchanged 2 (im_quant im) (im_quant im') (im_mcus im) (im_mcus im') /\
    decode_fresh true false (encode im) = Ok img /\ decode_fresh true false (encode im') = Ok img' /\
    pixel 3 8 0 0 img = [255; 255; 255] /\ pixel 3 8 0 0 img' = [0; 0; 0].
Proof.
  exists (ch_dc 500), (ch_dc 800), 300. eexists. eexists. split; [lia|]. split; [unfold ch_dc; ok_image|]. split; [unfold ch_dc; ok_image|]. unfold ch_dc at 1 2 3 4 5 6 7 8 9 10 11 12. cbn [im_quant im_mcus].
  split; [|split; [|split]].
  - intros q q' Eq Eq'. change (Some (repeat 8 64) = Some q) in Eq. change (Some (repeat 8 64) = Some q') in Eq'. assert (q = repeat 8 64) by congruence. assert (q' = repeat 8 64) by congruence. subst q q'.
    apply Forall2_cons; [|apply Forall2_nil]. apply Forall2_cons; [|apply Forall2_nil]. intros [|i] Hi; [reflexivity|]. unfold coef. cbn [nth q_dc q_ac]. destruct i; cbn [Nat.eqb]; lia.
  - apply (ch_one _ _ _ _ _ 8); [reflexivity|reflexivity|lia|reflexivity].
  - apply (ch_one _ _ _ _ _ 8); [reflexivity|reflexivity|lia|reflexivity].
  - split; [vm_compute; reflexivity|]. split; [vm_compute; reflexivity|]. split; vm_compute; reflexivity.
Qed.
Print Assumptions C75_refuted.
