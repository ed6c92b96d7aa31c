(** Images turned upside down by editing their coefficients (C73). *)
From Verif Require Import Base SpecBits SpecReader SpecMarker SpecHuffman SpecBlock SpecTables SpecFrame SpecSegments SpecScan SpecPlane SpecUpsample SpecImage SpecColor SpecFile SpecAnswer SpecEncoder SpecEdit SpecFlip
  Huffman Decode EncoderP FlipP FlipP2 FlipP3.

(** ** C73: upside down *)
(** The MCUs of the second file are those of the first in the opposite order of rows, and the
    coefficients of odd vertical frequency have the other sign.  If the number of lines is a
    multiple of 8 and all vertical sampling factors are 1, the image of the second file is that
    of the first upside down, without any difference, in both builds. *)
Theorem C73_upside_down_partial :
  forall dbg rayon segs h fill1 fill2 ss ts data post fill3 segs' h' fill1' fill2' ss' ts' data' post' fill3' qs ms ms' img,
    encodes segs h ss ts qs ms data -> encodes segs' h' ss' ts' qs ms' data' -> post_ok post -> post_ok post' ->
    let cs := fh_comps h in let lines := fh_lines h in let samples := fh_samples h in
    fh_lines h' = lines -> fh_samples h' = samples -> 0 < lines -> 0 < samples ->
    map (fun c => (cs_h c, cs_v c)) (fh_comps h') = map (fun c => (cs_h c, cs_v c)) cs ->
    last_transform (segs' ++ post') = last_transform (segs ++ post) ->
    Forall (fun c => cs_v c = 1) cs -> lines mod 8 = 0 -> flipped (mcus samples (largest (map cs_h cs))) (lines / 8) ms ms' ->
    let file := file_bytes segs fill1 fill2 (mkSpS ss 0 63 0 0) data post fill3 in
    let file' := file_bytes segs' fill1' fill2' (mkSpS ss' 0 63 0 0) data' post' fill3' in
    bytes file -> bytes file' -> decode_fresh dbg rayon file = Ok img ->
    exists img', decode_fresh dbg rayon file' = Ok img' /\
      forall y x, 0 <= y < lines -> 0 <= x < samples -> pixel (lenZ cs) samples y x img' = pixel (lenZ cs) samples (lines - 1 - y) x img.
Proof. exact flip_image. Qed.
Print Assumptions C73_upside_down_partial.

(** Every such image can be turned: [turn] makes an image that can be encoded, and decoding it
    gives the picture upside down. *)
Theorem C73_turn_partial :
  forall dbg rayon im img, image_ok im -> Forall (fun f => snd f = 1) (im_factors im) -> im_lines im mod 8 = 0 ->
    0 < im_lines im -> 0 < im_samples im -> decode_fresh dbg rayon (encode im) = Ok img ->
    image_ok (turn im) /\ flipped (mcus (im_samples im) (largest (map fst (im_factors im)))) (im_lines im / 8) (im_mcus im) (im_mcus (turn im)) /\
    exists img', decode_fresh dbg rayon (encode (turn im)) = Ok img' /\
      forall y x, 0 <= y < im_lines im -> 0 <= x < im_samples im ->
        pixel (lenZ (im_factors im)) (im_samples im) y x img' = pixel (lenZ (im_factors im)) (im_samples im) (im_lines im - 1 - y) x img.
Proof. exact (fun dbg rayon im img OK V M L S D => conj (turn_ok im OK V M) (conj (turn_flipped im M) (turn_image im OK V M dbg rayon img L S D))). Qed.
Print Assumptions C73_turn_partial.

(** An image of 16 x 17 pixels (two rows of three MCUs) with coefficients in odd and even rows. *)
Definition flip_q (dc a b : Z) : qblock := mkQ dc ([a; b; 0; 5; 0; 0; -3] ++ repeat 0 56).
Definition flip_case : image :=
  mkImage 16 17 [(1, 1); (1, 1); (1, 1)] [repeat 3 64; repeat 7 64; repeat 2 64]
    [[[flip_q 5 20 30]; [flip_q 1 2 3]; [flip_q 0 7 8]]; [[flip_q (-100) 0 60]; [flip_q 1 0 3]; [flip_q 4 0 1]]; [[flip_q 9 40 (-30)]; [flip_q 7 2 3]; [flip_q 0 7 0]];
     [[flip_q 50 10 (-7)]; [flip_q 9 8 7]; [flip_q 0 0 0]]; [[flip_q 80 0 6]; [flip_q 1 0 3]; [flip_q 4 0 40]]; [[flip_q 9 (-40) 3]; [flip_q 7 2 3]; [flip_q 0 7 0]]] None 2.
Lemma small_ok : forall l, forallb (fun v => (-32767 <=? v) && (v <=? 32767)) l = true -> Forall (fun v => -32767 <= v <= 32767) l.
Proof. intros l H. rewrite forallb_forall in H. apply Forall_forall. intros v I. specialize (H v I). lia. Qed.
Ltac ok_image :=
  split; cbn [im_lines im_samples im_factors im_quant im_mcus im_transform im_restart]; try lia; try reflexivity; try (cbn; lia); try exact I;
  [repeat apply Forall_cons; try apply Forall_nil; cbn; lia
  |repeat apply Forall_cons; try apply Forall_nil; (split; [reflexivity|]); apply Forall_forall; intros v H; apply repeat_spec in H; lia
  |repeat apply Forall_cons; try apply Forall_nil; repeat apply Forall2_cons; try apply Forall2_nil; reflexivity
  |repeat apply Forall_cons; try apply Forall_nil; (split; [cbn [q_dc]; lia|split; [reflexivity|apply small_ok; reflexivity]])].
Example C73_case : image_ok flip_case /\ Forall (fun f => snd f = 1) (im_factors flip_case) /\ im_lines flip_case mod 8 = 0 /\
  exists img, decode_fresh true false (encode flip_case) = Ok img /\ pixel 3 17 15 8 img = [133; 165; 142] /\ pixel 3 17 0 8 img <> pixel 3 17 15 8 img.
Proof.
  split; [unfold flip_case, flip_q; ok_image|]. split; [repeat constructor|]. split; [reflexivity|]. eexists. split; [vm_compute; reflexivity|]. split; [vm_compute; reflexivity|vm_compute; discriminate].
Qed.

(** ** What is not exact *)
(** Left and right: the mirrored block differs in some samples.  (The first pass of the inverse
    transform rounds halves upwards, whatever their sign.) *)
Definition mirror_q (c : Z) : qblock := mkQ 0 ([0; 0; 0; c] ++ repeat 0 59).
Definition no_q : qblock := mkQ 0 (repeat 0 63).
Definition mirror_im (c : Z) : image :=
  mkImage 8 8 [(1, 1); (1, 1); (1, 1); (1, 1)] (repeat (repeat 1 64) 4) [[[mirror_q c]; [no_q]; [no_q]; [no_q]]] (Some 0) 0.
Theorem C73_mirror_refuted :
  exists im im' m m' img img' y x,
    image_ok im /\ image_ok im' /\ im' = mkImage (im_lines im) (im_samples im) (im_factors im) (im_quant im) [m'] (im_transform im) (im_restart im) /\
    im_lines im = 8 /\ im_samples im = 8 /\ im_factors im = repeat (1, 1) 4 /\ im_mcus im = [m] /\ Forall2 (Forall2 mirrored_block) m m' /\
    decode_fresh true false (encode im) = Ok img /\ decode_fresh true false (encode im') = Ok img' /\
    0 <= y < 8 /\ 0 <= x < 8 /\ pixel 4 8 y x img' <> pixel 4 8 y (7 - x) img.
Proof.
  exists (mirror_im 512), (mirror_im (-512)), [[mirror_q 512]; [no_q]; [no_q]; [no_q]], [[mirror_q (-512)]; [no_q]; [no_q]; [no_q]].
  eexists. eexists. exists 3, 0.
  split; [unfold mirror_im, mirror_q, no_q; ok_image|]. split; [unfold mirror_im, mirror_q, no_q; ok_image|]. split; [reflexivity|]. split; [reflexivity|]. split; [reflexivity|]. split; [reflexivity|]. split; [reflexivity|].
  split; [repeat constructor; intros i Hi; do 64 (destruct i as [|i]; [reflexivity|]); lia|].
  split; [vm_compute; reflexivity|]. split; [vm_compute; reflexivity|]. split; [lia|]. split; [lia|]. vm_compute. discriminate.
Qed.
Print Assumptions C73_mirror_refuted.

(** But the difference is small.  If the columns of MCUs are put in the opposite order and the
    coefficients of odd horizontal frequency change sign, the number of columns is a multiple of
    8, all horizontal sampling factors are 1 and the blocks are moderate, then the image is the
    mirrored one up to 1 per byte with four components and up to 3 with three. *)
Theorem C73_mirror_partial :
  forall dbg rayon segs h fill1 fill2 ss ts data post fill3 segs' h' fill1' fill2' ss' ts' data' post' fill3' qs ms ms' img,
    encodes segs h ss ts qs ms data -> encodes segs' h' ss' ts' qs ms' data' -> post_ok post -> post_ok post' ->
    let cs := fh_comps h in let lines := fh_lines h in let samples := fh_samples h in
    fh_lines h' = lines -> fh_samples h' = samples -> 0 < lines -> 0 < samples ->
    map (fun c => (cs_h c, cs_v c)) (fh_comps h') = map (fun c => (cs_h c, cs_v c)) cs ->
    last_transform (segs' ++ post') = last_transform (segs ++ post) ->
    Forall (fun c => cs_h c = 1) cs -> samples mod 8 = 0 -> mirrored (samples / 8) (mcus lines (largest (map cs_v cs))) ms ms' -> all_modest qs ms ->
    let file := file_bytes segs fill1 fill2 (mkSpS ss 0 63 0 0) data post fill3 in
    let file' := file_bytes segs' fill1' fill2' (mkSpS ss' 0 63 0 0) data' post' fill3' in
    bytes file -> bytes file' -> decode_fresh dbg rayon file = Ok img ->
    exists img', decode_fresh dbg rayon file' = Ok img' /\
      forall y x, 0 <= y < lines -> 0 <= x < samples ->
        Forall2 (fun a b => Z.abs (a - b) <= if lenZ cs =? 4 then 1 else 3) (pixel (lenZ cs) samples y x img') (pixel (lenZ cs) samples y (samples - 1 - x) img).
Proof. exact mirror_image. Qed.
Print Assumptions C73_mirror_partial.
Example C73_mirror_case :
  let im := mirror_im 512 in let im' := mirror_im (-512) in
  encodes (enc_segs im) (enc_header im) (enc_ss im) (repeat enc_ts 4) (im_quant im) (im_mcus im) (enc_data im) /\
  encodes (enc_segs im') (enc_header im') (enc_ss im') (repeat enc_ts 4) (im_quant im) (im_mcus im') (enc_data im') /\
  Forall (fun c => cs_h c = 1) (fh_comps (enc_header im)) /\ mirrored 1 1 (im_mcus im) (im_mcus im') /\ all_modest (im_quant im) (im_mcus im) /\
  bytes (encode im) /\ bytes (encode im') /\ exists img, decode_fresh true false (encode im) = Ok img /\ pixel 4 8 3 0 img <> pixel 4 8 3 7 img.
Proof.
  assert (OK : forall c, -32767 <= c <= 32767 -> image_ok (mirror_im c)).
  { intros c Hc. split; cbn [im_lines im_samples im_factors im_quant im_mcus im_transform im_restart mirror_im]; try lia; try reflexivity; try (cbn; lia).
    - repeat apply Forall_cons; try apply Forall_nil; cbn; lia.
    - repeat apply Forall_cons; try apply Forall_nil; (split; [reflexivity|]); apply Forall_forall; intros v H; apply repeat_spec in H; lia.
    - repeat apply Forall_cons; try apply Forall_nil; repeat apply Forall2_cons; try apply Forall2_nil; reflexivity.
    - repeat apply Forall_cons; try apply Forall_nil; (split; [cbn; lia|split; [reflexivity|]]); try (apply small_ok; reflexivity).
      unfold mirror_q. cbn [q_ac]. apply Forall_app. split; [repeat constructor; lia|apply small_ok; reflexivity]. }
  assert (O1 := OK 512 ltac:(lia)). assert (O2 := OK (-512) ltac:(lia)). cbv zeta.
  split; [exact (enc_encodes _ O1)|]. split; [exact (enc_encodes _ O2)|]. split; [repeat constructor|].
  split; [intros r c Hr Hc; assert (r = 0) by lia; assert (c = 0) by lia; subst; repeat constructor; intros i Hi; do 64 (destruct i as [|i]; [reflexivity|]); lia|].
  split.
  { intros m k q bs [<-|[]] Eq Eb. assert (q = repeat 1 64) by exact (repeat_spec 4 (repeat 1 64) q (nth_error_In _ _ Eq)). subst q. clear Eq.
    do 4 (destruct k as [|k]; [injection Eb as <-; constructor; [apply modest_small; vm_compute; discriminate|constructor]|]). destruct k; discriminate Eb. }
  split; [exact (enc_bytes _ O1)|]. split; [exact (enc_bytes _ O2)|]. eexists. split; [vm_compute; reflexivity|]. vm_compute. discriminate.
Qed.

(** A block of black and white noise is of this kind: the absolute values of its coefficients add
    up to 6656. *)
Definition noise_q : qblock :=
  mkQ 4 [0; -5; -9; -5; -2; -7; -7; -1; 5; 8; -6; -1; -9; 12; 3; -9; -12; -4; -7; 4; -1; 5; 0; -7; 13; 9; 5; 18; -1; 2; -10; -9; 8; 0; -6; -22; 17; 0; -8; 5; 5; -10; -2; -10; 3; 9; 5; 9; 3; -10; 8; 0; 6; 7; -9; -1; 6; -4; 5; -10; 1; 16; -11].
Example C73_modest_case : modest (repeat 16 64) noise_q /\ fold_right Z.add 0 (map (fun i => Z.abs (coef noise_q i * nth i (repeat 16 64) 0)) (seq 0 64)) = 6656.
Proof. split; [apply modest_check; vm_compute; reflexivity|vm_compute; reflexivity]. Qed.

(** With vertical factors of 2 (an MCU is two blocks high) pairs of lines show the same row, so
    the turned image differs. *)
Definition tall_im (a b : qblock) : image :=
  mkImage 16 8 [(1, 2); (1, 2); (1, 2); (1, 2)] (repeat (repeat 1 64) 4) [[[a; b]; [no_q; no_q]; [no_q; no_q]; [no_q; no_q]]] (Some 0) 0.
Definition tall_q (a : Z) : qblock := mkQ 0 ([0; a] ++ repeat 0 61).
Theorem C73_tall_refuted :
  exists im im' a b a' b' z img img' y x,
    image_ok im /\ image_ok im' /\ im = tall_im a b /\ im' = tall_im b' a' /\ z = no_q /\ upside_down a a' /\ upside_down b b' /\ upside_down z z /\
    decode_fresh true false (encode im) = Ok img /\ decode_fresh true false (encode im') = Ok img' /\
    0 <= y < 16 /\ 0 <= x < 8 /\ pixel 4 8 y x img' <> pixel 4 8 (15 - y) x img.
Proof.
  exists (tall_im (tall_q 512) (tall_q 200)), (tall_im (tall_q (-200)) (tall_q (-512))), (tall_q 512), (tall_q 200), (tall_q (-512)), (tall_q (-200)), no_q.
  eexists. eexists. exists 0, 0.
  split; [unfold tall_im, tall_q, no_q; ok_image|]. split; [unfold tall_im, tall_q, no_q; ok_image|]. split; [reflexivity|]. split; [reflexivity|]. split; [reflexivity|].
  split; [intros i Hi; do 64 (destruct i as [|i]; [reflexivity|]); lia|]. split; [intros i Hi; do 64 (destruct i as [|i]; [reflexivity|]); lia|]. split; [intros i Hi; do 64 (destruct i as [|i]; [reflexivity|]); lia|].
  split; [vm_compute; reflexivity|]. split; [vm_compute; reflexivity|]. split; [lia|]. split; [lia|]. vm_compute. discriminate.
Qed.
Print Assumptions C73_tall_refuted.
