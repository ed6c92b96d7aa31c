(** Decoding after encoding (C70) and pictures made of tiles (C71). *)
From Verif Require Import Base SpecBits SpecReader SpecMarker SpecHuffman SpecBlock SpecTables SpecFrame SpecSegments SpecScan SpecPlane SpecUpsample SpecImage SpecColor SpecFile SpecAnswer SpecEncoder SpecMosaic Huffman Decode EncoderP EncoderP2 MosaicP.

(** ** C70: decoding after encoding *)
(** [encode] is a function from images (quantised coefficients, quantisation tables, sampling
    factors, size, Adobe transform, restart interval) to bytes.  Whatever the image, the decoder
    answers its file with the planes that the coefficients stand for ([final_answer]: the image,
    or the refusal or panic that size and sampling factors lead to). *)
Theorem C70_decode_encode :
  forall dbg rayon im, image_ok im -> 0 < im_lines im -> 0 < im_samples im ->
    let cs := enc_comps 0 (im_factors im) in
    exists ps, length ps = length cs /\
      (forall k c, nth_error cs k = Some c ->
         exists q p, nth_error (im_quant im) k = Some q /\ nth_error ps k = Some p /\ plane_from (im_lines im) (im_samples im) cs (im_mcus im) k c q p) /\
      final_answer rayon (im_lines im) (im_samples im) cs ps (im_transform im) (decode_fresh dbg rayon (encode im)).
Proof. exact encoded_answer. Qed.
Print Assumptions C70_decode_encode.

(** Without lines or columns. *)
Theorem C70_empty :
  forall dbg rayon im, image_ok im -> im_lines im = 0 \/ im_samples im = 0 ->
    empty_answer (im_lines im) (im_samples im) (enc_comps 0 (im_factors im)) (im_transform im) (decode_fresh dbg rayon (encode im)).
Proof. exact encoded_empty. Qed.
Print Assumptions C70_empty.

(** The encoder writes bytes, and a file in the sense of the other properties. *)
Theorem C70_encodes :
  forall im, image_ok im -> bytes (encode im) /\
    encode im = file_bytes (enc_segs im) 0 0 (mkSpS (enc_ss im) 0 63 0 0) (enc_data im) [] 0 /\
    encodes (enc_segs im) (enc_header im) (enc_ss im) (repeat enc_ts (length (im_factors im))) (im_quant im) (im_mcus im) (enc_data im).
Proof. exact (fun im OK => conj (enc_bytes im OK) (conj eq_refl (enc_encodes im OK))). Qed.
Print Assumptions C70_encodes.

(** Any other file of the same image decodes like the encoder's. *)
Theorem C70_canonical :
  forall dbg rayon im segs h fill1 fill2 ss ts data post fill3, image_ok im ->
    encodes segs h ss ts (im_quant im) (im_mcus im) data -> post_ok post -> fh_lines h = im_lines im -> fh_samples h = im_samples im ->
    map (fun c => (cs_h c, cs_v c)) (fh_comps h) = im_factors im -> last_transform (segs ++ post) = im_transform im ->
    let file := file_bytes segs fill1 fill2 (mkSpS ss 0 63 0 0) data post fill3 in bytes file ->
    decode_fresh dbg rayon file = decode_fresh dbg rayon (encode im).
Proof. exact encoded_same. Qed.
Print Assumptions C70_canonical.

(** A 4:2:0 image of 17 x 1 pixels with a restart marker between its two MCUs: coefficients of
    both signs, a run of more than sixteen zeros. *)
Definition enc_q (dc : Z) (i : nat) (v : Z) : qblock := mkQ dc (repeat 0 i ++ [v] ++ repeat 0 (62 - i)).
Definition enc_case : image :=
  mkImage 1 17 [(2, 2); (1, 1); (1, 1)] [repeat 3 64; repeat 500 64; repeat 7 64]
    [[[enc_q 5 0 (-1); enc_q (-1024) 20 900; enc_q 1023 62 1; enc_q 0 1 2]; [enc_q (-3) 3 4]; [enc_q 9 40 (-32767)]];
     [[enc_q 1 0 (-1); enc_q 0 20 3; enc_q 2 62 1; enc_q 0 1 2]; [enc_q (-3) 3 4]; [enc_q 9 40 7]]] None 1.
Example C70_case : image_ok enc_case /\ 0 < im_lines enc_case /\ 0 < im_samples enc_case.
Proof.
  split; [|cbn; lia]. split; cbn [im_lines im_samples im_factors im_quant im_mcus im_transform im_restart enc_case]; try lia; try reflexivity; try (cbn; lia); try exact I.
  - repeat apply Forall_cons; try apply Forall_nil; cbn; lia.
  - repeat apply Forall_cons; try apply Forall_nil; (split; [reflexivity|]); apply Forall_forall; intros v H; apply repeat_spec in H; lia.
  - repeat apply Forall_cons; try apply Forall_nil; repeat apply Forall2_cons; try apply Forall2_nil; reflexivity.
  - repeat apply Forall_cons; try apply Forall_nil;
      (unfold q_ok, enc_q; cbn [q_dc q_ac]; split; [lia|split; [reflexivity|]]; apply Forall_app; split; [|apply Forall_app; split; [constructor; [lia|constructor]|]]; apply Forall_forall; intros v H; apply repeat_spec in H; lia).
Qed.
(** The same image can be written without restart markers. *)
Example C70_canonical_case :
  let im := enc_case in let im' := mkImage 1 17 (im_factors im) (im_quant im) (im_mcus im) None 0 in
  image_ok im' /\ encodes (enc_segs im) (enc_header im) (enc_ss im) (repeat enc_ts 3) (im_quant im') (im_mcus im') (enc_data im) /\ encode im <> encode im'.
Proof.
  destruct C70_case as [OK _]. split; [|split].
  - destruct OK. split; auto. cbn. lia.
  - exact (enc_encodes _ OK).
  - intros E. assert (L : length (encode enc_case) = length (encode (mkImage 1 17 (im_factors enc_case) (im_quant enc_case) (im_mcus enc_case) None 0))) by (rewrite E; reflexivity). clear E. vm_compute in L. discriminate L.
Qed.

(** ** C71: pictures made of tiles *)
(** Every picture of 8x8 tiles in any inks, of any size, is exactly what some file decodes to,
    in both builds. *)
Theorem C71_cmyk_tiles :
  forall dbg rayon lines samples ink, 0 < lines < 65536 -> 0 < samples < 65536 -> (forall r c k, 0 <= ink r c k <= 255) ->
    exists img, decode_fresh dbg rayon (encode (mosaic lines samples 4 (fun r c k => 255 - ink r c k) (Some 0))) = Ok img /\ lenZ img = 4 * samples * lines /\
      forall y x, 0 <= y < lines -> 0 <= x < samples -> pixel 4 samples y x img = map (ink (y / 8) (x / 8)) [0; 1; 2; 3]%nat.
Proof. exact mosaic_cmyk. Qed.
Print Assumptions C71_cmyk_tiles.

(** In YCbCr the pixels have the colours that the conversion gives for the tiles. *)
Theorem C71_ycbcr_tiles :
  forall dbg rayon lines samples colour, 0 < lines < 65536 -> 0 < samples < 65536 -> (forall r c k, 0 <= colour r c k <= 255) ->
    exists img, decode_fresh dbg rayon (encode (mosaic lines samples 3 colour None)) = Ok img /\ lenZ img = 3 * samples * lines /\
      forall y x, 0 <= y < lines -> 0 <= x < samples ->
        pixel 3 samples y x img = rgb_fixed (colour (y / 8) (x / 8) 0%nat) (colour (y / 8) (x / 8) 1%nat) (colour (y / 8) (x / 8) 2%nat).
Proof. exact mosaic_ycbcr. Qed.
Print Assumptions C71_ycbcr_tiles.

(** A picture of 300 x 200 pixels with a different ink in every tile. *)
Definition many_inks (r c : Z) (k : nat) : Z := (13 * r + 7 * c + 60 * Z.of_nat k) mod 256.
Example C71_case : (forall r c k, 0 <= many_inks r c k <= 255) /\ many_inks 1 2 3 = 207 /\ many_inks 24 37 0 = 59.
Proof. split; [|split; reflexivity]. intros r c k. unfold many_inks. pose proof (Z.mod_pos_bound (13 * r + 7 * c + 60 * Z.of_nat k) 256 ltac:(lia)). lia. Qed.
