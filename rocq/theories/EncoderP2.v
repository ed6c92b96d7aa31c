(** Decoding what the encoder writes (C70). *)
From Verif Require Import Base Tactics SpecBits SpecMarker SpecHuffman SpecBlock SpecTables SpecFrame SpecSegments SpecScan SpecPlane SpecUpsample SpecImage SpecColor SpecFile SpecAnswer SpecEncoder Huffman Decode.
From Verif Require Import AnswerP3 EmptyP TransP EncoderP MosaicP.

Lemma enc_transform : forall im, last_transform (enc_segs im ++ []) = im_transform im.
Proof. intros im. rewrite app_nil_r. unfold last_transform, enc_segs. destruct (im_transform im); reflexivity. Qed.
Lemma encoded_answer : forall dbg rayon im, image_ok im -> 0 < im_lines im -> 0 < im_samples im ->
  let cs := enc_comps 0 (im_factors im) in
  exists ps, length ps = length cs /\
    (forall k c, nth_error cs k = Some c -> exists q p, nth_error (im_quant im) k = Some q /\ nth_error ps k = Some p /\ plane_from (im_lines im) (im_samples im) cs (im_mcus im) k c q p) /\
    final_answer rayon (im_lines im) (im_samples im) cs ps (im_transform im) (decode_fresh dbg rayon (encode im)).
Proof.
  intros dbg rayon im OK P1 P2 cs. destruct (file_answer dbg rayon (enc_segs im) (enc_header im) 0 0 (enc_ss im) _ (im_quant im) (im_mcus im) (enc_data im) [] 0 (enc_encodes im OK) P1 P2 no_post (enc_bytes im OK)) as (ps & L & PL & A).
  rewrite enc_transform in A. exists ps. auto.
Qed.
Lemma encoded_empty : forall dbg rayon im, image_ok im -> im_lines im = 0 \/ im_samples im = 0 ->
  empty_answer (im_lines im) (im_samples im) (enc_comps 0 (im_factors im)) (im_transform im) (decode_fresh dbg rayon (encode im)).
Proof.
  intros dbg rayon im OK Z0. pose proof (empty_file dbg rayon (enc_segs im) (enc_header im) 0 0 (enc_ss im) _ (im_quant im) (im_mcus im) (enc_data im) [] 0 (enc_encodes im OK) Z0 no_post (enc_bytes im OK)) as A.
  rewrite enc_transform in A. exact A.
Qed.
Lemma encoded_same : forall dbg rayon im segs h fill1 fill2 ss ts data post fill3, image_ok im ->
  encodes segs h ss ts (im_quant im) (im_mcus im) data -> post_ok post -> fh_lines h = im_lines im -> fh_samples h = im_samples im ->
  map (fun c => (cs_h c, cs_v c)) (fh_comps h) = im_factors im -> last_transform (segs ++ post) = im_transform im ->
  let file := file_bytes segs fill1 fill2 (mkSpS ss 0 63 0 0) data post fill3 in bytes file ->
  decode_fresh dbg rayon file = decode_fresh dbg rayon (encode im).
Proof.
  intros dbg rayon im segs h fill1 fill2 ss ts data post fill3 OK En PO E1 E2 E3 E4 file B.
  refine (same_answer dbg rayon (enc_segs im) (enc_header im) 0 0 (enc_ss im) _ (enc_data im) [] 0 segs h fill1 fill2 ss ts data post fill3 (im_quant im) (im_mcus im) (enc_encodes im OK) En no_post PO E1 E2 _ _ (enc_bytes im OK) B).
  - rewrite E3. cbn [enc_header fh_comps]. generalize 0 at 1. generalize (im_factors im). induction l as [|[a b] l IH]; intros i; [reflexivity|]. cbn [enc_comps map cs_h cs_v]. rewrite <- IH. reflexivity.
  - rewrite enc_transform. exact E4.
Qed.
