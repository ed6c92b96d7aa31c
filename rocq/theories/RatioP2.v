(** Images with other sampling factors of the same ratios: the files of C90. *)
From Verif Require Import Base Tactics SpecBits SpecReader SpecMarker Biterator Huffman Marker Types Parsers Idct Upsampler Decode SpecGlobal SpecStream.
From Verif Require Import SpecHuffman SpecBlock SpecTables SpecFrame SpecSegments SpecScan SpecPlane SpecUpsample SpecImage SpecColor SpecFile SpecAnswer SpecIdct SpecFlat SpecEncoder SpecEdit SpecFlip SpecChannel SpecRatio.
From Verif Require Import ChannelP TransP RatioP.

Lemma ratio_lines :
  forall dbg rayon segs segs' h h' fill1 fill2 fill1' fill2' ss ss' ts ts' qs ms ms' data data' post post' fill3 fill3' img img',
    let cs := fh_comps h in let cs' := fh_comps h' in let lines := fh_lines h in let samples := fh_samples h in
    let vm := largest (map cs_v cs) in let vm' := largest (map cs_v cs') in
    encodes segs h ss ts qs ms data -> encodes segs' h' ss' ts' qs ms' data' -> post_ok post -> post_ok post' ->
    fh_lines h' = lines -> fh_samples h' = samples -> 0 < lines -> 0 < samples ->
    same_ratios cs cs' -> same_blocks lines samples cs cs' ms ms' ->
    last_transform (segs' ++ post') = last_transform (segs ++ post) ->
    let file := file_bytes segs fill1 fill2 (mkSpS ss 0 63 0 0) data post fill3 in
    let file' := file_bytes segs' fill1' fill2' (mkSpS ss' 0 63 0 0) data' post' fill3' in
    bytes file -> bytes file' -> decode_fresh dbg rayon file = Ok img -> decode_fresh dbg rayon file' = Ok img' ->
    forall y y0 x, 0 <= y < lines -> 0 <= y0 < lines -> 0 <= x < samples ->
      (if rayon then y / vm' = y0 / vm else y / vm' * vm' = y0 / vm * vm) ->
      pixel (lenZ cs) samples y x img' = pixel (lenZ cs) samples y0 x img.
Proof.
  intros dbg rayon segs segs' h h' fill1 fill2 fill1' fill2' ss ss' ts ts' qs ms ms' data data' post post' fill3 fill3' img img' cs cs' lines samples vm vm' En En' PO PO' El Es L0 S0 SR SB Et file file' B B' D D' y y0 x Hy Hy0 Hx Hv.
  apply (ratio_pixels dbg rayon segs segs' h h' fill1 fill2 fill1' fill2' ss ss' ts ts' qs ms ms' data data' post post' fill3 fill3' img img' En En' PO PO' El Es L0 S0 SR SB Et B B' D D' y y0 x Hy Hy0 Hx).
  fold cs cs'. fold vm vm'. unfold shown_row. destruct rayon; exact Hv.
Qed.
Lemma ratio_files :
  forall dbg rayon segs segs' h h' fill1 fill2 fill1' fill2' ss ss' ts ts' qs ms ms' data data' post post' fill3 fill3' img img',
    let cs := fh_comps h in let cs' := fh_comps h' in let lines := fh_lines h in let samples := fh_samples h in
    let vm := largest (map cs_v cs) in let vm' := largest (map cs_v cs') in
    encodes segs h ss ts qs ms data -> encodes segs' h' ss' ts' qs ms' data' -> post_ok post -> post_ok post' ->
    fh_lines h' = lines -> fh_samples h' = samples -> 0 < lines -> 0 < samples ->
    same_ratios cs cs' -> same_blocks lines samples cs cs' ms ms' ->
    last_transform (segs' ++ post') = last_transform (segs ++ post) ->
    let file := file_bytes segs fill1 fill2 (mkSpS ss 0 63 0 0) data post fill3 in
    let file' := file_bytes segs' fill1' fill2' (mkSpS ss' 0 63 0 0) data' post' fill3' in
    bytes file -> bytes file' -> decode_fresh dbg rayon file = Ok img -> decode_fresh dbg rayon file' = Ok img' ->
    forall y x, 0 <= y < lines -> 0 <= x < samples ->
      vm' = vm \/ rayon = false /\ y mod vm = 0 /\ y mod vm' = 0 ->
      pixel (lenZ cs) samples y x img' = pixel (lenZ cs) samples y x img.
Proof.
  intros dbg rayon segs segs' h h' fill1 fill2 fill1' fill2' ss ss' ts ts' qs ms ms' data data' post post' fill3 fill3' img img' cs cs' lines samples vm vm' En En' PO PO' El Es L0 S0 SR SB Et file file' B B' D D' y x Hy Hx Hv.
  apply (ratio_pixels dbg rayon segs segs' h h' fill1 fill2 fill1' fill2' ss ss' ts ts' qs ms ms' data data' post post' fill3 fill3' img img' En En' PO PO' El Es L0 S0 SR SB Et B B' D D' y y x Hy Hy Hx).
  fold cs cs'. fold vm vm'. unfold shown_row. destruct Hv as [->|[-> [H1 H2]]]; [reflexivity|].
  assert (F : forall n, y mod n = 0 -> y / n * n = y). { intros n Hn. destruct (Z.eq_dec n 0) as [->|N]; [rewrite Zmod_0_r in Hn; subst; reflexivity|]. pose proof (Z.div_mod y n N). lia. }
  rewrite (F vm H1), (F vm' H2). reflexivity.
Qed.

Lemma padding_files :
  forall dbg rayon segs segs' h h' fill1 fill2 fill1' fill2' ss ss' ts ts' qs ms ms' data data' post post' fill3 fill3' img,
    let cs := fh_comps h in let cs' := fh_comps h' in let lines := fh_lines h in let samples := fh_samples h in
    encodes segs h ss ts qs ms data -> encodes segs' h' ss' ts' qs ms' data' -> post_ok post -> post_ok post' ->
    fh_lines h' = lines -> fh_samples h' = samples -> 0 < lines -> 0 < samples ->
    map (fun c => (cs_h c, cs_v c)) cs' = map (fun c => (cs_h c, cs_v c)) cs -> same_blocks lines samples cs cs' ms ms' ->
    last_transform (segs' ++ post') = last_transform (segs ++ post) ->
    let file := file_bytes segs fill1 fill2 (mkSpS ss 0 63 0 0) data post fill3 in
    let file' := file_bytes segs' fill1' fill2' (mkSpS ss' 0 63 0 0) data' post' fill3' in
    bytes file -> bytes file' -> decode_fresh dbg rayon file = Ok img ->
    exists img', decode_fresh dbg rayon file' = Ok img' /\
      forall y x, 0 <= y < lines -> 0 <= x < samples -> pixel (lenZ cs) samples y x img' = pixel (lenZ cs) samples y x img.
Proof.
  intros dbg rayon segs segs' h h' fill1 fill2 fill1' fill2' ss ss' ts ts' qs ms ms' data data' post post' fill3 fill3' img cs cs' lines samples En En' PO PO' El Es L0 S0 Ef SB Et file file' B B' D.
  destruct (two_files dbg rayon segs segs' h h' fill1 fill2 fill1' fill2' ss ss' ts ts' qs qs ms ms' data data' post post' fill3 fill3' img En En' PO PO' El Es L0 S0 Ef Et B B' D) as [img' [D' _]].
  exists img'. split; [exact D'|]. intros y x Hy Hx.
  assert (Eh : map cs_h cs' = map cs_h cs) by (rewrite <- !(map_map (fun c => (cs_h c, cs_v c)) fst), Ef; reflexivity).
  assert (Ev : map cs_v cs' = map cs_v cs) by (rewrite <- !(map_map (fun c => (cs_h c, cs_v c)) snd), Ef; reflexivity).
  refine (ratio_files dbg rayon segs segs' h h' fill1 fill2 fill1' fill2' ss ss' ts ts' qs ms ms' data data' post post' fill3 fill3' img img' En En' PO PO' El Es L0 S0 _ SB Et B B' D D' y x Hy Hx _).
  - fold cs cs'. unfold same_ratios. rewrite Eh, Ev. generalize (largest (map cs_h cs)), (largest (map cs_v cs)). clear - Ef. clearbody cs cs'. revert cs' Ef.
    induction cs as [|c cs IH]; intros [|c' cs'] Ef a b; try discriminate Ef; constructor; cbn [map] in Ef; injection Ef as E1 E2 E3; [rewrite E1, E2; auto|apply IH; exact E3].
  - left. fold cs cs'. rewrite Ev. reflexivity.
Qed.
