(** The pixels that damage leaves alone (C60). *)
From Verif Require Import Base SpecBits SpecReader SpecMarker SpecHuffman SpecBlock SpecTables SpecFrame SpecSegments SpecScan SpecPlane SpecUpsample SpecImage SpecColor SpecFile SpecAnswer SpecLimits SpecDamage SpecEdit SpecLocal SpecIntact
  Biterator Huffman Types Decode IntactP Props_Scan Props_Damage.

(** A file and the same file with damaged scan data.  The damaged one is an error or an image,
    and in the image a pixel is as before if its MCU can still be read and no component is
    subsampled; with subsampled components, and in every build, it is as before if the MCUs of
    all pixels at most one line away from the row that is shown and at most one column away can
    still be read. *)
Theorem C60_intact_pixels :
  forall dbg rayon segs h fill1 fill2 ss ts qs ms0 data0 known data post fill3 img,
    encodes segs h ss ts qs ms0 data0 -> scan_part ts (last (dris segs) 0) 0 known data -> agrees known ms0 -> post_ok post ->
    let cs := fh_comps h in let lines := fh_lines h in let samples := fh_samples h in let vm := largest (map cs_v cs) in 0 < lines -> 0 < samples ->
    let whole := file_bytes segs fill1 fill2 (mkSpS ss 0 63 0 0) data0 post fill3 in
    let damaged := file_bytes segs fill1 fill2 (mkSpS ss 0 63 0 0) data post fill3 in bytes whole -> bytes damaged ->
    decode_fresh dbg rayon whole = Ok img ->
    (exists e, decode_fresh dbg rayon damaged = Fail e) \/
    exists img', decode_fresh dbg rayon damaged = Ok img' /\
      forall y x, 0 <= y < lines -> 0 <= x < samples ->
        full_resolution cs /\ (rayon = false \/ vm = 1) /\ intact samples cs known y x \/
        (let row := shown_row rayon vm y in
         forall y2 x2, 0 <= y2 < lines -> 0 <= x2 < samples -> row - 1 <= y2 <= row + 1 -> x - 1 <= x2 <= x + 1 -> intact samples cs known y2 x2) ->
        pixel (lenZ cs) samples y x img' = pixel (lenZ cs) samples y x img.
Proof. exact intact_pixels. Qed.
Print Assumptions C60_intact_pixels.

(** The file of C60_case: the pixel of the second MCU is intact, those of the first are not. *)
Example C60_intact_case :
  encodes ex_segs ex_h ex_ss [ex_ts; ex_ts; ex_ts] [ex_q; ex_q; ex_q] [ex_m1; ex_m2] ex_data /\
  scan_part [ex_ts; ex_ts; ex_ts] (last (dris ex_segs) 0) 0 [None; Some ex_m2] (hurt (stuff [0x80])) /\ agrees [None; Some ex_m2] [ex_m1; ex_m2] /\
  full_resolution ex_cs /\ intact 9 ex_cs [None; Some ex_m2] 0 8 /\ ~ intact 9 ex_cs [None; Some ex_m2] 0 7 /\
  bytes (hurt_file ex_data1) /\ bytes (hurt_file [0x80]) /\
  match decode_fresh true false (hurt_file [0x80]), decode_fresh true false (hurt_file ex_data1) with
  | Ok img', Ok img => pixel 3 9 0 8 img' = pixel 3 9 0 8 img /\ pixel 3 9 0 7 img' <> pixel 3 9 0 7 img
  | _, _ => False
  end.
Proof.
  split; [exact ex_encodes|]. destruct C60_case as [P [A _]]. split; [apply P; byte_list|]. split; [exact A|]. split; [repeat constructor|].
  split; [exists ex_m2; reflexivity|]. split; [intros [m E]; discriminate E|].
  assert (G : forall l, forallb (fun b => (0 <=? b) && (b <? 256)) l = true -> bytes l) by (intros l G; apply Forall_forall; intros b I; rewrite forallb_forall in G; specialize (G b I); unfold is_byte; lia).
  split; [apply G; vm_compute; reflexivity|]. split; [apply G; vm_compute; reflexivity|]. vm_compute. split; [reflexivity|discriminate].
Qed.
