(** C52: what a scan shows is its own. *)
From Verif Require Import Base SpecBits SpecReader SpecMarker SpecSegments SpecHeader SpecGlobal SpecFile SpecLimits SpecPixels Types Parsers Decode Samples PixelsP.

(** Two decoders that differ at most in the pixels of earlier images and the state of earlier
    scans give the same answer to every input in which a scan marker follows the header
    segments, whatever comes after that marker. *)
Theorem C52_own_pixels_partial :
  forall dbg rayon d d' fill1 segs fill2 rest, reachable dbg rayon d -> reachable dbg rayon d' -> same_settings d d' ->
    Forall (fun s => hseg_ok (snd s)) segs ->
    let input := marker_bytes fill1 0xD8 ++ flat_map hseg_bytes segs ++ marker_bytes fill2 0xDA ++ rest in bytes input ->
    snd (decode dbg rayon d input) = snd (decode dbg rayon d' input).
Proof. exact own_pixels. Qed.
Print Assumptions C52_own_pixels_partial.

(** Two files of one pixel with the same header; the decoders that have read them differ in
    their pixels only.  Asked for nothing they show different pixels; given a scan, the same. *)
Definition file_a : list Z := eob_head ++ [64; 2; 0; 16; 0; 255; 217].
Definition file_b : list Z := eob_head ++ [63; 242; 0; 15; 252; 255; 217].
Definition later : list Z := [0xFF; 0xD8] ++ tiny_sos ++ [64; 2; 0; 15; 252; 255; 217].
Example C52_own_pixels_case :
  let a := decoder_after true false [file_a] in let b := decoder_after true false [file_b] in
  reachable true false a /\ reachable true false b /\ same_settings a b /\ d_planes a <> d_planes b /\
  snd (decode true false a [0xFF; 0xD8; 0xFF; 0xD9]) = Ok [255; 121; 255] /\
  snd (decode true false b [0xFF; 0xD8; 0xFF; 0xD9]) = Ok [0; 48; 225] /\
  snd (decode true false a later) = Ok [76; 255; 255] /\ snd (decode true false b later) = Ok [76; 255; 255] /\
  exists rest, later = marker_bytes 0 0xD8 ++ flat_map hseg_bytes [] ++ marker_bytes 0 0xDA ++ rest /\ bytes later.
Proof.
  assert (B : forall l, forallb (fun x => (0 <=? x) && (x <? 256)) l = true -> bytes l).
  { intros l H. rewrite forallb_forall in H. apply Forall_forall. intros x I. apply H in I. unfold is_byte. lia. }
  split; [apply (reused _ _ _ file_a); [constructor|apply B; vm_compute; reflexivity]|].
  split; [apply (reused _ _ _ file_b); [constructor|apply B; vm_compute; reflexivity]|].
  split; [repeat split; vm_compute; reflexivity|]. split; [vm_compute; discriminate|].
  split; [vm_compute; reflexivity|]. split; [vm_compute; reflexivity|]. split; [vm_compute; reflexivity|]. split; [vm_compute; reflexivity|].
  eexists. split; [reflexivity|apply B; vm_compute; reflexivity].
Qed.
