(** Outcomes that more input does not change (C80). *)
From Verif Require Import Base SpecBits SpecColor SpecBlock SpecFrame SpecSegments SpecScan SpecImage SpecFile SpecGlobal SpecStream Biterator Types Decode FinalP Samples Props_Answer Props_Stream.

(** ** C80: an error or a panic is final *)
(** Decoding [a] reports an error other than the end of the input, or panics.  Then decoding
    [a] with any bytes [s] behind it does the same, with two exceptions: an error found when
    the image is drawn, at the end-of-image marker, becomes the panic of C43; and "out of
    bits" may go away if one of the tables passed has end-of-band runs. *)
Theorem C80_final_partial :
  forall dbg rayon d a s, reachable dbg rayon d -> bytes a -> bytes s ->
    let o := snd (decode dbg rayon d a) in let o' := snd (decode dbg rayon d (a ++ s)) in
    o <> Fail EEof -> (forall img, o <> Ok img) ->
    o' = o \/
    s <> [] /\ o' = Panic PAssert /\ (o = Fail EUnsupported \/ o = Fail EAdobeMissing) \/
    o = Fail EOutOfBits /\ exists p e b, from dbg false rayon (PcMarker, d, biter_new a) (p, e, b) /\ has_eob_runs e.
Proof. exact final. Qed.
Print Assumptions C80_final_partial.

(** ** C80: the exceptions *)
(** A sampling ratio that is not whole is an error, but with one more byte a panic.  A
    progressive-style table: an error goes away, and the whole input gives an image. *)
Definition ratio_cs := [mkCS 1 3 1 0; mkCS 2 2 1 0; mkCS 3 1 1 0].
Definition ratio_file : list Z := flat_file 1 3 ratio_cs [0x49; 0x24; 0xBF].
Theorem C80_refuted :
  forall rayon,
    (forall dbg, decode_fresh dbg rayon ratio_file = Fail EUnsupported /\ decode_fresh dbg rayon (ratio_file ++ [0]) = Panic PAssert) /\
    (forall dbg, decode_fresh dbg rayon (eob_head ++ eob_scan1) = Fail EOutOfBits /\ decode_fresh dbg rayon ((eob_head ++ eob_scan1) ++ eob_scan2) = Ok [0; 135; 0]).
Proof. intros [|]; split; intros [|]; split; vm_compute; reflexivity. Qed.
Print Assumptions C80_refuted.

(** An unknown marker, and an end-of-image marker without a frame. *)
Example C80_case : forall dbg rayon,
  decode_fresh dbg rayon [255; 0xD8; 255; 0xC9] = Fail EMarker /\ decode_fresh dbg rayon [255; 0xD8; 255; 0xC9; 255; 0xD9] = Fail EMarker /\
  decode_fresh dbg rayon [255; 0xD8; 255; 0xD9] = Panic PUnwrap /\ decode_fresh dbg rayon [255; 0xD8; 255; 0xD9; 255; 0xD8] = Panic PUnwrap.
Proof. intros [|] [|]; repeat split; vm_compute; reflexivity. Qed.
