(** Files without (all of) their scan data (C59). *)
From Verif Require Import Base SpecBits SpecReader SpecMarker SpecHuffman SpecFrame SpecScan SpecFile Decode BombP.

(** The size of the image is not bounded by the size of the input: for every width and height
    that a frame header can hold there is a file of 146 bytes that decodes to an image of that
    size. (Its scan has no data; the bit reader goes on with zero bits at the marker.) *)
Theorem C59_refuted :
  forall dbg rayon lines samples, 0 < lines < 65536 -> 0 < samples < 65536 ->
    exists input img, bytes input /\ length input = 146%nat /\ decode_fresh dbg rayon input = Ok img /\ lenZ img = 3 * lines * samples.
Proof. exact small_file. Qed.
Print Assumptions C59_refuted.

(** So no bound in terms of the number of bytes of the input holds up to the largest image. *)
Theorem C59_factor_refuted :
  forall dbg rayon, exists input img, bytes input /\ decode_fresh dbg rayon input = Ok img /\ lenZ img > 88000000 * lenZ input.
Proof. exact small_file_factor. Qed.
Print Assumptions C59_factor_refuted.

(** The files are the same except for the four bytes of the size. *)
Example C59_file : z_file 300 500 =
  [255; 216; 255; 219; 0; 67; 0] ++ repeat 1 64 ++ [255; 192; 0; 17; 8; 1; 44; 1; 244; 3; 1; 17; 0; 2; 17; 0; 3; 17; 0;
   255; 196; 0; 38; 0; 1] ++ repeat 0 16 ++ [16; 1] ++ repeat 0 16 ++ [255; 218; 0; 12; 3; 1; 0; 2; 0; 3; 0; 0; 63; 0; 255; 217].
Proof. vm_compute. reflexivity. Qed.
Example C59_case : forall dbg rayon, decode_fresh dbg rayon (z_file 2 9) = Ok (repeat 128 54).
Proof. intros [] []; vm_compute; reflexivity. Qed.
