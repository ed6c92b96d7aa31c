(** The conversion for YCCK (C36). *)
From Verif Require Import Base SpecBits SpecColor Idct Color Types ColorP YcckP.

(** C36, YCCK.  Given three lines the conversion writes the colours of the samples to the first
    three bytes of every pixel and inverts the fourth, which it finds in the output. *)
Theorem C36_ycck_line :
  forall (dbg : bool) (width : nat) (data y cb cr : list Z) (ty tb tc : plane), bytes y -> bytes cb -> bytes cr -> length data = (4 * width)%nat ->
    length y = width -> length cb = width -> length cr = width ->
    exists line, color_convert dbg CYcck data [line_of y ++ ty; line_of cb ++ tb; line_of cr ++ tc] = Ok line /\
      length line = (4 * width)%nat /\
      forall i, (i < width)%nat -> exists rgb, firstn 4 (skipn (4 * i) line) = rgb ++ [255 - nth (4 * i + 3) data 0] /\
        rgb_pixel (nth i y 0) (nth i cb 0) (nth i cr 0) rgb.
Proof. exact convert_ycck. Qed.
Print Assumptions C36_ycck_line.

(** But an image of four components has four lines, on which it panics, whatever they hold. *)
Theorem C36_ycck_never_refuted :
  forall (dbg : bool) (t : adobe) (data : list Z) (a b c e : plane), t <> AdobeUnknown ->
    exists f, choose_color_convert_func 4 (Some t) = Ok f /\ color_convert dbg f data [a; b; c; e] = Panic PAssert.
Proof. exact ycck_four. Qed.
Print Assumptions C36_ycck_never_refuted.

Example C36_ycck_case :
  color_convert true CYcck [0; 0; 0; 10; 0; 0; 0; 255] [line_of [200; 16]; line_of [30; 128]; line_of [220; 128; 7]] =
    Ok [255; 168; 26; 245; 16; 16; 16; 0] /\ AdobeYCCK <> AdobeUnknown.
Proof. split; [reflexivity|discriminate]. Qed.
