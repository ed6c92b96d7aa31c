(** C35 and C36: colour conversion. *)
From Verif Require Import Base SpecBits SpecColor SpecFrame SpecSegments Clamp Idct Color Types Upsampler Parsers Decode ColorP.

(** C35.  [ycbcr_to_rgb] never reads outside its tables ([Ok]), in both build profiles. *)
Theorem C35_bt601 :
  forall (dbg : bool) (y cb cr : Z), is_byte y -> is_byte cb -> is_byte cr ->
    exists r g b, ycbcr_to_rgb dbg y cb cr = Ok (r, g, b) /\
      rounds_to 0 (bt_r y cb cr) r /\ rounds_to 120 (bt_g y cb cr) g /\ rounds_to 0 (bt_b y cb cr) b.
Proof. exact ycbcr_bt601. Qed.
Print Assumptions C35_bt601.

(** The exact result, which has no ties left open. *)
Theorem C35_fixed :
  forall (dbg : bool) (y cb cr : Z), is_byte y -> is_byte cb -> is_byte cr ->
    exists r g b, ycbcr_to_rgb dbg y cb cr = Ok (r, g, b) /\ [r; g; b] = rgb_fixed y cb cr.
Proof. exact ycbcr_fixed. Qed.
Print Assumptions C35_fixed.

(** The factors are those of BT.601 to within half a unit of 2^-16. *)
Example C35_factors : Forall (fun p => Z.abs (2 * (fst p * 100000 - snd p * 65536)) <= 100000) [(91881, 140200); (22554, 34414); (46802, 71414); (116130, 177200)].
Proof. repeat constructor; cbn; lia. Qed.
Example C35_case : ycbcr_to_rgb true 200 30 220 = Ok (255, 168, 26) /\ bt_g 200 30 220 = 16802484.
Proof. split; reflexivity. Qed.

(** C36, three components that are not marked as RGB: every pixel of a line is converted
    from the samples of its column; [v] is what the output line held before. *)
Theorem C36_ycbcr_line :
  forall (dbg : bool) (t : option adobe) (width : nat) (y cb cr : list Z),
    t <> Some AdobeUnknown -> bytes y -> bytes cb -> bytes cr ->
    length y = width -> length cb = width -> length cr = width ->
    exists f line, choose_color_convert_func 3 t = Ok f /\
      (forall v ty tb tc,
         color_convert dbg f (repeat v (3 * width)) [line_of y ++ ty; line_of cb ++ tb; line_of cr ++ tc] = Ok line) /\
      length line = (3 * width)%nat /\
      forall i, (i < width)%nat ->
        rgb_pixel (nth i y 0) (nth i cb 0) (nth i cr 0) (firstn 3 (skipn (3 * i) line)).
Proof. exact convert_ycbcr. Qed.
Print Assumptions C36_ycbcr_line.

(** C36, four components with Adobe transform 0: inverted. *)
Theorem C36_cmyk_line :
  forall (dbg : bool) (width : nat) (c m y k : list Z),
    length c = width -> length m = width -> length y = width -> length k = width ->
    exists f line, choose_color_convert_func 4 (Some AdobeUnknown) = Ok f /\
      (forall v tc tm ty tk,
         color_convert dbg f (repeat v (4 * width)) [line_of c ++ tc; line_of m ++ tm; line_of y ++ ty; line_of k ++ tk] = Ok line) /\
      length line = (4 * width)%nat /\
      forall i, (i < width)%nat ->
        firstn 4 (skipn (4 * i) line) = [255 - nth i c 0; 255 - nth i m 0; 255 - nth i y 0; 255 - nth i k 0].
Proof. exact convert_cmyk. Qed.
Print Assumptions C36_cmyk_line.

Example C36_case :
  color_convert true CYcbcr (repeat 0 6) [line_of [200; 16]; line_of [30; 128]; line_of [220; 128; 7]] =
    Ok [255; 168; 26; 16; 16; 16] /\
  color_convert true CCmyk (repeat 0 4) [line_of [200]; line_of [30]; line_of [220]; line_of [0]] = Ok [55; 225; 35; 255].
Proof. split; reflexivity. Qed.

(** C36, four components without an Adobe marker: decoding ends in an error. *)
Theorem C36_no_adobe_error :
  forall (dbg rayon : bool) (d : decoder) (fr : frame),
    d_frame d = Some fr -> lenZ (f_components fr) = 4 -> d_color d = None ->
    upsample_image dbg rayon d = Fail EAdobeMissing.
Proof. intros dbg rayon d fr F L C. unfold upsample_image. rewrite F, L, C. reflexivity. Qed.
Print Assumptions C36_no_adobe_error.

(** An 8x8 image without subsampling. *)
Definition flat_image (n : nat) (t : adobe) (v : Z) : decoder :=
  let cs := map (fun i => mkCS (Z.of_nat i) 1 1 0) (seq 0 n) in
  set_color (set_planes (set_frame decoder_default (Some (frame_of 0 8 8 8 cs))) (repeat (repeat (Some v) 64) n)) (Some t).
Example C36_no_adobe_case : lenZ (f_components (frame_of 0 8 8 8 (map (fun i => mkCS (Z.of_nat i) 1 1 0) (seq 0 4)))) = 4.
Proof. reflexivity. Qed.

(** RGB images (transform 0) come out black whatever their samples are. *)
Theorem C36_rgb_unchanged_refuted :
  exists d : decoder, d_color d = Some AdobeUnknown /\ d_planes d = repeat (repeat (Some 77) 64) 3 /\
    forall dbg rayon, upsample_image dbg rayon d = Ok (repeat 0 192).
Proof.
  exists (flat_image 3 AdobeUnknown 77). split; [reflexivity|]. split; [reflexivity|].
  intros [] []; vm_compute; reflexivity.
Qed.
Print Assumptions C36_rgb_unchanged_refuted.

(** YCCK images cannot be decoded. *)
Theorem C36_ycck_refuted :
  exists d : decoder, d_color d = Some AdobeYCCK /\ length (d_planes d) = 4%nat /\
    forall dbg rayon, upsample_image dbg rayon d = Panic PAssert.
Proof.
  exists (flat_image 4 AdobeYCCK 77). split; [reflexivity|]. split; [reflexivity|].
  intros [] []; vm_compute; reflexivity.
Qed.
Print Assumptions C36_ycck_refuted.
