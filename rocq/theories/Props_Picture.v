(** Pictures that have been transformed, quantised and encoded come back (C72). *)
From Coq Require Import Reals Lra.
From Verif Require Import Base SpecBits SpecReader SpecMarker SpecHuffman SpecBlock SpecTables SpecFrame SpecSegments SpecScan SpecPlane SpecUpsample SpecImage SpecColor SpecFile SpecAnswer SpecEncoder SpecDct SpecExact SpecFdct
  Huffman Decode EncoderP MosaicP FdctP2 PictureP.
Open Scope Z_scope.

(** ** C72, quantised pictures *)
(** A file without subsampling whose blocks are the samples of [p], transformed by the forward
    transform of T.81 A.3.3 and quantised by rounding (A.3.4).  [e] bounds half the square root
    of the sum of the squares of each quantisation table: 4 for a table of ones, at most 240.
    With four components and Adobe transform 0 every byte is within [1.9904 + 1.0014 e] of the
    inverted sample. *)
Theorem C72_quantised_cmyk : forall dbg rayon segs h fill1 fill2 ss ts qs ms data post fill3 p e,
  let lines := fh_lines h in let samples := fh_samples h in
  encodes segs h ss ts qs ms data -> (0 < lines)%Z -> (0 < samples)%Z -> full_resolution (fh_comps h) -> post_ok post ->
  (0 <= e <= 240)%R -> Forall (fun q => (table_energy q <= (2 * e) ^ 2)%R) qs -> (forall k y x, (0 <= p k y x <= 255)%R) ->
  quantised_picture p lines samples qs ms ->
  let file := file_bytes segs fill1 fill2 (mkSpS ss 0 63 0 0) data post fill3 in bytes file ->
  length (fh_comps h) = 4%nat -> adobes (segs ++ post) <> [] -> last (adobes (segs ++ post)) 1%Z = 0%Z ->
    exists img, decode_fresh dbg rayon file = Ok img /\ lenZ img = (4 * samples * lines)%Z /\
      forall y x, (0 <= y < lines)%Z -> (0 <= x < samples)%Z -> length (pixel 4 samples y x img) = 4%nat /\
        forall k, (k < 4)%nat -> (Rabs (IZR (nth k (pixel 4 samples y x img) 0%Z) - (255 - p k y x)) <= 1.9904 + 1.0014 * e)%R.
Proof. exact quantised_cmyk. Qed.
Print Assumptions C72_quantised_cmyk.

(** With three components the pixels are near the colours of the samples. *)
Theorem C72_quantised_ycbcr : forall dbg rayon segs h fill1 fill2 ss ts qs ms data post fill3 p e,
  let lines := fh_lines h in let samples := fh_samples h in
  encodes segs h ss ts qs ms data -> (0 < lines)%Z -> (0 < samples)%Z -> full_resolution (fh_comps h) -> post_ok post ->
  (0 <= e <= 240)%R -> Forall (fun q => (table_energy q <= (2 * e) ^ 2)%R) qs -> (forall k y x, (0 <= p k y x <= 255)%R) ->
  quantised_picture p lines samples qs ms ->
  let file := file_bytes segs fill1 fill2 (mkSpS ss 0 63 0 0) data post fill3 in bytes file ->
  length (fh_comps h) = 3%nat -> last (adobes (segs ++ post)) 1%Z <> 0%Z ->
    exists img, decode_fresh dbg rayon file = Ok img /\ lenZ img = (3 * samples * lines)%Z /\
      forall y x, (0 <= y < lines)%Z -> (0 <= x < samples)%Z ->
        let Y := p 0%nat y x in let Cb := p 1%nat y x in let Cr := p 2%nat y x in let d := (1.9904 + 1.0014 * e)%R in
        exists r g b, pixel 3 samples y x img = [r; g; b] /\
          (Rabs (IZR r - exact_red Y Cb Cr) <= / 2 + d + 1.402 * d)%R /\
          (Rabs (IZR g - exact_green Y Cb Cr) <= 0.5012 + d + 0.34414 * d + 0.71414 * d)%R /\
          (Rabs (IZR b - exact_blue Y Cb Cr) <= / 2 + d + 1.772 * d)%R.
Proof. exact quantised_ycbcr. Qed.
Print Assumptions C72_quantised_ycbcr.

(** ** C72, every picture has a file *)
(** For every CMYK picture of any size there are bytes that the decoder turns, in every build,
    into that picture with no byte off by more than 5. *)
Theorem C72_every_cmyk_picture : forall lines samples (p : nat -> Z -> Z -> Z),
  0 < lines < 65536 -> 0 < samples < 65536 -> (forall k y x, 0 <= p k y x <= 255) ->
  exists file, bytes file /\ forall dbg rayon, exists img, decode_fresh dbg rayon file = Ok img /\ lenZ img = 4 * samples * lines /\
    forall y x, 0 <= y < lines -> 0 <= x < samples -> length (pixel 4 samples y x img) = 4%nat /\
      forall k, (k < 4)%nat -> Z.abs (nth k (pixel 4 samples y x img) 0 - p k y x) <= 5.
Proof. exact every_cmyk. Qed.
Print Assumptions C72_every_cmyk_picture.

(** The same for RGB: 15, 13 and 18. *)
Theorem C72_every_rgb_picture : forall lines samples (p : nat -> Z -> Z -> Z),
  0 < lines < 65536 -> 0 < samples < 65536 -> (forall k y x, 0 <= p k y x <= 255) ->
  exists file, bytes file /\ forall dbg rayon, exists img, decode_fresh dbg rayon file = Ok img /\ lenZ img = 3 * samples * lines /\
    forall y x, 0 <= y < lines -> 0 <= x < samples -> exists r g b, pixel 3 samples y x img = [r; g; b] /\
      Z.abs (r - p 0%nat y x) <= 15 /\ Z.abs (g - p 1%nat y x) <= 13 /\ Z.abs (b - p 2%nat y x) <= 18.
Proof. exact every_rgb. Qed.
Print Assumptions C72_every_rgb_picture.

(** ** Cases *)
(** A picture with a different value almost everywhere, 200 lines of 300 samples. *)
Definition weave (k : nat) (y x : Z) : Z := (13 * y + 7 * x + y * x + 60 * Z.of_nat k) mod 256.
Example C72_every_picture_case : (forall k y x, 0 <= weave k y x <= 255) /\ weave 0 1 2 = 29 /\ weave 2 199 299 = 45.
Proof. split; [|split; reflexivity]. intros k y x. unfold weave. pose proof (Z.mod_pos_bound (13 * y + 7 * x + y * x + 60 * Z.of_nat k) 256 ltac:(lia)). lia. Qed.
(** Its blocks, rounded with a table of ones, meet the hypotheses of the theorems on quantised
    pictures. *)
Definition weave_real (k : nat) (y x : Z) : R := IZR (weave k y x).
Definition weave_image (n : nat) (t : option Z) : image := picture 200 300 n weave_real t.
Example C72_quantised_case : forall n t, n = 4%nat /\ t = Some 0 \/ n = 3%nat /\ t = None ->
  let im := weave_image n t in let h := enc_header im in
  encodes (enc_segs im) h (enc_ss im) (repeat enc_ts (length (im_factors im))) (im_quant im) (im_mcus im) (enc_data im) /\
  full_resolution (fh_comps h) /\ length (fh_comps h) = n /\ fh_lines h = 200 /\ fh_samples h = 300 /\
  Forall (fun q => (table_energy q <= (2 * 4) ^ 2)%R) (im_quant im) /\ (forall k y x, (0 <= weave_real k y x <= 255)%R) /\
  quantised_picture weave_real 200 300 (im_quant im) (im_mcus im) /\ bytes (encode im) /\ adobes (enc_segs im ++ []) = match t with Some v => [v] | None => [] end.
Proof.
  intros n t Hnt im h. assert (Hn : (1 <= n <= 4)%nat) by lia. assert (Ht : match t with Some v => 0 <= v <= 2 | None => True end) by (destruct Hnt as [[_ ->]|[_ ->]]; [lia|exact I]).
  assert (W : forall k y x, (0 <= weave_real k y x <= 255)%R) by (intros k y x; destruct C72_every_picture_case as [B _]; destruct (B k y x) as [B1 B2]; apply IZR_le in B1; apply IZR_le in B2; unfold weave_real; lra).
  assert (OK : image_ok im) by (apply picture_ok; auto; lia).
  split; [exact (enc_encodes im OK)|]. destruct (grid_full 200 300 n (repeat 1%Z 64) (fun r c k => rounded_block (fun i j => weave_real k (8 * r + Z.of_nat i)%Z (8 * c + Z.of_nat j)%Z)) t) as [F L].
  split; [exact F|]. split; [exact L|]. split; [reflexivity|]. split; [reflexivity|]. split; [apply picture_energy|]. split; [exact W|]. split; [apply picture_quantised; auto; lia|]. split; [exact (enc_bytes im OK)|].
  destruct Hnt as [[-> ->]|[-> ->]]; reflexivity.
Qed.
