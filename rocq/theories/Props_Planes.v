(** Pictures with subsampled components that have been transformed, quantised and encoded come
    back (C72). *)
From Coq Require Import Reals Lra.
From Verif Require Import Base SpecBits SpecReader SpecMarker SpecHuffman SpecBlock SpecTables SpecFrame SpecSegments SpecScan SpecPlane SpecUpsample SpecImage SpecColor SpecFile SpecAnswer SpecEncoder SpecDct SpecExact SpecFdct SpecPlanes
  Huffman Decode EncoderP PictureP PlanesP PlanesP2.
Open Scope R_scope.

(** ** C72, quantised planes *)
(** A file with any sampling factors (that divide the largest ones, and with a width the
    upsampler accepts) whose blocks are the samples of the planes [p], transformed by the
    forward transform of T.81 A.3.3 and quantised by rounding (A.3.4).  [e k] bounds half the
    Euclidean norm of the table of component [k].  The pixels are near the colours of the
    interpolated planes: the samples are off by at most [1.9904 + 1.0014 e] and the rounding of
    the interpolation. *)
Theorem C72_planes_ycbcr : forall dbg rayon segs h fill1 fill2 ss ts qs ms data post fill3 p e,
  let cs := fh_comps h in let lines := fh_lines h in let samples := fh_samples h in
  encodes segs h ss ts qs ms data -> (0 < lines)%Z -> (0 < samples)%Z -> Forall (whole_ratios cs) cs -> Forall (width_works lines samples cs) cs -> post_ok post ->
  (forall k, 0 <= e k <= 240) -> (forall k q, nth_error qs k = Some q -> table_energy q <= (2 * e k) ^ 2) -> (forall k y x, 0 <= p k y x <= 255) ->
  quantised_planes p lines samples cs qs ms ->
  let file := file_bytes segs fill1 fill2 (mkSpS ss 0 63 0 0) data post fill3 in bytes file ->
  forall c0 c1 c2, fh_comps h = [c0; c1; c2] -> (last (adobes (segs ++ post)) 1 <> 0)%Z ->
    exists img, decode_fresh dbg rayon file = Ok img /\ (lenZ img = 3 * samples * lines)%Z /\
      forall y x, (0 <= y < lines)%Z -> (0 <= x < samples)%Z ->
        let row := shown_row rayon (largest (map cs_v cs)) y in
        let Y := comp_picture lines samples cs c0 (p 0%nat) row x in
        let Cb := comp_picture lines samples cs c1 (p 1%nat) row x in
        let Cr := comp_picture lines samples cs c2 (p 2%nat) row x in
        let d0 := 1.9904 + 1.0014 * e 0%nat + interpolation lines samples cs c0 in
        let d1 := 1.9904 + 1.0014 * e 1%nat + interpolation lines samples cs c1 in
        let d2 := 1.9904 + 1.0014 * e 2%nat + interpolation lines samples cs c2 in
        exists r g b, pixel 3 samples y x img = [r; g; b] /\
          Rabs (IZR r - exact_red Y Cb Cr) <= / 2 + d0 + 1.402 * d2 /\
          Rabs (IZR g - exact_green Y Cb Cr) <= 0.5012 + d0 + 0.34414 * d1 + 0.71414 * d2 /\
          Rabs (IZR b - exact_blue Y Cb Cr) <= / 2 + d0 + 1.772 * d1.
Proof. exact planes_ycbcr. Qed.
Print Assumptions C72_planes_ycbcr.

Theorem C72_planes_cmyk : forall dbg rayon segs h fill1 fill2 ss ts qs ms data post fill3 p e,
  let cs := fh_comps h in let lines := fh_lines h in let samples := fh_samples h in
  encodes segs h ss ts qs ms data -> (0 < lines)%Z -> (0 < samples)%Z -> Forall (whole_ratios cs) cs -> Forall (width_works lines samples cs) cs -> post_ok post ->
  (forall k, 0 <= e k <= 240) -> (forall k q, nth_error qs k = Some q -> table_energy q <= (2 * e k) ^ 2) -> (forall k y x, 0 <= p k y x <= 255) ->
  quantised_planes p lines samples cs qs ms ->
  let file := file_bytes segs fill1 fill2 (mkSpS ss 0 63 0 0) data post fill3 in bytes file ->
  length (fh_comps h) = 4%nat -> adobes (segs ++ post) <> [] -> (last (adobes (segs ++ post)) 1 = 0)%Z ->
    exists img, decode_fresh dbg rayon file = Ok img /\ (lenZ img = 4 * samples * lines)%Z /\
      forall y x, (0 <= y < lines)%Z -> (0 <= x < samples)%Z ->
        let row := shown_row rayon (largest (map cs_v cs)) y in
        length (pixel 4 samples y x img) = 4%nat /\
        forall k c, nth_error cs k = Some c ->
          Rabs (IZR (nth k (pixel 4 samples y x img) 0%Z) - (255 - comp_picture lines samples cs c (p k) row x)) <=
            1.9904 + 1.0014 * e k + interpolation lines samples cs c.
Proof. exact planes_cmyk. Qed.
Print Assumptions C72_planes_cmyk.

(** ** C72, encoding and decoding *)
(** The encoder of SpecPlanes.v makes such files, with any sampling factors, tables and restart
    interval, of all planes. *)
Theorem C72_planes_encoder : forall p lines samples factors qs transform restart,
  (0 < lines < 65536)%Z -> (0 < samples < 65536)%Z -> (1 <= lenZ factors <= 4)%Z ->
  Forall (fun f => 1 <= fst f <= 4 /\ 1 <= snd f <= 4)%Z factors -> (fold_right (fun f n => fst f * snd f + n) 0 factors <= 10)%Z ->
  length qs = length factors -> Forall (fun q => length q = 64%nat /\ Forall (fun s => (1 <= s < 65536)%Z) q) qs ->
  (forall k y x, 0 <= p k y x <= 255) -> match transform with Some t => (0 <= t <= 2)%Z | None => True end -> (0 <= restart < 65536)%Z ->
  let im := planes_image p lines samples factors qs transform restart in
  image_ok im /\ quantised_planes p lines samples (fh_comps (enc_header im)) qs (im_mcus im).
Proof.
  exact (fun p lines samples factors qs transform restart Hl Hs Hn Hf Ht Hk Hq Hp Hr Hi =>
    conj (planes_ok p lines samples factors qs transform restart Hl Hs Hn Hf Ht Hk Hq Hp Hr Hi)
         (planes_quantised p lines samples factors qs transform restart Hl Hs Hn Hf Hk Hq)).
Qed.
Print Assumptions C72_planes_encoder.

(** Decoding what it has encoded. *)
Theorem C72_round_trip : forall dbg rayon p lines samples f0 f1 f2 qs transform restart (e : nat -> R),
  let factors := [f0; f1; f2] in let cs := enc_comps 0 factors in
  (0 < lines < 65536)%Z -> (0 < samples < 65536)%Z -> Forall (fun f => 1 <= fst f <= 4 /\ 1 <= snd f <= 4)%Z factors ->
  (fst f0 * snd f0 + fst f1 * snd f1 + fst f2 * snd f2 <= 10)%Z -> Forall (whole_ratios cs) cs -> Forall (width_works lines samples cs) cs ->
  length qs = 3%nat -> Forall (fun q => length q = 64%nat /\ Forall (fun s => (1 <= s < 65536)%Z) q) qs ->
  (transform = None \/ transform = Some 1 \/ transform = Some 2)%Z -> (0 <= restart < 65536)%Z ->
  (forall k y x, 0 <= p k y x <= 255) -> (forall k, 0 <= e k <= 240) -> (forall k q, nth_error qs k = Some q -> table_energy q <= (2 * e k) ^ 2) ->
  exists img, decode_fresh dbg rayon (encode (planes_image p lines samples factors qs transform restart)) = Ok img /\ (lenZ img = 3 * samples * lines)%Z /\
    forall y x, (0 <= y < lines)%Z -> (0 <= x < samples)%Z ->
      let row := shown_row rayon (largest (map cs_v cs)) y in
      let shows k := comp_picture lines samples cs (nth k cs (mkCS 0 1 1 0)) (p k) row x in
      let d k := 1.9904 + 1.0014 * e k + interpolation lines samples cs (nth k cs (mkCS 0 1 1 0)) in
      let Y := shows 0%nat in let Cb := shows 1%nat in let Cr := shows 2%nat in
      exists r g b, pixel 3 samples y x img = [r; g; b] /\
        Rabs (IZR r - exact_red Y Cb Cr) <= / 2 + d 0%nat + 1.402 * d 2%nat /\
        Rabs (IZR g - exact_green Y Cb Cr) <= 0.5012 + d 0%nat + 0.34414 * d 1%nat + 0.71414 * d 2%nat /\
        Rabs (IZR b - exact_blue Y Cb Cr) <= / 2 + d 0%nat + 1.772 * d 1%nat.
Proof. exact round_trip. Qed.
Print Assumptions C72_round_trip.

(** ** Case *)
(** 4:2:0, 75 lines of 101 samples, a different value almost everywhere; steps of 1 for the
    luminance and of 16 for the chrominance, a restart marker after every third MCU. *)
Definition woven (k : nat) (y x : Z) : R := IZR ((13 * y + 7 * x + y * x + 60 * Z.of_nat k) mod 256).
Definition woven_norm (k : nat) : R := match k with O => 4 | _ => 64 end.
Example C72_round_trip_case :
  let cs := enc_comps 0 [(2, 2); (1, 1); (1, 1)]%Z in let qs := [repeat 1%Z 64; repeat 16%Z 64; repeat 16%Z 64] in
  Forall (whole_ratios cs) cs /\ Forall (width_works 75 101 cs) cs /\ Forall (fun q => length q = 64%nat /\ Forall (fun s => (1 <= s < 65536)%Z) q) qs /\
  (forall k y x, 0 <= woven k y x <= 255) /\ (forall k, 0 <= woven_norm k <= 240) /\
  (forall k q, nth_error qs k = Some q -> table_energy q <= (2 * woven_norm k) ^ 2) /\
  map (h_ratio 101 cs) cs = [1; 2; 2]%Z /\ map (v_ratio 75 cs) cs = [1; 2; 2]%Z.
Proof.
  cbv zeta. split; [|split; [|split; [|split; [|split; [|split; [|split; reflexivity]]]]]].
  - repeat constructor.
  - repeat constructor; try discriminate; cbn; intros [A|A]; exfalso; revert A; vm_compute; discriminate.
  - repeat (apply Forall_cons; [split; [reflexivity|apply Forall_forall; intros s I; apply repeat_spec in I; lia]|]). constructor.
  - intros k y x. unfold woven. pose proof (Z.mod_pos_bound (13 * y + 7 * x + y * x + 60 * Z.of_nat k) 256 ltac:(lia)) as [A B]. split; apply IZR_le; lia.
  - intros [|k]; cbn; lra.
  - assert (R : forall s q, q = repeat s 64 -> table_energy q = 64 * IZR s ^ 2).
    { intros s q ->. unfold table_energy. let z := eval vm_compute in zigzag in change zigzag with z. unfold rsum8. cbn [at_position Nat.eqb andb repeat]. ring. }
    intros [|[|[|k]]] q E; cbn [nth_error] in E; [| | |destruct k; discriminate E]; injection E as E; rewrite (R _ q (eq_sym E)); cbn [woven_norm]; lra.
Qed.
