(** Distance between decoded images and the images the files stand for (C62). *)
From Coq Require Import Reals Lra.
From Verif Require Import Base SpecBits SpecMarker SpecHuffman SpecBlock SpecFrame SpecSegments SpecUpsample SpecScan SpecFile SpecImage SpecPlane SpecDct SpecIdct SpecExact Huffman Decode IdctReal ExactP Props_Scan Props_Answer.
Open Scope R_scope.

(** C62, components of full resolution.  [spectrum], [idct_real] and [level] give the exact
    samples from the coefficients and quantisation values in the file; [exact_red], ... the
    colours.  No byte of the image is off by three or more. *)
Theorem C62_full_resolution : forall dbg rayon segs h fill1 fill2 ss ts qs ms data post fill3,
  encodes segs h ss ts qs ms data -> length (fh_comps h) = 3%nat ->
  let cs := fh_comps h in let lines := fh_lines h in let samples := fh_samples h in
  (0 < lines)%Z -> (0 < samples)%Z -> full_resolution cs -> post_ok post ->
  (last (adobes (segs ++ post)) 1 <> 0)%Z -> spectra_within 1472 ms qs ->
  let file := file_bytes segs fill1 fill2 (mkSpS ss 0 63 0 0) data post fill3 in bytes file ->
  exists img, decode_fresh dbg rayon file = Ok img /\ (lenZ img = 3 * samples * lines)%Z /\
    forall y x, (0 <= y < lines)%Z -> (0 <= x < samples)%Z ->
      let exact k := level (idct_real (spectrum (block_444 ms samples k y x) (nth k qs [])) (Z.to_nat (y mod 8)) (Z.to_nat (x mod 8))) in
      exists r g b, pixel 3 samples y x img = [r; g; b] /\
        Rabs (IZR r - exact_red (exact 0%nat) (exact 1%nat) (exact 2%nat)) < 3 /\
        Rabs (IZR g - exact_green (exact 0%nat) (exact 1%nat) (exact 2%nat)) < 3 /\
        Rabs (IZR b - exact_blue (exact 0%nat) (exact 1%nat) (exact 2%nat)) < 3.
Proof. exact file_near_full. Qed.
Print Assumptions C62_full_resolution.

(** C62, any sampling factors for which an image comes out (C45), with the error as a
    function of the largest magnitude [M].  The exact samples may leave 0..255, but not so far
    that the decoder no longer limits them (C34; with a magnitude up to 1472 they do not); [interpolation] adds a half for components that
    are interpolated.  The row is that of C40. *)
Theorem C62_any_sampling : forall dbg rayon segs h fill1 fill2 ss ts qs ms data post fill3 c0 c1 c2 M,
  encodes segs h ss ts qs ms data -> fh_comps h = [c0; c1; c2] ->
  let cs := fh_comps h in let lines := fh_lines h in let samples := fh_samples h in
  (0 < lines)%Z -> (0 < samples)%Z -> Forall (whole_ratios cs) cs -> Forall (width_works lines samples cs) cs -> post_ok post ->
  (last (adobes (segs ++ post)) 1 <> 0)%Z -> 0 <= M <= 65536 -> spectra_within M ms qs -> samples_in_reach ms qs ->
  let file := file_bytes segs fill1 fill2 (mkSpS ss 0 63 0 0) data post fill3 in bytes file ->
  exists q0 q1 q2 img, qs = [q0; q1; q2] /\ decode_fresh dbg rayon file = Ok img /\ (lenZ img = 3 * samples * lines)%Z /\
    forall y x, (0 <= y < lines)%Z -> (0 <= x < samples)%Z ->
      let row := shown_row rayon (largest (map cs_v cs)) y in
      let Y := comp_exact lines samples cs ms 0 c0 q0 row x in
      let Cb := comp_exact lines samples cs ms 1 c1 q1 row x in
      let Cr := comp_exact lines samples cs ms 2 c2 q2 row x in
      let e := fun c => 5 / 8 + M / 6000 + interpolation lines samples cs c in
      exists r g b, pixel 3 samples y x img = [r; g; b] /\
        Rabs (IZR r - exact_red Y Cb Cr) <= / 2 + e c0 + 1.402 * e c2 /\
        Rabs (IZR g - exact_green Y Cb Cr) <= 0.5012 + e c0 + 0.34414 * e c1 + 0.71414 * e c2 /\
        Rabs (IZR b - exact_blue Y Cb Cr) <= / 2 + e c0 + 1.772 * e c1.
Proof. exact file_near. Qed.
Print Assumptions C62_any_sampling.

(** C62, four components with Adobe transform 0 (inverted CMYK). *)
Theorem C62_cmyk : forall dbg rayon segs h fill1 fill2 ss ts qs ms data post fill3 c0 c1 c2 c3 M,
  encodes segs h ss ts qs ms data -> fh_comps h = [c0; c1; c2; c3] ->
  let cs := fh_comps h in let lines := fh_lines h in let samples := fh_samples h in
  (0 < lines)%Z -> (0 < samples)%Z -> Forall (whole_ratios cs) cs -> Forall (width_works lines samples cs) cs -> post_ok post ->
  adobes (segs ++ post) <> [] -> (last (adobes (segs ++ post)) 1 = 0)%Z -> 0 <= M <= 65536 -> spectra_within M ms qs -> samples_in_reach ms qs ->
  let file := file_bytes segs fill1 fill2 (mkSpS ss 0 63 0 0) data post fill3 in bytes file ->
  exists img, decode_fresh dbg rayon file = Ok img /\ (lenZ img = 4 * samples * lines)%Z /\
    forall y x, (0 <= y < lines)%Z -> (0 <= x < samples)%Z ->
      let row := shown_row rayon (largest (map cs_v cs)) y in
      length (pixel 4 samples y x img) = 4%nat /\
      forall k c q v, nth_error cs k = Some c -> nth_error qs k = Some q -> nth_error (pixel 4 samples y x img) k = Some v ->
        Rabs (IZR v - (255 - comp_exact lines samples cs ms k c q row x)) <= 5 / 8 + M / 6000 + interpolation lines samples cs c.
Proof. exact file_near_cmyk. Qed.
Print Assumptions C62_cmyk.

(** ** Cases *)
Definition spectrum_total (b : qblock) (q : list Z) : Z :=
  sum8 (fun u => sum8 (fun v => Z.abs (at_position zigzag (q_dc b :: q_ac b) v u * at_position zigzag q v u))).
Lemma magnitude_spectrum : forall b q, magnitude (spectrum b q) = IZR (spectrum_total b q).
Proof.
  intros b q. unfold magnitude, spectrum_total. rewrite rsum8_IZR. apply rsum8_ext. intros u _. rewrite rsum8_IZR. apply rsum8_ext. intros v _.
  unfold spectrum. rewrite abs_IZR. reflexivity.
Qed.
Example C62_case :
  encodes ex_segs ex_h ex_ss [ex_ts; ex_ts; ex_ts] [ex_q; ex_q; ex_q] [ex_m1; ex_m2] ex_data /\
  full_resolution (fh_comps ex_h) /\ post_ok ex_post /\ (last (adobes (ex_segs ++ ex_post)) 1 <> 0)%Z /\
  spectra_within 1472 [ex_m1; ex_m2] [ex_q; ex_q; ex_q] /\ bytes (file_bytes ex_segs 0 1 (mkSpS ex_ss 0 63 0 0) ex_data ex_post 2).
Proof.
  destruct C45_case as (E & _ & _ & P & B & _). split; [exact E|]. split; [repeat constructor|]. split; [exact P|]. split; [discriminate|]. split; [|exact B].
  intros m k q b Im Iq Ib. rewrite magnitude_spectrum. apply IZR_le.
  destruct k as [|[|[|k]]]; try (destruct k; discriminate Iq); injection Iq as <-; destruct Im as [<-|[<-|[]]]; destruct Ib as [<-|[]]; vm_compute; discriminate.
Qed.
Example C62_any_sampling_case :
  let cs := [mkCS 1 2 1 0; mkCS 2 1 1 0; mkCS 3 1 1 0] in
  encodes (flat_segs 1 4 cs) (flat_h 1 4 cs) ex_ss [ex_ts; ex_ts; ex_ts] [ex_q; ex_q; ex_q] [flat_mcu cs] [0x49; 0x2F]%Z /\
  Forall (whole_ratios cs) cs /\ Forall (width_works 1 4 cs) cs /\ spectra_within 0 [flat_mcu cs] [ex_q; ex_q; ex_q] /\ samples_in_reach [flat_mcu cs] [ex_q; ex_q; ex_q] /\
  interpolation 1 4 cs (mkCS 3 1 1 0) = / 2.
Proof.
  cbv zeta.
  assert (S : spectra_within 0 [flat_mcu [mkCS 1 2 1 0; mkCS 2 1 1 0; mkCS 3 1 1 0]] [ex_q; ex_q; ex_q]).
  { intros m k q b Im Iq Ib. rewrite magnitude_spectrum. apply IZR_le. destruct Im as [<-|[]].
    destruct k as [|[|[|k]]]; try (destruct k; discriminate Iq); injection Iq as <-; vm_compute in Ib;
      repeat (destruct Ib as [<-|Ib]; [vm_compute; discriminate|]); destruct Ib. }
  split; [|split; [|split; [|split; [exact S|split]]]].
  - apply (flat_encodes 1 4 2 1 1 [0x49; 0x2F]%Z 4 [true; true; true; true]); try reflexivity; [flat_header|lia|byte_list|cbn; lia].
  - repeat constructor.
  - repeat first [apply Forall_nil | apply Forall_cons]; (split; [intros _ _; vm_compute; split; [reflexivity|discriminate]|intros [H|H]; vm_compute in H; discriminate H]).
  - apply small_reach. intros m k q b Im Iq Ib. pose proof (S m k q b Im Iq Ib). lra.
  - reflexivity.
Qed.
Example C62_cmyk_case :
  encodes ck_segs ck_h ck_ss [ex_ts; ex_ts; ex_ts; ex_ts] [ex_q; ex_q; ex_q; ex_q] [ck_m] ck_data /\
  (last (adobes (ck_segs ++ [])) 1 = 0)%Z /\ spectra_within 1472 [ck_m] [ex_q; ex_q; ex_q; ex_q] /\ samples_in_reach [ck_m] [ex_q; ex_q; ex_q; ex_q].
Proof.
  split; [exact ck_encodes|]. split; [reflexivity|]. assert (S : spectra_within 1472 [ck_m] [ex_q; ex_q; ex_q; ex_q]); [|exact (conj S (small_reach _ _ S))]. intros m k q b Im Iq Ib. rewrite magnitude_spectrum. apply IZR_le. destruct Im as [<-|[]].
  destruct k as [|[|[|[|k]]]]; try (destruct k; discriminate Iq); injection Iq as <-; destruct Ib as [<-|[]]; vm_compute; discriminate.
Qed.
(** A block whose samples are in reach although its magnitude is above 1472: all samples are
    503 before they are limited. *)
Example C62_reach_case :
  let ms := [[[mkQ 300 (repeat 0%Z 63)]; [mkQ 0 (repeat 0%Z 63)]; [mkQ 0 (repeat 0%Z 63)]]] in let qs := repeat (repeat 10%Z 64) 3 in
  spectra_within 3000 ms qs /\ ~ spectra_within 1472 ms qs /\ samples_in_reach ms qs.
Proof.
  cbv zeta. split; [|split].
  - intros m k q b Im Iq Ib. rewrite magnitude_spectrum. apply IZR_le. destruct Im as [<-|[]].
    destruct k as [|[|[|k]]]; try (destruct k; discriminate Iq); injection Iq as <-; destruct Ib as [<-|[]]; vm_compute; discriminate.
  - intros H. specialize (H _ 0%nat _ _ (or_introl eq_refl) eq_refl (or_introl eq_refl)). rewrite magnitude_spectrum in H. apply le_IZR in H. revert H. vm_compute. intros H. apply H. reflexivity.
  - assert (G : forall d y x, (0 <= d <= 300)%Z -> (y < 8)%nat -> (x < 8)%nat -> -240 <= 128 + idct_real (spectrum (mkQ d (repeat 0%Z 63)) (repeat 10%Z 64)) y x <= 750).
    { intros d y x Hd Hy Hx. rewrite (idct_real_ext _ (fun v u => match v, u with O, O => IZR (d * 10) | _, _ => 0 end)).
      - unfold idct_real, rsum8. cbn [dct_norm]. change (INR 0) with 0. unfold Rdiv. repeat rewrite ?Rmult_0_r, ?Rmult_0_l. rewrite cos_0.
        assert (Q : / sqrt 2 * / sqrt 2 = / 2) by (rewrite <- Rinv_mult_distr, sqrt_sqrt by (try apply Rgt_not_eq; try apply sqrt_lt_R0; lra); reflexivity).
        rewrite Q, mult_IZR. destruct Hd as [H1 H2]. apply IZR_le in H1, H2. lra.
      - intros v u Hv Hu. unfold spectrum. cbn [q_dc q_ac]. destruct v as [|[|[|[|[|[|[|[|v]]]]]]]]; try lia; destruct u as [|[|[|[|[|[|[|[|u]]]]]]]]; try lia; try (apply f_equal; cbn; lia). }
    intros m k q b Im Iq Ib. destruct Im as [<-|[]].
    destruct k as [|[|[|k]]]; try (destruct k; discriminate Iq); injection Iq as <-; destruct Ib as [<-|[]]; intros y x Hy Hx; apply G; auto; lia.
Qed.
