(** The pixels that damage leaves alone (C60). *)
From Verif Require Import Base Tactics SpecBits SpecReader SpecMarker Biterator Huffman Marker Types Parsers Idct Upsampler Decode SpecGlobal SpecStream.
From Verif Require Import SpecHuffman SpecBlock SpecTables SpecFrame SpecSegments SpecScan SpecPlane SpecUpsample SpecImage SpecColor SpecFile SpecAnswer SpecLimits SpecDamage SpecIdct SpecEncoder SpecEdit SpecFlip SpecChannel SpecLocal SpecIntact.
From Verif Require Import ParsersP InvP MarkerP GlobalP StreamP2 FileP ImageP BlockP UpsampleP RayonP IdctP IdctP2 AnswerP AnswerP2 AnswerP3 ReuseP PiecesP DamageP2 TransP UpsampleP2 FlatP EditP EditP2 EncoderP MosaicP FlipP FlipP3 ChannelP LocalP.

Lemma agrees_nth : forall kn ms, agrees kn ms -> forall i m, nth_error kn i = Some (Some m) -> nth i ms [] = m.
Proof.
  intros kn ms H. induction H as [|k m0 kn ms Hk H IH]; intros [|i] m E; try discriminate; cbn [nth_error nth] in *; [apply Hk; congruence|exact (IH i m E)].
Qed.
Lemma combine_at : forall A B (l : list A) (l' : list B) k a b, nth_error l k = Some a -> nth_error l' k = Some b -> nth_error (combine l l') k = Some (a, b).
Proof. intros A B l. induction l as [|a0 l IH]; intros [|b0 l'] [|k] a b H1 H2; try discriminate; cbn in *; [congruence|]. apply IH; assumption. Qed.

Lemma intact_pixels : forall dbg rayon segs h fill1 fill2 ss ts qs ms0 data0 known data post fill3 img,
  encodes segs h ss ts qs ms0 data0 -> scan_part ts (last (dris segs) 0) 0 known data -> agrees known ms0 -> post_ok post ->
  let cs := fh_comps h in let lines := fh_lines h in let samples := fh_samples h in let vm := largest (map cs_v cs) in 0 < lines -> 0 < samples ->
  let whole := file_bytes segs fill1 fill2 (mkSpS ss 0 63 0 0) data0 post fill3 in
  let damaged := file_bytes segs fill1 fill2 (mkSpS ss 0 63 0 0) data post fill3 in bytes whole -> bytes damaged ->
  decode_fresh dbg rayon whole = Ok img ->
  (exists e, decode_fresh dbg rayon damaged = Fail e) \/
  exists img', decode_fresh dbg rayon damaged = Ok img' /\
    forall y x, 0 <= y < lines -> 0 <= x < samples ->
      full_resolution cs /\ (rayon = false \/ vm = 1) /\ intact samples cs known y x \/
      (let row := shown_row rayon vm y in
       forall y2 x2, 0 <= y2 < lines -> 0 <= x2 < samples -> row - 1 <= y2 <= row + 1 -> x - 1 <= x2 <= x + 1 -> intact samples cs known y2 x2) ->
      pixel (lenZ cs) samples y x img' = pixel (lenZ cs) samples y x img.
Proof.
  intros dbg rayon segs h fill1 fill2 ss ts qs ms0 data0 kn data post fill3 img EN SD AG PO cs lines samples vm P1 P2 whole damaged B1 B2 D.
  assert (HF : header_for segs h ss ts qs) by (destruct EN; constructor; assumption).
  destruct (file_answer dbg rayon segs h fill1 fill2 ss ts qs ms0 data0 post fill3 EN P1 P2 PO B1) as [ps0 [L0 [PL0 FA0]]].
  assert (HO : header_ok lines samples cs) by exact (files_header segs h ss ts qs ms0 data0 EN).
  assert (Sh : Forall (known_shape cs) kn).
  { destruct EN as [_ _ _ _ _ _ Sh _ _]. fold cs in Sh. clear - AG Sh. induction AG as [|k m kn ms Hk AG IH]; constructor; inversion Sh; subst; auto. intros m' Em. rewrite <- (Hk m' Em). assumption. }
  assert (Lm : lenZ kn = mcus lines (largest (map cs_v cs)) * mcus samples (largest (map cs_h cs))).
  { destruct EN as [_ _ _ _ _ _ _ Lm _]. fold cs lines samples in Lm. rewrite <- Lm. unfold lenZ. f_equal. exact (Forall2_length _ _ _ _ _ AG). }
  destruct (damage_contained dbg rayon segs h fill1 fill2 ss ts qs data post fill3 kn HF SD PO P1 P2 B2 Lm Sh) as [E|[ms [ps [A [_ [Lp [PL FA]]]]]]]; [left; exact E|right].
  fold whole in FA0. fold damaged in FA. rewrite D in FA0. fold cs lines samples in FA0, FA, PL0, PL, L0, Lp.
  destruct (same_conditions _ _ _ _ _ _ _ _ _ _ eq_refl FA0 FA) as [img' D']. exists img'. split; [exact D'|]. rewrite D' in FA. intros y x Hy Hx S.
  destruct (answer_colour _ _ _ _ _ _ _ y x FA0 L0 Hy Hx) as [Ra E1]. destruct (answer_colour _ _ _ _ _ _ _ y x FA Lp Hy Hx) as [_ E2]. rewrite E1, E2. f_equal.
  assert (M : forall y2 x2, intact samples cs kn y2 x2 -> mcu_of samples cs ms y2 x2 = mcu_of samples cs ms0 y2 x2).
  { intros y2 x2 [m Hm]. unfold mcu_of. rewrite (agrees_nth _ _ A _ _ Hm), (agrees_nth _ _ AG _ _ Hm). reflexivity. }
  apply nth_ext with (d := 0) (d' := 0); [unfold draw; rewrite !map_length, !combine_length; lia|]. intros k Hk.
  assert (Hk' : (k < length cs)%nat) by (unfold draw in Hk; rewrite map_length, combine_length in Hk; lia).
  destruct (nth_error cs k) as [c|] eqn:Ec; [|apply nth_error_None in Ec; lia].
  destruct (PL0 k c Ec) as [q [p [Eq [Ep Fp]]]]. destruct (PL k c Ec) as [q' [p' [Eq' [Ep' Fp']]]]. assert (q' = q) by congruence. subst q'.
  assert (N : forall ps p, nth_error ps k = Some p -> nth k (draw rayon lines samples cs ps y x) 0 = comp_drawn lines samples cs c p (shown_row rayon (largest (map cs_v cs)) y) x).
  { intros l r Er. apply nth_error_nth. unfold draw. erewrite map_nth_error; [|apply combine_at; [exact Ec|exact Er]]. reflexivity. }
  rewrite (N _ _ Ep), (N _ _ Ep'). rewrite Forall_forall in Ra. destruct S as [[F [RV S]]|S].
  - unfold full_resolution in F. rewrite Forall_forall in F. exact (drawn_local_full rayon lines samples cs ms0 ms k c q p p' y x HO Ec Hy Hx Fp Fp' RV (F c (nth_error_In _ _ Ec)) (M y x S)).
  - exact (drawn_near rayon lines samples cs ms0 ms k c q p p' y x HO Ec (Ra c (nth_error_In _ _ Ec)) Hy Hx Fp Fp' (fun y2 x2 a b e f => M y2 x2 (S y2 x2 a b e f))).
Qed.
