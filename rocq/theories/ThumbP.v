(** An image of which only the DC coefficients are kept (C88). *)
From Verif Require Import Base Tactics SpecBits SpecReader SpecMarker Biterator Huffman Marker Types Parsers Idct Upsampler Decode SpecGlobal SpecStream.
From Verif Require Import SpecHuffman SpecBlock SpecTables SpecFrame SpecSegments SpecScan SpecPlane SpecUpsample SpecImage SpecColor SpecFile SpecAnswer SpecIdct SpecFlat SpecEncoder SpecEdit SpecFlip SpecChannel SpecSum SpecMean SpecThumb.
From Verif Require Import ParsersP InvP MarkerP GlobalP StreamP2 FileP ImageP BlockP UpsampleP RayonP IdctP IdctP2 AnswerP AnswerP2 AnswerP3 ReuseP PiecesP DamageP2 TransP UpsampleP2 FlatP EditP EditP2 EncoderP MosaicP FlipP FlipP3 ChannelP SumP MeanP.

(** If nothing is cut off, the DC value lies in the range of the samples. *)
Lemma unclipped_dc : forall q b blk qt, unclipped q b -> block_values blk (q_dc b) (q_ac b) -> natural_order qt q -> -1028 <= q_dc b * nth 0 q 0 <= 1020.
Proof.
  intros q b blk qt U V O. destruct (unclipped_total q b blk qt V O U) as [_ G]. pose proof (block_mean blk qt) as M.
  assert (Dc : deq blk qt 0 0 = q_dc b * nth 0 q 0).
  { unfold deq. destruct V as [_ V]. destruct O as [_ O]. pose proof (V 0%nat ltac:(lia)) as V0. pose proof (O 0%nat ltac:(lia)) as O0. cbn in V0, O0. cbn [Nat.add Nat.mul]. rewrite V0, O0. reflexivity. }
  rewrite Dc in M. assert (S : 8 * (8 * 0) <= sum8 (fun y => sum8 (pass2 blk qt y)) <= 8 * (8 * 255)).
  { apply sum8_bounds. intros y Hy. apply sum8_bounds. intros x Hx. apply G; assumption. }
  set (t := sum8 (fun y => sum8 (pass2 blk qt y))) in *. clearbody t. set (d := q_dc b * nth 0 q 0) in *. clearbody d. clear - M S. lia.
Qed.
Lemma dc_sample_near : forall dc q, -1028 <= dc * nth 0 q 0 <= 1020 -> Z.abs (64 * dc_sample dc q - (64 * 128 + 8 * (dc * nth 0 q 0))) <= 32.
Proof. intros dc q H. unfold dc_sample. set (d := dc * nth 0 q 0) in *. clearbody d. unfold wrap10, sat. lia. Qed.

Lemma dc_rows : forall q b blk qt rows, block_values blk (q_dc b) (repeat 0 63) -> natural_order qt q -> idct_block_rows true blk qt = Ok rows -> forall y x, in_block rows y x = dc_sample (q_dc b) q.
Proof.
  intros q b blk qt rows V N R y x. assert (Ea : Forall (fun a => a = 0) (repeat 0 63)) by (apply Forall_forall; intros a; apply repeat_spec).
  destruct (flat_values _ _ _ V Ea) as [FB E0]. rewrite (flat_block_exact true blk qt FB) in R. match type of R with Ok ?a = _ => assert (Er : rows = a) by congruence end. rewrite Er, repeat_block.
  unfold dc_sample. rewrite E0. destruct N as [_ N]. rewrite <- natural_0 at 1. rewrite (N 0%nat) by lia. reflexivity.
Qed.

Section DcOnly.
  Variable im : image.
  Hypothesis OK : image_ok im.
  Lemma dc_only_ok : image_ok (dc_only im).
  Proof using OK.
    split; try apply OK.
    - pose proof (io_shape im OK) as S. unfold dc_only. cbn [im_factors im_mcus]. apply Forall_map. revert S. apply Forall_impl. intros m S.
      clear - S. induction S as [|f qs fs m H S IH]; cbn [map]; constructor; [|exact IH]. unfold lenZ in *. rewrite map_length. exact H.
    - pose proof (io_coefs im OK) as S. unfold dc_only. cbn [im_mcus]. rewrite Forall_forall in *. intros m Im. apply in_map_iff in Im. destruct Im as [m0 [<- I0]]. specialize (S m0 I0).
      rewrite Forall_forall in *. intros bs Ib. apply in_map_iff in Ib. destruct Ib as [bs0 [<- Ib0]]. specialize (S bs0 Ib0).
      rewrite Forall_forall in *. intros b Iq. apply in_map_iff in Iq. destruct Iq as [b0 [<- Iq0]]. specialize (S b0 Iq0). destruct S as (S1 & S2 & S3).
      split; [exact S1|]. cbn [dc_block q_ac]. split; [rewrite repeat_length; reflexivity|]. apply Forall_forall. intros a Ia. apply repeat_spec in Ia. subst a. lia.
    - unfold dc_only. cbn [im_lines im_samples im_factors im_mcus]. unfold lenZ. rewrite map_length. apply (io_count im OK).
  Qed.
  Lemma dc_pairs : forall k, Forall2 (fun m m' => Forall2 (fun b b' => b' = dc_block b) (nth k m []) (nth k m' [])) (im_mcus im) (im_mcus (dc_only im)).
  Proof using.
    intros k. unfold dc_only. cbn [im_mcus]. induction (im_mcus im) as [|m ms IH]; cbn [map]; constructor; [|exact IH].
    pose proof (map_nth (map dc_block) m [] k) as H. cbn [map] in H. rewrite H. clear H IH. induction (nth k m []) as [|b l IHl]; cbn [map]; constructor; auto.
  Qed.
  Variables (dbg rayon : bool) (img : list Z).
  Hypothesis (L0 : 0 < im_lines im) (S0 : 0 < im_samples im) (D : decode_fresh dbg rayon (encode im) = Ok img).
  Let cs := fh_comps (enc_header im).
  Hypothesis (Ev : largest (map cs_v cs) = 1) (C4 : lenZ (im_factors im) = 4).
  Lemma dc_only_four : exists img', decode_fresh dbg rayon (encode (dc_only im)) = Ok img' /\
    forall r s k c q, 0 <= r -> 0 <= s -> 8 * r + 8 <= im_lines im -> 8 * s + 8 <= im_samples im -> nth_error cs k = Some c -> nth_error (im_quant im) k = Some q -> full_component cs c ->
      unclipped q (q_at (im_mcus im) (mcus (im_samples im) (largest (map cs_h cs))) k (cs_h c) (cs_v c) (8 * r) (8 * s)) ->
      forall y x, 8 * r <= y < 8 * r + 8 -> 8 * s <= x < 8 * s + 8 ->
        Z.abs (64 * nth k (pixel 4 (im_samples im) y x img') 0 - square_sum (fun y x => nth k (pixel 4 (im_samples im) y x img) 0) r s) <= 65.
  Proof using OK L0 S0 D Ev C4.
    destruct (two_files dbg rayon (enc_segs im) (enc_segs (dc_only im)) (enc_header im) (enc_header (dc_only im)) 0 0 0 0 (enc_ss im) (enc_ss (dc_only im)) _ _ (im_quant im) (im_quant (dc_only im)) (im_mcus im) (im_mcus (dc_only im))
      (enc_data im) (enc_data (dc_only im)) [] [] 0 0 img (enc_encodes im OK) (enc_encodes (dc_only im) dc_only_ok) no_post no_post eq_refl eq_refl L0 S0 eq_refl eq_refl (enc_bytes im OK) (enc_bytes (dc_only im) dc_only_ok) D) as [img' [D' R]].
    exists img'. split; [exact D'|]. intros r s k c q Hr Hs Er Es Ec Eq FC U y x Hy Hx.
    assert (C4' : lenZ (fh_comps (enc_header im)) = 4) by (rewrite <- C4; unfold lenZ; cbn [enc_header fh_comps]; f_equal; clear; generalize 0; induction (im_factors im) as [|[a b] fs IH]; intros i; [reflexivity|cbn [enc_comps length]; rewrite IH; reflexivity]).
    pose proof (mean_four dbg rayon (enc_segs im) (enc_header im) 0 0 (enc_ss im) _ (im_quant im) (im_mcus im) (enc_data im) [] 0 img (enc_encodes im OK) L0 S0 no_post (enc_bytes im OK) D Ev r s Hr Hs Er Es k c q C4' Ec Eq FC U) as M.
    destruct (R y x ltac:(cbn [enc_header fh_lines]; lia) ltac:(cbn [enc_header fh_samples]; lia)) as [vs [vs' [_ [E2 [_ [L2 K]]]]]]. destruct (K k c Ec) as [q1 [q2 [p [p' [Eq1 [Eq2 [A [P [P' [_ V']]]]]]]]]].
    change (im_quant (dc_only im)) with (im_quant im) in Eq2. assert (q1 = q) by congruence. assert (q2 = q) by congruence. subst q1 q2. clear Eq1 Eq2 K R.
    pose proof (files_header _ _ _ _ _ _ _ (enc_encodes im OK)) as HO.
    destruct (files_shape (enc_segs im) (enc_segs (dc_only im)) (enc_header im) (enc_header (dc_only im)) _ _ _ _ _ _ _ _ _ _ (enc_encodes im OK) (enc_encodes (dc_only im) dc_only_ok) eq_refl eq_refl eq_refl) as [Sh [Sh' [Lm Lm']]].
    assert (W : shown_row rayon (largest (map cs_v cs)) y = y) by (rewrite Ev; unfold shown_row; destruct rayon; rewrite Z.div_1_r; lia).
    destruct (drawn_full rayon (fh_lines (enc_header im)) (fh_samples (enc_header im)) cs c y x HO (nth_error_In _ _ Ec) ltac:(cbn [enc_header fh_lines]; lia) ltac:(cbn [enc_header fh_samples]; lia) FC) as [R1 [R2 R3]].
    fold cs in V'. rewrite R3 in V'. rewrite W in V', R1. destruct P' as [_ PP']. destruct (PP' y x R1 R2) as [blk' [qt' [rows' [B' [O' [I' E']]]]]]. cbv zeta in B'.
    pose proof (q_at_pair (fh_lines (enc_header im)) (fh_samples (enc_header im)) cs (im_mcus im) (im_mcus (dc_only im)) k c _ y x HO Sh Lm Ec (dc_pairs k) R1 R2) as Q. cbv beta in Q. fold cs in B'. rewrite Q in B'. clear Q.
    assert (SB : q_at (im_mcus im) (mcus (fh_samples (enc_header im)) (largest (map cs_h cs))) k (cs_h c) (cs_v c) y x = q_at (im_mcus im) (mcus (im_samples im) (largest (map cs_h cs))) k (cs_h c) (cs_v c) (8 * r) (8 * s)).
    { pose proof (square_block (fh_lines (enc_header im)) (fh_samples (enc_header im)) cs (im_mcus im) k c r s HO Ec Hr Hs (y - 8 * r) (x - 8 * s) ltac:(lia) ltac:(lia)) as T.
      replace (8 * r + (y - 8 * r)) with y in T by lia. replace (8 * s + (x - 8 * s)) with x in T by lia. exact T. }
    destruct P as [_ PP]. destruct (PP y x R1 R2) as [blk [qt [rows [B [O [I _]]]]]]. cbv zeta in B. fold cs in B. rewrite SB in B, B'. cbn [fh_samples enc_header] in M. fold cs in M.
    set (b := q_at (im_mcus im) (mcus (im_samples im) (largest (map cs_h cs))) k (cs_h c) (cs_v c) (8 * r) (8 * s)) in *.
    apply (fun H => eq_trans H E') in V'. rewrite (dc_rows q b blk' qt' rows' B' O' (I' true)) in V'. pose proof (dc_sample_near (q_dc b) q (unclipped_dc q b blk qt U B O)) as N. rewrite <- V' in N.
    assert (E3 : nth k (pixel 4 (im_samples im) y x img') 0 = 255 - nth k vs' 0).
    { rewrite C4' in E2. cbn [fh_samples enc_header] in E2. rewrite E2. assert (Hk : (k < 4)%nat) by (assert (k < length cs)%nat by (apply nth_error_Some; congruence); unfold lenZ in C4'; fold cs in C4'; lia).
      unfold lenZ in C4'. fold cs in C4', L2. clear - Hk L2 C4'. destruct vs' as [|v0 [|v1 [|v2 [|v3 [|]]]]]; cbn [length] in L2; try lia. unfold colour. destruct k as [|[|[|[|k]]]]; try lia; reflexivity. }
    rewrite E3. clear - M N. set (u := nth k vs' 0) in *. clearbody u. set (d := q_dc b * nth 0 q 0) in *. clearbody d. lia.
  Qed.
End DcOnly.
