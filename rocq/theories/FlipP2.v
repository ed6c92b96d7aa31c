(** Turned images (C73). *)
From Verif Require Import Base Tactics SpecBits SpecMarker SpecHuffman SpecBlock SpecFrame SpecSegments SpecScan SpecImage SpecFile SpecAnswer SpecEncoder SpecEdit SpecFlip Decode.
From Verif Require Import ImageP FileP EncoderP MosaicP FlipP.

Lemma turn_upside : forall b, upside_down b (turn_block b).
Proof.
  intros b [|i] Hi; [reflexivity|]. unfold coef at 1. cbn [nth turn_block q_ac q_dc].
  set (f := fun i : nat => if Nat.odd (fst (nth i zigzag (0, 0)%nat)) then - coef b i else coef b i).
  rewrite (nth_indep _ 0 (f 0%nat)) by (rewrite map_length, seq_length; lia). rewrite map_nth, seq_nth by lia. reflexivity.
Qed.
Lemma turn_q : forall b, q_ok b -> q_ok (turn_block b).
Proof.
  intros b (H1 & H2 & H3). split; [exact H1|]. split; [reflexivity|]. unfold turn_block. cbn [q_ac]. apply Forall_forall. intros v Hv. apply in_map_iff in Hv. destruct Hv as [i [<- Hi]]. apply in_seq in Hi.
  assert (C : -32767 <= coef b i <= 32767). { unfold coef. destruct i as [|i]; [lia|]. cbn [nth]. rewrite Forall_forall in H3. apply H3. apply nth_In. lia. }
  destruct (Nat.odd _); lia.
Qed.

Section Turn.
  Variable im : image.
  Hypothesis (OK : image_ok im) (V1 : Forall (fun f => snd f = 1) (im_factors im)) (M8 : im_lines im mod 8 = 0).
  Let w := mcus (im_samples im) (largest (map fst (im_factors im))).
  Let h := im_lines im / 8.
  Lemma turn_rows : mcus (im_lines im) (largest (map snd (im_factors im))) = h.
  Proof.
    assert (N : im_factors im <> []) by (pose proof (io_comps im OK) as C; intros E; rewrite E in C; cbn in C; lia).
    assert (L : largest (map snd (im_factors im)) = 1).
    { clear - N V1. destruct (im_factors im) as [|f fs]; [congruence|]. inv V1. cbn [map largest fold_right]. rewrite H1. clear - H2. induction H2 as [|a l Ha F IH]; cbn [map fold_right]; [reflexivity|]. rewrite Ha. lia. }
    rewrite L. unfold h, mcus, ceil_div. change (8 * 1) with 8. pose proof (Z.div_mod (im_lines im) 8 ltac:(lia)). replace (im_lines im + 8 - 1) with (7 + im_lines im / 8 * 8) by lia. rewrite Z.div_add by lia. change (7 / 8) with 0. lia.
  Qed.
  Lemma turn_w : 0 <= w.
  Proof. unfold w, mcus, ceil_div. pose proof (io_samples im OK). set (m := largest _). assert (0 <= m) by (unfold m, largest; clear; induction (map fst (im_factors im)); cbn [fold_right]; lia). destruct (Z.eq_dec m 0) as [->|]; [rewrite Zdiv_0_r; lia|]. apply Z.div_pos; lia. Qed.
  Lemma turn_h : 0 <= h.
  Proof. unfold h. pose proof (io_lines im OK). apply Z.div_pos; lia. Qed.
  Lemma turn_at : forall i, 0 <= i < h * w -> In (nth (Z.to_nat ((h - 1 - i / w) * w + i mod w)) (im_mcus im) []) (im_mcus im).
  Proof.
    intros i Hi. pose proof turn_w. pose proof turn_h. apply nth_In. pose proof (io_count im OK) as C. rewrite turn_rows in C. fold w in C. unfold lenZ in C.
    assert (0 < w) by (destruct (Z.eq_dec w 0) as [E|E]; [rewrite E, Z.mul_0_r in Hi; lia|lia]).
    pose proof (Z.mod_pos_bound i w ltac:(lia)) as Mb. pose proof (Z.div_mod i w ltac:(lia)) as D. assert (Q : 0 <= i / w < h) by (split; [apply Z.div_pos; lia|apply Z.div_lt_upper_bound; lia]).
    clearbody w h. assert (0 <= (h - 1 - i / w) * w + i mod w < h * w) by nia. lia.
  Qed.
  Lemma turn_ok : image_ok (turn im).
  Proof.
    assert (MS : forall m, In m (im_mcus (turn im)) -> exists m0, In m0 (im_mcus im) /\ m = map (map turn_block) m0).
    { intros m Im. unfold turn in Im. cbn [im_mcus] in Im. fold w h in Im. apply in_map_iff in Im. destruct Im as [i [<- Hi]]. eexists. split; [|reflexivity].
      apply turn_at. unfold zrange in Hi. apply in_map_iff in Hi. destruct Hi as [k [<- Hk]]. apply in_seq in Hk. lia. }
    split; try apply OK.
    - apply Forall_forall. intros m Im. destruct (MS m Im) as [m0 [I0 ->]]. pose proof (io_shape im OK) as S. rewrite Forall_forall in S. specialize (S m0 I0). clear - S.
      change (im_factors (turn im)) with (im_factors im). induction S as [|f qs fs m0 H S IH]; cbn [map]; constructor; [|exact IH]. unfold lenZ in *. rewrite map_length. exact H.
    - apply Forall_forall. intros m Im. destruct (MS m Im) as [m0 [I0 ->]]. pose proof (io_coefs im OK) as S. rewrite Forall_forall in S. specialize (S m0 I0).
      apply Forall_map. revert S. apply Forall_impl. intros qs Q. apply Forall_map. revert Q. apply Forall_impl. exact turn_q.
    - change (im_lines (turn im)) with (im_lines im). change (im_factors (turn im)) with (im_factors im). change (im_samples (turn im)) with (im_samples im). rewrite turn_rows. fold w.
      unfold turn. cbn [im_mcus]. fold w h. unfold lenZ. rewrite map_length. pose proof (zrange_length (h * w)) as ZL. unfold lenZ in ZL. rewrite ZL. pose proof turn_w. pose proof turn_h. clearbody w h. nia.
  Qed.
  Lemma turn_flipped : flipped w h (im_mcus im) (im_mcus (turn im)).
  Proof.
    intros r c Hr Hc. unfold turn. cbn [im_mcus]. fold w h.
    assert (B : 0 <= (h - 1 - r) * w + c < h * w) by (clearbody w h; nia).
    set (f := fun i => map (map turn_block) (nth (Z.to_nat ((h - 1 - i / w) * w + i mod w)) (im_mcus im) [])).
    assert (E : nth (Z.to_nat ((h - 1 - r) * w + c)) (map f (zrange (h * w))) [] = f ((h - 1 - r) * w + c)).
    { rewrite (nth_indep _ [] (f 0)) by (rewrite map_length; pose proof (zrange_length (h * w)) as ZL; unfold lenZ in ZL; lia). rewrite map_nth, zrange_nth by exact B. reflexivity. }
    refine (eq_ind_r (fun m => Forall2 (Forall2 upside_down) _ m) _ E). unfold f.
    assert (Q1 : ((h - 1 - r) * w + c) / w = h - 1 - r) by (symmetry; apply Z.div_unique with (r := c); lia).
    assert (Q2 : ((h - 1 - r) * w + c) mod w = c) by (symmetry; apply Z.mod_unique with (q := h - 1 - r); lia).
    rewrite Q1, Q2. replace (h - 1 - (h - 1 - r)) with r by lia. generalize (nth (Z.to_nat (r * w + c)) (im_mcus im) []). intros m.
    induction m as [|qs m IH]; cbn [map]; constructor; [|exact IH]. induction qs as [|b qs IHq]; cbn [map]; constructor; [apply turn_upside|exact IHq].
  Qed.
  Lemma turn_image : forall dbg rayon img, 0 < im_lines im -> 0 < im_samples im -> decode_fresh dbg rayon (encode im) = Ok img ->
    exists img', decode_fresh dbg rayon (encode (turn im)) = Ok img' /\
      forall y x, 0 <= y < im_lines im -> 0 <= x < im_samples im ->
        pixel (lenZ (im_factors im)) (im_samples im) y x img' = pixel (lenZ (im_factors im)) (im_samples im) (im_lines im - 1 - y) x img.
  Proof.
    intros dbg rayon img L0 S0 D.
    assert (Fc : map (fun c => (cs_h c, cs_v c)) (enc_comps 0 (im_factors im)) = im_factors im).
    { clear. generalize 0. induction (im_factors im) as [|[a b] fs IH]; intros i; [reflexivity|]. cbn [enc_comps map cs_h cs_v]. rewrite IH. reflexivity. }
    assert (Eh : map cs_h (enc_comps 0 (im_factors im)) = map fst (im_factors im)) by (rewrite <- Fc at 2; rewrite map_map; reflexivity).
    assert (Ev : map cs_v (enc_comps 0 (im_factors im)) = map snd (im_factors im)) by (rewrite <- Fc at 2; rewrite map_map; reflexivity).
    assert (Lc : lenZ (enc_comps 0 (im_factors im)) = lenZ (im_factors im)) by (unfold lenZ; rewrite <- Fc at 2; rewrite map_length; reflexivity).
    assert (FL : flipped (mcus (im_samples im) (largest (map cs_h (enc_comps 0 (im_factors im))))) (im_lines im / 8) (im_mcus im) (im_mcus (turn im))) by (rewrite Eh; exact turn_flipped).
    assert (V : Forall (fun c => cs_v c = 1) (enc_comps 0 (im_factors im))).
    { apply Forall_map with (f := cs_v) (P := fun v => v = 1). rewrite Ev. apply Forall_map. exact V1. }
    assert (Et : last_transform (enc_segs (turn im) ++ []) = last_transform (enc_segs im ++ [])) by reflexivity.
    pose proof (flip_image dbg rayon (enc_segs im) (enc_header im) 0 0 (enc_ss im) _ (enc_data im) [] 0 (enc_segs (turn im)) (enc_header (turn im)) 0 0 (enc_ss (turn im)) _ (enc_data (turn im)) [] 0
      (im_quant im) (im_mcus im) (im_mcus (turn im)) img (enc_encodes im OK) (enc_encodes (turn im) turn_ok) no_post no_post eq_refl eq_refl L0 S0 eq_refl Et V M8 FL (enc_bytes im OK) (enc_bytes (turn im) turn_ok) D) as F.
    change (fh_comps (enc_header im)) with (enc_comps 0 (im_factors im)) in F. rewrite Lc in F. exact F.
  Qed.
End Turn.
