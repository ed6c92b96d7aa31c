(** Files in which nothing is subsampled, and pictures made of tiles (C71). *)
From Verif Require Import Base Tactics SpecBits SpecMarker SpecHuffman SpecBlock SpecTables SpecFrame SpecUpsample SpecSegments SpecColor SpecIdct SpecImage SpecPlane SpecScan SpecFile SpecAnswer SpecFlat SpecEncoder SpecMosaic
  Biterator Huffman Idct Color Types Decode BlockP IdctP ParsersP UpsampleP UpsampleP2 RayonP FileP GeomP AnswerP AnswerP3 FlatP EncoderP.

(** ** Nothing is subsampled *)
(** [v] is the sample at ([y], [x]) of the [k]-th component with quantisation values [q]. *)
Definition sample_444 (ms : list mcu) (samples : Z) (k : nat) (q : list Z) (y x v : Z) : Prop :=
  exists blk qt rows,
    (let b := nth 0 (nth k (nth (Z.to_nat (y / 8 * mcus samples 1 + x / 8)) ms []) []) (mkQ 0 []) in block_values blk (q_dc b) (q_ac b)) /\
    natural_order qt q /\ (forall dbg, idct_block_rows dbg blk qt = Ok rows) /\ v = in_block rows y x.

Section Full.
  Variables (dbg rayon : bool) (segs : list (nat * hseg)) (h : frame_header) (fill1 fill2 : nat) (ss : list scan_comp) (ts : list tables)
    (qs : list (list Z)) (ms : list mcu) (data : list Z) (post : list (nat * hseg)) (fill3 : nat).
  Let cs := fh_comps h.
  Let lines := fh_lines h.
  Let samples := fh_samples h.
  Let file := file_bytes segs fill1 fill2 (mkSpS ss 0 63 0 0) data post fill3.
  Hypotheses (En : encodes segs h ss ts qs ms data) (P1 : 0 < lines) (P2 : 0 < samples) (PO : post_ok post) (B : bytes file)
    (FR : Forall (fun c => cs_h c = 1 /\ cs_v c = 1) cs) (Ne : cs <> []).

  Lemma full_largest : largest (map cs_h cs) = 1 /\ largest (map cs_v cs) = 1.
  Proof using FR Ne.
    clearbody cs. clear - FR Ne. destruct cs as [|c l]; [congruence|]. clear Ne. revert c FR. induction l as [|c' l IH]; intros c FR; inversion FR as [|? ? [E1 E2] F]; subst.
    - cbn. rewrite E1, E2. split; reflexivity.
    - destruct (IH c' F) as [I1 I2]. cbn [map] in *. unfold largest in *. change (Z.max (cs_h c) (fold_right Z.max 0 (cs_h c' :: map cs_h l)) = 1 /\ Z.max (cs_v c) (fold_right Z.max 0 (cs_v c' :: map cs_v l)) = 1).
      rewrite I1, I2, E1, E2. split; reflexivity.
  Qed.
  Lemma full_ratios : forall c, In c cs -> h_ratio samples cs c = 1 /\ v_ratio lines cs c = 1.
  Proof using FR Ne.
    intros c I. destruct full_largest as [L1 L2]. rewrite Forall_forall in FR. destruct (FR c I) as [F1 F2]. unfold h_ratio, v_ratio, ratio. rewrite L1, L2, F1, F2. split; destruct (_ =? _); reflexivity.
  Qed.
  Lemma full_works : Forall (whole_ratios cs) cs /\ Forall (width_works lines samples cs) cs.
  Proof using FR Ne.
    destruct full_largest as [L1 L2]. split; apply Forall_forall; intros c I.
    - rewrite Forall_forall in FR. destruct (FR c I) as [F1 F2]. unfold whole_ratios. rewrite L1, L2, F1, F2. split; reflexivity.
    - destruct (full_ratios c I) as [R1 R2]. unfold width_works. rewrite R1, R2. split; [intros; lia|intros [?|?]; lia].
  Qed.
  Lemma full_shown : forall k c q p y x, nth_error cs k = Some c -> plane_from lines samples cs ms k c q p -> 0 <= y < lines -> 0 <= x < samples ->
    sample_444 ms samples k q y x (comp_shown lines samples cs c p (shown_row rayon (largest (map cs_v cs)) y) x).
  Proof using FR Ne.
    intros k c q p y x Ec [_ P] Hy Hx. pose proof (nth_error_In _ _ Ec) as I. destruct full_largest as [L1 L2]. destruct (full_ratios c I) as [R1 R2].
    rewrite Forall_forall in FR. destruct (FR c I) as [F1 F2].
    assert (Er : shown_row rayon (largest (map cs_v cs)) y = y) by (unfold shown_row; rewrite L2, Z.div_1_r; destruct rayon; lia). rewrite Er.
    assert (Cy : y < plane_rows lines cs c) by (unfold plane_rows, mcus, ceil_div; rewrite L2, F2; pose proof (Z.div_mod (lines + (8 * 1) - 1) (8 * 1) ltac:(lia)); pose proof (Z.mod_pos_bound (lines + 8 * 1 - 1) (8 * 1) ltac:(lia)); lia).
    assert (Cx : x < plane_stride samples cs c) by (unfold plane_stride, mcus, ceil_div; rewrite L1, F1; pose proof (Z.div_mod (samples + (8 * 1) - 1) (8 * 1) ltac:(lia)); pose proof (Z.mod_pos_bound (samples + 8 * 1 - 1) (8 * 1) ltac:(lia)); lia).
    destruct (P y x ltac:(lia) ltac:(lia)) as (blk & qt & rows & V & N & R & E). exists blk, qt, rows.
    split; [|split; [exact N|split; [exact R|]]].
    - cbv zeta in *. unfold q_at, block_no, mcu_row, mcu_col in V. rewrite L1, F1, F2, !Z.mul_1_r in V. rewrite !(Z.div_small (_ mod 8) 8) in V by (apply Z.mod_pos_bound; lia). exact V.
    - unfold comp_shown, shown. rewrite R1, R2. exact E.
  Qed.

  Lemma full_ycbcr : forall c0 c1 c2, fh_comps h = [c0; c1; c2] -> last (adobes (segs ++ post)) 1 <> 0 ->
    exists img, decode_fresh dbg rayon file = Ok img /\ lenZ img = 3 * samples * lines /\
      forall y x, 0 <= y < lines -> 0 <= x < samples -> exists vs, length vs = 3%nat /\
        rgb_pixel (nth 0 vs 0) (nth 1 vs 0) (nth 2 vs 0) (pixel 3 samples y x img) /\
        forall k, (k < 3)%nat -> sample_444 ms samples k (nth k qs []) y x (nth k vs 0).
  Proof using En P1 P2 PO B FR Ne.
    intros c0 c1 c2 Ec NA. destruct full_works as [W1 W2].
    destruct (file_ycbcr dbg rayon segs h fill1 fill2 ss ts qs ms data post fill3 c0 c1 c2 En Ec P1 P2 W1 W2 PO NA B) as (q0 & q1 & q2 & p0 & p1 & p2 & img & Q & Q0 & Q1 & Q2 & D & L & Px).
    exists img. split; [exact D|]. split; [exact L|]. intros y x Hy Hx. specialize (Px y x Hy Hx). cbv zeta in Px. fold cs lines samples in Px, Q0, Q1, Q2.
    assert (C0 : nth_error cs 0 = Some c0) by (unfold cs; rewrite Ec; reflexivity). assert (C1 : nth_error cs 1 = Some c1) by (unfold cs; rewrite Ec; reflexivity). assert (C2 : nth_error cs 2 = Some c2) by (unfold cs; rewrite Ec; reflexivity).
    eexists [_; _; _]. split; [reflexivity|]. cbn [nth]. split; [exact Px|]. intros k Hk. rewrite Q.
    destruct k as [|[|[|k]]]; [| | |lia]; cbn [nth]; [apply (full_shown 0 c0)|apply (full_shown 1 c1)|apply (full_shown 2 c2)]; assumption.
  Qed.
  Lemma full_cmyk : forall c0 c1 c2 c3, fh_comps h = [c0; c1; c2; c3] -> adobes (segs ++ post) <> [] -> last (adobes (segs ++ post)) 1 = 0 ->
    exists img, decode_fresh dbg rayon file = Ok img /\ lenZ img = 4 * samples * lines /\
      forall y x, 0 <= y < lines -> 0 <= x < samples -> exists vs, length vs = 4%nat /\
        pixel 4 samples y x img = map (fun v => 255 - v) vs /\
        forall k, (k < 4)%nat -> sample_444 ms samples k (nth k qs []) y x (nth k vs 0).
  Proof using En P1 P2 PO B FR Ne.
    intros c0 c1 c2 c3 Ec NA NB. destruct full_works as [W1 W2].
    destruct (file_cmyk dbg rayon segs h fill1 fill2 ss ts qs ms data post fill3 c0 c1 c2 c3 En Ec P1 P2 W1 W2 PO NA NB B) as (q0 & q1 & q2 & q3 & p0 & p1 & p2 & p3 & img & Q & Q0 & Q1 & Q2 & Q3 & D & L & Px).
    exists img. split; [exact D|]. split; [exact L|]. intros y x Hy Hx. specialize (Px y x Hy Hx). cbv zeta in Px. fold cs lines samples in Px, Q0, Q1, Q2, Q3.
    assert (C0 : nth_error cs 0 = Some c0) by (unfold cs; rewrite Ec; reflexivity). assert (C1 : nth_error cs 1 = Some c1) by (unfold cs; rewrite Ec; reflexivity). assert (C2 : nth_error cs 2 = Some c2) by (unfold cs; rewrite Ec; reflexivity). assert (C3 : nth_error cs 3 = Some c3) by (unfold cs; rewrite Ec; reflexivity).
    eexists [_; _; _; _]. split; [reflexivity|]. cbn [nth map]. split; [exact Px|]. intros k Hk. rewrite Q.
    destruct k as [|[|[|[|k]]]]; [| | | |lia]; cbn [nth]; [apply (full_shown 0 c0)|apply (full_shown 1 c1)|apply (full_shown 2 c2)|apply (full_shown 3 c3)]; assumption.
  Qed.
End Full.

(** ** Tiles *)
Lemma zrange_nth : forall n i d, 0 <= i < n -> nth (Z.to_nat i) (zrange n) d = i.
Proof. intros n i d H. unfold zrange. rewrite (nth_indep _ d (Z.of_nat 0)) by (rewrite map_length, seq_length; lia). rewrite map_nth, seq_nth by lia. lia. Qed.
Lemma zrange_length : forall n, lenZ (zrange n) = Z.max 0 n.
Proof. intros n. unfold zrange, lenZ. rewrite map_length, seq_length. lia. Qed.
Lemma flat_444 : forall ms samples k q y x v dc, sample_444 ms samples k q y x v ->
  nth 0 (nth k (nth (Z.to_nat (y / 8 * mcus samples 1 + x / 8)) ms []) []) (mkQ 0 []) = mkQ dc (repeat 0 63) -> v = dc_sample dc q.
Proof.
  intros ms samples k q y x v dc (blk & qt & rows & V & N & R & ->) E. rewrite E in V. cbv zeta in V. cbn [q_dc q_ac] in V.
  destruct (flat_values _ _ _ V) as [FB E0]; [apply Forall_forall; intros a I; apply (repeat_spec _ _ _ I)|].
  specialize (R true). rewrite (flat_block_exact true blk qt FB) in R. match type of R with Ok ?a = _ => assert (Er : rows = a) by congruence end. rewrite Er, repeat_block.
  unfold dc_sample. rewrite E0. destruct N as [_ N]. rewrite <- natural_0 at 1. rewrite (N 0%nat) by lia. reflexivity.
Qed.
Lemma tile_sample : forall v, 0 <= v <= 255 -> dc_sample (v - 128) (8 :: repeat 1 63) = v.
Proof.
  intros v H. unfold dc_sample. cbn [nth]. replace (((v - 128) * 8 + 4) / 8 + 128) with v by (replace ((v - 128) * 8 + 4) with (4 + (v - 128) * 8) by lia; rewrite Z.div_add by lia; change (4 / 8) with 0; lia).
  unfold wrap10, sat. first [rewrite Z.mod_small by lia; lia | idtac].
Qed.

Lemma ones : forall m, (1 <= m)%nat -> largest (repeat 1 m) = 1.
Proof. intros m H. destruct m as [|m]; [lia|]. clear H. induction m as [|m IH]; [reflexivity|]. change (Z.max 1 (largest (repeat 1 (S m))) = 1). rewrite IH. reflexivity. Qed.
Lemma map_repeat_one : forall {A} (f : A -> Z) a m, f a = 1 -> map f (repeat a m) = repeat 1 m.
Proof. intros A f a m E. induction m as [|m IH]; [reflexivity|]. cbn. rewrite E, IH. reflexivity. Qed.

Section Mosaic.
  Variables (lines samples : Z) (n : nat) (colour : Z -> Z -> nat -> Z) (transform : option Z).
  Hypotheses (Hl : 0 < lines < 65536) (Hs : 0 < samples < 65536) (Hn : (1 <= n <= 4)%nat) (Hc : forall r c k, 0 <= colour r c k <= 255)
    (Ht : match transform with Some t => 0 <= t <= 2 | None => True end).
  Let im := mosaic lines samples n colour transform.
  Lemma mosaic_ok : image_ok im.
  Proof using Hl Hs Hn Hc Ht.
    unfold im, mosaic. split; cbn [im_lines im_samples im_factors im_quant im_mcus im_transform im_restart]; try lia.
    - unfold lenZ. rewrite repeat_length. lia.
    - apply Forall_forall. intros f I. apply repeat_spec in I. subst f. cbn. lia.
    - destruct n as [|[|[|[|[|]]]]]; cbn; lia.
    - rewrite !repeat_length. reflexivity.
    - apply Forall_forall. intros q I. apply repeat_spec in I. subst q. split; [reflexivity|]. constructor; [lia|]. apply Forall_forall. intros v I. apply repeat_spec in I. lia.
    - apply Forall_forall. intros m I. apply in_map_iff in I. destruct I as [i [<- _]]. unfold tile. generalize (colour (i / mcus samples 1) (i mod mcus samples 1)). intros f. clear. generalize (repeat 0 63). intros zs. generalize 0%nat. induction n as [|m IH]; intros s; [constructor|]. cbn [repeat seq map]. constructor; [reflexivity|apply IH].
    - apply Forall_forall. intros m I. apply in_map_iff in I. destruct I as [i [<- _]]. apply Forall_forall. intros qs I. apply in_map_iff in I. destruct I as [k [<- _]]. constructor; [|constructor].
      unfold q_ok. cbn [q_dc q_ac]. specialize (Hc (i / mcus samples 1) (i mod mcus samples 1) k). split; [lia|]. split; [reflexivity|]. apply Forall_forall. intros v I. apply repeat_spec in I. lia.
    - rewrite (map_repeat_one snd (1, 1)), (map_repeat_one fst (1, 1)), !ones by (try reflexivity; lia). unfold lenZ. rewrite map_length. change (lenZ (zrange (mcus lines 1 * mcus samples 1)) = mcus lines 1 * mcus samples 1). rewrite zrange_length.
      assert (0 <= mcus lines 1) by (unfold mcus, ceil_div; apply Z.div_pos; lia). assert (0 <= mcus samples 1) by (unfold mcus, ceil_div; apply Z.div_pos; lia). nia.
    - exact Ht.
  Qed.
  Lemma mosaic_full : Forall (fun c => cs_h c = 1 /\ cs_v c = 1) (fh_comps (enc_header im)) /\ length (fh_comps (enc_header im)) = n.
  Proof using.
    unfold im, mosaic, enc_header. cbn [fh_comps im_factors]. clear. generalize 0. induction n as [|m IH]; intros i; [split; [constructor|reflexivity]|].
    cbn [repeat enc_comps length]. destruct (IH (i + 1)) as [F L]. split; [constructor; [split; reflexivity|exact F]|congruence].
  Qed.
  Lemma mosaic_sample : forall k y x v, (k < n)%nat -> 0 <= y < lines -> 0 <= x < samples -> sample_444 (im_mcus im) samples k (nth k (im_quant im) []) y x v -> v = colour (y / 8) (x / 8) k.
  Proof using Hl Hs Hn Hc.
    intros k y x v Hk Hy Hx S. unfold im, mosaic in S. cbn [im_mcus im_quant] in S. set (w := mcus samples 1) in *.
    assert (W : x / 8 < w) by (unfold w, mcus, ceil_div; apply Z.div_lt_upper_bound; [lia|]; pose proof (Z.div_mod (samples + 8 * 1 - 1) (8 * 1) ltac:(lia)); pose proof (Z.mod_pos_bound (samples + 8 * 1 - 1) (8 * 1) ltac:(lia)); lia).
    assert (H : y / 8 < mcus lines 1) by (unfold mcus, ceil_div; apply Z.div_lt_upper_bound; [lia|]; pose proof (Z.div_mod (lines + 8 * 1 - 1) (8 * 1) ltac:(lia)); pose proof (Z.mod_pos_bound (lines + 8 * 1 - 1) (8 * 1) ltac:(lia)); lia).
    assert (X0 : 0 <= x / 8) by (apply Z.div_pos; lia). assert (Y0 : 0 <= y / 8) by (apply Z.div_pos; lia).
    set (i := y / 8 * w + x / 8). assert (Ei : i / w = y / 8 /\ i mod w = x / 8).
    { unfold i. rewrite Z.add_comm, Z.div_add, Z.mod_add, Z.div_small, Z.mod_small by lia. lia. }
    assert (Bi : 0 <= i < mcus lines 1 * w) by (unfold i; clear - W H X0 Y0; nia).
    assert (Eq : nth k (repeat (8 :: repeat 1 63) n) [] = 8 :: repeat 1 63) by (rewrite (nth_indep _ [] (8 :: repeat 1 63)) by (rewrite repeat_length; lia); apply nth_repeat). rewrite Eq in S.
    rewrite (flat_444 _ _ _ _ _ _ _ (colour (y / 8) (x / 8) k - 128) S); [apply tile_sample, Hc|]. fold w. fold i.
    rewrite (nth_indep _ [] (tile n (colour (0 / w) (0 mod w)))) by (rewrite map_length; pose proof (zrange_length (mcus lines 1 * w)) as ZL; unfold lenZ in ZL; lia).
    rewrite (map_nth (fun i => tile n (colour (i / w) (i mod w)))), zrange_nth by exact Bi. destruct Ei as [-> ->]. unfold tile.
    rewrite (nth_indep _ [] [mkQ (colour (y / 8) (x / 8) 0%nat - 128) (repeat 0 63)]) by (rewrite map_length, seq_length; lia).
    rewrite (map_nth (fun k => [mkQ (colour (y / 8) (x / 8) k - 128) (repeat 0 63)])), seq_nth by lia. reflexivity.
  Qed.
End Mosaic.

Lemma no_post : post_ok [].
Proof. split; [constructor|reflexivity]. Qed.
Lemma mosaic_ycbcr : forall dbg rayon lines samples colour, 0 < lines < 65536 -> 0 < samples < 65536 -> (forall r c k, 0 <= colour r c k <= 255) ->
  exists img, decode_fresh dbg rayon (encode (mosaic lines samples 3 colour None)) = Ok img /\ lenZ img = 3 * samples * lines /\
    forall y x, 0 <= y < lines -> 0 <= x < samples -> pixel 3 samples y x img = rgb_fixed (colour (y / 8) (x / 8) 0%nat) (colour (y / 8) (x / 8) 1%nat) (colour (y / 8) (x / 8) 2%nat).
Proof.
  intros dbg rayon lines samples colour Hl Hs Hc. set (im := mosaic lines samples 3 colour None).
  pose proof (mosaic_ok lines samples 3 colour None Hl Hs ltac:(lia) Hc I) as OK. fold im in OK. destruct (mosaic_full lines samples 3 colour None) as [F L]. fold im in F, L.
  destruct (fh_comps (enc_header im)) as [|c0 [|c1 [|c2 [|]]]] eqn:Ec; try discriminate L.
  destruct (full_ycbcr dbg rayon (enc_segs im) (enc_header im) 0 0 (enc_ss im) _ (im_quant im) (im_mcus im) (enc_data im) [] 0 (enc_encodes im OK)
    ltac:(cbn; lia) ltac:(cbn; lia) no_post (enc_bytes im OK) ltac:(rewrite Ec; exact F) ltac:(rewrite Ec; discriminate) c0 c1 c2 Ec ltac:(cbn; lia)) as (img & D & Li & Px).
  exists img. split; [exact D|]. split; [exact Li|]. intros y x Hy Hx. destruct (Px y x Hy Hx) as (vs & Lv & [R _] & S).
  assert (V : forall k, (k < 3)%nat -> nth k vs 0 = colour (y / 8) (x / 8) k) by (intros k Hk; apply (mosaic_sample lines samples 3 colour None Hl Hs ltac:(lia) Hc k y x _ Hk Hy Hx), S, Hk).
  rewrite <- (V 0%nat), <- (V 1%nat), <- (V 2%nat) by lia. exact R.
Qed.
Lemma mosaic_cmyk : forall dbg rayon lines samples colour, 0 < lines < 65536 -> 0 < samples < 65536 -> (forall r c k, 0 <= colour r c k <= 255) ->
  exists img, decode_fresh dbg rayon (encode (mosaic lines samples 4 (fun r c k => 255 - colour r c k) (Some 0))) = Ok img /\ lenZ img = 4 * samples * lines /\
    forall y x, 0 <= y < lines -> 0 <= x < samples -> pixel 4 samples y x img = map (colour (y / 8) (x / 8)) [0; 1; 2; 3]%nat.
Proof.
  intros dbg rayon lines samples colour Hl Hs Hc'. set (colour' := fun r c k => 255 - colour r c k).
  assert (Hc : forall r c k, 0 <= colour' r c k <= 255) by (intros r c k; unfold colour'; specialize (Hc' r c k); lia). set (im := mosaic lines samples 4 colour' (Some 0)).
  pose proof (mosaic_ok lines samples 4 colour' (Some 0) Hl Hs ltac:(lia) Hc ltac:(cbn; lia)) as OK. fold im in OK. destruct (mosaic_full lines samples 4 colour' (Some 0)) as [F L]. fold im in F, L.
  destruct (fh_comps (enc_header im)) as [|c0 [|c1 [|c2 [|c3 [|]]]]] eqn:Ec; try discriminate L.
  destruct (full_cmyk dbg rayon (enc_segs im) (enc_header im) 0 0 (enc_ss im) _ (im_quant im) (im_mcus im) (enc_data im) [] 0 (enc_encodes im OK)
    ltac:(cbn; lia) ltac:(cbn; lia) no_post (enc_bytes im OK) ltac:(rewrite Ec; exact F) ltac:(rewrite Ec; discriminate) c0 c1 c2 c3 Ec ltac:(cbn; discriminate) ltac:(reflexivity)) as (img & D & Li & Px).
  exists img. split; [exact D|]. split; [exact Li|]. intros y x Hy Hx. destruct (Px y x Hy Hx) as (vs & Lv & R & S).
  assert (V : forall k, (k < 4)%nat -> nth k vs 0 = colour' (y / 8) (x / 8) k) by (intros k Hk; apply (mosaic_sample lines samples 4 colour' (Some 0) Hl Hs ltac:(lia) Hc k y x _ Hk Hy Hx), S, Hk).
  change (pixel 4 samples y x img = map (fun v => 255 - v) vs) in R. rewrite R. destruct vs as [|v0 [|v1 [|v2 [|v3 [|]]]]]; try discriminate Lv. cbn [map].
  pose proof (V 0%nat ltac:(lia)). pose proof (V 1%nat ltac:(lia)). pose proof (V 2%nat ltac:(lia)). pose proof (V 3%nat ltac:(lia)). cbn [nth] in *. unfold colour' in *. repeat f_equal; lia.
Qed.
