(** Images with nearly the same coefficients (C87). *)
From Verif Require Import Base Tactics SpecBits SpecReader SpecMarker Biterator Huffman Marker Types Parsers Idct Upsampler Decode SpecGlobal SpecStream.
From Verif Require Import SpecHuffman SpecBlock SpecTables SpecFrame SpecSegments SpecScan SpecPlane SpecUpsample SpecImage SpecColor SpecFile SpecAnswer SpecIdct SpecFlat SpecEncoder SpecEdit SpecFlip SpecChannel SpecNearby.
From Verif Require Import ParsersP InvP MarkerP GlobalP StreamP2 FileP ImageP BlockP UpsampleP RayonP IdctP IdctP2 AnswerP AnswerP2 AnswerP3 ReuseP PiecesP DamageP2 TransP UpsampleP2 FlatP EditP EditP2 EncoderP MosaicP FlipP FlipP3 ChannelP.

(** ** Blocks *)
Lemma sum8_abs : forall f g, (forall u, (u < 8)%nat -> Z.abs (f u) <= g u) -> Z.abs (sum8 f) <= sum8 g.
Proof.
  intros f g H. unfold sum8. pose proof (H 0%nat ltac:(lia)). pose proof (H 1%nat ltac:(lia)). pose proof (H 2%nat ltac:(lia)). pose proof (H 3%nat ltac:(lia)).
  pose proof (H 4%nat ltac:(lia)). pose proof (H 5%nat ltac:(lia)). pose proof (H 6%nat ltac:(lia)). pose proof (H 7%nat ltac:(lia)). clear H. lia.
Qed.
Lemma mx_times : forall x u a, Z.abs (mx x u * a) <= 5683 * Z.abs a.
Proof. intros x u a. rewrite Z.abs_mul. pose proof (mx_bound x u). nia. Qed.
Section Block.
  Variables (a q a' q' : list Z).
  Let dd u v := Z.abs (deq a' q' v u - deq a q v u).
  Lemma sum8_sub : forall f g, sum8 f - sum8 g = sum8 (fun u => f u - g u).
  Proof. intros f g. unfold sum8. ring. Qed.
  Lemma sum8_scale : forall k f, sum8 (fun u => k * f u) = k * sum8 f.
  Proof. intros k f. unfold sum8. ring. Qed.
  Lemma sum8_plus : forall f n, sum8 (fun u => f u + n) = sum8 f + 8 * n.
  Proof. intros f n. unfold sum8. ring. Qed.
  Lemma pass1_near : forall y u, 1024 * Z.abs (pass1 a' q' y u - pass1 a q y u) <= 5683 * sum8 (dd u) + 1023.
  Proof.
    intros y u. unfold pass1. set (s' := sum8 (fun v => mx y v * deq a' q' v u)). set (s := sum8 (fun v => mx y v * deq a q v u)).
    assert (B : Z.abs (s' - s) <= 5683 * sum8 (dd u)).
    { unfold s', s. rewrite sum8_sub, <- sum8_scale. apply sum8_abs. intros v _. rewrite <- Z.mul_sub_distr_l. apply mx_times. }
    clearbody s s'. set (t := sum8 (dd u)) in *. clearbody t. clear - B. lia.
  Qed.
  Lemma pass2_near : forall y x e, sum8 (fun u => sum8 (dd u)) <= e -> near ((e + 5) / 4) (pass2 a' q' y x) (pass2 a q y x).
  Proof.
    intros y x e He. unfold pass2. set (s' := sum8 (fun u => mx x u * pass1 a' q' y u)). set (s := sum8 (fun u => mx x u * pass1 a q y u)).
    assert (B : 1024 * Z.abs (s' - s) <= 5683 * (5683 * e + 8184)).
    { unfold s', s. rewrite sum8_sub.
      assert (T : Z.abs (sum8 (fun u => 1024 * (mx x u * pass1 a' q' y u - mx x u * pass1 a q y u))) <= sum8 (fun u => 5683 * (5683 * sum8 (dd u) + 1023))).
      { apply sum8_abs. intros u _. rewrite <- Z.mul_sub_distr_l, Z.abs_mul. change (Z.abs 1024) with 1024. pose proof (mx_times x u (pass1 a' q' y u - pass1 a q y u)). pose proof (pass1_near y u). lia. }
      rewrite sum8_scale, Z.abs_mul in T. change (Z.abs 1024) with 1024 in T. rewrite sum8_scale, sum8_plus, sum8_scale in T. lia. }
    clearbody s s'. clear - B. unfold near. lia.
  Qed.
End Block.

Lemma distance_total : forall q q' b b' blk blk' qt qt', block_values blk (q_dc b) (q_ac b) -> block_values blk' (q_dc b') (q_ac b') -> natural_order qt q -> natural_order qt' q' ->
  distance q q' b b' = sum8 (fun u => sum8 (fun v => Z.abs (deq blk' qt' v u - deq blk qt v u))).
Proof.
  intros q q' b b' blk blk' qt qt' V V' N N'. unfold distance. etransitivity; [|exact (zigzag_sum (fun j => Z.abs (nth j blk' 0 * nth j qt' 0 - nth j blk 0 * nth j qt 0)))].
  f_equal. apply map_ext_in. intros i Hi. apply in_seq in Hi. destruct V as [_ V]. destruct V' as [_ V']. destruct N as [_ N]. destruct N' as [_ N'].
  rewrite V, V', N, N' by lia. reflexivity.
Qed.

Lemma block_near : forall e q q' b b' blk blk' qt qt' rows rows', distance q q' b b' <= e -> modest q b -> modest q' b' ->
  block_values blk (q_dc b) (q_ac b) -> block_values blk' (q_dc b') (q_ac b') -> natural_order qt q -> natural_order qt' q' ->
  idct_block_rows true blk qt = Ok rows -> idct_block_rows true blk' qt' = Ok rows' ->
  forall y x, (y < 8)%nat -> (x < 8)%nat -> near ((e + 5) / 4) (nth x (nth y rows' []) 0) (nth x (nth y rows []) 0).
Proof.
  intros e q q' b b' blk blk' qt qt' rows rows' U M M' V V' N N' D D' y x Hy Hx.
  destruct (modest_total q b blk qt V N M) as [T G]. destruct (modest_total q' b' blk' qt' V' N' M') as [T' G'].
  rewrite (block_rows_sat true blk' qt' rows' (modest_moderate _ _ (proj1 V') T') T' ltac:(intros y0 x0 Hy0 Hx0; specialize (G' y0 x0 Hy0 Hx0); lia) D' y x Hy Hx).
  rewrite (block_rows_sat true blk qt rows (modest_moderate _ _ (proj1 V) T) T ltac:(intros y0 x0 Hy0 Hx0; specialize (G y0 x0 Hy0 Hx0); lia) D y x Hy Hx).
  apply sat_near. apply pass2_near. rewrite <- (distance_total q q' b b' blk blk' qt qt' V V' N N'). exact U.
Qed.

(** ** Planes *)
Section Planes.
  Variables (lines samples : Z) (cs : list comp_spec) (ms ms' : list mcu) (k : nat) (c : comp_spec) (q q' p p' : list Z) (e : Z).
  Hypothesis (HO : header_ok lines samples cs) (Sh : Forall (mcu_shape cs) ms) (Sh' : Forall (mcu_shape cs) ms') (Ec : nth_error cs k = Some c).
  Hypothesis Lm : lenZ ms = mcus lines (largest (map cs_v cs)) * mcus samples (largest (map cs_h cs)).
  Hypothesis Lm' : lenZ ms' = mcus lines (largest (map cs_v cs)) * mcus samples (largest (map cs_h cs)).
  Hypothesis (P : plane_from lines samples cs ms k c q p) (P' : plane_from lines samples cs ms' k c q' p').
  Lemma plane_near : Forall2 (fun m m' => Forall2 (fun b b' => distance q q' b b' <= e) (nth k m []) (nth k m' [])) ms ms' -> modest_component k q ms -> modest_component k q' ms' ->
    forall y x, 0 <= y < plane_rows lines cs c -> 0 <= x < plane_stride samples cs c -> near ((e + 5) / 4) (px p' (plane_stride samples cs c) y x) (px p (plane_stride samples cs c) y x).
  Proof using HO Sh Sh' Ec Lm Lm' P P'.
    intros S M M' y x Hy Hx. destruct P as [_ PP]. destruct P' as [_ PP']. destruct (PP y x Hy Hx) as [blk [qt [rows [V [O [D ->]]]]]]. destruct (PP' y x Hy Hx) as [blk' [qt' [rows' [V' [O' [D' ->]]]]]]. cbv zeta in V, V'.
    destruct (q_at_in lines samples cs ms k c y x HO Sh Lm Ec Hy Hx) as [m [Im Ib]]. destruct (q_at_in lines samples cs ms' k c y x HO Sh' Lm' Ec Hy Hx) as [m' [Im' Ib']].
    pose proof (q_at_pair lines samples cs ms ms' k c _ y x HO Sh Lm Ec S Hy Hx) as U. cbv beta in U.
    unfold in_block. refine (block_near e q q' _ _ _ _ _ _ _ _ U (M m _ Im Ib) (M' m' _ Im' Ib') V V' O O' (D true) (D' true) _ _ _ _).
    - pose proof (Z.mod_pos_bound y 8 ltac:(lia)). lia.
    - pose proof (Z.mod_pos_bound x 8 ltac:(lia)). lia.
  Qed.
End Planes.

(** ** What is drawn *)
Lemma shown_near : forall n hr vr p p' stride w h row x, 0 <= n -> 1 <= hr -> 1 <= vr -> 0 <= row < vr * h -> 0 <= x < hr * w ->
  (forall y c, 0 <= y < h -> 0 <= c < w -> near n (px p' stride y c) (px p stride y c)) -> near n (shown hr vr p' stride w h row x) (shown hr vr p stride w h row x).
Proof.
  intros n hr vr p p' stride w h row x Hn Hh Hv R X B.
  assert (Ry : 0 <= row / vr < h) by (split; [apply Z.div_pos; lia|apply Z.div_lt_upper_bound; lia]).
  assert (Rx : 0 <= x / hr < w) by (split; [apply Z.div_pos; lia|apply Z.div_lt_upper_bound; lia]).
  assert (NB : forall last i, 0 <= i -> i / 2 <= last -> 0 <= neighbour last i <= last).
  { intros last i Hi Hl. rewrite neighbour_parity. destruct (i mod 2 =? 0); lia. }
  unfold shown, double_width, double_height, double_both.
  destruct ((hr =? 1) && (vr =? 1)) eqn:K1.
  { assert (hr = 1) by lia. assert (vr = 1) by lia. subst. rewrite !Z.div_1_r in *. apply B; lia. }
  destruct ((hr =? 2) && (vr =? 1)) eqn:K2.
  { assert (hr = 2) by lia. assert (vr = 1) by lia. subst. rewrite !Z.div_1_r in *. pose proof (NB (w - 1) x ltac:(lia) ltac:(lia)) as N1.
    pose proof (B row (x / 2) ltac:(lia) ltac:(lia)). pose proof (B row (neighbour (w - 1) x) ltac:(lia) ltac:(lia)). unfold near in *. clear - H H0 Hn. lia. }
  destruct ((hr =? 1) && (vr =? 2)) eqn:K3.
  { assert (hr = 1) by lia. assert (vr = 2) by lia. subst. rewrite !Z.div_1_r in *. pose proof (NB (h - 1) row ltac:(lia) ltac:(lia)) as N1.
    pose proof (B (row / 2) x ltac:(lia) ltac:(lia)). pose proof (B (neighbour (h - 1) row) x ltac:(lia) ltac:(lia)). unfold near in *. clear - H H0 Hn. lia. }
  destruct ((hr =? 2) && (vr =? 2)) eqn:K4.
  { assert (hr = 2) by lia. assert (vr = 2) by lia. subst. pose proof (NB (h - 1) row ltac:(lia) ltac:(lia)) as N1. pose proof (NB (w - 1) x ltac:(lia) ltac:(lia)) as N3.
    pose proof (B (row / 2) (x / 2) ltac:(lia) ltac:(lia)) as H1. pose proof (B (neighbour (h - 1) row) (x / 2) ltac:(lia) ltac:(lia)) as H2.
    pose proof (B (row / 2) (neighbour (w - 1) x) ltac:(lia) ltac:(lia)) as H3. pose proof (B (neighbour (h - 1) row) (neighbour (w - 1) x) ltac:(lia) ltac:(lia)) as H4. unfold near in *. clear - H1 H2 H3 H4 Hn. lia. }
  apply B; auto; lia.
Qed.

Section Drawn.
  Variables (rayon : bool) (lines samples : Z) (cs : list comp_spec) (c : comp_spec) (y x n : Z).
  Hypothesis (HO : header_ok lines samples cs) (I : In c cs) (A : ratios_accepted lines samples cs c) (Hy : 0 <= y < lines) (Hx : 0 <= x < samples) (Hn : 0 <= n).
  Let row := shown_row rayon (largest (map cs_v cs)) y.
  Lemma drawn_near : forall p p',
    (forall y x, 0 <= y < plane_rows lines cs c -> 0 <= x < plane_stride samples cs c -> near n (px p' (plane_stride samples cs c) y x) (px p (plane_stride samples cs c) y x)) ->
    near n (comp_drawn lines samples cs c p' row x) (comp_drawn lines samples cs c p row x).
  Proof using HO I A Hy Hx Hn.
    intros p p' B. pose proof (row_range rayon lines samples cs y HO Hy) as Rw. fold row in Rw. destruct A as (A1 & A2 & _). unfold comp_drawn. cbv zeta.
    destruct (((2 <? h_ratio samples cs c) || (2 <? v_ratio lines cs c)) && (largest (map cs_h cs) / cs_h c * (samples / (largest (map cs_h cs) / cs_h c)) <=? x)); [unfold near; rewrite Z.sub_diag; exact Hn|].
    destruct HO as [_ _ Ne _ _ X]. rewrite Forall_forall in X.
    assert (Fh : 1 <= cs_h c <= largest (map cs_h cs)) by (destruct (X c I); pose proof (largest_ge (map cs_h cs) (cs_h c) (in_map cs_h cs c I)); lia).
    assert (Fv : 1 <= cs_v c <= largest (map cs_v cs)) by (destruct (X c I); pose proof (largest_ge (map cs_v cs) (cs_v c) (in_map cs_v cs c I)); lia).
    destruct (covered samples _ _ x Hx Fh A1) as [H1 H2]. destruct (covered lines _ _ row Rw Fv A2) as [H3 H4].
    pose proof (extent_le samples _ _ ltac:(lia) Fh) as X1. pose proof (extent_le lines _ _ ltac:(lia) Fv) as X2.
    unfold comp_shown. apply shown_near; [exact Hn|exact H1|exact H3|split; [apply Rw|exact H4]|split; [apply Hx|exact H2]|].
    intros y' x' Hy' Hx'. apply B; unfold plane_rows, plane_stride; lia.
  Qed.
End Drawn.

(** ** Colours *)
Lemma rgb_near : forall n y cb cr y' cb' cr', 0 <= n -> near n y' y -> near n cb' cb -> near n cr' cr -> Forall2 (near (3 * n)) (rgb_fixed y' cb' cr') (rgb_fixed y cb cr).
Proof.
  intros n y cb cr y' cb' cr' Hn Hy Hb Hr. unfold rgb_fixed.
  assert (Q : forall a b, near (116130 * n) a b -> near (2 * n) ((a + 32768) / 65536) ((b + 32768) / 65536)) by (intros a b; unfold near; clear - Hn; lia).
  assert (A : forall a b c d, near n a b -> near (2 * n) c d -> near (3 * n) (a + c) (b + d)) by (unfold near; clear; lia).
  repeat constructor; apply sat_near; apply A; try assumption; apply Q; unfold near in *; clear - Hb Hr Hn; lia.
Qed.

(** ** Two files *)
Lemma nearby_images : forall dbg rayon segs segs' h h' fill1 fill2 fill1' fill2' ss ss' ts ts' qs qs' ms ms' data data' post post' fill3 fill3' img e,
  let cs := fh_comps h in let lines := fh_lines h in let samples := fh_samples h in
  encodes segs h ss ts qs ms data -> encodes segs' h' ss' ts' qs' ms' data' -> post_ok post -> post_ok post' ->
  fh_lines h' = lines -> fh_samples h' = samples -> 0 < lines -> 0 < samples ->
  map (fun c => (cs_h c, cs_v c)) (fh_comps h') = map (fun c => (cs_h c, cs_v c)) cs ->
  last_transform (segs' ++ post') = last_transform (segs ++ post) ->
  let file := file_bytes segs fill1 fill2 (mkSpS ss 0 63 0 0) data post fill3 in
  let file' := file_bytes segs' fill1' fill2' (mkSpS ss' 0 63 0 0) data' post' fill3' in
  bytes file -> bytes file' -> decode_fresh dbg rayon file = Ok img -> 0 <= e ->
  (forall k, nearby e k qs qs' ms ms') ->
  exists img', decode_fresh dbg rayon file' = Ok img' /\
    forall y x, 0 <= y < lines -> 0 <= x < samples ->
      Forall2 (fun a' a => Z.abs (a' - a) <= if lenZ cs =? 4 then (e + 5) / 4 else 3 * ((e + 5) / 4)) (pixel (lenZ cs) samples y x img') (pixel (lenZ cs) samples y x img).
Proof.
  intros dbg rayon segs segs' h h' fill1 fill2 fill1' fill2' ss ss' ts ts' qs qs' ms ms' data data' post post' fill3 fill3' img e cs lines samples En En' PO PO' El Es L0 S0 Ef Et file file' B B' D E0 NB.
  destruct (two_files dbg rayon segs segs' h h' fill1 fill2 fill1' fill2' ss ss' ts ts' qs qs' ms ms' data data' post post' fill3 fill3' img En En' PO PO' El Es L0 S0 Ef Et B B' D) as [img' [D' R]].
  fold cs lines samples in R. exists img'. split; [exact D'|]. intros y x Hy Hx. destruct (R y x Hy Hx) as [vs [vs' [E1 [E2 [L1 [L2 K]]]]]]. rewrite E1, E2.
  destruct (files_shape segs segs' h h' ss ss' ts ts' qs qs' ms ms' data data' En En' El Es Ef) as [Sh [Sh' [Lm Lm']]]. pose proof (files_header segs h ss ts qs ms data En) as HO. fold cs lines samples in Sh, Sh', Lm, Lm', HO.
  set (n := (e + 5) / 4). assert (Hn : 0 <= n) by (unfold n; lia).
  assert (X : forall k, (k < length cs)%nat -> near n (nth k vs' 0) (nth k vs 0)).
  { intros k Hk. destruct (nth_error cs k) as [c0|] eqn:Ec; [|apply nth_error_None in Ec; lia]. destruct (K k c0 Ec) as [q [q' [p [p' [Eq [Eq' [A [P [P' [V V']]]]]]]]]]. rewrite V, V'.
    destruct (NB k q q' Eq Eq') as [S [M M']]. apply drawn_near; [exact HO|exact (nth_error_In _ _ Ec)|exact A|exact Hy|exact Hx|exact Hn|].
    exact (plane_near lines samples cs ms ms' k c0 q q' p p' e HO Sh Sh' Ec Lm Lm' P P' S M M'). }
  unfold lenZ. clearbody n cs. clear - L1 L2 X Hn. revert L1 L2 X. generalize (length cs). intros l L1 L2 X. subst l.
  destruct vs as [|a [|b [|c [|d [|f vs]]]]]; destruct vs' as [|a' [|b' [|c' [|d' [|f' vs']]]]]; try discriminate L2; cbn [colour length]; try constructor.
  - change (Z.of_nat 3 =? 4) with false. cbv iota. destruct (match last_transform (segs ++ post) with Some 0 => true | _ => false end); [repeat constructor; lia|].
    apply (rgb_near n); [exact Hn|exact (X 0%nat ltac:(cbn; lia))|exact (X 1%nat ltac:(cbn; lia))|exact (X 2%nat ltac:(cbn; lia))].
  - change (Z.of_nat 4 =? 4) with true. cbv iota. assert (Inv : forall a b, near n a b -> Z.abs (255 - a - (255 - b)) <= n) by (unfold near; clear; lia).
    apply Inv. exact (X 0%nat ltac:(cbn; lia)).
  - change (Z.of_nat 4 =? 4) with true. cbv iota. assert (Inv : forall a b, near n a b -> Z.abs (255 - a - (255 - b)) <= n) by (unfold near; clear; lia).
    repeat constructor; apply Inv; [exact (X 1%nat ltac:(cbn; lia))|exact (X 2%nat ltac:(cbn; lia))|exact (X 3%nat ltac:(cbn; lia))].
Qed.

(** ** Quantising again *)
Lemma sum_list : forall (f : nat -> Z) l, 2 * fold_right Z.add 0 (map f l) = fold_right Z.add 0 (map (fun i => 2 * f i) l).
Proof. intros f l. induction l as [|i l IH]; cbn [map fold_right]; [reflexivity|]. rewrite <- IH. ring. Qed.
Lemma sum_le : forall (f g : nat -> Z) l, (forall i, In i l -> f i <= g i) -> fold_right Z.add 0 (map f l) <= fold_right Z.add 0 (map g l).
Proof. intros f g l H. induction l as [|i l IH]; cbn [map fold_right]; [lia|]. pose proof (H i (or_introl eq_refl)). specialize (IH (fun j J => H j (or_intror J))). lia. Qed.
Lemma requantised_distance : forall q q' b b', length q' = 64%nat -> requantised q q' b b' -> distance q q' b b' <= fold_right Z.add 0 q' / 2.
Proof.
  intros q q' b b' L R. unfold distance. apply Z.div_le_lower_bound; [lia|]. rewrite sum_list.
  assert (E : q' = map (fun i => nth i q' 0) (seq 0 64)).
  { apply nth_ext with (d := 0) (d' := 0); [rewrite map_length, seq_length; exact L|]. intros i Hi. rewrite L in Hi. rewrite (nth_map_seq Z (fun i => nth i q' 0) 64 i 0 Hi). reflexivity. }
  apply Z.le_trans with (fold_right Z.add 0 (map (fun i => nth i q' 0) (seq 0 64))).
  - apply sum_le. intros i Hi. apply in_seq in Hi. apply R. lia.
  - rewrite <- E. apply Z.le_refl.
Qed.

Lemma Forall2_weaken : forall A B (P Q : A -> B -> Prop) l l', (forall a b, P a b -> Q a b) -> Forall2 P l l' -> Forall2 Q l l'.
Proof. intros A B P Q l l' H F. induction F; constructor; auto. Qed.
Lemma enc_length : forall fs i, lenZ (enc_comps i fs) = lenZ fs.
Proof. intros fs. unfold lenZ. intros i. f_equal. revert i. induction fs as [|[a b] fs IH]; intros i; [reflexivity|]. cbn [enc_comps length]. rewrite IH. reflexivity. Qed.
Lemma requantised_images : forall dbg rayon im im' img e, image_ok im -> image_ok im' ->
  im_lines im' = im_lines im -> im_samples im' = im_samples im -> im_factors im' = im_factors im -> im_transform im' = im_transform im ->
  0 < im_lines im -> 0 < im_samples im -> decode_fresh dbg rayon (encode im) = Ok img -> 0 <= e ->
  (forall k q q', nth_error (im_quant im) k = Some q -> nth_error (im_quant im') k = Some q' ->
    Forall2 (fun m m' => Forall2 (requantised q q') (nth k m []) (nth k m' [])) (im_mcus im) (im_mcus im') /\
    modest_component k q (im_mcus im) /\ modest_component k q' (im_mcus im') /\ fold_right Z.add 0 q' <= 2 * e) ->
  exists img', decode_fresh dbg rayon (encode im') = Ok img' /\
    forall y x, 0 <= y < im_lines im -> 0 <= x < im_samples im ->
      let n := lenZ (im_factors im) in
      Forall2 (fun a' a => Z.abs (a' - a) <= if n =? 4 then (e + 5) / 4 else 3 * ((e + 5) / 4)) (pixel n (im_samples im) y x img') (pixel n (im_samples im) y x img).
Proof.
  intros dbg rayon im im' img e OK OK' El Es Ef Et L0 S0 D E0 R.
  assert (NB : forall k, nearby e k (im_quant im) (im_quant im') (im_mcus im) (im_mcus im')).
  { intros k q q' Eq Eq'. destruct (R k q q' Eq Eq') as [F [M [M' Sq]]]. split; [|split; assumption].
    assert (L : length q' = 64%nat) by (pose proof (io_quant im' OK') as Q; rewrite Forall_forall in Q; exact (proj1 (Q q' (nth_error_In _ _ Eq')))).
    revert F. apply Forall2_weaken. intros m m'. apply Forall2_weaken. intros b b' Rb. pose proof (requantised_distance q q' b b' L Rb). lia. }
  cbv zeta. rewrite <- (enc_length (im_factors im) 0).
  assert (Hl : fh_lines (enc_header im') = fh_lines (enc_header im)) by exact El.
  assert (Hs : fh_samples (enc_header im') = fh_samples (enc_header im)) by exact Es.
  assert (Hc : fh_comps (enc_header im') = fh_comps (enc_header im)) by (cbn [enc_header fh_comps]; rewrite Ef; reflexivity).
  assert (Ht : last_transform (enc_segs im' ++ []) = last_transform (enc_segs im ++ [])) by (unfold enc_segs; rewrite Et; destruct (im_transform im); reflexivity).
  exact (nearby_images dbg rayon (enc_segs im) (enc_segs im') (enc_header im) (enc_header im') 0 0 0 0 (enc_ss im) (enc_ss im') _ _ (im_quant im) (im_quant im') (im_mcus im) (im_mcus im')
    (enc_data im) (enc_data im') [] [] 0 0 img e (enc_encodes im OK) (enc_encodes im' OK') no_post no_post Hl Hs L0 S0 (f_equal (map (fun c => (cs_h c, cs_v c))) Hc) Ht (enc_bytes im OK) (enc_bytes im' OK') D E0 NB).
Qed.
