(** The negative of an image (C84). *)
From Verif Require Import Base Tactics SpecBits SpecReader SpecMarker Biterator Huffman Marker Types Parsers Idct Upsampler Decode SpecGlobal SpecStream.
From Verif Require Import SpecHuffman SpecBlock SpecTables SpecFrame SpecSegments SpecScan SpecPlane SpecUpsample SpecImage SpecColor SpecFile SpecAnswer SpecIdct SpecFlat SpecEncoder SpecEdit SpecFlip SpecChannel SpecNegative.
From Verif Require Import ParsersP InvP MarkerP GlobalP StreamP2 FileP ImageP BlockP UpsampleP RayonP IdctP IdctP2 AnswerP AnswerP2 AnswerP3 ReuseP PiecesP DamageP2 TransP UpsampleP2 FlatP EditP EditP2 EncoderP MosaicP FlipP FlipP3 ChannelP.

(** ** Blocks *)
Definition opposed (lo hi a b : Z) : Prop := lo <= a + b <= hi.
Section Block.
  Variables (a q a' q' : list Z).
  Hypothesis E : forall u v, (u < 8)%nat -> (v < 8)%nat -> deq a' q' v u = - deq a q v u.
  Lemma pass1_negative : forall y u, (u < 8)%nat -> exists e, 0 <= e <= 1 /\ pass1 a' q' y u = - pass1 a q y u + e.
  Proof.
    intros y u Hu. unfold pass1.
    replace (sum8 (fun v => mx y v * deq a' q' v u)) with (- sum8 (fun v => mx y v * deq a q v u)).
    - generalize (sum8 (fun v => mx y v * deq a q v u)). intros s.
      exists ((512 + - s) / 1024 + (512 + s) / 1024). split; [|ring]. pose proof (Z.div_mod (512 + - s) 1024 ltac:(lia)). pose proof (Z.div_mod (512 + s) 1024 ltac:(lia)).
      pose proof (Z.mod_pos_bound (512 + - s) 1024 ltac:(lia)). pose proof (Z.mod_pos_bound (512 + s) 1024 ltac:(lia)). lia.
    - unfold sum8. rewrite !E by lia.
      generalize (mx y 0), (mx y 1), (mx y 2), (mx y 3), (mx y 4), (mx y 5), (mx y 6), (mx y 7), (deq a q 0 u), (deq a q 1 u), (deq a q 2 u), (deq a q 3 u), (deq a q 4 u), (deq a q 5 u), (deq a q 6 u), (deq a q 7 u). clear. intros. ring.
  Qed.
  Lemma pass2_negative : forall y x, opposed 255 257 (pass2 a q y x) (pass2 a' q' y x).
  Proof.
    intros y x. unfold pass2.
    destruct (pass1_negative y 0 ltac:(lia)) as [e0 [H0 E0]]. destruct (pass1_negative y 1 ltac:(lia)) as [e1 [H1 E1]]. destruct (pass1_negative y 2 ltac:(lia)) as [e2 [H2 E2]]. destruct (pass1_negative y 3 ltac:(lia)) as [e3 [H3 E3]].
    destruct (pass1_negative y 4 ltac:(lia)) as [e4 [H4 E4]]. destruct (pass1_negative y 5 ltac:(lia)) as [e5 [H5 E5]]. destruct (pass1_negative y 6 ltac:(lia)) as [e6 [H6 E6]]. destruct (pass1_negative y 7 ltac:(lia)) as [e7 [H7 E7]].
    set (d := mx x 0 * e0 + mx x 1 * e1 + mx x 2 * e2 + mx x 3 * e3 + mx x 4 * e4 + mx x 5 * e5 + mx x 6 * e6 + mx x 7 * e7).
    assert (S : sum8 (fun u => mx x u * pass1 a' q' y u) = - sum8 (fun u => mx x u * pass1 a q y u) + d).
    { unfold sum8, d. rewrite E0, E1, E2, E3, E4, E5, E6, E7. generalize (mx x 0), (mx x 1), (mx x 2), (mx x 3), (mx x 4), (mx x 5), (mx x 6), (mx x 7), (pass1 a q y 0), (pass1 a q y 1), (pass1 a q y 2), (pass1 a q y 3), (pass1 a q y 4), (pass1 a q y 5), (pass1 a q y 6), (pass1 a q y 7). clear. intros. ring. }
    assert (B : -45464 <= d <= 45464).
    { assert (T : forall k e, 0 <= e <= 1 -> -5683 <= mx x k * e <= 5683) by (clear; intros k e He; pose proof (mx_bound x k); nia).
      pose proof (T 0%nat e0 H0). pose proof (T 1%nat e1 H1). pose proof (T 2%nat e2 H2). pose proof (T 3%nat e3 H3). pose proof (T 4%nat e4 H4). pose proof (T 5%nat e5 H5). pose proof (T 6%nat e6 H6). pose proof (T 7%nat e7 H7). unfold d. lia. }
    rewrite S. set (s := sum8 (fun u => mx x u * pass1 a q y u)). clearbody s d. clear - B. unfold opposed.
    pose proof (Z.div_mod (65536 + 128 * 131072 + (- s + d)) 131072 ltac:(lia)). pose proof (Z.div_mod (65536 + 128 * 131072 + s) 131072 ltac:(lia)).
    pose proof (Z.mod_pos_bound (65536 + 128 * 131072 + (- s + d)) 131072 ltac:(lia)). pose proof (Z.mod_pos_bound (65536 + 128 * 131072 + s) 131072 ltac:(lia)). lia.
  Qed.
End Block.
Lemma sat_opposed : forall lo hi a b, 255 <= hi -> lo <= 255 -> opposed lo hi a b -> opposed lo hi (sat a) (sat b).
Proof. unfold opposed, sat. intros. lia. Qed.

Lemma block_negative : forall q q' b b' blk blk' qt qt' rows rows', negative_block q q' b b' -> modest q b -> modest q' b' ->
  block_values blk (q_dc b) (q_ac b) -> block_values blk' (q_dc b') (q_ac b') -> natural_order qt q -> natural_order qt' q' ->
  idct_block_rows true blk qt = Ok rows -> idct_block_rows true blk' qt' = Ok rows' ->
  forall y x, (y < 8)%nat -> (x < 8)%nat -> opposed 255 257 (nth x (nth y rows []) 0) (nth x (nth y rows' []) 0).
Proof.
  intros q q' b b' blk blk' qt qt' rows rows' U M M' V V' N N' D D' y x Hy Hx.
  destruct (modest_total q b blk qt V N M) as [T G]. destruct (modest_total q' b' blk' qt' V' N' M') as [T' G'].
  assert (E : forall u v, (u < 8)%nat -> (v < 8)%nat -> deq blk' qt' v u = - deq blk qt v u).
  { intros u v Hu Hv. unfold deq. destruct (natural_unnatural (u + 8 * v) ltac:(lia)) as [En L]. destruct V as [_ V]. destruct V' as [_ V']. destruct N as [_ N]. destruct N' as [_ N'].
    rewrite <- En. rewrite V, V', N, N' by exact L. exact (U _ L). }
  rewrite (block_rows_sat true blk' qt' rows' (modest_moderate _ _ (proj1 V') T') T' ltac:(intros y0 x0 Hy0 Hx0; specialize (G' y0 x0 Hy0 Hx0); lia) D' y x Hy Hx).
  rewrite (block_rows_sat true blk qt rows (modest_moderate _ _ (proj1 V) T) T ltac:(intros y0 x0 Hy0 Hx0; specialize (G y0 x0 Hy0 Hx0); lia) D y x Hy Hx).
  apply sat_opposed; [lia|lia|]. apply pass2_negative. exact E.
Qed.

(** ** Planes *)
Section Planes.
  Variables (lines samples : Z) (cs : list comp_spec) (ms ms' : list mcu) (k : nat) (c : comp_spec) (q q' p p' : list Z).
  Hypothesis (HO : header_ok lines samples cs) (Sh : Forall (mcu_shape cs) ms) (Sh' : Forall (mcu_shape cs) ms') (Ec : nth_error cs k = Some c).
  Hypothesis Lm : lenZ ms = mcus lines (largest (map cs_v cs)) * mcus samples (largest (map cs_h cs)).
  Hypothesis Lm' : lenZ ms' = mcus lines (largest (map cs_v cs)) * mcus samples (largest (map cs_h cs)).
  Hypothesis (P : plane_from lines samples cs ms k c q p) (P' : plane_from lines samples cs ms' k c q' p').
  Lemma plane_negative : negative_component k q q' ms ms' -> modest_component k q ms -> modest_component k q' ms' ->
    forall y x, 0 <= y < plane_rows lines cs c -> 0 <= x < plane_stride samples cs c -> opposed 255 257 (px p (plane_stride samples cs c) y x) (px p' (plane_stride samples cs c) y x).
  Proof using HO Sh Sh' Ec Lm Lm' P P'.
    intros S M M' y x Hy Hx. destruct P as [_ PP]. destruct P' as [_ PP']. destruct (PP y x Hy Hx) as [blk [qt [rows [V [O [D ->]]]]]]. destruct (PP' y x Hy Hx) as [blk' [qt' [rows' [V' [O' [D' ->]]]]]]. cbv zeta in V, V'.
    destruct (q_at_in lines samples cs ms k c y x HO Sh Lm Ec Hy Hx) as [m [Im Ib]]. destruct (q_at_in lines samples cs ms' k c y x HO Sh' Lm' Ec Hy Hx) as [m' [Im' Ib']].
    pose proof (q_at_pair lines samples cs ms ms' k c _ y x HO Sh Lm Ec S Hy Hx) as U. cbv beta in U.
    unfold in_block. refine (block_negative q q' _ _ _ _ _ _ _ _ U (M m _ Im Ib) (M' m' _ Im' Ib') V V' O O' (D true) (D' true) _ _ _ _).
    - pose proof (Z.mod_pos_bound y 8 ltac:(lia)). lia.
    - pose proof (Z.mod_pos_bound x 8 ltac:(lia)). lia.
  Qed.
End Planes.

(** ** What is drawn *)
Lemma shown_opposed : forall hr vr p p' stride w h row x, 1 <= hr -> 1 <= vr -> 0 <= row < vr * h -> 0 <= x < hr * w ->
  (forall y c, 0 <= y < h -> 0 <= c < w -> opposed 255 257 (px p stride y c) (px p' stride y c)) -> opposed 255 258 (shown hr vr p stride w h row x) (shown hr vr p' stride w h row x).
Proof.
  intros hr vr p p' stride w h row x Hh Hv R X B.
  assert (Ry : 0 <= row / vr < h) by (split; [apply Z.div_pos; lia|apply Z.div_lt_upper_bound; lia]).
  assert (Rx : 0 <= x / hr < w) by (split; [apply Z.div_pos; lia|apply Z.div_lt_upper_bound; lia]).
  assert (NB : forall last i, 0 <= i -> i / 2 <= last -> 0 <= neighbour last i <= last).
  { intros last i Hi Hl. rewrite neighbour_parity. destruct (i mod 2 =? 0); lia. }
  assert (W : forall a b, opposed 255 257 a b -> opposed 255 258 a b) by (unfold opposed; lia).
  unfold shown, double_width, double_height, double_both.
  destruct ((hr =? 1) && (vr =? 1)) eqn:K1.
  { assert (hr = 1) by lia. assert (vr = 1) by lia. subst. rewrite !Z.div_1_r in *. apply W, B; lia. }
  destruct ((hr =? 2) && (vr =? 1)) eqn:K2.
  { assert (hr = 2) by lia. assert (vr = 1) by lia. subst. rewrite !Z.div_1_r in *. pose proof (NB (w - 1) x ltac:(lia) ltac:(lia)) as N1.
    pose proof (B row (x / 2) ltac:(lia) ltac:(lia)). pose proof (B row (neighbour (w - 1) x) ltac:(lia) ltac:(lia)). unfold opposed in *. clear - H H0. lia. }
  destruct ((hr =? 1) && (vr =? 2)) eqn:K3.
  { assert (hr = 1) by lia. assert (vr = 2) by lia. subst. rewrite !Z.div_1_r in *. pose proof (NB (h - 1) row ltac:(lia) ltac:(lia)) as N1.
    pose proof (B (row / 2) x ltac:(lia) ltac:(lia)). pose proof (B (neighbour (h - 1) row) x ltac:(lia) ltac:(lia)). unfold opposed in *. clear - H H0. lia. }
  destruct ((hr =? 2) && (vr =? 2)) eqn:K4.
  { assert (hr = 2) by lia. assert (vr = 2) by lia. subst. pose proof (NB (h - 1) row ltac:(lia) ltac:(lia)) as N1. pose proof (NB (w - 1) x ltac:(lia) ltac:(lia)) as N3.
    pose proof (B (row / 2) (x / 2) ltac:(lia) ltac:(lia)) as H1. pose proof (B (neighbour (h - 1) row) (x / 2) ltac:(lia) ltac:(lia)) as H2.
    pose proof (B (row / 2) (neighbour (w - 1) x) ltac:(lia) ltac:(lia)) as H3. pose proof (B (neighbour (h - 1) row) (neighbour (w - 1) x) ltac:(lia) ltac:(lia)) as H4. unfold opposed in *. clear - H1 H2 H3 H4. lia. }
  apply W, B; auto; lia.
Qed.

Section Drawn.
  Variables (rayon : bool) (lines samples : Z) (cs : list comp_spec) (c : comp_spec) (y x : Z).
  Hypothesis (HO : header_ok lines samples cs) (I : In c cs) (A : ratios_accepted lines samples cs c) (Hy : 0 <= y < lines) (Hx : 0 <= x < samples).
  Hypothesis FW : full_width lines samples cs c.
  Let row := shown_row rayon (largest (map cs_v cs)) y.
  Lemma drawn_opposed : forall p p',
    (forall y x, 0 <= y < plane_rows lines cs c -> 0 <= x < plane_stride samples cs c -> opposed 255 257 (px p (plane_stride samples cs c) y x) (px p' (plane_stride samples cs c) y x)) ->
    opposed 255 258 (comp_drawn lines samples cs c p row x) (comp_drawn lines samples cs c p' row x).
  Proof using HO I A Hy Hx FW.
    intros p p' B. pose proof (row_range rayon lines samples cs y HO Hy) as Rw. fold row in Rw. destruct A as (A1 & A2 & _). unfold comp_drawn. cbv zeta.
    pose proof (full_left lines samples cs c x HO I FW Hx) as FL. unfold left_out in FL. cbv zeta in FL. rewrite FL.
    destruct HO as [_ _ Ne _ _ X]. rewrite Forall_forall in X.
    assert (Fh : 1 <= cs_h c <= largest (map cs_h cs)) by (destruct (X c I); pose proof (largest_ge (map cs_h cs) (cs_h c) (in_map cs_h cs c I)); lia).
    assert (Fv : 1 <= cs_v c <= largest (map cs_v cs)) by (destruct (X c I); pose proof (largest_ge (map cs_v cs) (cs_v c) (in_map cs_v cs c I)); lia).
    destruct (covered samples _ _ x Hx Fh A1) as [H1 H2]. destruct (covered lines _ _ row Rw Fv A2) as [H3 H4].
    pose proof (extent_le samples _ _ ltac:(lia) Fh) as X1. pose proof (extent_le lines _ _ ltac:(lia) Fv) as X2.
    unfold comp_shown. apply shown_opposed; [exact H1|exact H3|split; [apply Rw|exact H4]|split; [apply Hx|exact H2]|].
    intros y' x' Hy' Hx'. apply B; unfold plane_rows, plane_stride; lia.
  Qed.
End Drawn.

(** ** Colours *)
Lemma rgb_opposed : forall a b c a' b' c', opposed 255 258 a a' -> opposed 255 258 b b' -> opposed 255 258 c c' ->
  Forall2 (fun v v' => 252 <= v + v' <= 262) (rgb_fixed a b c) (rgb_fixed a' b' c').
Proof.
  unfold opposed, rgb_fixed. intros a b c a' b' c' Ha Hb Hc.
  assert (K : forall s s', 252 <= s + s' <= 262 -> 252 <= sat s + sat s' <= 262) by (unfold sat; clear; intros; lia).
  apply Forall2_cons; [|apply Forall2_cons; [|apply Forall2_cons; [|apply Forall2_nil]]]; apply K; lia.
Qed.
Lemma rgb_opposed_full : forall a b c a' b' c', opposed 255 257 a a' -> opposed 255 257 b b' -> opposed 255 257 c c' ->
  Forall2 (fun v v' => 253 <= v + v' <= 259) (rgb_fixed a b c) (rgb_fixed a' b' c').
Proof.
  unfold opposed, rgb_fixed. intros a b c a' b' c' Ha Hb Hc.
  assert (K : forall s s', 253 <= s + s' <= 259 -> 253 <= sat s + sat s' <= 259) by (unfold sat; clear; intros; lia).
  apply Forall2_cons; [|apply Forall2_cons; [|apply Forall2_cons; [|apply Forall2_nil]]]; apply K; lia.
Qed.

(** ** Two files *)
Section Files.
  Variables (dbg rayon : bool) (segs segs' : list (nat * hseg)) (h h' : frame_header) (fill1 fill2 fill1' fill2' : nat) (ss ss' : list scan_comp) (ts ts' : list tables)
    (qs qs' : list (list Z)) (ms ms' : list mcu) (data data' : list Z) (post post' : list (nat * hseg)) (fill3 fill3' : nat) (img : list Z).
  Let cs := fh_comps h.
  Let lines := fh_lines h.
  Let samples := fh_samples h.
  Hypothesis (En : encodes segs h ss ts qs ms data) (En' : encodes segs' h' ss' ts' qs' ms' data') (PO : post_ok post) (PO' : post_ok post').
  Hypothesis (El : fh_lines h' = lines) (Es : fh_samples h' = samples) (L0 : 0 < lines) (S0 : 0 < samples).
  Hypothesis Ef : map (fun c => (cs_h c, cs_v c)) (fh_comps h') = map (fun c => (cs_h c, cs_v c)) cs.
  Hypothesis Et : last_transform (segs' ++ post') = last_transform (segs ++ post).
  Let file := file_bytes segs fill1 fill2 (mkSpS ss 0 63 0 0) data post fill3.
  Let file' := file_bytes segs' fill1' fill2' (mkSpS ss' 0 63 0 0) data' post' fill3'.
  Hypothesis (B : bytes file) (B' : bytes file') (D : decode_fresh dbg rayon file = Ok img).
  Let t := last_transform (segs ++ post).

  Lemma negated_opposed : forall k c q q' p p' y x, negated k qs qs' ms ms' -> nth_error cs k = Some c -> 0 <= y < lines -> 0 <= x < samples ->
    nth_error qs k = Some q -> nth_error qs' k = Some q' -> ratios_accepted lines samples cs c -> plane_from lines samples cs ms k c q p -> plane_from lines samples cs ms' k c q' p' ->
    let a := comp_drawn lines samples cs c p (shown_row rayon (largest (map cs_v cs)) y) x in let a' := comp_drawn lines samples cs c p' (shown_row rayon (largest (map cs_v cs)) y) x in
    (full_width lines samples cs c -> opposed 255 258 a a') /\ (full_component cs c -> opposed 255 257 a a').
  Proof using En En' El Es Ef.
    intros k c q q' p p' y x U Ec Hy Hx Eq Eq' A P P'. destruct (U q q' Eq Eq') as [S [M M']].
    destruct (files_shape segs segs' h h' ss ss' ts ts' qs qs' ms ms' data data' En En' El Es Ef) as [Sh [Sh' [Lm Lm']]]. pose proof (files_header segs h ss ts qs ms data En) as HO. fold cs lines samples in Sh, Sh', Lm, Lm', HO.
    pose proof (plane_negative lines samples cs ms ms' k c q q' p p' HO Sh Sh' Ec Lm Lm' P P' S M M') as UP. cbv zeta. split.
    - intros FW. apply drawn_opposed; [exact HO|exact (nth_error_In _ _ Ec)|exact A|exact Hy|exact Hx|exact FW|]. exact UP.
    - intros F. destruct (drawn_full rayon lines samples cs c y x HO (nth_error_In _ _ Ec) Hy Hx F) as [R1 [R2 R3]]. rewrite !R3. apply UP; assumption.
  Qed.

  Lemma negative_four : lenZ cs = 4 -> exists img', decode_fresh dbg rayon file' = Ok img' /\
    forall k c y x, negated k qs qs' ms ms' -> nth_error cs k = Some c -> 0 <= y < lines -> 0 <= x < samples ->
      let a := nth k (pixel 4 samples y x img) 0 in let a' := nth k (pixel 4 samples y x img') 0 in
      (full_width lines samples cs c -> 252 <= a + a' <= 255) /\ (full_component cs c -> 253 <= a + a' <= 255).
  Proof using En En' PO PO' El Es L0 S0 Ef Et B B' D.
    intros C4. destruct (two_files dbg rayon segs segs' h h' fill1 fill2 fill1' fill2' ss ss' ts ts' qs qs' ms ms' data data' post post' fill3 fill3' img En En' PO PO' El Es L0 S0 Ef Et B B' D) as [img' [D' R]].
    fold cs lines samples in R. exists img'. split; [exact D'|]. intros k c0 y x U Ec Hy Hx. destruct (R y x Hy Hx) as [vs [vs' [E1 [E2 [L1 [L2 K]]]]]]. rewrite C4 in E1, E2. rewrite E1, E2.
    assert (L4 : length cs = 4%nat) by (unfold lenZ in C4; lia). destruct vs as [|a [|b [|c [|d [|]]]]]; try (cbn in L1; lia). destruct vs' as [|a' [|b' [|c' [|d' [|]]]]]; try (cbn in L2; lia). cbn [colour].
    destruct (K k c0 Ec) as [q [q' [p [p' [Eq [Eq' [A [P [P' [V V']]]]]]]]]]. pose proof (negated_opposed k c0 q q' p p' y x U Ec Hy Hx Eq Eq' A P P') as X. cbv zeta in X. rewrite <- V, <- V' in X.
    assert (G : forall v v', (full_width lines samples cs c0 -> opposed 255 258 v v') /\ (full_component cs c0 -> opposed 255 257 v v') ->
      (full_width lines samples cs c0 -> 252 <= 255 - v + (255 - v') <= 255) /\ (full_component cs c0 -> 253 <= 255 - v + (255 - v') <= 255)).
    { clear. intros v v' [O F]. split; intros H; [specialize (O H)|specialize (F H)]; unfold opposed in *; lia. }
    assert (Hk : (k < 4)%nat) by (rewrite <- L4; apply nth_error_Some; congruence). do 4 (destruct k as [|k]; [cbn [nth] in X |- *; cbv zeta; apply G; exact X|]). lia.
  Qed.

  Lemma negative_three : lenZ cs = 3 -> t <> Some 0 -> (forall k, negated k qs qs' ms ms') -> exists img', decode_fresh dbg rayon file' = Ok img' /\
    forall y x, 0 <= y < lines -> 0 <= x < samples ->
      (Forall (full_width lines samples cs) cs -> Forall2 (fun a a' => 252 <= a + a' <= 262) (pixel 3 samples y x img) (pixel 3 samples y x img')) /\
      (Forall (full_component cs) cs -> Forall2 (fun a a' => 253 <= a + a' <= 259) (pixel 3 samples y x img) (pixel 3 samples y x img')).
  Proof using En En' PO PO' El Es L0 S0 Ef Et B B' D.
    intros C3 T0 U. destruct (two_files dbg rayon segs segs' h h' fill1 fill2 fill1' fill2' ss ss' ts ts' qs qs' ms ms' data data' post post' fill3 fill3' img En En' PO PO' El Es L0 S0 Ef Et B B' D) as [img' [D' R]].
    fold cs lines samples t in R. exists img'. split; [exact D'|]. intros y x Hy Hx. destruct (R y x Hy Hx) as [vs [vs' [E1 [E2 [L1 [L2 K]]]]]]. rewrite C3 in E1, E2. rewrite E1, E2.
    assert (L3 : length cs = 3%nat) by (unfold lenZ in C3; lia). destruct vs as [|a [|b [|c [|]]]]; try (cbn in L1; lia). destruct vs' as [|a' [|b' [|c' [|]]]]; try (cbn in L2; lia). cbn [colour].
    replace (match t with Some 0 => true | _ => false end) with false by (destruct t as [[| |]|]; congruence).
    assert (X : forall k, (k < 3)%nat -> (Forall (full_width lines samples cs) cs -> opposed 255 258 (nth k [a; b; c] 0) (nth k [a'; b'; c'] 0)) /\ (Forall (full_component cs) cs -> opposed 255 257 (nth k [a; b; c] 0) (nth k [a'; b'; c'] 0))).
    { intros k Hk. destruct (nth_error cs k) as [c0|] eqn:Ec; [|apply nth_error_None in Ec; lia]. destruct (K k c0 Ec) as [q [q' [p [p' [Eq [Eq' [A [P [P' [V V']]]]]]]]]]. rewrite V, V'.
      destruct (negated_opposed k c0 q q' p p' y x (U k) Ec Hy Hx Eq Eq' A P P') as [X1 X2]. pose proof (nth_error_In _ _ Ec) as Ic. split; intros F; rewrite Forall_forall in F; [apply X1|apply X2]; exact (F c0 Ic). }
    pose proof (X 0%nat ltac:(lia)) as [Y0 Z0]. pose proof (X 1%nat ltac:(lia)) as [Y1 Z1]. pose proof (X 2%nat ltac:(lia)) as [Y2 Z2]. cbn [nth] in *. split; intros F.
    - apply rgb_opposed; auto.
    - apply rgb_opposed_full; auto.
  Qed.
End Files.

(** ** The negative of every image *)
Lemma negate_coef : forall b i, coef (negate_block b) i = - coef b i.
Proof. intros b [|i]; [reflexivity|]. unfold coef. cbn [nth negate_block q_dc q_ac]. rewrite <- (map_nth Z.opp). reflexivity. Qed.
Lemma negate_negative : forall q b, negative_block q q b (negate_block b).
Proof. intros q b i _. rewrite negate_coef. ring. Qed.
Lemma negate_twice : forall im, negate (negate im) = im.
Proof.
  intros [l s f q ms t r]. unfold negate. cbn [im_lines im_samples im_factors im_quant im_mcus im_transform im_restart]. f_equal.
  rewrite map_map. rewrite <- map_id. apply map_ext. intros m. rewrite map_map. rewrite <- map_id. apply map_ext. intros bs. rewrite map_map. rewrite <- map_id. apply map_ext.
  intros [d ac]. unfold negate_block. cbn [q_dc q_ac]. f_equal; [lia|]. rewrite map_map. rewrite <- map_id. apply map_ext. intros v. lia.
Qed.
Lemma negate_component : forall k q im, negative_component k q q (im_mcus im) (im_mcus (negate im)).
Proof.
  intros k q im. unfold negative_component, negate. cbn [im_mcus]. induction (im_mcus im) as [|m ms IH]; cbn [map]; constructor; [|exact IH].
  pose proof (map_nth (map negate_block) m [] k) as H. cbn [map] in H. rewrite H. clear H. induction (nth k m []) as [|b bs IHb]; cbn [map]; constructor; [apply negate_negative|exact IHb].
Qed.

Section Negate.
  Variables (im : image).
  Hypothesis (OK : image_ok im) (Low : Forall (Forall (Forall (fun b => q_dc b <> -1024))) (im_mcus im)).
  Lemma negate_ok : image_ok (negate im).
  Proof using OK Low.
    split; try apply OK.
    - pose proof (io_shape im OK) as S. unfold negate. cbn [im_factors im_mcus]. apply Forall_map. revert S. apply Forall_impl. intros m S.
      clear - S. induction S as [|f qs fs m H S IH]; cbn [map]; constructor; [|exact IH]. unfold lenZ in *. rewrite map_length. exact H.
    - pose proof (io_coefs im OK) as S. unfold negate. cbn [im_mcus]. rewrite Forall_forall in *. intros m Im. apply in_map_iff in Im. destruct Im as [m0 [<- I0]]. specialize (S m0 I0). pose proof (Low m0 I0) as L0.
      rewrite Forall_forall in *. intros bs Ib. apply in_map_iff in Ib. destruct Ib as [bs0 [<- Ib0]]. specialize (S bs0 Ib0). specialize (L0 bs0 Ib0).
      rewrite Forall_forall in *. intros b Iq. apply in_map_iff in Iq. destruct Iq as [b0 [<- Iq0]]. specialize (S b0 Iq0). specialize (L0 b0 Iq0). destruct S as (S1 & S2 & S3).
      split; [cbn [negate_block q_dc]; lia|]. cbn [negate_block q_ac]. split; [rewrite map_length; exact S2|]. apply Forall_map. revert S3. apply Forall_impl. intros v V. lia.
    - unfold negate. cbn [im_lines im_samples im_factors im_mcus]. unfold lenZ. rewrite map_length. apply (io_count im OK).
  Qed.
  Hypothesis Mo : forall k q, nth_error (im_quant im) k = Some q -> modest_component k q (im_mcus im) /\ modest_component k q (im_mcus (negate im)).
  Lemma negate_negated : forall k, negated k (im_quant im) (im_quant (negate im)) (im_mcus im) (im_mcus (negate im)).
  Proof using Mo.
    intros k q q' Eq Eq'. change (im_quant (negate im)) with (im_quant im) in Eq'. assert (q' = q) by congruence. subst q'. split; [apply negate_component|]. exact (Mo k q Eq).
  Qed.
  Lemma enc_count : lenZ (enc_comps 0 (im_factors im)) = lenZ (im_factors im).
  Proof using. unfold lenZ. clear. f_equal. generalize 0. induction (im_factors im) as [|[a b] fs IH]; intros i; [reflexivity|]. cbn [enc_comps length]. rewrite IH. reflexivity. Qed.
  Variables (dbg rayon : bool) (img : list Z).
  Hypothesis (L0 : 0 < im_lines im) (S0 : 0 < im_samples im) (D : decode_fresh dbg rayon (encode im) = Ok img).
  Let cs := enc_comps 0 (im_factors im).
  Lemma negate_four : lenZ (im_factors im) = 4 -> exists img', decode_fresh dbg rayon (encode (negate im)) = Ok img' /\
    forall k c y x, nth_error cs k = Some c -> 0 <= y < im_lines im -> 0 <= x < im_samples im ->
      let a := nth k (pixel 4 (im_samples im) y x img) 0 in let a' := nth k (pixel 4 (im_samples im) y x img') 0 in
      (full_width (im_lines im) (im_samples im) cs c -> 252 <= a + a' <= 255) /\ (full_component cs c -> 253 <= a + a' <= 255).
  Proof using OK Low Mo L0 S0 D.
    intros C4. rewrite <- enc_count in C4.
    destruct (negative_four dbg rayon (enc_segs im) (enc_segs (negate im)) (enc_header im) (enc_header (negate im)) 0 0 0 0 (enc_ss im) (enc_ss (negate im)) _ _ (im_quant im) (im_quant (negate im)) (im_mcus im) (im_mcus (negate im))
      (enc_data im) (enc_data (negate im)) [] [] 0 0 img (enc_encodes im OK) (enc_encodes (negate im) negate_ok) no_post no_post eq_refl eq_refl L0 S0 eq_refl eq_refl (enc_bytes im OK) (enc_bytes (negate im) negate_ok) D C4) as [img' [D' R]].
    exists img'. split; [exact D'|]. intros k c y x Ec Hy Hx. exact (R k c y x (negate_negated k) Ec Hy Hx).
  Qed.
  Lemma negate_three : lenZ (im_factors im) = 3 -> im_transform im <> Some 0 -> exists img', decode_fresh dbg rayon (encode (negate im)) = Ok img' /\
    forall y x, 0 <= y < im_lines im -> 0 <= x < im_samples im ->
      (Forall (full_width (im_lines im) (im_samples im) cs) cs -> Forall2 (fun a a' => 252 <= a + a' <= 262) (pixel 3 (im_samples im) y x img) (pixel 3 (im_samples im) y x img')) /\
      (Forall (full_component cs) cs -> Forall2 (fun a a' => 253 <= a + a' <= 259) (pixel 3 (im_samples im) y x img) (pixel 3 (im_samples im) y x img')).
  Proof using OK Low Mo L0 S0 D.
    intros C3 T. rewrite <- enc_count in C3.
    assert (T0 : last_transform (enc_segs im ++ []) <> Some 0) by (unfold enc_segs; destruct (im_transform im) as [t|]; cbn; [exact T|discriminate]).
    exact (negative_three dbg rayon (enc_segs im) (enc_segs (negate im)) (enc_header im) (enc_header (negate im)) 0 0 0 0 (enc_ss im) (enc_ss (negate im)) _ _ (im_quant im) (im_quant (negate im)) (im_mcus im) (im_mcus (negate im))
      (enc_data im) (enc_data (negate im)) [] [] 0 0 img (enc_encodes im OK) (enc_encodes (negate im) negate_ok) no_post no_post eq_refl eq_refl L0 S0 eq_refl eq_refl (enc_bytes im OK) (enc_bytes (negate im) negate_ok) D C3 T0 negate_negated).
  Qed.
End Negate.
