(** Adding the coefficients of two images (C85). *)
From Verif Require Import Base Tactics SpecBits SpecReader SpecMarker Biterator Huffman Marker Types Parsers Idct Upsampler Decode SpecGlobal SpecStream.
From Verif Require Import SpecHuffman SpecBlock SpecTables SpecFrame SpecSegments SpecScan SpecPlane SpecUpsample SpecImage SpecColor SpecFile SpecAnswer SpecIdct SpecFlat SpecEncoder SpecEdit SpecFlip SpecChannel SpecSum.
From Verif Require Import ParsersP InvP MarkerP GlobalP StreamP2 FileP ImageP BlockP UpsampleP RayonP IdctP IdctP2 AnswerP AnswerP2 AnswerP3 ReuseP PiecesP DamageP2 TransP UpsampleP2 FlatP EditP EditP2 EncoderP MosaicP FlipP FlipP3 ChannelP.

(** ** Blocks *)
(** Samples add up, relative to the middle 128, up to [n]. *)
Definition adds (n a b c : Z) : Prop := - n <= c - (a + b - 128) <= n.
Section Block.
  Variables (a q a' q' a'' q'' : list Z).
  Hypothesis E : forall u v, (u < 8)%nat -> (v < 8)%nat -> deq a'' q'' v u = deq a q v u + deq a' q' v u.
  Lemma pass1_sum : forall y u, (u < 8)%nat -> exists e, -1 <= e <= 1 /\ pass1 a'' q'' y u = pass1 a q y u + pass1 a' q' y u + e.
  Proof.
    intros y u Hu. unfold pass1.
    replace (sum8 (fun v => mx y v * deq a'' q'' v u)) with (sum8 (fun v => mx y v * deq a q v u) + sum8 (fun v => mx y v * deq a' q' v u)).
    - generalize (sum8 (fun v => mx y v * deq a q v u)), (sum8 (fun v => mx y v * deq a' q' v u)). intros s t.
      exists ((512 + (s + t)) / 1024 - (512 + s) / 1024 - (512 + t) / 1024). split; [|ring]. clear. lia.
    - unfold sum8. rewrite !E by lia.
      generalize (mx y 0), (mx y 1), (mx y 2), (mx y 3), (mx y 4), (mx y 5), (mx y 6), (mx y 7), (deq a q 0 u), (deq a q 1 u), (deq a q 2 u), (deq a q 3 u), (deq a q 4 u), (deq a q 5 u), (deq a q 6 u), (deq a q 7 u),
        (deq a' q' 0 u), (deq a' q' 1 u), (deq a' q' 2 u), (deq a' q' 3 u), (deq a' q' 4 u), (deq a' q' 5 u), (deq a' q' 6 u), (deq a' q' 7 u). clear. intros. ring.
  Qed.
  Lemma pass2_sum : forall y x, adds 1 (pass2 a q y x) (pass2 a' q' y x) (pass2 a'' q'' y x).
  Proof.
    intros y x. unfold pass2.
    destruct (pass1_sum y 0 ltac:(lia)) as [e0 [H0 E0]]. destruct (pass1_sum y 1 ltac:(lia)) as [e1 [H1 E1]]. destruct (pass1_sum y 2 ltac:(lia)) as [e2 [H2 E2]]. destruct (pass1_sum y 3 ltac:(lia)) as [e3 [H3 E3]].
    destruct (pass1_sum y 4 ltac:(lia)) as [e4 [H4 E4]]. destruct (pass1_sum y 5 ltac:(lia)) as [e5 [H5 E5]]. destruct (pass1_sum y 6 ltac:(lia)) as [e6 [H6 E6]]. destruct (pass1_sum y 7 ltac:(lia)) as [e7 [H7 E7]].
    set (d := mx x 0 * e0 + mx x 1 * e1 + mx x 2 * e2 + mx x 3 * e3 + mx x 4 * e4 + mx x 5 * e5 + mx x 6 * e6 + mx x 7 * e7).
    assert (S : sum8 (fun u => mx x u * pass1 a'' q'' y u) = sum8 (fun u => mx x u * pass1 a q y u) + sum8 (fun u => mx x u * pass1 a' q' y u) + d).
    { unfold sum8, d. rewrite E0, E1, E2, E3, E4, E5, E6, E7. generalize (mx x 0), (mx x 1), (mx x 2), (mx x 3), (mx x 4), (mx x 5), (mx x 6), (mx x 7), (pass1 a q y 0), (pass1 a q y 1), (pass1 a q y 2), (pass1 a q y 3), (pass1 a q y 4), (pass1 a q y 5), (pass1 a q y 6), (pass1 a q y 7),
        (pass1 a' q' y 0), (pass1 a' q' y 1), (pass1 a' q' y 2), (pass1 a' q' y 3), (pass1 a' q' y 4), (pass1 a' q' y 5), (pass1 a' q' y 6), (pass1 a' q' y 7). clear. intros. ring. }
    assert (B : -45464 <= d <= 45464).
    { assert (T : forall k e, -1 <= e <= 1 -> -5683 <= mx x k * e <= 5683) by (clear; intros k e He; pose proof (mx_bound x k); nia).
      pose proof (T 0%nat e0 H0). pose proof (T 1%nat e1 H1). pose proof (T 2%nat e2 H2). pose proof (T 3%nat e3 H3). pose proof (T 4%nat e4 H4). pose proof (T 5%nat e5 H5). pose proof (T 6%nat e6 H6). pose proof (T 7%nat e7 H7). unfold d. lia. }
    rewrite S. set (s := sum8 (fun u => mx x u * pass1 a q y u)). set (t := sum8 (fun u => mx x u * pass1 a' q' y u)). clearbody s t d. clear - B. unfold adds. lia.
  Qed.
End Block.
Lemma unclipped_total : forall q b blk qt, block_values blk (q_dc b) (q_ac b) -> natural_order qt q -> unclipped q b ->
  total blk qt <= 65536 /\ forall y x, (y < 8)%nat -> (x < 8)%nat -> 0 <= pass2 blk qt y x <= 255.
Proof.
  intros q b blk qt V N [M G]. rewrite (sum_total q b blk qt V N) in M. split; [exact M|]. intros y x Hy Hx. rewrite <- (raw_pass2 q b blk qt y x V N). apply G; assumption.
Qed.
Lemma unclipped_rows : forall q b blk qt rows, unclipped q b -> block_values blk (q_dc b) (q_ac b) -> natural_order qt q -> idct_block_rows true blk qt = Ok rows ->
  forall y x, (y < 8)%nat -> (x < 8)%nat -> nth x (nth y rows []) 0 = pass2 blk qt y x.
Proof.
  intros q b blk qt rows M V N D y x Hy Hx. destruct (unclipped_total q b blk qt V N M) as [T G].
  rewrite (block_rows_sat true blk qt rows (modest_moderate _ _ (proj1 V) T) T ltac:(intros y0 x0 Hy0 Hx0; specialize (G y0 x0 Hy0 Hx0); lia) D y x Hy Hx).
  specialize (G y x Hy Hx). unfold sat. lia.
Qed.
Lemma block_sum : forall q q' q'' b b' b'' blk blk' blk'' qt qt' qt'' rows rows' rows'', sum_block q q' q'' b b' b'' -> unclipped q b -> unclipped q' b' -> unclipped q'' b'' ->
  block_values blk (q_dc b) (q_ac b) -> block_values blk' (q_dc b') (q_ac b') -> block_values blk'' (q_dc b'') (q_ac b'') -> natural_order qt q -> natural_order qt' q' -> natural_order qt'' q'' ->
  idct_block_rows true blk qt = Ok rows -> idct_block_rows true blk' qt' = Ok rows' -> idct_block_rows true blk'' qt'' = Ok rows'' ->
  forall y x, (y < 8)%nat -> (x < 8)%nat -> adds 1 (nth x (nth y rows []) 0) (nth x (nth y rows' []) 0) (nth x (nth y rows'' []) 0).
Proof.
  intros q q' q'' b b' b'' blk blk' blk'' qt qt' qt'' rows rows' rows'' U M M' M'' V V' V'' N N' N'' D D' D'' y x Hy Hx.
  assert (E : forall u v, (u < 8)%nat -> (v < 8)%nat -> deq blk'' qt'' v u = deq blk qt v u + deq blk' qt' v u).
  { intros u v Hu Hv. unfold deq. destruct (natural_unnatural (u + 8 * v) ltac:(lia)) as [En L]. destruct V as [_ V]. destruct V' as [_ V']. destruct V'' as [_ V'']. destruct N as [_ N]. destruct N' as [_ N']. destruct N'' as [_ N''].
    rewrite <- En. rewrite V, V', V'', N, N', N'' by exact L. exact (U _ L). }
  rewrite (unclipped_rows q b blk qt rows M V N D y x Hy Hx), (unclipped_rows q' b' blk' qt' rows' M' V' N' D' y x Hy Hx), (unclipped_rows q'' b'' blk'' qt'' rows'' M'' V'' N'' D'' y x Hy Hx).
  apply pass2_sum. exact E.
Qed.

(** ** Planes *)
Lemma blocks_nth : forall q q' q'' l l' l'', sum_blocks q q' q'' l l' l'' -> forall i d d' d'', (i < length l)%nat ->
  sum_block q q' q'' (nth i l d) (nth i l' d') (nth i l'' d'') /\ unclipped q (nth i l d) /\ unclipped q' (nth i l' d') /\ unclipped q'' (nth i l'' d'').
Proof.
  intros q q' q'' l. induction l as [|b l IH]; intros l' l'' F i d d' d'' Hi; inversion F; subst; cbn [length] in Hi; [lia|]. destruct i as [|i]; cbn [nth]; [auto|]. apply IH; [assumption|lia].
Qed.
Lemma mcus_nth : forall k q q' q'' ms ms' ms'', sum_component k q q' q'' ms ms' ms'' -> forall i d d' d'', (i < length ms)%nat ->
  sum_blocks q q' q'' (nth k (nth i ms d) []) (nth k (nth i ms' d') []) (nth k (nth i ms'' d'') []).
Proof.
  intros k q q' q'' ms. induction ms as [|m ms IH]; intros ms' ms'' F i d d' d'' Hi; inversion F; subst; cbn [length] in Hi; [lia|]. destruct i as [|i]; cbn [nth]; [assumption|]. apply IH; [assumption|lia].
Qed.
Lemma q_at_three : forall lines samples cs ms ms' ms'' k c q q' q'' y x, header_ok lines samples cs -> Forall (mcu_shape cs) ms ->
  lenZ ms = mcus lines (largest (map cs_v cs)) * mcus samples (largest (map cs_h cs)) -> nth_error cs k = Some c -> sum_component k q q' q'' ms ms' ms'' ->
  0 <= y < plane_rows lines cs c -> 0 <= x < plane_stride samples cs c ->
  let at_ := fun ms => q_at ms (mcus samples (largest (map cs_h cs))) k (cs_h c) (cs_v c) y x in
  sum_block q q' q'' (at_ ms) (at_ ms') (at_ ms'') /\ unclipped q (at_ ms) /\ unclipped q' (at_ ms') /\ unclipped q'' (at_ ms'').
Proof.
  intros lines samples cs ms ms' ms'' k c q q' q'' y x HO Sh Lm Ec F Hy Hx. destruct HO as [_ _ Ne _ _ X]. rewrite Forall_forall in X.
  destruct (X c (nth_error_In _ _ Ec)) as [Fh Fv]. unfold plane_rows, plane_stride in *.
  set (mw := mcus samples (largest (map cs_h cs))) in *. set (mh := mcus lines (largest (map cs_v cs))) in *.
  assert (R : 0 <= mcu_row (cs_v c) y < mh) by (unfold mcu_row; split; [apply Z.div_pos; lia|apply Z.div_lt_upper_bound; lia]).
  assert (C : 0 <= mcu_col (cs_h c) x < mw) by (unfold mcu_col; split; [apply Z.div_pos; lia|apply Z.div_lt_upper_bound; lia]).
  cbv zeta. unfold q_at. set (i := Z.to_nat (mcu_row (cs_v c) y * mw + mcu_col (cs_h c) x)).
  assert (Hi : (i < length ms)%nat) by (unfold i; unfold lenZ in Lm; clear - R C Lm; nia).
  pose proof (mcus_nth _ _ _ _ _ _ _ F i [] [] [] Hi) as G. apply blocks_nth; [exact G|].
  rewrite Forall_forall in Sh. specialize (Sh (nth i ms []) (nth_In _ _ Hi)). unfold mcu_shape in Sh. set (m := nth i ms []) in *.
  assert (Lb : lenZ (nth k m []) = cs_h c * cs_v c).
  { destruct (nth_error m k) as [b|] eqn:Eb; [rewrite (nth_error_nth _ _ [] Eb); exact (Forall2_get _ _ _ _ _ Sh _ _ _ Ec Eb)|].
    exfalso. apply nth_error_None in Eb. assert (L : length cs = length m) by (clear - Sh; induction Sh; cbn; congruence). assert (Hk : (k < length cs)%nat) by (apply nth_error_Some; congruence). lia. }
  unfold lenZ in Lb. unfold block_no. pose proof (Z.mod_pos_bound y (8 * cs_v c) ltac:(lia)) as A. pose proof (Z.mod_pos_bound x (8 * cs_h c) ltac:(lia)) as B.
  assert (A1 : 0 <= y mod (8 * cs_v c) / 8 < cs_v c) by (split; [apply Z.div_pos; lia|apply Z.div_lt_upper_bound; lia]).
  assert (B1 : 0 <= x mod (8 * cs_h c) / 8 < cs_h c) by (split; [apply Z.div_pos; lia|apply Z.div_lt_upper_bound; lia]).
  clear - Lb A1 B1. generalize dependent (y mod (8 * cs_v c) / 8). generalize dependent (x mod (8 * cs_h c) / 8). intros; nia.
Qed.

Section Planes.
  Variables (lines samples : Z) (cs : list comp_spec) (ms ms' ms'' : list mcu) (k : nat) (c : comp_spec) (q q' q'' p p' p'' : list Z).
  Hypothesis (HO : header_ok lines samples cs) (Sh : Forall (mcu_shape cs) ms) (Ec : nth_error cs k = Some c).
  Hypothesis Lm : lenZ ms = mcus lines (largest (map cs_v cs)) * mcus samples (largest (map cs_h cs)).
  Hypothesis (P : plane_from lines samples cs ms k c q p) (P' : plane_from lines samples cs ms' k c q' p') (P'' : plane_from lines samples cs ms'' k c q'' p'').
  Lemma plane_sum : sum_component k q q' q'' ms ms' ms'' ->
    forall y x, 0 <= y < plane_rows lines cs c -> 0 <= x < plane_stride samples cs c -> let at_ := fun p => px p (plane_stride samples cs c) y x in adds 1 (at_ p) (at_ p') (at_ p'').
  Proof using HO Sh Ec Lm P P' P''.
    intros S y x Hy Hx. cbv zeta. destruct P as [_ PP]. destruct P' as [_ PP']. destruct P'' as [_ PP'']. destruct (PP y x Hy Hx) as [blk [qt [rows [V [O [D ->]]]]]]. destruct (PP' y x Hy Hx) as [blk' [qt' [rows' [V' [O' [D' ->]]]]]].
    destruct (PP'' y x Hy Hx) as [blk'' [qt'' [rows'' [V'' [O'' [D'' ->]]]]]]. cbv zeta in V, V', V''.
    destruct (q_at_three lines samples cs ms ms' ms'' k c q q' q'' y x HO Sh Lm Ec S Hy Hx) as [U [M [M' M'']]].
    unfold in_block. refine (block_sum q q' q'' _ _ _ _ _ _ _ _ _ _ _ _ U M M' M'' V V' V'' O O' O'' (D true) (D' true) (D'' true) _ _ _ _).
    - pose proof (Z.mod_pos_bound y 8 ltac:(lia)). lia.
    - pose proof (Z.mod_pos_bound x 8 ltac:(lia)). lia.
  Qed.
End Planes.

(** ** What is drawn *)
Lemma shown_sum : forall hr vr p p' p'' stride w h row x, 1 <= hr -> 1 <= vr -> 0 <= row < vr * h -> 0 <= x < hr * w ->
  (forall y c, 0 <= y < h -> 0 <= c < w -> adds 1 (px p stride y c) (px p' stride y c) (px p'' stride y c)) ->
  adds 2 (shown hr vr p stride w h row x) (shown hr vr p' stride w h row x) (shown hr vr p'' stride w h row x).
Proof.
  intros hr vr p p' p'' stride w h row x Hh Hv R X B.
  assert (Ry : 0 <= row / vr < h) by (split; [apply Z.div_pos; lia|apply Z.div_lt_upper_bound; lia]).
  assert (Rx : 0 <= x / hr < w) by (split; [apply Z.div_pos; lia|apply Z.div_lt_upper_bound; lia]).
  assert (NB : forall last i, 0 <= i -> i / 2 <= last -> 0 <= neighbour last i <= last).
  { intros last i Hi Hl. rewrite neighbour_parity. destruct (i mod 2 =? 0); lia. }
  assert (W : forall a b c, adds 1 a b c -> adds 2 a b c) by (unfold adds; lia).
  unfold shown, double_width, double_height, double_both.
  destruct ((hr =? 1) && (vr =? 1)) eqn:K1.
  { assert (hr = 1) by lia. assert (vr = 1) by lia. subst. rewrite !Z.div_1_r in *. apply W, B; lia. }
  destruct ((hr =? 2) && (vr =? 1)) eqn:K2.
  { assert (hr = 2) by lia. assert (vr = 1) by lia. subst. rewrite !Z.div_1_r in *. pose proof (NB (w - 1) x ltac:(lia) ltac:(lia)) as N1.
    pose proof (B row (x / 2) ltac:(lia) ltac:(lia)). pose proof (B row (neighbour (w - 1) x) ltac:(lia) ltac:(lia)). unfold adds in *. clear - H H0. lia. }
  destruct ((hr =? 1) && (vr =? 2)) eqn:K3.
  { assert (hr = 1) by lia. assert (vr = 2) by lia. subst. rewrite !Z.div_1_r in *. pose proof (NB (h - 1) row ltac:(lia) ltac:(lia)) as N1.
    pose proof (B (row / 2) x ltac:(lia) ltac:(lia)). pose proof (B (neighbour (h - 1) row) x ltac:(lia) ltac:(lia)). unfold adds in *. clear - H H0. lia. }
  destruct ((hr =? 2) && (vr =? 2)) eqn:K4.
  { assert (hr = 2) by lia. assert (vr = 2) by lia. subst. pose proof (NB (h - 1) row ltac:(lia) ltac:(lia)) as N1. pose proof (NB (w - 1) x ltac:(lia) ltac:(lia)) as N3.
    pose proof (B (row / 2) (x / 2) ltac:(lia) ltac:(lia)) as H1. pose proof (B (neighbour (h - 1) row) (x / 2) ltac:(lia) ltac:(lia)) as H2.
    pose proof (B (row / 2) (neighbour (w - 1) x) ltac:(lia) ltac:(lia)) as H3. pose proof (B (neighbour (h - 1) row) (neighbour (w - 1) x) ltac:(lia) ltac:(lia)) as H4. unfold adds in *. clear - H1 H2 H3 H4. lia. }
  apply W, B; auto; lia.
Qed.
Section Drawn.
  Variables (rayon : bool) (lines samples : Z) (cs : list comp_spec) (c : comp_spec) (y x : Z).
  Hypothesis (HO : header_ok lines samples cs) (I : In c cs) (A : ratios_accepted lines samples cs c) (Hy : 0 <= y < lines) (Hx : 0 <= x < samples).
  Hypothesis FW : full_width lines samples cs c.
  Let row := shown_row rayon (largest (map cs_v cs)) y.
  Lemma drawn_sum : forall p p' p'',
    (forall y x, 0 <= y < plane_rows lines cs c -> 0 <= x < plane_stride samples cs c -> adds 1 (px p (plane_stride samples cs c) y x) (px p' (plane_stride samples cs c) y x) (px p'' (plane_stride samples cs c) y x)) ->
    adds 2 (comp_drawn lines samples cs c p row x) (comp_drawn lines samples cs c p' row x) (comp_drawn lines samples cs c p'' row x).
  Proof using HO I A Hy Hx FW.
    intros p p' p'' B. pose proof (row_range rayon lines samples cs y HO Hy) as Rw. fold row in Rw. destruct A as (A1 & A2 & _). unfold comp_drawn. cbv zeta.
    pose proof (full_left lines samples cs c x HO I FW Hx) as FL. unfold left_out in FL. cbv zeta in FL. rewrite FL.
    destruct HO as [_ _ Ne _ _ X]. rewrite Forall_forall in X.
    assert (Fh : 1 <= cs_h c <= largest (map cs_h cs)) by (destruct (X c I); pose proof (largest_ge (map cs_h cs) (cs_h c) (in_map cs_h cs c I)); lia).
    assert (Fv : 1 <= cs_v c <= largest (map cs_v cs)) by (destruct (X c I); pose proof (largest_ge (map cs_v cs) (cs_v c) (in_map cs_v cs c I)); lia).
    destruct (covered samples _ _ x Hx Fh A1) as [H1 H2]. destruct (covered lines _ _ row Rw Fv A2) as [H3 H4].
    pose proof (extent_le samples _ _ ltac:(lia) Fh) as X1. pose proof (extent_le lines _ _ ltac:(lia) Fv) as X2.
    unfold comp_shown. apply shown_sum; [exact H1|exact H3|split; [apply Rw|exact H4]|split; [apply Hx|exact H2]|].
    intros y' x' Hy' Hx'. apply B; unfold plane_rows, plane_stride; lia.
  Qed.
End Drawn.

(** ** Colours *)
Definition sums (n a a' a'' : Z) : Prop := inner a -> inner a' -> inner a'' -> - n <= a'' - (a + a' - 128) <= n.
Lemma sat_sums : forall n s s' s'', adds n s s' s'' -> sums n (sat s) (sat s') (sat s'').
Proof. unfold sums, adds, inner, sat. intros. lia. Qed.
Lemma rgb_sums : forall n K y cb cr y' cb' cr' y'' cb'' cr'', (n = 1 /\ K = 4 \/ n = 2 /\ K = 7) -> adds n y y' y'' -> adds n cb cb' cb'' -> adds n cr cr' cr'' ->
  forall i, sums K (nth i (rgb_fixed y cb cr) 0) (nth i (rgb_fixed y' cb' cr') 0) (nth i (rgb_fixed y'' cb'' cr'') 0).
Proof.
  intros n K y cb cr y' cb' cr' y'' cb'' cr'' N Hy Hb Hr i. unfold rgb_fixed.
  destruct i as [|[|[|i]]]; cbn [nth]; [apply sat_sums; unfold adds in *; destruct N as [[-> ->]|[-> ->]]; lia..|]. destruct i; unfold sums, inner; intros; lia.
Qed.

(** ** Three files *)
Section Files.
  Variables (dbg rayon : bool) (segs segs' segs'' : list (nat * hseg)) (h h' h'' : frame_header) (fill1 fill2 fill1' fill2' fill1'' fill2'' : nat) (ss ss' ss'' : list scan_comp) (ts ts' ts'' : list tables)
    (qs qs' qs'' : list (list Z)) (ms ms' ms'' : list mcu) (data data' data'' : list Z) (post post' post'' : list (nat * hseg)) (fill3 fill3' fill3'' : nat) (img : list Z).
  Let cs := fh_comps h.
  Let lines := fh_lines h.
  Let samples := fh_samples h.
  Hypothesis (En : encodes segs h ss ts qs ms data) (En' : encodes segs' h' ss' ts' qs' ms' data') (En'' : encodes segs'' h'' ss'' ts'' qs'' ms'' data'').
  Hypothesis (PO : post_ok post) (PO' : post_ok post') (PO'' : post_ok post'').
  Hypothesis (El : fh_lines h' = lines) (El' : fh_lines h'' = lines) (Es : fh_samples h' = samples) (Es' : fh_samples h'' = samples) (L0 : 0 < lines) (S0 : 0 < samples).
  Hypothesis Ef : map (fun c => (cs_h c, cs_v c)) (fh_comps h') = map (fun c => (cs_h c, cs_v c)) cs.
  Hypothesis Ef' : map (fun c => (cs_h c, cs_v c)) (fh_comps h'') = map (fun c => (cs_h c, cs_v c)) cs.
  Hypothesis Et : last_transform (segs' ++ post') = last_transform (segs ++ post).
  Hypothesis Et' : last_transform (segs'' ++ post'') = last_transform (segs ++ post).
  Let file := file_bytes segs fill1 fill2 (mkSpS ss 0 63 0 0) data post fill3.
  Let file' := file_bytes segs' fill1' fill2' (mkSpS ss' 0 63 0 0) data' post' fill3'.
  Let file'' := file_bytes segs'' fill1'' fill2'' (mkSpS ss'' 0 63 0 0) data'' post'' fill3''.
  Hypothesis (B : bytes file) (B' : bytes file') (B'' : bytes file'') (D : decode_fresh dbg rayon file = Ok img).
  Let t := last_transform (segs ++ post).

  Lemma three_files : exists img' img'', decode_fresh dbg rayon file' = Ok img' /\ decode_fresh dbg rayon file'' = Ok img'' /\
    forall y x, 0 <= y < lines -> 0 <= x < samples -> exists vs vs' vs'',
      pixel (lenZ cs) samples y x img = colour t vs /\ pixel (lenZ cs) samples y x img' = colour t vs' /\ pixel (lenZ cs) samples y x img'' = colour t vs'' /\
      length vs = length cs /\ length vs' = length cs /\ length vs'' = length cs /\
      forall k c, nth_error cs k = Some c -> summed k qs qs' qs'' ms ms' ms'' ->
        (full_width lines samples cs c -> adds 2 (nth k vs 0) (nth k vs' 0) (nth k vs'' 0)) /\ (full_component cs c -> adds 1 (nth k vs 0) (nth k vs' 0) (nth k vs'' 0)).
  Proof using En En' En'' PO PO' PO'' El El' Es Es' L0 S0 Ef Ef' Et Et' B B' B'' D.
    destruct (two_files dbg rayon segs segs' h h' fill1 fill2 fill1' fill2' ss ss' ts ts' qs qs' ms ms' data data' post post' fill3 fill3' img En En' PO PO' El Es L0 S0 Ef Et B B' D) as [img' [D' R]].
    destruct (two_files dbg rayon segs segs'' h h'' fill1 fill2 fill1'' fill2'' ss ss'' ts ts'' qs qs'' ms ms'' data data'' post post'' fill3 fill3'' img En En'' PO PO'' El' Es' L0 S0 Ef' Et' B B'' D) as [img'' [D'' R']].
    fold cs lines samples t in R, R'. exists img', img''. split; [exact D'|]. split; [exact D''|]. intros y x Hy Hx.
    destruct (R y x Hy Hx) as [vs [vs' [E1 [E2 [L1 [L2 K]]]]]]. destruct (R' y x Hy Hx) as [ws [vs'' [_ [E3 [_ [L3 K']]]]]]. exists vs, vs', vs''. do 6 (split; [assumption|]).
    intros k c Ec U. destruct (K k c Ec) as [q [q' [p [p' [Eq [Eq' [A [P [P' [V V']]]]]]]]]]. destruct (K' k c Ec) as [q0 [q'' [p0 [p'' [Eq0 [Eq'' [_ [_ [P'' [_ V'']]]]]]]]]].
    destruct (files_shape segs segs' h h' ss ss' ts ts' qs qs' ms ms' data data' En En' El Es Ef) as [Sh [_ [Lm _]]]. pose proof (files_header segs h ss ts qs ms data En) as HO. fold cs lines samples in Sh, Lm, HO.
    pose proof (plane_sum lines samples cs ms ms' ms'' k c q q' q'' p p' p'' HO Sh Ec Lm P P' P'' (U q q' q'' Eq Eq' Eq'')) as UP. cbv zeta in UP. rewrite V, V', V''. split.
    - intros FW. apply drawn_sum; [exact HO|exact (nth_error_In _ _ Ec)|exact A|exact Hy|exact Hx|exact FW|]. exact UP.
    - intros F. destruct (drawn_full rayon lines samples cs c y x HO (nth_error_In _ _ Ec) Hy Hx F) as [R1 [R2 R3]]. rewrite !R3. apply UP; assumption.
  Qed.
  Lemma sum_four : lenZ cs = 4 -> exists img' img'', decode_fresh dbg rayon file' = Ok img' /\ decode_fresh dbg rayon file'' = Ok img'' /\
    forall k c y x, summed k qs qs' qs'' ms ms' ms'' -> nth_error cs k = Some c -> 0 <= y < lines -> 0 <= x < samples ->
      let a := nth k (pixel 4 samples y x img) 0 in let a' := nth k (pixel 4 samples y x img') 0 in let a'' := nth k (pixel 4 samples y x img'') 0 in
      (full_width lines samples cs c -> -2 <= a'' - (a + a' - 127) <= 2) /\ (full_component cs c -> -1 <= a'' - (a + a' - 127) <= 1).
  Proof using En En' En'' PO PO' PO'' El El' Es Es' L0 S0 Ef Ef' Et Et' B B' B'' D.
    intros C4. destruct three_files as [img' [img'' [D' [D'' R]]]]. exists img', img''. split; [exact D'|]. split; [exact D''|]. intros k c0 y x U Ec Hy Hx.
    destruct (R y x Hy Hx) as [vs [vs' [vs'' [E1 [E2 [E3 [L1 [L2 [L3 K]]]]]]]]]. rewrite C4 in E1, E2, E3. rewrite E1, E2, E3.
    assert (L4 : length cs = 4%nat) by (unfold lenZ in C4; lia). destruct vs as [|a [|b [|c [|d [|]]]]]; try (cbn in L1; lia). destruct vs' as [|a' [|b' [|c' [|d' [|]]]]]; try (cbn in L2; lia). destruct vs'' as [|a'' [|b'' [|c'' [|d'' [|]]]]]; try (cbn in L3; lia). cbn [colour].
    pose proof (K k c0 Ec U) as X.
    assert (G : forall v v' v'', (full_width lines samples cs c0 -> adds 2 v v' v'') /\ (full_component cs c0 -> adds 1 v v' v'') ->
      (full_width lines samples cs c0 -> -2 <= 255 - v'' - (255 - v + (255 - v') - 127) <= 2) /\ (full_component cs c0 -> -1 <= 255 - v'' - (255 - v + (255 - v') - 127) <= 1)).
    { clear. intros v v' v'' [O F]. split; intros H; [specialize (O H)|specialize (F H)]; unfold adds in *; lia. }
    assert (Hk : (k < 4)%nat) by (rewrite <- L4; apply nth_error_Some; congruence). do 4 (destruct k as [|k]; [cbn [nth] in X |- *; cbv zeta; apply G; exact X|]). lia.
  Qed.
  Lemma sum_three : lenZ cs = 3 -> t <> Some 0 -> (forall k, summed k qs qs' qs'' ms ms' ms'') ->
    exists img' img'', decode_fresh dbg rayon file' = Ok img' /\ decode_fresh dbg rayon file'' = Ok img'' /\
    forall k y x, 0 <= y < lines -> 0 <= x < samples ->
      let a := nth k (pixel 3 samples y x img) 0 in let a' := nth k (pixel 3 samples y x img') 0 in let a'' := nth k (pixel 3 samples y x img'') 0 in
      inner a -> inner a' -> inner a'' ->
      (Forall (full_width lines samples cs) cs -> -7 <= a'' - (a + a' - 128) <= 7) /\ (Forall (full_component cs) cs -> -4 <= a'' - (a + a' - 128) <= 4).
  Proof using En En' En'' PO PO' PO'' El El' Es Es' L0 S0 Ef Ef' Et Et' B B' B'' D.
    intros C3 T0 U. destruct three_files as [img' [img'' [D' [D'' R]]]]. exists img', img''. split; [exact D'|]. split; [exact D''|]. intros k y x Hy Hx.
    destruct (R y x Hy Hx) as [vs [vs' [vs'' [E1 [E2 [E3 [L1 [L2 [L3 K]]]]]]]]]. rewrite C3 in E1, E2, E3. rewrite E1, E2, E3.
    assert (L4 : length cs = 3%nat) by (unfold lenZ in C3; lia). destruct vs as [|a [|b [|c [|]]]]; try (cbn in L1; lia). destruct vs' as [|a' [|b' [|c' [|]]]]; try (cbn in L2; lia). destruct vs'' as [|a'' [|b'' [|c'' [|]]]]; try (cbn in L3; lia). cbn [colour].
    replace (match t with Some 0 => true | _ => false end) with false by (destruct t as [[| |]|]; congruence). cbv zeta. intros I1 I2 I3.
    assert (X : forall i, (i < 3)%nat -> (Forall (full_width lines samples cs) cs -> adds 2 (nth i [a; b; c] 0) (nth i [a'; b'; c'] 0) (nth i [a''; b''; c''] 0)) /\ (Forall (full_component cs) cs -> adds 1 (nth i [a; b; c] 0) (nth i [a'; b'; c'] 0) (nth i [a''; b''; c''] 0))).
    { intros i Hi. destruct (nth_error cs i) as [c0|] eqn:Ec; [|apply nth_error_None in Ec; lia]. destruct (K i c0 Ec (U i)) as [X1 X2]. pose proof (nth_error_In _ _ Ec) as Ic. split; intros F; rewrite Forall_forall in F; [apply X1|apply X2]; exact (F c0 Ic). }
    pose proof (X 0%nat ltac:(lia)) as [Y0 Z0]. pose proof (X 1%nat ltac:(lia)) as [Y1 Z1]. pose proof (X 2%nat ltac:(lia)) as [Y2 Z2]. cbn [nth] in Y0, Z0, Y1, Z1, Y2, Z2. split; intros F.
    - exact (rgb_sums 2 7 _ _ _ _ _ _ _ _ _ (or_intror (conj eq_refl eq_refl)) (Y0 F) (Y1 F) (Y2 F) k I1 I2 I3).
    - exact (rgb_sums 1 4 _ _ _ _ _ _ _ _ _ (or_introl (conj eq_refl eq_refl)) (Z0 F) (Z1 F) (Z2 F) k I1 I2 I3).
  Qed.
End Files.

(** Blocks with small coefficients are not clipped. *)
Lemma dot_middle : forall (D : nat -> nat -> Z) y x, sum8 (fun u => sum8 (fun v => Z.abs (D v u))) <= 500 ->
  0 <= (65536 + 128 * 131072 + sum8 (fun u => mx x u * ((512 + sum8 (fun v => mx y v * D v u)) / 1024))) / 131072 <= 255.
Proof.
  intros D y x T. pose (p := fun u => (512 + sum8 (fun v => mx y v * D v u)) / 1024). pose proof (dot_bound x p) as B.
  assert (P : forall u, 1024 * Z.abs (p u) <= 5683 * sum8 (fun v => Z.abs (D v u)) + 512).
  { intros u. pose proof (dot_bound y (fun v => D v u)) as Q. cbv beta in Q. unfold p. set (s := sum8 (fun v => mx y v * D v u)) in *. clearbody s.
    pose proof (Z.div_mod (512 + s) 1024 ltac:(lia)). pose proof (Z.mod_pos_bound (512 + s) 1024 ltac:(lia)). lia. }
  assert (S : sum8 (fun u => 1024 * Z.abs (p u)) <= 5683 * sum8 (fun u => sum8 (fun v => Z.abs (D v u))) + 4096).
  { etransitivity; [apply sum8_le; intros u _; apply P|]. rewrite <- sum8_scale. unfold sum8 at 1 3. lia. }
  rewrite sum8_scale in S. change (sum8 (fun u => mx x u * ((512 + sum8 (fun v => mx y v * D v u)) / 1024))) with (sum8 (fun u => mx x u * p u)).
  set (s := sum8 (fun u => mx x u * p u)) in *. set (t := sum8 (fun u => Z.abs (p u))) in *. set (d := sum8 (fun u => sum8 _)) in *. clearbody s t d.
  pose proof (Z.div_mod (65536 + 128 * 131072 + s) 131072 ltac:(lia)). pose proof (Z.mod_pos_bound (65536 + 128 * 131072 + s) 131072 ltac:(lia)). lia.
Qed.
Lemma unclipped_small : forall q b, fold_right Z.add 0 (map (fun i => Z.abs (coef b i * nth i q 0)) (seq 0 64)) <= 500 -> unclipped q b.
Proof.
  intros q b M. split; [lia|]. intros y x Hy Hx. unfold raw_sample. apply dot_middle.
  rewrite (sum8_ext _ (fun u => sum8 (fun v => (fun n => Z.abs (coef b (unnatural n) * nth (unnatural n) q 0)) (u + 8 * v)%nat))).
  - rewrite <- (zigzag_sum (fun n => Z.abs (coef b (unnatural n) * nth (unnatural n) q 0))). rewrite (map_ext_in _ (fun i => Z.abs (coef b i * nth i q 0))); [exact M|].
    intros i Hi. apply in_seq in Hi. rewrite unnatural_natural by lia. reflexivity.
  - intros u Hu. apply sum8_ext. intros v Hv. unfold dequantised_at. rewrite (place_found v u Hv Hu). reflexivity.
Qed.
