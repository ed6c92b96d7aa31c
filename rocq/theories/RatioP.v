(** Images with other sampling factors of the same ratios (C90). *)
From Verif Require Import Base Tactics SpecBits SpecReader SpecMarker Biterator Huffman Marker Types Parsers Idct Upsampler Decode SpecGlobal SpecStream.
From Verif Require Import SpecHuffman SpecBlock SpecTables SpecFrame SpecSegments SpecScan SpecPlane SpecUpsample SpecImage SpecColor SpecFile SpecAnswer SpecIdct SpecFlat SpecEncoder SpecEdit SpecFlip SpecChannel SpecRatio.
From Verif Require Import GeomP ParsersP InvP MarkerP GlobalP StreamP2 FileP ImageP BlockP UpsampleP RayonP IdctP IdctP2 AnswerP AnswerP2 AnswerP3 ReuseP PiecesP DamageP2 TransP UpsampleP2 FlatP EditP EditP2 EncoderP MosaicP FlipP FlipP3 ChannelP NearbyP OrderP.

(** ** Arithmetic *)
Lemma extent_ratio : forall len f fm f' fm', 1 <= f -> 1 <= f' -> 1 <= fm -> 1 <= fm' -> f' * fm = f * fm' -> extent len f' fm' = extent len f fm.
Proof.
  intros len f fm f' fm' F F' M M' E. unfold extent. pose proof (ceil_div_bounds (len * f) fm ltac:(lia)) as [A1 A2]. pose proof (ceil_div_bounds (len * f') fm' ltac:(lia)) as [B1 B2].
  set (a := ceil_div (len * f) fm) in *. set (b := ceil_div (len * f') fm') in *. clearbody a b.
  assert (X : len * f' * fm = len * f * fm') by (rewrite <- !Z.mul_assoc, E; reflexivity). set (u := len * f) in *. set (u' := len * f') in *. clearbody u u'. clear E F F'.
  assert (P : 0 < fm * fm') by nia. destruct (Z.lt_trichotomy a b) as [L|[L|L]]; [|auto|]; exfalso.
  - assert (a <= b - 1) by lia. assert (u * fm' <= a * fm * fm') by nia. assert ((b - 1) * fm' * fm < u' * fm) by nia. nia.
  - assert (b <= a - 1) by lia. assert (u' * fm <= b * fm' * fm) by nia. assert ((a - 1) * fm * fm' < u * fm') by nia. nia.
Qed.
Lemma div_ratio : forall f fm f' fm', 1 <= f -> 1 <= f' -> f' * fm = f * fm' -> fm' / f' = fm / f.
Proof.
  intros f fm f' fm' F F' E. rewrite <- (Z.div_mul_cancel_r fm' f' f) by lia. rewrite <- (Z.div_mul_cancel_r fm f f') by lia. f_equal; lia.
Qed.
Lemma ratio_ratio : forall len f fm f' fm', 1 <= f -> 1 <= f' -> f' * fm = f * fm' -> ratio len f' fm' = ratio len f fm.
Proof. intros len f fm f' fm' F F' E. unfold ratio. rewrite (div_ratio f fm f' fm' F F' E). reflexivity. Qed.
Lemma div8 : forall y v, 1 <= v -> y / (8 * v) = y / 8 / v /\ y mod (8 * v) / 8 = (y / 8) mod v.
Proof.
  intros y v V. split; [symmetry; apply Z.div_div; lia|]. rewrite Z.rem_mul_r by lia. rewrite Z.mul_comm, Z.div_add by lia. rewrite Z.mod_div by lia. lia.
Qed.
Lemma q_at_block : forall ms w k h v y x, 1 <= h -> 1 <= v -> q_at ms w k h v y x = block_at ms w k h v (y / 8) (x / 8).
Proof. intros ms w k h v y x H V. unfold q_at, block_at, block_no, mcu_row, mcu_col. destruct (div8 y v V) as [-> ->]. destruct (div8 x h H) as [-> ->]. reflexivity. Qed.

(** ** What is drawn *)
Lemma shown_same : forall hr vr p p' st st' w h row x, 1 <= hr -> 1 <= vr -> 0 <= row < vr * h -> 0 <= x < hr * w ->
  (forall y c, 0 <= y < h -> 0 <= c < w -> px p' st' y c = px p st y c) -> shown hr vr p' st' w h row x = shown hr vr p st w h row x.
Proof.
  intros hr vr p p' st st' w h row x Hh Hv R X B.
  assert (Ry : 0 <= row / vr < h) by (split; [apply Z.div_pos; lia|apply Z.div_lt_upper_bound; lia]).
  assert (Rx : 0 <= x / hr < w) by (split; [apply Z.div_pos; lia|apply Z.div_lt_upper_bound; lia]).
  assert (NB : forall last i, 0 <= i -> i / 2 <= last -> 0 <= neighbour last i <= last).
  { intros last i Hi Hl. rewrite neighbour_parity. destruct (i mod 2 =? 0); lia. }
  unfold shown, double_width, double_height, double_both.
  destruct ((hr =? 1) && (vr =? 1)) eqn:K1.
  { assert (hr = 1) by lia. assert (vr = 1) by lia. subst. rewrite !Z.div_1_r in *. apply B; lia. }
  destruct ((hr =? 2) && (vr =? 1)) eqn:K2.
  { assert (hr = 2) by lia. assert (vr = 1) by lia. subst. rewrite !Z.div_1_r in *. pose proof (NB (w - 1) x ltac:(lia) ltac:(lia)) as N1. rewrite !B by lia. reflexivity. }
  destruct ((hr =? 1) && (vr =? 2)) eqn:K3.
  { assert (hr = 1) by lia. assert (vr = 2) by lia. subst. rewrite !Z.div_1_r in *. pose proof (NB (h - 1) row ltac:(lia) ltac:(lia)) as N1. rewrite !B by lia. reflexivity. }
  destruct ((hr =? 2) && (vr =? 2)) eqn:K4.
  { assert (hr = 2) by lia. assert (vr = 2) by lia. subst. pose proof (NB (h - 1) row ltac:(lia) ltac:(lia)) as N1. pose proof (NB (w - 1) x ltac:(lia) ltac:(lia)) as N3. rewrite !B by lia. reflexivity. }
  apply B; lia.
Qed.

Section Comp.
  Variables (lines samples : Z) (cs cs' : list comp_spec) (ms ms' : list mcu) (k : nat) (c c' : comp_spec) (q p p' : list Z).
  Hypothesis (HO : header_ok lines samples cs) (HO' : header_ok lines samples cs') (L0 : 0 < lines) (S0 : 0 < samples).
  Hypothesis (Ec : nth_error cs k = Some c) (Ec' : nth_error cs' k = Some c').
  Hypothesis comp_ratio : cs_h c' * largest (map cs_h cs) = cs_h c * largest (map cs_h cs') /\ cs_v c' * largest (map cs_v cs) = cs_v c * largest (map cs_v cs').
  Hypothesis SB : forall r s, 0 <= r -> 0 <= s -> 8 * r < extent lines (cs_v c) (largest (map cs_v cs)) -> 8 * s < extent samples (cs_h c) (largest (map cs_h cs)) ->
    block_at ms' (mcus samples (largest (map cs_h cs'))) k (cs_h c') (cs_v c') r s = block_at ms (mcus samples (largest (map cs_h cs))) k (cs_h c) (cs_v c) r s.
  Hypothesis (P : plane_from lines samples cs ms k c q p) (P' : plane_from lines samples cs' ms' k c' q p').
  Lemma factor_range : forall cs0 c0, header_ok lines samples cs0 -> In c0 cs0 -> 1 <= cs_h c0 <= largest (map cs_h cs0) /\ 1 <= cs_v c0 <= largest (map cs_v cs0).
  Proof using.
    clear SB comp_ratio. intros cs0 c0 HO0 I. destruct HO0 as [_ _ _ _ _ X]. rewrite Forall_forall in X. destruct (X c0 I).
    pose proof (largest_ge (map cs_h cs0) (cs_h c0) (in_map cs_h cs0 c0 I)). pose proof (largest_ge (map cs_v cs0) (cs_v c0) (in_map cs_v cs0 c0 I)). lia.
  Qed.
  Lemma samples_same : forall y x, 0 <= y < extent lines (cs_v c) (largest (map cs_v cs)) -> 0 <= x < extent samples (cs_h c) (largest (map cs_h cs)) ->
    px p' (plane_stride samples cs' c') y x = px p (plane_stride samples cs c) y x.
  Proof using HO HO' L0 S0 Ec Ec' comp_ratio SB P P'.
    intros y x Hy Hx. destruct comp_ratio as [Rh Rv]. destruct (factor_range cs c HO (nth_error_In _ _ Ec)) as [Fh Fv]. destruct (factor_range cs' c' HO' (nth_error_In _ _ Ec')) as [Fh' Fv'].
    pose proof (extent_ratio lines (cs_v c) (largest (map cs_v cs)) (cs_v c') (largest (map cs_v cs')) ltac:(lia) ltac:(lia) ltac:(lia) ltac:(lia) Rv) as Xv.
    pose proof (extent_ratio samples (cs_h c) (largest (map cs_h cs)) (cs_h c') (largest (map cs_h cs')) ltac:(lia) ltac:(lia) ltac:(lia) ltac:(lia) Rh) as Xh.
    pose proof (extent_le lines _ _ L0 Fv) as Y1. pose proof (extent_le samples _ _ S0 Fh) as Y2. pose proof (extent_le lines _ _ L0 Fv') as Y3. pose proof (extent_le samples _ _ S0 Fh') as Y4.
    destruct P as [_ Q]. destruct P' as [_ Q']. unfold plane_rows in Q, Q'.
    destruct (Q y x ltac:(lia) ltac:(unfold plane_stride; lia)) as [blk [qt [rows [V [O [D ->]]]]]]. destruct (Q' y x ltac:(lia) ltac:(unfold plane_stride; lia)) as [blk' [qt' [rows' [V' [O' [D' ->]]]]]].
    cbv zeta in V, V'. rewrite q_at_block in V, V' by lia.
    rewrite (SB (y / 8) (x / 8) ltac:(apply Z.div_pos; lia) ltac:(apply Z.div_pos; lia) ltac:(pose proof (Z.mul_div_le y 8); lia) ltac:(pose proof (Z.mul_div_le x 8); lia)) in V'.
    rewrite (block_unique _ _ _ _ V' V), (order_unique _ _ _ O' O) in D'. specialize (D true). specialize (D' true). assert (rows' = rows) by congruence. subst. reflexivity.
  Qed.
  Lemma drawn_same : ratios_accepted lines samples cs c -> forall row x, 0 <= row < lines -> 0 <= x < samples ->
    comp_drawn lines samples cs' c' p' row x = comp_drawn lines samples cs c p row x.
  Proof using HO HO' L0 S0 Ec Ec' comp_ratio SB P P'.
    intros [A1 [A2 _]] row x Hr Hx. destruct comp_ratio as [Rh Rv]. destruct (factor_range cs c HO (nth_error_In _ _ Ec)) as [Fh Fv]. destruct (factor_range cs' c' HO' (nth_error_In _ _ Ec')) as [Fh' Fv'].
    unfold comp_drawn, h_ratio, v_ratio. cbv zeta.
    rewrite (div_ratio (cs_h c) (largest (map cs_h cs)) (cs_h c') (largest (map cs_h cs')) ltac:(lia) ltac:(lia) Rh).
    rewrite (ratio_ratio samples (cs_h c) (largest (map cs_h cs)) (cs_h c') (largest (map cs_h cs')) ltac:(lia) ltac:(lia) Rh), (ratio_ratio lines (cs_v c) (largest (map cs_v cs)) (cs_v c') (largest (map cs_v cs')) ltac:(lia) ltac:(lia) Rv).
    match goal with |- (if ?b then _ else _) = _ => destruct b end; [reflexivity|]. unfold comp_shown, h_ratio, v_ratio.
    rewrite (ratio_ratio samples (cs_h c) (largest (map cs_h cs)) (cs_h c') (largest (map cs_h cs')) ltac:(lia) ltac:(lia) Rh), (ratio_ratio lines (cs_v c) (largest (map cs_v cs)) (cs_v c') (largest (map cs_v cs')) ltac:(lia) ltac:(lia) Rv).
    rewrite (extent_ratio lines (cs_v c) (largest (map cs_v cs)) (cs_v c') (largest (map cs_v cs')) ltac:(lia) ltac:(lia) ltac:(lia) ltac:(lia) Rv).
    rewrite (extent_ratio samples (cs_h c) (largest (map cs_h cs)) (cs_h c') (largest (map cs_h cs')) ltac:(lia) ltac:(lia) ltac:(lia) ltac:(lia) Rh).
    destruct (covered samples _ _ x Hx Fh A1) as [H1 H2]. destruct (covered lines _ _ row Hr Fv A2) as [H3 H4].
    apply shown_same; [exact H1|exact H3|split; [apply Hr|exact H4]|split; [apply Hx|exact H2]|exact samples_same].
  Qed.
End Comp.

(** ** Files *)
Section Files.
  Variables (dbg rayon : bool) (segs segs' : list (nat * hseg)) (h h' : frame_header) (fill1 fill2 fill1' fill2' : nat) (ss ss' : list scan_comp) (ts ts' : list tables) (qs : list (list Z)) (ms ms' : list mcu) (data data' : list Z) (post post' : list (nat * hseg)) (fill3 fill3' : nat) (img img' : list Z).
  Let cs := fh_comps h.
  Let cs' := fh_comps h'.
  Let lines := fh_lines h.
  Let samples := fh_samples h.
  Hypothesis (En : encodes segs h ss ts qs ms data) (En' : encodes segs' h' ss' ts' qs ms' data') (PO : post_ok post) (PO' : post_ok post').
  Hypothesis (El : fh_lines h' = lines) (Es : fh_samples h' = samples) (L0 : 0 < lines) (S0 : 0 < samples).
  Hypothesis (SR : same_ratios cs cs') (SB : same_blocks lines samples cs cs' ms ms').
  Hypothesis Et : last_transform (segs' ++ post') = last_transform (segs ++ post).
  Let file := file_bytes segs fill1 fill2 (mkSpS ss 0 63 0 0) data post fill3.
  Let file' := file_bytes segs' fill1' fill2' (mkSpS ss' 0 63 0 0) data' post' fill3'.
  Hypothesis (B : bytes file) (B' : bytes file') (D : decode_fresh dbg rayon file = Ok img) (D' : decode_fresh dbg rayon file' = Ok img').
  Lemma ratio_pixels : forall y y0 x, 0 <= y < lines -> 0 <= y0 < lines -> 0 <= x < samples -> shown_row rayon (largest (map cs_v cs')) y = shown_row rayon (largest (map cs_v cs)) y0 ->
    pixel (lenZ cs) samples y x img' = pixel (lenZ cs) samples y0 x img.
  Proof using En En' PO PO' El Es L0 S0 SR SB Et B B' D D'.
    destruct (file_answer dbg rayon segs h fill1 fill2 ss ts qs ms data post fill3 En L0 S0 PO B) as [ps [Lp [PL FA]]].
    destruct (file_answer dbg rayon segs' h' fill1' fill2' ss' ts' qs ms' data' post' fill3' En' ltac:(lia) ltac:(lia) PO' B') as [ps' [Lp' [PL' FA']]].
    fold file in FA. fold file' in FA'. rewrite D in FA. rewrite D', Et, El, Es in FA'. rewrite El, Es in PL'. fold cs lines samples in FA, PL, Lp. fold cs' in FA', PL', Lp'.
    pose proof (files_header segs h ss ts qs ms data En) as HO. fold cs lines samples in HO. pose proof (files_header segs' h' ss' ts' qs ms' data' En') as HO'. fold cs' in HO'. rewrite El, Es in HO'.
    intros y y0 x Hy Hy0 Hx Er. destruct (answer_colour _ _ _ _ _ _ _ y0 x FA Lp Hy0 Hx) as [A E1]. destruct (answer_colour _ _ _ _ _ _ _ y x FA' Lp' Hy Hx) as [_ E2].
    assert (F2 : forall (Q : comp_spec -> comp_spec -> Prop) l l', Forall2 Q l l' -> length l' = length l) by (clear; intros Q l l' F; induction F; cbn [length]; congruence). pose proof (F2 _ _ _ SR) as Lc. clear F2.
    assert (Lz : lenZ cs' = lenZ cs) by (unfold lenZ; congruence). rewrite Lz in E2. rewrite E1, E2. f_equal.
    assert (Rw : 0 <= shown_row rayon (largest (map cs_v cs)) y0 < lines) by exact (row_range rayon lines samples cs y0 HO Hy0).
    unfold draw. rewrite Er. apply lists_ext. intros k. destruct (nth_error cs k) as [c|] eqn:Ec.
    - destruct (nth_error cs' k) as [c'|] eqn:Ec'; [|apply nth_error_None in Ec'; assert (k < length cs)%nat by (apply nth_error_Some; congruence); lia].
      destruct (PL k c Ec) as [q [p [Eq1 [Ep P]]]]. destruct (PL' k c' Ec') as [q' [p' [Eq1' [Ep' P']]]]. assert (q' = q) by congruence. subst q'.
      assert (CB : forall cs0 ps0 (c0 : comp_spec) (p0 : list Z), nth_error cs0 k = Some c0 -> nth_error ps0 k = Some p0 -> nth_error (combine cs0 ps0) k = Some (c0, p0)).
      { clear. intros cs0. revert k. induction cs0 as [|c1 cs0 IH]; intros [|k] [|p1 ps0] c0 p0 E1 E2; try discriminate; cbn [combine nth_error] in *; [congruence|apply IH; assumption]. }
      rewrite (map_nth_error _ _ _ (CB _ _ _ _ Ec Ep)), (map_nth_error _ _ _ (CB _ _ _ _ Ec' Ep')). cbn [fst snd]. f_equal.
      rewrite Forall_forall in A. exact (drawn_same lines samples cs cs' ms ms' k c c' q p p' HO HO' L0 S0 Ec Ec' (Forall2_get _ _ _ _ _ SR _ _ _ Ec Ec') (SB k c c' Ec Ec') P P' (A c (nth_error_In _ _ Ec)) _ x Rw Hx).
    - apply nth_error_None in Ec. transitivity (@None Z); [|symmetry]; apply nth_error_None; rewrite map_length, combine_length; lia.
  Qed.
End Files.
