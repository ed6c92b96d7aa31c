(** Images of one colour and grey images (C65, C66). *)
From Verif Require Import Base Tactics SpecBits SpecMarker SpecHuffman SpecBlock SpecTables SpecFrame SpecUpsample SpecSegments SpecColor SpecIdct SpecImage SpecPlane SpecScan SpecFile SpecAnswer SpecFlat
  Biterator Huffman Idct Color Types Decode BlockP IdctP ParsersP UpsampleP UpsampleP2 RayonP FileP GeomP AnswerP AnswerP3.

Lemma q_at_in : forall lines samples cs ms k c y x, header_ok lines samples cs -> Forall (mcu_shape cs) ms ->
  lenZ ms = mcus lines (largest (map cs_v cs)) * mcus samples (largest (map cs_h cs)) -> nth_error cs k = Some c ->
  0 <= y < plane_rows lines cs c -> 0 <= x < plane_stride samples cs c ->
  exists m, In m ms /\ In (q_at ms (mcus samples (largest (map cs_h cs))) k (cs_h c) (cs_v c) y x) (nth k m []).
Proof.
  intros lines samples cs ms k c y x HO Sh Lm Ec Hy Hx. destruct HO as [_ _ Ne _ _ X]. rewrite Forall_forall in X.
  destruct (X c (nth_error_In _ _ Ec)) as [Fh Fv]. unfold plane_rows, plane_stride in *.
  set (mw := mcus samples (largest (map cs_h cs))) in *. set (mh := mcus lines (largest (map cs_v cs))) in *.
  assert (R : 0 <= mcu_row (cs_v c) y < mh) by (unfold mcu_row; split; [apply Z.div_pos; lia|apply Z.div_lt_upper_bound; lia]).
  assert (C : 0 <= mcu_col (cs_h c) x < mw) by (unfold mcu_col; split; [apply Z.div_pos; lia|apply Z.div_lt_upper_bound; lia]).
  set (i := Z.to_nat (mcu_row (cs_v c) y * mw + mcu_col (cs_h c) x)).
  assert (Hi : (i < length ms)%nat) by (unfold i; unfold lenZ in Lm; clear - R C Lm; nia).
  destruct (nth_error ms i) as [m|] eqn:Em; [|apply nth_error_None in Em; lia]. exists m. pose proof (nth_error_In _ _ Em) as Im. split; [exact Im|].
  unfold q_at. fold i. replace (nth i ms []) with m by (symmetry; apply nth_error_nth; exact Em). apply nth_In.
  rewrite Forall_forall in Sh. specialize (Sh m Im). unfold mcu_shape in Sh.
  assert (Lb : lenZ (nth k m []) = cs_h c * cs_v c).
  { destruct (nth_error m k) as [b|] eqn:Eb; [rewrite (nth_error_nth _ _ [] Eb); exact (Forall2_get _ _ _ _ _ Sh _ _ _ Ec Eb)|].
    exfalso. apply nth_error_None in Eb. assert (L : length cs = length m) by (clear - Sh; induction Sh; cbn; congruence). assert (Hk : (k < length cs)%nat) by (apply nth_error_Some; congruence). lia. }
  unfold lenZ in Lb. unfold block_no. pose proof (Z.mod_pos_bound y (8 * cs_v c) ltac:(lia)) as A. pose proof (Z.mod_pos_bound x (8 * cs_h c) ltac:(lia)) as B.
  assert (A1 : 0 <= y mod (8 * cs_v c) / 8 < cs_v c) by (split; [apply Z.div_pos; lia|apply Z.div_lt_upper_bound; lia]).
  assert (B1 : 0 <= x mod (8 * cs_h c) / 8 < cs_h c) by (split; [apply Z.div_pos; lia|apply Z.div_lt_upper_bound; lia]).
  clear - Lb A1 B1. generalize dependent (y mod (8 * cs_v c) / 8). generalize dependent (x mod (8 * cs_h c) / 8). intros; nia.
Qed.

Lemma flat_values : forall blk dc ac, block_values blk dc ac -> Forall (fun a => a = 0) ac -> flat blk /\ nth 0 blk 0 = dc.
Proof.
  intros blk dc ac [L V] F. split.
  - intros k Hk. destruct (natural_unnatural k ltac:(lia)) as [E Hu]. rewrite <- E, V by exact Hu. destruct (unnatural k) as [|j] eqn:U; [exfalso; rewrite natural_0 in E; lia|].
    cbn [nth]. destruct (nth_in_or_default j ac 0) as [I|D]; [rewrite Forall_forall in F; apply F; exact I|exact D].
  - rewrite <- natural_0. rewrite V by lia. reflexivity.
Qed.
Lemma repeat_block : forall s r c, in_block (repeat (repeat s 8) 8) r c = s.
Proof.
  intros s r c. unfold in_block. pose proof (Z.mod_pos_bound r 8 ltac:(lia)). pose proof (Z.mod_pos_bound c 8 ltac:(lia)).
  rewrite (nth_indep _ [] (repeat s 8)) by (rewrite repeat_length; lia). rewrite nth_repeat. rewrite (nth_indep _ 0 s) by (rewrite repeat_length; lia). apply nth_repeat.
Qed.

Lemma flat_plane : forall lines samples cs ms k c q p dc, header_ok lines samples cs -> Forall (mcu_shape cs) ms ->
  lenZ ms = mcus lines (largest (map cs_v cs)) * mcus samples (largest (map cs_h cs)) -> nth_error cs k = Some c ->
  plane_from lines samples cs ms k c q p -> flat_component ms k dc ->
  forall y x, 0 <= y < plane_rows lines cs c -> 0 <= x < plane_stride samples cs c -> px p (plane_stride samples cs c) y x = dc_sample dc q.
Proof.
  intros lines samples cs ms k c q p dc HO Sh Lm Ec [_ P] Fl y x Hy Hx. destruct (P y x Hy Hx) as (blk & qt & rows & V & N & R & ->).
  destruct (q_at_in lines samples cs ms k c y x HO Sh Lm Ec Hy Hx) as [m [Im Ib]]. destruct (Fl m _ Im Ib) as [Ed Ea]. cbv zeta in V.
  destruct (flat_values _ _ _ V Ea) as [FB E0]. specialize (R true). rewrite (flat_block_exact true blk qt FB) in R. match type of R with Ok ?a = _ => assert (Er : rows = a) by congruence end. rewrite Er, repeat_block.
  unfold dc_sample. rewrite E0, Ed. destruct N as [_ N]. rewrite <- natural_0 at 1. rewrite (N 0%nat) by lia. reflexivity.
Qed.

Lemma covered : forall len f fm i, 0 <= i < len -> 1 <= f <= fm -> len = 1 \/ fm mod f = 0 -> 1 <= ratio len f fm /\ i < ratio len f fm * extent len f fm.
Proof.
  intros len f fm i H1 H2 D. unfold ratio. destruct (Z.eqb_spec len 1) as [->|N].
  - rewrite extent_one by auto. lia.
  - destruct D as [D|D]; [lia|]. pose proof (extent_covers len f fm ltac:(lia) H2 D) as C. assert (Q : 1 <= fm / f) by (apply Z.div_le_lower_bound; lia). lia.
Qed.

Lemma flat_drawn : forall rayon lines samples cs c p v, header_ok lines samples cs -> In c cs -> ratios_accepted lines samples cs c ->
  (forall y x, 0 <= y < plane_rows lines cs c -> 0 <= x < plane_stride samples cs c -> px p (plane_stride samples cs c) y x = v) ->
  forall y x, 0 <= y < lines -> 0 <= x < samples ->
    comp_drawn lines samples cs c p (shown_row rayon (largest (map cs_v cs)) y) x = if left_out lines samples cs c x then 0 else v.
Proof.
  intros rayon lines samples cs c p v HO I (A1 & A2 & _) P y x Hy Hx. unfold comp_drawn, left_out. cbv zeta.
  destruct (((2 <? h_ratio samples cs c) || (2 <? v_ratio lines cs c)) && (largest (map cs_h cs) / cs_h c * (samples / (largest (map cs_h cs) / cs_h c)) <=? x)); [reflexivity|].
  destruct HO as [_ _ Ne _ _ X]. rewrite Forall_forall in X. pose proof (largest_factors cs cs_h Ne (fun c H => proj1 (X c H))) as Hh.
  pose proof (largest_factors cs cs_v Ne (fun c H => proj2 (X c H))) as Hv.
  assert (Fh : 1 <= cs_h c <= largest (map cs_h cs)) by (destruct (X c I); pose proof (largest_ge (map cs_h cs) (cs_h c) (in_map cs_h cs c I)); lia).
  assert (Fv : 1 <= cs_v c <= largest (map cs_v cs)) by (destruct (X c I); pose proof (largest_ge (map cs_v cs) (cs_v c) (in_map cs_v cs c I)); lia).
  set (row := shown_row rayon (largest (map cs_v cs)) y).
  assert (Rw : 0 <= row < lines).
  { subst row. unfold shown_row. clear - Hy Hv. generalize dependent (largest (map cs_v cs)). intros vm Hv. pose proof (Z.mul_div_le y vm ltac:(lia)). pose proof (Z.div_pos y vm ltac:(lia) ltac:(lia)). destruct rayon; [split; [lia|]; apply Z.div_lt_upper_bound; nia|lia]. }
  destruct (covered samples _ _ x Hx Fh A1) as [H1 H2]. destruct (covered lines _ _ row Rw Fv A2) as [H3 H4].
  pose proof (extent_le samples _ _ ltac:(lia) Fh) as X1. pose proof (extent_le lines _ _ ltac:(lia) Fv) as X2.
  assert (B : v <= comp_shown lines samples cs c p row x <= v).
  { unfold comp_shown. apply shown_between; [exact H1|exact H3|split; [apply Rw|exact H4]|split; [apply Hx|exact H2]|]. intros y' x' Hy' Hx' _ _. rewrite P; [lia| |]; unfold plane_rows, plane_stride; lia. }
  lia.
Qed.
Lemma full_left : forall lines samples cs c x, header_ok lines samples cs -> In c cs -> full_width lines samples cs c -> 0 <= x < samples -> left_out lines samples cs c x = false.
Proof.
  intros lines samples cs c x HO I F Hx. unfold left_out. cbv zeta. destruct ((2 <? h_ratio samples cs c) || (2 <? v_ratio lines cs c)) eqn:E; [|reflexivity]. cbn [andb].
  assert (R : repeated lines samples cs c) by (unfold repeated; lia). specialize (F R). set (f := largest (map cs_h cs) / cs_h c) in *.
  pose proof (Z.div_mod samples f) as D. destruct (Z.eq_dec f 0) as [->|Nf]; [rewrite Zmod_0_r in F; lia|]. specialize (D Nf). lia.
Qed.
Lemma not_full_left : forall lines samples cs c, header_ok lines samples cs -> In c cs -> 0 < samples -> ~ full_width lines samples cs c -> left_out lines samples cs c (samples - 1) = true.
Proof.
  intros lines samples cs c HO I Ps F. unfold left_out. cbv zeta. set (f := largest (map cs_h cs) / cs_h c) in *.
  assert (Q : 1 <= f). { destruct HO as [_ _ Ne _ _ X]. rewrite Forall_forall in X. destruct (X c I). pose proof (largest_ge (map cs_h cs) (cs_h c) (in_map cs_h cs c I)). apply Z.div_le_lower_bound; lia. }
  destruct ((2 <? h_ratio samples cs c) || (2 <? v_ratio lines cs c)) eqn:E.
  - cbn [andb]. pose proof (Z.div_mod samples f ltac:(lia)) as D. pose proof (Z.mod_pos_bound samples f ltac:(lia)). destruct (Z.eq_dec (samples mod f) 0) as [M|M]; [exfalso; apply F; intros _; exact M|]. lia.
  - exfalso. apply F. intros R. unfold repeated in R. lia.
Qed.

Lemma fixed_grey : forall v, is_byte v -> rgb_fixed v 128 128 = [v; v; v].
Proof. intros v B. unfold rgb_fixed, is_byte, sat in *. change ((91881 * (128 - 128) + 32768) / 65536) with 0. change ((-22554 * (128 - 128) - 46802 * (128 - 128) + 32768) / 65536) with 0. change ((116130 * (128 - 128) + 32768) / 65536) with 0. rewrite Z.add_0_r. replace (Z.max 0 (Z.min 255 v)) with v by lia. reflexivity. Qed.
Lemma fixed_coloured : forall v cb cr, is_byte v -> cb = 0 \/ cb = 128 -> cr = 0 \/ cr = 128 -> cb = 0 \/ cr = 0 -> ~ grey (rgb_fixed v cb cr).
Proof.
  intros v cb cr B C1 C2 C3 [u E]. unfold rgb_fixed, is_byte, sat in *. injection E as E1 E2 E3.
  destruct C1 as [-> | ->], C2 as [-> | ->]; try (exfalso; lia); cbn in E1, E2, E3; lia.
Qed.

(** ** Files *)
Lemma ycbcr_only : forall rayon lines samples c0 c1 c2 ps t img, final_answer rayon lines samples [c0; c1; c2] ps t (Ok img) -> t <> Some 0 ->
  exists p0 p1 p2, ps = [p0; p1; p2] /\ Forall (ratios_accepted lines samples [c0; c1; c2]) [c0; c1; c2] /\ lenZ img = 3 * samples * lines /\
    forall y x, 0 <= y < lines -> 0 <= x < samples ->
      let drawn c p := comp_drawn lines samples [c0; c1; c2] c p (shown_row rayon (largest (map cs_v [c0; c1; c2])) y) x in
      rgb_pixel (drawn c0 p0) (drawn c1 p1) (drawn c2 p2) (pixel 3 samples y x img).
Proof.
  intros rayon lines samples c0 c1 c2 ps t img FA T. inversion FA as [| | | | |L E A P Ei|a0 a1 a2 p0 p1 p2 i Ec Ep Et A P L R Ei|a0 a1 a2 a3 p0 p1 p2 p3 i Ec].
  - congruence.
  - injection Ec as <- <- <-. exists p0, p1, p2. auto.
  - discriminate Ec.
Qed.
Lemma cmyk_only : forall rayon lines samples c0 c1 c2 c3 ps t img, final_answer rayon lines samples [c0; c1; c2; c3] ps t (Ok img) ->
  exists p0 p1 p2 p3, ps = [p0; p1; p2; p3] /\ Forall (ratios_accepted lines samples [c0; c1; c2; c3]) [c0; c1; c2; c3] /\ lenZ img = 4 * samples * lines /\
    forall y x, 0 <= y < lines -> 0 <= x < samples ->
      let drawn c p := comp_drawn lines samples [c0; c1; c2; c3] c p (shown_row rayon (largest (map cs_v [c0; c1; c2; c3])) y) x in
      pixel 4 samples y x img = [255 - drawn c0 p0; 255 - drawn c1 p1; 255 - drawn c2 p2; 255 - drawn c3 p3].
Proof.
  intros rayon lines samples c0 c1 c2 c3 ps t img FA. inversion FA as [| | | | |L E A P Ei|a0 a1 a2 p0 p1 p2 i Ec|a0 a1 a2 a3 p0 p1 p2 p3 i Ec Ep Et A P L R Ei].
  - exfalso. cbn in L. lia.
  - discriminate Ec.
  - injection Ec as <- <- <- <-. exists p0, p1, p2, p3. auto.
Qed.
Section File.
  Variables (dbg rayon : bool) (segs : list (nat * hseg)) (h : frame_header) (fill1 fill2 : nat) (ss : list scan_comp) (ts : list tables)
    (qs : list (list Z)) (ms : list mcu) (data : list Z) (post : list (nat * hseg)) (fill3 : nat) (img : list Z).
  Let cs := fh_comps h.
  Let lines := fh_lines h.
  Let samples := fh_samples h.
  Let file := file_bytes segs fill1 fill2 (mkSpS ss 0 63 0 0) data post fill3.
  Hypotheses (En : encodes segs h ss ts qs ms data) (P1 : 0 < lines) (P2 : 0 < samples) (PO : post_ok post) (B : bytes file)
    (D : decode_fresh dbg rayon file = Ok img).

  Lemma flat_header : header_ok lines samples cs.
  Proof. destruct En as [F Sf _ _ _ _ _ _ _]. destruct (sof_ok segs h F ltac:(rewrite Sf; left; reflexivity)) as [_ HO]. exact HO. Qed.

  Lemma flat_component_drawn : forall k c q p dc, Forall (ratios_accepted lines samples cs) cs -> nth_error cs k = Some c ->
    plane_from lines samples cs ms k c q p -> flat_component ms k dc ->
    forall y x, 0 <= y < lines -> 0 <= x < samples -> comp_drawn lines samples cs c p (shown_row rayon (largest (map cs_v cs)) y) x = flat_shown lines samples cs c dc q x.
  Proof.
    intros k c q p dc A Ec P Fl y x Hy Hx. pose proof (nth_error_In _ _ Ec) as I. rewrite Forall_forall in A. destruct En as [_ _ _ _ _ _ Sh Lm _].
    apply (flat_drawn rayon lines samples cs c p (dc_sample dc q) flat_header I (A c I)); auto.
    intros y' x' Hy' Hx'. exact (flat_plane lines samples cs ms k c q p dc flat_header Sh Lm Ec P Fl y' x' Hy' Hx').
  Qed.

  Lemma flat_ycbcr : forall c0 c1 c2 q0 q1 q2 d0 d1 d2, cs = [c0; c1; c2] -> qs = [q0; q1; q2] -> last_transform (segs ++ post) <> Some 0 ->
    flat_component ms 0 d0 -> flat_component ms 1 d1 -> flat_component ms 2 d2 ->
    forall y x, 0 <= y < lines -> 0 <= x < samples ->
      pixel 3 samples y x img = rgb_fixed (flat_shown lines samples cs c0 d0 q0 x) (flat_shown lines samples cs c1 d1 q1 x) (flat_shown lines samples cs c2 d2 q2 x).
  Proof.
    intros c0 c1 c2 q0 q1 q2 d0 d1 d2 Ec Eq T F0 F1 F2 y x Hy Hx.
    destruct (file_answer dbg rayon segs h fill1 fill2 ss ts qs ms data post fill3 En P1 P2 PO B) as (ps & Lp & PL & FA).
    fold cs lines samples file in Lp, PL, FA. rewrite D, Ec in FA. destruct (ycbcr_only _ _ _ _ _ _ _ _ _ FA T) as (p0 & p1 & p2 & Ep & A & _ & Px). rewrite <- Ec in A, Px.
    assert (PF : forall k c q p, nth_error cs k = Some c -> nth_error qs k = Some q -> nth_error ps k = Some p -> plane_from lines samples cs ms k c q p).
    { intros k c q p I1 I2 I3. destruct (PL k c I1) as (q' & p' & J2 & J3 & Pf). congruence. }
    destruct (Px y x Hy Hx) as [-> _]. clear Px FA PL.
    rewrite (flat_component_drawn 0 c0 q0 p0 d0 A), (flat_component_drawn 1 c1 q1 p1 d1 A), (flat_component_drawn 2 c2 q2 p2 d2 A);
      try reflexivity; auto; try (rewrite Ec; reflexivity); apply PF; try (rewrite Ec; reflexivity); try (rewrite Eq; reflexivity); rewrite Ep; reflexivity.
  Qed.

  Lemma flat_cmyk : forall c0 c1 c2 c3 q0 q1 q2 q3 d0 d1 d2 d3, cs = [c0; c1; c2; c3] -> qs = [q0; q1; q2; q3] ->
    flat_component ms 0 d0 -> flat_component ms 1 d1 -> flat_component ms 2 d2 -> flat_component ms 3 d3 ->
    forall y x, 0 <= y < lines -> 0 <= x < samples ->
      pixel 4 samples y x img = [255 - flat_shown lines samples cs c0 d0 q0 x; 255 - flat_shown lines samples cs c1 d1 q1 x; 255 - flat_shown lines samples cs c2 d2 q2 x; 255 - flat_shown lines samples cs c3 d3 q3 x].
  Proof.
    intros c0 c1 c2 c3 q0 q1 q2 q3 d0 d1 d2 d3 Ec Eq F0 F1 F2 F3 y x Hy Hx.
    destruct (file_answer dbg rayon segs h fill1 fill2 ss ts qs ms data post fill3 En P1 P2 PO B) as (ps & Lp & PL & FA).
    fold cs lines samples file in Lp, PL, FA. rewrite D, Ec in FA. destruct (cmyk_only _ _ _ _ _ _ _ _ _ _ FA) as (p0 & p1 & p2 & p3 & Ep & A & _ & Px). rewrite <- Ec in A, Px.
    assert (PF : forall k c q p, nth_error cs k = Some c -> nth_error qs k = Some q -> nth_error ps k = Some p -> plane_from lines samples cs ms k c q p).
    { intros k c q p I1 I2 I3. destruct (PL k c I1) as (q' & p' & J2 & J3 & Pf). congruence. }
    rewrite (Px y x Hy Hx). clear Px FA PL. cbv zeta.
    rewrite (flat_component_drawn 0 c0 q0 p0 d0 A), (flat_component_drawn 1 c1 q1 p1 d1 A), (flat_component_drawn 2 c2 q2 p2 d2 A), (flat_component_drawn 3 c3 q3 p3 d3 A);
      try reflexivity; auto; try (rewrite Ec; reflexivity); apply PF; try (rewrite Ec; reflexivity); try (rewrite Eq; reflexivity); rewrite Ep; reflexivity.
  Qed.

  Lemma solid_ycbcr : forall c0 c1 c2 q0 q1 q2 d0 d1 d2, cs = [c0; c1; c2] -> qs = [q0; q1; q2] -> last_transform (segs ++ post) <> Some 0 ->
    flat_component ms 0 d0 -> flat_component ms 1 d1 -> flat_component ms 2 d2 -> Forall (full_width lines samples cs) cs ->
    forall y x, 0 <= y < lines -> 0 <= x < samples -> pixel 3 samples y x img = rgb_fixed (dc_sample d0 q0) (dc_sample d1 q1) (dc_sample d2 q2).
  Proof.
    intros c0 c1 c2 q0 q1 q2 d0 d1 d2 Ec Eq T F0 F1 F2 W y x Hy Hx. rewrite (flat_ycbcr c0 c1 c2 q0 q1 q2 d0 d1 d2 Ec Eq T F0 F1 F2 y x Hy Hx). rewrite Forall_forall in W.
    assert (I : forall c, In c cs -> left_out lines samples cs c x = false) by (intros c I; apply full_left; auto using flat_header).
    unfold flat_shown. rewrite !I by (rewrite Ec; cbn; auto). reflexivity.
  Qed.
  Lemma solid_cmyk : forall c0 c1 c2 c3 q0 q1 q2 q3 d0 d1 d2 d3, cs = [c0; c1; c2; c3] -> qs = [q0; q1; q2; q3] ->
    flat_component ms 0 d0 -> flat_component ms 1 d1 -> flat_component ms 2 d2 -> flat_component ms 3 d3 -> Forall (full_width lines samples cs) cs ->
    forall y x, 0 <= y < lines -> 0 <= x < samples ->
      pixel 4 samples y x img = [255 - dc_sample d0 q0; 255 - dc_sample d1 q1; 255 - dc_sample d2 q2; 255 - dc_sample d3 q3].
  Proof.
    intros c0 c1 c2 c3 q0 q1 q2 q3 d0 d1 d2 d3 Ec Eq F0 F1 F2 F3 W y x Hy Hx. rewrite (flat_cmyk c0 c1 c2 c3 q0 q1 q2 q3 d0 d1 d2 d3 Ec Eq F0 F1 F2 F3 y x Hy Hx). rewrite Forall_forall in W.
    assert (I : forall c, In c cs -> left_out lines samples cs c x = false) by (intros c I; apply full_left; auto using flat_header).
    unfold flat_shown. rewrite !I by (rewrite Ec; cbn; auto). reflexivity.
  Qed.

  (** *** Grey images *)
  Lemma grey_pixels : forall c0 c1 c2, cs = [c0; c1; c2] -> last_transform (segs ++ post) <> Some 0 -> flat_component ms 1 0 -> flat_component ms 2 0 ->
    exists q0 p0, nth_error qs 0 = Some q0 /\ plane_from lines samples cs ms 0 c0 q0 p0 /\
      forall y x, 0 <= y < lines -> 0 <= x < samples ->
        is_byte (comp_drawn lines samples cs c0 p0 (shown_row rayon (largest (map cs_v cs)) y) x) /\
        pixel 3 samples y x img = rgb_fixed (comp_drawn lines samples cs c0 p0 (shown_row rayon (largest (map cs_v cs)) y) x)
          (if left_out lines samples cs c1 x then 0 else 128) (if left_out lines samples cs c2 x then 0 else 128).
  Proof.
    intros c0 c1 c2 Ec T F1 F2.
    destruct (file_answer dbg rayon segs h fill1 fill2 ss ts qs ms data post fill3 En P1 P2 PO B) as (ps & Lp & PL & FA).
    fold cs lines samples file in Lp, PL, FA. rewrite D, Ec in FA. destruct (ycbcr_only _ _ _ _ _ _ _ _ _ FA T) as (p0 & p1 & p2 & Ep & A & _ & Px). rewrite <- Ec in A, Px.
    destruct (PL 0%nat c0 ltac:(rewrite Ec; reflexivity)) as (q0 & p & Q0 & E0 & G0). rewrite Ep in E0. injection E0 as <-. destruct (PL 1%nat c1 ltac:(rewrite Ec; reflexivity)) as (q1 & p & Q1 & E1 & G1). rewrite Ep in E1. injection E1 as <-.
    destruct (PL 2%nat c2 ltac:(rewrite Ec; reflexivity)) as (q2 & p & Q2 & E2 & G2). rewrite Ep in E2. injection E2 as <-.
    exists q0, p0. split; [exact Q0|]. split; [exact G0|]. intros y x Hy Hx. split; [apply drawn_byte; apply G0|].
    destruct (Px y x Hy Hx) as [-> _]. clear Px FA PL.
    rewrite (flat_component_drawn 1 c1 q1 p1 0 A), (flat_component_drawn 2 c2 q2 p2 0 A); auto; try (rewrite Ec; reflexivity).
  Qed.

  Lemma grey_image : forall c0 c1 c2, cs = [c0; c1; c2] -> last_transform (segs ++ post) <> Some 0 -> flat_component ms 1 0 -> flat_component ms 2 0 ->
    full_width lines samples cs c1 -> full_width lines samples cs c2 ->
    exists q0 p0, nth_error qs 0 = Some q0 /\ plane_from lines samples cs ms 0 c0 q0 p0 /\
      forall y x, 0 <= y < lines -> 0 <= x < samples ->
        pixel 3 samples y x img = repeat (comp_drawn lines samples cs c0 p0 (shown_row rayon (largest (map cs_v cs)) y) x) 3.
  Proof.
    intros c0 c1 c2 Ec T F1 F2 W1 W2. destruct (grey_pixels c0 c1 c2 Ec T F1 F2) as (q0 & p0 & Q0 & G0 & Px). exists q0, p0. split; [exact Q0|]. split; [exact G0|].
    intros y x Hy Hx. destruct (Px y x Hy Hx) as [By ->].
    assert (I1 : In c1 cs) by (rewrite Ec; cbn; auto). assert (I2 : In c2 cs) by (rewrite Ec; cbn; auto).
    rewrite (full_left lines samples cs c1 x flat_header I1 W1 Hx), (full_left lines samples cs c2 x flat_header I2 W2 Hx). cbn [repeat]. apply fixed_grey. exact By.
  Qed.

  Lemma grey_iff : forall c0 c1 c2, cs = [c0; c1; c2] -> last_transform (segs ++ post) <> Some 0 -> flat_component ms 1 0 -> flat_component ms 2 0 ->
    (forall y x, 0 <= y < lines -> 0 <= x < samples -> grey (pixel 3 samples y x img)) <-> full_width lines samples cs c1 /\ full_width lines samples cs c2.
  Proof.
    intros c0 c1 c2 Ec T F1 F2. split.
    - intros G.
      assert (Dec : forall c, full_width lines samples cs c \/ ~ full_width lines samples cs c).
      { intros c. unfold full_width, repeated. set (f := samples mod (largest (map cs_h cs) / cs_h c)). destruct (Z.eq_dec f 0); [left; auto|].
        destruct (Z_lt_dec 2 (h_ratio samples cs c)); [right; intros W; apply n, W; auto|]. destruct (Z_lt_dec 2 (v_ratio lines cs c)); [right; intros W; apply n, W; auto|]. left; tauto. }
      assert (I1 : In c1 cs) by (rewrite Ec; cbn; auto). assert (I2 : In c2 cs) by (rewrite Ec; cbn; auto).
      destruct (grey_pixels c0 c1 c2 Ec T F1 F2) as (q0 & p0 & Q0 & G0 & Px). destruct (Px 0 (samples - 1) ltac:(lia) ltac:(lia)) as [By Ep]. specialize (G 0 (samples - 1) ltac:(lia) ltac:(lia)). rewrite Ep in G.
      destruct (Dec c1) as [W1|W1]; [destruct (Dec c2) as [W2|W2]; [auto|]|].
      + exfalso. revert G. rewrite (not_full_left lines samples cs c2 flat_header I2 P2 W2). apply fixed_coloured; auto. destruct (left_out lines samples cs c1 (samples - 1)); auto.
      + exfalso. revert G. rewrite (not_full_left lines samples cs c1 flat_header I1 P2 W1). apply fixed_coloured; auto. destruct (left_out lines samples cs c2 (samples - 1)); auto.
    - intros [W1 W2] y x Hy Hx. destruct (grey_image c0 c1 c2 Ec T F1 F2 W1 W2) as (q0 & p0 & _ & _ & Px). rewrite (Px y x Hy Hx). eexists. reflexivity.
  Qed.
End File.
