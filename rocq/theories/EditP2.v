(** Images cut out of others (C69). *)
From Verif Require Import Base Tactics SpecBits SpecReader SpecMarker Biterator Huffman Marker Types Parsers Idct Upsampler Decode SpecGlobal SpecStream.
From Verif Require Import SpecHuffman SpecBlock SpecTables SpecFrame SpecSegments SpecScan SpecPlane SpecUpsample SpecImage SpecColor SpecFile SpecAnswer SpecEdit.
From Verif Require Import InvP MarkerP GlobalP StreamP2 FileP ImageP BlockP IdctP AnswerP AnswerP2 AnswerP3 ReuseP PiecesP DamageP2 TransP FlatP EditP.

(** ** Samples of the planes *)
Lemma plane_cut : forall lines samples lines' samples' cs ms ms' k c q p p' r0 c0 y x,
  1 <= cs_h c -> 1 <= cs_v c ->
  plane_from lines samples cs ms k c q p -> plane_from lines' samples' cs ms' k c q p' ->
  let W := mcus samples (largest (map cs_h cs)) in let W' := mcus samples' (largest (map cs_h cs)) in
  let H := mcus lines (largest (map cs_v cs)) in let H' := mcus lines' (largest (map cs_v cs)) in
  lenZ ms = H * W -> 0 < W -> 
  cut_out W ms r0 c0 H' W' ms' -> 0 <= y < plane_rows lines' cs c -> 0 <= x < plane_stride samples' cs c ->
  px p' (plane_stride samples' cs c) y x = px p (plane_stride samples cs c) (y + 8 * cs_v c * r0) (x + 8 * cs_h c * c0).
Proof.
  intros lines samples lines' samples' cs ms ms' k c q p p' r0 c0 y x Hh Hv [_ P] [_ P'] W W' H H' Lm W0 (Hr0 & Hc0 & Hcw & Lm' & CUT) Hy Hx.
  assert (Hr : 0 <= mcu_row (cs_v c) y < H') by (unfold mcu_row; unfold plane_rows in Hy; fold H' in Hy; split; [apply Z.div_pos; lia|apply Z.div_lt_upper_bound; lia]).
  assert (Hc : 0 <= mcu_col (cs_h c) x < W') by (unfold mcu_col; unfold plane_stride in Hx; fold W' in Hx; split; [apply Z.div_pos; lia|apply Z.div_lt_upper_bound; lia]).
  assert (Er : mcu_row (cs_v c) (y + 8 * cs_v c * r0) = r0 + mcu_row (cs_v c) y) by (unfold mcu_row; replace (y + 8 * cs_v c * r0) with (y + r0 * (8 * cs_v c)) by ring; rewrite Z.div_add by lia; lia).
  assert (Ec : mcu_col (cs_h c) (x + 8 * cs_h c * c0) = c0 + mcu_col (cs_h c) x) by (unfold mcu_col; replace (x + 8 * cs_h c * c0) with (x + c0 * (8 * cs_h c)) by ring; rewrite Z.div_add by lia; lia).
  destruct (CUT _ _ Hr Hc) as [Lt E].
  assert (Hrow : r0 + mcu_row (cs_v c) y < H) by (unfold lenZ in Lm; nia).
  destruct (P (y + 8 * cs_v c * r0) (x + 8 * cs_h c * c0)) as [blk [qt [rows [V [N [D ->]]]]]].
  { unfold plane_rows. fold H. split; [nia|]. unfold mcu_row in Hrow. pose proof (Z.mod_pos_bound y (8 * cs_v c) ltac:(lia)) as Mb. pose proof (Z.div_mod y (8 * cs_v c) ltac:(lia)) as Dm. nia. }
  { unfold plane_stride. fold W. split; [nia|]. assert (Hcol : c0 + mcu_col (cs_h c) x < W) by lia. unfold mcu_col in Hcol. pose proof (Z.mod_pos_bound x (8 * cs_h c) ltac:(lia)) as Mb. pose proof (Z.div_mod x (8 * cs_h c) ltac:(lia)) as Dm. nia. }
  destruct (P' y x Hy Hx) as [blk' [qt' [rows' [V' [N' [D' ->]]]]]]. clear P P'. cbv zeta in V, V'.
  assert (qt' = qt) by (eapply order_unique; eassumption). subst qt'.
  assert (Q : q_at ms' W' k (cs_h c) (cs_v c) y x = q_at ms W k (cs_h c) (cs_v c) (y + 8 * cs_v c * r0) (x + 8 * cs_h c * c0)).
  { unfold q_at. rewrite Er, Ec, E. unfold block_no. f_equal. f_equal.
    replace (y + 8 * cs_v c * r0) with (y + r0 * (8 * cs_v c)) by ring. replace (x + 8 * cs_h c * c0) with (x + c0 * (8 * cs_h c)) by ring. rewrite !Z.mod_add by lia. reflexivity. }
  fold W in V. fold W' in V'. rewrite Q in V'. assert (blk' = blk) by (eapply order_unique; [exact V'|exact V]). subst blk'.
  assert (rows' = rows) by (specialize (D true); specialize (D' true); congruence). subst rows'. unfold in_block.
  replace (y + 8 * cs_v c * r0) with (y + cs_v c * r0 * 8) by ring. replace (x + 8 * cs_h c * c0) with (x + cs_h c * c0 * 8) by ring. rewrite !Z.mod_add by lia. reflexivity.
Qed.

(** ** What components show *)
Lemma ratio_whole : forall n f fm, n <> 1 -> 1 <= f <= fm -> fm <= 4 -> fm mod f = 0 -> exists r, ratio n f fm = r /\ fm = r * f /\ 1 <= r <= 4 /\ fm / f = r.
Proof.
  intros n f fm Hn Hf Hm D. exists (fm / f). unfold ratio. replace (n =? 1) with false by lia. apply Z.mod_divide in D; [|lia]. destruct D as [r ->]. rewrite Z.div_mul by lia. repeat split; try nia.
Qed.
Lemma mcus_covers : forall len fm, 1 <= fm -> len <= 8 * fm * mcus len fm.
Proof. intros len fm H. unfold mcus, ceil_div. pose proof (Z.mod_pos_bound (len + 8 * fm - 1) (8 * fm) ltac:(lia)). pose proof (Z.div_mod (len + 8 * fm - 1) (8 * fm) ltac:(lia)). lia. Qed.
Lemma neighbour_cut : forall w w' i n, 0 <= n -> 0 <= i -> n = 0 \/ 1 <= i -> (Z.odd i = true -> i / 2 + 1 < w' /\ i / 2 + n + 1 < w) ->
  neighbour (w - 1) (i + 2 * n) = neighbour (w' - 1) i + n /\ 0 <= neighbour (w' - 1) i.
Proof.
  intros w w' i n Hn Hi Z0 O. unfold neighbour. rewrite Z.even_add_mul_2. replace (i + 2 * n) with (i + n * 2) by ring. rewrite Z.div_add by lia.
  pose proof (Z.div_mod i 2 ltac:(lia)) as D. rewrite Zmod_odd in D. rewrite <- Z.negb_odd. destruct (Z.odd i); cbn [negb]; [specialize (O eq_refl); lia|]. lia.
Qed.

Lemma neighbour_bound : forall w x, 0 <= x -> neighbour (w - 1) x <= Z.max (x / 2) (w - 1).
Proof. intros w x Hx. unfold neighbour. pose proof (Z.div_pos x 2 Hx ltac:(lia)) as D. destruct (Z.even x); lia. Qed.

Section Cut.
  Variables (lines samples lines' samples' : Z) (cs : list comp_spec) (c : comp_spec) (p p' : list Z) (r0 c0 : Z).
  Let hm := largest (map cs_h cs).
  Let vm := largest (map cs_v cs).
  Hypothesis (Hh : 1 <= cs_h c <= hm) (Hv : 1 <= cs_v c <= vm) (Hhm : hm <= 4) (Hvm : vm <= 4) (Hr0 : 0 <= r0) (Hc0 : 0 <= c0).
  Hypothesis PX : forall y x, 0 <= y < plane_rows lines' cs c -> 0 <= x < plane_stride samples' cs c ->
    px p' (plane_stride samples' cs c) y x = px p (plane_stride samples cs c) (y + 8 * cs_v c * r0) (x + 8 * cs_h c * c0).
  Let rows_bound : lines' <= 8 * vm * mcus lines' vm := mcus_covers lines' vm ltac:(lia).
  Let cols_bound : samples' <= 8 * hm * mcus samples' hm := mcus_covers samples' hm ltac:(lia).

  Lemma drawn_full : forall row x, cs_h c = hm -> cs_v c = vm -> 0 <= row < lines' -> 0 <= x < samples' ->
    comp_drawn lines' samples' cs c p' row x = comp_drawn lines samples cs c p (row + 8 * vm * r0) (x + 8 * hm * c0).
  Proof.
    intros row x Eh Ev Hrow Hx.
    assert (R1 : forall n, ratio n (cs_h c) hm = 1) by (intros n; unfold ratio; rewrite Eh, Z.div_same by lia; destruct (n =? 1); reflexivity).
    assert (R2 : forall n, ratio n (cs_v c) vm = 1) by (intros n; unfold ratio; rewrite Ev, Z.div_same by lia; destruct (n =? 1); reflexivity).
    unfold comp_drawn, comp_shown, h_ratio, v_ratio. fold hm vm. rewrite !R1, !R2. cbn [Z.ltb Z.compare orb andb]. unfold shown. cbn [Z.eqb Pos.eqb andb].
    rewrite PX; [rewrite Eh, Ev; reflexivity| |].
    - unfold plane_rows. fold vm. rewrite Ev. nia.
    - unfold plane_stride. fold hm. rewrite Eh. nia.
  Qed.

  Lemma drawn_clear : forall row x, ratios_accepted lines samples cs c -> ratios_accepted lines' samples' cs c ->
    2 <= lines -> 2 <= lines' -> x + 4 <= samples' -> x + 8 * hm * c0 + 4 <= samples -> 0 <= x -> c0 = 0 \/ 1 <= x ->
    0 <= row < lines' -> (vm | row) -> r0 = 0 \/ 1 <= row ->
    comp_drawn lines' samples' cs c p' row x = comp_drawn lines samples cs c p (row + 8 * vm * r0) (x + 8 * hm * c0).
  Proof.
    intros row x [A1 [A2 _]] _ Hl Hl' Hs' Hs Hx X0 Hrow [z Ez] Y0. fold hm in A1. fold vm in A2. assert (Hsa : 4 <= samples) by nia.
    destruct (ratio_whole samples (cs_h c) hm ltac:(lia) Hh Hhm ltac:(lia)) as [f [Ef [Hf [Rf Df]]]]. destruct (ratio_whole lines (cs_v c) vm ltac:(lia) Hv Hvm ltac:(lia)) as [g [Eg [Hg [Rg Dg]]]].
    assert (Ef' : ratio samples' (cs_h c) hm = f) by (unfold ratio; replace (samples' =? 1) with false by lia; exact Df).
    assert (Eg' : ratio lines' (cs_v c) vm = g) by (unfold ratio; replace (lines' =? 1) with false by lia; exact Dg).
    unfold comp_drawn, comp_shown, h_ratio, v_ratio. fold hm vm. rewrite Ef, Eg, Ef', Eg', Df.
    assert (Q' : f * (samples' / f) <=? x = false) by (pose proof (Z.mod_pos_bound samples' f ltac:(lia)); pose proof (Z.div_mod samples' f ltac:(lia)); lia).
    assert (Q : f * (samples / f) <=? x + 8 * hm * c0 = false) by (pose proof (Z.mod_pos_bound samples f ltac:(lia)); pose proof (Z.div_mod samples f ltac:(lia)); lia).
    rewrite Q, Q', !andb_false_r.
    set (W' := mcus samples' hm) in *. set (H' := mcus lines' vm) in *.
    assert (PX' : forall y x, 0 <= y < 8 * (H' * cs_v c) -> 0 <= x < 8 * (W' * cs_h c) -> px p' (plane_stride samples' cs c) y x = px p (plane_stride samples cs c) (y + 8 * cs_v c * r0) (x + 8 * cs_h c * c0)) by exact PX.
    set (h := cs_h c) in *. set (v := cs_v c) in *. clearbody h v.
    assert (Dr : (row + 8 * vm * r0) / g = row / g + 8 * v * r0) by (rewrite Hg; replace (row + 8 * (g * v) * r0) with (row + 8 * v * r0 * g) by ring; apply Z.div_add; lia).
    assert (Dx : (x + 8 * hm * c0) / f = x / f + 8 * h * c0) by (rewrite Hf; replace (x + 8 * (f * h) * c0) with (x + 8 * h * c0 * f) by ring; apply Z.div_add; lia).
    assert (RB : lines' <= 8 * (g * v) * H') by (rewrite <- Hg; exact rows_bound). assert (CB : samples' <= 8 * (f * h) * W') by (rewrite <- Hf; exact cols_bound). clear rows_bound cols_bound PX.
    assert (Br : 0 <= row / g < 8 * (H' * v)) by (split; [apply Z.div_pos; lia|]; apply Z.div_lt_upper_bound; [lia|]; clear - RB Hrow; nia).
    assert (Bx : 0 <= x / f < 8 * (W' * h)) by (split; [apply Z.div_pos; lia|]; apply Z.div_lt_upper_bound; [lia|]; clear - CB Hs' Hx; nia).
    assert (NX : f = 2 -> neighbour (extent samples h hm - 1) (x + 8 * hm * c0) = neighbour (extent samples' h hm - 1) x + 8 * h * c0 /\ 0 <= neighbour (extent samples' h hm - 1) x < 8 * (W' * h)).
    { intros F2. rewrite F2 in *. assert (Ex : forall n, extent n h hm = (n + 1) / 2).
      { intros n. unfold extent, ceil_div. rewrite Hf.
        pose proof (Z.mod_pos_bound (n + 1) 2 ltac:(lia)) as M. pose proof (Z.div_mod (n + 1) 2 ltac:(lia)) as D. set (t := (n + 1) / 2) in *. set (m := (n + 1) mod 2) in *.
        replace n with (2 * t + m - 1) by lia. clear - M Hh. symmetry. apply Z.div_unique with (r := h * (m + 1) - 1); [|ring]. left. clear - M Hh. nia. }
      rewrite !Ex. destruct (neighbour_cut ((samples + 1) / 2) ((samples' + 1) / 2) x (8 * h * c0) ltac:(clear - Hh Hc0; nia) Hx) as [N1 N2].
      - destruct X0 as [->|X0]; [left; ring|right; exact X0].
      - intros _. pose proof (Z.mod_pos_bound (samples + 1) 2 ltac:(lia)); pose proof (Z.div_mod (samples + 1) 2 ltac:(lia)). pose proof (Z.mod_pos_bound (samples' + 1) 2 ltac:(lia)); pose proof (Z.div_mod (samples' + 1) 2 ltac:(lia)).
        pose proof (Z.mod_pos_bound x 2 ltac:(lia)); pose proof (Z.div_mod x 2 ltac:(lia)). assert (Hs2 : x + 2 * (8 * h * c0) + 4 <= samples) by (replace (2 * (8 * h * c0)) with (8 * hm * c0) by (rewrite Hf; ring); exact Hs). clear - H H0 H1 H2 H3 H4 Hs2 Hs'. set (z := 8 * h * c0) in *. clearbody z. lia.
      - replace (x + 8 * hm * c0) with (x + 2 * (8 * h * c0)) by (rewrite Hf; ring). split; [exact N1|]. split; [exact N2|].
        pose proof (neighbour_bound ((samples' + 1) / 2) x Hx) as U.
        pose proof (Z.mod_pos_bound (samples' + 1) 2 ltac:(lia)); pose proof (Z.div_mod (samples' + 1) 2 ltac:(lia)). pose proof (Z.mod_pos_bound x 2 ltac:(lia)); pose proof (Z.div_mod x 2 ltac:(lia)). replace (8 * (2 * h) * W') with (2 * (8 * (W' * h))) in CB by ring. clear - H H0 H1 H2 U CB Hs'. set (z := 8 * (W' * h)) in *. clearbody z. lia. }
    assert (NY : g = 2 -> neighbour (extent lines v vm - 1) (row + 8 * vm * r0) = neighbour (extent lines' v vm - 1) row + 8 * v * r0 /\ 0 <= neighbour (extent lines' v vm - 1) row < 8 * (H' * v)).
    { intros G2. rewrite G2 in *. assert (Ev : Z.even row = true) by (rewrite Ez, Hg; replace (z * (2 * v)) with (2 * (z * v)) by ring; apply Z.even_mul).
      destruct (neighbour_cut (extent lines v vm) (extent lines' v vm) row (8 * v * r0) ltac:(clear - Hv Hr0; nia) ltac:(lia)) as [N1 N2].
      - destruct Y0 as [->|Y0]; [left; ring|right; exact Y0].
      - rewrite <- Z.negb_even, Ev. discriminate.
      - replace (row + 8 * vm * r0) with (row + 2 * (8 * v * r0)) by (rewrite Hg; ring). split; [exact N1|]. split; [exact N2|].
        unfold neighbour. rewrite Ev. clear - Br. set (z := 8 * (H' * v)) in *. clearbody z. lia. }
    assert (S1 : forall y x, 0 <= y < 8 * (H' * v) -> 0 <= x < 8 * (W' * h) -> px p (plane_stride samples cs c) (y + 8 * v * r0) (x + 8 * h * c0) = px p' (plane_stride samples' cs c) y x) by (intros; symmetry; apply PX'; assumption).
    unfold shown. destruct (Z.eqb_spec f 1) as [F1|F1]; destruct (Z.eqb_spec g 1) as [G1|G1]; cbn [andb].
    - rewrite F1, !Z.div_1_r in *. rewrite G1, !Z.div_1_r in *. rewrite Dr, Dx, S1; auto.
    - rewrite F1 in *. rewrite !Z.div_1_r in *. replace (1 =? 2) with false by reflexivity. cbn [andb]. destruct (Z.eqb_spec g 2) as [G2|G2]; cbn [andb].
      + rewrite G2 in *. destruct (NY eq_refl) as [NY1 NY2]. unfold double_height. rewrite NY1, Dr, Dx, !S1; auto.
      + rewrite Dr, Dx, S1; auto.
    - rewrite G1 in *. rewrite !Z.div_1_r in *. destruct (Z.eqb_spec f 2) as [F2|F2]; cbn [andb].
      + rewrite F2 in *. destruct (NX eq_refl) as [NX1 NX2]. unfold double_width. rewrite NX1, Dr, Dx, !S1; auto.
      + rewrite Dr, Dx, S1; auto.
    - rewrite ?andb_false_r. destruct (Z.eqb_spec f 2) as [F2|F2]; destruct (Z.eqb_spec g 2) as [G2|G2]; cbn [andb]; try (rewrite Dr, Dx, S1; auto; fail).
      rewrite F2 in *. rewrite G2 in *. destruct (NX eq_refl) as [NX1 NX2]. destruct (NY eq_refl) as [NY1 NY2]. unfold double_both. rewrite NX1, NY1, Dr, Dx, !S1; auto.
  Qed.
End Cut.

(** ** Pixels *)
Lemma largest_range : forall cs (f : comp_spec -> Z) c, In c cs -> Forall (fun c => 1 <= f c <= 4) cs -> f c <= largest (map f cs) <= 4.
Proof.
  intros cs f c I F. split.
  - clear F. induction cs as [|a cs IH]; [destruct I|]. cbn [map largest fold_right] in *. fold (largest (map f cs)). destruct I as [->|I]; [lia|]. specialize (IH I). lia.
  - clear I. induction F as [|a cs H F IH]; cbn [map largest fold_right]; [lia|]. fold (largest (map f cs)). lia.
Qed.
Lemma black_pixel : forall w l y x, 0 <= y < l -> 0 <= x < w -> pixel 3 w y x (repeat 0 (Z.to_nat (3 * w * l))) = [0; 0; 0].
Proof.
  intros w l y x Hy Hx. unfold pixel. assert (B : 3 * (y * w + x) + 3 <= 3 * w * l) by nia. assert (B0 : 0 <= 3 * (y * w + x)) by nia.
  replace (Z.to_nat (3 * w * l)) with (Z.to_nat (3 * (y * w + x)) + (3 + Z.to_nat (3 * w * l - 3 * (y * w + x) - 3)))%nat by lia.
  rewrite repeat_app, skipn_app, skipn_all2 by (rewrite repeat_length; lia). rewrite repeat_length, Nat.sub_diag. reflexivity.
Qed.

Lemma pixels_meet : forall rayon lines samples cs ps lines' samples' cs' ps' t img img' y x y' x',
  final_answer rayon lines samples cs ps t (Ok img) -> final_answer rayon lines' samples' cs' ps' t (Ok img') -> length cs = length cs' ->
  0 <= y < lines -> 0 <= x < samples -> 0 <= y' < lines' -> 0 <= x' < samples' ->
  (Forall (ratios_accepted lines samples cs) cs -> Forall (ratios_accepted lines' samples' cs') cs' ->
   forall k c c' p p', nth_error cs k = Some c -> nth_error cs' k = Some c' -> nth_error ps k = Some p -> nth_error ps' k = Some p' ->
     comp_drawn lines' samples' cs' c' p' (shown_row rayon (largest (map cs_v cs')) y') x' = comp_drawn lines samples cs c p (shown_row rayon (largest (map cs_v cs)) y) x) ->
  pixel (lenZ cs) samples' y' x' img' = pixel (lenZ cs) samples y x img.
Proof.
  intros rayon lines samples cs ps lines' samples' cs' ps' t img img' y x y' x' FA FA' L Hy Hx Hy' Hx' M.
  destruct cs as [|c0 [|c1 [|c2 [|c3 [|c4 cs]]]]].
  1-3: exfalso; inversion FA; try discriminate; cbn in *; lia.
  - destruct cs' as [|c0' [|c1' [|c2' [|c3' cs']]]]; try discriminate L. change (lenZ [c0; c1; c2]) with 3.
    assert (T : t = Some 0 \/ t <> Some 0) by (destruct t as [t|]; [|right; discriminate]; destruct (Z.eq_dec t 0) as [->|]; [left; reflexivity|right; congruence]). destruct T as [->|T].
    + assert (I1 : img = repeat 0 (Z.to_nat (3 * samples * lines))) by (inversion FA; [reflexivity|congruence|discriminate]).
      assert (I2 : img' = repeat 0 (Z.to_nat (3 * samples' * lines'))) by (inversion FA'; [reflexivity|congruence|discriminate]).
      rewrite I1, I2, !black_pixel by assumption. reflexivity.
    + destruct (ycbcr_only _ _ _ _ _ _ _ _ _ FA T) as [p0 [p1 [p2 [-> [A [_ R]]]]]]. destruct (ycbcr_only _ _ _ _ _ _ _ _ _ FA' T) as [p0' [p1' [p2' [-> [A' [_ R']]]]]].
      specialize (M A A'). destruct (R y x Hy Hx) as [-> _]. destruct (R' y' x' Hy' Hx') as [-> _].
      rewrite (M 0%nat c0 c0' p0 p0' eq_refl eq_refl eq_refl eq_refl), (M 1%nat c1 c1' p1 p1' eq_refl eq_refl eq_refl eq_refl), (M 2%nat c2 c2' p2 p2' eq_refl eq_refl eq_refl eq_refl). reflexivity.
  - destruct cs' as [|c0' [|c1' [|c2' [|c3' [|c4' cs']]]]]; try discriminate L. change (lenZ [c0; c1; c2; c3]) with 4.
    destruct (cmyk_only _ _ _ _ _ _ _ _ _ _ FA) as [p0 [p1 [p2 [p3 [-> [A [_ R]]]]]]]. destruct (cmyk_only _ _ _ _ _ _ _ _ _ _ FA') as [p0' [p1' [p2' [p3' [-> [A' [_ R']]]]]]].
    specialize (M A A'). pose proof (R y x Hy Hx) as ->. pose proof (R' y' x' Hy' Hx') as ->.
    rewrite (M 0%nat c0 c0' p0 p0' eq_refl eq_refl eq_refl eq_refl), (M 1%nat c1 c1' p1 p1' eq_refl eq_refl eq_refl eq_refl), (M 2%nat c2 c2' p2 p2' eq_refl eq_refl eq_refl eq_refl), (M 3%nat c3 c3' p3 p3' eq_refl eq_refl eq_refl eq_refl). reflexivity.
  - exfalso. inversion FA; try discriminate; cbn in *; lia.
Qed.

Lemma cut_image : forall dbg rayon segs h fill1 fill2 ss ts data post fill3 segs' h' fill1' fill2' ss' ts' data' post' fill3' qs ms ms' r0 c0 img img' y x,
  encodes segs h ss ts qs ms data -> encodes segs' h' ss' ts' qs ms' data' -> post_ok post -> post_ok post' ->
  let cs := fh_comps h in let hm := largest (map cs_h cs) in let vm := largest (map cs_v cs) in
  let lines := fh_lines h in let samples := fh_samples h in let lines' := fh_lines h' in let samples' := fh_samples h' in
  map (fun c => (cs_h c, cs_v c)) (fh_comps h') = map (fun c => (cs_h c, cs_v c)) cs ->
  last_transform (segs' ++ post') = last_transform (segs ++ post) ->
  cut_out (mcus samples hm) ms r0 c0 (mcus lines' vm) (mcus samples' hm) ms' -> rayon = false \/ vm = 1 ->
  let file := file_bytes segs fill1 fill2 (mkSpS ss 0 63 0 0) data post fill3 in
  let file' := file_bytes segs' fill1' fill2' (mkSpS ss' 0 63 0 0) data' post' fill3' in
  bytes file -> bytes file' -> decode_fresh dbg rayon file = Ok img -> decode_fresh dbg rayon file' = Ok img' ->
  0 <= y < lines' -> 0 <= x < samples' -> y + 8 * vm * r0 < lines -> x + 8 * hm * c0 < samples ->
  full_resolution cs \/ clear_of_cut lines samples hm vm r0 c0 lines' samples' y x ->
  pixel (lenZ cs) samples' y x img' = pixel (lenZ cs) samples (y + 8 * vm * r0) (x + 8 * hm * c0) img.
Proof.
  intros dbg rayon segs h fill1 fill2 ss ts data post fill3 segs' h' fill1' fill2' ss' ts' data' post' fill3' qs ms ms' r0 c0 img img' y x En En' PO PO' cs hm vm lines samples lines' samples' Ef Et CUT RV file file' B B' D D' Hy Hx Hy2 Hx2 CL.
  assert (Hr0 : 0 <= r0) by apply CUT. assert (Hc0 : 0 <= c0) by apply CUT.
  assert (HO : header_ok lines samples cs) by (apply (sof_ok segs h (en_segs _ _ _ _ _ _ _ En)); rewrite (en_frame _ _ _ _ _ _ _ En); left; reflexivity).
  assert (FF : Forall (fun c => 1 <= cs_h c <= 4 /\ 1 <= cs_v c <= 4) cs) by (destruct HO as [_ _ _ _ _ X]; revert X; apply Forall_impl; intros c [? ?]; auto).
  assert (Fh : forall c, In c cs -> 1 <= cs_h c <= hm /\ hm <= 4 /\ 1 <= cs_v c <= vm /\ vm <= 4).
  { intros c I. pose proof (largest_range cs cs_h c I ltac:(revert FF; apply Forall_impl; tauto)) as Q1. pose proof (largest_range cs cs_v c I ltac:(revert FF; apply Forall_impl; tauto)) as Q2. fold hm in Q1. fold vm in Q2. rewrite Forall_forall in FF. specialize (FF c I). lia. }
  assert (Pos : 0 <= 8 * vm * r0 /\ 0 <= 8 * hm * c0).
  { assert (N : cs <> []) by (destruct HO; assumption). destruct cs as [|c cs0] eqn:Ecs; [congruence|]. destruct (Fh c (or_introl eq_refl)) as [? [? [? ?]]]. clearbody hm vm. split; nia. }
  destruct (file_answer dbg rayon segs h fill1 fill2 ss ts qs ms data post fill3 En ltac:(fold lines; lia) ltac:(fold samples; lia) PO B) as [ps [Lp [PL FA]]].
  destruct (file_answer dbg rayon segs' h' fill1' fill2' ss' ts' qs ms' data' post' fill3' En' ltac:(fold lines'; lia) ltac:(fold samples'; lia) PO' B') as [ps' [Lp' [PL' FA']]].
  fold file in FA. fold file' in FA'. rewrite D in FA. rewrite D' in FA'. rewrite Et in FA'.
  fold (factors (fh_comps h')) in Ef. fold (factors cs) in Ef. fold cs lines samples in FA, PL. fold lines' samples' in FA', PL'. set (cs' := fh_comps h') in *.
  assert (Lc : length cs = length cs') by (rewrite <- (map_length (fun c => (cs_h c, cs_v c)) cs); change (map (fun c => (cs_h c, cs_v c)) cs) with (factors cs); rewrite <- Ef; unfold factors; apply map_length).
  assert (Eh : map cs_h cs' = map cs_h cs) by (rewrite !factors_h, Ef; reflexivity). assert (Ev : map cs_v cs' = map cs_v cs) by (rewrite !factors_v, Ef; reflexivity).
  apply (pixels_meet rayon lines samples cs ps lines' samples' cs' ps' _ img img' (y + 8 * vm * r0) (x + 8 * hm * c0) y x FA FA' Lc ltac:(lia) ltac:(lia) Hy Hx).
  intros A A' k c c' p p' Ec Ec' Ep Ep'.
  destruct (PL k c Ec) as [q [p1 [Eq [E1 Fp]]]]. destruct (PL' k c' Ec') as [q' [p1' [Eq' [E1' Fp']]]]. assert (p1 = p) by congruence. assert (p1' = p') by congruence. assert (q' = q) by congruence. subst p1 p1' q'.
  destruct (factors_nth _ _ _ _ _ (eq_sym Ef) Ec Ec') as [Hh Hv]. apply (plane_factors _ _ cs cs' ms' k c c' q p' (eq_sym Ef) Hh Hv) in Fp'.
  assert (Ic : In c cs) by exact (nth_error_In _ _ Ec). destruct (Fh c Ic) as [R1 [R2 [R3 R4]]].
  assert (W0 : 0 < mcus samples hm) by (pose proof (mcus_covers samples hm ltac:(lia)) as Q; clearbody hm; nia).
  assert (PX : forall y x, 0 <= y < plane_rows lines' cs c -> 0 <= x < plane_stride samples' cs c ->
    px p' (plane_stride samples' cs c) y x = px p (plane_stride samples cs c) (y + 8 * cs_v c * r0) (x + 8 * cs_h c * c0)).
  { intros y1 x1 Hy1 Hx1. exact (plane_cut lines samples lines' samples' cs ms ms' k c q p p' r0 c0 y1 x1 ltac:(lia) ltac:(lia) Fp Fp' (en_count _ _ _ _ _ _ _ En) W0 CUT Hy1 Hx1). }
  assert (Ed : forall row x, comp_drawn lines' samples' cs' c' p' row x = comp_drawn lines' samples' cs c p' row x).
  { intros row x1. unfold comp_drawn, comp_shown, h_ratio, v_ratio, plane_stride. rewrite Eh, Ev, Hh, Hv. reflexivity. }
  rewrite Ed, Ev. fold vm.
  assert (SR : shown_row rayon vm (y + 8 * vm * r0) = shown_row rayon vm y + 8 * vm * r0).
  { unfold shown_row. destruct RV as [->|RV]; [|rewrite RV; destruct rayon; rewrite !Z.div_1_r; lia]. replace (y + 8 * vm * r0) with (y + 8 * r0 * vm) by ring. rewrite Z.div_add by lia. ring. }
  assert (SB : 0 <= shown_row rayon vm y < lines' /\ (vm | shown_row rayon vm y) /\ (vm <= y -> 1 <= shown_row rayon vm y)).
  { unfold shown_row. destruct RV as [->|RV].
    - pose proof (Z.mod_pos_bound y vm ltac:(lia)) as Mb. pose proof (Z.div_mod y vm ltac:(lia)) as Dm. pose proof (Z.div_pos y vm ltac:(lia) ltac:(lia)) as Dp. split; [clearbody vm; nia|]. split; [exists (y / vm); reflexivity|]. intros V. assert (1 <= y / vm) by (apply Z.div_le_lower_bound; lia). clearbody vm. nia.
    - rewrite RV. split; [destruct rayon; rewrite ?Z.div_1_r; lia|]. split; [apply Z.divide_1_l|]. intros V. destruct rayon; rewrite ?Z.div_1_r; lia. }
  rewrite SR. destruct SB as [SB1 [SB2 SB3]]. destruct CL as [FR|[C1 [C2 [C3 [C4 [C5 C6]]]]]].
  - unfold full_resolution in FR. rewrite Forall_forall in FR. destruct (FR c Ic) as [F1 F2]. apply drawn_full; assumption.
  - rewrite Forall_forall in A, A'. apply drawn_clear; try assumption; try lia; [apply (A c Ic)|].
    assert (X : ratios_accepted lines' samples' cs' c') by (apply A'; exact (nth_error_In _ _ Ec')).
    unfold ratios_accepted, repeated, whole_ratios, h_ratio, v_ratio in *. rewrite Eh, Ev, <- Hh, <- Hv in X. exact X.
Qed.
