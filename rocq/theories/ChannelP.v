(** Images of which only some components differ (C74), and brighter images (C75). *)
From Verif Require Import Base Tactics SpecBits SpecReader SpecMarker Biterator Huffman Marker Types Parsers Idct Upsampler Decode SpecGlobal SpecStream.
From Verif Require Import SpecHuffman SpecBlock SpecTables SpecFrame SpecSegments SpecScan SpecPlane SpecUpsample SpecImage SpecColor SpecFile SpecAnswer SpecIdct SpecEncoder SpecEdit SpecFlip SpecChannel.
From Verif Require Import ParsersP InvP MarkerP GlobalP StreamP2 FileP ImageP BlockP UpsampleP RayonP IdctP IdctP2 AnswerP AnswerP2 AnswerP3 ReuseP PiecesP DamageP2 TransP UpsampleP2 FlatP EditP EditP2 EncoderP MosaicP FlipP FlipP3.

(** ** Blocks *)
Definition over (n a b : Z) : Prop := a <= b <= a + n.
(** Samples cut off at 0 and 255 before and after adding [n]. *)
Definition lifted (n a b : Z) : Prop := exists v, a = sat v /\ b = sat (v + n).
Lemma lifted_over : forall n a b, 0 <= n -> lifted n a b -> over n a b.
Proof. intros n a b N [v [-> ->]]. unfold over, sat. lia. Qed.

Lemma mx_0 : forall x, (x < 8)%nat -> mx x 0 = 4096.
Proof. intros x H. do 8 (destruct x as [|x]; [reflexivity|]). lia. Qed.
Section Block.
  Variables (a q a' q' : list Z) (n : Z).
  Hypothesis E0 : deq a' q' 0 0 = deq a q 0 0 + 8 * n.
  Hypothesis E : forall u v, (u < 8)%nat -> (v < 8)%nat -> (u <> 0 \/ v <> 0)%nat -> deq a' q' v u = deq a q v u.
  Lemma pass1_up : forall y u, (y < 8)%nat -> (u < 8)%nat -> pass1 a' q' y u = pass1 a q y u + if (u =? 0)%nat then 32 * n else 0.
  Proof.
    intros y u Hy Hu. unfold pass1. destruct (Nat.eqb_spec u 0) as [->|N].
    - unfold sum8. rewrite E0, !(E 0 1), !(E 0 2), !(E 0 3), !(E 0 4), !(E 0 5), !(E 0 6), !(E 0 7), (mx_0 y Hy) by lia.
      rewrite <- Z.div_add by lia. f_equal.
      generalize (mx y 1), (mx y 2), (mx y 3), (mx y 4), (mx y 5), (mx y 6), (mx y 7), (deq a q 0 0), (deq a q 1 0), (deq a q 2 0), (deq a q 3 0), (deq a q 4 0), (deq a q 5 0), (deq a q 6 0), (deq a q 7 0). clear. intros. ring.
    - rewrite Z.add_0_r. do 2 f_equal. apply sum8_ext. intros v Hv. rewrite E by lia. reflexivity.
  Qed.
  Lemma pass2_up : forall y x, (y < 8)%nat -> (x < 8)%nat -> pass2 a' q' y x = pass2 a q y x + n.
  Proof.
    intros y x Hy Hx. unfold pass2, sum8. rewrite !pass1_up by lia. cbn [Nat.eqb]. rewrite (mx_0 x Hx). rewrite <- Z.div_add by lia. f_equal.
    generalize (mx x 1), (mx x 2), (mx x 3), (mx x 4), (mx x 5), (mx x 6), (mx x 7), (pass1 a q y 0), (pass1 a q y 1), (pass1 a q y 2), (pass1 a q y 3), (pass1 a q y 4), (pass1 a q y 5), (pass1 a q y 6), (pass1 a q y 7). clear. intros. ring.
  Qed.
End Block.
Lemma unnatural_0 : forall i, (i < 64)%nat -> (unnatural i =? 0)%nat = (i =? 0)%nat.
Proof.
  intros i Hi. destruct (natural_unnatural i Hi) as [En L]. destruct (Nat.eqb_spec (unnatural i) 0) as [Z0|N].
  - rewrite Z0, natural_0 in En. subst i. reflexivity.
  - destruct (Nat.eqb_spec i 0) as [->|]; [|reflexivity]. exfalso. apply N. vm_compute. reflexivity.
Qed.

Lemma block_up : forall n q q' b b' blk blk' qt qt' rows rows', brighter_block n q q' b b' -> modest q b -> modest q' b' ->
  block_values blk (q_dc b) (q_ac b) -> block_values blk' (q_dc b') (q_ac b') -> natural_order qt q -> natural_order qt' q' ->
  idct_block_rows true blk qt = Ok rows -> idct_block_rows true blk' qt' = Ok rows' ->
  forall y x, (y < 8)%nat -> (x < 8)%nat -> lifted n (nth x (nth y rows []) 0) (nth x (nth y rows' []) 0).
Proof.
  intros n q q' b b' blk blk' qt qt' rows rows' U M M' V V' N N' D D' y x Hy Hx.
  destruct (modest_total q b blk qt V N M) as [T G]. destruct (modest_total q' b' blk' qt' V' N' M') as [T' G'].
  assert (E : forall u v, (u < 8)%nat -> (v < 8)%nat -> deq blk' qt' v u = deq blk qt v u + if (u + 8 * v =? 0)%nat then 8 * n else 0).
  { intros u v Hu Hv. unfold deq. destruct (natural_unnatural (u + 8 * v) ltac:(lia)) as [En L]. destruct V as [_ V]. destruct V' as [_ V']. destruct N as [_ N]. destruct N' as [_ N'].
    rewrite <- (unnatural_0 (u + 8 * v)) by lia. rewrite <- En at 1 2 3 4. rewrite V, V', N, N' by exact L. exact (U _ L). }
  rewrite (block_rows_sat true blk' qt' rows' (modest_moderate _ _ (proj1 V') T') T' ltac:(intros y0 x0 Hy0 Hx0; specialize (G' y0 x0 Hy0 Hx0); lia) D' y x Hy Hx).
  rewrite (block_rows_sat true blk qt rows (modest_moderate _ _ (proj1 V) T) T ltac:(intros y0 x0 Hy0 Hx0; specialize (G y0 x0 Hy0 Hx0); lia) D y x Hy Hx).
  exists (pass2 blk qt y x). split; [reflexivity|]. f_equal. apply pass2_up; [|  |exact Hy|exact Hx].
  - apply (E 0%nat 0%nat); lia.
  - intros u v Hu Hv O. rewrite (E u v Hu Hv). replace (u + 8 * v =? 0)%nat with false; [lia|]. symmetry. apply Nat.eqb_neq. lia.
Qed.

(** ** Planes *)
Lemma rel_nth_in : forall A B (R : A -> B -> Prop) l l' d d', Forall2 R l l' -> forall n, (n < length l)%nat -> R (nth n l d) (nth n l' d').
Proof. intros A B R l l' d d' F. induction F as [|a b l l' H F IH]; intros [|n] L; cbn [nth length] in *; try lia; [exact H|]. apply IH. lia. Qed.
Lemma q_at_pair : forall lines samples cs ms ms' k c (R : qblock -> qblock -> Prop) y x, header_ok lines samples cs -> Forall (mcu_shape cs) ms ->
  lenZ ms = mcus lines (largest (map cs_v cs)) * mcus samples (largest (map cs_h cs)) -> nth_error cs k = Some c ->
  Forall2 (fun m m' => Forall2 R (nth k m []) (nth k m' [])) ms ms' ->
  0 <= y < plane_rows lines cs c -> 0 <= x < plane_stride samples cs c ->
  R (q_at ms (mcus samples (largest (map cs_h cs))) k (cs_h c) (cs_v c) y x) (q_at ms' (mcus samples (largest (map cs_h cs))) k (cs_h c) (cs_v c) y x).
Proof.
  intros lines samples cs ms ms' k c Rel y x HO Sh Lm Ec F Hy Hx. destruct HO as [_ _ Ne _ _ X]. rewrite Forall_forall in X.
  destruct (X c (nth_error_In _ _ Ec)) as [Fh Fv]. unfold plane_rows, plane_stride in *.
  set (mw := mcus samples (largest (map cs_h cs))) in *. set (mh := mcus lines (largest (map cs_v cs))) in *.
  assert (R : 0 <= mcu_row (cs_v c) y < mh) by (unfold mcu_row; split; [apply Z.div_pos; lia|apply Z.div_lt_upper_bound; lia]).
  assert (C : 0 <= mcu_col (cs_h c) x < mw) by (unfold mcu_col; split; [apply Z.div_pos; lia|apply Z.div_lt_upper_bound; lia]).
  unfold q_at. set (i := Z.to_nat (mcu_row (cs_v c) y * mw + mcu_col (cs_h c) x)).
  assert (Hi : (i < length ms)%nat) by (unfold i; unfold lenZ in Lm; clear - R C Lm; nia).
  pose proof (rel_nth_in _ _ _ _ _ [] [] F i Hi) as G. cbv beta in G. apply rel_nth_in; [exact G|].
  rewrite Forall_forall in Sh. specialize (Sh (nth i ms []) (nth_In _ _ Hi)). unfold mcu_shape in Sh. set (m := nth i ms []) in *.
  assert (Lb : lenZ (nth k m []) = cs_h c * cs_v c).
  { destruct (nth_error m k) as [b|] eqn:Eb; [rewrite (nth_error_nth _ _ [] Eb); exact (Forall2_get _ _ _ _ _ Sh _ _ _ Ec Eb)|].
    exfalso. apply nth_error_None in Eb. assert (L : length cs = length m) by (clear - Sh; induction Sh; cbn; congruence). assert (Hk : (k < length cs)%nat) by (apply nth_error_Some; congruence). lia. }
  unfold lenZ in Lb. unfold block_no. pose proof (Z.mod_pos_bound y (8 * cs_v c) ltac:(lia)) as A. pose proof (Z.mod_pos_bound x (8 * cs_h c) ltac:(lia)) as B.
  assert (A1 : 0 <= y mod (8 * cs_v c) / 8 < cs_v c) by (split; [apply Z.div_pos; lia|apply Z.div_lt_upper_bound; lia]).
  assert (B1 : 0 <= x mod (8 * cs_h c) / 8 < cs_h c) by (split; [apply Z.div_pos; lia|apply Z.div_lt_upper_bound; lia]).
  clear - Lb A1 B1. generalize dependent (y mod (8 * cs_v c) / 8). generalize dependent (x mod (8 * cs_h c) / 8). intros; nia.
Qed.

Section Planes.
  Variables (lines samples : Z) (cs : list comp_spec) (ms ms' : list mcu) (k : nat) (c : comp_spec) (q q' p p' : list Z).
  Hypothesis (HO : header_ok lines samples cs) (Sh : Forall (mcu_shape cs) ms) (Sh' : Forall (mcu_shape cs) ms') (Ec : nth_error cs k = Some c).
  Hypothesis Lm : lenZ ms = mcus lines (largest (map cs_v cs)) * mcus samples (largest (map cs_h cs)).
  Hypothesis Lm' : lenZ ms' = mcus lines (largest (map cs_v cs)) * mcus samples (largest (map cs_h cs)).
  Hypothesis (P : plane_from lines samples cs ms k c q p) (P' : plane_from lines samples cs ms' k c q' p').
  Lemma plane_same : no_zero q -> no_zero q' -> same_component k q q' ms ms' ->
    forall y x, 0 <= y < plane_rows lines cs c -> 0 <= x < plane_stride samples cs c -> px p' (plane_stride samples cs c) y x = px p (plane_stride samples cs c) y x.
  Proof using HO Sh Ec Lm P P'.
    intros Nq Nq' S y x Hy Hx. destruct P as [_ PP]. destruct P' as [_ PP']. destruct (PP y x Hy Hx) as [blk [qt [rows [V [O [D ->]]]]]]. destruct (PP' y x Hy Hx) as [blk' [qt' [rows' [V' [O' [D' ->]]]]]]. cbv zeta in V, V'. f_equal.
    exact (block_meet q q' _ _ _ _ _ _ _ _ Nq Nq' (q_at_pair lines samples cs ms ms' k c _ y x HO Sh Lm Ec S Hy Hx) V V' O O' (D true) (D' true)).
  Qed.
  Lemma plane_up : forall n, brighter_component n k q q' ms ms' -> modest_component k q ms -> modest_component k q' ms' ->
    forall y x, 0 <= y < plane_rows lines cs c -> 0 <= x < plane_stride samples cs c -> lifted n (px p (plane_stride samples cs c) y x) (px p' (plane_stride samples cs c) y x).
  Proof using HO Sh Sh' Ec Lm Lm' P P'.
    intros n S M M' y x Hy Hx. destruct P as [_ PP]. destruct P' as [_ PP']. destruct (PP y x Hy Hx) as [blk [qt [rows [V [O [D ->]]]]]]. destruct (PP' y x Hy Hx) as [blk' [qt' [rows' [V' [O' [D' ->]]]]]]. cbv zeta in V, V'.
    destruct (q_at_in lines samples cs ms k c y x HO Sh Lm Ec Hy Hx) as [m [Im Ib]]. destruct (q_at_in lines samples cs ms' k c y x HO Sh' Lm' Ec Hy Hx) as [m' [Im' Ib']].
    pose proof (q_at_pair lines samples cs ms ms' k c _ y x HO Sh Lm Ec S Hy Hx) as U. cbv beta in U.
    unfold in_block. refine (block_up n q q' _ _ _ _ _ _ _ _ U (M m _ Im Ib) (M' m' _ Im' Ib') V V' O O' (D true) (D' true) _ _ _ _).
    - pose proof (Z.mod_pos_bound y 8 ltac:(lia)). lia.
    - pose proof (Z.mod_pos_bound x 8 ltac:(lia)). lia.
  Qed.
End Planes.

(** ** What is drawn *)
Lemma shown_over : forall n hr vr p p' stride w h row x, 0 <= n -> 1 <= hr -> 1 <= vr -> 0 <= row < vr * h -> 0 <= x < hr * w ->
  (forall y c, 0 <= y < h -> 0 <= c < w -> over n (px p stride y c) (px p' stride y c)) -> over n (shown hr vr p stride w h row x) (shown hr vr p' stride w h row x).
Proof.
  intros n hr vr p p' stride w h row x Hn Hh Hv R X B.
  assert (Ry : 0 <= row / vr < h) by (split; [apply Z.div_pos; lia|apply Z.div_lt_upper_bound; lia]).
  assert (Rx : 0 <= x / hr < w) by (split; [apply Z.div_pos; lia|apply Z.div_lt_upper_bound; lia]).
  assert (NB : forall last i, 0 <= i -> i / 2 <= last -> 0 <= neighbour last i <= last).
  { intros last i Hi Hl. rewrite neighbour_parity. destruct (i mod 2 =? 0); lia. }
  unfold shown, double_width, double_height, double_both.
  destruct ((hr =? 1) && (vr =? 1)) eqn:K1.
  { assert (hr = 1) by lia. assert (vr = 1) by lia. subst. rewrite !Z.div_1_r in *. apply B; lia. }
  destruct ((hr =? 2) && (vr =? 1)) eqn:K2.
  { assert (hr = 2) by lia. assert (vr = 1) by lia. subst. rewrite !Z.div_1_r in *. pose proof (NB (w - 1) x ltac:(lia) ltac:(lia)) as N1.
    pose proof (B row (x / 2) ltac:(lia) ltac:(lia)). pose proof (B row (neighbour (w - 1) x) ltac:(lia) ltac:(lia)). unfold over in *. clear - H H0 Hn. lia. }
  destruct ((hr =? 1) && (vr =? 2)) eqn:K3.
  { assert (hr = 1) by lia. assert (vr = 2) by lia. subst. rewrite !Z.div_1_r in *. pose proof (NB (h - 1) row ltac:(lia) ltac:(lia)) as N1.
    pose proof (B (row / 2) x ltac:(lia) ltac:(lia)). pose proof (B (neighbour (h - 1) row) x ltac:(lia) ltac:(lia)). unfold over in *. clear - H H0 Hn. lia. }
  destruct ((hr =? 2) && (vr =? 2)) eqn:K4.
  { assert (hr = 2) by lia. assert (vr = 2) by lia. subst. pose proof (NB (h - 1) row ltac:(lia) ltac:(lia)) as N1. pose proof (NB (w - 1) x ltac:(lia) ltac:(lia)) as N3.
    pose proof (B (row / 2) (x / 2) ltac:(lia) ltac:(lia)) as H1. pose proof (B (neighbour (h - 1) row) (x / 2) ltac:(lia) ltac:(lia)) as H2.
    pose proof (B (row / 2) (neighbour (w - 1) x) ltac:(lia) ltac:(lia)) as H3. pose proof (B (neighbour (h - 1) row) (neighbour (w - 1) x) ltac:(lia) ltac:(lia)) as H4. unfold over in *. clear - H1 H2 H3 H4 Hn. lia. }
  apply B; auto; lia.
Qed.

Section Drawn.
  Variables (rayon : bool) (lines samples : Z) (cs : list comp_spec) (c : comp_spec) (y x : Z).
  Hypothesis (HO : header_ok lines samples cs) (I : In c cs) (A : ratios_accepted lines samples cs c) (Hy : 0 <= y < lines) (Hx : 0 <= x < samples).
  Let row := shown_row rayon (largest (map cs_v cs)) y.
  Lemma row_range : 0 <= row < lines.
  Proof using HO Hy.
    clear - HO Hy. unfold row, shown_row. destruct HO as [_ _ Ne _ _ X]. rewrite Forall_forall in X. pose proof (largest_factors cs cs_v Ne (fun c H => proj2 (X c H))) as Hv.
    clear - Hy Hv. generalize dependent (largest (map cs_v cs)). intros vm Hv. pose proof (Z.mul_div_le y vm ltac:(lia)). pose proof (Z.div_pos y vm ltac:(lia) ltac:(lia)). destruct rayon; [split; [lia|]; apply Z.div_lt_upper_bound; nia|lia].
  Qed.
  Lemma drawn_over : forall n p p', 0 <= n ->
    (forall y x, 0 <= y < plane_rows lines cs c -> 0 <= x < plane_stride samples cs c -> over n (px p (plane_stride samples cs c) y x) (px p' (plane_stride samples cs c) y x)) ->
    over n (comp_drawn lines samples cs c p row x) (comp_drawn lines samples cs c p' row x).
  Proof using HO I A Hy Hx.
    intros n p p' Hn B. pose proof row_range as Rw. destruct A as (A1 & A2 & _). unfold comp_drawn. cbv zeta.
    destruct (((2 <? h_ratio samples cs c) || (2 <? v_ratio lines cs c)) && (largest (map cs_h cs) / cs_h c * (samples / (largest (map cs_h cs) / cs_h c)) <=? x)); [unfold over; lia|].
    destruct HO as [_ _ Ne _ _ X]. rewrite Forall_forall in X.
    assert (Fh : 1 <= cs_h c <= largest (map cs_h cs)) by (destruct (X c I); pose proof (largest_ge (map cs_h cs) (cs_h c) (in_map cs_h cs c I)); lia).
    assert (Fv : 1 <= cs_v c <= largest (map cs_v cs)) by (destruct (X c I); pose proof (largest_ge (map cs_v cs) (cs_v c) (in_map cs_v cs c I)); lia).
    destruct (covered samples _ _ x Hx Fh A1) as [H1 H2]. destruct (covered lines _ _ row Rw Fv A2) as [H3 H4].
    pose proof (extent_le samples _ _ ltac:(lia) Fh) as X1. pose proof (extent_le lines _ _ ltac:(lia) Fv) as X2.
    unfold comp_shown. apply shown_over; [exact Hn|exact H1|exact H3|split; [apply Rw|exact H4]|split; [apply Hx|exact H2]|].
    intros y' x' Hy' Hx'. apply B; unfold plane_rows, plane_stride; lia.
  Qed.
  Lemma drawn_full : full_component cs c -> 0 <= row < plane_rows lines cs c /\ 0 <= x < plane_stride samples cs c /\
    forall p, comp_drawn lines samples cs c p row x = px p (plane_stride samples cs c) row x.
  Proof using HO I Hy Hx.
    intros [Eh Ev]. pose proof row_range as Rw. destruct HO as [_ _ Ne _ _ X]. rewrite Forall_forall in X. destruct (X c I) as [Fh Fv].
    pose proof (mcus_covers samples (largest (map cs_h cs)) ltac:(lia)) as C1. pose proof (mcus_covers lines (largest (map cs_v cs)) ltac:(lia)) as C2.
    assert (R1 : h_ratio samples cs c = 1) by (unfold h_ratio, ratio; rewrite Eh, Z.div_same by lia; destruct (samples =? 1); reflexivity).
    assert (R2 : v_ratio lines cs c = 1) by (unfold v_ratio, ratio; rewrite Ev, Z.div_same by lia; destruct (lines =? 1); reflexivity).
    split; [unfold plane_rows; rewrite Ev; lia|]. split; [unfold plane_stride; rewrite Eh; lia|].
    intros p. unfold comp_drawn, comp_shown. cbv zeta. rewrite R1, R2. reflexivity.
  Qed.
End Drawn.

Lemma sat_add : forall w n z, 0 <= n -> 0 < sat w -> sat (w + n) < 255 -> 0 < sat (sat w + z) -> sat (sat (w + n) + z) < 255 -> sat (sat (w + n) + z) = sat (sat w + z) + n.
Proof. intros w n z Hn H1 H2. assert (sat w = w /\ sat (w + n) = w + n) as [-> ->] by (unfold sat in *; lia). unfold sat. lia. Qed.
(** If no byte of a pixel is 0, neither is its luminance; the same with 255. *)
Lemma inside_low : forall y cb cr, 0 < sat (y + (91881 * (cr - 128) + 32768) / 65536) -> 0 < sat (y + (- 22554 * (cb - 128) - 46802 * (cr - 128) + 32768) / 65536) ->
  0 < sat (y + (116130 * (cb - 128) + 32768) / 65536) -> 0 < y.
Proof.
  intros y cb cr H1 H2 H3. destruct (Z_lt_le_dec 0 y) as [L|L]; [exact L|]. exfalso.
  assert (A1 : 1 <= (91881 * (cr - 128) + 32768) / 65536) by (unfold sat in H1; lia). assert (A2 : 1 <= (- 22554 * (cb - 128) - 46802 * (cr - 128) + 32768) / 65536) by (unfold sat in H2; lia).
  assert (A3 : 1 <= (116130 * (cb - 128) + 32768) / 65536) by (unfold sat in H3; lia). clear - A1 A2 A3.
  assert (1 <= cr - 128) by (destruct (Z_lt_le_dec 0 (cr - 128)); [lia|]; exfalso; assert ((91881 * (cr - 128) + 32768) / 65536 < 1) by (apply Z.div_lt_upper_bound; lia); lia).
  assert (1 <= cb - 128) by (destruct (Z_lt_le_dec 0 (cb - 128)); [lia|]; exfalso; assert ((116130 * (cb - 128) + 32768) / 65536 < 1) by (apply Z.div_lt_upper_bound; lia); lia).
  assert ((- 22554 * (cb - 128) - 46802 * (cr - 128) + 32768) / 65536 < 1) by (apply Z.div_lt_upper_bound; lia). lia.
Qed.
Lemma inside_high : forall y cb cr, sat (y + (91881 * (cr - 128) + 32768) / 65536) < 255 -> sat (y + (- 22554 * (cb - 128) - 46802 * (cr - 128) + 32768) / 65536) < 255 ->
  sat (y + (116130 * (cb - 128) + 32768) / 65536) < 255 -> y < 255.
Proof.
  intros y cb cr H1 H2 H3. destruct (Z_lt_le_dec y 255) as [L|L]; [exact L|]. exfalso.
  assert (A1 : (91881 * (cr - 128) + 32768) / 65536 < 0) by (unfold sat in H1; lia). assert (A2 : (- 22554 * (cb - 128) - 46802 * (cr - 128) + 32768) / 65536 < 0) by (unfold sat in H2; lia).
  assert (A3 : (116130 * (cb - 128) + 32768) / 65536 < 0) by (unfold sat in H3; lia). clear - A1 A2 A3.
  assert (cr - 128 <= -1) by (destruct (Z_lt_le_dec (cr - 128) 0); [lia|]; exfalso; assert (0 <= (91881 * (cr - 128) + 32768) / 65536) by (apply Z.div_pos; lia); lia).
  assert (cb - 128 <= -1) by (destruct (Z_lt_le_dec (cb - 128) 0); [lia|]; exfalso; assert (0 <= (116130 * (cb - 128) + 32768) / 65536) by (apply Z.div_pos; lia); lia).
  assert (0 <= (- 22554 * (cb - 128) - 46802 * (cr - 128) + 32768) / 65536) by (apply Z.div_pos; lia). lia.
Qed.

(** ** Two files *)
Definition colour (t : option Z) (vs : list Z) : list Z :=
  match vs with
  | [a; b; c; d] => [255 - a; 255 - b; 255 - c; 255 - d]
  | [a; b; c] => if match t with Some 0 => true | _ => false end then [0; 0; 0] else rgb_fixed a b c
  | _ => []
  end.
Definition draw (rayon : bool) (lines samples : Z) (cs : list comp_spec) (ps : list (list Z)) (y x : Z) : list Z :=
  map (fun cp => comp_drawn lines samples cs (fst cp) (snd cp) (shown_row rayon (largest (map cs_v cs)) y) x) (combine cs ps).
Lemma answer_colour : forall rayon lines samples cs ps t img y x, final_answer rayon lines samples cs ps t (Ok img) -> length ps = length cs -> 0 <= y < lines -> 0 <= x < samples ->
  Forall (ratios_accepted lines samples cs) cs /\ pixel (lenZ cs) samples y x img = colour t (draw rayon lines samples cs ps y x).
Proof.
  intros rayon lines samples cs ps t img y x FA L Hy Hx. destruct cs as [|c0 [|c1 [|c2 [|c3 [|c4 cs]]]]].
  1-3: exfalso; inversion FA; try discriminate; cbn in *; lia.
  - change (lenZ [c0; c1; c2]) with 3.
    assert (T : t = Some 0 \/ t <> Some 0) by (destruct t as [t|]; [|right; discriminate]; destruct (Z.eq_dec t 0) as [->|]; [left; reflexivity|right; congruence]). destruct T as [->|T].
    + assert (I1 : img = repeat 0 (Z.to_nat (3 * samples * lines)) /\ Forall (ratios_accepted lines samples [c0; c1; c2]) [c0; c1; c2]) by (inversion FA; [split; auto|congruence|discriminate]).
      destruct I1 as [I1 A]. split; [exact A|]. rewrite I1, black_pixel by assumption. destruct ps as [|p0 [|p1 [|p2 [|]]]]; try discriminate L. reflexivity.
    + destruct (ycbcr_only _ _ _ _ _ _ _ _ _ FA T) as [p0 [p1 [p2 [-> [A [_ R]]]]]]. split; [exact A|]. destruct (R y x Hy Hx) as [-> _].
      unfold draw. cbn [combine map fst snd colour]. destruct t as [[|t|t]|]; [congruence| | |]; reflexivity.
  - change (lenZ [c0; c1; c2; c3]) with 4. destruct (cmyk_only _ _ _ _ _ _ _ _ _ _ FA) as [p0 [p1 [p2 [p3 [-> [A [_ R]]]]]]]. split; [exact A|]. exact (R y x Hy Hx).
  - exfalso. inversion FA; try discriminate; cbn in *; lia.
Qed.

Section Files.
  Variables (dbg rayon : bool) (segs segs' : list (nat * hseg)) (h h' : frame_header) (fill1 fill2 fill1' fill2' : nat) (ss ss' : list scan_comp) (ts ts' : list tables)
    (qs qs' : list (list Z)) (ms ms' : list mcu) (data data' : list Z) (post post' : list (nat * hseg)) (fill3 fill3' : nat) (img : list Z).
  Let cs := fh_comps h.
  Let lines := fh_lines h.
  Let samples := fh_samples h.
  Hypothesis (En : encodes segs h ss ts qs ms data) (En' : encodes segs' h' ss' ts' qs' ms' data') (PO : post_ok post) (PO' : post_ok post').
  Hypothesis (El : fh_lines h' = lines) (Es : fh_samples h' = samples) (L0 : 0 < lines) (S0 : 0 < samples).
  Hypothesis Ef : map (fun c => (cs_h c, cs_v c)) (fh_comps h') = map (fun c => (cs_h c, cs_v c)) cs.
  Hypothesis Et : last_transform (segs' ++ post') = last_transform (segs ++ post).
  Let file := file_bytes segs fill1 fill2 (mkSpS ss 0 63 0 0) data post fill3.
  Let file' := file_bytes segs' fill1' fill2' (mkSpS ss' 0 63 0 0) data' post' fill3'.
  Hypothesis (B : bytes file) (B' : bytes file') (D : decode_fresh dbg rayon file = Ok img).
  Let t := last_transform (segs ++ post).

  Lemma files_header : header_ok lines samples cs.
  Proof using En. apply (sof_ok segs h (en_segs _ _ _ _ _ _ _ En)); rewrite (en_frame _ _ _ _ _ _ _ En); left; reflexivity. Qed.
  Lemma files_shape : Forall (mcu_shape cs) ms /\ Forall (mcu_shape cs) ms' /\
    lenZ ms = mcus lines (largest (map cs_v cs)) * mcus samples (largest (map cs_h cs)) /\ lenZ ms' = mcus lines (largest (map cs_v cs)) * mcus samples (largest (map cs_h cs)).
  Proof using En En' El Es Ef.
    fold (factors (fh_comps h')) in Ef. fold (factors cs) in Ef. set (cs' := fh_comps h') in *.
    assert (Eh : map cs_h cs' = map cs_h cs) by (rewrite !factors_h, Ef; reflexivity). assert (Ev : map cs_v cs' = map cs_v cs) by (rewrite !factors_v, Ef; reflexivity).
    split; [exact (en_mcus _ _ _ _ _ _ _ En)|]. split; [|split; [exact (en_count _ _ _ _ _ _ _ En)|]].
    - pose proof (en_mcus _ _ _ _ _ _ _ En') as M. fold cs' in M. rewrite Forall_forall in *. intros m I. specialize (M m I). revert M. unfold mcu_shape. clear - Ef. revert m Ef. clearbody cs cs'. revert cs.
      induction cs' as [|c' cs' IH]; intros [|c cs] m Ef M; try discriminate Ef; [exact M|]. cbn [factors map] in Ef. injection Ef as E1 E2 E3. inversion M; subst. constructor; [rewrite <- E1, <- E2; assumption|]. apply IH; assumption.
    - pose proof (en_count _ _ _ _ _ _ _ En') as C. fold cs' in C. rewrite El, Es, Eh, Ev in C. exact C.
  Qed.

  Lemma two_files : exists img', decode_fresh dbg rayon file' = Ok img' /\
    forall y x, 0 <= y < lines -> 0 <= x < samples -> exists vs vs',
      pixel (lenZ cs) samples y x img = colour t vs /\ pixel (lenZ cs) samples y x img' = colour t vs' /\ length vs = length cs /\ length vs' = length cs /\
      forall k c, nth_error cs k = Some c -> exists q q' p p', nth_error qs k = Some q /\ nth_error qs' k = Some q' /\ ratios_accepted lines samples cs c /\
        plane_from lines samples cs ms k c q p /\ plane_from lines samples cs ms' k c q' p' /\
        nth k vs 0 = comp_drawn lines samples cs c p (shown_row rayon (largest (map cs_v cs)) y) x /\
        nth k vs' 0 = comp_drawn lines samples cs c p' (shown_row rayon (largest (map cs_v cs)) y) x.
  Proof using En En' PO PO' El Es L0 S0 Ef Et B B' D.
    destruct (file_answer dbg rayon segs h fill1 fill2 ss ts qs ms data post fill3 En L0 S0 PO B) as [ps [Lp [PL FA]]].
    destruct (file_answer dbg rayon segs' h' fill1' fill2' ss' ts' qs' ms' data' post' fill3' En' ltac:(lia) ltac:(lia) PO' B') as [ps' [Lp' [PL' FA']]].
    fold file in FA. fold file' in FA'. rewrite D in FA. rewrite Et, El, Es in FA'. rewrite El, Es in PL'. fold t in FA, FA'.
    fold (factors (fh_comps h')) in Ef. fold (factors cs) in Ef. fold cs lines samples in FA, PL. set (cs' := fh_comps h') in *.
    assert (Lc : length cs = length cs') by (rewrite <- (map_length (fun c => (cs_h c, cs_v c)) cs); change (map (fun c => (cs_h c, cs_v c)) cs) with (factors cs); rewrite <- Ef; unfold factors; apply map_length).
    assert (Eh : map cs_h cs' = map cs_h cs) by (rewrite !factors_h, Ef; reflexivity). assert (Ev : map cs_v cs' = map cs_v cs) by (rewrite !factors_v, Ef; reflexivity).
    destruct (same_conditions _ _ _ _ _ _ _ _ _ _ Ef FA FA') as [img' D']. exists img'. split; [exact D'|]. rewrite D' in FA'. intros y x Hy Hx.
    pose proof Lp as Lps. pose proof Lp' as Lps'. fold cs in Lps. fold cs' in Lps'.
    destruct (answer_colour _ _ _ _ _ _ _ y x FA Lps Hy Hx) as [A E1]. destruct (answer_colour _ _ _ _ _ _ _ y x FA' Lps' Hy Hx) as [_ E2].
    exists (draw rayon lines samples cs ps y x), (draw rayon lines samples cs' ps' y x).
    split; [exact E1|]. split; [unfold lenZ in *; rewrite Lc; exact E2|]. split; [unfold draw; rewrite map_length, combine_length; lia|]. split; [unfold draw; rewrite map_length, combine_length; lia|].
    intros k c Ec. destruct (nth_error cs' k) as [c'|] eqn:Ec'; [|apply nth_error_None in Ec'; assert (k < length cs)%nat by (apply nth_error_Some; congruence); lia].
    destruct (PL k c Ec) as [q [p [Eq [Ep Fp]]]]. destruct (PL' k c' Ec') as [q' [p' [Eq' [Ep' Fp']]]].
    destruct (factors_nth _ _ _ _ _ (eq_sym Ef) Ec Ec') as [Hh Hv]. apply (plane_factors _ _ cs cs' ms' k c c' q' p' (eq_sym Ef) Hh Hv) in Fp'.
    exists q, q', p, p'. split; [exact Eq|]. split; [exact Eq'|]. rewrite Forall_forall in A. split; [apply A; exact (nth_error_In _ _ Ec)|]. split; [exact Fp|]. split; [exact Fp'|].
    assert (CN : forall A B (l : list A) (l' : list B) k a b, nth_error l k = Some a -> nth_error l' k = Some b -> nth_error (combine l l') k = Some (a, b)).
    { clear. intros A B l. induction l as [|a0 l IH]; intros [|b0 l'] [|k] a b H1 H2; try discriminate; cbn in *; [congruence|]. apply IH; assumption. }
    split.
    - apply nth_error_nth. unfold draw. erewrite map_nth_error; [|apply CN; [exact Ec|exact Ep]]. reflexivity.
    - apply nth_error_nth. unfold draw. erewrite map_nth_error; [|apply CN; [exact Ec'|exact Ep']]. cbn [fst snd]. f_equal. unfold comp_drawn, comp_shown, h_ratio, v_ratio, plane_stride. rewrite Eh, Ev, Hh, Hv. reflexivity.
  Qed.

  Lemma unchanged_same : forall k c q q' p p' y x, unchanged k qs qs' ms ms' -> nth_error cs k = Some c -> 0 <= y < lines -> 0 <= x < samples ->
    nth_error qs k = Some q -> nth_error qs' k = Some q' -> ratios_accepted lines samples cs c -> plane_from lines samples cs ms k c q p -> plane_from lines samples cs ms' k c q' p' ->
    comp_drawn lines samples cs c p' (shown_row rayon (largest (map cs_v cs)) y) x = comp_drawn lines samples cs c p (shown_row rayon (largest (map cs_v cs)) y) x.
  Proof using En En' El Es Ef.
    intros k c q q' p p' y x U Ec Hy Hx Eq Eq' A P P'. destruct (U q q' Eq Eq') as [N [N' S]]. destruct files_shape as [Sh [_ [Lm _]]]. pose proof files_header as HO.
    assert (O : over 0 (comp_drawn lines samples cs c p (shown_row rayon (largest (map cs_v cs)) y) x) (comp_drawn lines samples cs c p' (shown_row rayon (largest (map cs_v cs)) y) x)).
    { apply drawn_over; [exact HO|exact (nth_error_In _ _ Ec)|exact A|exact Hy|exact Hx|lia|]. intros y1 x1 Hy1 Hx1.
      rewrite (plane_same lines samples cs ms ms' k c q q' p p' HO Sh Ec Lm P P' N N' S y1 x1 Hy1 Hx1). unfold over. lia. }
    unfold over in O. lia.
  Qed.
  Lemma brightened_over : forall n k c q q' p p' y x, 0 <= n -> brightened n k qs qs' ms ms' -> nth_error cs k = Some c -> 0 <= y < lines -> 0 <= x < samples ->
    nth_error qs k = Some q -> nth_error qs' k = Some q' -> ratios_accepted lines samples cs c -> plane_from lines samples cs ms k c q p -> plane_from lines samples cs ms' k c q' p' ->
    let a := comp_drawn lines samples cs c p (shown_row rayon (largest (map cs_v cs)) y) x in let a' := comp_drawn lines samples cs c p' (shown_row rayon (largest (map cs_v cs)) y) x in
    over n a a' /\ (full_component cs c -> lifted n a a').
  Proof using En En' El Es Ef.
    intros n k c q q' p p' y x Hn U Ec Hy Hx Eq Eq' A P P'. destruct (U q q' Eq Eq') as [S [M M']]. destruct files_shape as [Sh [Sh' [Lm Lm']]]. pose proof files_header as HO.
    pose proof (plane_up lines samples cs ms ms' k c q q' p p' HO Sh Sh' Ec Lm Lm' P P' n S M M') as UP. cbv zeta. split.
    - apply drawn_over; [exact HO|exact (nth_error_In _ _ Ec)|exact A|exact Hy|exact Hx|exact Hn|]. intros y1 x1 Hy1 Hx1. apply lifted_over; [exact Hn|]. apply UP; assumption.
    - intros F. destruct (drawn_full rayon lines samples cs c y x HO (nth_error_In _ _ Ec) Hy Hx F) as [R1 [R2 R3]]. rewrite !R3. apply UP; assumption.
  Qed.

  Lemma channel_four : lenZ cs = 4 -> exists img', decode_fresh dbg rayon file' = Ok img' /\
    forall k y x, unchanged k qs qs' ms ms' -> 0 <= y < lines -> 0 <= x < samples -> nth k (pixel 4 samples y x img') 0 = nth k (pixel 4 samples y x img) 0.
  Proof using En En' PO PO' El Es L0 S0 Ef Et B B' D.
    intros C4. destruct two_files as [img' [D' R]]. exists img'. split; [exact D'|]. intros k y x U Hy Hx. destruct (R y x Hy Hx) as [vs [vs' [E1 [E2 [L1 [L2 K]]]]]]. rewrite C4 in E1, E2. rewrite E1, E2.
    assert (L4 : length cs = 4%nat) by (unfold lenZ in C4; lia). destruct vs as [|a [|b [|c [|d [|]]]]]; try (cbn in L1; lia). destruct vs' as [|a' [|b' [|c' [|d' [|]]]]]; try (cbn in L2; lia). cbn [colour].
    destruct (nth_error cs k) as [c0|] eqn:Ec.
    - destruct (K k c0 Ec) as [q [q' [p [p' [Eq [Eq' [A [P [P' [V V']]]]]]]]]]. pose proof (unchanged_same k c0 q q' p p' y x U Ec Hy Hx Eq Eq' A P P') as X.
      rewrite <- V, <- V' in X. assert (Hk : (k < 4)%nat) by (rewrite <- L4; apply nth_error_Some; congruence). do 4 (destruct k as [|k]; [cbn [nth] in X |- *; lia|]). lia.
    - apply nth_error_None in Ec. rewrite !nth_overflow by (cbn [length]; lia). reflexivity.
  Qed.

  Lemma three_values : lenZ cs = 3 -> exists c0 c1 c2, cs = [c0; c1; c2].
  Proof using. clear. unfold lenZ. intros C3. destruct cs as [|c0 [|c1 [|c2 [|]]]]; cbn [length] in C3; try lia. eauto. Qed.

  Lemma channel_three : lenZ cs = 3 -> unchanged 0 qs qs' ms ms' -> exists img', decode_fresh dbg rayon file' = Ok img' /\
    forall y x, 0 <= y < lines -> 0 <= x < samples ->
      (unchanged 2 qs qs' ms ms' -> nth 0 (pixel 3 samples y x img') 0 = nth 0 (pixel 3 samples y x img) 0) /\
      (unchanged 1 qs qs' ms ms' -> nth 2 (pixel 3 samples y x img') 0 = nth 2 (pixel 3 samples y x img) 0).
  Proof using En En' PO PO' El Es L0 S0 Ef Et B B' D.
    intros C3 U0. destruct two_files as [img' [D' R]]. exists img'. split; [exact D'|]. intros y x Hy Hx. destruct (R y x Hy Hx) as [vs [vs' [E1 [E2 [L1 [L2 K]]]]]]. rewrite C3 in E1, E2. rewrite E1, E2.
    destruct (three_values C3) as [c0 [c1 [c2 Ecs]]]. rewrite Ecs in L1, L2. destruct vs as [|a [|b [|c [|]]]]; try discriminate L1. destruct vs' as [|a' [|b' [|c' [|]]]]; try discriminate L2. cbn [colour].
    assert (X : forall k cc, unchanged k qs qs' ms ms' -> nth_error cs k = Some cc -> nth k [a'; b'; c'] 0 = nth k [a; b; c] 0).
    { intros k c3 U Ec. destruct (K k c3 Ec) as [q [q' [p [p' [Eq [Eq' [A [P [P' [V V']]]]]]]]]]. rewrite V, V'. exact (unchanged_same k c3 q q' p p' y x U Ec Hy Hx Eq Eq' A P P'). }
    pose proof (X 0%nat c0 U0 ltac:(rewrite Ecs; reflexivity)) as X0. cbn [nth] in X0.
    destruct (match t with Some 0 => true | _ => false end); [split; reflexivity|]. unfold rgb_fixed. cbn [nth]. split; intros U.
    - pose proof (X 2%nat c2 U ltac:(rewrite Ecs; reflexivity)) as X2. cbn [nth] in X2. rewrite X0, X2. reflexivity.
    - pose proof (X 1%nat c1 U ltac:(rewrite Ecs; reflexivity)) as X1. cbn [nth] in X1. rewrite X0, X1. reflexivity.
  Qed.

  Lemma brighter_four : forall n, lenZ cs = 4 -> 0 <= n -> exists img', decode_fresh dbg rayon file' = Ok img' /\
    forall k c y x, brightened n k qs qs' ms ms' -> nth_error cs k = Some c -> 0 <= y < lines -> 0 <= x < samples ->
      let a := nth k (pixel 4 samples y x img) 0 in let a' := nth k (pixel 4 samples y x img') 0 in
      a - n <= a' <= a /\ (full_component cs c -> a < 255 -> a' = Z.max 0 (a - n)).
  Proof using En En' PO PO' El Es L0 S0 Ef Et B B' D.
    intros n C4 Hn. destruct two_files as [img' [D' R]]. exists img'. split; [exact D'|]. intros k c0 y x U Ec Hy Hx. destruct (R y x Hy Hx) as [vs [vs' [E1 [E2 [L1 [L2 K]]]]]]. rewrite C4 in E1, E2. rewrite E1, E2.
    assert (L4 : length cs = 4%nat) by (unfold lenZ in C4; lia). destruct vs as [|a [|b [|c [|d [|]]]]]; try (cbn in L1; lia). destruct vs' as [|a' [|b' [|c' [|d' [|]]]]]; try (cbn in L2; lia). cbn [colour].
    destruct (K k c0 Ec) as [q [q' [p [p' [Eq [Eq' [A [P [P' [V V']]]]]]]]]]. pose proof (brightened_over n k c0 q q' p p' y x Hn U Ec Hy Hx Eq Eq' A P P') as X. cbv zeta in X. rewrite <- V, <- V' in X.
    assert (G : forall v v', over n v v' /\ (full_component cs c0 -> lifted n v v') -> 255 - v - n <= 255 - v' <= 255 - v /\ (full_component cs c0 -> 255 - v < 255 -> 255 - v' = Z.max 0 (255 - v - n))).
    { clear - Hn. intros v v' [O F]. split; [unfold over in O; lia|]. intros Fu Lt. destruct (F Fu) as [w [-> ->]]. unfold sat in *. lia. }
    assert (Hk : (k < 4)%nat) by (rewrite <- L4; apply nth_error_Some; congruence). do 4 (destruct k as [|k]; [cbn [nth] in X |- *; cbv zeta; apply G; exact X|]). lia.
  Qed.

  Lemma brighter_three : forall n c0 c1 c2, cs = [c0; c1; c2] -> 0 <= n -> brightened n 0 qs qs' ms ms' -> unchanged 1 qs qs' ms ms' -> unchanged 2 qs qs' ms ms' ->
    exists img', decode_fresh dbg rayon file' = Ok img' /\
      forall y x, 0 <= y < lines -> 0 <= x < samples ->
        Forall2 (fun a a' => a <= a' <= a + n) (pixel 3 samples y x img) (pixel 3 samples y x img') /\
        (full_component cs c0 -> Forall (fun a => 0 < a) (pixel 3 samples y x img) -> Forall (fun a' => a' < 255) (pixel 3 samples y x img') ->
         Forall2 (fun a a' => a' = a + n) (pixel 3 samples y x img) (pixel 3 samples y x img')).
  Proof using En En' PO PO' El Es L0 S0 Ef Et B B' D.
    intros n c0 c1 c2 Ecs Hn U0 U1 U2. destruct two_files as [img' [D' R]]. exists img'. split; [exact D'|]. intros y x Hy Hx. destruct (R y x Hy Hx) as [vs [vs' [E1 [E2 [L1 [L2 K]]]]]]. replace (lenZ cs) with 3 in E1, E2 by (rewrite Ecs; reflexivity). rewrite E1, E2.
    rewrite Ecs in L1, L2. destruct vs as [|a [|b [|c [|]]]]; try discriminate L1. destruct vs' as [|a' [|b' [|c' [|]]]]; try discriminate L2. cbn [colour].
    assert (X : forall k cc, unchanged k qs qs' ms ms' -> nth_error cs k = Some cc -> nth k [a'; b'; c'] 0 = nth k [a; b; c] 0).
    { intros k c3 U Ec. destruct (K k c3 Ec) as [q [q' [p [p' [Eq [Eq' [A [P [P' [V V']]]]]]]]]]. rewrite V, V'. exact (unchanged_same k c3 q q' p p' y x U Ec Hy Hx Eq Eq' A P P'). }
    pose proof (X 1%nat c1 U1 ltac:(rewrite Ecs; reflexivity)) as X1. pose proof (X 2%nat c2 U2 ltac:(rewrite Ecs; reflexivity)) as X2. cbn [nth] in X1, X2. subst b' c'.
    assert (X0 : over n a a' /\ (full_component cs c0 -> lifted n a a')).
    { assert (Ec : nth_error cs 0 = Some c0) by (rewrite Ecs; reflexivity). destruct (K 0%nat c0 Ec) as [q [q' [p [p' [Eq [Eq' [A [P [P' [V V']]]]]]]]]]. cbn [nth] in V, V'. rewrite V, V'. exact (brightened_over n 0 c0 q q' p p' y x Hn U0 Ec Hy Hx Eq Eq' A P P'). }
    destruct X0 as [O F].
    destruct (match t with Some 0 => true | _ => false end).
    - split; [repeat constructor; lia|]. intros _ G. exfalso. inversion G. lia.
    - unfold rgb_fixed. split; [repeat constructor; unfold over, sat in *; lia|]. intros Fu G G'. destruct (F Fu) as [w [Ea Ea']]. clear - Hn G G' Ea Ea'.
      pose proof (Forall_inv G) as G0. pose proof (Forall_inv (Forall_inv_tail G)) as G1. pose proof (Forall_inv (Forall_inv_tail (Forall_inv_tail G))) as G2.
      pose proof (Forall_inv G') as H0. pose proof (Forall_inv (Forall_inv_tail G')) as H1. pose proof (Forall_inv (Forall_inv_tail (Forall_inv_tail G'))) as H2. cbv beta in G0, G1, G2, H0, H1, H2. clear G G'. subst a a'.
      pose proof (inside_low _ _ _ G0 G1 G2) as I1. pose proof (inside_high _ _ _ H0 H1 H2) as I2. clear - Hn I1 I2 G0 G1 G2 H0 H1 H2.
      apply Forall2_cons; [|apply Forall2_cons; [|apply Forall2_cons; [|apply Forall2_nil]]]; apply sat_add; assumption.
  Qed.
End Files.
