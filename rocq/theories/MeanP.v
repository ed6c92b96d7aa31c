(** The mean of a block (C88). *)
From Verif Require Import Base Tactics SpecBits SpecReader SpecMarker Biterator Huffman Marker Types Parsers Idct Upsampler Decode SpecGlobal SpecStream.
From Verif Require Import SpecHuffman SpecBlock SpecTables SpecFrame SpecSegments SpecScan SpecPlane SpecUpsample SpecImage SpecColor SpecFile SpecAnswer SpecIdct SpecFlat SpecEncoder SpecEdit SpecFlip SpecChannel SpecSum SpecMean.
From Verif Require Import ParsersP InvP MarkerP GlobalP StreamP2 FileP ImageP BlockP UpsampleP RayonP IdctP IdctP2 AnswerP AnswerP2 AnswerP3 ReuseP PiecesP DamageP2 TransP UpsampleP2 FlatP EditP EditP2 EncoderP MosaicP FlipP FlipP3 ChannelP SumP.

(** ** Blocks *)
Lemma columns_cancel : forall (f : nat -> Z), sum8 (fun x => sum8 (fun u => mx x u * f u)) = 32768 * f 0%nat.
Proof. intros f. unfold sum8, mx, M8. cbn [nth]. ring. Qed.
Lemma sum8_bounds : forall f lo hi, (forall u, (u < 8)%nat -> lo <= f u <= hi) -> 8 * lo <= sum8 f <= 8 * hi.
Proof.
  intros f lo hi H. unfold sum8. pose proof (H 0%nat ltac:(lia)). pose proof (H 1%nat ltac:(lia)). pose proof (H 2%nat ltac:(lia)). pose proof (H 3%nat ltac:(lia)).
  pose proof (H 4%nat ltac:(lia)). pose proof (H 5%nat ltac:(lia)). pose proof (H 6%nat ltac:(lia)). pose proof (H 7%nat ltac:(lia)). clear H. lia.
Qed.
Lemma sum8_three : forall a m f g, sum8 (fun u => a + f u - m * g u) = 8 * a + sum8 f - m * sum8 g.
Proof. intros a m f g. unfold sum8. ring. Qed.
Lemma two_passes : forall (t p : nat -> Z) d, (forall y, -524280 <= 131072 * t y - (8 * 16777216 + 32768 * p y) <= 524288) ->
  -4095 <= 1024 * sum8 p - 32768 * d <= 4096 -> Z.abs (sum8 t - (64 * 128 + 8 * d)) <= 33.
Proof.
  intros t p d R F. pose proof (sum8_bounds (fun y => 131072 * t y - (8 * 16777216 + 32768 * p y)) (-524280) 524288 (fun y _ => R y)) as B. cbv beta in B.
  assert (E : sum8 (fun y => 131072 * t y - (8 * 16777216 + 32768 * p y)) = 131072 * sum8 t - (64 * 16777216 + 32768 * sum8 p)) by (unfold sum8; ring).
  rewrite E in B. clear E R. set (st := sum8 t) in *. set (sp := sum8 p) in *. clearbody st sp. lia.
Qed.
Section Block.
  Variables (a q : list Z).
  Lemma first_column : -4095 <= 1024 * sum8 (fun y => pass1 a q y 0) - 32768 * deq a q 0 0 <= 4096.
  Proof.
    set (s := fun y => sum8 (fun v => mx y v * deq a q v 0)).
    assert (B : 8 * 0 <= sum8 (fun y => 512 + s y - 1024 * pass1 a q y 0) <= 8 * 1023).
    { apply sum8_bounds. intros y _. unfold pass1. fold (s y). set (t := s y). clearbody t. clear. lia. }
    rewrite sum8_three in B. unfold s in B. rewrite (columns_cancel (fun v => deq a q v 0)) in B. lia.
  Qed.
  Lemma one_row : forall y, -524280 <= 131072 * sum8 (pass2 a q y) - (8 * 16777216 + 32768 * pass1 a q y 0) <= 524288.
  Proof.
    intros y. set (s := fun x => sum8 (fun u => mx x u * pass1 a q y u)).
    assert (B : 8 * 0 <= sum8 (fun x => (65536 + 128 * 131072) + s x - 131072 * pass2 a q y x) <= 8 * 131071).
    { apply sum8_bounds. intros x _. unfold pass2. fold (s x). set (t := s x). clearbody t. clear. lia. }
    rewrite sum8_three in B. unfold s in B. rewrite (columns_cancel (fun u => pass1 a q y u)) in B. change (fun x => pass2 a q y x) with (pass2 a q y) in *. lia.
  Qed.
  Lemma block_mean : Z.abs (sum8 (fun y => sum8 (pass2 a q y)) - (64 * 128 + 8 * deq a q 0 0)) <= 33.
  Proof. exact (two_passes (fun y => sum8 (pass2 a q y)) (fun y => pass1 a q y 0) (deq a q 0 0) one_row first_column). Qed.
End Block.

(** ** Squares of the picture *)
Lemma square_sum8 : forall f r c, square_sum f r c = sum8 (fun y => sum8 (fun x => f (8 * r + Z.of_nat y) (8 * c + Z.of_nat x))).
Proof.
  intros f r c. unfold square_sum. change (zrange 64) with (flat_map (fun y => map (fun x => 8 * y + x) [0;1;2;3;4;5;6;7]) [0;1;2;3;4;5;6;7]).
  cbn [flat_map map app fold_right]. unfold sum8.
  repeat match goal with |- context [?n / 8] => let v := eval vm_compute in (n / 8) in change (n / 8) with v end.
  repeat match goal with |- context [?n mod 8] => let v := eval vm_compute in (n mod 8) in change (n mod 8) with v end.
  cbn [Z.of_nat Pos.of_succ_nat Pos.succ]. ring.
Qed.

Section Plane.
  Variables (lines samples : Z) (cs : list comp_spec) (ms : list mcu) (k : nat) (c : comp_spec) (q p : list Z) (r s : Z).
  Hypothesis (HO : header_ok lines samples cs) (Ec : nth_error cs k = Some c) (P : plane_from lines samples cs ms k c q p).
  Hypothesis (Hr : 0 <= r) (Hs : 0 <= s) (Er : 8 * r + 8 <= plane_rows lines cs c) (Es : 8 * s + 8 <= plane_stride samples cs c).
  Let b y x := q_at ms (mcus samples (largest (map cs_h cs))) k (cs_h c) (cs_v c) y x.
  Lemma square_block : forall y x, 0 <= y < 8 -> 0 <= x < 8 -> b (8 * r + y) (8 * s + x) = b (8 * r) (8 * s).
  Proof using HO Ec Hr Hs.
    intros y x Hy Hx. destruct HO as [_ _ Ne _ _ X]. rewrite Forall_forall in X. destruct (X c (nth_error_In _ _ Ec)) as [Fh Fv]. unfold b, q_at, block_no, mcu_row, mcu_col.
    assert (A : forall n i j, 1 <= n -> 0 <= j -> 0 <= i < 8 -> (8 * j + i) / (8 * n) = 8 * j / (8 * n) /\ (8 * j + i) mod (8 * n) / 8 = (8 * j) mod (8 * n) / 8).
    { clear. intros n i j Hn Hj Hi.
      assert (D1 : (8 * j + i) / (8 * n) = j / n) by (rewrite <- Z.div_div by lia; replace ((8 * j + i) / 8) with j by lia; reflexivity).
      assert (D2 : 8 * j / (8 * n) = j / n) by (rewrite <- Z.div_div by lia; replace (8 * j / 8) with j by lia; reflexivity).
      rewrite D1, D2. split; [reflexivity|]. rewrite (Z.mod_eq (8 * j + i)), (Z.mod_eq (8 * j)) by lia. rewrite D1, D2. set (d := j / n). clearbody d.
      replace (8 * j + i - 8 * n * d) with (i + (j - n * d) * 8) by ring. replace (8 * j - 8 * n * d) with ((j - n * d) * 8) by ring. rewrite Z.div_add, Z.div_mul, Z.div_small by lia. lia. }
    destruct (A (cs_v c) y r ltac:(lia) Hr Hy) as [-> ->]. destruct (A (cs_h c) x s ltac:(lia) Hs Hx) as [-> ->]. reflexivity.
  Qed.
  Lemma plane_mean : unclipped q (b (8 * r) (8 * s)) ->
    Z.abs (square_sum (px p (plane_stride samples cs c)) r s - (64 * 128 + 8 * (q_dc (b (8 * r) (8 * s)) * nth 0 q 0))) <= 33.
  Proof using HO Ec P Hr Hs Er Es.
    intros U. destruct P as [_ PP]. destruct (PP (8 * r) (8 * s) ltac:(lia) ltac:(lia)) as [blk [qt [rows [V [O [D _]]]]]]. cbv zeta in V. fold (b (8 * r) (8 * s)) in V.
    assert (Dc : deq blk qt 0 0 = q_dc (b (8 * r) (8 * s)) * nth 0 q 0).
    { unfold deq. destruct V as [_ V]. destruct O as [_ O]. pose proof (V 0%nat ltac:(lia)) as V0. pose proof (O 0%nat ltac:(lia)) as O0. cbn in V0, O0. cbn [Nat.add Nat.mul]. rewrite V0, O0. reflexivity. }
    rewrite <- Dc, square_sum8.
    assert (T : forall y x, (y < 8)%nat -> (x < 8)%nat -> px p (plane_stride samples cs c) (8 * r + Z.of_nat y) (8 * s + Z.of_nat x) = pass2 blk qt y x).
    { intros y x Hy Hx. destruct (PP (8 * r + Z.of_nat y) (8 * s + Z.of_nat x) ltac:(lia) ltac:(lia)) as [blk' [qt' [rows' [V' [O' [D' ->]]]]]]. cbv zeta in V'.
      fold (b (8 * r + Z.of_nat y) (8 * s + Z.of_nat x)) in V'. rewrite square_block in V' by lia. unfold in_block.
      replace (Z.to_nat ((8 * s + Z.of_nat x) mod 8)) with x by lia. replace (Z.to_nat ((8 * r + Z.of_nat y) mod 8)) with y by lia.
      rewrite (unclipped_rows q _ blk' qt' rows' U V' O' (D' true) y x Hy Hx). rewrite <- (raw_pass2 q _ blk' qt' y x V' O'). rewrite <- (raw_pass2 q _ blk qt y x V O). reflexivity. }
    rewrite (sum8_ext _ (fun y => sum8 (pass2 blk qt y))); [apply block_mean|]. intros y Hy. apply sum8_ext. intros x Hx. apply T; assumption.
  Qed.
End Plane.

(** ** Files *)
Lemma square_ext : forall f g r c, (forall y x, 8 * r <= y < 8 * r + 8 -> 8 * c <= x < 8 * c + 8 -> f y x = g y x) -> square_sum f r c = square_sum g r c.
Proof. intros f g r c H. rewrite !square_sum8. apply sum8_ext. intros y Hy. apply sum8_ext. intros x Hx. apply H; lia. Qed.
Lemma square_minus : forall f r c, square_sum (fun y x => 255 - f y x) r c = 64 * 255 - square_sum f r c.
Proof. intros f r c. rewrite !square_sum8. unfold sum8. ring. Qed.
Section Files.
  Variables (dbg rayon : bool) (segs : list (nat * hseg)) (h : frame_header) (fill1 fill2 : nat) (ss : list scan_comp) (ts : list tables) (qs : list (list Z)) (ms : list mcu) (data : list Z) (post : list (nat * hseg)) (fill3 : nat) (img : list Z).
  Let cs := fh_comps h.
  Let lines := fh_lines h.
  Let samples := fh_samples h.
  Let file := file_bytes segs fill1 fill2 (mkSpS ss 0 63 0 0) data post fill3.
  Hypothesis (En : encodes segs h ss ts qs ms data) (L0 : 0 < lines) (S0 : 0 < samples) (PO : post_ok post) (B : bytes file) (D : decode_fresh dbg rayon file = Ok img).
  Hypothesis (Ev : largest (map cs_v cs) = 1).
  Variables (r s : Z).
  Hypothesis (Hr : 0 <= r) (Hs : 0 <= s) (Er : 8 * r + 8 <= lines) (Es : 8 * s + 8 <= samples).
  Let block k c := q_at ms (mcus samples (largest (map cs_h cs))) k (cs_h c) (cs_v c) (8 * r) (8 * s).
  Lemma drawn_mean : forall k c q p, nth_error cs k = Some c -> full_component cs c -> plane_from lines samples cs ms k c q p -> unclipped q (block k c) ->
    Z.abs (square_sum (fun y x => comp_drawn lines samples cs c p (shown_row rayon (largest (map cs_v cs)) y) x) r s - (64 * 128 + 8 * (q_dc (block k c) * nth 0 q 0))) <= 33.
  Proof using En L0 S0 PO B D Hr Hs Er Es Ev.
    intros k c q p Ec FC P U. pose proof (files_header segs h ss ts qs ms data En) as HO. fold cs lines samples in HO.
    assert (W : forall y, shown_row rayon (largest (map cs_v cs)) y = y) by (intros y; rewrite Ev; unfold shown_row; destruct rayon; rewrite Z.div_1_r; lia).
    assert (X : forall y x, 0 <= y < lines -> 0 <= x < samples -> 0 <= y < plane_rows lines cs c /\ 0 <= x < plane_stride samples cs c /\ comp_drawn lines samples cs c p (shown_row rayon (largest (map cs_v cs)) y) x = px p (plane_stride samples cs c) y x).
    { intros y x Hy Hx. destruct (drawn_full rayon lines samples cs c y x HO (nth_error_In _ _ Ec) Hy Hx FC) as [R1 [R2 R3]]. rewrite W in *. split; [exact R1|]. split; [exact R2|]. apply R3. }
    rewrite (square_ext _ (px p (plane_stride samples cs c)) r s).
    - destruct (X (8 * r + 7) (8 * s + 7) ltac:(lia) ltac:(lia)) as [R1 [R2 _]]. apply (plane_mean lines samples cs ms k c q p r s HO Ec P Hr Hs ltac:(lia) ltac:(lia) U).
    - intros y x Hy Hx. apply X; lia.
  Qed.
  Lemma mean_four : forall k c q, lenZ cs = 4 -> nth_error cs k = Some c -> nth_error qs k = Some q -> full_component cs c -> unclipped q (block k c) ->
    Z.abs (square_sum (fun y x => nth k (pixel 4 samples y x img) 0) r s - (64 * 127 - 8 * (q_dc (block k c) * nth 0 q 0))) <= 33.
  Proof using En L0 S0 PO B D Hr Hs Er Es Ev.
    intros k c q C4 Ec Eq FC U. destruct (file_answer dbg rayon segs h fill1 fill2 ss ts qs ms data post fill3 En L0 S0 PO B) as [ps [Lp [PL FA]]]. fold file in FA. rewrite D in FA. fold cs lines samples in FA, PL, Lp.
    destruct (PL k c Ec) as [q' [p [Eq' [Ep P]]]]. assert (q' = q) by congruence. subst q'. pose proof (drawn_mean k c q p Ec FC P U) as M.
    rewrite (square_ext _ (fun y x => 255 - comp_drawn lines samples cs c p (shown_row rayon (largest (map cs_v cs)) y) x) r s).
    - rewrite square_minus. lia.
    - intros y x Hy Hx. destruct (answer_colour _ _ _ _ _ _ _ y x FA Lp ltac:(lia) ltac:(lia)) as [_ E]. rewrite C4 in E. rewrite E. clear M E U.
      assert (N : nth k (draw rayon lines samples cs ps y x) 0 = comp_drawn lines samples cs c p (shown_row rayon (largest (map cs_v cs)) y) x).
      { unfold draw. clear - Ec Ep. revert k Ec Ep. generalize cs at 1 4 as l. revert ps. intros ps l. revert ps. induction l as [|c0 l IH]; intros [|p0 ps] [|k] Ec Ep; try discriminate; cbn [combine map nth nth_error fst snd] in *.
        - assert (c0 = c) by congruence. assert (p0 = p) by congruence. subst. reflexivity.
        - exact (IH ps k Ec Ep). }
      rewrite <- N. assert (Ld : length (draw rayon lines samples cs ps y x) = 4%nat) by (unfold draw; rewrite map_length, combine_length; unfold lenZ in C4; lia).
      assert (Hk : (k < 4)%nat) by (assert (k < length cs)%nat by (apply nth_error_Some; congruence); unfold lenZ in C4; lia).
      generalize dependent (draw rayon lines samples cs ps y x). intros vs _ Ld. destruct vs as [|v0 [|v1 [|v2 [|v3 [|]]]]]; try discriminate Ld. clear - Hk. unfold colour. destruct k as [|[|[|[|k]]]]; try lia; reflexivity.
  Qed.
  Lemma mean_grey : forall c0 c1 c2 q, cs = [c0; c1; c2] -> last_transform (segs ++ post) <> Some 0 -> flat_component ms 1 0 -> flat_component ms 2 0 ->
    full_width lines samples cs c1 -> full_width lines samples cs c2 -> nth_error qs 0 = Some q -> full_component cs c0 -> unclipped q (block 0 c0) ->
    forall i, (i < 3)%nat -> Z.abs (square_sum (fun y x => nth i (pixel 3 samples y x img) 0) r s - (64 * 128 + 8 * (q_dc (block 0 c0) * nth 0 q 0))) <= 33.
  Proof using En L0 S0 PO B D Hr Hs Er Es Ev.
    intros c0 c1 c2 q E3 T F1 F2 W1 W2 Eq FC U i Hi.
    destruct (grey_image dbg rayon segs h fill1 fill2 ss ts qs ms data post fill3 img En L0 S0 PO B D c0 c1 c2 E3 T F1 F2 W1 W2) as [q0 [p0 [Eq0 [P Px]]]].
    assert (q0 = q) by congruence. subst q0. fold cs lines samples in P, Px. assert (Ec : nth_error cs 0 = Some c0) by (rewrite E3; reflexivity).
    rewrite (square_ext _ (fun y x => comp_drawn lines samples cs c0 p0 (shown_row rayon (largest (map cs_v cs)) y) x) r s); [exact (drawn_mean 0 c0 q p0 Ec FC P U)|].
    intros y x Hy Hx. rewrite Px by lia. destruct i as [|[|[|i]]]; try lia; reflexivity.
  Qed.
End Files.
