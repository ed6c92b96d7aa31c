(** Blocks outside the image (C96). *)
From Verif Require Import Base Tactics SpecBits SpecReader SpecMarker Biterator Huffman Marker Types Parsers Idct Upsampler Decode SpecGlobal SpecStream.
From Verif Require Import SpecHuffman SpecBlock SpecTables SpecFrame SpecSegments SpecScan SpecPlane SpecUpsample SpecImage SpecColor SpecFile SpecAnswer SpecIdct SpecFlat SpecEncoder SpecEdit SpecFlip SpecChannel SpecNearby SpecMargin.
From Verif Require Import ParsersP InvP MarkerP GlobalP StreamP2 FileP ImageP BlockP UpsampleP RayonP IdctP IdctP2 AnswerP AnswerP2 AnswerP3 ReuseP PiecesP DamageP2 TransP UpsampleP2 FlatP EditP EditP2 EncoderP MosaicP FlipP FlipP3 ChannelP NearbyP.

(** ** Images from pixels *)
Lemma pixel_nth : forall n w y x j l, 0 <= n -> 0 <= n * (y * w + x) -> 0 <= j < n -> nth (Z.to_nat j) (pixel n w y x l) 0 = nth (Z.to_nat (n * (y * w + x) + j)) l 0.
Proof.
  intros n w y x j l Hn Hp Hj. unfold pixel. rewrite Z2Nat.inj_add by lia. generalize (Z.to_nat (n * (y * w + x))). intros m.
  assert (Hk : (Z.to_nat j < Z.to_nat n)%nat) by lia. generalize dependent (Z.to_nat j). generalize (Z.to_nat n). clear. intros n k Hk.
  rewrite nth_firstn_Z by exact Hk. apply nth_skipn_Z.
Qed.
Lemma pixels_ext : forall n w h a b, 0 < n -> 0 < w -> lenZ a = n * w * h -> lenZ b = n * w * h ->
  (forall y x, 0 <= y < h -> 0 <= x < w -> pixel n w y x a = pixel n w y x b) -> a = b.
Proof.
  intros n w h a b Hn Hw La Lb E. unfold lenZ in *. apply (nth_ext _ _ 0 0); [lia|]. intros i Hi.
  set (k := Z.of_nat i / n). set (j := Z.of_nat i mod n). assert (Ei : Z.of_nat i = n * k + j) by (apply Z.div_mod; lia). assert (Hj : 0 <= j < n) by (apply Z.mod_pos_bound; lia).
  assert (Hk : 0 <= k < w * h) by (split; [apply Z.div_pos; lia|apply Z.div_lt_upper_bound; lia]).
  set (y := k / w). set (x := k mod w). assert (Ek : k = w * y + x) by (apply Z.div_mod; lia). assert (Hx : 0 <= x < w) by (apply Z.mod_pos_bound; lia).
  assert (Hy : 0 <= y < h) by (split; [apply Z.div_pos; lia|apply Z.div_lt_upper_bound; lia]).
  assert (Et : i = Z.to_nat (n * (y * w + x) + j)) by (rewrite (Z.mul_comm y w), <- Ek, <- Ei; lia). rewrite Et.
  rewrite <- !pixel_nth by (try assumption; try lia; rewrite (Z.mul_comm y w), <- Ek; lia). rewrite (E y x Hy Hx). reflexivity.
Qed.
Lemma answer_length : forall rayon lines samples cs ps t img, final_answer rayon lines samples cs ps t (Ok img) -> 0 < lines -> 0 < samples -> lenZ img = lenZ cs * samples * lines.
Proof.
  intros rayon lines samples cs ps t img FA L S. inversion FA; subst; unfold lenZ in *.
  - change (Z.of_nat (length (repeat 0 (Z.to_nat (3 * samples * lines)))) = Z.of_nat (length cs) * samples * lines). rewrite repeat_length, Z2Nat.id by (apply Z.mul_nonneg_nonneg; lia). rewrite H0. reflexivity.
  - cbn [length]. lia.
  - cbn [length]. lia.
Qed.

(** ** What is drawn *)
Section Drawn.
  Variables (rayon : bool) (lines samples : Z) (cs : list comp_spec) (c : comp_spec) (y x : Z).
  Hypothesis (HO : header_ok lines samples cs) (I : In c cs) (A : ratios_accepted lines samples cs c) (Hy : 0 <= y < lines) (Hx : 0 <= x < samples).
  Let row := shown_row rayon (largest (map cs_v cs)) y.
  Lemma drawn_inside : forall p p',
    (forall y x, 0 <= y < extent lines (cs_v c) (largest (map cs_v cs)) -> 0 <= x < extent samples (cs_h c) (largest (map cs_h cs)) -> y < plane_rows lines cs c -> x < plane_stride samples cs c ->
       px p' (plane_stride samples cs c) y x = px p (plane_stride samples cs c) y x) ->
    comp_drawn lines samples cs c p' row x = comp_drawn lines samples cs c p row x.
  Proof using HO I A Hy Hx.
    intros p p' B. pose proof (row_range rayon lines samples cs y HO Hy) as Rw. fold row in Rw. destruct A as (A1 & A2 & _). unfold comp_drawn. cbv zeta.
    destruct (((2 <? h_ratio samples cs c) || (2 <? v_ratio lines cs c)) && (largest (map cs_h cs) / cs_h c * (samples / (largest (map cs_h cs) / cs_h c)) <=? x)); [reflexivity|].
    destruct HO as [_ _ Ne _ _ X]. rewrite Forall_forall in X.
    assert (Fh : 1 <= cs_h c <= largest (map cs_h cs)) by (destruct (X c I); pose proof (largest_ge (map cs_h cs) (cs_h c) (in_map cs_h cs c I)); lia).
    assert (Fv : 1 <= cs_v c <= largest (map cs_v cs)) by (destruct (X c I); pose proof (largest_ge (map cs_v cs) (cs_v c) (in_map cs_v cs c I)); lia).
    destruct (covered samples _ _ x Hx Fh A1) as [H1 H2]. destruct (covered lines _ _ row Rw Fv A2) as [H3 H4].
    pose proof (extent_le samples _ _ ltac:(lia) Fh) as X1. pose proof (extent_le lines _ _ ltac:(lia) Fv) as X2.
    unfold comp_shown. match goal with |- ?a = ?b => enough (N : near 0 a b) by (unfold near in N; clear - N; lia) end.
    apply shown_near; [lia|exact H1|exact H3|split; [apply Rw|exact H4]|split; [apply Hx|exact H2]|].
    intros y' x' Hy' Hx'. rewrite B; [unfold near; lia|exact Hy'|exact Hx'| |]; unfold plane_rows, plane_stride; lia.
  Qed.
End Drawn.

Lemma sample_inside : forall lines samples cs ms ms' k c q p p' y x, plane_from lines samples cs ms k c q p -> plane_from lines samples cs ms' k c q p' ->
  q_at ms' (mcus samples (largest (map cs_h cs))) k (cs_h c) (cs_v c) y x = q_at ms (mcus samples (largest (map cs_h cs))) k (cs_h c) (cs_v c) y x ->
  0 <= y < plane_rows lines cs c -> 0 <= x < plane_stride samples cs c -> px p' (plane_stride samples cs c) y x = px p (plane_stride samples cs c) y x.
Proof.
  intros lines samples cs ms ms' k c q p p' y x [_ P] [_ P'] Q Hy Hx. destruct (P y x Hy Hx) as [blk [qt [rows [V [N [D ->]]]]]]. destruct (P' y x Hy Hx) as [blk' [qt' [rows' [V' [N' [D' ->]]]]]]. cbv zeta in V, V'.
  assert (qt' = qt) by (eapply order_unique; eassumption). subst qt'.
  rewrite Q in V'. assert (blk' = blk) by (eapply order_unique; [exact V'|exact V]). subst blk'.
  assert (rows' = rows) by (specialize (D true); specialize (D' true); congruence). subst rows'. reflexivity.
Qed.

Lemma margin_image : forall dbg rayon segs segs' h h' fill1 fill2 fill1' fill2' ss ss' ts ts' qs ms ms' data data' post post' fill3 fill3' img,
  let cs := fh_comps h in let lines := fh_lines h in let samples := fh_samples h in
  encodes segs h ss ts qs ms data -> encodes segs' h' ss' ts' qs ms' data' -> post_ok post -> post_ok post' ->
  fh_lines h' = lines -> fh_samples h' = samples -> 0 < lines -> 0 < samples ->
  map (fun c => (cs_h c, cs_v c)) (fh_comps h') = map (fun c => (cs_h c, cs_v c)) cs ->
  last_transform (segs' ++ post') = last_transform (segs ++ post) ->
  let file := file_bytes segs fill1 fill2 (mkSpS ss 0 63 0 0) data post fill3 in
  let file' := file_bytes segs' fill1' fill2' (mkSpS ss' 0 63 0 0) data' post' fill3' in
  bytes file -> bytes file' -> decode_fresh dbg rayon file = Ok img ->
  same_inside lines samples cs ms ms' -> decode_fresh dbg rayon file' = Ok img.
Proof.
  intros dbg rayon segs segs' h h' fill1 fill2 fill1' fill2' ss ss' ts ts' qs ms ms' data data' post post' fill3 fill3' img cs lines samples En En' PO PO' El Es L0 S0 Ef Et file file' B B' D SI.
  destruct (two_files dbg rayon segs segs' h h' fill1 fill2 fill1' fill2' ss ss' ts ts' qs qs ms ms' data data' post post' fill3 fill3' img En En' PO PO' El Es L0 S0 Ef Et B B' D) as [img' [D' R]].
  fold cs lines samples in R. pose proof (files_header segs h ss ts qs ms data En) as HO. fold cs lines samples in HO.
  destruct (file_answer dbg rayon segs h fill1 fill2 ss ts qs ms data post fill3 En L0 S0 PO B) as [ps [Lp [_ FA]]].
  destruct (file_answer dbg rayon segs' h' fill1' fill2' ss' ts' qs ms' data' post' fill3' En' ltac:(lia) ltac:(lia) PO' B') as [ps' [Lp' [_ FA']]].
  fold file in FA. fold file' in FA', D'. fold cs lines samples in FA. rewrite D in FA. rewrite D' in FA' |- *. rewrite El, Es in FA'. f_equal.
  assert (Lc : lenZ (fh_comps h') = lenZ cs) by (unfold lenZ; rewrite <- (map_length (fun c => (cs_h c, cs_v c)) (fh_comps h')), Ef, map_length; reflexivity).
  pose proof (answer_length _ _ _ _ _ _ _ FA L0 S0) as La. pose proof (answer_length _ _ _ _ _ _ _ FA' L0 S0) as La'. rewrite Lc in La'.
  assert (Hn : 0 < lenZ cs) by (destruct HO as [_ _ Ne _ _ _]; unfold lenZ in *; destruct cs; cbn [length] in *; [congruence|lia]).
  apply (pixels_ext (lenZ cs) samples lines); auto. intros y x Hy Hx. destruct (R y x Hy Hx) as [vs [vs' [E1 [E2 [L1 [L2 K]]]]]]. rewrite E1, E2. f_equal.
  apply (nth_ext _ _ 0 0); [lia|]. intros k Hk. destruct (nth_error cs k) as [c|] eqn:Ec; [|apply nth_error_None in Ec; lia].
  destruct (K k c Ec) as [q [q' [p [p' [Eq [Eq' [A [P [P' [V V']]]]]]]]]]. rewrite V, V'. assert (q' = q) by congruence. subst q'.
  apply drawn_inside; [exact HO|exact (nth_error_In _ _ Ec)|exact A|exact Hy|exact Hx|].
  intros y2 x2 Hy2 Hx2 Py Px. apply (sample_inside lines samples cs ms ms' k c q p p' y2 x2 P P'); [|lia|lia]. exact (SI k c y2 x2 Ec Hy2 Hx2).
Qed.
