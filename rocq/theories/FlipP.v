(** Images turned upside down (C73). *)
From Verif Require Import Base Tactics SpecBits SpecReader SpecMarker Biterator Huffman Marker Types Parsers Idct Upsampler Decode SpecGlobal SpecStream.
From Verif Require Import SpecHuffman SpecBlock SpecTables SpecFrame SpecSegments SpecScan SpecPlane SpecUpsample SpecImage SpecColor SpecFile SpecAnswer SpecIdct SpecEncoder SpecEdit SpecFlip.
From Verif Require Import ParsersP InvP MarkerP GlobalP StreamP2 FileP ImageP BlockP IdctP IdctP2 AnswerP AnswerP2 AnswerP3 ReuseP PiecesP DamageP2 TransP UpsampleP2 FlatP EditP EditP2 EncoderP MosaicP.

(** ** One block *)
Definition sgn (k : nat) (v : Z) : Z := if Nat.odd k then - v else v.
Lemma mx_flip : forall x u v, (x < 8)%nat -> mx x u * sgn u v = mx (7 - x) u * v.
Proof.
  intros x u v Hx. unfold mx, M8, sgn.
  do 8 (destruct x as [|x]; [do 8 (destruct u as [|u]; [cbn [nth Nat.sub Nat.odd Nat.even negb]; ring|]); destruct u; cbn [nth Nat.sub]; destruct (Nat.odd _); ring|]). lia.
Qed.
Lemma w32_sgn : forall k v, cg (w32 (sgn k v)) (sgn k v).
Proof. intros. apply cg_w32, cg_refl. Qed.
Lemma sum8_cg : forall f g, (forall u, (u < 8)%nat -> cg (f u) (g u)) -> cg (sum8 f) (sum8 g).
Proof. intros f g E. unfold sum8. repeat apply cg_add; apply E; lia. Qed.
Lemma kernel_flip : forall s s' sc, length s = 8%nat -> length s' = 8%nat -> (forall u, (u < 8)%nat -> cg (nth u s' 0) (sgn u (nth u s 0))) ->
  kernel8 s' sc = rev (kernel8 s sc).
Proof.
  intros s s' sc L L' E. rewrite !kernel8_linear by assumption. rewrite <- map_rev. cbn [seq rev app].
  assert (K : forall x, (x < 8)%nat -> w32 (sc + sum8 (fun u => mx x u * nth u s' 0)) = w32 (sc + sum8 (fun u => mx (7 - x) u * nth u s 0))).
  { intros x Hx. apply w32_by with (b := sc + sum8 (fun u => mx x u * sgn u (nth u s 0))).
    - apply cg_add; [apply cg_refl|]. apply sum8_cg. intros u Hu. apply cg_mul; [apply cg_refl|apply E; exact Hu].
    - f_equal. apply sum8_ext. intros u _. apply mx_flip. exact Hx. }
  cbn [map]. rewrite !K by lia. reflexivity.
Qed.
Lemma column_flip : forall a a' q i, (i < 8)%nat -> (forall k, (k < 8)%nat -> at64 a' (i + 8 * k) = sgn k (at64 a (i + 8 * k))) ->
  idct_column a' q i = rev (idct_column a q i).
Proof.
  intros a a' q i Hi E. unfold idct_column. cbv zeta.
  assert (Z0 : forall k, (k < 8)%nat -> (at64 a' (i + 8 * k) =? 0) = (at64 a (i + 8 * k) =? 0)) by (intros k Hk; rewrite E by exact Hk; unfold sgn; destruct (Nat.odd k); lia).
  rewrite !Z0 by lia. destruct (_ && _).
  - replace (at64 a' (i + 8 * 0)) with (at64 a (i + 8 * 0)) by (rewrite (E 0%nat) by lia; reflexivity). reflexivity.
  - rewrite <- map_rev. f_equal. apply kernel_flip; try (rewrite map_length; apply seq_length).
    intros u Hu. cbn [seq map].
    assert (D : cg (dequant (at64 a' (i + 8 * u)) (at64 q (i + 8 * u))) (sgn u (dequant (at64 a (i + 8 * u)) (at64 q (i + 8 * u))))).
    { unfold dequant. rewrite E by exact Hu. apply cg_w32. destruct (w32_congr (at64 a (i + 8 * u) * at64 q (i + 8 * u))) as [j ->]. unfold sgn. destruct (Nat.odd u); [exists j|exists (- j)]; ring. }
    do 8 (destruct u as [|u]; [exact D|]). lia.
Qed.
Lemma rows_flip : forall dbg a a' q, (forall i k, (i < 8)%nat -> (k < 8)%nat -> at64 a' (i + 8 * k) = sgn k (at64 a (i + 8 * k))) ->
  forall rows, idct_block_rows dbg a q = Ok rows -> idct_block_rows dbg a' q = Ok (rev rows).
Proof.
  intros dbg a a' q E rows. unfold idct_block_rows. cbv zeta.
  assert (L : forall i, length (idct_column a q i) = 8%nat).
  { intros i. unfold idct_column. cbv zeta. destruct (_ && _); [reflexivity|]. rewrite map_length. apply kernel8_shape. rewrite map_length. apply seq_length. }
  assert (T : forall r, (r < 8)%nat -> idct_temp_row (map (idct_column a' q) (seq 0 8)) r = idct_temp_row (map (idct_column a q) (seq 0 8)) (7 - r)).
  { intros r Hr. unfold idct_temp_row. rewrite !map_map. apply map_ext_in. intros i Hi. apply in_seq in Hi. assert (Hi8 : (i < 8)%nat) by lia. rewrite (column_flip a a' q i Hi8 (fun k Hk => E i k Hi8 Hk)). rewrite rev_nth by (rewrite L; lia). rewrite L. reflexivity. }
  cbn [seq] in *. unfold mapM. cbn [bind].
  rewrite !T by lia. cbn [Nat.sub].
  set (cols := map (idct_column a q) _). clearbody cols. intros H.
  destruct (idct_row dbg (idct_temp_row cols 0)) as [r0| | |]; try discriminate H. cbn [bind] in H.
  destruct (idct_row dbg (idct_temp_row cols 1)) as [r1| | |]; try discriminate H. cbn [bind] in H.
  destruct (idct_row dbg (idct_temp_row cols 2)) as [r2| | |]; try discriminate H. cbn [bind] in H.
  destruct (idct_row dbg (idct_temp_row cols 3)) as [r3| | |]; try discriminate H. cbn [bind] in H.
  destruct (idct_row dbg (idct_temp_row cols 4)) as [r4| | |]; try discriminate H. cbn [bind] in H.
  destruct (idct_row dbg (idct_temp_row cols 5)) as [r5| | |]; try discriminate H. cbn [bind] in H.
  destruct (idct_row dbg (idct_temp_row cols 6)) as [r6| | |]; try discriminate H. cbn [bind] in H.
  destruct (idct_row dbg (idct_temp_row cols 7)) as [r7| | |]; try discriminate H. cbn [bind] in *.
  injection H as <-. reflexivity.
Qed.

Lemma sample_rows : forall dbg a q rows, idct_block_rows dbg a q = Ok rows -> length rows = 8%nat.
Proof.
  intros dbg a q rows. unfold idct_block_rows. cbv zeta. set (cols := map _ _). clearbody cols. cbn [seq]. unfold mapM. cbn [bind]. intros H.
  repeat match type of H with context [idct_row dbg (idct_temp_row cols ?n)] => destruct (idct_row dbg (idct_temp_row cols n)); try discriminate H; cbn [bind] in H end.
  injection H as <-. reflexivity.
Qed.
Definition row_of (i : nat) : nat := fst (nth i zigzag (0, 0)%nat).
Lemma row_sweep : forallb (fun i => Nat.eqb (row_of i) (natural i / 8)) (seq 0 64) = true.
Proof. vm_compute. reflexivity. Qed.
Lemma row_natural : forall i, (i < 64)%nat -> row_of i = (natural i / 8)%nat.
Proof. intros i H. pose proof row_sweep as S. rewrite forallb_forall in S. specialize (S i). rewrite in_seq in S. apply Nat.eqb_eq, S. lia. Qed.

Lemma block_flip : forall b b' blk blk' qt rows rows', upside_down b b' -> block_values blk (q_dc b) (q_ac b) -> block_values blk' (q_dc b') (q_ac b') ->
  idct_block_rows true blk qt = Ok rows -> idct_block_rows true blk' qt = Ok rows' -> rows' = rev rows.
Proof.
  intros b b' blk blk' qt rows rows' U [_ V] [_ V'] D D'.
  rewrite (rows_flip true blk blk' qt) with (rows := rows) in D'; [congruence| |exact D].
  intros i k Hi Hk. destruct (natural_unnatural (i + 8 * k) ltac:(lia)) as [E L]. rewrite <- E. unfold at64. rewrite V, V' by exact L.
  specialize (U _ L). unfold coef in U. rewrite U. fold (row_of (unnatural (i + 8 * k))). rewrite row_natural, E by exact L.
  replace ((i + 8 * k) / 8)%nat with k by (replace (i + 8 * k)%nat with (i + k * 8)%nat by lia; rewrite Nat.div_add, Nat.div_small by lia; lia). reflexivity.
Qed.

(** ** Planes *)
Lemma plane_flip : forall lines samples cs ms ms' k c q p p' y x,
  1 <= cs_h c -> cs_v c = 1 -> largest (map cs_v cs) = 1 -> lines mod 8 = 0 ->
  plane_from lines samples cs ms k c q p -> plane_from lines samples cs ms' k c q p' ->
  flipped (mcus samples (largest (map cs_h cs))) (lines / 8) ms ms' ->
  0 <= y < lines -> 0 <= x < plane_stride samples cs c ->
  px p' (plane_stride samples cs c) y x = px p (plane_stride samples cs c) (lines - 1 - y) x.
Proof.
  intros lines samples cs ms ms' k c q p p' y x Hh Hv Vm M8 [_ P] [_ P'] FL Hy Hx.
  assert (Em : 8 * mcus lines 1 = lines) by (unfold mcus, ceil_div; pose proof (Z.div_mod lines 8 ltac:(lia)); replace (lines + 8 * 1 - 1) with (7 + lines / 8 * 8) by lia; change (8 * 1) with 8; rewrite Z.div_add by lia; cbn [Z.div]; change (7 / 8) with 0; lia).
  assert (Rw : plane_rows lines cs c = lines) by (unfold plane_rows; rewrite Vm, Hv; lia).
  destruct (P (lines - 1 - y) x) as [blk [qt [rows [V [N [D ->]]]]]]; [rewrite Rw; lia|exact Hx|].
  destruct (P' y x) as [blk' [qt' [rows' [V' [N' [D' ->]]]]]]; [rewrite Rw; lia|exact Hx|]. clear P P'. cbv zeta in V, V'.
  assert (qt' = qt) by (eapply order_unique; eassumption). subst qt'.
  set (W := mcus samples (largest (map cs_h cs))) in *.
  pose proof (Z.div_mod lines 8 ltac:(lia)) as Dl. pose proof (Z.div_mod y 8 ltac:(lia)) as Dy. pose proof (Z.mod_pos_bound y 8 ltac:(lia)) as My.
  assert (Eq1 : (lines - 1 - y) / 8 = lines / 8 - 1 - y / 8) by (symmetry; apply Z.div_unique with (r := 7 - y mod 8); lia).
  assert (Eq2 : (lines - 1 - y) mod 8 = 7 - y mod 8) by (symmetry; apply Z.mod_unique with (q := lines / 8 - 1 - y / 8); lia).
  assert (U : upside_down (q_at ms W k (cs_h c) (cs_v c) (lines - 1 - y) x) (q_at ms' W k (cs_h c) (cs_v c) y x)).
  { assert (Hc : 0 <= mcu_col (cs_h c) x < W) by (unfold mcu_col; unfold plane_stride in Hx; fold W in Hx; split; [apply Z.div_pos; lia|apply Z.div_lt_upper_bound; lia]).
    unfold q_at. rewrite Hv. unfold mcu_row at 1 2. change (8 * 1) with 8. rewrite Eq1.
    specialize (FL (lines / 8 - 1 - y / 8) (mcu_col (cs_h c) x) ltac:(lia) Hc). replace (lines / 8 - 1 - (lines / 8 - 1 - y / 8)) with (y / 8) in FL by lia.
    unfold block_no. change (8 * 1) with 8. rewrite Eq2. replace ((7 - y mod 8) / 8) with 0 by (symmetry; apply Z.div_small; lia). replace (y mod 8 / 8) with 0 by (symmetry; apply Z.div_small; lia).
    apply rel_nth; [|intros [|i] _; [reflexivity|]; unfold coef; cbn [nth q_dc q_ac]; destruct i; destruct (Nat.odd _); reflexivity]. apply rel_nth; [exact FL|constructor]. }
  rewrite (block_flip _ _ _ _ _ _ _ U V V' (D true) (D' true)). unfold in_block. rewrite Eq2. rewrite rev_nth by (rewrite (sample_rows _ _ _ _ (D true)); lia). rewrite (sample_rows _ _ _ _ (D true)). do 2 f_equal. lia.
Qed.

(** ** Pixels *)
Lemma drawn_flip : forall lines samples cs c p p' row x,
  header_ok lines samples cs -> In c cs -> ratios_accepted lines samples cs c -> cs_v c = 1 -> largest (map cs_v cs) = 1 ->
  (forall y x, 0 <= y < lines -> 0 <= x < plane_stride samples cs c -> px p' (plane_stride samples cs c) y x = px p (plane_stride samples cs c) (lines - 1 - y) x) ->
  0 <= row < lines -> 0 <= x < samples ->
  comp_drawn lines samples cs c p' row x = comp_drawn lines samples cs c p (lines - 1 - row) x.
Proof.
  intros lines samples cs c p p' row x HO I (A1 & _ & _) Hv Vm PX Hrow Hx.
  assert (R1 : v_ratio lines cs c = 1) by (unfold v_ratio, ratio; rewrite Hv, Vm; destruct (lines =? 1); reflexivity).
  unfold comp_drawn. cbv zeta. destruct (_ && _); [reflexivity|]. unfold comp_shown. rewrite R1.
  destruct HO as [_ _ Ne _ _ X]. rewrite Forall_forall in X.
  assert (Fh : 1 <= cs_h c <= largest (map cs_h cs)) by (destruct (X c I); pose proof (largest_ge (map cs_h cs) (cs_h c) (in_map cs_h cs c I)); lia).
  destruct (covered samples _ _ x Hx Fh A1) as [H1 H2]. pose proof (extent_le samples _ _ ltac:(lia) Fh) as X1.
  fold (h_ratio samples cs c) in H1, H2. set (hr := h_ratio samples cs c) in *. set (w := extent samples (cs_h c) (largest (map cs_h cs))) in *.
  assert (St : plane_stride samples cs c = 8 * (mcus samples (largest (map cs_h cs)) * cs_h c)) by reflexivity.
  set (st := plane_stride samples cs c) in *. clearbody st hr w.
  assert (Dx : 0 <= x / hr < st) by (split; [apply Z.div_pos; lia|]; apply Z.lt_le_trans with w; [apply Z.div_lt_upper_bound; lia|lia]).
  unfold shown. cbn [Z.eqb Pos.eqb andb]. rewrite !andb_true_r, !andb_false_r. destruct (Z.eqb_spec hr 1) as [->|N1].
  - apply PX; [exact Hrow|]. rewrite Z.div_1_r in Dx. exact Dx.
  - destruct (Z.eqb_spec hr 2) as [->|N2].
    + unfold double_width. pose proof (neighbour_bound w x ltac:(lia)) as Nb. assert (Np : 0 <= neighbour (w - 1) x) by (unfold neighbour; destruct (Z.even x); lia).
      rewrite !PX by lia. reflexivity.
    + rewrite !Z.div_1_r. apply PX; [exact Hrow|exact Dx].
Qed.

Lemma flip_image : forall dbg rayon segs h fill1 fill2 ss ts data post fill3 segs' h' fill1' fill2' ss' ts' data' post' fill3' qs ms ms' img,
  encodes segs h ss ts qs ms data -> encodes segs' h' ss' ts' qs ms' data' -> post_ok post -> post_ok post' ->
  let cs := fh_comps h in let lines := fh_lines h in let samples := fh_samples h in
  fh_lines h' = lines -> fh_samples h' = samples -> 0 < lines -> 0 < samples ->
  map (fun c => (cs_h c, cs_v c)) (fh_comps h') = map (fun c => (cs_h c, cs_v c)) cs ->
  last_transform (segs' ++ post') = last_transform (segs ++ post) ->
  Forall (fun c => cs_v c = 1) cs -> lines mod 8 = 0 -> flipped (mcus samples (largest (map cs_h cs))) (lines / 8) ms ms' ->
  let file := file_bytes segs fill1 fill2 (mkSpS ss 0 63 0 0) data post fill3 in
  let file' := file_bytes segs' fill1' fill2' (mkSpS ss' 0 63 0 0) data' post' fill3' in
  bytes file -> bytes file' -> decode_fresh dbg rayon file = Ok img ->
  exists img', decode_fresh dbg rayon file' = Ok img' /\
    forall y x, 0 <= y < lines -> 0 <= x < samples -> pixel (lenZ cs) samples y x img' = pixel (lenZ cs) samples (lines - 1 - y) x img.
Proof.
  intros dbg rayon segs h fill1 fill2 ss ts data post fill3 segs' h' fill1' fill2' ss' ts' data' post' fill3' qs ms ms' img En En' PO PO' cs lines samples El Es L0 S0 Ef Et V1 M8 FL file file' B B' D.
  assert (HO : header_ok lines samples cs) by (apply (sof_ok segs h (en_segs _ _ _ _ _ _ _ En)); rewrite (en_frame _ _ _ _ _ _ _ En); left; reflexivity).
  assert (Vm : largest (map cs_v cs) = 1).
  { assert (N : cs <> []) by (destruct HO; assumption). clear - N V1. destruct cs as [|c cs0]; [congruence|]. inv V1. cbn [map largest fold_right]. rewrite H1. clear - H2. induction H2 as [|a l Ha F IH]; cbn [map fold_right]; [reflexivity|]. rewrite Ha. lia. }
  destruct (file_answer dbg rayon segs h fill1 fill2 ss ts qs ms data post fill3 En L0 S0 PO B) as [ps [Lp [PL FA]]].
  destruct (file_answer dbg rayon segs' h' fill1' fill2' ss' ts' qs ms' data' post' fill3' En' ltac:(lia) ltac:(lia) PO' B') as [ps' [Lp' [PL' FA']]].
  fold file in FA. fold file' in FA'. rewrite D in FA. rewrite Et, El, Es in FA'. rewrite El, Es in PL'.
  fold (factors (fh_comps h')) in Ef. fold (factors cs) in Ef. fold cs lines samples in FA, PL. set (cs' := fh_comps h') in *.
  assert (Lc : length cs = length cs') by (rewrite <- (map_length (fun c => (cs_h c, cs_v c)) cs); change (map (fun c => (cs_h c, cs_v c)) cs) with (factors cs); rewrite <- Ef; unfold factors; apply map_length).
  assert (Eh : map cs_h cs' = map cs_h cs) by (rewrite !factors_h, Ef; reflexivity). assert (Ev : map cs_v cs' = map cs_v cs) by (rewrite !factors_v, Ef; reflexivity).
  assert (IC : exists img', decode_fresh dbg rayon file' = Ok img').
  { apply (answer_image _ _ _ _ _ _ _ FA'). destruct (proj1 (answer_image _ _ _ _ _ _ _ FA) ltac:(eexists; reflexivity)) as [C1 [C2 C3]].
    assert (TR : forall (Q Q' : comp_spec -> Prop), (forall c c', cs_h c = cs_h c' -> cs_v c = cs_v c' -> Q c -> Q' c') -> Forall Q cs -> Forall Q' cs').
    { intros Q Q' QQ F. apply Forall_forall. intros c' Ic. apply In_nth_error in Ic. destruct Ic as [k Ek]. destruct (nth_error cs k) as [c|] eqn:Ec.
      - destruct (factors_nth _ _ _ _ _ (eq_sym Ef) Ec Ek) as [Hh Hv]. apply (QQ c c' Hh Hv). rewrite Forall_forall in F. apply F. exact (nth_error_In _ _ Ec).
      - apply nth_error_None in Ec. assert (k < length cs')%nat by (apply nth_error_Some; congruence). lia. }
    split; [unfold lenZ in *; rewrite <- Lc; exact C1|]. split; [revert C2|revert C3]; apply TR; intros c c' Hh Hv.
    - unfold ratios_accepted, repeated, whole_ratios, h_ratio, v_ratio. rewrite Eh, Ev, <- Hh, <- Hv. auto.
    - unfold doubling_possible, h_ratio, v_ratio, plane_stride, plane_rows. rewrite Eh, Ev, <- Hh, <- Hv. auto. }
  destruct IC as [img' D']. exists img'. split; [exact D'|]. rewrite D' in FA'. intros y x Hy Hx.
  apply (pixels_meet rayon lines samples cs ps lines samples cs' ps' _ img img' (lines - 1 - y) x y x FA FA' Lc ltac:(lia) Hx Hy Hx).
  intros A A' k c c' p p' Ec Ec' Ep Ep'.
  destruct (PL k c Ec) as [q [p1 [Eq [E1 Fp]]]]. destruct (PL' k c' Ec') as [q' [p1' [Eq' [E1' Fp']]]]. assert (p1 = p) by congruence. assert (p1' = p') by congruence. assert (q' = q) by congruence. subst p1 p1' q'.
  destruct (factors_nth _ _ _ _ _ (eq_sym Ef) Ec Ec') as [Hh Hv]. apply (plane_factors _ _ cs cs' ms' k c c' q p' (eq_sym Ef) Hh Hv) in Fp'.
  assert (Ic : In c cs) by exact (nth_error_In _ _ Ec).
  assert (Ed : forall row x, comp_drawn lines samples cs' c' p' row x = comp_drawn lines samples cs c p' row x).
  { intros row x1. unfold comp_drawn, comp_shown, h_ratio, v_ratio, plane_stride. rewrite Eh, Ev, Hh, Hv. reflexivity. }
  rewrite Ed, Ev, Vm. assert (SR : forall y, shown_row rayon 1 y = y) by (intros z; unfold shown_row; destruct rayon; rewrite Z.div_1_r; lia). rewrite !SR.
  rewrite Forall_forall in V1, A. assert (Fh : 1 <= cs_h c) by (destruct HO as [_ _ _ _ _ X]; rewrite Forall_forall in X; apply (X c Ic)).
  apply drawn_flip; auto. intros y1 x1 Hy1 Hx1. exact (plane_flip lines samples cs ms ms' k c q p p' y1 x1 Fh (V1 c Ic) Vm M8 Fp Fp' FL Hy1 Hx1).
Qed.
