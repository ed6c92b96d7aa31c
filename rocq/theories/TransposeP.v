(** Images whose lines and columns are exchanged (C77). *)
From Verif Require Import Base Tactics SpecBits SpecReader SpecMarker Biterator Huffman Marker Types Parsers Idct Upsampler Decode SpecGlobal SpecStream.
From Verif Require Import SpecHuffman SpecBlock SpecTables SpecFrame SpecSegments SpecScan SpecPlane SpecUpsample SpecImage SpecColor SpecFile SpecAnswer SpecIdct SpecEncoder SpecEdit SpecFlip SpecTranspose.
From Verif Require Import ParsersP InvP MarkerP GlobalP StreamP2 FileP ImageP BlockP UpsampleP RayonP IdctP IdctP2 AnswerP AnswerP2 AnswerP3 ReuseP PiecesP DamageP2 TransP UpsampleP2 FlatP EditP EditP2 EncoderP MosaicP FlipP FlipP2 FlipP3 SpecChannel ChannelP.

(** ** One block *)
Lemma sum8_swap : forall f : nat -> nat -> Z, sum8 (fun u => sum8 (fun v => f u v)) = sum8 (fun v => sum8 (fun u => f u v)).
Proof. intros f. unfold sum8. ring. Qed.
Lemma pass1_error : forall a q y u, Z.abs (1024 * pass1 a q y u - sum8 (fun v => mx y v * deq a q v u)) <= 512.
Proof.
  intros a q y u. unfold pass1. generalize (sum8 (fun v => mx y v * deq a q v u)). intros s. pose proof (Z.div_mod (512 + s) 1024 ltac:(lia)). pose proof (Z.mod_pos_bound (512 + s) 1024 ltac:(lia)). lia.
Qed.
Lemma pass2_error : forall a q y x,
  Z.abs (1024 * sum8 (fun u => mx x u * pass1 a q y u) - sum8 (fun u => mx x u * sum8 (fun v => mx y v * deq a q v u))) <= 23277568.
Proof.
  intros a q y x. replace (1024 * sum8 (fun u => mx x u * pass1 a q y u) - sum8 (fun u => mx x u * sum8 (fun v => mx y v * deq a q v u)))
    with (sum8 (fun u => mx x u * (1024 * pass1 a q y u - sum8 (fun v => mx y v * deq a q v u)))).
  - etransitivity; [apply dot_bound|]. change 23277568 with (5683 * 4096). apply Z.mul_le_mono_nonneg_l; [lia|].
    etransitivity; [apply sum8_le with (g := fun _ => 512); intros u _; apply pass1_error|]. unfold sum8. lia.
  - generalize (fun u => sum8 (fun v => mx y v * deq a q v u)). generalize (pass1 a q y). intros f g. unfold sum8. generalize (mx x). intros m. ring.
Qed.
Lemma pass2_transpose : forall a q a' q' y x, (forall u v, (u < 8)%nat -> (v < 8)%nat -> deq a' q' v u = deq a q u v) -> near 1 (pass2 a' q' x y) (pass2 a q y x).
Proof.
  intros a q a' q' y x E. unfold pass2. pose proof (pass2_error a q y x) as B. pose proof (pass2_error a' q' x y) as B'.
  assert (S : sum8 (fun u => mx y u * sum8 (fun v => mx x v * deq a' q' v u)) = sum8 (fun u => mx x u * sum8 (fun v => mx y v * deq a q v u))).
  { rewrite (sum8_ext _ (fun u => sum8 (fun v => mx y u * mx x v * deq a q u v))).
    - rewrite sum8_swap. apply sum8_ext. intros u Hu. rewrite <- sum8_scale. apply sum8_ext. intros v Hv. ring.
    - intros u Hu. rewrite <- sum8_scale. apply sum8_ext. intros v Hv. rewrite E by assumption. ring. }
  rewrite S in B'. generalize dependent (sum8 (fun u => mx x u * sum8 (fun v => mx y v * deq a q v u))). clear. intros t. generalize (sum8 (fun u => mx x u * pass1 a q y u)), (sum8 (fun u => mx y u * pass1 a' q' x u)). clear. intros s s' B B'.
  unfold near. pose proof (Z.div_mod (65536 + 128 * 131072 + s) 131072 ltac:(lia)). pose proof (Z.mod_pos_bound (65536 + 128 * 131072 + s) 131072 ltac:(lia)).
  pose proof (Z.div_mod (65536 + 128 * 131072 + s') 131072 ltac:(lia)). pose proof (Z.mod_pos_bound (65536 + 128 * 131072 + s') 131072 ltac:(lia)). lia.
Qed.

Lemma exchanged_at : forall f f' u v, exchanged f f' -> (u < 8)%nat -> (v < 8)%nat -> f' (unnatural (u + 8 * v)) = f (unnatural (v + 8 * u)).
Proof.
  intros f f' u v X Hu Hv. destruct (natural_unnatural (u + 8 * v) ltac:(lia)) as [E1 L1]. destruct (natural_unnatural (v + 8 * u) ltac:(lia)) as [E2 L2].
  assert (Z1 : forall a b, (a < 8)%nat -> (b < 8)%nat -> (unnatural (a + 8 * b) < 64)%nat -> natural (unnatural (a + 8 * b)) = (a + 8 * b)%nat -> nth (unnatural (a + 8 * b)) zigzag (0, 0)%nat = (b, a)).
  { intros a b Ha Hb L E. pose proof (row_natural _ L) as R. pose proof (col_natural _ L) as C. unfold row_of, col_of in R, C. rewrite E in R, C.
    replace ((a + 8 * b) / 8)%nat with b in R by (replace (a + 8 * b)%nat with (a + b * 8)%nat by lia; rewrite Nat.div_add, Nat.div_small by lia; lia).
    replace ((a + 8 * b) mod 8)%nat with a in C by (replace (a + 8 * b)%nat with (a + b * 8)%nat by lia; rewrite Nat.mod_add, Nat.mod_small by lia; lia).
    destruct (nth (unnatural (a + 8 * b)) zigzag (0, 0)%nat). cbn [fst snd] in R, C. subst. reflexivity. }
  exact (X _ _ u v L2 L1 (Z1 v u Hv Hu L2 E2) (Z1 u v Hu Hv L1 E1)).
Qed.
Lemma block_transpose : forall q q' b b' blk blk' qt qt' rows rows', transposed_block b b' -> transposed_table q q' -> modest q b ->
  block_values blk (q_dc b) (q_ac b) -> block_values blk' (q_dc b') (q_ac b') -> natural_order qt q -> natural_order qt' q' ->
  idct_block_rows true blk qt = Ok rows -> idct_block_rows true blk' qt' = Ok rows' ->
  forall y x, (y < 8)%nat -> (x < 8)%nat -> near 1 (nth y (nth x rows' []) 0) (nth x (nth y rows []) 0).
Proof.
  intros q q' b b' blk blk' qt qt' rows rows' U W M V V' N N' D D' y x Hy Hx. destruct (modest_total q b blk qt V N M) as [T G].
  assert (E : forall u v, (u < 8)%nat -> (v < 8)%nat -> deq blk' qt' v u = deq blk qt u v).
  { intros u v Hu Hv. unfold deq. destruct (natural_unnatural (u + 8 * v) ltac:(lia)) as [E1 L1]. destruct (natural_unnatural (v + 8 * u) ltac:(lia)) as [E2 L2].
    destruct V as [_ V]. destruct V' as [_ V']. destruct N as [_ N]. destruct N' as [_ N']. rewrite <- E1, <- E2. rewrite V, V', N, N' by assumption.
    pose proof (exchanged_at _ _ u v U Hu Hv) as X1. pose proof (exchanged_at _ _ u v W Hu Hv) as X2. unfold coef in X1. cbv beta in X2. rewrite X1, X2. reflexivity. }
  assert (T' : total blk' qt' <= 65536).
  { revert T. unfold total. rewrite (sum8_swap (fun u v => Z.abs (deq blk' qt' v u))). rewrite (sum8_ext (fun v => sum8 (fun u => Z.abs (deq blk' qt' v u))) (fun u => sum8 (fun v => Z.abs (deq blk qt v u)))); [auto|]. intros u Hu. apply sum8_ext. intros v Hv. rewrite E by assumption. reflexivity. }
  assert (G' : forall y x, (y < 8)%nat -> (x < 8)%nat -> -256 <= pass2 blk' qt' y x <= 767).
  { intros y0 x0 Hy0 Hx0. pose proof (pass2_transpose blk qt blk' qt' x0 y0 E) as Nr. pose proof (G x0 y0 Hx0 Hy0). unfold near in Nr. lia. }
  rewrite (block_rows_sat true blk' qt' rows' (modest_moderate _ _ (proj1 V') T') T' G' D' x y Hx Hy).
  rewrite (block_rows_sat true blk qt rows (modest_moderate _ _ (proj1 V) T) T ltac:(intros y0 x0 Hy0 Hx0; specialize (G y0 x0 Hy0 Hx0); lia) D y x Hy Hx).
  apply sat_near. apply pass2_transpose. exact E.
Qed.

(** ** Planes *)
Lemma plane_transpose : forall lines samples cs ms ms' k c q q' p p' cs' c' y x,
  cs_h c = 1 -> cs_v c = 1 -> largest (map cs_h cs) = 1 -> largest (map cs_v cs) = 1 -> cs_h c' = 1 -> cs_v c' = 1 -> largest (map cs_h cs') = 1 -> largest (map cs_v cs') = 1 ->
  nth_error cs k = Some c -> header_ok lines samples cs -> Forall (mcu_shape cs) ms -> lenZ ms = mcus lines 1 * mcus samples 1 ->
  (forall m bs, In m ms -> nth_error m k = Some bs -> Forall (modest q) bs) -> transposed_table q q' ->
  plane_from lines samples cs ms k c q p -> plane_from samples lines cs' ms' k c' q' p' -> transposed (mcus samples 1) (mcus lines 1) ms ms' ->
  0 <= y < plane_rows lines cs c -> 0 <= x < plane_stride samples cs c ->
  near 1 (px p' (plane_stride lines cs' c') x y) (px p (plane_stride samples cs c) y x).
Proof.
  intros lines samples cs ms ms' k c q q' p p' cs' c' y x Hh Hv Mh Mv Hh' Hv' Mh' Mv' Ec HO Sh Lm MD TT [_ P] [_ P'] TR Hy Hx.
  assert (QI : exists m, In m ms /\ In (q_at ms (mcus samples (largest (map cs_h cs))) k (cs_h c) (cs_v c) y x) (nth k m [])) by (apply (q_at_in lines samples cs ms k c y x HO Sh); [rewrite Mh, Mv; exact Lm|exact Ec|exact Hy|exact Hx]).
  destruct (P y x Hy Hx) as [blk [qt [rows [V [N [D ->]]]]]].
  assert (Hy' : 0 <= y < plane_stride lines cs' c') by (revert Hy; unfold plane_rows, plane_stride; rewrite Hv, Mv, Hh', Mh'; auto).
  assert (Hx' : 0 <= x < plane_rows samples cs' c') by (revert Hx; unfold plane_rows, plane_stride; rewrite Hh, Mh, Hv', Mv'; auto).
  destruct (P' x y Hx' Hy') as [blk' [qt' [rows' [V' [N' [D' ->]]]]]]. clear P P'. cbv zeta in V, V'.
  assert (Ry : 0 <= y / 8 < mcus lines 1) by (revert Hy; unfold plane_rows; rewrite Hv, Mv; clear; intros; split; [apply Z.div_pos; lia|apply Z.div_lt_upper_bound; lia]).
  assert (Rx : 0 <= x / 8 < mcus samples 1) by (revert Hx; unfold plane_stride; rewrite Hh, Mh; clear; intros; split; [apply Z.div_pos; lia|apply Z.div_lt_upper_bound; lia]).
  rewrite Hh, Hv, Mh in *. rewrite Hh', Hv', Mh' in *.
  assert (U : transposed_block (q_at ms (mcus samples 1) k 1 1 y x) (q_at ms' (mcus lines 1) k 1 1 x y)).
  { unfold q_at, mcu_row, mcu_col, block_no. change (8 * 1) with 8. rewrite !(Z.div_small (_ mod 8) 8) by (apply Z.mod_pos_bound; lia).
    apply rel_nth; [|intros i j r d _ _ _ _; unfold coef; destruct i as [|[|i]], j as [|[|j]]; reflexivity]. apply rel_nth; [exact (TR (y / 8) (x / 8) Ry Rx)|constructor]. }
  assert (Mo : modest q (q_at ms (mcus samples 1) k 1 1 y x)).
  { destruct QI as [m [Im Iq]]. destruct (nth_error m k) as [bs|] eqn:Eb.
    - rewrite (nth_error_nth _ _ _ Eb) in Iq. specialize (MD m bs Im Eb). rewrite Forall_forall in MD. apply MD. exact Iq.
    - apply nth_error_None in Eb. rewrite nth_overflow in Iq by exact Eb. destruct Iq. }
  unfold in_block. refine (block_transpose q q' _ _ _ _ _ _ _ _ U TT Mo V V' N N' (D true) (D' true) _ _ _ _).
  - pose proof (Z.mod_pos_bound y 8 ltac:(lia)). lia.
  - pose proof (Z.mod_pos_bound x 8 ltac:(lia)). lia.
Qed.

(** ** Pixels *)
Lemma colour_near : forall t n vs vs', (n = 3 \/ n = 4)%nat -> length vs = n -> length vs' = n -> (forall k, (k < n)%nat -> near 1 (nth k vs' 0) (nth k vs 0)) ->
  Forall2 (near (if Z.of_nat n =? 4 then 1 else 3)) (colour t vs') (colour t vs).
Proof.
  intros t n vs vs' Hn L L' N. assert (Inv : forall a b, near 1 a b -> near 1 (255 - a) (255 - b)) by (unfold near; clear; lia). destruct Hn as [-> | ->].
  - destruct vs as [|a [|b [|c [|]]]]; try discriminate L. destruct vs' as [|a' [|b' [|c' [|]]]]; try discriminate L'. cbn [colour]. change (Z.of_nat 3 =? 4) with false. cbv iota.
    destruct (match t with Some 0 => true | _ => false end); [repeat constructor; unfold near; lia|]. apply rgb_apart; [exact (N 0%nat ltac:(lia))|exact (N 1%nat ltac:(lia))|exact (N 2%nat ltac:(lia))].
  - destruct vs as [|a [|b [|c [|d [|]]]]]; try discriminate L. destruct vs' as [|a' [|b' [|c' [|d' [|]]]]]; try discriminate L'. cbn [colour]. change (Z.of_nat 4 =? 4) with true. cbv iota.
    repeat constructor; apply Inv; [exact (N 0%nat ltac:(lia))|exact (N 1%nat ltac:(lia))|exact (N 2%nat ltac:(lia))|exact (N 3%nat ltac:(lia))].
Qed.
Lemma largest_ones : forall cs (f : comp_spec -> Z), cs <> [] -> Forall (fun c => f c = 1) cs -> largest (map f cs) = 1.
Proof.
  intros cs f N H. destruct cs as [|c cs0]; [congruence|]. apply Forall_cons_iff in H. destruct H as [H1 H]. cbn [map largest fold_right]. rewrite H1. clear - H. induction H as [|a l Ha F IH]; cbn [map fold_right]; [reflexivity|]. rewrite Ha. lia.
Qed.
Lemma ones_conditions : forall rayon lines samples cs, cs <> [] -> Forall (fun c => cs_h c = 1) cs -> Forall (fun c => cs_v c = 1) cs ->
  Forall (ratios_accepted lines samples cs) cs /\ Forall (doubling_possible lines samples cs rayon) cs.
Proof.
  intros rayon lines samples cs N Hh Hv. pose proof (largest_ones cs cs_h N Hh) as Mh. pose proof (largest_ones cs cs_v N Hv) as Mv. rewrite Forall_forall in Hh, Hv.
  split; apply Forall_forall; intros c I.
  - unfold ratios_accepted, repeated, h_ratio, v_ratio, ratio. rewrite Mh, Mv, (Hh c I), (Hv c I). change (1 / 1) with 1. split; [right; reflexivity|]. split; [right; reflexivity|]. destruct (samples =? 1), (lines =? 1); lia.
  - unfold doubling_possible, h_ratio, ratio. rewrite Mh, (Hh c I). change (1 / 1) with 1. destruct (samples =? 1); discriminate.
Qed.

Lemma transpose_image : forall dbg rayon segs h fill1 fill2 ss ts data post fill3 segs' h' fill1' fill2' ss' ts' data' post' fill3' qs qs' ms ms' img,
  encodes segs h ss ts qs ms data -> encodes segs' h' ss' ts' qs' ms' data' -> post_ok post -> post_ok post' ->
  let cs := fh_comps h in let lines := fh_lines h in let samples := fh_samples h in
  fh_lines h' = samples -> fh_samples h' = lines -> 0 < lines -> 0 < samples ->
  Forall (fun c => cs_h c = 1 /\ cs_v c = 1) cs -> Forall (fun c => cs_h c = 1 /\ cs_v c = 1) (fh_comps h') -> length (fh_comps h') = length cs ->
  last_transform (segs' ++ post') = last_transform (segs ++ post) ->
  Forall2 transposed_table qs qs' -> transposed (mcus samples 1) (mcus lines 1) ms ms' -> all_modest qs ms ->
  let file := file_bytes segs fill1 fill2 (mkSpS ss 0 63 0 0) data post fill3 in
  let file' := file_bytes segs' fill1' fill2' (mkSpS ss' 0 63 0 0) data' post' fill3' in
  bytes file -> bytes file' -> decode_fresh dbg rayon file = Ok img ->
  exists img', decode_fresh dbg rayon file' = Ok img' /\
    forall y x, 0 <= y < lines -> 0 <= x < samples ->
      Forall2 (fun a b => Z.abs (a - b) <= if lenZ cs =? 4 then 1 else 3) (pixel (lenZ cs) lines x y img') (pixel (lenZ cs) samples y x img).
Proof.
  intros dbg rayon segs h fill1 fill2 ss ts data post fill3 segs' h' fill1' fill2' ss' ts' data' post' fill3' qs qs' ms ms' img En En' PO PO' cs lines samples El Es L0 S0 F F' Lc Et TT TR MD file file' B B' D.
  assert (HO : header_ok lines samples cs) by (apply (sof_ok segs h (en_segs _ _ _ _ _ _ _ En)); rewrite (en_frame _ _ _ _ _ _ _ En); left; reflexivity).
  assert (HO' : header_ok samples lines (fh_comps h')) by (rewrite <- El, <- Es; apply (sof_ok segs' h' (en_segs _ _ _ _ _ _ _ En')); rewrite (en_frame _ _ _ _ _ _ _ En'); left; reflexivity).
  destruct (file_answer dbg rayon segs h fill1 fill2 ss ts qs ms data post fill3 En L0 S0 PO B) as [ps [Lp [PL FA]]].
  destruct (file_answer dbg rayon segs' h' fill1' fill2' ss' ts' qs' ms' data' post' fill3' En' ltac:(lia) ltac:(lia) PO' B') as [ps' [Lp' [PL' FA']]].
  fold file in FA. fold file' in FA'. rewrite D in FA. rewrite Et, El, Es in FA'. rewrite El, Es in PL'. fold cs lines samples in FA, PL. set (cs' := fh_comps h') in *. fold cs in Lp.
  assert (N : cs <> []) by (destruct HO; assumption). assert (N' : cs' <> []) by (destruct HO'; assumption).
  assert (Fh : Forall (fun c => cs_h c = 1) cs) by (revert F; apply Forall_impl; tauto). assert (Fv : Forall (fun c => cs_v c = 1) cs) by (revert F; apply Forall_impl; tauto).
  assert (Fh' : Forall (fun c => cs_h c = 1) cs') by (revert F'; apply Forall_impl; tauto). assert (Fv' : Forall (fun c => cs_v c = 1) cs') by (revert F'; apply Forall_impl; tauto).
  pose proof (largest_ones cs cs_h N Fh) as Mh. pose proof (largest_ones cs cs_v N Fv) as Mv. pose proof (largest_ones cs' cs_h N' Fh') as Mh'. pose proof (largest_ones cs' cs_v N' Fv') as Mv'.
  destruct (proj1 (answer_image _ _ _ _ _ _ _ FA) ltac:(eexists; reflexivity)) as [C1 _].
  destruct (proj2 (answer_image _ _ _ _ _ _ _ FA')) as [img' D'].
  { split; [unfold lenZ in *; rewrite Lc; exact C1|]. apply ones_conditions; assumption. }
  exists img'. split; [exact D'|]. rewrite D' in FA'. intros y x Hy Hx.
  destruct (answer_colour _ _ _ _ _ _ _ y x FA Lp Hy Hx) as [_ E1]. destruct (answer_colour _ _ _ _ _ _ _ x y FA' Lp' Hx Hy) as [_ E2].
  assert (LZ : lenZ cs' = lenZ cs) by (unfold lenZ; lia). rewrite LZ in E2. rewrite E1, E2.
  apply (colour_near _ (length cs)); [unfold lenZ in C1; clear - C1; lia|unfold draw; rewrite map_length, combine_length; lia|unfold draw; rewrite map_length, combine_length; lia|].
  intros k Hk.
  assert (CN : forall A B (l : list A) (l' : list B) k a b, nth_error l k = Some a -> nth_error l' k = Some b -> nth_error (combine l l') k = Some (a, b)).
  { clear. intros A B l. induction l as [|a0 l IH]; intros [|b0 l'] [|k] a b H1 H2; try discriminate; cbn in *; [congruence|]. apply IH; assumption. }
  destruct (nth_error cs k) as [c|] eqn:Ec; [|apply nth_error_None in Ec; lia]. destruct (nth_error cs' k) as [c'|] eqn:Ec'; [|apply nth_error_None in Ec'; lia].
  destruct (PL k c Ec) as [q [p [Eq [Ep Fp]]]]. destruct (PL' k c' Ec') as [q' [p' [Eq' [Ep' Fp']]]].
  assert (V1 : nth k (draw rayon lines samples cs ps y x) 0 = comp_drawn lines samples cs c p (shown_row rayon (largest (map cs_v cs)) y) x).
  { apply nth_error_nth. unfold draw. erewrite map_nth_error; [|apply CN; [exact Ec|exact Ep]]. reflexivity. }
  assert (V2 : nth k (draw rayon samples lines cs' ps' x y) 0 = comp_drawn samples lines cs' c' p' (shown_row rayon (largest (map cs_v cs')) x) y).
  { apply nth_error_nth. unfold draw. erewrite map_nth_error; [|apply CN; [exact Ec'|exact Ep']]. reflexivity. }
  rewrite V1, V2. rewrite Forall_forall in Fh, Fv, Fh', Fv'. pose proof (nth_error_In _ _ Ec) as Ic. pose proof (nth_error_In _ _ Ec') as Ic'.
  assert (FC : full_component cs c) by (split; [rewrite Mh|rewrite Mv]; auto). assert (FC' : full_component cs' c') by (split; [rewrite Mh'|rewrite Mv']; auto).
  destruct (drawn_full rayon lines samples cs c y x HO Ic Hy Hx FC) as [R1 [R2 R3]]. destruct (drawn_full rayon samples lines cs' c' x y HO' Ic' Hx Hy FC') as [R1' [R2' R3']]. rewrite R3, R3'.
  assert (SR : forall i, shown_row rayon 1 i = i) by (intros i; unfold shown_row; rewrite Z.div_1_r; destruct rayon; lia).
  rewrite Mv, Mv', !SR in *.
  apply (plane_transpose lines samples cs ms ms' k c q q' p p' cs' c'); auto.
  - exact (en_mcus _ _ _ _ _ _ _ En).
  - pose proof (en_count _ _ _ _ _ _ _ En) as C. fold cs lines samples in C. rewrite Mh, Mv in C. exact C.
  - intros m bs Im Eb. exact (MD m k q bs Im Eq Eb).
  - assert (Kl : (k < length qs)%nat) by (apply nth_error_Some; congruence). pose proof (rel_nth_in _ _ _ _ _ [] [] TT k Kl) as X. rewrite (nth_error_nth _ _ _ Eq), (nth_error_nth _ _ _ Eq') in X. exact X.
Qed.

(** ** Transposing as a function *)
Lemma swapped_sweep : forallb (fun i => (swapped i <? 64)%nat && forallb (fun j => let (r, c) := nth i zigzag (0, 0)%nat in let (r', c') := nth j zigzag (0, 0)%nat in
  implb ((r' =? c)%nat && (c' =? r)%nat) (swapped j =? i)%nat) (seq 0 64)) (seq 0 64) = true.
Proof. vm_compute. reflexivity. Qed.
Lemma swapped_lt : forall i, (i < 64)%nat -> (swapped i < 64)%nat.
Proof. intros i Hi. pose proof swapped_sweep as S. rewrite forallb_forall in S. specialize (S i). rewrite in_seq in S. specialize (S ltac:(lia)). apply andb_prop in S. destruct S as [S _]. apply Nat.ltb_lt. exact S. Qed.
Lemma swapped_at : forall i j r c, (i < 64)%nat -> (j < 64)%nat -> nth i zigzag (0, 0)%nat = (r, c) -> nth j zigzag (0, 0)%nat = (c, r) -> swapped j = i.
Proof.
  intros i j r c Hi Hj E1 E2. pose proof swapped_sweep as S. rewrite forallb_forall in S. specialize (S i). rewrite in_seq in S. specialize (S ltac:(lia)). apply andb_prop in S. destruct S as [_ S].
  rewrite forallb_forall in S. specialize (S j). rewrite in_seq in S. specialize (S ltac:(lia)). cbv beta in S. rewrite E1, E2, !Nat.eqb_refl in S. apply Nat.eqb_eq. exact S.
Qed.
Lemma transpose_block_ok : forall b, transposed_block b (transpose_block b).
Proof.
  intros b i j r c Hi Hj E1 E2. pose proof (swapped_at i j r c Hi Hj E1 E2) as S. destruct j as [|j].
  - change (swapped 0) with 0%nat in S. subst i. reflexivity.
  - unfold coef at 1. cbn [nth transpose_block q_ac q_dc]. rewrite (nth_indep _ 0 (coef b (swapped 0))) by (rewrite map_length, seq_length; lia). rewrite (map_nth (fun j => coef b (swapped j))), seq_nth by lia. change (1 + j)%nat with (Datatypes.S j). rewrite S. reflexivity.
Qed.
Lemma transpose_table_ok : forall q, transposed_table q (transpose_table q).
Proof.
  intros q i j r c Hi Hj E1 E2. pose proof (swapped_at i j r c Hi Hj E1 E2) as S. unfold transpose_table.
  rewrite (nth_indep _ 0 (nth (swapped 0) q 0)) by (rewrite map_length, seq_length; lia). rewrite (map_nth (fun j => nth (swapped j) q 0)), seq_nth by lia. change (0 + j)%nat with j. rewrite S. reflexivity.
Qed.
Lemma transpose_q : forall b, q_ok b -> q_ok (transpose_block b).
Proof.
  intros b (H1 & H2 & H3). split; [exact H1|]. split; [reflexivity|]. unfold transpose_block. cbn [q_ac]. apply Forall_forall. intros v Hv. apply in_map_iff in Hv. destruct Hv as [i [<- Hi]]. apply in_seq in Hi.
  pose proof (swapped_lt i ltac:(lia)) as L. unfold coef. destruct (swapped i) as [|k]; cbn [nth]; [|rewrite Forall_forall in H3; apply H3; apply nth_In; lia]. unfold q_ok in *. lia.
Qed.

Section Transpose.
  Variable im : image.
  Hypothesis (OK : image_ok im) (F1 : Forall (fun f => f = (1, 1)) (im_factors im)).
  Let w := mcus (im_samples im) 1.
  Let h := mcus (im_lines im) 1.
  Lemma ones_fst : largest (map fst (im_factors im)) = 1 /\ largest (map snd (im_factors im)) = 1.
  Proof.
    assert (N : im_factors im <> []) by (pose proof (io_comps im OK) as C; intros E; rewrite E in C; cbn in C; lia). clear - N F1.
    destruct (im_factors im) as [|f fs]; [congruence|]. apply Forall_cons_iff in F1. destruct F1 as [-> H]. cbn [map largest fold_right fst snd]. clear - H. induction H as [|a l Ha F IH]; cbn [map fold_right]; [split; reflexivity|]. subst a. cbn [fst snd] in *. lia.
  Qed.
  Lemma mcus_pos : 0 <= w /\ 0 <= h.
  Proof. pose proof (io_lines im OK). pose proof (io_samples im OK). unfold w, h, mcus, ceil_div. split; apply Z.div_pos; lia. Qed.
  Lemma transpose_count : lenZ (im_mcus im) = h * w.
  Proof. pose proof (io_count im OK) as C. destruct ones_fst as [E1 E2]. rewrite E1, E2 in C. exact C. Qed.
  Lemma transpose_in : forall m, In m (im_mcus (transpose im)) -> exists m0, In m0 (im_mcus im) /\ m = map (map transpose_block) m0.
  Proof.
    intros m Im. unfold transpose in Im. cbn [im_mcus] in Im. fold w h in Im. apply in_map_iff in Im. destruct Im as [i [<- Hi]]. eexists. split; [|reflexivity].
    unfold zrange in Hi. apply in_map_iff in Hi. destruct Hi as [k [<- Hk]]. apply in_seq in Hk. pose proof mcus_pos. pose proof transpose_count as C. unfold lenZ in C. set (i := Z.of_nat k) in *. assert (Hi : 0 <= i < w * h) by lia.
    assert (0 < h) by (destruct (Z.eq_dec h 0) as [E|E]; [rewrite E, Z.mul_0_r in Hi; lia|lia]).
    pose proof (Z.mod_pos_bound i h ltac:(lia)) as Mb. assert (Q : 0 <= i / h < w) by (split; [apply Z.div_pos; lia|apply Z.div_lt_upper_bound; lia]).
    apply nth_In. clear - C Mb Q. generalize dependent (i mod h). generalize dependent (i / h). intros. clearbody w h. nia.
  Qed.
  Lemma transpose_ok : image_ok (transpose im).
  Proof.
    destruct ones_fst as [E1 E2]. destruct OK. split; cbn [im_lines im_samples im_factors im_quant im_transform im_restart transpose]; auto.
    - rewrite map_length. assumption.
    - apply Forall_map. revert io_quant. apply Forall_impl. intros q [L V]. split; [unfold transpose_table; rewrite map_length, seq_length; reflexivity|].
      unfold transpose_table. apply Forall_forall. intros v Hv. apply in_map_iff in Hv. destruct Hv as [i [<- Hi]]. apply in_seq in Hi. rewrite Forall_forall in V. apply V. apply nth_In. rewrite L. apply swapped_lt. lia.
    - apply Forall_forall. intros m Im. destruct (transpose_in m Im) as [m0 [I0 ->]]. rewrite Forall_forall in io_shape. specialize (io_shape m0 I0). clear - io_shape.
      induction io_shape as [|f qs fs m0 H S IH]; cbn [map]; constructor; [|exact IH]. unfold lenZ in *. rewrite map_length. exact H.
    - apply Forall_forall. intros m Im. destruct (transpose_in m Im) as [m0 [I0 ->]]. rewrite Forall_forall in io_coefs. specialize (io_coefs m0 I0).
      apply Forall_map. revert io_coefs. apply Forall_impl. intros qs Q. apply Forall_map. revert Q. apply Forall_impl. exact transpose_q.
    - rewrite E1, E2. fold w h. unfold transpose. cbn [im_mcus]. fold w h. unfold lenZ. rewrite map_length. pose proof (zrange_length (w * h)) as ZL. unfold lenZ in ZL. rewrite ZL. pose proof mcus_pos. clearbody w h. nia.
  Qed.
  Lemma transpose_transposed : transposed w h (im_mcus im) (im_mcus (transpose im)).
  Proof.
    intros r c Hr Hc. unfold transpose. cbn [im_mcus]. fold w h.
    assert (B : 0 <= c * h + r < w * h) by (clearbody w h; nia).
    set (f := fun i => map (map transpose_block) (nth (Z.to_nat (i mod h * w + i / h)) (im_mcus im) [])).
    assert (E : nth (Z.to_nat (c * h + r)) (map f (zrange (w * h))) [] = f (c * h + r)).
    { rewrite (nth_indep _ [] (f 0)) by (rewrite map_length; pose proof (zrange_length (w * h)) as ZL; unfold lenZ in ZL; lia). rewrite map_nth, zrange_nth by exact B. reflexivity. }
    refine (eq_ind_r (fun m => Forall2 (Forall2 transposed_block) _ m) _ E). unfold f.
    assert (Q1 : (c * h + r) / h = c) by (symmetry; apply Z.div_unique with (r := r); lia).
    assert (Q2 : (c * h + r) mod h = r) by (symmetry; apply Z.mod_unique with (q := c); lia).
    rewrite Q1, Q2. generalize (nth (Z.to_nat (r * w + c)) (im_mcus im) []). intros m.
    induction m as [|qs m IH]; cbn [map]; constructor; [|exact IH]. induction qs as [|b qs IHq]; cbn [map]; constructor; [apply transpose_block_ok|exact IHq].
  Qed.
  Lemma transpose_function : forall dbg rayon img, 0 < im_lines im -> 0 < im_samples im -> all_modest (im_quant im) (im_mcus im) -> decode_fresh dbg rayon (encode im) = Ok img ->
    exists img', decode_fresh dbg rayon (encode (transpose im)) = Ok img' /\
      forall y x, 0 <= y < im_lines im -> 0 <= x < im_samples im ->
        Forall2 (fun a b => Z.abs (a - b) <= if lenZ (im_factors im) =? 4 then 1 else 3) (pixel (lenZ (im_factors im)) (im_lines im) x y img') (pixel (lenZ (im_factors im)) (im_samples im) y x img).
  Proof.
    intros dbg rayon img L0 S0 MD D.
    assert (Lc : lenZ (enc_comps 0 (im_factors im)) = lenZ (im_factors im)).
    { unfold lenZ. f_equal. clear. generalize 0. induction (im_factors im) as [|[a b] fs IH]; intros i; [reflexivity|]. cbn [enc_comps length]. rewrite IH. reflexivity. }
    assert (V : Forall (fun c => cs_h c = 1 /\ cs_v c = 1) (enc_comps 0 (im_factors im))).
    { clear - F1. revert F1. generalize (im_factors im). intros fs. generalize 0. induction fs as [|f fs IH]; intros i F; [constructor|]. apply Forall_cons_iff in F. destruct F as [-> F]. cbn [enc_comps]. constructor; [split; reflexivity|apply IH; exact F]. }
    assert (TT : Forall2 transposed_table (im_quant im) (im_quant (transpose im))).
    { unfold transpose. cbn [im_quant]. clear. induction (im_quant im); cbn [map]; constructor; [apply transpose_table_ok|assumption]. }
    assert (Et : last_transform (enc_segs (transpose im) ++ []) = last_transform (enc_segs im ++ [])).
    { reflexivity. }
    pose proof (transpose_image dbg rayon (enc_segs im) (enc_header im) 0 0 (enc_ss im) _ (enc_data im) [] 0 (enc_segs (transpose im)) (enc_header (transpose im)) 0 0 (enc_ss (transpose im)) _ (enc_data (transpose im)) [] 0
      (im_quant im) (im_quant (transpose im)) (im_mcus im) (im_mcus (transpose im)) img (enc_encodes im OK) (enc_encodes (transpose im) transpose_ok) no_post no_post eq_refl eq_refl L0 S0 V V eq_refl Et TT transpose_transposed MD (enc_bytes im OK) (enc_bytes (transpose im) transpose_ok) D) as F.
    change (fh_comps (enc_header im)) with (enc_comps 0 (im_factors im)) in F. rewrite Lc in F. exact F.
  Qed.
End Transpose.

(** ** A quarter turn *)
Lemma turn_modest : forall q b, modest q b -> modest q (turn_block b).
Proof.
  intros q b [M G]. split.
  - rewrite (map_ext_in _ (fun i => Z.abs (coef b i * nth i q 0))); [exact M|]. intros i Hi. apply in_seq in Hi.
    rewrite (turn_upside b i) by lia. destruct (Nat.odd _); [|reflexivity]. rewrite Z.mul_opp_l, Z.abs_opp. reflexivity.
  - intros y x Hy Hx. assert (R : raw_sample q (turn_block b) y x = raw_sample q b (7 - y) x); [|rewrite R; apply G; lia].
    unfold raw_sample. do 2 f_equal. apply sum8_ext. intros u Hu. do 3 f_equal. apply sum8_ext. intros v Hv. rewrite <- (mx_flip y v (dequantised_at q b v u) Hy).
    f_equal. unfold dequantised_at. rewrite (place_found v u Hv Hu). destruct (natural_unnatural (u + 8 * v) ltac:(lia)) as [En L].
    rewrite (turn_upside b _ L). fold (row_of (unnatural (u + 8 * v))). rewrite row_natural, En by exact L.
    replace ((u + 8 * v) / 8)%nat with v by (replace (u + 8 * v)%nat with (u + v * 8)%nat by lia; rewrite Nat.div_add, Nat.div_small by lia; lia). unfold sgn. destruct (Nat.odd v); ring.
Qed.
Lemma quarter_turn : forall im dbg rayon img, image_ok im -> Forall (fun f => f = (1, 1)) (im_factors im) -> im_lines im mod 8 = 0 -> 0 < im_lines im -> 0 < im_samples im ->
  all_modest (im_quant im) (im_mcus im) -> decode_fresh dbg rayon (encode im) = Ok img ->
  image_ok (transpose (turn im)) /\
  exists img', decode_fresh dbg rayon (encode (transpose (turn im))) = Ok img' /\
    forall y x, 0 <= y < im_lines im -> 0 <= x < im_samples im ->
      Forall2 (fun a b => Z.abs (a - b) <= if lenZ (im_factors im) =? 4 then 1 else 3) (pixel (lenZ (im_factors im)) (im_lines im) x (im_lines im - 1 - y) img') (pixel (lenZ (im_factors im)) (im_samples im) y x img).
Proof.
  intros im dbg rayon img OK F1 M8 L0 S0 MD D.
  assert (V1 : Forall (fun f => snd f = 1) (im_factors im)) by (revert F1; apply Forall_impl; intros f ->; reflexivity).
  destruct (turn_image im OK V1 M8 dbg rayon img L0 S0 D) as [img1 [D1 T1]]. pose proof (turn_ok im OK V1 M8) as OK1.
  assert (MD1 : all_modest (im_quant (turn im)) (im_mcus (turn im))).
  { intros m k q bs Im Eq Eb. change (im_quant (turn im)) with (im_quant im) in Eq. unfold turn in Im. cbn [im_mcus] in Im. apply in_map_iff in Im. destruct Im as [i [E Hi]].
    set (m0 := nth _ (im_mcus im) []) in E. destruct (nth_error m0 k) as [bs0|] eqn:E0.
    - assert (I0 : In m0 (im_mcus im)).
      { destruct (nth_in_or_default (Z.to_nat ((im_lines im / 8 - 1 - i / mcus (im_samples im) (largest (map fst (im_factors im)))) * mcus (im_samples im) (largest (map fst (im_factors im))) + i mod mcus (im_samples im) (largest (map fst (im_factors im))))) (im_mcus im) []) as [I0|E1]; [exact I0|].
        fold m0 in E1. rewrite E1 in E0. destruct k; discriminate E0. }
      subst m. rewrite (map_nth_error _ _ _ E0) in Eb. injection Eb as <-. specialize (MD m0 k q bs0 I0 Eq E0). apply Forall_map. revert MD. apply Forall_impl. intros b. apply turn_modest.
    - apply nth_error_None in E0. assert (k < length m)%nat by (apply nth_error_Some; congruence). subst m. rewrite map_length in H. lia. }
  split; [exact (transpose_ok (turn im) OK1 F1)|].
  destruct (transpose_function (turn im) OK1 F1 dbg rayon img1 L0 S0 MD1 D1) as [img2 [D2 T2]]. exists img2. split; [exact D2|]. intros y x Hy Hx.
  specialize (T2 (im_lines im - 1 - y) x ltac:(change (im_lines (turn im)) with (im_lines im); lia) Hx). change (im_lines (turn im)) with (im_lines im) in T2. change (im_samples (turn im)) with (im_samples im) in T2. change (im_factors (turn im)) with (im_factors im) in T2.
  rewrite (T1 (im_lines im - 1 - y) x ltac:(lia) Hx) in T2. replace (im_lines im - 1 - (im_lines im - 1 - y)) with y in T2 by lia. exact T2.
Qed.
