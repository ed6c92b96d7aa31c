(** Images with their components in another order (C89). *)
From Coq Require Import Permutation.
From Verif Require Import Base Tactics SpecBits SpecReader SpecMarker Biterator Huffman Marker Types Parsers Idct Upsampler Decode SpecGlobal SpecStream.
From Verif Require Import SpecHuffman SpecBlock SpecTables SpecFrame SpecSegments SpecScan SpecPlane SpecUpsample SpecImage SpecColor SpecFile SpecAnswer SpecIdct SpecFlat SpecEncoder SpecEdit SpecFlip SpecChannel SpecOrder.
From Verif Require Import ParsersP InvP MarkerP GlobalP StreamP2 FileP ImageP BlockP UpsampleP RayonP IdctP IdctP2 AnswerP AnswerP2 AnswerP3 ReuseP PiecesP DamageP2 TransP UpsampleP2 FlatP EditP EditP2 EncoderP MosaicP FlipP FlipP3 ChannelP NearbyP.

(** ** Lists *)
Lemma largest_perm : forall l l', Permutation l l' -> largest l = largest l'.
Proof. intros l l' P. induction P; unfold largest in *; cbn [fold_right]; lia. Qed.
Lemma pick_all : forall A (d : A) l n, length l = n -> pick d (seq 0 n) l = l.
Proof. intros A d l n L. apply nth_ext with (d := d) (d' := d); unfold pick; [rewrite map_length, seq_length; auto|]. intros i Hi. rewrite map_length, seq_length in Hi. apply nth_map_seq. exact Hi. Qed.
Lemma pick_perm : forall A (d : A) order l n, length l = n -> Permutation order (seq 0 n) -> Permutation (pick d order l) l.
Proof. intros A d order l n L P. rewrite <- (pick_all A d l n L) at 2. unfold pick. apply Permutation_map. exact P. Qed.
Lemma pick_nth : forall A (d : A) order l k j, nth_error order k = Some j -> nth_error (pick d order l) k = Some (nth j l d).
Proof. intros A d order l k j E. unfold pick. apply (map_nth_error (fun j => nth j l d)). exact E. Qed.
Lemma order_range : forall order n k j, Permutation order (seq 0 n) -> nth_error order k = Some j -> (j < n)%nat.
Proof. intros order n k j P E. apply nth_error_In in E. apply (Permutation_in _ P) in E. apply in_seq in E. lia. Qed.
Lemma block_unique : forall blk blk' dc ac, block_values blk dc ac -> block_values blk' dc ac -> blk = blk'.
Proof.
  intros blk blk' dc ac [L V] [L' V']. apply nth_ext with (d := 0) (d' := 0); [rewrite L, L'; reflexivity|]. intros i Hi. rewrite L in Hi.
  destruct (natural_unnatural i ltac:(lia)) as [E Hu]. rewrite <- E, V, V' by exact Hu. reflexivity.
Qed.

(** ** Planes *)
Lemma plane_moved : forall lines samples cs cs' ms ms' k j c c' q p p',
  largest (map cs_h cs') = largest (map cs_h cs) -> largest (map cs_v cs') = largest (map cs_v cs) -> cs_h c' = cs_h c -> cs_v c' = cs_v c ->
  (forall i, nth k (nth i ms' []) [] = nth j (nth i ms []) []) ->
  plane_from lines samples cs ms j c q p -> plane_from lines samples cs' ms' k c' q p' ->
  forall y x, 0 <= y < plane_rows lines cs c -> 0 <= x < plane_stride samples cs c -> px p' (plane_stride samples cs c) y x = px p (plane_stride samples cs c) y x.
Proof.
  intros lines samples cs cs' ms ms' k j c c' q p p' Eh Ev Ch Cv Em [_ P] [_ P'] y x Hy Hx. unfold plane_rows, plane_stride in P'. rewrite Eh, Ev, Ch, Cv in P'.
  destruct (P y x Hy Hx) as [blk [qt [rows [V [O [D ->]]]]]]. destruct (P' y x Hy Hx) as [blk' [qt' [rows' [V' [O' [D' E']]]]]].
  unfold plane_stride. rewrite E'. cbv zeta in V, V'. unfold q_at in V'. rewrite Em in V'. fold (q_at ms (mcus samples (largest (map cs_h cs))) j (cs_h c) (cs_v c) y x) in V'.
  rewrite (block_unique _ _ _ _ V' V), (order_unique _ _ _ O' O) in D'. specialize (D true). specialize (D' true). assert (rows' = rows) by congruence. subst. reflexivity.
Qed.

(** ** Files *)
Section Files.
  Variables (dbg rayon : bool) (segs segs' : list (nat * hseg)) (h h' : frame_header) (fill1 fill2 fill1' fill2' : nat) (ss ss' : list scan_comp) (ts ts' : list tables) (qs qs' : list (list Z)) (ms ms' : list mcu) (data data' : list Z) (post post' : list (nat * hseg)) (fill3 fill3' : nat) (img : list Z) (order : list nat).
  Let cs := fh_comps h.
  Let cs' := fh_comps h'.
  Let lines := fh_lines h.
  Let samples := fh_samples h.
  Hypothesis (En : encodes segs h ss ts qs ms data) (En' : encodes segs' h' ss' ts' qs' ms' data') (PO : post_ok post) (PO' : post_ok post').
  Hypothesis (El : fh_lines h' = lines) (Es : fh_samples h' = samples) (L0 : 0 < lines) (S0 : 0 < samples).
  Hypothesis (C4 : lenZ cs = 4) (Po : Permutation order (seq 0 4)).
  Hypothesis Ef : map (fun c => (cs_h c, cs_v c)) cs' = pick (1, 1) order (map (fun c => (cs_h c, cs_v c)) cs).
  Hypothesis (Eq : qs' = pick [] order qs) (Em : ms' = map (pick [] order) ms).
  Hypothesis Et : last_transform (segs' ++ post') = last_transform (segs ++ post).
  Let file := file_bytes segs fill1 fill2 (mkSpS ss 0 63 0 0) data post fill3.
  Let file' := file_bytes segs' fill1' fill2' (mkSpS ss' 0 63 0 0) data' post' fill3'.
  Hypothesis (B : bytes file) (B' : bytes file') (D : decode_fresh dbg rayon file = Ok img).
  Lemma lengths : length cs = 4%nat /\ length cs' = 4%nat /\ length order = 4%nat.
  Proof using C4 Po Ef.
    assert (Lo : length order = 4%nat) by (rewrite (Permutation_length Po), seq_length; reflexivity). split; [unfold lenZ in C4; lia|]. split; [|exact Lo].
    rewrite <- (map_length (fun c => (cs_h c, cs_v c))), Ef. unfold pick. rewrite map_length. exact Lo.
  Qed.
  Lemma factors_perm : Permutation (map (fun c => (cs_h c, cs_v c)) cs') (map (fun c => (cs_h c, cs_v c)) cs).
  Proof using C4 Po Ef. rewrite Ef. apply (pick_perm _ _ _ _ 4%nat); [rewrite map_length; apply lengths|exact Po]. Qed.
  Lemma largest_same : largest (map cs_h cs') = largest (map cs_h cs) /\ largest (map cs_v cs') = largest (map cs_v cs).
  Proof using C4 Po Ef.
    pose proof factors_perm as F. split; apply largest_perm; [apply (Permutation_map fst) in F|apply (Permutation_map snd) in F]; rewrite !map_map in F; exact F.
  Qed.
  Lemma moved_comp : forall k j c', nth_error order k = Some j -> nth_error cs' k = Some c' -> exists c, nth_error cs j = Some c /\ cs_h c' = cs_h c /\ cs_v c' = cs_v c.
  Proof using C4 Po Ef.
    intros k j c' Ek Ec'. pose proof (order_range _ _ _ _ Po Ek) as Hj. destruct (nth_error cs j) as [c|] eqn:Ec; [|apply nth_error_None in Ec; destruct lengths; lia]. exists c. split; [reflexivity|].
    pose proof (map_nth_error (fun c => (cs_h c, cs_v c)) _ _ Ec') as E1. rewrite Ef, (pick_nth _ _ _ _ _ _ Ek) in E1.
    pose proof (map_nth_error (fun c => (cs_h c, cs_v c)) _ _ Ec) as E2. apply nth_error_nth with (d := (1, 1)) in E2. rewrite E2 in E1. injection E1 as E1 E1'. auto.
  Qed.
  Lemma reordered : exists img', decode_fresh dbg rayon file' = Ok img' /\
    forall y x, 0 <= y < lines -> 0 <= x < samples -> pixel 4 samples y x img' = pick 0 order (pixel 4 samples y x img).
  Proof using En En' PO PO' El Es L0 S0 C4 Po Ef Eq Em Et B B' D.
    destruct (file_answer dbg rayon segs h fill1 fill2 ss ts qs ms data post fill3 En L0 S0 PO B) as [ps [Lp [PL FA]]].
    destruct (file_answer dbg rayon segs' h' fill1' fill2' ss' ts' qs' ms' data' post' fill3' En' ltac:(lia) ltac:(lia) PO' B') as [ps' [Lp' [PL' FA']]].
    fold file in FA. fold file' in FA'. rewrite D in FA. rewrite Et, El, Es in FA'. rewrite El, Es in PL'. fold cs lines samples in FA, PL, Lp. fold cs' in FA', PL', Lp'.
    destruct lengths as [Lc [Lc' Lo]]. destruct largest_same as [Eh Ev].
    assert (X : exists img', decode_fresh dbg rayon file' = Ok img').
    { apply (answer_image _ _ _ _ _ _ _ FA'). destruct (proj1 (answer_image _ _ _ _ _ _ _ FA) ltac:(eexists; reflexivity)) as [C1 [C2 C3]].
      assert (TR : forall (Q Q' : comp_spec -> Prop), (forall c c', cs_h c' = cs_h c -> cs_v c' = cs_v c -> Q c -> Q' c') -> Forall Q cs -> Forall Q' cs').
      { intros Q Q' QQ F. apply Forall_forall. intros c' Ic. apply In_nth_error in Ic. destruct Ic as [k Ek]. destruct (nth_error order k) as [j|] eqn:Ej; [|apply nth_error_None in Ej; assert (k < length cs')%nat by (apply nth_error_Some; congruence); lia].
        destruct (moved_comp k j c' Ej Ek) as [c [Ec [Hh Hv]]]. apply (QQ c c' Hh Hv). rewrite Forall_forall in F. apply F. exact (nth_error_In _ _ Ec). }
      split; [unfold lenZ in *; rewrite Lc'; rewrite Lc in C1; exact C1|]. split; [revert C2|revert C3]; apply TR; intros c c' Hh Hv.
      - unfold ratios_accepted, repeated, whole_ratios, h_ratio, v_ratio. rewrite Eh, Ev, Hh, Hv. auto.
      - unfold doubling_possible, h_ratio, v_ratio, plane_stride, plane_rows. rewrite Eh, Ev, Hh, Hv. auto. }
    destruct X as [img' D']. exists img'. split; [exact D'|]. rewrite D' in FA'. intros y x Hy Hx.
    destruct (answer_colour _ _ _ _ _ _ _ y x FA Lp Hy Hx) as [A E1]. destruct (answer_colour _ _ _ _ _ _ _ y x FA' Lp' Hy Hx) as [_ E2].
    assert (C4' : lenZ cs' = 4) by (unfold lenZ; rewrite Lc'; reflexivity). rewrite C4 in E1. rewrite C4' in E2. rewrite E1, E2. clear E1 E2.
    pose proof (files_header segs h ss ts qs ms data En) as HO. fold cs lines samples in HO.
    assert (Dn : forall cs0 ps0 k c p, nth_error cs0 k = Some c -> nth_error ps0 k = Some p ->
      nth_error (draw rayon lines samples cs0 ps0 y x) k = Some (comp_drawn lines samples cs0 c p (shown_row rayon (largest (map cs_v cs0)) y) x)).
    { intros cs0 ps0 k c p Ec Ep. unfold draw. apply (map_nth_error (fun cp => comp_drawn lines samples cs0 (fst cp) (snd cp) (shown_row rayon (largest (map cs_v cs0)) y) x)) with (d := (c, p)).
      clear - Ec Ep. revert ps0 k Ec Ep. induction cs0 as [|c0 cs0 IH]; intros [|p0 ps0] [|k] Ec Ep; try discriminate; cbn [combine nth_error] in *; [congruence|exact (IH ps0 k Ec Ep)]. }
    assert (V : forall k j, nth_error order k = Some j -> nth_error (draw rayon lines samples cs' ps' y x) k = nth_error (draw rayon lines samples cs ps y x) j).
    { intros k j Ek. assert (Hk : (k < 4)%nat) by (rewrite <- Lo; apply nth_error_Some; congruence). destruct (nth_error cs' k) as [c'|] eqn:Ec'; [|apply nth_error_None in Ec'; lia].
      destruct (moved_comp k j c' Ek Ec') as [c [Ec [Hh Hv]]]. destruct (PL j c Ec) as [q [p [Eq1 [Ep P]]]]. destruct (PL' k c' Ec') as [q' [p' [Eq1' [Ep' P']]]].
      rewrite (Dn _ _ _ _ _ Ec Ep), (Dn _ _ _ _ _ Ec' Ep'). f_equal.
      assert (q' = q). { rewrite Eq, (pick_nth _ _ _ _ _ _ Ek) in Eq1'. rewrite (nth_error_nth _ _ [] Eq1) in Eq1'. congruence. } subst q'.
      assert (EM : forall i, nth k (nth i ms' []) [] = nth j (nth i ms []) []).
      { intros i. rewrite Em. destruct (nth_error ms i) as [m|] eqn:Ei.
        - rewrite (nth_error_nth ms i [] Ei). apply (map_nth_error (pick [] order)) in Ei. transitivity (nth k (pick [] order m) []); [exact (f_equal (fun l => nth k l []) (nth_error_nth _ i [] Ei))|]. apply nth_error_nth. apply pick_nth. exact Ek.
        - apply nth_error_None in Ei. rewrite (nth_overflow ms) by exact Ei. transitivity (nth k (@nil (list qblock)) []); [|destruct k, j; reflexivity]. refine (f_equal (fun l => nth k l []) (nth_overflow (map (pick [] order) ms) [] _)). rewrite map_length. exact Ei. }
      pose proof (plane_moved lines samples cs cs' ms ms' k j c c' q p p' Eh Ev Hh Hv EM P P') as PX.
      assert (Z0 : near 0 (comp_drawn lines samples cs c p' (shown_row rayon (largest (map cs_v cs)) y) x) (comp_drawn lines samples cs c p (shown_row rayon (largest (map cs_v cs)) y) x)).
      { rewrite Forall_forall in A. apply drawn_near; [exact HO|exact (nth_error_In _ _ Ec)|apply A; exact (nth_error_In _ _ Ec)|exact Hy|exact Hx|lia|].
        intros y0 x0 Hy0 Hx0. rewrite (PX y0 x0 Hy0 Hx0). unfold near. lia. }
      transitivity (comp_drawn lines samples cs c p' (shown_row rayon (largest (map cs_v cs)) y) x); [|unfold near in Z0; lia].
      unfold comp_drawn, comp_shown, h_ratio, v_ratio, plane_stride. rewrite Eh, Ev, Hh, Hv. reflexivity. }
    assert (Ld : length (draw rayon lines samples cs ps y x) = 4%nat) by (unfold draw; rewrite map_length, combine_length; lia).
    assert (Ld' : length (draw rayon lines samples cs' ps' y x) = 4%nat) by (unfold draw; rewrite map_length, combine_length; lia).
    set (vs := draw rayon lines samples cs ps y x) in *. set (vs' := draw rayon lines samples cs' ps' y x) in *. clearbody vs vs'. clear Dn.
    assert (I4 : forall t l, length l = 4%nat -> colour t l = map (fun v => 255 - v) l) by (intros t l; clear; destruct l as [|v0 [|v1 [|v2 [|v3 [|]]]]]; try discriminate; reflexivity).
    rewrite !I4 by assumption. apply lists_ext. intros k. destruct (nth_error order k) as [j|] eqn:Ek.
    - rewrite (pick_nth _ _ _ _ _ _ Ek). pose proof (V k j Ek) as Vk. pose proof (order_range _ _ _ _ Po Ek) as Hj. destruct (nth_error vs j) as [v|] eqn:Ej; [|apply nth_error_None in Ej; lia].
      rewrite (map_nth_error (fun v => 255 - v) _ _ Vk). f_equal. symmetry. apply nth_error_nth. exact (map_nth_error (fun v => 255 - v) _ _ Ej).
    - apply nth_error_None in Ek. transitivity (@None Z); [apply nth_error_None|symmetry; apply nth_error_None]; unfold pick; rewrite ?map_length; lia.
  Qed.
End Files.

(** ** Images *)
Section Images.
  Variables (im : image) (order : list nat).
  Hypothesis (OK : image_ok im) (C4 : lenZ (im_factors im) = 4) (Po : Permutation order (seq 0 4)).
  Lemma sum_perm : forall A (f : A -> Z) l l', Permutation l l' -> fold_right (fun a n => f a + n) 0 l = fold_right (fun a n => f a + n) 0 l'.
  Proof using. intros A f l l' P. induction P; cbn [fold_right]; lia. Qed.
  Lemma Forall_pick : forall A (P : A -> Prop) d l, length l = 4%nat -> Forall P l -> Forall P (pick d order l).
  Proof using Po.
    intros A P d l L F. apply Forall_forall. intros a Ia. rewrite Forall_forall in F. apply F. exact (Permutation_in _ (pick_perm _ d order l 4%nat L Po) Ia).
  Qed.
  Lemma Forall2_pick : forall A B (P : A -> B -> Prop) d e l m, length l = 4%nat -> Forall2 P l m -> Forall2 P (pick d order l) (pick e order m).
  Proof using Po.
    intros A B P d e l m L F. assert (R : Forall (fun j => (j < 4)%nat) order) by (apply Forall_forall; intros j Ij; apply (Permutation_in _ Po) in Ij; apply in_seq in Ij; lia).
    assert (N : forall j, (j < 4)%nat -> P (nth j l d) (nth j m e)). { intros j Hj. rewrite <- L in Hj. clear - F Hj. revert j Hj. induction F; intros [|j] Hj; cbn [length nth] in *; try lia; [assumption|apply IHF; lia]. }
    unfold pick. clear - N R. induction R; cbn [map]; constructor; auto.
  Qed.
  Lemma reorder_ok : image_ok (reorder order im).
  Proof using OK C4 Po.
    assert (Lf : length (im_factors im) = 4%nat) by (unfold lenZ in C4; lia). assert (Lq : length (im_quant im) = 4%nat) by (rewrite (io_tables im OK); exact Lf).
    assert (Lo : length order = 4%nat) by (rewrite (Permutation_length Po), seq_length; reflexivity). pose proof (pick_perm _ (1, 1) order _ _ Lf Po) as PF.
    split; try apply OK.
    - cbn [reorder im_factors]. unfold lenZ, pick. rewrite map_length. lia.
    - cbn [reorder im_factors]. apply Forall_pick; [exact Lf|apply OK].
    - cbn [reorder im_factors]. rewrite (sum_perm _ (fun f => fst f * snd f) _ _ PF). apply OK.
    - cbn [reorder im_factors im_quant]. unfold pick. rewrite !map_length. reflexivity.
    - cbn [reorder im_quant]. apply Forall_pick; [exact Lq|apply OK].
    - cbn [reorder im_factors im_mcus]. apply Forall_map. pose proof (io_shape im OK) as S. revert S. apply Forall_impl. intros m S. apply Forall2_pick; assumption.
    - cbn [reorder im_mcus]. apply Forall_map. pose proof (io_coefs im OK) as S. pose proof (io_shape im OK) as Sh. rewrite Forall_forall in *. intros m Im. specialize (S m Im). specialize (Sh m Im).
      apply Forall_pick; [|exact S]. clear - Sh Lf. rewrite <- Lf. symmetry. clear Lf. induction Sh; cbn [length]; auto.
    - cbn [reorder im_lines im_samples im_factors im_mcus]. unfold lenZ. rewrite map_length.
      rewrite (largest_perm _ _ (Permutation_map snd PF)), (largest_perm _ _ (Permutation_map fst PF)). apply (io_count im OK).
  Qed.
  Variables (dbg rayon : bool) (img : list Z).
  Hypothesis (L0 : 0 < im_lines im) (S0 : 0 < im_samples im) (D : decode_fresh dbg rayon (encode im) = Ok img).
  Lemma enc_factors : forall fs i, map (fun c => (cs_h c, cs_v c)) (enc_comps i fs) = fs.
  Proof using. induction fs as [|[a b] fs IH]; intros i; [reflexivity|]. cbn [enc_comps map cs_h cs_v]. rewrite IH. reflexivity. Qed.
  Lemma reorder_image : exists img', decode_fresh dbg rayon (encode (reorder order im)) = Ok img' /\
    forall y x, 0 <= y < im_lines im -> 0 <= x < im_samples im -> pixel 4 (im_samples im) y x img' = pick 0 order (pixel 4 (im_samples im) y x img).
  Proof using OK C4 Po L0 S0 D.
    assert (C4' : lenZ (fh_comps (enc_header im)) = 4) by (cbn [enc_header fh_comps]; rewrite enc_length; exact C4).
    assert (Ef : map (fun c => (cs_h c, cs_v c)) (fh_comps (enc_header (reorder order im))) = pick (1, 1) order (map (fun c => (cs_h c, cs_v c)) (fh_comps (enc_header im)))) by (cbn [enc_header fh_comps]; rewrite !enc_factors; reflexivity).
    exact (reordered dbg rayon (enc_segs im) (enc_segs (reorder order im)) (enc_header im) (enc_header (reorder order im)) 0 0 0 0 (enc_ss im) (enc_ss (reorder order im)) _ _ (im_quant im) (im_quant (reorder order im)) (im_mcus im) (im_mcus (reorder order im))
      (enc_data im) (enc_data (reorder order im)) [] [] 0 0 img order (enc_encodes im OK) (enc_encodes (reorder order im) reorder_ok) no_post no_post eq_refl eq_refl L0 S0 C4' Po Ef eq_refl eq_refl eq_refl (enc_bytes im OK) (enc_bytes (reorder order im) reorder_ok) D).
  Qed.
End Images.
