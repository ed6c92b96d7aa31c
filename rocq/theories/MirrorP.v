(** Images with any sampling factors mirrored left to right (C73). *)
From Verif Require Import Base Tactics SpecBits SpecReader SpecMarker Biterator Huffman Marker Types Parsers Idct Upsampler Decode SpecGlobal SpecStream.
From Verif Require Import SpecHuffman SpecBlock SpecTables SpecFrame SpecSegments SpecScan SpecPlane SpecUpsample SpecImage SpecColor SpecFile SpecAnswer SpecIdct SpecFlat SpecEncoder SpecEdit SpecFlip SpecMirror.
From Verif Require Import ParsersP InvP MarkerP GlobalP StreamP2 FileP ImageP BlockP UpsampleP IdctP IdctP2 AnswerP AnswerP2 AnswerP3 ReuseP PiecesP DamageP2 TransP UpsampleP2 FlatP EditP EditP2 EncoderP MosaicP FlipP FlipP2 FlipP3 ChannelP.

(** ** Blocks *)
Section Numbers.
  Variables (hm ch K x : Z).
  Hypothesis (Hc : 1 <= ch) (Hx : 0 <= x < 8 * (K * ch)).
  Let x' := 8 * (K * ch) - 1 - x.
  Lemma mirror_col : mcu_col ch x' = K - 1 - mcu_col ch x.
  Proof using Hc Hx.
    unfold mcu_col, x'. pose proof (Z.div_mod x (8 * ch) ltac:(lia)). pose proof (Z.mod_pos_bound x (8 * ch) ltac:(lia)).
    symmetry. apply Z.div_unique with (r := 8 * ch - 1 - x mod (8 * ch)); [lia|]. nia.
  Qed.
  Lemma mirror_mod : x' mod (8 * ch) = 8 * ch - 1 - x mod (8 * ch).
  Proof using Hc Hx.
    unfold x'. pose proof (Z.div_mod x (8 * ch) ltac:(lia)). pose proof (Z.mod_pos_bound x (8 * ch) ltac:(lia)).
    symmetry. apply Z.mod_unique with (q := K - 1 - x / (8 * ch)); [lia|]. nia.
  Qed.
  Lemma mirror_in : x' mod (8 * ch) / 8 = ch - 1 - x mod (8 * ch) / 8.
  Proof using Hc Hx.
    rewrite mirror_mod. pose proof (Z.mod_pos_bound x (8 * ch) ltac:(lia)). set (m := x mod (8 * ch)) in *. clearbody m. clear Hx. 
    pose proof (Z.div_mod m 8 ltac:(lia)). pose proof (Z.mod_pos_bound m 8 ltac:(lia)). symmetry. apply Z.div_unique with (r := 7 - m mod 8); lia.
  Qed.
  Lemma mirror_8 : x' mod 8 = 7 - x mod 8.
  Proof using Hc Hx.
    unfold x'. pose proof (Z.div_mod x 8 ltac:(lia)). pose proof (Z.mod_pos_bound x 8 ltac:(lia)). symmetry. apply Z.mod_unique with (q := K * ch - 1 - x / 8); lia.
  Qed.
  Lemma mirror_bounds : 0 <= mcu_col ch x < K /\ 0 <= x mod (8 * ch) / 8 < ch.
  Proof using Hc Hx.
    unfold mcu_col. pose proof (Z.mod_pos_bound x (8 * ch) ltac:(lia)) as M. split; split; try (apply Z.div_pos; lia); apply Z.div_lt_upper_bound; try lia; nia.
  Qed.
End Numbers.

Section Plane.
  Variables (lines samples : Z) (cs : list comp_spec) (ms ms' : list mcu) (k : nat) (c : comp_spec) (q p p' : list Z).
  Hypothesis (HO : header_ok lines samples cs) (Sh : Forall (mcu_shape cs) ms) (Ec : nth_error cs k = Some c).
  Let mw := mcus samples (largest (map cs_h cs)).
  Let mh := mcus lines (largest (map cs_v cs)).
  Hypothesis Lm : lenZ ms = mh * mw.
  Hypothesis (P : plane_from lines samples cs ms k c q p) (P' : plane_from lines samples cs ms' k c q p').
  Hypothesis MI : mirrored_mcus (factors cs) mw mh ms ms'.
  Hypothesis MD : forall m bs, In m ms -> nth_error m k = Some bs -> Forall (modest q) bs.
  Let W := plane_stride samples cs c.
  Lemma plane_mirrored : forall y x, 0 <= y < plane_rows lines cs c -> 0 <= x < W -> near 1 (px p' W y x) (px p W y (W - 1 - x)).
  Proof using HO Sh Ec Lm P P' MI MD.
    intros y x Hy Hx. destruct P as [_ R]. destruct P' as [_ R']. destruct HO as [_ _ Ne _ _ X]. rewrite Forall_forall in X. destruct (X c (nth_error_In _ _ Ec)) as [Fh Fv].
    assert (QI : exists m, In m ms /\ In (q_at ms mw k (cs_h c) (cs_v c) y (W - 1 - x)) (nth k m [])) by (apply (q_at_in lines samples cs ms k c y (W - 1 - x) HO Sh Lm Ec Hy); fold W; lia).
    destruct (R y (W - 1 - x)) as [blk [qt [rows [V [N [D E]]]]]]; [exact Hy|fold W; lia|]. destruct (R' y x Hy Hx) as [blk' [qt' [rows' [V' [N' [D' E']]]]]]. fold W in E, E'. rewrite E, E'. clear R R' E E'.
    cbv zeta in V, V'. fold mw in V, V'. assert (qt' = qt) by (eapply order_unique; eassumption). subst qt'.
    assert (HW : W = 8 * (mw * cs_h c)) by reflexivity. clearbody W. subst W.
    destruct (mirror_bounds (cs_h c) mw x ltac:(lia) Hx) as [B1 B2].
    assert (Hr : 0 <= mcu_row (cs_v c) y < mh) by (unfold mcu_row; unfold plane_rows in Hy; fold mh in Hy; split; [apply Z.div_pos; lia|apply Z.div_lt_upper_bound; lia]).
    pose proof (Z.mod_pos_bound y (8 * cs_v c) ltac:(lia)) as Ym.
    assert (Hb : 0 <= y mod (8 * cs_v c) / 8 < cs_v c) by (split; [apply Z.div_pos; lia|apply Z.div_lt_upper_bound; lia]).
    assert (U : mirrored_block (q_at ms mw k (cs_h c) (cs_v c) y (8 * (mw * cs_h c) - 1 - x)) (q_at ms' mw k (cs_h c) (cs_v c) y x)).
    { unfold q_at, block_no. rewrite (mirror_col (cs_h c) mw x), (mirror_in (cs_h c) mw x) by (try exact Hx; lia).
      assert (Ef : nth_error (factors cs) k = Some (cs_h c, cs_v c)) by (unfold factors; rewrite nth_error_map, Ec; reflexivity).
      pose proof (MI (mcu_row (cs_v c) y) (mw - 1 - mcu_col (cs_h c) x) k _ _ Hr ltac:(lia) Ef (y mod (8 * cs_v c) / 8) (cs_h c - 1 - x mod (8 * cs_h c) / 8) Hb ltac:(lia)) as G.
      replace (mw - 1 - (mw - 1 - mcu_col (cs_h c) x)) with (mcu_col (cs_h c) x) in G by lia.
      replace (cs_h c - 1 - (cs_h c - 1 - x mod (8 * cs_h c) / 8)) with (x mod (8 * cs_h c) / 8) in G by lia. exact G. }
    assert (Mo : modest q (q_at ms mw k (cs_h c) (cs_v c) y (8 * (mw * cs_h c) - 1 - x))).
    { destruct QI as [m [Im Iq]]. destruct (nth_error m k) as [bs|] eqn:Eb.
      - rewrite (nth_error_nth _ _ _ Eb) in Iq. specialize (MD m bs Im Eb). rewrite Forall_forall in MD. apply MD. exact Iq.
      - apply nth_error_None in Eb. rewrite nth_overflow in Iq by exact Eb. destruct Iq. }
    pose proof (Z.mod_pos_bound y 8 ltac:(lia)). pose proof (Z.mod_pos_bound x 8 ltac:(lia)).
    pose proof (block_mirror q _ _ _ _ _ _ _ U Mo V V' N (D true) (D' true) (Z.to_nat (y mod 8)) (Z.to_nat (x mod 8)) ltac:(lia) ltac:(lia)) as G.
    unfold in_block. rewrite (mirror_8 (cs_h c) mw x) by (try exact Hx; lia). replace (Z.to_nat (7 - x mod 8)) with (7 - Z.to_nat (x mod 8))%nat by lia. exact G.
  Qed.
End Plane.

(** ** What is drawn *)
Lemma mirror_neighbour : forall w x, 0 <= x < 2 * w -> neighbour (w - 1) (2 * w - 1 - x) = w - 1 - neighbour (w - 1) x.
Proof.
  intros w x H. rewrite !neighbour_parity. pose proof (Z.div_mod x 2 ltac:(lia)). pose proof (Z.mod_pos_bound x 2 ltac:(lia)).
  pose proof (Z.div_mod (2 * w - 1 - x) 2 ltac:(lia)). pose proof (Z.mod_pos_bound (2 * w - 1 - x) 2 ltac:(lia)).
  destruct (x mod 2 =? 0) eqn:E; destruct ((2 * w - 1 - x) mod 2 =? 0) eqn:E'; lia.
Qed.
Lemma mirror_div : forall f w x, 1 <= f -> 0 <= x < f * w -> (f * w - 1 - x) / f = w - 1 - x / f.
Proof. intros f w x Hf Hx. pose proof (Z.div_mod x f ltac:(lia)). pose proof (Z.mod_pos_bound x f ltac:(lia)). symmetry. apply Z.div_unique with (r := f - 1 - x mod f); lia. Qed.

Lemma shown_mirror : forall hr vr p p' stride w h row x, 1 <= hr -> 1 <= vr -> 0 <= row < vr * h -> 0 <= x < hr * w ->
  (forall y c, 0 <= y < h -> 0 <= c < w -> near 1 (px p' stride y c) (px p stride y (w - 1 - c))) -> near 1 (shown hr vr p' stride w h row x) (shown hr vr p stride w h row (hr * w - 1 - x)).
Proof.
  intros hr vr p p' stride w h row x Hh Hv R X B.
  assert (Ry : 0 <= row / vr < h) by (split; [apply Z.div_pos; lia|apply Z.div_lt_upper_bound; lia]).
  assert (Rx : 0 <= x / hr < w) by (split; [apply Z.div_pos; lia|apply Z.div_lt_upper_bound; lia]).
  assert (NB : forall last i, 0 <= i -> i / 2 <= last -> 0 <= neighbour last i <= last).
  { intros last i Hi Hl. rewrite neighbour_parity. destruct (i mod 2 =? 0); lia. }
  pose proof (mirror_div hr w x Hh X) as MD. unfold shown, double_width, double_height, double_both.
  destruct ((hr =? 1) && (vr =? 1)) eqn:K1.
  { assert (hr = 1) by lia. assert (vr = 1) by lia. subst. rewrite !Z.div_1_r in *. rewrite Z.mul_1_l. apply B; lia. }
  destruct ((hr =? 2) && (vr =? 1)) eqn:K2.
  { assert (hr = 2) by lia. assert (vr = 1) by lia. subst. rewrite !Z.div_1_r in *. rewrite MD, mirror_neighbour by lia. pose proof (NB (w - 1) x ltac:(lia) ltac:(lia)) as N1.
    pose proof (B row (x / 2) ltac:(lia) ltac:(lia)). pose proof (B row (neighbour (w - 1) x) ltac:(lia) ltac:(lia)). unfold near in *. clear - H H0. lia. }
  destruct ((hr =? 1) && (vr =? 2)) eqn:K3.
  { assert (hr = 1) by lia. assert (vr = 2) by lia. subst. rewrite !Z.div_1_r in *. rewrite Z.mul_1_l in *. pose proof (NB (h - 1) row ltac:(lia) ltac:(lia)) as N1.
    pose proof (B (row / 2) x ltac:(lia) ltac:(lia)). pose proof (B (neighbour (h - 1) row) x ltac:(lia) ltac:(lia)). unfold near in *. clear - H H0. lia. }
  destruct ((hr =? 2) && (vr =? 2)) eqn:K4.
  { assert (hr = 2) by lia. assert (vr = 2) by lia. subst. rewrite MD, mirror_neighbour by lia. pose proof (NB (h - 1) row ltac:(lia) ltac:(lia)) as N1. pose proof (NB (w - 1) x ltac:(lia) ltac:(lia)) as N3.
    pose proof (B (row / 2) (x / 2) ltac:(lia) ltac:(lia)) as H1. pose proof (B (neighbour (h - 1) row) (x / 2) ltac:(lia) ltac:(lia)) as H2.
    pose proof (B (row / 2) (neighbour (w - 1) x) ltac:(lia) ltac:(lia)) as H3. pose proof (B (neighbour (h - 1) row) (neighbour (w - 1) x) ltac:(lia) ltac:(lia)) as H4. unfold near in *. clear - H1 H2 H3 H4. lia. }
  rewrite MD. apply B; auto; lia.
Qed.

Section Drawn.
  Variables (rayon : bool) (lines samples : Z) (cs : list comp_spec) (c : comp_spec) (y x : Z).
  Hypothesis (HO : header_ok lines samples cs) (I : In c cs) (A : ratios_accepted lines samples cs c) (Hy : 0 <= y < lines) (Hx : 0 <= x < samples).
  Hypothesis WH : samples mod (8 * largest (map cs_h cs)) = 0.
  Let row := shown_row rayon (largest (map cs_v cs)) y.
  Lemma drawn_mirrored : forall p p',
    (forall y x, 0 <= y < plane_rows lines cs c -> 0 <= x < plane_stride samples cs c ->
       near 1 (px p' (plane_stride samples cs c) y x) (px p (plane_stride samples cs c) y (plane_stride samples cs c - 1 - x))) ->
    near 1 (comp_drawn lines samples cs c p' row x) (comp_drawn lines samples cs c p row (samples - 1 - x)).
  Proof using HO I A Hy Hx WH.
    intros p p' B. pose proof (row_range rayon lines samples cs y HO Hy) as Rw. fold row in Rw. destruct A as (A1 & A2 & _).
    destruct HO as [_ _ Ne _ _ X]. rewrite Forall_forall in X.
    assert (Fh : 1 <= cs_h c <= largest (map cs_h cs)) by (destruct (X c I); pose proof (largest_ge (map cs_h cs) (cs_h c) (in_map cs_h cs c I)); lia).
    assert (Fv : 1 <= cs_v c <= largest (map cs_v cs)) by (destruct (X c I); pose proof (largest_ge (map cs_v cs) (cs_v c) (in_map cs_v cs c I)); lia).
    destruct (covered lines _ _ row Rw Fv A2) as [H3 H4]. pose proof (extent_le lines _ _ ltac:(lia) Fv) as X2.
    set (hm := largest (map cs_h cs)) in *. pose proof (Z.div_mod samples (8 * hm) ltac:(lia)) as Ds. rewrite WH, Z.add_0_r in Ds. set (K := samples / (8 * hm)) in *.
    assert (K1 : 1 <= K) by (clearbody K hm; nia).
    assert (Sn : samples <> 1) by (clearbody K hm; nia).
    assert (Df : hm mod cs_h c = 0) by (destruct A1; [lia|assumption]).
    pose proof (Z.div_mod hm (cs_h c) ltac:(lia)) as Dh. rewrite Df, Z.add_0_r in Dh. set (f := hm / cs_h c) in *.
    assert (Hf : 1 <= f) by (clearbody f; nia).
    assert (Em : mcus samples hm = K).
    { unfold mcus, ceil_div. rewrite Ds. symmetry. apply Z.div_unique with (r := 8 * hm - 1); lia. }
    assert (Ew : extent samples (cs_h c) hm = 8 * (K * cs_h c)).
    { unfold extent, ceil_div. rewrite Ds. symmetry. apply Z.div_unique with (r := hm - 1); lia. }
    assert (Es : plane_stride samples cs c = 8 * (K * cs_h c)) by (unfold plane_stride; fold hm; rewrite Em; reflexivity).
    assert (Eh : h_ratio samples cs c = f) by (unfold h_ratio, ratio; fold hm; destruct (Z.eqb_spec samples 1); [lia|reflexivity]).
    assert (Sf : samples = f * (8 * (K * cs_h c))) by (rewrite Ds, Dh; ring).
    assert (Q : f * (samples / f) = samples).
    { rewrite Sf at 1. rewrite (Z.mul_comm f (8 * _)), Z.div_mul by lia. rewrite Sf. reflexivity. }
    unfold comp_drawn. cbv zeta. fold hm. fold f. rewrite Q. replace (samples <=? x) with false by lia. replace (samples <=? samples - 1 - x) with false by lia. rewrite !andb_false_r.
    unfold comp_shown. fold hm. rewrite Eh, Ew, Es. rewrite Es in B. assert (Ex : samples - 1 - x = f * (8 * (K * cs_h c)) - 1 - x) by (rewrite <- Sf; reflexivity). rewrite Ex.
    apply shown_mirror; [exact Hf|exact H3|split; [apply Rw|exact H4]|rewrite <- Sf; exact Hx|].
    intros y' x' Hy' Hx'. apply B; [|exact Hx']. unfold plane_rows. clear - Hy' X2. lia.
  Qed.
End Drawn.

(** ** Files *)
Lemma mirror_any : forall dbg rayon segs h fill1 fill2 ss ts data post fill3 segs' h' fill1' fill2' ss' ts' data' post' fill3' qs ms ms' img,
  encodes segs h ss ts qs ms data -> encodes segs' h' ss' ts' qs ms' data' -> post_ok post -> post_ok post' ->
  let cs := fh_comps h in let lines := fh_lines h in let samples := fh_samples h in let fs := map (fun c => (cs_h c, cs_v c)) cs in
  fh_lines h' = lines -> fh_samples h' = samples -> 0 < lines -> 0 < samples ->
  map (fun c => (cs_h c, cs_v c)) (fh_comps h') = fs ->
  last_transform (segs' ++ post') = last_transform (segs ++ post) ->
  samples mod (8 * largest (map fst fs)) = 0 -> mirrored_mcus fs (mcus samples (largest (map fst fs))) (mcus lines (largest (map snd fs))) ms ms' -> all_modest qs ms ->
  let file := file_bytes segs fill1 fill2 (mkSpS ss 0 63 0 0) data post fill3 in
  let file' := file_bytes segs' fill1' fill2' (mkSpS ss' 0 63 0 0) data' post' fill3' in
  bytes file -> bytes file' -> decode_fresh dbg rayon file = Ok img ->
  exists img', decode_fresh dbg rayon file' = Ok img' /\
    forall y x, 0 <= y < lines -> 0 <= x < samples ->
      Forall2 (fun a b => Z.abs (a - b) <= if lenZ cs =? 4 then 1 else 3) (pixel (lenZ cs) samples y x img') (pixel (lenZ cs) samples y (samples - 1 - x) img).
Proof.
  intros dbg rayon segs h fill1 fill2 ss ts data post fill3 segs' h' fill1' fill2' ss' ts' data' post' fill3' qs ms ms' img En En' PO PO' cs lines samples fs El Es L0 S0 Ef Et M8 MI MD file file' B B' D.
  assert (HO : header_ok lines samples cs) by (apply (sof_ok segs h (en_segs _ _ _ _ _ _ _ En)); rewrite (en_frame _ _ _ _ _ _ _ En); left; reflexivity).
  assert (Fh : map fst fs = map cs_h cs) by (unfold fs; rewrite map_map; reflexivity). assert (Fv : map snd fs = map cs_v cs) by (unfold fs; rewrite map_map; reflexivity). rewrite Fh in M8, MI. rewrite Fv in MI.
  destruct (file_answer dbg rayon segs h fill1 fill2 ss ts qs ms data post fill3 En L0 S0 PO B) as [ps [Lp [PL FA]]].
  destruct (file_answer dbg rayon segs' h' fill1' fill2' ss' ts' qs ms' data' post' fill3' En' ltac:(lia) ltac:(lia) PO' B') as [ps' [Lp' [PL' FA']]].
  fold file in FA. fold file' in FA'. rewrite D in FA. rewrite Et, El, Es in FA'. rewrite El, Es in PL'.
  fold (factors (fh_comps h')) in Ef. change fs with (factors cs) in Ef, MI. fold cs lines samples in FA, PL. set (cs' := fh_comps h') in *.
  assert (Lc : length cs = length cs') by (rewrite <- (map_length (fun c => (cs_h c, cs_v c)) cs); change (map (fun c => (cs_h c, cs_v c)) cs) with (factors cs); rewrite <- Ef; unfold factors; apply map_length).
  assert (Eh : map cs_h cs' = map cs_h cs) by (rewrite !factors_h, Ef; reflexivity). assert (Ev : map cs_v cs' = map cs_v cs) by (rewrite !factors_v, Ef; reflexivity).
  destruct (same_conditions _ _ _ _ _ _ _ _ _ _ Ef FA FA') as [img' D']. exists img'. split; [exact D'|]. rewrite D' in FA'. intros y x Hy Hx.
  apply (pixels_near rayon lines samples cs ps cs' ps' _ img img' y (samples - 1 - x) x FA FA' Lc Hy ltac:(lia) Hx).
  intros A k c c' p p' Ec Ec' Ep Ep'.
  destruct (PL k c Ec) as [q [p1 [Eq [E1 Fp]]]]. destruct (PL' k c' Ec') as [q' [p1' [Eq' [E1' Fp']]]]. assert (p1 = p) by congruence. assert (p1' = p') by congruence. assert (q' = q) by congruence. subst p1 p1' q'.
  destruct (factors_nth _ _ _ _ _ (eq_sym Ef) Ec Ec') as [Hh Hv]. apply (plane_factors _ _ cs cs' ms' k c c' q p' (eq_sym Ef) Hh Hv) in Fp'.
  assert (Ic : In c cs) by exact (nth_error_In _ _ Ec).
  assert (Ed : forall row x, comp_drawn lines samples cs' c' p' row x = comp_drawn lines samples cs c p' row x).
  { intros row x1. unfold comp_drawn, comp_shown, h_ratio, v_ratio, plane_stride. rewrite Eh, Ev, Hh, Hv. reflexivity. }
  rewrite Ed, Ev. rewrite Forall_forall in A.
  apply drawn_mirrored; auto. intros y1 x1 Hy1 Hx1.
  refine (plane_mirrored lines samples cs ms ms' k c q p p' HO (en_mcus _ _ _ _ _ _ _ En) Ec (en_count _ _ _ _ _ _ _ En) Fp Fp' MI _ y1 x1 Hy1 Hx1).
  intros m bs Im Eb. exact (MD m k q bs Im Eq Eb).
Qed.

(** ** Mirroring as a function *)
Lemma mirror_mirrored : forall b, mirrored_block b (mirror_block b).
Proof.
  intros b [|i] Hi; [reflexivity|]. unfold coef at 1. cbn [nth mirror_block q_ac q_dc].
  set (f := fun i : nat => if Nat.odd (snd (nth i zigzag (0, 0)%nat)) then - coef b i else coef b i).
  rewrite (nth_indep _ 0 (f 0%nat)) by (rewrite map_length, seq_length; lia). rewrite map_nth, seq_nth by lia. reflexivity.
Qed.
Lemma mirror_q_ok : forall b, q_ok b -> q_ok (mirror_block b).
Proof.
  intros b (H1 & H2 & H3). split; [exact H1|]. split; [reflexivity|]. unfold mirror_block. cbn [q_ac]. apply Forall_forall. intros v Hv. apply in_map_iff in Hv. destruct Hv as [i [<- Hi]]. apply in_seq in Hi.
  assert (C : -32767 <= coef b i <= 32767). { unfold coef. destruct i as [|i]; [lia|]. cbn [nth]. rewrite Forall_forall in H3. apply H3. apply nth_In. lia. }
  destruct (Nat.odd _); lia.
Qed.
(** Position [i] of rows of [w] after reversal of its row. *)
Lemma reversed_range : forall w n i, 0 <= w -> 0 <= i < w * n -> 0 <= i / w * w + (w - 1 - i mod w) < w * n.
Proof.
  intros w n i W H. assert (W0 : w <> 0) by (intros ->; lia). pose proof (Z.div_mod i w ltac:(lia)). pose proof (Z.mod_pos_bound i w ltac:(lia)).
  assert (0 <= i / w < n) by (split; [apply Z.div_pos; lia|apply Z.div_lt_upper_bound; lia]). nia.
Qed.
Lemma mapped_nth : forall A (f : Z -> A) n i d, 0 <= i < n -> nth (Z.to_nat i) (map f (zrange n)) d = f i.
Proof. intros A f n i d H. rewrite (nth_indep _ d (f 0)) by (rewrite map_length; pose proof (zrange_length n) as ZL; unfold lenZ in ZL; lia). rewrite map_nth, zrange_nth by exact H. reflexivity. Qed.
Lemma mirror_blocks_ok : forall h v bs, mirrored_blocks h v bs (mirror_blocks (h, v) bs).
Proof.
  intros h v bs r c Hr Hc. unfold mirror_blocks. cbn [fst snd].
  assert (B : 0 <= r * h + (h - 1 - c) < h * v) by nia. rewrite mapped_nth by exact B.
  assert (Q1 : (r * h + (h - 1 - c)) / h = r) by (symmetry; apply Z.div_unique with (r := h - 1 - c); lia).
  assert (Q2 : (r * h + (h - 1 - c)) mod h = h - 1 - c) by (symmetry; apply Z.mod_unique with (q := r); lia).
  rewrite Q1, Q2. replace (h - 1 - (h - 1 - c)) with c by lia. apply mirror_mirrored.
Qed.
Lemma mirror_mcu_nth : forall fs m k h v, nth_error fs k = Some (h, v) -> length fs = length m -> nth k (mirror_mcu fs m) [] = mirror_blocks (h, v) (nth k m []).
Proof. induction fs as [|f fs IH]; intros [|bs m] [|k] h v E L; cbn in *; try discriminate; [inv E; reflexivity|]. apply IH; [exact E|lia]. Qed.
Lemma shape_length : forall (fs : list (Z * Z)) (m : mcu), Forall2 (fun f qs => lenZ qs = fst f * snd f) fs m -> length fs = length m.
Proof. intros fs m H. induction H; cbn; congruence. Qed.

Section Mirror.
  Variable im : image.
  Hypothesis OK : image_ok im.
  Let w := mcus (im_samples im) (largest (map fst (im_factors im))).
  Let h := mcus (im_lines im) (largest (map snd (im_factors im))).
  Lemma mirror_wh : 0 <= w /\ 0 <= h.
  Proof using OK.
    assert (G : forall n l, 0 <= n -> 0 <= mcus n (largest l)).
    { intros n l H. unfold mcus, ceil_div. assert (0 <= largest l) by (unfold largest; induction l; cbn [fold_right]; lia). destruct (Z.eq_dec (largest l) 0) as [->|]; [rewrite Zdiv_0_r; lia|]. apply Z.div_pos; lia. }
    split; apply G; [apply (io_samples im OK)|apply (io_lines im OK)].
  Qed.
  Lemma mirror_at : forall i, 0 <= i < h * w -> In (nth (Z.to_nat (i / w * w + (w - 1 - i mod w))) (im_mcus im) []) (im_mcus im).
  Proof using OK.
    intros i Hi. apply nth_In. pose proof (io_count im OK) as C. fold w h in C. unfold lenZ in C. pose proof (reversed_range w h i (proj1 mirror_wh) ltac:(lia)). lia.
  Qed.
  Lemma mirror_ok : image_ok (mirror im).
  Proof using OK.
    assert (MS : forall m, In m (im_mcus (mirror im)) -> exists m0, In m0 (im_mcus im) /\ m = mirror_mcu (im_factors im) m0).
    { intros m Im. unfold mirror in Im. cbn [im_mcus] in Im. fold w h in Im. apply in_map_iff in Im. destruct Im as [i [<- Hi]]. eexists. split; [|reflexivity].
      apply mirror_at. unfold zrange in Hi. apply in_map_iff in Hi. destruct Hi as [k [<- Hk]]. apply in_seq in Hk. lia. }
    assert (LB : forall h v bs, 0 <= h * v -> lenZ (mirror_blocks (h, v) bs) = h * v).
    { intros h0 v0 bs H. unfold mirror_blocks. cbn [fst snd]. unfold lenZ. rewrite map_length. pose proof (zrange_length (h0 * v0)) as ZL. unfold lenZ in ZL. lia. }
    split; try apply OK.
    - apply Forall_forall. intros m Im. destruct (MS m Im) as [m0 [I0 ->]]. pose proof (io_shape im OK) as S. rewrite Forall_forall in S. specialize (S m0 I0). clear - S LB.
      change (im_factors (mirror im)) with (im_factors im). induction S as [|[a b] qs fs m0 H S IH]; cbn [mirror_mcu]; constructor; [|exact IH]. cbn [fst snd] in *. apply LB. rewrite <- H. unfold lenZ. lia.
    - apply Forall_forall. intros m Im. destruct (MS m Im) as [m0 [I0 ->]]. pose proof (io_coefs im OK) as S. pose proof (io_shape im OK) as S2. pose proof (io_factors im OK) as Fa. rewrite Forall_forall in S, S2. specialize (S m0 I0). specialize (S2 m0 I0). clear - S S2 Fa.
      induction S2 as [|[a b] qs fs m0 H S2 IH]; cbn [mirror_mcu]; [constructor|]. inversion S as [|? ? Q1 Q2]; subst. inversion Fa as [|? ? F1 F2]; subst. constructor; [|exact (IH Q2 F2)]. cbn [fst snd] in H.
      apply Forall_forall. intros x Ix. unfold mirror_blocks in Ix. cbn [fst snd] in Ix. apply in_map_iff in Ix. destruct Ix as [i [<- Hi]]. apply mirror_q_ok.
      rewrite Forall_forall in Q1. apply Q1. apply nth_In. unfold zrange in Hi. apply in_map_iff in Hi. destruct Hi as [j [<- Hj]]. apply in_seq in Hj. unfold lenZ in H.
      cbn [fst snd] in F1. pose proof (reversed_range a b (Z.of_nat j) ltac:(lia) ltac:(lia)). lia.
    - change (im_lines (mirror im)) with (im_lines im). change (im_factors (mirror im)) with (im_factors im). change (im_samples (mirror im)) with (im_samples im). fold w h.
      unfold mirror. cbn [im_mcus]. fold w h. unfold lenZ. rewrite map_length. pose proof (zrange_length (h * w)) as ZL. unfold lenZ in ZL. rewrite ZL. pose proof mirror_wh. clearbody w h. nia.
  Qed.
  Lemma mirror_mcus : mirrored_mcus (im_factors im) w h (im_mcus im) (im_mcus (mirror im)).
  Proof using OK.
    intros r c k a b Hr Hc Ef. unfold mirror. cbn [im_mcus]. fold w h.
    assert (B : 0 <= r * w + (w - 1 - c) < h * w) by (clearbody w h; nia).
    set (f := fun i => mirror_mcu (im_factors im) (nth (Z.to_nat (i / w * w + (w - 1 - i mod w))) (im_mcus im) [])).
    assert (E : nth (Z.to_nat (r * w + (w - 1 - c))) (map f (zrange (h * w))) [] = f (r * w + (w - 1 - c))) by (apply mapped_nth; exact B).
    refine (eq_ind_r (fun m => mirrored_blocks a b _ (nth k m [])) _ E). unfold f.
    assert (Q1 : (r * w + (w - 1 - c)) / w = r) by (symmetry; apply Z.div_unique with (r := w - 1 - c); lia).
    assert (Q2 : (r * w + (w - 1 - c)) mod w = w - 1 - c) by (symmetry; apply Z.mod_unique with (q := r); lia).
    rewrite Q1, Q2. replace (w - 1 - (w - 1 - c)) with c by lia.
    assert (L : length (im_factors im) = length (nth (Z.to_nat (r * w + c)) (im_mcus im) [])).
    { apply shape_length. pose proof (io_shape im OK) as S. rewrite Forall_forall in S. apply S. apply nth_In. pose proof (io_count im OK) as C. fold w h in C. unfold lenZ in C. clearbody w h. nia. }
    rewrite (mirror_mcu_nth _ _ _ _ _ Ef L). apply mirror_blocks_ok.
  Qed.
  Lemma mirror_decoded : forall dbg rayon img, im_samples im mod (8 * largest (map fst (im_factors im))) = 0 -> all_modest (im_quant im) (im_mcus im) ->
    0 < im_lines im -> 0 < im_samples im -> decode_fresh dbg rayon (encode im) = Ok img ->
    exists img', decode_fresh dbg rayon (encode (mirror im)) = Ok img' /\
      forall y x, 0 <= y < im_lines im -> 0 <= x < im_samples im ->
        Forall2 (fun a b => Z.abs (a - b) <= if lenZ (im_factors im) =? 4 then 1 else 3)
          (pixel (lenZ (im_factors im)) (im_samples im) y x img') (pixel (lenZ (im_factors im)) (im_samples im) y (im_samples im - 1 - x) img).
  Proof using OK.
    intros dbg rayon img M8 MD L0 S0 D.
    assert (Fc : map (fun c => (cs_h c, cs_v c)) (enc_comps 0 (im_factors im)) = im_factors im).
    { clear. generalize 0. induction (im_factors im) as [|[a b] fs IH]; intros i; [reflexivity|]. cbn [enc_comps map cs_h cs_v]. rewrite IH. reflexivity. }
    assert (Lc : lenZ (enc_comps 0 (im_factors im)) = lenZ (im_factors im)) by (unfold lenZ; rewrite <- Fc at 2; rewrite map_length; reflexivity).
    assert (Et : last_transform (enc_segs (mirror im) ++ []) = last_transform (enc_segs im ++ [])) by reflexivity.
    pose proof (mirror_any dbg rayon (enc_segs im) (enc_header im) 0 0 (enc_ss im) _ (enc_data im) [] 0 (enc_segs (mirror im)) (enc_header (mirror im)) 0 0 (enc_ss (mirror im)) _ (enc_data (mirror im)) [] 0
      (im_quant im) (im_mcus im) (im_mcus (mirror im)) img (enc_encodes im OK) (enc_encodes (mirror im) mirror_ok) no_post no_post) as F.
    change (fh_comps (enc_header (mirror im))) with (enc_comps 0 (im_factors im)) in F. change (fh_comps (enc_header im)) with (enc_comps 0 (im_factors im)) in F. cbv zeta in F. rewrite Fc, Lc in F.
    exact (F eq_refl eq_refl L0 S0 eq_refl Et M8 mirror_mcus MD (enc_bytes im OK) (enc_bytes (mirror im) mirror_ok) D).
  Qed.
End Mirror.
