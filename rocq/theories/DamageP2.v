(** Files whose scan data is only partly intact. *)
From Verif Require Import Base Tactics SpecColor SpecBits SpecReader SpecHuffman SpecBlock SpecTables Biterator BitsP Readers ReadersP Huffman HuffmanP3 Marker SpecMarker MarkerP Types Idct IdctP Upsampler Parsers Decode SpecFrame SpecSegments SpecScan SpecPlane SpecUpsample SpecImage SpecFile SpecAnswer SpecLimits SpecDamage
  BlockP PlaneP SegmentsP SafeP InvP ScanP RestartP PlacedP EncodeP SpecGlobal GlobalP ExtP SpecStream StreamP StreamP2 RowP UpsampleP ImageP FileP CorruptP AnswerP AnswerP2 AnswerP3 ReuseP DamageP.

Lemma need_before : forall cs, need cs = blocks_before cs (length cs).
Proof. intros cs. unfold blocks_before. rewrite firstn_all. reflexivity. Qed.

(** ** The coefficients that the scan delivers *)
Lemma scan_seen : forall dbg fmk pr lines samples cs ts qts r dq sc d2 known data tail log d3 b3,
  header_ok lines samples cs -> lenZ cs <= 4 -> (blocks_before cs (length cs) <= 10)%nat -> 0 <= fmk <= 1 ->
  let fr := frame_of fmk pr lines samples cs in
  scan_start dbg fr ts qts r dq sc d2 -> 0 <= r -> marker_tail tail -> bytes tail ->
  Forall (known_shape cs) known -> lenZ known = mcus lines (largest (map cs_v cs)) * mcus samples (largest (map cs_h cs)) ->
  scan_part ts r 0 known data ->
  mcus_read dbg (mcu_list (f_mcu fr)) d2 (mkBiter (data ++ tail) 0 0) log d3 b3 -> Forall2 seen known log.
Proof.
  intros dbg fmk pr lines samples cs ts qts r dq sc d2 kn data tail log d3 b3 HO L4 Few Fm fr (Fr & Sc & S0 & S1 & S2 & RD & Qe & Re & SI & _ & Qts) R0 MT BT Sh Lm SD MR. subst qts r.
  assert (FG : frame_good fr) by (exists fmk, pr, lines, samples, cs; split; [reflexivity|exact HO]).
  destruct (frame_fits fr FG) as [_ [W0 [H0 _]]].
  assert (Lts : length ts = length cs).
  { assert (G : length ts = length (f_components fr)) by (clear - RD; induction RD; cbn; auto). rewrite G. unfold fr, frame_of. cbn [f_components]. apply map_length. }
  apply (parts_read dbg dq fr sc ts) with (tail := tail) (n := 0) (data := data) (pre := @nil (Z * Z)) (todo := mcu_list (f_mcu fr)) (d := d2) (d' := d3) (b' := b3); auto.
  - lia.
  - unfold fr. rewrite total_before by exact HO. exact Few.
  - unfold fr, frame_of. cbn [f_components]. apply Forall_forall. intros c Ic. apply in_map_iff in Ic. destruct Ic as [c0 [<- Ic]]. unfold blocks_in. cbn [c_blocks_per_mcu c_v c_h].
    destruct HO as [_ _ _ _ _ HF]. rewrite Forall_forall in HF. destruct (HF c0 Ic). rewrite Z2Nat.inj_mul by lia. lia.
  - unfold coding_process, fr, frame_of. cbn [f_marker]. assert (O : fmk = 0 \/ fmk = 1) by lia. destruct O as [-> | ->]; cbn; auto.
  - unfold lenZ in L4. lia.
  - lia.
  - pose proof (mcu_length (f_mcu fr) H0 W0) as ML. unfold lenZ in ML, Lm. unfold fr, frame_of in ML. cbn [f_mcu dim_h dim_w] in ML. unfold fr, frame_of. cbn [f_mcu]. lia.
  - eapply Forall_impl; [|exact Sh]. intros k Hk m Em. apply shape_fits. exact (Hk m Em).
  - destruct (init_counts _ _ _ SI R0) as [_ [C2 [C3 C4]]]. constructor; auto.
    + exists (repeat 0 (4 - length ts)). unfold lenZ in L4. split; [|unfold zeros; rewrite map_length, repeat_length; lia]. rewrite C2. unfold zeros.
      clear - Lts L4. destruct ts as [|a [|b [|c [|e [|f l]]]]]; try reflexivity. cbn in Lts. lia.
    + unfold scan_init in SI. rewrite Fr, Sc in SI.
      destruct (if s_start sc =? 0 then _ else _) as [u| | |]; try discriminate. cbn [bind] in SI. destruct u; [discriminate|].
      destruct (if 1 <? s_end sc then _ else _) as [u| | |]; try discriminate. cbn [bind] in SI. destruct u; [discriminate|].
      destruct (assert_ (lenZ (f_components fr) <=? 4) PCapacity) as [u| | |]; try discriminate. cbn [bind] in SI. inv SI. cbn [set_ss d_ss ss_results].
      eapply covered_sized. apply covered_start. exact FG.
  - intros _. destruct (init_counts _ _ _ SI R0) as [C [_ [_ [x E]]]]. rewrite E in C at 1. exact C.
Qed.

(** ** The planes *)
Lemma planes_from : forall lines samples cs qs log planes ms, header_ok lines samples cs ->
  Forall2 logged log ms -> Forall (mcu_shape cs) ms -> lenZ ms = mcus lines (largest (map cs_v cs)) * mcus samples (largest (map cs_h cs)) ->
  placed lines samples cs qs log planes -> Forall2 (plane_for lines samples cs) cs (map (map known) planes) ->
  forall k c, nth_error cs k = Some c -> exists q p, nth_error qs k = Some q /\ nth_error (map (map known) planes) k = Some p /\ plane_from lines samples cs ms k c q p.
Proof.
  intros lines samples cs qs log planes ms HO LG Sh Lm PL PF k c Ec. destruct (PL k c Ec) as [p [qt [q [Ep [Eq [NO [Lpp Sp]]]]]]]. clear PL.
  set (mw := mcus samples (largest (map cs_h cs))) in *. set (mh := mcus lines (largest (map cs_v cs))) in *.
  assert (En : nth_error (map (map known) planes) k = Some (map known p)) by (apply (map_nth_error (map known)); exact Ep).
  exists q, (map known p). split; [exact Eq|]. split; [exact En|].
  split; [eapply Forall2_get; [exact PF|exact Ec|exact En]|]. unfold plane_rows, plane_stride. fold mw mh.
  intros y x Hy Hx. specialize (Sp y x Hy Hx). set (blk := containing_block log mw (blocks_before cs k) (cs_h c) (cs_v c) y x) in *.
  exists blk, qt, (block_samples blk qt). split; [|split; [exact NO|split; [intros; apply idct_block_total|]]].
  - destruct HO as [_ _ _ _ _ HF]. rewrite Forall_forall in HF. destruct (HF c (nth_error_In _ _ Ec)) as [Hh Hv].
    set (i := Z.to_nat (mcu_row (cs_v c) y * mw + mcu_col (cs_h c) x)).
    assert (Hi0 : 0 <= mcu_row (cs_v c) y < mh /\ 0 <= mcu_col (cs_h c) x < mw).
    { unfold mcu_row, mcu_col. clear - Hh Hv Hy Hx. split; (split; [apply Z.div_pos; lia|apply Z.div_lt_upper_bound; lia]). }
    assert (Hib : (i < length ms)%nat) by (unfold i; unfold lenZ in Lm; clear - Hi0 Lm; nia).
    destruct (nth_error ms i) as [mm|] eqn:Em; [|apply nth_error_None in Em; lia].
    assert (Lg : length log = length ms) by (eapply Forall2_length; exact LG).
    destruct (nth_error log i) as [coefs|] eqn:El; [|apply nth_error_None in El; lia].
    assert (LO : logged coefs mm) by (eapply Forall2_get; eauto).
    assert (SM : mcu_shape cs mm) by (rewrite Forall_forall in Sh; apply Sh; eapply nth_error_In; eauto).
    assert (BN : 0 <= block_no (cs_h c) (cs_v c) y x < cs_h c * cs_v c).
    { unfold block_no. clear - Hh Hv. pose proof (Z.mod_pos_bound y (8 * cs_v c) ltac:(lia)) as A. pose proof (Z.mod_pos_bound x (8 * cs_h c) ltac:(lia)) as B.
      assert (A1 : 0 <= y mod (8 * cs_v c) / 8 < cs_v c) by (split; [apply Z.div_pos; lia|apply Z.div_lt_upper_bound; lia]).
      assert (B1 : 0 <= x mod (8 * cs_h c) / 8 < cs_h c) by (split; [apply Z.div_pos; lia|apply Z.div_lt_upper_bound; lia]).
      clear A B. generalize dependent (y mod (8 * cs_v c) / 8). generalize dependent (x mod (8 * cs_h c) / 8). intros; nia. }
    pose proof (concat_nth cs mm SM (fun c I => ltac:(destruct (HF c I); lia)) k c _ Ec BN) as CN.
    destruct (LO _ _ CN) as [blk' [EB QV]]. assert (X1 : blk = blk') by (unfold blk, containing_block; fold i; rewrite (nth_error_nth _ _ [] El); apply (nth_error_nth _ _ [] EB)).
    assert (X2 : q_at ms mw k (cs_h c) (cs_v c) y x = nth (Z.to_nat (block_no (cs_h c) (cs_v c) y x)) (nth k mm []) (mkQ 0 [])) by (unfold q_at; fold i; f_equal; f_equal; apply nth_error_nth; exact Em).
    cbv zeta. rewrite X1, X2. exact QV.
  - unfold px. rewrite nth_known. unfold sample_at in Sp. rewrite Sp. reflexivity.
Qed.

(** ** The answer *)
Lemma damage_any : forall dbg rayon segs h fill1 fill2 ss ts qs data post fill3 kn,
  header_for segs h ss ts qs -> rst_only data -> post_ok post ->
  let cs := fh_comps h in let lines := fh_lines h in let samples := fh_samples h in 0 < lines -> 0 < samples ->
  let file := file_bytes segs fill1 fill2 (mkSpS ss 0 63 0 0) data post fill3 in bytes file ->
  lenZ kn = mcus lines (largest (map cs_v cs)) * mcus samples (largest (map cs_h cs)) -> Forall (known_shape cs) kn ->
  kn = repeat None (length kn) \/ scan_part ts (last (dris segs) 0) 0 kn data ->
  (exists e, decode_fresh dbg rayon file = Fail e) \/
  exists ms ps, agrees kn ms /\ Forall (mcu_shape cs) ms /\ length ps = length cs /\
    (forall k c, nth_error cs k = Some c -> exists q p, nth_error qs k = Some q /\ nth_error ps k = Some p /\ plane_from lines samples cs ms k c q p) /\
    final_answer rayon lines samples cs ps (last_transform (segs ++ post)) (decode_fresh dbg rayon file).
Proof.
  intros dbg rayon segs h fill1 fill2 ss ts qs data post fill3 kn HF RO PO cs lines samples P1 P2 file B Lm Sh Kn.
  destruct (file_scan dbg rayon segs h fill1 fill2 ss ts qs data post fill3 HF RO PO B) as [[e E]|[d [b [j [dq [sc [d2 [qts [log [d3 [b3 [S7 [Eb [J5 [Fr5 [Co5 [Ep [Lp [PF [SS [MR PL]]]]]]]]]]]]]]]]]]]]]; [left; exists e; exact E|right].
  destruct HF as [F Sf ND L4 Few CC]. destruct (sof_ok segs h F ltac:(rewrite Sf; left; reflexivity)) as [Fm HO]. fold cs lines samples in HO, ND, L4, Few, Fr5, PF, SS, MR, PL, Lp.
  destruct PO as [Fp Sop]. destruct (post_marker post fill3 Fp) as [f [code [more [Et Hc]]]].
  assert (Bf : bytes data /\ bytes (marker_bytes f code ++ more)).
  { unfold bytes in *. unfold file, file_bytes in B. rewrite Et in B. rewrite !Forall_app in B. rewrite Forall_app. tauto. }
  destruct Bf as [Bd Bt].
  assert (MT : marker_tail (marker_bytes f code ++ more)).
  { unfold marker_bytes, marker_tail. exists (match f with O => code | S _ => 255 end), (match f with O => more | S n => (FF n ++ [code]) ++ more end).
    destruct f; cbn; split; try reflexivity; lia. }
  rewrite Et in MR.
  assert (Sn : Forall2 seen kn log).
  { destruct Kn as [Kn|Kn].
    - assert (Ll : length log = length kn).
      { rewrite (reads_length _ _ _ _ _ _ _ MR). destruct (frame_fits _ ltac:(exists (fh_marker h), (fh_precision h), lines, samples, cs; split; [reflexivity|exact HO])) as [_ [W0 [H0 _]]].
        pose proof (mcu_length _ H0 W0) as ML. unfold lenZ in ML, Lm. unfold frame_of in ML. cbn [f_mcu dim_h dim_w] in ML. unfold frame_of. cbn [f_mcu]. lia. }
      rewrite Kn, <- Ll. apply seen_none.
    - exact (scan_seen dbg _ _ lines samples cs ts qts _ dq sc d2 kn data _ log d3 b3 HO L4 Few Fm SS (dri_nonneg segs F) MT Bt Sh Lm Kn MR). }
  assert (DK : dec_ok d2) by (destruct SS as (_ & _ & _ & _ & _ & _ & _ & _ & _ & X & _); exact X).
  assert (S64 : Forall sixty_four log).
  { apply (reads_64 _ _ _ _ _ _ _ MR DK). split; [unfold reader_ok; cbn; lia|cbn [bi_input]; apply Forall_app; split; assumption]. }
  destruct (fill_in cs kn log) as [ms [A1 [A2 A3]]]; auto.
  { intros c Ic. destruct HO as [_ _ _ _ _ X]. rewrite Forall_forall in X. destruct (X c Ic). nia. }
  { rewrite need_before. exact Few. }
  assert (Lm' : lenZ ms = mcus lines (largest (map cs_v cs)) * mcus samples (largest (map cs_h cs))) by (rewrite <- Lm; unfold lenZ; f_equal; symmetry; exact (Forall2_length _ _ _ _ _ A1)).
  exists ms, (map (map known) (d_planes d)). split; [exact A1|]. split; [exact A2|]. split; [rewrite map_length; exact Lp|].
  split; [exact (planes_from lines samples cs qs log (d_planes d) ms HO A3 A2 Lm' PL PF)|].
  assert (TA : final_answer rayon lines samples cs (map (map known) (d_planes d)) (last_transform (segs ++ post)) (upsample_image dbg rayon d)).
  { apply (total_answer dbg rayon d (fh_marker h) (fh_precision h) lines samples cs _ (last_transform (segs ++ post))); auto.
    - unfold lenZ in L4. lia.
    - rewrite Co5. unfold last_transform, color_for. apply last_map_some.
    - apply transforms_small. apply Forall_app. split; [exact F|exact Fp]. }
  rewrite (decode_answers dbg rayon file d j fill3 b B S7 Eb J5); [exact TA|]. apply (answer_not_fuel _ _ _ _ _ _ _ TA).
Qed.

(** ** Partly intact data has no other markers *)
Lemma ro_app : forall a b, rst_only a -> rst_only b -> rst_only (a ++ b).
Proof.
  intros a b H Hb. induction H; cbn [app]; [exact Hb|constructor; auto| |].
  - rewrite <- app_assoc. cbn [app]. apply ro_stuffed. exact IHrst_only.
  - rewrite <- app_assoc. cbn [app]. apply ro_rst; auto.
Qed.
Lemma ro_stuff : forall ds, rst_only (stuff ds).
Proof.
  unfold stuff. induction ds as [|x ds IH]; cbn [flat_map]; [constructor|]. destruct (x =? 255) eqn:E; cbn [app].
  - apply Z.eqb_eq in E. subst x. apply (ro_stuffed 0). exact IH.
  - apply ro_byte; [lia|exact IH].
Qed.
Lemma part_ro : forall ts r n kn data, scan_part ts r n kn data -> 0 <= n < 8 -> rst_only data.
Proof.
  intros ts r n kn data H. induction H as [n kn data Hr [ds [ms [bits [z [B [-> _]]]]]]|n kn data rest data' Hr Hl Ne [ds [ms [bits [z [B [-> _]]]]]] Sd IH]; intros Hn.
  - apply ro_stuff.
  - apply ro_app; [apply ro_stuff|]. apply (ro_rst 0 n); [lia|]. apply IH. apply Z.mod_pos_bound. lia.
Qed.

Lemma damage_contained : forall dbg rayon segs h fill1 fill2 ss ts qs data post fill3 kn,
  header_for segs h ss ts qs -> scan_part ts (last (dris segs) 0) 0 kn data -> post_ok post ->
  let cs := fh_comps h in let lines := fh_lines h in let samples := fh_samples h in 0 < lines -> 0 < samples ->
  let file := file_bytes segs fill1 fill2 (mkSpS ss 0 63 0 0) data post fill3 in bytes file ->
  lenZ kn = mcus lines (largest (map cs_v cs)) * mcus samples (largest (map cs_h cs)) -> Forall (known_shape cs) kn ->
  (exists e, decode_fresh dbg rayon file = Fail e) \/
  exists ms ps, agrees kn ms /\ Forall (mcu_shape cs) ms /\ length ps = length cs /\
    (forall k c, nth_error cs k = Some c -> exists q p, nth_error qs k = Some q /\ nth_error ps k = Some p /\ plane_from lines samples cs ms k c q p) /\
    final_answer rayon lines samples cs ps (last_transform (segs ++ post)) (decode_fresh dbg rayon file).
Proof.
  intros dbg rayon segs h fill1 fill2 ss ts qs data post fill3 kn HF SD PO cs lines samples P1 P2 file B Lm Sh.
  exact (damage_any dbg rayon segs h fill1 fill2 ss ts qs data post fill3 kn HF (part_ro _ _ _ _ _ SD ltac:(lia)) PO P1 P2 B Lm Sh (or_intror SD)).
Qed.

Lemma damage_total : forall dbg rayon segs h fill1 fill2 ss ts qs data post fill3,
  header_for segs h ss ts qs -> rst_only data -> post_ok post ->
  let cs := fh_comps h in let lines := fh_lines h in let samples := fh_samples h in 0 < lines -> 0 < samples ->
  let file := file_bytes segs fill1 fill2 (mkSpS ss 0 63 0 0) data post fill3 in bytes file ->
  (exists e, decode_fresh dbg rayon file = Fail e) \/
  exists ms ps, Forall (mcu_shape cs) ms /\ lenZ ms = mcus lines (largest (map cs_v cs)) * mcus samples (largest (map cs_h cs)) /\ length ps = length cs /\
    (forall k c, nth_error cs k = Some c -> exists q p, nth_error qs k = Some q /\ nth_error ps k = Some p /\ plane_from lines samples cs ms k c q p) /\
    final_answer rayon lines samples cs ps (last_transform (segs ++ post)) (decode_fresh dbg rayon file).
Proof.
  intros dbg rayon segs h fill1 fill2 ss ts qs data post fill3 HF RO PO cs lines samples P1 P2 file B.
  assert (HO : header_ok lines samples cs) by (destruct HF as [F Sf _ _ _ _]; apply (sof_ok segs h F); rewrite Sf; left; reflexivity).
  set (n := mcus lines (largest (map cs_v cs)) * mcus samples (largest (map cs_h cs))).
  assert (N0 : 0 <= n) by (destruct (frame_fits _ ltac:(exists (fh_marker h), (fh_precision h), lines, samples, cs; split; [reflexivity|exact HO])) as [_ [W0 [H0 _]]]; apply Z.mul_nonneg_nonneg; assumption).
  set (kn := repeat (@None mcu) (Z.to_nat n)).
  assert (Lk : lenZ kn = n) by (unfold kn, lenZ; rewrite repeat_length; lia).
  destruct (damage_any dbg rayon segs h fill1 fill2 ss ts qs data post fill3 kn HF RO PO P1 P2 B Lk) as [E|[ms [ps [A [Sh [Lp [PL FA]]]]]]]; [| |left; exact E|right].
  - apply Forall_forall. intros k Ik m Em. apply repeat_spec in Ik. congruence.
  - left. unfold kn. rewrite repeat_length. reflexivity.
  - exists ms, ps. split; [exact Sh|]. split; [rewrite <- Lk; unfold lenZ; f_equal; symmetry; exact (Forall2_length _ _ _ _ _ A)|]. split; [exact Lp|]. split; [exact PL|exact FA].
Qed.

(** ** Intact MCUs are drawn as in the intact file *)
Lemma planes_meet : forall lines samples cs ms ms' k c q p p' y x,
  plane_from lines samples cs ms k c q p -> plane_from lines samples cs ms' k c q p' ->
  0 <= y < plane_rows lines cs c -> 0 <= x < plane_stride samples cs c ->
  let i := Z.to_nat (mcu_row (cs_v c) y * mcus samples (largest (map cs_h cs)) + mcu_col (cs_h c) x) in
  nth i ms [] = nth i ms' [] -> px p (plane_stride samples cs c) y x = px p' (plane_stride samples cs c) y x.
Proof.
  intros lines samples cs ms ms' k c q p p' y x [_ H] [_ H'] Hy Hx i E.
  destruct (H y x Hy Hx) as [blk [qt [rows [V [N [D ->]]]]]]. destruct (H' y x Hy Hx) as [blk' [qt' [rows' [V' [N' [D' ->]]]]]]. clear H H'.
  assert (qt' = qt) by (eapply order_unique; eassumption). subst qt'.
  assert (Q : q_at ms (mcus samples (largest (map cs_h cs))) k (cs_h c) (cs_v c) y x = q_at ms' (mcus samples (largest (map cs_h cs))) k (cs_h c) (cs_v c) y x) by (unfold q_at; fold i; rewrite E; reflexivity).
  cbv zeta in V, V'. rewrite Q in V. assert (blk' = blk) by (eapply order_unique; [exact V'|exact V]). subst blk'.
  assert (rows' = rows) by (specialize (D true); specialize (D' true); congruence). subst. reflexivity.
Qed.
Lemma data_bits : forall ds bits, carries ds bits -> supplies ds bits.
Proof.
  intros ds bits [[pad [E _]]|[C [n ->]]].
  - exists 0%nat. split; [left; reflexivity|]. exists pad. cbn [repeat]. rewrite app_nil_r. exact E.
  - exists n. split; [right; exact C|]. exists []. rewrite app_nil_r. reflexivity.
Qed.
Lemma data_interval : forall ts ms data, interval_data ts ms data -> interval_part ts (map Some ms) data.
Proof. intros ts ms data [ds [bits [B [E [C M]]]]]. exists ds, ms, bits, 0%nat. cbn [repeat]. rewrite app_nil_r. split; [exact B|]. split; [exact E|]. split; [reflexivity|]. split; [exact M|]. apply data_bits. exact C. Qed.

Lemma intact_samples : forall dbg rayon segs h fill1 fill2 ss ts qs ms0 data0 kn data post fill3,
  encodes segs h ss ts qs ms0 data0 -> scan_part ts (last (dris segs) 0) 0 kn data -> agrees kn ms0 -> post_ok post ->
  let cs := fh_comps h in let lines := fh_lines h in let samples := fh_samples h in 0 < lines -> 0 < samples ->
  let whole := file_bytes segs fill1 fill2 (mkSpS ss 0 63 0 0) data0 post fill3 in
  let damaged := file_bytes segs fill1 fill2 (mkSpS ss 0 63 0 0) data post fill3 in bytes whole -> bytes damaged ->
  (exists e, decode_fresh dbg rayon damaged = Fail e) \/
  exists ps0 ps, length ps0 = length cs /\ length ps = length cs /\
    final_answer rayon lines samples cs ps0 (last_transform (segs ++ post)) (decode_fresh dbg rayon whole) /\
    final_answer rayon lines samples cs ps (last_transform (segs ++ post)) (decode_fresh dbg rayon damaged) /\
    forall k c p0 p y x m, nth_error cs k = Some c -> nth_error ps0 k = Some p0 -> nth_error ps k = Some p ->
      0 <= y < plane_rows lines cs c -> 0 <= x < plane_stride samples cs c ->
      nth_error kn (Z.to_nat (mcu_row (cs_v c) y * mcus samples (largest (map cs_h cs)) + mcu_col (cs_h c) x)) = Some (Some m) ->
      px p (plane_stride samples cs c) y x = px p0 (plane_stride samples cs c) y x.
Proof.
  intros dbg rayon segs h fill1 fill2 ss ts qs ms0 data0 kn data post fill3 EN SD AG PO cs lines samples P1 P2 whole damaged B1 B2.
  assert (HF : header_for segs h ss ts qs) by (destruct EN; constructor; assumption).
  destruct (file_answer dbg rayon segs h fill1 fill2 ss ts qs ms0 data0 post fill3 EN P1 P2 PO B1) as [ps0 [L0 [PL0 FA0]]].
  assert (Sh : Forall (known_shape cs) kn).
  { destruct EN as [_ _ _ _ _ _ Sh _ _]. fold cs in Sh. clear - AG Sh. induction AG as [|k m kn ms Hk AG IH]; constructor; inversion Sh; subst; auto. intros m' Em. rewrite <- (Hk m' Em). assumption. }
  assert (Lm : lenZ kn = mcus lines (largest (map cs_v cs)) * mcus samples (largest (map cs_h cs))).
  { destruct EN as [_ _ _ _ _ _ _ Lm _]. fold cs lines samples in Lm. rewrite <- Lm. unfold lenZ. f_equal. exact (Forall2_length _ _ _ _ _ AG). }
  destruct (damage_contained dbg rayon segs h fill1 fill2 ss ts qs data post fill3 kn HF SD PO P1 P2 B2 Lm Sh) as [E|[ms [ps [A [_ [Lp [PL FA]]]]]]]; [left; exact E|right].
  exists ps0, ps. split; [exact L0|]. split; [exact Lp|]. split; [exact FA0|]. split; [exact FA|].
  intros k c p0 p y x m Ec E0 Ep Hy Hx Ek. destruct (PL0 k c Ec) as [q0 [p0' [Q0 [E0' F0]]]]. destruct (PL k c Ec) as [q [p' [Q [Ep' F]]]].
  assert (q0 = q) by congruence. assert (p0' = p0) by congruence. assert (p' = p) by congruence. subst q0 p0' p'.
  apply (planes_meet lines samples cs ms ms0 k c q p p0 y x F F0 Hy Hx). set (i := Z.to_nat _) in *. clearbody i.
  assert (X : forall ms1, agrees kn ms1 -> nth i ms1 [] = m).
  { intros ms1 A1. destruct (nth_error ms1 i) as [m1|] eqn:Em.
    - transitivity m1; [exact (nth_error_nth _ _ _ Em)|]. apply (Forall2_get _ _ _ _ _ A1 i _ _ Ek Em). reflexivity.
    - apply nth_error_None in Em. rewrite <- (Forall2_length _ _ _ _ _ A1) in Em. assert (i < length kn)%nat by (apply nth_error_Some; congruence). lia. }
  rewrite (X ms A), (X ms0 AG). reflexivity.
Qed.
