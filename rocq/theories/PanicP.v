(** Where panics come from (C57). *)
From Verif Require Import Base Tactics SpecBits SpecReader SpecMarker SpecHuffman SpecFrame SpecSegments SpecColor SpecUpsample SpecImage SpecStream SpecGlobal SpecLimits SpecPanic
  Biterator Marker Huffman Idct Color Types Upsampler Parsers Decode F32 GeomP BlockP SpecPlane SpecScan HuffmanP2 HuffmanP3 ParsersP ParsersP2 SegmentsP ColorP RowP UpsampleP UpsampleP2 ImageP PlaneP SafeP InvP GlobalP MarkerP RestartP EncodeP CorruptP ReuseP.

(** ** The output image *)
Lemma row_quiet : forall dbg g p row buf, geom_ok g -> integral g -> plane_of g p -> 0 <= row < g_height g -> (g_kind g = UH2V1 -> row_fits g row) ->
  exists l b, upsample_row dbg (g_up g) (map Some p) row (g_width g) buf = Ok (l, b).
Proof.
  intros dbg g p row buf G I P R F. destruct (g_kind g) as [| | | |hf vf] eqn:K.
  1-4: destruct (comp_row dbg g p row buf G I P R) as [b [_ E]]; [|eauto]; unfold row_fits; rewrite K; auto; specialize (F eq_refl); unfold row_fits in F; rewrite K in F; exact F.
  destruct (comp_row_generic dbg g p row buf hf vf G I P R K) as [_ E]. eauto.
Qed.

Lemma rows_quiet : forall dbg gs ps bufs row width,
  Forall geom_ok gs -> Forall integral gs -> Forall (fun g => g_width g = width /\ 0 <= row < g_height g /\ (g_kind g = UH2V1 -> row_fits g row)) gs ->
  Forall2 plane_of gs ps -> (length gs <= length bufs)%nat -> Forall bytes bufs ->
  exists ls bs, upsample_rows dbg (map g_up gs) (map (map Some) ps) bufs row width = Ok (ls, bs) /\ length ls = length gs /\ Forall full ls /\ length bs = length bufs /\ Forall bytes bs.
Proof.
  intros dbg. induction gs as [|g gs IH]; intros ps bufs row width G I R P L B.
  - inv P. exists [], bufs. splits; auto.
  - inversion P as [|? p ? ps' P1 P2]; subst. destruct bufs as [|b bufs]; [cbn in L; lia|]. inv G. inv I. inv R. inv B. destruct H5 as [E [R F]].
    destruct (row_quiet dbg g p row b H1 H3 P1 R F) as [l [b' E1]]. rewrite E in E1.
    pose proof (post_row dbg (g_up g) (map Some p) row width b (full_some p (proj2 (bytes_le p) (proj1 P1))) H7) as Q. rewrite E1 in Q. destruct Q as [Q1 Q2].
    destruct (IH ps' bufs row width H2 H4 H6 P2 ltac:(cbn in L; lia) H8) as [ls [bs [E2 [L2 [F2 [L3 F3]]]]]].
    exists (l :: ls), (b' :: bs). cbn [map upsample_rows]. rewrite E1. cbn [bind]. rewrite E2. cbn [bind length]. splits; auto.
Qed.

Lemma ycbcr_quiet : forall dbg y data cb cr, full y -> full cb -> full cr -> exists l, line_ycbcr dbg data y cb cr = Ok l.
Proof.
  intros dbg. induction y as [|y0 y IH]; intros data cb cr Fy Fb Fr.
  { destruct data as [|? [|? [|? data]]]; cbn [line_ycbcr]; eauto. }
  destruct data as [|d1 [|d2 [|d3 data]]]; cbn [line_ycbcr]; eauto.
  destruct cb as [|b0 cb]; [eauto|]. destruct cr as [|r0 cr]; [eauto|].
  inv Fy. inv Fb. inv Fr. destruct H1 as [v1 [-> B1]]. destruct H3 as [v2 [-> B2]]. destruct H5 as [v3 [-> B3]]. cbn [read bind].
  rewrite ycbcr_pixel by auto. cbn [bind]. destruct (IH data cb cr H2 H4 H6) as [l ->]. cbn [bind]. eauto.
Qed.
Lemma cmyk_quiet : forall c data m y k, full c -> full m -> full y -> full k -> exists l, line_cmyk data c m y k = Ok l.
Proof.
  induction c as [|c0 c IH]; intros data m y k Fc Fm Fy Fk.
  { destruct data as [|? [|? [|? [|? data]]]]; cbn [line_cmyk]; eauto. }
  destruct data as [|d1 [|d2 [|d3 [|d4 data]]]]; cbn [line_cmyk]; eauto.
  destruct m as [|m0 m]; [eauto|]. destruct y as [|y0 y]; [eauto|]. destruct k as [|k0 k]; [eauto|].
  inv Fc. inv Fm. inv Fy. inv Fk. destruct H1 as [v1 [-> B1]]. destruct H3 as [v2 [-> B2]]. destruct H5 as [v3 [-> B3]]. destruct H7 as [v4 [-> B4]]. cbn [read bind].
  destruct (IH data m y k H2 H4 H6 H8) as [l ->]. cbn [bind]. eauto.
Qed.

(** The conversions that work on [n] lines. *)
Definition converts (f : color_func) (n : nat) : Prop :=
  match f with CNull => True | CYcbcr => n = 3%nat | CYcck => False | CCmyk => n = 4%nat end.
Lemma convert_quiet : forall dbg f data ls, converts f (length ls) -> Forall full ls -> exists l, color_convert dbg f data ls = Ok l.
Proof.
  intros dbg f data ls C F. destruct f; cbn [converts color_convert] in *; [eauto| |contradiction|].
  - destruct ls as [|a [|b [|c [|? ?]]]]; try discriminate C. inv F. inv H2. inv H4. apply ycbcr_quiet; auto.
  - destruct ls as [|a [|b [|c [|e [|? ?]]]]]; try discriminate C. inv F. inv H2. inv H4. inv H5. apply cmyk_quiet; auto.
Qed.

Lemma lines_quiet : forall dbg f gs ps width ncomp groups bufs, converts f (length gs) ->
  Forall geom_ok gs -> Forall integral gs -> Forall2 plane_of gs ps ->
  (forall row n, In (row, n) groups -> Forall (fun g => g_width g = width /\ 0 <= row < g_height g /\ (g_kind g = UH2V1 -> row_fits g row)) gs) ->
  (length gs <= length bufs)%nat -> Forall bytes bufs ->
  exists ls, image_lines dbg f (map g_up gs) (map (map Some) ps) width ncomp bufs groups = Ok ls.
Proof.
  intros dbg f gs ps width ncomp groups. induction groups as [|[row n] groups IH]; intros bufs C G I P R L B; [eexists; reflexivity|].
  cbn [image_lines]. unfold upsample_and_interleave_row. unfold lenZ. rewrite !map_length, (ImageP.Forall2_length _ _ _ _ _ P).
  rewrite Z.eqb_refl. replace (debug_assert dbg true) with (@Ok unit tt) by (destruct dbg; reflexivity). cbn [bind].
  destruct (rows_quiet dbg gs ps bufs row width G I (R row n (or_introl eq_refl)) P L B) as [ls [bs [E [L1 [F1 [L2 F2]]]]]].
  rewrite E. cbn [bind]. rewrite <- L1 in C. destruct (convert_quiet dbg f (repeat 0 (Z.to_nat (width * ncomp))) ls C F1) as [l ->]. cbn [bind].
  rewrite L1 in C. destruct (IH bs C G I P ltac:(intros; eapply R; right; eauto) ltac:(lia) F2) as [r ->]. cbn [bind]. eauto.
Qed.

Lemma full_plane : forall p, full p -> exists q, p = map Some q /\ bytes q.
Proof.
  induction p as [|x p IH]; intros F; [exists []; split; [reflexivity|constructor]|]. inv F. destruct H1 as [v [-> B]]. destruct (IH H2) as [q [-> Q]].
  exists (v :: q). split; [reflexivity|constructor; auto].
Qed.
Lemma full_planes : forall ps, Forall full ps -> exists qs, ps = map (map Some) qs /\ Forall bytes qs.
Proof.
  induction ps as [|p ps IH]; intros F; [exists []; split; [reflexivity|constructor]|]. inv F. destruct (full_plane p H1) as [q [-> Q]]. destruct (IH H2) as [qs [-> Qs]].
  exists (q :: qs). split; [reflexivity|constructor; auto].
Qed.

Lemma planes_geoms : forall m pr lines samples cs qs, planes_for (frame_of m pr lines samples cs) (map (map Some) qs) -> Forall bytes qs ->
  Forall2 plane_of (geoms lines samples cs) qs.
Proof.
  intros m pr lines samples cs qs. unfold planes_for, frame_of, geoms. cbn [f_components].
  set (hm := largest (map cs_h cs)). set (vm := largest (map cs_v cs)). clearbody hm vm. revert qs. induction cs as [|c cs IH]; intros qs P B; cbn [map] in *.
  - destruct qs; [constructor|inv P].
  - destruct qs as [|q qs]; [inv P|]. cbn [map] in P. inversion P as [|? ? ? ? E P']; subst. inv B. constructor; auto. split; [apply bytes_le; auto|].
    unfold lenZ in *. rewrite map_length in E. rewrite E. unfold g_stride, g_rows, comp_geom. cbn [g_width g_height g_hm g_vm g_h g_v c_block_size dim_w dim_h]. ring.
Qed.

Lemma group_shown : forall rayon height v row n, 0 < v -> 0 < height -> In (row, n) (line_groups rayon height v) -> 0 <= row <= shown_row rayon v (height - 1).
Proof.
  intros rayon height v row n Hv Hh H. unfold line_groups in H. apply in_map_iff in H. destruct H as [k [E Hk]]. apply zrange_in in Hk.
  assert (Q : k <= (height - 1) / v).
  { replace ((height + v - 1) / v) with ((height - 1) / v + 1) in Hk; [lia|].
    replace (height + v - 1) with (height - 1 + 1 * v) by lia. rewrite Z.div_add by lia. lia. }
  inversion E; subst. unfold shown_row. destruct rayon; nia.
Qed.

Lemma integral_dec : forall g, integral g \/ ~ integral g.
Proof.
  intros g. unfold integral, strict. repeat first [apply Decidable.dec_and | apply Decidable.dec_or | apply Decidable.dec_imp | apply Z.eq_decidable | apply Z.lt_decidable].
Qed.
Lemma mapM_each : forall (A B : Type) (f : A -> out B) l r a, mapM f l = Ok r -> In a l -> exists b, f a = Ok b.
Proof.
  induction l as [|x l IH]; intros r a E H; [contradiction|]. cbn [mapM] in E. destruct (f x) as [b| | |] eqn:Fx; try discriminate E. cbn [bind] in E.
  destruct (mapM f l) as [bs| | |] eqn:M; try discriminate E. destruct H as [<-|H]; [eauto|]. eapply IH; eauto.
Qed.

Lemma image_quiet : forall dbg rayon d m pr lines samples cs, header_ok lines samples cs ->
  d_frame d = Some (frame_of m pr lines samples cs) -> Forall full (d_planes d) -> lenZ cs = 3 \/ lenZ cs = 4 -> samples <> 0 ->
  (0 < lines -> planes_for (frame_of m pr lines samples cs) (d_planes d) /\
     (lenZ cs = 4 -> forall t, d_color d = Some t -> t = AdobeUnknown) /\
     forall c, In c cs -> ~ cannot_double rayon lines samples cs c) ->
  returns (upsample_image dbg rayon d).
Proof.
  intros dbg rayon d m pr lines samples cs HO Fr Fp Cn Hs Hl. unfold upsample_image. rewrite Fr.
  assert (El : lenZ (f_components (frame_of m pr lines samples cs)) = lenZ cs) by (unfold lenZ, frame_of in *; cbn [f_components]; rewrite map_length; auto).
  rewrite El. cbv zeta. change (f_samples (frame_of m pr lines samples cs)) with samples. change (f_lines (frame_of m pr lines samples cs)) with lines.
  assert (L0 : 0 <= lines /\ 0 <= samples) by (destruct HO; lia).
  assert (V : 1 <= largest (map cs_v cs) <= 4).
  { destruct HO as [L S N F R X]. rewrite Forall_forall in X. apply (largest_factors cs cs_v N (fun c H => proj2 (X c H))). }
  assert (Ev : max_unwrap (map c_v (f_components (frame_of m pr lines samples cs))) = Ok (largest (map cs_v cs))).
  { unfold frame_of. cbn [f_components]. rewrite map_map. cbn [c_v]. destruct HO. apply max_unwrap_largest.
    - destruct cs; [congruence|discriminate].
    - apply Forall_map. eapply Forall_impl; [|exact ho_factors]. intros c [_ H]. lia. }
  assert (Eh : max_unwrap (map c_h (f_components (frame_of m pr lines samples cs))) = Ok (largest (map cs_h cs))).
  { unfold frame_of. cbn [f_components]. rewrite map_map. cbn [c_h]. destruct HO. apply max_unwrap_largest.
    - destruct cs; [congruence|discriminate].
    - apply Forall_map. eapply Forall_impl; [|exact ho_factors]. intros c [H _]. lia. }
  destruct (choose_color_convert_func (lenZ cs) (d_color d)) as [f|e|p|] eqn:Cf; cbn [bind]; try exact I;
    try (unfold choose_color_convert_func in Cf; destruct Cn as [Cn|Cn]; rewrite Cn in Cf; destruct (d_color d) as [[]|]; discriminate Cf).
  assert (U : (exists ups, upsampler_new (f_components (frame_of m pr lines samples cs)) (mkDims samples lines) = Ok ups) \/
              upsampler_new (f_components (frame_of m pr lines samples cs)) (mkDims samples lines) = Fail EUnsupported).
  { unfold upsampler_new. rewrite Eh, Ev. cbn [bind]. generalize (f_components (frame_of m pr lines samples cs)) as l.
    generalize (largest (map cs_h cs)) as hm. generalize (largest (map cs_v cs)) as vm. intros vm hm. clear.
    assert (K : forall h v, (exists u, choose_upsampler h v hm vm (mkDims samples lines) = Ok u) \/ choose_upsampler h v hm vm (mkDims samples lines) = Fail EUnsupported).
    { intros h v. unfold choose_upsampler. repeat (match goal with |- context [if ?c then _ else _] => destruct c end; eauto). }
    induction l as [|c l IH]; cbn [mapM]; [eauto|]. destruct (K (c_h c) (c_v c)) as [[u ->]| ->]; cbn [bind]; [|eauto].
    destruct IH as [[ups ->]| ->]; cbn [bind]; eauto. }
  destruct U as [[ups U]|U]; rewrite U; cbn [bind]; [|exact I].
  rewrite Ev. cbn [bind]. assert (samples * lenZ cs <> 0) by nia. replace (samples * lenZ cs =? 0) with false by lia. cbn [negb assert_ bind].
  destruct (Z.eq_dec lines 0) as [Z0|Z0].
  { replace (line_groups rayon lines (largest (map cs_v cs))) with (@nil (Z * Z)); [exact I|].
    unfold line_groups. replace ((lines + largest (map cs_v cs) - 1) / largest (map cs_v cs)) with 0; [reflexivity|]. symmetry. apply Z.div_small. lia. }
  destruct Hl as [P [Y D]]; [lia|].
  pose proof (header_geoms _ _ _ HO ltac:(lia) ltac:(lia)) as G.
  assert (I : Forall integral (geoms lines samples cs)).
  { apply Forall_forall. intros g Hg. rewrite Forall_forall in G. destruct (choose_cases g (G g Hg)) as [_ C2].
    destruct (integral_dec g) as [Q|Q]; [exact Q|]. exfalso. specialize (C2 Q).
    unfold upsampler_new in U. rewrite Eh, Ev in U. cbn [bind] in U.
    unfold geoms in Hg. apply in_map_iff in Hg. destruct Hg as [c [Eg Hc]]. subst g. unfold comp_geom in C2. cbn [g_width g_height g_hm g_vm g_h g_v] in C2.
    unfold frame_of in U. cbn [f_components] in U.
    destruct (mapM_each _ _ _ _ _ _ U (in_map _ _ _ Hc)) as [b Eb]. cbn [c_h c_v] in Eb. rewrite C2 in Eb. discriminate Eb. }
  rewrite upsampler_of_header in U by (auto; lia). injection U as <-.
  destruct (full_planes _ Fp) as [qs [Eq Bq]]. rewrite Eq in P |- *. pose proof (planes_geoms _ _ _ _ _ _ P Bq) as P2.
  assert (Lg : length (geoms lines samples cs) = length cs) by (unfold geoms; apply map_length).
  destruct (lines_quiet dbg f (geoms lines samples cs) qs samples (lenZ cs) (line_groups rayon lines (largest (map cs_v cs))) [[]; []; []; []]) as [ls El']; auto.
  - rewrite Lg. unfold choose_color_convert_func, lenZ in *. destruct Cn as [Cn|Cn]; rewrite Cn in Cf; cbn in Cf.
    + destruct (d_color d) as [[]|]; inversion Cf; subst f; cbn [converts]; auto; lia.
    + specialize (Y Cn). destruct (d_color d) as [t|]; [|discriminate Cf]. rewrite (Y t eq_refl) in Cf. inversion Cf; subst f. cbn [converts]. lia.
  - intros row n Hr. apply group_shown in Hr; try lia. apply Forall_forall. intros g Hg. pose proof G as G'. rewrite Forall_forall in G'. specialize (G' g Hg).
    unfold geoms in Hg. apply in_map_iff in Hg. destruct Hg as [c [Eg Hc]]. specialize (D c Hc). subst g. split; [reflexivity|].
    assert (Rl : 0 <= row < lines).
    { split; [lia|]. unfold shown_row in Hr. pose proof (Z.mul_div_le (lines - 1) (largest (map cs_v cs)) ltac:(lia)). pose proof (Z.div_pos (lines - 1) (largest (map cs_v cs)) ltac:(lia) ltac:(lia)).
      destruct rayon; nia. }
    split; [exact Rl|]. intros K. unfold row_fits. rewrite K. apply kind_ratios in K. destruct K as [K1 K2].
    unfold cannot_double in D. cbn [g_width comp_geom].
    change (g_hr (comp_geom samples lines (largest (map cs_h cs)) (largest (map cs_v cs)) c)) with (h_ratio samples cs c) in K1.
    change (g_vr (comp_geom samples lines (largest (map cs_h cs)) (largest (map cs_v cs)) c)) with (v_ratio lines cs c) in K2.
    change (g_stride (comp_geom samples lines (largest (map cs_h cs)) (largest (map cs_v cs)) c)) with (plane_stride samples cs c).
    change (g_rows (comp_geom samples lines (largest (map cs_h cs)) (largest (map cs_v cs)) c)) with (plane_rows lines cs c).
    assert (St : 0 <= plane_stride samples cs c).
    { pose proof G' as (W1 & W2 & W3 & W4 & _). pose proof (extent_le _ _ _ ltac:(exact (proj1 W1)) W3) as Xw. cbn [g_width g_hm g_h comp_geom] in Xw. unfold plane_stride. lia. }
    split.
    + destruct (Z.eq_dec (samples mod 2) 0); auto. exfalso. apply D. auto.
    + destruct (Z_le_dec (row * plane_stride samples cs c + samples) (plane_stride samples cs c * plane_rows lines cs c)); auto. exfalso. apply D. splits; auto. right. nia.
  - rewrite Lg. unfold lenZ in Cn. cbn [length]. lia.
  - repeat constructor.
  - rewrite El'. exact Logic.I.
Qed.

(** ** What holds when a call comes to a segment or a scan *)
Definition marks (d : decoder) : Prop := forall fr, d_frame d = Some fr -> 0 <= f_marker fr <= 2.
Definition started (p : pc) (d : decoder) : Prop :=
  match p with
  | PcSegment (SOF n) => 0 <= n <= 2
  | PcScan final todo ph =>
      ph = PhRow /\ exists fr sc, d_frame d = Some fr /\ d_scan d = Some sc /\ todo = mcu_list (f_mcu fr) /\
        all_finished (d_finished d) (s_headers sc) = Ok final /\ Forall (fun h => 0 <= h_index h < lenZ (f_components fr) /\ 0 <= h_dc h /\ 0 <= h_ac h) (s_headers sc) /\
        f_marker fr <> 2 /\ ss_left (d_ss d) = d_restart d /\ ss_rst (d_ss d) = 0 /\
        (s_start sc = 0 -> any_unset (d_dc d) (map h_dc (s_headers sc)) = Ok false) /\ (1 < s_end sc -> any_unset (d_ac d) (map h_ac (s_headers sc)) = Ok false)
  | _ => True
  end.

Lemma sof_marker : forall dbg n i fr r, sof dbg n i = Ok (fr, r) -> f_marker fr = n.
Proof.
  intros dbg n i fr r E. unfold sof in E. binv E. destruct a as [? ?]. binv E. destruct a as [? ?]. binv E. destruct a as [? ?]. binv E. destruct a as [? ?].
  binv E. destruct a as [? ?]. binv E. binv E. cbv zeta in E. binv E. inversion E. reflexivity.
Qed.

Lemma step_frame_cases : forall dbg rayon p d b d' b' r, dec_ok d -> good b -> pc_ok p d -> step dbg false rayon p d b = (d', b', r) ->
  d_frame d' = d_frame d \/ exists n data fr i, p = PcSegment (SOF n) /\ sof dbg n data = Ok (fr, i) /\ d_frame d' = Some fr.
Proof.
  intros dbg rayon p d b d' b' r K G P E. destruct p as [|m|final todo ph]; cbn [step] in E.
  - left. destruct (parse_marker (bi_input b)) as [[m rest]|[]|q|]; try (inv E; reflexivity). destruct m; try (inv E; reflexivity). destruct (upsample_image dbg rayon d); inv E; reflexivity.
  - destruct (no_segment m) eqn:NS; [inv E; auto|].
    destruct (segment_data dbg (bi_input b)) as [[data rest]|e|q|] eqn:Es; [|destruct e; inv E; auto|inv E; auto|inv E; auto].
    destruct (segment_data_len _ _ _ _ (proj2 G) Es) as [x [y [pre [Ei ->]]]].
    assert (Bp : bytes pre).
    { destruct G as [_ Bi]. rewrite Ei in Bi. unbytes Bi. apply Forall_app in Bi. apply Bi. }
    assert (SE : forall m' dd bb rr, seg_end m' dd bb rr = (d', b', r) -> dd = d').
    { intros m' dd bb [u|e|q|] H; cbn [seg_end] in H; try (inv H; auto; fail). destruct e; inv H; auto. }
    assert (KP : forall (A : Type) (o : out A) (k : A -> decoder), (forall a, d_frame (k a) = d_frame d) ->
      d_frame (fst (match o with Ok a => (k a, Ok tt) | Fail e => (d, Fail e) | Panic q => (d, Panic q) | UB => (d, UB) end : decoder * out unit)) = d_frame d).
    { intros A [a|e|q|] k H; cbn; auto. }
    destruct m; try discriminate NS.
    + cbn [seg_payload] in E. destruct (sof dbg n pre) as [[fr i]|e|pp|] eqn:Ef; apply SE in E; subst d'; auto. right. exists n, pre, fr, i. auto.
    + left. pose proof (dht_inv dbg (length pre) d pre K Bp (le_n _)) as [_ [F _]]. cbn [seg_payload] in E.
      destruct (seg_dht dbg (length pre) d pre) as [d1 r1]. apply SE in E. subst. exact F.
    + left. cbn [seg_payload] in E. destruct (seg_dqt_any (length pre) d pre Bp (proj2 (proj2 (ok_slots d K))) (le_n _)) as [ts [r0 [l [_ [_ [_ [[_ Eq]|[_ [e [_ Eq]]]]]]]]]]; rewrite Eq in E; apply SE in E; subst; reflexivity.
    + left. cbn [seg_payload] in E. destruct (p_u16 pre) as [[rr i]|e|pp|]; apply SE in E; subst; reflexivity.
    + left. unfold do_sos in E. destruct (sos_segment (d_frame d) pre) as [[sc i]|e|q|] eqn:Eh; [|destruct e; inv E; auto|inv E; auto|inv E; auto].
      destruct (sos_begin_inv dbg d sc K (sos_start _ _ _ _ Bp Eh)) as [K1 [F1 _]]. destruct (sos_begin dbg d sc) as [d1 o]. cbn [fst] in *.
      destruct o as [final|e|q|]; try (inv E; auto; fail).
      pose proof (scan_init_inv final d1 K1) as SI. destruct (scan_init final d1) as [d2|e|q|]; try (inv E; auto; fail).
      destruct SI as [_ [F2 _]]. inv E. congruence.
    + left. cbn [seg_payload] in E. destruct (n =? 14); [|apply SE in E; subst; reflexivity]. destruct (app_adobe pre) as [[rr i]|e|pp|]; apply SE in E; subst; reflexivity.
  - left. pose proof (scan_inv dbg false final todo ph d b K G P) as SI. destruct (scan_loop dbg false final todo ph d b) as [[d1 b1] sr].
    destruct SI as [K1 [G1 [S1 [F1 R1]]]]. destruct sr; try (inv E; exact F1).
    pose proof (finish_inv final d1 K1 R1) as FI. destruct (scan_finish d1) as [d2|e|q|]; try (inv E; exact F1).
    destruct FI as [_ F2]. inv E. congruence.
Qed.

Lemma step_marks : forall dbg rayon p d b d' b' r, dec_ok d -> good b -> pc_ok p d -> marks d -> started p d -> step dbg false rayon p d b = (d', b', r) -> marks d'.
Proof.
  intros dbg rayon p d b d' b' r K G P M S E. destruct (step_frame_cases _ _ _ _ _ _ _ _ K G P E) as [F|[n [data [fr [i [-> [Es F]]]]]]].
  - intros fr Hf. rewrite F in Hf. auto.
  - intros fr' Hf. assert (fr' = fr) by congruence. subst fr'. rewrite (sof_marker _ _ _ _ _ Es). exact S.
Qed.

Lemma frame_256 : forall fr, frame_good fr -> lenZ (f_components fr) <= 256.
Proof. intros fr [m [pr [lines [samples [cs [-> HO]]]]]]. destruct HO. unfold frame_of, lenZ in *. cbn [f_components]. rewrite map_length. lia. Qed.
Lemma in_frame_index : forall fr s ks, scan_ok s -> scan_in_frame fr s ks ->
  Forall (fun h => 0 <= h_index h < lenZ (f_components fr) /\ 0 <= h_dc h /\ 0 <= h_ac h) (s_headers (scan_of s ks)).
Proof.
  intros fr s ks [O _] [_ [F _]]. unfold scan_of. cbn [s_headers]. remember (map sc_id (sp_comps s)) as ids eqn:Ei. revert Ei O. generalize (sp_comps s) as cs. induction F as [|id k ids ks H F IH]; intros cs Ei O.
  - destruct cs; [constructor|discriminate].
  - destruct cs as [|c cs]; [discriminate|]. injection Ei as _ Ei. cbn [combine map]. inversion O as [|? ? O1 O2]; subst. constructor; [|auto]. cbn [header_of fst snd h_index h_dc h_ac].
    split; [|destruct O1 as [_ [N1 N2]]; unfold nibble in *; lia].
    destruct H as [H0 [H1 _]]. assert (Q : nth_error (map c_id (f_components fr)) (Z.to_nat k) <> None) by congruence. apply nth_error_Some in Q. rewrite map_length in Q. unfold lenZ. lia.
Qed.

Lemma step_started : forall dbg rayon p d b d' b' p', dec_ok d -> good b -> marks d -> step dbg false rayon p d b = (d', b', SNext p') -> started p' d'.
Proof.
  intros dbg rayon p d b d' b' p' K G M E. destruct p as [|m|final todo ph]; cbn [step] in E.
  - destruct (parse_marker (bi_input b)) as [[m rest]|[]|q|] eqn:Em; try discriminate.
    assert (p' = PcSegment m) by (destruct m; try (inv E; reflexivity); destruct (upsample_image dbg rayon d); discriminate). subst p'.
    apply parse_marker_ok in Em. destruct Em as [c [C _]]. destruct m; try exact I. cbn [started]. inv C. lia.
  - destruct (no_segment m); [inv E; exact I|]. destruct (segment_data dbg (bi_input b)) as [[data rest]|[]|q|] eqn:Es; try discriminate.
    destruct (segment_data_len _ _ _ _ (proj2 G) Es) as [x [y [pre [Ei ->]]]].
    assert (Bp : bytes pre).
    { destruct G as [_ Bi]. rewrite Ei in Bi. unbytes Bi. apply Forall_app in Bi. apply Bi. }
    assert (X : (let '(d1, r) := seg_payload dbg m d pre in seg_end m d1 (mkBiter rest (bi_bits b) (bi_count b)) r) = (d', b', SNext p') -> started p' d').
    { destruct (seg_payload dbg m d pre) as [d2 r]. intros Q. assert (p' = PcMarker) by (unfold seg_end in Q; destruct r as [u|[]| |]; inv Q; auto). subst p'. exact I. }
    destruct m; try exact (X E). clear X. unfold do_sos in E. destruct (sos_segment (d_frame d) pre) as [[sc i]|[]| |] eqn:Eh; try discriminate.
    destruct (d_frame d) as [fr|] eqn:Fr.
    2:{ exfalso. unfold sos_segment in Eh. destruct pre as [|n pre]; [discriminate|]. cbn [p_any bind] in Eh. destruct ((1 <=? n) && (n <=? 4)) eqn:N; [|discriminate].
        binv Eh. destruct a as [hs i1]. replace (Z.to_nat n) with (S (Z.to_nat (n - 1))) in E0 by lia. cbn [sos_headers] in E0. binv E0. destruct a. binv E0. destruct a as [[? ?] ?]. discriminate. }
    destruct (sos_segment_inv fr pre sc i (frame_256 fr (ok_frame d K fr Fr)) Bp Eh) as [s [ks [So [Si [_ ->]]]]].
    unfold sos_begin in E. cbn [set_scan d_frame d_finished] in E. rewrite Fr in E.
    destruct (coding_process fr) as [cp|e|q|] eqn:CP; try discriminate.
    assert (N2 : f_marker fr <> 2).
    { intros Q. unfold coding_process in CP. rewrite Q in CP. cbn in CP. inv CP. discriminate. }
    set (sc := scan_of s ks) in *.
    assert (Z : forall o : out (list Z), (match (match o with Ok fin => (set_finished (set_scan d (Some sc)) fin, all_finished fin (s_headers sc)) | Fail e => (set_scan d (Some sc), Fail e)
             | Panic p => (set_scan d (Some sc), Panic p) | UB => (set_scan d (Some sc), UB) end) with
      | (d1, Ok final) => match scan_init final d1 with
          | Ok d2 => (d2, mkBiter rest (bi_bits b) (bi_count b), SNext (PcScan final (mcu_list (match d_frame d2 with Some fr => f_mcu fr | None => mkDims 0 0 end)) PhRow))
          | Fail e => (d1, mkBiter rest (bi_bits b) (bi_count b), SStop (RFail e))
          | Panic p => (d1, mkBiter rest (bi_bits b) (bi_count b), SStop (RPanic p))
          | UB => (d1, mkBiter rest (bi_bits b) (bi_count b), SStop RUB) end
      | (d1, Fail e) => (d1, mkBiter rest (bi_bits b) (bi_count b), SStop (RFail e))
      | (d1, Panic p) => (d1, mkBiter rest (bi_bits b) (bi_count b), SStop (RPanic p))
      | (d1, UB) => (d1, mkBiter rest (bi_bits b) (bi_count b), SStop RUB) end) = (d', b', SNext p') -> started p' d').
    { intros [fin|e|q|] Q; try discriminate. destruct (all_finished fin (s_headers sc)) as [final|e|q|] eqn:AF; try discriminate.
      unfold scan_init in Q. cbn [set_finished set_scan d_frame d_scan d_dc d_ac] in Q. rewrite Fr in Q.
      destruct (if s_start sc =? 0 then _ else _) as [[]| | |] eqn:U1; cbn [bind] in Q; try discriminate. destruct (if 1 <? s_end sc then _ else _) as [[]| | |] eqn:U2; cbn [bind] in Q; try discriminate.
      destruct (if final then _ else _) as [res| | |]; cbn [bind] in Q; try discriminate. cbn [set_ss d_frame set_finished set_scan] in Q. rewrite Fr in Q.
      apply pair_equal_spec in Q. destruct Q as [Q Qp]. apply pair_equal_spec in Q. destruct Q as [Qd _]. injection Qp as <-. subst d'.
      cbn [started]. split; [reflexivity|]. exists fr, sc. cbn [set_ss d_frame d_scan d_finished d_ss d_restart ss_left ss_rst set_finished set_scan d_dc d_ac].
      splits; auto; [apply in_frame_index; assumption| |].
      - intros Q0. rewrite Q0 in U1. exact U1.
      - intros Q1. replace (1 <? s_end sc) with true in U2 by lia. exact U2. }
    destruct cp; try discriminate; eapply Z; exact E.
  - destruct (scan_loop dbg false final todo ph d b) as [[d2 b2] r]. destruct r; try discriminate. destruct (scan_finish d2); inv E. exact I.
Qed.

(** ** The scan *)
Section Scan.
  Variables (dbg : bool) (d0 : decoder) (fr : frame) (sc : scan).
  Hypothesis Fr : d_frame d0 = Some fr.
  Hypothesis Sc : d_scan d0 = Some sc.
  Hypothesis S0 : 0 <= s_start sc.
  Hypothesis Tab : Forall (fun h => exists dct act, index (d_dc d0) (h_dc h) = Ok (Some dct) /\ index (d_ac d0) (h_ac h) = Ok (Some act) /\ dc_ok dct /\ ac_ok act) (s_headers sc).
  Hypothesis FG : frame_good fr.
  Hypothesis Few : (total_blocks (f_components fr) <= MAX_BLOCKS)%nat.
  Hypothesis Qt : Forall (fun c => exists qt, index (d_qt d0) (c_tq c) = Ok (Some qt)) (f_components fr).
  Hypothesis Cp : coding_process fr = Ok Baseline \/ coding_process fr = Ok Sequential.

  Lemma comps_quiet : forall s hs, Forall (fun h => exists dct act, index (d_dc d0) (h_dc h) = Ok (Some dct) /\ index (d_ac d0) (h_ac h) = Ok (Some act) /\ dc_ok dct /\ ac_ok act) hs ->
    forall cs ps avail b eob, Forall i16 ps -> good b -> 0 <= eob < 2 ^ 15 ->
    (exists r, decode_comps dbg (set_ss d0 s) sc cs hs ps avail b eob = Ok r) \/ (exists e, decode_comps dbg (set_ss d0 s) sc cs hs ps avail b eob = Fail e).
  Proof.
    intros s hs R. induction R as [|h hs [dct [act [I1 [I2 [Td Ta]]]]] R IH]; intros cs ps avail b eob F G He; destruct cs as [|c cs]; cbn [decode_comps]; eauto.
    destruct ps as [|p ps]; [eauto|]. inv F. cbn [set_ss d_dc d_ac]. rewrite I1. cbn [bind]. rewrite I2. cbn [bind]. cbv zeta. set (n := Nat.min _ avail).
    pose proof (blocks_inv dbg sc dct act Td Ta S0 n b eob p G He H1) as D.
    destruct (decode_blocks dbg sc dct act n b eob p) as [[[[bl b1] eob1] p1]|e| |]; try contradiction; cbn [bind]; [|right; eauto].
    destruct D as [G1 [_ [E1 [P1 _]]]]. fold (set_ss d0 s).
    destruct (IH cs ps (avail - n)%nat b1 eob1 H2 G1 E1) as [[[[[r ps'] b2] e2] ->]|[e ->]]; cbn [bind]; eauto.
  Qed.

  Lemma scan_quiet : forall todo pre d b, mcu_list (f_mcu fr) = pre ++ todo -> (exists s, d = set_ss d0 s) -> dec_ok d -> good b ->
    Forall2 (sized (dim_h (f_mcu fr))) (f_components fr) (ss_results (d_ss d)) -> (todo <> [] -> counters (d_restart d0) (lenZ pre) d) ->
    forall d' b' r, scan_loop dbg false true todo PhRow d b = (d', b', r) ->
    calm r /\ (exists s, d' = set_ss d0 s) /\ (r = ScDone -> Forall2 (sized (dim_h (f_mcu fr))) (f_components fr) (ss_results (d_ss d'))).
  Proof.
    induction todo as [|[y x] rest IH]; intros pre d b E SD K G Sz C d' b' r SL.
    { cbn in SL. inv SL. split; [exact I|]. split; [exact SD|]. intros _. auto. }
    cbn [scan_loop] in SL. specialize (C ltac:(discriminate)). destruct SD as [s ->]. cbn [set_ss d_ss] in Sz.
    assert (Row : (exists r, decode_row dbg (set_ss d0 s) b = Ok r) \/ (exists e, decode_row dbg (set_ss d0 s) b = Fail e)).
    { unfold decode_row. cbn [set_ss d_scan d_frame d_ss]. rewrite Sc, Fr. fold (set_ss d0 s).
      destruct (comps_quiet s _ Tab (f_components fr) (ss_preds s) MAX_BLOCKS b (ss_eob s) (ok_preds _ K) G (ok_eob _ K)) as [[[[[bl ps] b1] e1] ->]|[e ->]]; cbn [bind]; eauto. }
    pose proof (row_inv dbg (set_ss d0 s) b K G) as RI.
    destruct Row as [[[d1 b1] ER]|[e ER]]; rewrite ER in SL, RI; cbn [post] in RI.
    2:{ destruct e; inv SL; (split; [exact I|split; [eauto|discriminate]]). }
    destruct RI as [Sm [G1 [_ [Lc _]]]]. pose proof (same_ok _ _ K Sm) as K1.
    destruct (row_counts _ _ _ _ _ ER) as [[s1 E1] Sc1]. destruct Sm as [s1' [E1' [Rs1 _]]]. cbn [set_ss d_ss] in Rs1.
    assert (s1' = s1) by (assert (X : d_ss d1 = s1 /\ d_ss d1 = s1') by (rewrite E1 at 1; rewrite E1'; cbn; auto); destruct X; congruence). subst s1'. clear E1'.
    assert (E1' : d1 = set_ss d0 s1) by (rewrite E1; reflexivity). clear E1.
    destruct (mcu_in _ _ _ _ _ E) as [Hx Hy].
    assert (C1 : counters (d_restart d1) (lenZ pre) d1).
    { rewrite E1' at 1. cbn [set_ss d_restart]. intros H. destruct (C H). destruct Sc1 as [A B]. rewrite A, B. auto. }
    assert (Lf : 0 < d_restart d1 -> 1 <= ss_left (d_ss d1)).
    { intros H. destruct (C1 H) as [A _]. rewrite A. pose proof (Z.mod_pos_bound (lenZ pre) (d_restart d1) H). lia. }
    assert (Fr1 : d_frame d1 = Some fr) by (rewrite E1'; exact Fr).
    (* the counter and the restart marker *)
    assert (AM : match restart_check dbg x y d1 with
                 | Ok (need, d2) => same d1 d2 /\ (exists s, d2 = set_ss d0 s) /\ ss_coefs (d_ss d2) = ss_coefs (d_ss d1) /\
                     match (if need then restart_marker d2 b1 else Ok (d2, b1)) with
                     | Ok (d3, b3) => same d1 d3 /\ good b3 /\ (exists s, d3 = set_ss d0 s) /\ ss_coefs (d_ss d3) = ss_coefs (d_ss d1) /\
                         (rest <> [] -> counters (d_restart d0) (lenZ pre + 1) d3)
                     | Fail _ => True
                     | _ => False
                     end
                 | _ => False end).
    { pose proof (after_spec dbg d1 b1 fr pre y x rest Fr1 E Lf) as AS. unfold after_mcu in AS. pose proof (check_inv dbg x y d1 K1) as CI.
      pose proof (fun NR d2 b2 => after_counts dbg d1 b1 fr pre y x rest d2 b2 Fr1 E NR C1) as AC. unfold after_mcu in AC.
      destruct (restart_check dbg x y d1) as [[need d2]|e|p|] eqn:RC; cbn [bind post] in *.
      - assert (K2 : dec_ok d2) by (eapply same_ok; eauto).
        assert (D2 : (exists s, d2 = set_ss d0 s) /\ ss_coefs (d_ss d2) = ss_coefs (d_ss d1)).
        { unfold restart_check in RC. destruct (0 <? d_restart d1).
          - rewrite Fr1 in RC. binv RC. binv RC. binv RC. inv RC. cbn [set_ss d_ss]. split; [|reflexivity]. eexists. reflexivity.
          - inv RC. eauto. }
        destruct D2 as [[s2 D2] D3]. split; [exact CI|]. split; [eauto|]. split; [exact D3|].
        destruct need.
        + pose proof (restart_inv d2 b1 K2 G1) as RI. pose proof (AC) as AC'. unfold restart_marker in *.
          destruct (parse_calm (bi_input b1)) as [[[m rest'] PM]|[e PM]]; rewrite PM in *; cbn [bind] in *; [|exact I].
          unfold handle_restart in *. destruct m as [|n0| | | | |n|n1| |]; try exact I. destruct (n =? ss_rst (d_ss d2)); [|exact I]. cbn [post] in RI. destruct RI as [R1 [R2 _]].
          split; [eapply same_trans; eauto|]. split; [exact R2|]. split; [subst d2; eexists; reflexivity|]. split; [cbn [set_ss d_ss ss_coefs]; exact D3|].
          intros NR. specialize (AC' NR _ _ eq_refl). rewrite D2 in AC' at 1. exact AC'.
        + split; [exact CI|]. split; [exact G1|]. split; [eauto|]. split; [exact D3|].
          intros NR. specialize (AC NR _ _ eq_refl). rewrite D2 in AC at 1. exact AC.
      - exfalso. destruct (0 <? d_restart d1); [|discriminate]. destruct (_ && _); [|discriminate]. clear - AS RC.
        unfold restart_check in RC. destruct (0 <? d_restart d1); [|discriminate]. destruct (d_frame d1); [|discriminate].
        unfold usub in RC. repeat (match type of RC with context [if ?c then _ else _] => destruct c end; cbn [bind] in RC; try discriminate).
      - exfalso. destruct (0 <? d_restart d1); [|discriminate]. destruct (_ && _); [|discriminate]. unfold restart_marker in AS. destruct (parse_calm (bi_input b1)) as [[[m rest'] PM]|[e PM]]; rewrite PM in AS; cbn [bind] in AS; try discriminate.
        unfold handle_restart in AS. destruct m; try discriminate. destruct (n =? ss_rst (d_ss (lowered d1))); discriminate.
      - contradiction. }
    destruct (restart_check dbg x y d1) as [[need d2]|e|p|]; try contradiction. destruct AM as [_ [D2 [_ AM]]].
    destruct (if need then restart_marker d2 b1 else Ok (d2, b1)) as [[d3 b3]|e|p|]; try contradiction.
    2:{ destruct e; inv SL; (split; [exact I|split; [eauto|discriminate]]). }
    destruct AM as [S3 [G3 [D3 [Co3 C3]]]]. pose proof (same_ok _ _ K1 S3) as K3.
    assert (Sz3 : Forall2 (sized (dim_h (f_mcu fr))) (f_components fr) (ss_results (d_ss d3))).
    { destruct S3 as [s3 [E3 [R3 _]]]. rewrite E3. cbn [set_ss d_ss]. rewrite R3, E1'. cbn [set_ss d_ss]. rewrite Rs1. exact Sz. }
    destruct (deq_ok dbg d0 fr Fr FG Few Qt Cp x y d3 D3 Hx Hy Sz3) as [ps [ED Sz4]]; [rewrite Co3, Lc; unfold MAX_BLOCKS; lia|].
    rewrite ED in SL. apply (IH (pre ++ [(y, x)])) in SL; auto.
    - rewrite <- app_assoc. exact E.
    - destruct D3 as [s3 ->]. eexists. reflexivity.
    - destruct K3 as [A1 A2 A3 A4 A5 A6 A7 A8]. constructor; cbn; auto.
    - intros NR. specialize (C3 NR). unfold lenZ in *. rewrite app_length. cbn [length]. replace (Z.of_nat (length pre + 1)) with (Z.of_nat (length pre) + 1) by lia. exact C3.
  Qed.
End Scan.

Lemma take_quiet : forall hs ps n, Forall (fun h => 0 <= h_index h < n) hs -> lenZ ps = n -> exists r, take_planes ps hs = Ok r.
Proof.
  induction hs as [|h hs IH]; intros ps n F L; cbn [take_planes]; [eauto|]. inv F. unfold index. destruct (Z.ltb_spec (h_index h) 0); [lia|].
  destruct (nth_error ps (Z.to_nat (h_index h))) as [p|] eqn:E; [|apply nth_error_None in E; unfold lenZ in *; lia]. cbn [bind].
  rewrite store_in by lia. cbn [bind].
  destruct (IH (upd ps (Z.to_nat (h_index h)) []) (lenZ ps)) as [[qs r] ->]; auto; [unfold lenZ; rewrite upd_length; reflexivity|]. cbn [bind]. eauto.
Qed.

Lemma index_or_undefined : forall A (ts : list (option A)) i, 0 <= i -> (exists t, index ts i = Ok (Some t)) \/ undefined ts i.
Proof.
  intros A ts i Hi. unfold index, undefined. destruct (Z.ltb_spec i 0); [lia|]. destruct (nth_error ts (Z.to_nat i)) as [[t|]|]; eauto.
Qed.
Lemma index_slot : forall A (ts : list (option A)) i t, index ts i = Ok (Some t) -> In (Some t) ts.
Proof. intros A ts i t E. unfold index in E. destruct (i <? 0); [discriminate|]. destruct (nth_error ts (Z.to_nat i)) eqn:N; inv E. eapply nth_error_In; eauto. Qed.
Lemma forall_or : forall A (P Q : A -> Prop) l, (forall x, In x l -> P x \/ Q x) -> Forall P l \/ exists x, In x l /\ Q x.
Proof.
  induction l as [|x l IH]; intros H; [left; constructor|]. destruct (H x (or_introl eq_refl)) as [Px|Qx]; [|right; exists x; split; [left; auto|auto]].
  destruct IH as [F|[y [Hy Qy]]]; [intros; apply H; right; auto|left; constructor; auto|right; exists y; split; [right; auto|auto]].
Qed.

Lemma unfinished : forall fin hs, all_finished fin hs = Ok false -> exists h, In h hs /\ (exists x, index fin (h_index h) = Ok x /\ x <> 2 ^ 64 - 1).
Proof.
  intros fin. induction hs as [|h hs IH]; intros E; cbn [all_finished] in E; [discriminate|]. binv E. destruct (Z.eqb_spec a (2 ^ 64 - 1)) as [Q|Q].
  - destruct (IH E) as [h' [I1 I2]]. exists h'. split; [right; auto|auto].
  - exists h. split; [left; auto|]. eauto.
Qed.
Lemma total_blocks_sum : forall cs, Forall (fun c => 0 <= c_h c /\ 0 <= c_v c) cs ->
  Z.of_nat (total_blocks cs) = fold_right Z.add 0 (map (fun c => c_h c * c_v c) cs).
Proof.
  induction 1 as [|c cs [A B] F IH]; [reflexivity|]. cbn [total_blocks fold_right map]. fold (total_blocks cs). rewrite Nat2Z.inj_add, IH. unfold blocks_in. rewrite Nat2Z.inj_mul, !Z2Nat.id by auto. lia.
Qed.

Lemma unset_defined : forall A (ts : list (option A)) xs, any_unset ts xs = Ok false -> forall x, In x xs -> 0 <= x -> ~ undefined ts x.
Proof.
  intros A ts. induction xs as [|y xs IH]; intros E x Hx H0; [contradiction|]. cbn [any_unset] in E. binv E. destruct a as [a|]; [|discriminate].
  destruct Hx as [->|Hx]; [|auto]. unfold index in E0. destruct (x <? 0); [discriminate|]. intros [U|U]; rewrite U in E0; discriminate.
Qed.

Lemma scan_cause : forall dbg rayon d0 input final todo ph d b d' b' q, dec_ok d -> good b -> pc_ok (PcScan final todo ph) d -> fin_ok (d_finished d) -> marks d ->
  started (PcScan final todo ph) d -> from dbg false rayon (PcMarker, d0, biter_new input) (PcScan final todo ph, d, b) ->
  step dbg false rayon (PcScan final todo ph) d b = (d', b', SStop (RPanic q)) -> possible_cause dbg rayon d0 input.
Proof.
  intros dbg rayon d0 input final todo ph d b d' b' q K G P FO M [-> [fr [sc [Fr [Sc [-> [AF [Hh [N2 [Lf [Rs [U1 U2]]]]]]]]]]]] From E.
  assert (AS : at_scan dbg rayon d0 input sc fr d) by (exists final, (mcu_list (f_mcu fr)), b; auto).
  destruct final.
  2:{ destruct (unfinished _ _ AF) as [h [Hin [x [Ix Nx]]]]. apply (cause_incomplete _ _ _ _ sc fr d h); auto.
      unfold index in Ix. destruct (h_index h <? 0); [discriminate|]. destruct (nth_error (d_finished d) (Z.to_nat (h_index h))) eqn:Ne; inv Ix.
      erewrite nth_error_nth by exact Ne. exact Nx. }
  pose proof (ok_frame d K fr Fr) as FG.
  assert (T : Forall (fun h => exists dct act, index (d_dc d) (h_dc h) = Ok (Some dct) /\ index (d_ac d) (h_ac h) = Ok (Some act) /\ dc_ok dct /\ ac_ok act) (s_headers sc) \/
              exists h, In h (s_headers sc) /\ (s_start sc <> 0 /\ undefined (d_dc d) (h_dc h) \/ s_end sc <= 1 /\ undefined (d_ac d) (h_ac h))).
  { apply forall_or. intros h Hin. rewrite Forall_forall in Hh. destruct (Hh h Hin) as [_ [H1 H2]].
    destruct (index_or_undefined _ (d_dc d) (h_dc h) H1) as [[t Et]|U]; [|right; left; split; [|exact U]; intros Q; apply (unset_defined _ _ _ (U1 Q) (h_dc h)) in U; [contradiction|apply in_map; exact Hin|exact H1]].
    destruct (index_or_undefined _ (d_ac d) (h_ac h) H2) as [[a Ea]|U]; [|right; right; split; [|exact U]; destruct (Z_le_dec (s_end sc) 1) as [Q|Q]; [exact Q|]; assert (Q' : 1 < s_end sc) by lia; apply (unset_defined _ _ _ (U2 Q') (h_ac h)) in U; [contradiction|apply in_map; exact Hin|exact H2]].
    left. exists t, a. splits; auto; [apply (ok_dc d K)|apply (ok_ac d K)]; eapply index_slot; eauto. }
  destruct T as [T|[h [Hin U]]]; [|eapply cause_no_huffman; eauto].
  assert (FC : Forall (fun c => (0 <= c_h c /\ 0 <= c_v c) /\ 0 <= c_tq c) (f_components fr)).
  { destruct FG as [m [pr [lines [samples [cs [-> [L S N Fw R X]]]]]]]. unfold frame_of. cbn [f_components]. apply Forall_map. rewrite Forall_forall in *. intros c Hc. cbn [c_h c_v c_tq].
    destruct (X c Hc). destruct (R c Hc) as [R1 [R2 [R3 R4]]]. unfold is_byte in *. lia. }
  assert (Q : Forall (fun c => exists qt, index (d_qt d) (c_tq c) = Ok (Some qt)) (f_components fr) \/ exists c, In c (f_components fr) /\ undefined (d_qt d) (c_tq c)).
  { apply forall_or. intros c Hc. apply index_or_undefined. rewrite Forall_forall in FC. apply (FC c Hc). }
  destruct Q as [Q|[c [Hc U]]]; [|eapply cause_no_quantisation; eauto].
  destruct (Z_lt_dec 10 (fold_right Z.add 0 (map (fun c => c_h c * c_v c) (f_components fr)))) as [B10|B10]; [eapply cause_blocks; eauto|].
  exfalso. rewrite <- total_blocks_sum in B10 by (eapply Forall_impl; [|exact FC]; intros ? [? _]; auto).
  assert (Few : (total_blocks (f_components fr) <= MAX_BLOCKS)%nat) by (unfold MAX_BLOCKS; lia).
  assert (Cp : coding_process fr = Ok Baseline \/ coding_process fr = Ok Sequential).
  { specialize (M fr Fr). unfold coding_process. assert (O : f_marker fr = 0 \/ f_marker fr = 1) by lia. destruct O as [-> | ->]; cbn; auto. }
  destruct P as [fr' [done [Fr' [Ed Cv]]]]. assert (fr' = fr) by congruence. subst fr'.
  assert (done = []) by (destruct done as [|x l]; [reflexivity|]; exfalso; apply (f_equal (@length _)) in Ed; rewrite app_length in Ed; cbn [length] in Ed; lia). subst done.
  assert (Sz : Forall2 (sized (dim_h (f_mcu fr))) (f_components fr) (ss_results (d_ss d))).
  { clear - Cv. unfold covered in Cv. induction Cv; constructor; auto. apply H. }
  cbn [step] in E. destruct (scan_loop dbg false true (mcu_list (f_mcu fr)) PhRow d b) as [[d1 b1] r] eqn:SL.
  destruct (scan_quiet dbg d fr sc Fr Sc (ok_scan d K sc Sc) T FG Few Q Cp (mcu_list (f_mcu fr)) [] d b eq_refl) with (6 := SL) as [Ca [[s1 ->] Sd]]; auto.
  - exists (d_ss d). destruct d; reflexivity.
  - intros _. intros H. cbn [lenZ length Z.of_nat]. rewrite Lf, Rs. unfold lenZ. cbn [length Z.of_nat]. rewrite Zmod_0_l, Zdiv_0_l. split; [lia|reflexivity].
  - destruct r; try contradiction; try discriminate E.
    specialize (Sd eq_refl). unfold scan_finish in E. cbn [set_ss d_scan d_ss] in E, Sd. rewrite Sc in E. cbv zeta in E.
    destruct (take_quiet (s_headers sc) (ss_results s1) (lenZ (f_components fr))) as [[ps rr] Et].
    + eapply Forall_impl; [|exact Hh]. intros h [H _]. exact H.
    + unfold lenZ. rewrite (ImageP.Forall2_length _ _ _ _ _ Sd). reflexivity.
    + rewrite Et in E. cbn [bind] in E. discriminate E.
Qed.

(** ** A segment *)
Lemma segment_data_cases : forall dbg i, bytes i ->
  match segment_data dbg i with
  | Ok (data, rest) => payload i data /\ bytes data
  | Fail _ => True
  | Panic _ => exists l1 l0 rest, i = l1 :: l0 :: rest /\ dbg = true /\ 256 * l1 + l0 < 2
  | UB => False
  end.
Proof.
  intros dbg i B. unfold segment_data. destruct i as [|a [|b i]]; try exact I. cbn [p_u16 bind]. unbytes B. unfold is_byte in *.
  unfold usub. destruct (Z.ltb_spec (256 * a + b) 2) as [L|L].
  - destruct dbg; cbn [bind]; [eauto 10|]. pose proof (p_take_safe (wrap 16 (256 * a + b - 2)) i) as Sf. destruct (p_take (wrap 16 (256 * a + b - 2)) i) as [[data rest]| | |] eqn:E; try contradiction; [|exact I].
    apply p_take_inv in E; [|apply Z.mod_pos_bound; reflexivity]. destruct E as [-> L2]. apply Forall_app in B. split; [|apply B]. exists a, b, rest. split; [reflexivity|]. exact L2.
  - cbn [bind]. pose proof (p_take_safe (256 * a + b - 2) i) as Sf. destruct (p_take (256 * a + b - 2) i) as [[data rest]| | |] eqn:E; try contradiction; [|exact I].
    apply p_take_inv in E; [|lia]. destruct E as [-> L2]. apply Forall_app in B. split; [|apply B]. exists a, b, rest. split; [reflexivity|]. rewrite Z.mod_small by lia. exact L2.
Qed.

Lemma table_panics : forall dbg counts values q, counts_ok counts -> lenZ values = total_codes counts -> table_new dbg counts values = Panic q ->
  total_codes counts = 0 \/ dbg = true /\ 256 < total_codes counts.
Proof.
  intros dbg counts values q C L E. destruct (table_new_spec dbg counts values C L) as [T1 [T2 [T3 T4]]].
  assert (T0 : 0 <= total_codes counts) by (rewrite <- L; unfold lenZ; lia).
  destruct (Z.eq_dec (total_codes counts) 0) as [Z0|Z0]; [auto|]. destruct (Z_lt_dec 256 (total_codes counts)) as [B|B].
  - specialize (T4 B). destruct dbg; [auto|]. congruence.
  - destruct (Z_le_dec (kraft counts) (2 ^ 16)) as [K|K]; [destruct T1 as [t [T1 _]]; try lia; congruence|rewrite T2 in E by lia; discriminate].
Qed.
Lemma table_built : forall dbg c th counts values tab, 0 <= th <= 3 -> counts_ok counts -> bytes values -> lenZ values = total_codes counts -> table_new dbg counts values = Ok tab ->
  dht_ok (mkDht c th counts values).
Proof.
  intros dbg c th counts values tab D C V L E. destruct (table_new_spec dbg counts values C L) as [T1 [T2 [T3 T4]]].
  assert (T0 : 0 <= total_codes counts) by (rewrite <- L; unfold lenZ; lia).
  assert (N0 : total_codes counts <> 0) by (intros Q; rewrite T3 in E by exact Q; discriminate).
  assert (N1 : ~ 256 < total_codes counts) by (intros Q; rewrite T4 in E by exact Q; destruct dbg; discriminate).
  assert (N2 : ~ 2 ^ 16 < kraft counts) by (intros Q; rewrite T2 in E by lia; discriminate).
  unfold dht_ok. cbn [th_dest th_counts th_values]. splits; auto; lia.
Qed.

Lemma dht_panics : forall dbg fuel d i d' q, bytes i -> four_slots d -> (length i <= fuel)%nat -> seg_dht dbg fuel d i = (d', Panic q) ->
  exists ts t more, i = flat_map dht_bytes ts ++ dht_bytes t ++ more /\ Forall dht_ok ts /\ 0 <= th_dest t <= 3 /\ counts_ok (th_counts t) /\
    lenZ (th_values t) = total_codes (th_counts t) /\ (total_codes (th_counts t) = 0 \/ dbg = true /\ 256 < total_codes (th_counts t)).
Proof.
  intros dbg. induction fuel as [|fuel IH]; intros d i d' q B F L E; [destruct i; cbn in *; [discriminate|lia]|].
  destruct i as [|x i]; [discriminate|]. rewrite seg_dht_unfold in E by discriminate.
  pose proof (huffman_table_safe (x :: i)) as HS. destruct (huffman_table (x :: i)) as [[[[[c th] ls] vs] i']|e|p|] eqn:H; try contradiction; [|discriminate].
  destruct (huffman_table_inv _ _ _ _ _ _ B H) as [Ei [Ht [C [V Lv]]]].
  assert (Sl : four_slots d -> forall q, store_huffman dbg d c th ls vs = Panic q -> table_new dbg ls vs = Panic q).
  { intros [A1 [A2 A3]] q0 Es. unfold store_huffman, ac_new in Es. destruct c; (destruct (table_new dbg ls vs) as [tb|e|q1|]; cbn [bind] in Es; [|discriminate|congruence|discriminate]);
      rewrite store_in in Es by (unfold lenZ; lia); discriminate. }
  destruct (store_huffman dbg d c th ls vs) as [d1|e|p|] eqn:Es; try discriminate.
  - assert (T : exists tab, table_new dbg ls vs = Ok tab).
    { unfold store_huffman, ac_new in Es. destruct c; destruct (table_new dbg ls vs) as [tb|e|q1|]; cbn [bind] in Es; try discriminate; eauto. }
    destruct T as [tab T].
    assert (F1 : four_slots d1).
    { destruct F as [A1 [A2 A3]]. unfold store_huffman in Es. destruct c; binv Es; binv Es; inv Es; apply store_Ok in E1; destruct E1 as [_ ->]; unfold four_slots; cbn; rewrite ?upd_length; auto. }
    assert (Bi : bytes i') by (rewrite Ei in B; apply Forall_app in B; apply B).
    assert (Li : (length i' <= fuel)%nat).
    { apply (f_equal (@length _)) in Ei. rewrite app_length in Ei. unfold dht_bytes in Ei. cbn [length] in *. lia. }
    destruct (IH d1 i' d' q Bi F1 Li E) as [ts [t [more [-> [Ft R]]]]]. exists (mkDht c th ls vs :: ts), t, more. split; [cbn [flat_map]; rewrite <- app_assoc; exact Ei|].
    split; [constructor; [eapply table_built; eauto|exact Ft]|exact R].
  - specialize (Sl F _ eq_refl). apply table_panics in Sl; auto. exists [], (mkDht c th ls vs), i'. cbn [flat_map app th_dest th_counts th_values]. splits; auto; lia.
Qed.

Lemma in_range : forall A (l : list A) i, 0 <= i < lenZ l -> exists x, index l i = Ok x.
Proof.
  intros A l i H. unfold index. destruct (Z.ltb_spec i 0); [lia|]. destruct (nth_error l (Z.to_nat i)) eqn:E; [eauto|]. apply nth_error_None in E. unfold lenZ in *. lia.
Qed.
Lemma set_bits_quiet : forall dbg js x, (dbg = true -> Forall (fun j => j < 64) js) -> exists y, set_bits dbg js x = Ok y.
Proof.
  intros dbg. induction js as [|j js IH]; intros x H; cbn [set_bits]; [eauto|]. destruct (Z.leb_spec 64 j) as [L|L].
  - destruct dbg; [specialize (H eq_refl); inv H; lia|]. apply IH. discriminate.
  - apply IH. intros D. specialize (H D). inv H. auto.
Qed.
Lemma mark_quiet : forall dbg js hs fin, length fin = 4%nat -> Forall (fun h => 0 <= h_index h < 4) hs -> (dbg = true -> Forall (fun j => j < 64) js) ->
  exists fin', mark_finished dbg js hs fin = Ok fin'.
Proof.
  intros dbg js. induction hs as [|h hs IH]; intros fin L F H; cbn [mark_finished]; [eauto|]. inv F. destruct js as [|j js]; [eauto|].
  destruct (in_range _ fin (h_index h)) as [x Ex]; [unfold lenZ; lia|]. rewrite Ex. cbn [bind]. destruct (set_bits_quiet dbg (j :: js) x H) as [y Ey]. rewrite Ey. cbn [bind].
  rewrite store_in by (unfold lenZ; lia). cbn [bind]. apply IH; auto. rewrite upd_length. exact L.
Qed.
Lemma all_quiet : forall fin hs, length fin = 4%nat -> Forall (fun h => 0 <= h_index h < 4) hs -> exists x, all_finished fin hs = Ok x.
Proof.
  intros fin hs L F. induction F as [|h hs H F IH]; cbn [all_finished]; [eauto|]. destruct (in_range _ fin (h_index h)) as [x Ex]; [unfold lenZ; lia|]. rewrite Ex. cbn [bind].
  destruct (x =? 2 ^ 64 - 1); eauto.
Qed.
Lemma unset_quiet : forall A (ts : list (option A)) xs, length ts = 4%nat -> Forall (fun x => 0 <= x < 4) xs -> exists x, any_unset ts xs = Ok x.
Proof.
  intros A ts xs L F. induction F as [|x xs H F IH]; cbn [any_unset]; [eauto|]. destruct (in_range _ ts x) as [y Ey]; [unfold lenZ; lia|]. rewrite Ey. cbn [bind].
  destruct y; eauto.
Qed.

Lemma scan_of_headers : forall fr s ks, scan_in_frame fr s ks -> Forall (fun h => 0 <= h_index h < lenZ (f_components fr) /\
  exists c, In c (sp_comps s) /\ h_dc h = sc_dc c /\ h_ac h = sc_ac c) (s_headers (scan_of s ks)).
Proof.
  intros fr s ks [_ [F _]]. unfold scan_of. cbn [s_headers]. rewrite Forall_forall. intros h Hh. apply in_map_iff in Hh. destruct Hh as [[c k] [<- Hin]].
  unfold header_of. cbn [fst snd h_index h_dc h_ac]. split; [|exists c; split; [eapply in_combine_l; eauto|auto]].
  assert (X : Forall2 (fun c k => component_at fr (sc_id c) k) (sp_comps s) ks).
  { clear Hin. remember (map sc_id (sp_comps s)) as ids eqn:Q. revert Q. generalize (sp_comps s). induction F as [|i k0 ids ks C F IH]; intros [|x l] Q; try discriminate; constructor; cbn [map] in Q; inversion Q; subst; auto. }
  assert (Y : component_at fr (sc_id c) k).
  { clear F. induction X as [|c0 k0 cs' ks' C X IH]; [contradiction|]. destruct Hin as [Q|Hin]; [inversion Q; subst; exact C|auto]. }
  exact (component_at_range _ _ _ Y).
Qed.

Lemma sos_cause : forall dbg rayon d0 input d rest bits count data b d' b' q, dec_ok d -> fin_ok (d_finished d) -> marks d -> bytes data -> payload rest data ->
  from dbg false rayon (PcMarker, d0, biter_new input) (PcSegment SOS, d, mkBiter rest bits count) ->
  do_sos dbg d b data = (d', b', SStop (RPanic q)) -> certain_cause dbg rayon d0 input \/ possible_cause dbg rayon d0 input.
Proof.
  intros dbg rayon d0 input d rest bits count data b d' b' q K FO M B Pl From E.
  assert (AS : at_segment dbg rayon d0 input SOS d rest) by (exists bits, count; exact From).
  unfold do_sos in E. pose proof (sos_segment_safe (d_frame d) data) as SS. destruct (sos_segment (d_frame d) data) as [[sc r]|[]| |] eqn:Sg; try contradiction; try discriminate.
  destruct (sos_some _ _ _ _ Sg) as [_ Nf]. destruct (d_frame d) as [fr|] eqn:Fr; [clear Nf|congruence].
  pose proof (ok_frame d K fr Fr) as FG. pose proof (frame_256 fr FG) as F256.
  destruct (sos_segment_inv fr data sc r F256 B Sg) as [s [ks [So [Sf [Ed ->]]]]].
  assert (Pd : payload rest (sos_bytes s ++ r)) by (rewrite <- Ed; exact Pl).
  destruct (Z_lt_dec 4 (lenZ (f_components fr))) as [F4|F4]; [right; eapply cause_five_components; eauto|].
  destruct (Z.eq_dec (f_marker fr) 2) as [M2|M2]; [left; eapply cause_progressive; eauto|].
  pose proof (scan_of_headers fr s ks Sf) as Hd.
  assert (H4 : Forall (fun h => 0 <= h_index h < 4) (s_headers (scan_of s ks))) by (eapply Forall_impl; [|exact Hd]; cbn beta; intros h [? _]; lia).
  assert (Bd : (dbg = true /\ sp_low s = 0 /\ 63 < sp_end s /\ sp_start s <= sp_end s) \/
               (s_low (scan_of s ks) = 0 -> dbg = true -> Forall (fun j => j < 64) (z_from_to (s_start (scan_of s ks)) (s_end (scan_of s ks))))).
  { destruct (Z_lt_dec 63 (sp_end s)) as [L|L].
    - destruct dbg; [|right; discriminate]. destruct (Z.eq_dec (sp_low s) 0) as [Q|Q]; [|right; intros Q'; contradiction]. destruct (Z_le_dec (sp_start s) (sp_end s)) as [Q1|Q1]; [auto|].
      right. intros _ _. unfold z_from_to. apply Forall_map. rewrite Forall_forall. intros k Hk. apply zrange_range in Hk. cbn [scan_of s_start s_end] in *. lia.
    - right. intros _ _. unfold z_from_to. apply Forall_map. rewrite Forall_forall. intros k Hk. apply zrange_range in Hk. cbn [scan_of s_start s_end] in *. lia. }
  destruct Bd as [[D [Lo [L1 L2]]]|Bd]; [left; eapply cause_band; eauto|].
  assert (Sel : Forall (fun c => sc_dc c <= 3 /\ sc_ac c <= 3) (sp_comps s) \/ exists c, In c (sp_comps s) /\ (3 < sc_dc c \/ 3 < sc_ac c)).
  { apply forall_or. intros c _. lia. }
  destruct Sel as [Sel|[c [Hc Sel]]]; [|right; eapply cause_selector; eauto].
  exfalso. unfold sos_begin in E. cbn [set_scan d_frame d_finished] in E. rewrite Fr in E. specialize (M fr Fr).
  assert (Cp : coding_process fr = Ok Baseline \/ coding_process fr = Ok Sequential).
  { unfold coding_process. assert (O : f_marker fr = 0 \/ f_marker fr = 1) by lia. destruct O as [-> | ->]; cbn; auto. }
  assert (Mk : exists fin, (if s_low (scan_of s ks) =? 0 then mark_finished dbg (z_from_to (s_start (scan_of s ks)) (s_end (scan_of s ks))) (s_headers (scan_of s ks)) (d_finished d) else Ok (d_finished d)) = Ok fin /\ length fin = 4%nat).
  { destruct (Z.eqb_spec (s_low (scan_of s ks)) 0) as [Q|Q]; [|exists (d_finished d); split; [reflexivity|apply FO]].
    destruct (mark_quiet dbg _ _ (d_finished d) (proj1 FO) H4 (Bd Q)) as [fin Ef]. exists fin. split; [exact Ef|]. apply (mark_range _ _ _ _ _ Ef FO). }
  destruct Mk as [fin [Ef Lf]].
  assert (Xs : Forall (fun x => 0 <= x < 4) (map h_dc (s_headers (scan_of s ks))) /\ Forall (fun x => 0 <= x < 4) (map h_ac (s_headers (scan_of s ks)))).
  { destruct So as [Sc _]. rewrite Forall_forall in Sc, Sel. split; apply Forall_map; (eapply Forall_impl; [|exact Hd]); cbn beta; intros h [_ [c [Hc [Q1 Q2]]]]; rewrite ?Q1, ?Q2;
      destruct (Sel c Hc); destruct (Sc c Hc) as [S1 [S2 S3]]; unfold nibble in *; lia. }
  destruct Xs as [X1 X2]. destruct (ok_slots d K) as [L1 [L2 _]].
  destruct (all_quiet fin _ Lf H4) as [final Ea].
  set (d1 := set_finished (set_scan d (Some (scan_of s ks))) fin) in *.
  assert (SI : exists d2, scan_init final d1 = Ok d2 \/ exists e, scan_init final d1 = Fail e).
  { unfold scan_init. subst d1. cbn [set_finished set_scan d_frame d_scan d_dc d_ac]. rewrite Fr.
    destruct (unset_quiet _ (d_dc d) _ L1 X1) as [u1 U1]. destruct (unset_quiet _ (d_ac d) _ L2 X2) as [u2 U2]. rewrite U1, U2.
    destruct (s_start (scan_of s ks) =? 0); cbn [bind]; [destruct u1; [exists decoder_default; eauto|]|];
      (destruct (1 <? s_end (scan_of s ks)); cbn [bind]; [destruct u2; [exists decoder_default; eauto|]|]);
      (destruct final; [unfold assert_; replace (lenZ (f_components fr) <=? 4) with true by lia|]; cbn [bind]; eauto). }
  assert (E' : match scan_init final d1 with
               | Ok d2 => (d2, b, SNext (PcScan final (mcu_list (match d_frame d2 with Some fr => f_mcu fr | None => mkDims 0 0 end)) PhRow))
               | Fail e => (d1, b, SStop (RFail e)) | Panic p => (d1, b, SStop (RPanic p)) | UB => (d1, b, SStop RUB) end = (d', b', SStop (RPanic q))).
  { destruct Cp as [Cp|Cp]; rewrite Cp, Ef, Ea in E; exact E. }
  destruct SI as [d2 [SI|[e SI]]]; rewrite SI in E'; discriminate.
Qed.

Lemma dqt_quiet : forall fuel d i, bytes i -> length (d_qt d) = 4%nat -> (length i <= fuel)%nat -> returns (snd (seg_dqt fuel d i)).
Proof.
  intros fuel d i B L Li. destruct (seg_dqt_any fuel d i B L Li) as [ts [rest [l [_ [_ [_ [[_ E]|[_ [e [_ E]]]]]]]]]]; rewrite E; exact I.
Qed.

Lemma segment_cause : forall dbg rayon d0 input m d b d' b' q, dec_ok d -> good b -> fin_ok (d_finished d) -> marks d ->
  from dbg false rayon (PcMarker, d0, biter_new input) (PcSegment m, d, b) ->
  step dbg false rayon (PcSegment m) d b = (d', b', SStop (RPanic q)) -> certain_cause dbg rayon d0 input \/ possible_cause dbg rayon d0 input.
Proof.
  intros dbg rayon d0 input m d [rest bits count] d' b' q K [_ G] FO M From E. cbn [bi_input] in G.
  assert (AS : at_segment dbg rayon d0 input m d rest) by (exists bits, count; exact From).
  cbn [step bi_input bi_bits bi_count] in E. destruct (no_segment m) eqn:Ns; [discriminate|].
  pose proof (segment_data_cases dbg rest G) as SD. destruct (segment_data dbg rest) as [[data more]|e|p|]; [| destruct e; discriminate| |contradiction].
  2:{ destruct SD as [l1 [l0 [r' [-> [D L]]]]]. left; apply (cause_length _ _ _ _ m d l1 l0 r' AS); auto. destruct m; try discriminate Ns; exact I. }
  destruct SD as [Pl Bd].
  assert (X : forall r, seg_end m (fst (seg_payload dbg m d data)) (mkBiter more bits count) (snd (seg_payload dbg m d data)) = r -> m <> SOS -> r = (d', b', SStop (RPanic q)) ->
     exists q, snd (seg_payload dbg m d data) = Panic q).
  { intros r <- _ Q. unfold seg_end in Q. destruct (snd (seg_payload dbg m d data)) as [u|[]|p|]; try discriminate. eauto. }
  destruct (seg_payload dbg m d data) as [d1 r1] eqn:SP. cbn [fst snd] in X.
  destruct m as [|n0| | | | |n|n1| |]; try discriminate Ns.
  5:{ eapply sos_cause; eauto. }
  all: specialize (X _ eq_refl ltac:(discriminate) E); destruct X as [q1 ->]; cbn [seg_payload] in SP.
  - destruct (sof dbg n0 data) as [[fr r]|e|p|] eqn:Es; try discriminate.
    pose proof (sof_safe dbg n0 data Bd) as Sf. rewrite Es in Sf. cbn in Sf. destruct (Z.eq_dec (nth 5 data 1) 0) as [Z0|Z0]; [|contradiction (Sf Z0)].
    destruct data as [|x0 [|x1 [|x2 [|x3 [|x4 [|x5 data]]]]]]; cbn in Z0; try discriminate. subst x5. left; eapply cause_no_component; eauto.
  - destruct (dht_panics dbg (length data) d data d1 q1 Bd (ok_slots d K) (le_n _) SP) as [ts [t [mr [Ei [F [H1 [H2 [H3 H4]]]]]]]]. rewrite Ei in Pl. left; eapply cause_huffman; eauto.
  - pose proof (dqt_quiet (length data) d data Bd (proj2 (proj2 (ok_slots d K))) (le_n _)) as R. rewrite SP in R. contradiction.
  - pose proof (p_u16_safe data) as R. destruct (p_u16 data) as [[x y]| | |]; try contradiction; discriminate.
  - destruct (n1 =? 14); [|discriminate]. pose proof (app_adobe_safe data) as R. destruct (app_adobe data) as [[x y]| | |]; try contradiction; discriminate.
Qed.

(** ** EOI *)
Lemma planes_for_dec : forall fr ps, planes_for fr ps \/ ~ planes_for fr ps.
Proof.
  intros fr ps. unfold planes_for. revert ps. induction (f_components fr) as [|c cs IH]; intros [|p ps]; [left; constructor|right; intros H; inv H|right; intros H; inv H|].
  destruct (IH ps) as [F|F]; [|right; intros H; inv H; contradiction].
  destruct (Z.eq_dec (lenZ p) (64 * (dim_w (c_block_size c) * dim_h (c_block_size c)))) as [Q|Q]; [left; constructor; auto|right; intros H; inv H; contradiction].
Qed.
Lemma doubling_dec : forall rayon lines samples cs c, cannot_double rayon lines samples cs c \/ ~ cannot_double rayon lines samples cs c.
Proof.
  intros. unfold cannot_double. apply Decidable.dec_and; [apply Z.eq_decidable|]. apply Decidable.dec_and; [apply Z.eq_decidable|].
  apply Decidable.dec_or; [apply Decidable.dec_not, Z.eq_decidable|apply Z.lt_decidable].
Qed.

Lemma marker_cause : forall dbg rayon d0 input d b d' b' q, dec_ok d -> from dbg false rayon (PcMarker, d0, biter_new input) (PcMarker, d, b) ->
  step dbg false rayon PcMarker d b = (d', b', SStop (RPanic q)) -> certain_cause dbg rayon d0 input \/ possible_cause dbg rayon d0 input.
Proof.
  intros dbg rayon d0 input d b d' b' q K From E. cbn [step] in E.
  destruct (parse_marker_total (bi_input b)) as [[m [rest Pm]]|[Pm|Pm]]; rewrite Pm in E; try discriminate.
  assert (m = EOI) by (destruct m; try discriminate E; reflexivity). subst m.
  apply parse_marker_ok in Pm. destruct Pm as [c [C FM]]. inv C.
  assert (AE : at_end dbg rayon d0 input d rest) by (destruct b as [buf bits count]; exists buf, bits, count; auto). clear From FM.
  destruct (upsample_image dbg rayon d) as [img|e|p|] eqn:U; try discriminate. clear E.
  destruct (d_frame d) as [fr|] eqn:Fr; [|left; eapply cause_no_frame; eauto].
  destruct (ok_frame d K fr Fr) as [m [pr [lines [samples [cs [-> HO]]]]]]. set (fr := frame_of m pr lines samples cs) in *.
  assert (El : lenZ (f_components fr) = lenZ cs) by (unfold fr, frame_of, lenZ; cbn [f_components]; rewrite map_length; reflexivity).
  assert (Cn : lenZ cs = 3 \/ lenZ cs = 4 \/ lenZ cs <> 3 /\ lenZ cs <> 4) by lia.
  destruct Cn as [C3|[C4|[N3 N4]]]; [| |left; eapply cause_components; eauto; congruence].
  all: destruct (Z.eq_dec samples 0) as [S0|S0]; [right; eapply cause_no_width; [eauto|exact Fr|exact S0]|].
  all: assert (Big : (exists x, (x = tt) /\ (0 < lines -> planes_for fr (d_planes d) /\ (lenZ cs = 4 -> forall t, d_color d = Some t -> t = AdobeUnknown) /\ forall c, In c cs -> ~ cannot_double rayon lines samples cs c)) \/ possible_cause dbg rayon d0 input).
  1,3: destruct (Z_lt_dec 0 lines) as [L0|L0]; [|left; exists tt; split; [reflexivity|lia]];
    (destruct (planes_for_dec fr (d_planes d)) as [PF|PF]; [|right; eapply cause_planes; [eauto|exact Fr|exact L0|exact PF]]);
    (assert (Y : (lenZ cs = 4 -> forall t, d_color d = Some t -> t = AdobeUnknown) \/ possible_cause dbg rayon d0 input);
       [destruct (Z.eq_dec (lenZ cs) 4) as [Q4|Q4]; [|left; lia]; destruct (d_color d) as [t|] eqn:Ct; [|left; discriminate];
        assert (Ta : t = AdobeUnknown \/ t <> AdobeUnknown) by (destruct t; auto; right; discriminate); destruct Ta as [Ta|Ta]; [left; intros _ t' Q; congruence|];
        right; eapply cause_ycck; [eauto|exact Fr|exact L0|congruence|exact Ct|exact Ta]
       |]); destruct Y as [Y|Y]; [|right; exact Y];
    (destruct (forall_or _ (fun c => ~ cannot_double rayon lines samples cs c) (cannot_double rayon lines samples cs) cs) as [F|[c [Hc Dc]]];
       [intros c _; destruct (doubling_dec rayon lines samples cs c); auto| |right; eapply cause_doubling; [eauto|exact Fr|exact L0|exact Hc|exact Dc]]);
    left; exists tt; split; [reflexivity|]; intros _; split; [exact PF|split; [exact Y|]]; rewrite Forall_forall in F; exact F.
  all: destruct Big as [[x [_ Big]]|Big]; [|right; exact Big]; exfalso;
    pose proof (image_quiet dbg rayon d m pr lines samples cs HO Fr (ok_planes d K) ltac:(auto) S0 Big) as R; rewrite U in R; exact R.
Qed.

(** ** The whole call *)
Lemma run_cause : forall dbg rayon d0 input fuel p d b d' b' r, from dbg false rayon (PcMarker, d0, biter_new input) (p, d, b) ->
  dec_ok d -> good b -> pc_ok p d -> fin_ok (d_finished d) -> marks d -> started p d -> (measure p b < fuel)%nat ->
  run dbg false rayon fuel p d b = (d', b', r) ->
  (forall q, r = RPanic q -> certain_cause dbg rayon d0 input \/ possible_cause dbg rayon d0 input) /\
  (bi_input b' <> [] -> (exists img, r = RImage img) \/ (exists e, r = RError e) -> certain_cause dbg rayon d0 input).
Proof.
  intros dbg rayon d0 input. induction fuel as [|fuel IH]; intros p d b d' b' r From K G P FO M S L E; [lia|]. cbn [run] in E.
  destruct (step dbg false rayon p d b) as [[d1 b1] s] eqn:St. pose proof (step_inv dbg false rayon p d b K G P) as SI. rewrite St in SI. destruct SI as [K1 [G1 [_ R1]]].
  destruct s as [p1|r1].
  - destruct R1 as [P1 L1]. eapply IH; [| | | | | | | |exact E]; auto; [eapply from_next; [exact From|exact St]| | | |lia].
    + apply (proj2 (proj2 (step_kept _ _ _ _ _ _ _ _ _ St))). exact FO.
    + exact (step_marks _ _ _ _ _ _ _ _ K G P M S St).
    + exact (step_started _ _ _ _ _ _ _ _ K G M St).
  - inversion E; subst; clear E. split.
    + intros q ->. destruct p as [|m|final todo ph]; [exact (marker_cause _ _ _ _ _ _ _ _ _ K From St)|exact (segment_cause _ _ _ _ _ _ _ _ _ _ K G FO M From St)|right; exact (scan_cause _ _ _ _ _ _ _ _ _ _ _ _ K G P FO M S From St)].
    + intros Tr Ri. assert (X : p = PcMarker /\ exists buf, first_marker buf 0xD9 (bi_input b') /\ bi_input b = buf).
      { clear - St Ri. destruct p as [|m|final todo ph]; cbn [step] in St.
        - split; [reflexivity|]. destruct (parse_marker (bi_input b)) as [[m rest]|[]|q|] eqn:Pm; try (destruct Ri as [[? Ri]|[? Ri]]; inv St; discriminate).
          apply parse_marker_ok in Pm. destruct Pm as [c [C FM]]. destruct m; try discriminate. inv C.
          exists (bi_input b). split; [|reflexivity]. destruct (upsample_image dbg rayon d); inv St; exact FM.
        - exfalso. destruct (no_segment m); [discriminate|]. destruct (segment_data dbg (bi_input b)) as [[data rest]|[]|q|]; try (destruct Ri as [[? Ri]|[? Ri]]; inv St; discriminate).
          assert (Y : (let '(d1, r1) := seg_payload dbg m d data in seg_end m d1 (mkBiter rest (bi_bits b) (bi_count b)) r1) = (d', b', SStop r) -> False).
          { destruct (seg_payload dbg m d data) as [d1 r1]. unfold seg_end. intros Q. destruct Ri as [[? ->]|[? ->]]; destruct r1 as [u|[]| |]; discriminate. }
          destruct m; try exact (Y St). unfold do_sos in St. destruct (sos_segment (d_frame d) data) as [[sc i]|[]| |]; try (destruct Ri as [[? Ri]|[? Ri]]; inv St; discriminate).
          destruct (sos_begin dbg d sc) as [d1 [final|e|q|]]; try (destruct Ri as [[? Ri]|[? Ri]]; inv St; discriminate).
          destruct (scan_init final d1) as [d2| | |]; try (destruct Ri as [[? Ri]|[? Ri]]; inv St; discriminate).
        - exfalso. destruct (scan_loop dbg false final todo ph d b) as [[d1 b1] r1]. destruct Ri as [[? ->]|[? ->]]; destruct r1; try discriminate; destruct (scan_finish d1); discriminate. }
      destruct X as [-> [buf [FM Eb]]]. eapply cause_trailing; [|exact Tr]. destruct b as [bf bits count]. cbn [bi_input] in Eb. subst bf. exists buf, bits, count. eauto.
Qed.

Lemma run_state : forall dbg rayon fuel p d b, dec_ok d -> good b -> pc_ok p d -> fin_ok (d_finished d) -> marks d -> started p d ->
  let x := fst (fst (run dbg false rayon fuel p d b)) in fin_ok (d_finished x) /\ marks x.
Proof.
  intros dbg rayon. induction fuel as [|fuel IH]; intros p d b K G P FO M S; cbn [run]; [cbn; auto|].
  destruct (step dbg false rayon p d b) as [[d1 b1] s] eqn:St. pose proof (step_inv dbg false rayon p d b K G P) as SI. rewrite St in SI. destruct SI as [K1 [G1 [_ R1]]].
  assert (F1 : fin_ok (d_finished d1)) by (apply (proj2 (proj2 (step_kept _ _ _ _ _ _ _ _ _ St))); exact FO).
  assert (M1 : marks d1) by exact (step_marks _ _ _ _ _ _ _ _ K G P M S St).
  destruct s as [p1|r1]; [|cbn; auto]. destruct R1 as [P1 _]. apply IH; auto. exact (step_started _ _ _ _ _ _ _ _ K G M St).
Qed.
Lemma reachable_state : forall dbg rayon d, reachable dbg rayon d -> fin_ok (d_finished d) /\ marks d.
Proof.
  induction 1 as [|d input R IH B].
  - split; [split; [reflexivity|repeat constructor; lia]|]. intros fr Q. discriminate.
  - destruct IH as [F M]. unfold decode.
    pose proof (run_state dbg rayon (run_fuel (biter_new input)) PcMarker d (biter_new input) (reachable_ok _ _ _ R) (good_start _ B) Logic.I F M Logic.I) as X.
    destruct (run dbg false rayon (run_fuel (biter_new input)) PcMarker d (biter_new input)) as [[d1 b1] r]. exact X.
Qed.

Theorem panic_has_cause : forall dbg rayon d input p, reachable dbg rayon d -> bytes input -> snd (decode dbg rayon d input) = Panic p ->
  certain_cause dbg rayon d input \/ possible_cause dbg rayon d input.
Proof.
  intros dbg rayon d input p R B E. destruct (reachable_state _ _ _ R) as [F M]. unfold decode in E.
  destruct (run dbg false rayon (run_fuel (biter_new input)) PcMarker d (biter_new input)) as [[d1 b1] r] eqn:Rn.
  destruct (run_cause dbg rayon d input _ _ _ _ _ _ _ (from_here _ _ _ _) (reachable_ok _ _ _ R) (good_start _ B) Logic.I F M Logic.I (run_fuel_enough _ _) Rn) as [C1 C2].
  cbn [snd] in E. destruct r as [img|e|p'|e|q|]; try discriminate.
  - destruct (bi_input b1) eqn:Eb; [discriminate|]. left. apply C2; [congruence|eauto].
  - destruct (bi_input b1) eqn:Eb; [discriminate|]. left. apply C2; [congruence|eauto].
  - eapply C1; eauto.
Qed.

(** ** The certain causes *)
Lemma call_from : forall dbg rayon d0 input p d b d' b' r, reachable dbg rayon d0 -> bytes input -> from dbg false rayon (PcMarker, d0, biter_new input) (p, d, b) ->
  step dbg false rayon p d b = (d', b', SStop r) -> run dbg false rayon (run_fuel (biter_new input)) PcMarker d0 (biter_new input) = (d', b', r).
Proof.
  intros dbg rayon d0 input p d b d' b' r R B From St.
  assert (X : forall c c', from dbg false rayon c c' -> forall p d b p' d' b', c = (p, d, b) -> c' = (p', d', b') -> dec_ok d -> good b -> pc_ok p d ->
     exists j, (measure p' b' + j <= measure p b)%nat /\ forall n, run dbg false rayon (j + n) p d b = run dbg false rayon n p' d' b').
  { clear. intros c c' H. induction H as [|c1 c2 H IH M]; intros p d b p' d' b' E1 E2 K G P.
    - assert (Y : (p, d, b) = (p', d', b')) by congruence. inv Y. exists 0%nat. split; [lia|reflexivity].
    - destruct c1 as [[p1 d1] b1]. subst c2. cbn [moves] in M. destruct (IH _ _ _ _ _ _ E1 eq_refl K G P) as [j [L1 Rn]].
      destruct (from_inv dbg rayon _ _ H _ _ _ _ _ _ E1 eq_refl K G P) as [K1 [G1 P1]].
      pose proof (step_inv dbg false rayon p1 d1 b1 K1 G1 P1) as SI. rewrite M in SI. destruct SI as [_ [_ [_ [_ L2]]]].
      exists (j + 1)%nat. split; [lia|]. intros n. replace (j + 1 + n)%nat with (j + S n)%nat by lia. rewrite Rn. cbn [run]. rewrite M. reflexivity. }
  destruct (X _ _ From _ _ _ _ _ _ eq_refl eq_refl (reachable_ok _ _ _ R) (good_start _ B) Logic.I) as [j [L Rn]].
  pose proof (run_fuel_enough PcMarker (biter_new input)) as Fu.
  replace (run_fuel (biter_new input)) with (j + S (run_fuel (biter_new input) - j - 1))%nat by lia. rewrite Rn. cbn [run]. rewrite St. reflexivity.
Qed.

Lemma payload_cases : forall dbg rest data, bytes rest -> payload rest data -> (exists more, segment_data dbg rest = Ok (data, more)) \/ (exists q, segment_data dbg rest = Panic q).
Proof.
  intros dbg rest data B [l1 [l0 [more [-> L]]]]. unfold segment_data. cbn [app p_u16 bind] in *. unbytes B. unfold is_byte in *. unfold usub. destruct (Z.ltb_spec (256 * l1 + l0) 2) as [Q|Q].
  - destruct dbg; cbn [bind]; [eauto|]. left. exists more. unfold wrap. change (2 ^ 16) with 65536. rewrite <- L. apply p_take_app.
  - cbn [bind]. left. exists more. rewrite Z.mod_small in L by lia. rewrite <- L. apply p_take_app.
Qed.

(** A payload that panics. *)
Lemma payload_panics : forall dbg rayon d0 input m d rest data, reachable dbg rayon d0 -> bytes input -> at_segment dbg rayon d0 input m d rest -> payload rest data ->
  with_length m -> (m <> SOS -> exists d' q, seg_payload dbg m d data = (d', Panic q)) ->
  (m = SOS -> forall b, exists d' q, do_sos dbg d b data = (d', b, SStop (RPanic q))) -> exists q, snd (decode dbg rayon d0 input) = Panic q.
Proof.
  intros dbg rayon d0 input m d rest data R B [bits [count From]] Pl W Hp Hs.
  destruct (from_inv dbg rayon _ _ From _ _ _ _ _ _ eq_refl eq_refl (reachable_ok _ _ _ R) (good_start _ B) Logic.I) as [K [[_ G] _]]. cbn [bi_input] in G.
  assert (X : exists d' b' q, step dbg false rayon (PcSegment m) d (mkBiter rest bits count) = (d', b', SStop (RPanic q))).
  { cbn [step bi_input bi_bits bi_count]. replace (no_segment m) with false by (destruct m; cbn in W; try contradiction; reflexivity).
    destruct (payload_cases dbg rest data G Pl) as [[more ->]|[q ->]]; [|eauto].
    assert (D : m = SOS \/ m <> SOS) by (destruct m; auto; right; discriminate). destruct D as [->|D].
    - destruct (Hs eq_refl (mkBiter more bits count)) as [d' [q ->]]. eauto.
    - destruct (Hp D) as [d' [q ->]]. exists d', (mkBiter more bits count), q. destruct m; try reflexivity. contradiction (D eq_refl). }
  destruct X as [d' [b' [q St]]]. exists q. unfold decode. rewrite (call_from _ _ _ _ _ _ _ _ _ _ R B From St). reflexivity.
Qed.

Lemma dht_reaches : forall dbg ts fuel d x r, four_slots d -> Forall dht_ok ts -> x <> [] ->
  (length (flat_map dht_bytes ts ++ x) <= fuel)%nat -> (forall fuel d, (length x <= fuel)%nat -> four_slots d -> exists d', seg_dht dbg fuel d x = (d', r)) ->
  exists d', seg_dht dbg fuel d (flat_map dht_bytes ts ++ x) = (d', r).
Proof.
  intros dbg. induction ts as [|t ts IH]; intros fuel d x r F4 F Nx L Hx; cbn [flat_map app] in *; [apply Hx; auto|].
  inversion F as [|? ? Ft Fts]; subst. rewrite <- app_assoc in *. rewrite !app_length in L.
  assert (Lb : (1 <= length (dht_bytes t))%nat) by (unfold dht_bytes; cbn; lia).
  destruct fuel as [|fuel]; [lia|]. rewrite seg_dht_unfold by (unfold dht_bytes; discriminate). rewrite (dht_parse t _ Ft).
  assert (S4 : exists d1, store_huffman dbg d (th_class t) (th_dest t) (th_counts t) (th_values t) = Ok d1 /\ four_slots d1).
  { destruct F4 as [A1 [A2 A3]]. destruct Ft as [Dt Ft']. unfold store_huffman. destruct (th_class t).
    - destruct (table_accepted dbg t (conj Dt Ft')) as [tab ->]. cbn [bind]. rewrite store_in by (unfold lenZ; lia). cbn [bind]. eexists. split; [reflexivity|]. unfold four_slots. cbn. rewrite upd_length. auto.
    - destruct (ac_accepted dbg t (conj Dt Ft')) as [tab ->]. cbn [bind]. rewrite store_in by (unfold lenZ; lia). cbn [bind]. eexists. split; [reflexivity|]. unfold four_slots. cbn. rewrite upd_length. auto. }
  destruct S4 as [d1 [-> S4]]. apply IH; auto. rewrite app_length. lia.
Qed.

Lemma set_bits_panics : forall js x j, In j js -> 64 <= j -> exists q, set_bits true js x = Panic q.
Proof.
  induction js as [|k js IH]; intros x j Hj L; [contradiction|]. cbn [set_bits]. destruct (Z.leb_spec 64 k) as [Q|Q]; [eauto|]. destruct Hj as [->|Hj]; [lia|]. eapply IH; eauto.
Qed.

Theorem certain_panics : forall dbg rayon d input, reachable dbg rayon d -> bytes input -> certain_cause dbg rayon d input -> exists p, snd (decode dbg rayon d input) = Panic p.
Proof.
  intros dbg rayon d0 input R B C.
  assert (End : forall d rest, at_end dbg rayon d0 input d rest -> (exists q, upsample_image dbg rayon d = Panic q) \/ rest <> [] -> exists p, snd (decode dbg rayon d0 input) = Panic p).
  { intros d rest [buf [bits [count [From FM]]]] H.
    assert (Pm : parse_marker buf = Ok (EOI, rest)) by (apply parse_marker_ok; exists 0xD9; split; [constructor|exact FM]).
    destruct (from_inv dbg rayon _ _ From _ _ _ _ _ _ eq_refl eq_refl (reachable_ok _ _ _ R) (good_start _ B) Logic.I) as [K [G P]].
    pose proof (step_inv dbg false rayon PcMarker d (mkBiter buf bits count) K G P) as SI.
    destruct (step dbg false rayon PcMarker d (mkBiter buf bits count)) as [[d' b'] s] eqn:St. assert (St' := St). cbn [step bi_input bi_bits bi_count] in St'. rewrite Pm in St'.
    destruct (upsample_image dbg rayon d) as [img|e|q|] eqn:U; (apply pair_equal_spec in St'; destruct St' as [St' Qs]; apply pair_equal_spec in St'; destruct St' as [Qd Qb]; subst d' b' s).
    - destruct H as [[q H]|H]; [discriminate|]. exists PAssert. unfold decode. rewrite (call_from _ _ _ _ _ _ _ _ _ _ R B From St). cbn [snd bi_input]. destruct rest; [contradiction|reflexivity].
    - destruct H as [[q H]|H]; [discriminate|]. exists PAssert. unfold decode. rewrite (call_from _ _ _ _ _ _ _ _ _ _ R B From St). cbn [snd bi_input]. destruct rest; [contradiction|reflexivity].
    - exists q. unfold decode. rewrite (call_from _ _ _ _ _ _ _ _ _ _ R B From St). reflexivity.
    - exfalso. apply SI. }
  assert (At : forall m d rest, at_segment dbg rayon d0 input m d rest -> dec_ok d).
  { intros m d rest [bits [count From]]. apply (from_inv dbg rayon _ _ From _ _ _ _ _ _ eq_refl eq_refl (reachable_ok _ _ _ R) (good_start _ B) Logic.I). }
  destruct C as [m d l1 l0 rest A W D L|n d rest pr a b e f more A Pl|d rest ts t more A Pl F T1 T2 T3 T4|d rest fr s ks more A Fr Pl So Sf Mk|d rest fr s ks more A Fr Pl So Sf D Lo En Se|d rest A Fr|d rest fr A Fr N3 N4|d rest A Nr].
  - destruct A as [bits [count From]]. exists POverflow. unfold decode.
    rewrite (call_from dbg rayon d0 input _ _ _ d (mkBiter (l1 :: l0 :: rest) bits count) (RPanic POverflow) R B From); [reflexivity|]. cbn [step bi_input bi_bits bi_count]. replace (no_segment m) with false by (destruct m; cbn in W; try contradiction; reflexivity).
    unfold segment_data. cbn [p_u16 bind]. unfold usub. replace (256 * l1 + l0 <? 2) with true by lia. rewrite D. reflexivity.
  - eapply payload_panics; eauto; [exact Logic.I| |discriminate]. intros _. cbn [seg_payload]. unfold sof. cbn [p_any p_u16 bind Z.to_nat p_count map max_unwrap]. eauto.
  - eapply payload_panics; eauto; [exact Logic.I| |discriminate]. intros _. cbn [seg_payload]. pose proof (ok_slots _ (At _ _ _ A)) as F4.
    assert (Tn : exists q, table_new dbg (th_counts t) (th_values t) = Panic q).
    { destruct (table_new_spec dbg _ _ T2 T3) as [_ [_ [Y3 Y4]]]. destruct T4 as [T4|[-> T4]]; [rewrite Y3 by exact T4; eauto|rewrite Y4 by exact T4; eauto]. }
    destruct Tn as [q Tn].
    assert (Pt : forall r, huffman_table (dht_bytes t ++ r) = Ok (th_class t, th_dest t, th_counts t, th_values t, r)).
    { intros r. unfold huffman_table, dht_bytes. cbn [app]. rewrite split_4_bit_nibbles by (unfold nibble; lia). cbn [bind]. rewrite class_new. replace (th_dest t <? 4) with true by lia.
      destruct T2 as [L16 _]. rewrite <- app_assoc. replace 16 with (lenZ (th_counts t)) by (unfold lenZ; lia). rewrite p_take_app. cbn [bind]. rewrite sumZ_total, <- T3, p_take_app. reflexivity. }
    assert (Nx : dht_bytes t ++ more <> []) by (unfold dht_bytes; discriminate).
    destruct (dht_reaches dbg ts (length (flat_map dht_bytes ts ++ dht_bytes t ++ more)) d (dht_bytes t ++ more) (Panic q) F4 F Nx (le_n _)) as [d' E]; [|exists d', q; exact E].
    intros fuel d1 Lf _. destruct fuel as [|fuel]; [unfold dht_bytes in Lf; cbn in Lf; lia|]. rewrite seg_dht_unfold by exact Nx. rewrite Pt. unfold store_huffman, ac_new. destruct (th_class t); rewrite Tn; cbn [bind]; eauto.
  - eapply payload_panics; eauto; [exact Logic.I|congruence|]. intros _ b. unfold do_sos. rewrite Fr. rewrite (sos_segment_ok fr s ks more (frame_256 fr (ok_frame _ (At _ _ _ A) fr Fr)) So Sf).
    unfold sos_begin. cbn [set_scan d_frame]. rewrite Fr. unfold coding_process. rewrite Mk. cbn. eauto.
  - eapply payload_panics; eauto; [exact Logic.I|congruence|]. intros _ b. unfold do_sos. rewrite Fr. rewrite (sos_segment_ok fr s ks more (frame_256 fr (ok_frame _ (At _ _ _ A) fr Fr)) So Sf).
    unfold sos_begin. cbn [set_scan d_frame d_finished]. rewrite Fr.
    assert (Mq : exists q, mark_finished dbg (z_from_to (s_start (scan_of s ks)) (s_end (scan_of s ks))) (s_headers (scan_of s ks)) (d_finished d) = Panic q).
    { assert (Hn : s_headers (scan_of s ks) <> []).
      { unfold scan_of. cbn [s_headers]. destruct Sf as [L1 [F2 _]]. destruct (sp_comps s) as [|c cs]; [unfold lenZ in L1; cbn in L1; lia|]. inversion F2; subst. discriminate. }
      destruct (s_headers (scan_of s ks)) as [|h hs]; [contradiction|]. cbn [mark_finished]. cbn [scan_of s_start s_end].
      assert (Hj : In (sp_end s) (z_from_to (sp_start s) (sp_end s))).
      { unfold z_from_to. apply in_map_iff. exists (sp_end s - sp_start s). split; [lia|]. unfold zrange. apply in_map_iff. exists (Z.to_nat (sp_end s - sp_start s)). split; [lia|]. apply in_seq. lia. }
      remember (z_from_to (sp_start s) (sp_end s)) as js eqn:Q. clear Q. destruct js as [|j js]; [contradiction|].
      unfold index. destruct (h_index h <? 0); cbn [bind]; [eauto|]. destruct (nth_error (d_finished d) (Z.to_nat (h_index h))) as [x|]; cbn [bind]; [|eauto].
      destruct (set_bits_panics (j :: js) x (sp_end s) Hj ltac:(lia)) as [q E]. rewrite D, E. cbn [bind]. eauto. }
    destruct Mq as [q Mq]. replace (s_low (scan_of s ks) =? 0) with true by (cbn [scan_of s_low]; lia). rewrite Mq.
    destruct (coding_process fr) as [[]|e|q'|] eqn:Cp; eauto; exfalso; unfold coding_process in Cp;
      repeat (match type of Cp with context [if ?c then _ else _] => destruct c end; try discriminate).
  - apply (End d rest A). left. unfold upsample_image. rewrite Fr. eauto.
  - apply (End d rest A). left. unfold upsample_image. rewrite Fr. cbv zeta. unfold choose_color_convert_func.
    replace (lenZ (f_components fr) =? 3) with false by lia. replace (lenZ (f_components fr) =? 4) with false by lia. cbn [bind]. eauto.
  - apply (End d rest A). right. exact Nr.
Qed.

Theorem no_cause_returns : forall dbg rayon d input, reachable dbg rayon d -> bytes input -> ~ certain_cause dbg rayon d input -> ~ possible_cause dbg rayon d input ->
  returns (snd (decode dbg rayon d input)).
Proof.
  intros dbg rayon d input R B N1 N2. pose proof (decode_no_ub dbg rayon d input R B) as U. pose proof (fun p => panic_has_cause dbg rayon d input p R B) as P.
  destruct (snd (decode dbg rayon d input)) as [img|e|p|]; try exact I; [|contradiction]. destruct (P p eq_refl); contradiction.
Qed.

(** ** Enumerating the transitions of a call *)
Fixpoint trace (dbg rayon : bool) (n : nat) (c : pc * decoder * biter) : list (pc * decoder * biter) :=
  match n with
  | O => []
  | S n => let '(p, d, b) := c in
           c :: match step dbg false rayon p d b with (d', b', SNext p') => trace dbg rayon n (p', d', b') | _ => [] end
  end.
Lemma trace_from : forall dbg rayon c c', from dbg false rayon c c' -> exists n, forall k, In c' (trace dbg rayon (n + k) c).
Proof.
  assert (Step : forall dbg rayon n c c1 c2, In c1 (trace dbg rayon n c) -> moves dbg false rayon c2 c1 -> In c2 (trace dbg rayon (S n) c)).
  { intros dbg rayon. induction n as [|n IH]; intros c c1 c2 H M; [contradiction|]. destruct c as [[p d] b]. remember (S n) as n1. cbn [trace]. subst n1. cbn [trace] in H. right.
    destruct H as [<-|H].
    - destruct c2 as [[p2 d2] b2]. cbn [moves] in M. rewrite M. cbn [trace]. left. reflexivity.
    - destruct (step dbg false rayon p d b) as [[d' b'] [p'|r]]; [|contradiction]. eapply IH; eauto. }
  intros dbg rayon c c' F. induction F as [|c1 c2 F [n IH] M].
  - exists 1%nat. intros k. destruct c as [[p d] b]. left. reflexivity.
  - exists (S n). intros k. cbn [Nat.add]. eapply Step; eauto.
Qed.
Lemma trace_stop : forall dbg rayon n k c, (length (trace dbg rayon n c) < n)%nat -> trace dbg rayon (k + n) c = trace dbg rayon n c.
Proof.
  intros dbg rayon. induction n as [|n IH]; intros k c L; [lia|]. replace (k + S n)%nat with (S (k + n)) by lia. destruct c as [[p d] b]. cbn [trace length] in *.
  destruct (step dbg false rayon p d b) as [[d' b'] [p'|r]]; [|reflexivity]. rewrite IH by (cbn [length] in L; lia). reflexivity.
Qed.
Lemma from_trace : forall dbg rayon n c, (length (trace dbg rayon n c) < n)%nat -> forall c', from dbg false rayon c c' -> In c' (trace dbg rayon n c).
Proof.
  intros dbg rayon n c L c' F. destruct (trace_from _ _ _ _ F) as [m H]. specialize (H n). rewrite trace_stop in H by exact L. exact H.
Qed.
(** No scan and no EOI: no possible cause. *)
Definition plain (c : pc * decoder * biter) : bool :=
  match c with
  | (PcMarker, _, b) => match parse_marker (bi_input b) with Ok (EOI, _) => false | _ => true end
  | (PcSegment SOS, _, _) => false
  | (PcSegment _, _, _) => true
  | (PcScan _ _ _, _, _) => false
  end.
Lemma plain_no_cause : forall dbg rayon d input n, (length (trace dbg rayon n (PcMarker, d, biter_new input)) < n)%nat ->
  forallb plain (trace dbg rayon n (PcMarker, d, biter_new input)) = true -> ~ possible_cause dbg rayon d input.
Proof.
  intros dbg rayon d input n L P C. rewrite forallb_forall in P.
  assert (X : forall c, from dbg false rayon (PcMarker, d, biter_new input) c -> plain c = true) by (intros c F; apply P; apply from_trace; auto).
  assert (NS : forall d1 rest, ~ at_segment dbg rayon d input SOS d1 rest) by (intros d1 rest [bits [count F]]; specialize (X _ F); discriminate).
  assert (NC : forall sc fr d1, ~ at_scan dbg rayon d input sc fr d1) by (intros sc fr d1 [fin [todo [b [F _]]]]; specialize (X _ F); discriminate).
  assert (NE : forall d1 rest, ~ at_end dbg rayon d input d1 rest).
  { intros d1 rest [buf [bits [count [F FM]]]]. specialize (X _ F). cbn [plain bi_input] in X.
    assert (Pm : parse_marker buf = Ok (EOI, rest)) by (apply parse_marker_ok; exists 0xD9; split; [constructor|exact FM]). rewrite Pm in X. discriminate. }
  destruct C; first [eapply NS; eassumption | eapply NC; eassumption | eapply NE; eassumption].
Qed.
