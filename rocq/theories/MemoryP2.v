(** Memory of a codec, in terms of the bytes that have arrived (C81). *)
From Verif Require Import SpecColor Base Tactics SpecBits SpecReader SpecHuffman SpecBlock SpecTables Biterator Huffman HuffmanP2 HuffmanP3 Marker SpecMarker MarkerP Types Idct Upsampler Color Parsers Decode SpecFrame SpecSegments SpecScan SpecPlane SpecFile SpecLimits
  SpecHeader SpecStream SpecGlobal SpecMemory BlockP PlaneP ParsersP2 SegmentsP ImageP SafeP InvP PlacedP EncodeP GlobalP ParsersP FileP CorruptP StreamP2 WaitP MemoryP.

(** The frame was read behind a marker SOF0..SOF2 of [got]. *)
Definition frame_behind (got : list Z) (fr : frame) : Prop :=
  exists m n precision lines samples cs, 0 <= m <= 2 /\ header_ok lines samples cs /\ header_behind got m lines samples cs /\ fr = frame_of n precision lines samples cs.
Definition at_frame (got : list Z) (p : pc) (b : biter) : Prop :=
  match p with PcSegment (SOF n) => 0 <= n <= 2 /\ exists pre mid, got = pre ++ [255; 0xC0 + n] ++ mid ++ bi_input b | _ => True end.
Definition hist_ok (got : list Z) (p : pc) (d : decoder) (b : biter) : Prop :=
  dec_ok d /\ good b /\ pc_ok p d /\ suffix (bi_input b) got /\ (forall fr, d_frame d = Some fr -> frame_behind got fr) /\ at_frame got p b /\ mem (frame_behind got) d.

(** Where a step that does not take a marker takes its frame from. *)
Lemma step_frame : forall dbg rerun rayon p d b d' b' r, dec_ok d -> good b -> pc_ok p d -> step dbg rerun rayon p d b = (d', b', r) ->
  d_frame d' = d_frame d \/
  exists n l1 l0 precision lines samples cs post, p = PcSegment (SOF n) /\ bi_input b = [l1; l0] ++ sof_bytes precision lines samples cs ++ post /\ header_ok lines samples cs /\
    d_frame d' = Some (frame_of n precision lines samples cs).
Proof.
  intros dbg rerun rayon p d b d' b' r K G P E.
  assert (NS : (forall n, p <> PcSegment (SOF n)) -> d_frame d' = d_frame d).
  { intros Np.
    assert (T : traced (d_frame d) (bi_input b) p d b).
    { split; [apply suffix_refl|]. split; [left; reflexivity|]. destruct p as [|m| ]; auto. destruct m; auto. exfalso. exact (Np n eq_refl). }
    clear T. destruct p as [|m|final todo ph]; cbn [step] in E.
    - destruct (parse_marker (bi_input b)) as [[m rest]|e|q|]; [|destruct e; inv E; reflexivity|inv E; reflexivity|inv E; reflexivity].
      destruct m; try (inv E; reflexivity). destruct (upsample_image dbg rayon d); inv E; reflexivity.
    - destruct (no_segment m). { inv E. reflexivity. }
      destruct (segment_data dbg (bi_input b)) as [[data rest]|e|q|] eqn:Es; [|destruct e; inv E; reflexivity|inv E; reflexivity|inv E; reflexivity].
      destruct (segment_data_len _ _ _ _ (proj2 G) Es) as [x [y [pre [Ei ->]]]].
      assert (Bp : bytes pre). { destruct G as [_ Bi]. rewrite Ei in Bi. unbytes Bi. apply Forall_app in Bi. apply Bi. }
      assert (SE : forall m' dd bb rr, seg_end m' dd bb rr = (d', b', r) -> dd = d').
      { intros m' dd bb [u|e|q|] H; cbn [seg_end] in H; try (inv H; auto; fail). destruct e; inv H; auto. }
      assert (KP : forall (A : Type) (o : out A) (k : A -> decoder), (forall a, d_frame (k a) = d_frame d) ->
        d_frame (fst (match o with Ok a => (k a, Ok tt) | Fail e => (d, Fail e) | Panic q => (d, Panic q) | UB => (d, UB) end : decoder * out unit)) = d_frame d).
      { intros A [a|e|q|] k H; cbn; auto. }
      assert (Z1 : forall m', m' <> SOS -> (forall n, m' <> SOF n) -> d_frame (fst (seg_payload dbg m' d pre)) = d_frame d).
      { intros m' N1 N2. destruct m'; cbn [seg_payload]; try reflexivity; try congruence.
        - apply dht_inv; auto.
        - destruct (seg_dqt_any (length pre) d pre Bp (proj2 (proj2 (ok_slots d K))) (le_n _)) as [ts [r0 [l [_ [_ [_ [[_ Eq]|[_ [e [_ Eq]]]]]]]]]]; rewrite Eq; reflexivity.
        - apply KP. intros [? ?]; reflexivity.
        - destruct (n =? 14); [|reflexivity]. apply KP. intros [? ?]; reflexivity. }
      assert (Z2 : forall m', m' <> SOS -> (forall n, m' <> SOF n) ->
        (let '(d0, r0) := seg_payload dbg m' d pre in seg_end m' d0 (mkBiter rest (bi_bits b) (bi_count b)) r0) = (d', b', r) -> d_frame d' = d_frame d).
      { intros m' N1 N2 H. specialize (Z1 m' N1 N2). destruct (seg_payload dbg m' d pre) as [d0 r0]. apply SE in H. cbn [fst] in Z1. congruence. }
      destruct m; try (match type of E with context [seg_payload dbg ?mm d pre] => apply (Z2 mm); [discriminate|discriminate|exact E] end).
      + exfalso. exact (Np n eq_refl).
      + unfold do_sos in E. destruct (sos_segment (d_frame d) pre) as [[sc i]|e|q|] eqn:Eh; [|destruct e; inv E; reflexivity|inv E; reflexivity|inv E; reflexivity].
        destruct (sos_begin_inv dbg d sc K (sos_start _ _ _ _ Bp Eh)) as [K1 [F1 _]]. destruct (sos_begin dbg d sc) as [d1 o]. cbn [fst] in *.
        destruct o as [final|e|q|]; try (inv E; exact F1).
        pose proof (scan_init_inv final d1 K1) as SI. destruct (scan_init final d1) as [d2|e|q|]; try (inv E; exact F1).
        destruct SI as [_ [F2 _]]. inv E. congruence.
    - pose proof (scan_inv dbg rerun final todo ph d b K G P) as SI. destruct (scan_loop dbg rerun final todo ph d b) as [[d1 b1] sr].
      destruct SI as [K1 [G1 [S1 [F1 R1]]]]. destruct sr; try (inv E; exact F1).
      pose proof (finish_inv final d1 K1 R1) as FI. destruct (scan_finish d1) as [d2|e|q|]; try (inv E; exact F1).
      destruct FI as [_ F2]. inv E. congruence. }
  destruct p as [|m|final todo ph]; try (left; apply NS; intros; discriminate).
  destruct m; try (left; apply NS; intros; discriminate). clear NS. cbn [step no_segment] in E.
  destruct (segment_data dbg (bi_input b)) as [[data rest]|e|q|] eqn:Es; [|destruct e; inv E; left; reflexivity|inv E; left; reflexivity|inv E; left; reflexivity].
  destruct (segment_data_len _ _ _ _ (proj2 G) Es) as [x [y [pre [Ei ->]]]].
  assert (Bp : bytes pre). { destruct G as [_ Bi]. rewrite Ei in Bi. unbytes Bi. apply Forall_app in Bi. apply Bi. }
  cbn [seg_payload] in E. destruct (sof dbg n pre) as [[fr i]|e|q|] eqn:Ef.
  - right. destruct (sof_inv _ _ _ _ _ Bp Ef) as [p [lines [samples [cs [-> [_ [H1 [H2 [H3 [H4 [H5 [H6 ->]]]]]]]]]]]].
    exists n, x, y, p, lines, samples, cs, (i ++ rest). split; [reflexivity|]. split; [rewrite Ei; cbn [app]; rewrite <- app_assoc; reflexivity|]. split; [constructor; auto|].
    cbn [seg_end] in E. inv E. reflexivity.
  - left. cbn [seg_end] in E. destruct e; inv E; reflexivity.
  - left. cbn [seg_end] in E. inv E. reflexivity.
  - left. cbn [seg_end] in E. inv E. reflexivity.
Qed.
(** A step waits at the same marker, behind any marker, or in a scan. *)
Lemma step_wait : forall dbg rerun rayon p d b d' b' n, step dbg rerun rayon p d b = (d', b', SStop (RNeed (PcSegment (SOF n)))) -> p = PcSegment (SOF n).
Proof.
  intros dbg rerun rayon p d b d' b' n E. destruct p as [|m|final todo ph]; cbn [step] in E.
  - destruct (parse_marker (bi_input b)) as [[m rest]|e|q|]; [|destruct e; discriminate E|discriminate E|discriminate E].
    destruct m; try discriminate E. destruct (upsample_image dbg rayon d); discriminate E.
  - destruct (no_segment m); [discriminate E|].
    destruct (segment_data dbg (bi_input b)) as [[data rest]|e|q|]; [|destruct e; try discriminate E; injection E as _ _ ->; reflexivity|discriminate E|discriminate E].
    assert (SE : forall m' dd bb rr, seg_end m' dd bb rr = (d', b', SStop (RNeed (PcSegment (SOF n)))) -> m' = SOF n).
    { intros m' dd bb [u|e|q|] H; cbn [seg_end] in H; try discriminate H. destruct e; try discriminate H. congruence. }
    destruct m; try (destruct (seg_payload dbg _ d data) as [d0 r0]; apply SE in E; congruence).
    exfalso. unfold do_sos in E. destruct (sos_segment (d_frame d) data) as [[sc i]|e|q|]; [|destruct e; discriminate E|discriminate E|discriminate E].
    destruct (sos_begin dbg d sc) as [d1 [final|e|q|]]; try discriminate E. destruct (scan_init final d1); discriminate E.
  - destruct (scan_loop dbg rerun final todo ph d b) as [[d1 b1] sr]. destruct sr; try discriminate E. destruct (scan_finish d1); discriminate E.
Qed.
Lemma step_mark : forall dbg rerun rayon p d b d' b' n, step dbg rerun rayon p d b = (d', b', SNext (PcSegment (SOF n))) ->
  0 <= n <= 2 /\ exists pre, bi_input b = pre ++ [255; 0xC0 + n] ++ bi_input b'.
Proof.
  intros dbg rerun rayon p d b d' b' n E. destruct p as [|m|final todo ph]; cbn [step] in E.
  - destruct (parse_marker (bi_input b)) as [[m rest]|e|q|] eqn:Em; [|destruct e; discriminate E|discriminate E|discriminate E].
    destruct m; try discriminate E; [|destruct (upsample_image dbg rayon d); discriminate E]. inv E.
    apply parse_marker_ok in Em. destruct Em as [c [C [pre [k [_ [_ [_ Ei]]]]]]]. inversion C; subst. split; [lia|].
    destruct (app_FF k) as [pk Ek]. rewrite Ei, Ek. cbn [bi_input]. exists (pre ++ pk). rewrite <- !app_assoc. reflexivity.
  - destruct (no_segment m); [discriminate E|].
    destruct (segment_data dbg (bi_input b)) as [[data rest]|e|q|]; [|destruct e; discriminate E|discriminate E|discriminate E].
    assert (SE : forall m' dd bb rr, seg_end m' dd bb rr <> (d', b', SNext (PcSegment (SOF n)))).
    { intros m' dd bb [u|e|q|] H; cbn [seg_end] in H; try discriminate H. destruct e; discriminate H. }
    exfalso. destruct m; try (destruct (seg_payload dbg _ d data) as [d0 r0]; exact (SE _ _ _ _ E)).
    unfold do_sos in E. destruct (sos_segment (d_frame d) data) as [[sc i]|e|q|]; [|destruct e; discriminate E|discriminate E|discriminate E].
    destruct (sos_begin dbg d sc) as [d1 [final|e|q|]]; try discriminate E. destruct (scan_init final d1); discriminate E.
  - destruct (scan_loop dbg rerun final todo ph d b) as [[d1 b1] sr]. destruct sr; try discriminate E. destruct (scan_finish d1); discriminate E.
Qed.

Lemma step_hist : forall dbg rerun rayon got p d b d' b' r, hist_ok got p d b -> step dbg rerun rayon p d b = (d', b', r) ->
  match r with SNext p' => hist_ok got p' d' b' | SStop (RNeed p') => hist_ok got p' d' b' | SStop (RImage _) => hist_ok got PcMarker d' b' | SStop _ => mem (frame_behind got) d' end.
Proof.
  intros dbg rerun rayon got p d b d' b' r (K & G & P & Su & Fr & At & M) E.
  pose proof (step_inv dbg rerun rayon p d b K G P) as SI. pose proof (step_mem (frame_behind got) dbg rerun rayon p d b K G P Fr M) as M'.
  rewrite E in SI, M'. cbn [fst] in M'. destruct SI as [K' [G' [Su' SI]]].
  assert (Su2 : suffix (bi_input b') got) by (eapply suffix_trans; eauto).
  assert (Fr' : forall fr, d_frame d' = Some fr -> frame_behind got fr).
  { destruct (step_frame _ _ _ _ _ _ _ _ _ K G P E) as [Ef|(n & l1 & l0 & pr & lines & samples & cs & post & Ep & Ei & HO & Ef)]; [rewrite Ef; exact Fr|].
    intros fr E'. assert (Efr : fr = frame_of n pr lines samples cs) by congruence. subst p. cbn [at_frame] in At. destruct At as [Hn [pre [mid At]]].
    exists n, n, pr, lines, samples, cs. split; [exact Hn|]. split; [exact HO|]. split; [|exact Efr]. exists pre, mid, l1, l0, pr, post. rewrite At, Ei. reflexivity. }
  assert (Next : forall n, r = SNext (PcSegment (SOF n)) -> at_frame got (PcSegment (SOF n)) b').
  { intros n ->. destruct (step_mark _ _ _ _ _ _ _ _ _ E) as [Hn [pre Ei]]. destruct Su as [q Eq]. cbn [at_frame]. split; [exact Hn|]. exists (q ++ pre), []. rewrite Eq, Ei, <- app_assoc. reflexivity. }
  assert (Wait : forall n, r = SStop (RNeed (PcSegment (SOF n))) -> at_frame got (PcSegment (SOF n)) b').
  { intros n ->. pose proof (step_wait _ _ _ _ _ _ _ _ _ E) as Ep. subst p. cbn [at_frame] in At |- *. destruct At as [Hn [pre [mid At]]]. split; [exact Hn|].
    destruct Su' as [q Eq]. exists pre, (mid ++ q). rewrite At, Eq, <- app_assoc. reflexivity. }
  destruct r as [p'|r].
  - destruct SI as [P' _]. unfold hist_ok. splits; auto. destruct p' as [|m| ]; try exact I. destruct m; try exact I. apply Next. reflexivity.
  - destruct r as [img|e|p'|e|q|]; try exact M'.
    + unfold hist_ok. splits; auto; exact I.
    + unfold hist_ok. splits; auto. destruct p' as [|m| ]; try exact I. destruct m; try exact I. apply Wait. reflexivity.
Qed.
Lemma run_hist : forall dbg rerun rayon got fuel p d b d' b' r, hist_ok got p d b -> run dbg rerun rayon fuel p d b = (d', b', r) ->
  mem (frame_behind got) d' /\ match r with RNeed p' => hist_ok got p' d' b' | RImage _ => hist_ok got PcMarker d' b' | _ => True end.
Proof.
  intros dbg rerun rayon got. induction fuel as [|fuel IH]; intros p d b d' b' r H E; cbn [run] in E.
  - inv E. split; [apply H|exact I].
  - destruct (step dbg rerun rayon p d b) as [[d1 b1] s] eqn:Es. pose proof (step_hist _ _ _ _ _ _ _ _ _ _ H Es) as X. destruct s as [p'|r']; [exact (IH _ _ _ _ _ _ X E)|].
    inv E. destruct r; split; auto; apply X.
Qed.
Lemma behind_more : forall got more fr, frame_behind got fr -> frame_behind (got ++ more) fr.
Proof.
  intros got more fr (m & n & pr & lines & samples & cs & Hm & HO & (pre & mid & l1 & l0 & p' & post & Eg) & Ef). exists m, n, pr, lines, samples, cs. split; [exact Hm|]. split; [exact HO|]. split; [|exact Ef].
  exists pre, mid, l1, l0, p', (post ++ more). rewrite Eg. rewrite <- !app_assoc. reflexivity.
Qed.
Lemma fits_weaken : forall (F G : frame -> Prop) n, (forall fr, F fr -> G fr) -> fits_frame F n -> fits_frame G n.
Proof. intros F G n H [L|(m & pr & lines & samples & cs & A & B)]; [left; exact L|]. right. exists m, pr, lines, samples, cs. split; [apply H; exact A|exact B]. Qed.
Lemma hist_call : forall dbg rerun rayon k buf got, hist_ok got (k_pc k) (k_dec k) (mkBiter buf (k_bits k) (k_count k)) ->
  let '(k', buf', r) := codec_decode dbg rerun rayon k buf in
  mem (frame_behind got) (k_dec k') /\ forall o, r = Ok o -> hist_ok got (k_pc k') (k_dec k') (mkBiter buf' (k_bits k') (k_count k')).
Proof.
  intros dbg rerun rayon k buf got H. unfold codec_decode. destruct buf as [|x buf]; [split; [apply H|intros; exact H]|]. cbv zeta.
  destruct (run dbg rerun rayon _ (k_pc k) (k_dec k) _) as [[d b] r] eqn:E. destruct (run_hist _ _ _ _ _ _ _ _ _ _ _ H E) as [M R].
  destruct b as [i bb c]. destruct r; cbn [k_dec k_pc k_bits k_count bi_input bi_bits bi_count]; split; auto; intros o Eo; try discriminate Eo; exact R.
Qed.
Lemma history_hist : forall dbg rerun rayon k buf got, history dbg rerun rayon k buf got -> hist_ok got (k_pc k) (k_dec k) (mkBiter buf (k_bits k) (k_count k)).
Proof.
  intros dbg rerun rayon k buf got H. induction H as [|k buf got more H IH B|k buf got k' buf' r H IH E].
  - unfold hist_ok. splits; [apply default_ok|apply (good_start []); constructor|exact I|apply suffix_refl|discriminate|exact I|apply default_mem].
  - destruct IH as (K & [C Bi] & P & [q Eq] & Fr & At & (M1 & M2 & M3)). cbn [bi_input] in *. unfold hist_ok. splits.
    + exact K.
    + split; [exact C|]. cbn [bi_input]. apply Forall_app. split; [exact Bi|exact B].
    + exact P.
    + exists q. cbn [bi_input]. rewrite Eq, <- app_assoc. reflexivity.
    + intros fr E. apply behind_more, Fr, E.
    + unfold at_frame in *. destruct (k_pc k) as [|m| ]; auto. destruct m; auto. destruct At as [Hn [pre [mid Eg]]]. split; [exact Hn|]. exists pre, mid. cbn [bi_input] in *. rewrite Eg. rewrite <- !app_assoc. reflexivity.
    + unfold mem. splits; auto; eapply fits_weaken; try apply behind_more; eauto.
  - pose proof (hist_call dbg rerun rayon k buf got IH) as X. rewrite E in X. destruct X as [_ X]. exact (X r eq_refl).
Qed.
Lemma fits_behind : forall got n, 0 <= n -> fits_frame (frame_behind got) n -> n = 0 \/ declared_so_far got n.
Proof.
  intros got n N [H|(m & pr & lines & samples & cs & (m' & n' & pr' & lines' & samples' & cs' & Hm & HO' & HB & Ef) & HO & L & H)]; [left; lia|right].
  assert (E1 : lines = lines') by (exact (f_equal f_lines Ef)). assert (E2 : samples = samples') by (exact (f_equal f_samples Ef)).
  assert (E3 : lenZ cs = lenZ cs').
  { pose proof (f_equal (fun f => length (f_components f)) Ef) as X. unfold frame_of in X. cbn [f_components] in X. rewrite !map_length in X. unfold lenZ. lia. }
  subst. exists m', lines', samples', cs'. splits; [exact (proj1 Hm)|exact (proj2 Hm)|exact HB|lia|rewrite <- E3; exact H].
Qed.
Lemma stream_bounded : forall dbg rerun rayon k buf got k', history dbg rerun rayon k buf got -> k' = k \/ k' = fst (fst (codec_decode dbg rerun rayon k buf)) ->
  (samples_in (d_planes (k_dec k')) = 0 \/ declared_so_far got (samples_in (d_planes (k_dec k')))) /\
  (samples_in (ss_results (d_ss (k_dec k'))) = 0 \/ declared_so_far got (samples_in (ss_results (d_ss (k_dec k'))))) /\
  coefs_in (ss_coefs (d_ss (k_dec k'))) <= 640.
Proof.
  intros dbg rerun rayon k buf got k' H C. pose proof (history_hist _ _ _ _ _ _ H) as Y.
  assert (M : mem (frame_behind got) (k_dec k')).
  { destruct C as [-> | ->]; [apply Y|]. pose proof (hist_call dbg rerun rayon k buf got Y) as X. destruct (codec_decode dbg rerun rayon k buf) as [[k1 buf1] r]. apply X. }
  destruct M as (M1 & M2 & M3). splits; [apply fits_behind; [unfold samples_in, lenZ; lia|exact M1]|apply fits_behind; [unfold samples_in, lenZ; lia|exact M2]|exact M3].
Qed.
