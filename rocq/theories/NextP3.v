(** The next file on a codec (C49): calls. *)
From Verif Require Import Base Tactics SpecColor SpecBits SpecReader SpecHuffman SpecBlock SpecTables Biterator BitsP Readers ReadersP Huffman HuffmanP3 Marker SpecMarker MarkerP Types Idct IdctP Color Upsampler Parsers Decode ParsersP SpecFrame SpecSegments SpecScan SpecPlane SpecUpsample SpecImage SpecFile SpecAnswer SpecLimits SpecDamage SpecCode SpecNext
  BlockP PlaneP SegmentsP SafeP InvP ScanP RestartP PlacedP EncodeP SpecGlobal GlobalP ExtP SpecStream StreamP StreamP2 RowP UpsampleP ImageP FileP CorruptP AnswerP AnswerP2 AnswerP3 ReuseP DamageP DamageP2 PiecesP TransP CodeP CodeP2 CodeP3 NextP NextP2.

(** ** Whether closures are run again does not matter unless a restart marker is awaited *)
Definition no_restart_wait (p : pc) : Prop := match p with PcScan _ _ PhRestart => False | _ => True end.
Lemma loop_rerun : forall dbg rerun final todo d b, scan_loop dbg rerun final todo PhRow d b = scan_loop dbg false final todo PhRow d b.
Proof.
  intros dbg rerun final. induction todo as [|[y x] todo IH]; intros d b; cbn [scan_loop]; [reflexivity|].
  destruct (decode_row dbg d b) as [[d1 b1]|e|q|]; try reflexivity. destruct (restart_check dbg x y d1) as [[need d2]|e|q|]; try reflexivity.
  destruct (if need then restart_marker d2 b1 else Ok (d2, b1)) as [[d3 b3]|e|q|]; try reflexivity.
  destruct (if final then dequantize dbg x y d3 else Ok d3) as [d4|e|q|]; try reflexivity. apply IH.
Qed.
Lemma step_rerun : forall dbg rerun rayon p d b, no_restart_wait p -> step dbg rerun rayon p d b = step dbg false rayon p d b.
Proof. intros dbg rerun rayon [|m|final todo []] d b H; try reflexivity; [|contradiction]. cbn [step]. rewrite loop_rerun. reflexivity. Qed.
Lemma step_waits : forall dbg rerun rayon p d b d' b' p', step dbg rerun rayon p d b = (d', b', SNext p') -> no_restart_wait p'.
Proof.
  intros dbg rerun rayon p d b d' b' p' E. destruct p as [|m|final todo ph]; cbn [step] in E.
  - destruct (parse_marker (bi_input b)) as [[m rest]|e|q|]; [|destruct e; discriminate E|discriminate E|discriminate E].
    destruct m; try (inv E; exact I). destruct (upsample_image dbg rayon d); discriminate E.
  - destruct (no_segment m); [inv E; exact I|].
    destruct (segment_data dbg (bi_input b)) as [[data rest]|e|q|]; [|destruct e; discriminate E|discriminate E|discriminate E].
    assert (SE : forall m' dd bb rr, seg_end m' dd bb rr = (d', b', SNext p') -> no_restart_wait p').
    { intros m' dd bb [u|e|q|] H; cbn [seg_end] in H; try (inv H; exact I); try discriminate H. destruct e; discriminate H. }
    destruct m; try (destruct (seg_payload dbg _ d data) as [d0 r0]; exact (SE _ _ _ _ E)).
    unfold do_sos in E. destruct (sos_segment (d_frame d) data) as [[sc i]|e|q|]; [|destruct e; discriminate E|discriminate E|discriminate E].
    destruct (sos_begin dbg d sc) as [d1 [final|e|q|]]; try discriminate E. destruct (scan_init final d1); try discriminate E. inv E. exact I.
  - destruct (scan_loop dbg rerun final todo ph d b) as [[d1 b1] sr]. destruct sr; try discriminate E. destruct (scan_finish d1); try discriminate E. inv E. exact I.
Qed.
Lemma run_rerun : forall dbg rerun rayon fuel p d b, no_restart_wait p -> run dbg rerun rayon fuel p d b = run dbg false rayon fuel p d b.
Proof.
  intros dbg rerun rayon. induction fuel as [|fuel IH]; intros p d b H; [reflexivity|]. cbn [run]. rewrite step_rerun by exact H.
  destruct (step dbg false rayon p d b) as [[d' b'] s] eqn:E. destruct s as [p'|r]; [|reflexivity]. apply IH. exact (step_waits _ _ _ _ _ _ _ _ _ E).
Qed.

(** ** What every codec keeps *)
Definition kept_ok (d : decoder) : Prop := fin_ok (d_finished d) /\ 0 <= d_restart d.
Lemma step_kept_ok : forall dbg rerun rayon p d b d' b' s, good b -> step dbg rerun rayon p d b = (d', b', s) -> kept_ok d -> kept_ok d'.
Proof.
  intros dbg rerun rayon p d b d' b' s G E [F R]. destruct (step_kept _ _ _ _ _ _ _ _ _ E) as [K1 [_ K2]]. split; [apply K2; exact F|].
  assert (X : p = PcSegment DRI \/ p <> PcSegment DRI) by (destruct p as [|m| ]; try (right; discriminate); destruct m; try (right; discriminate); left; reflexivity).
  destruct X as [->|N]; [|rewrite (K1 N); exact R]. cbn [step no_segment] in E.
  destruct (segment_data dbg (bi_input b)) as [[data rest]|e|q|] eqn:Es; [|destruct e; inv E; exact R|inv E; exact R|inv E; exact R].
  destruct (segment_data_len _ _ _ _ (proj2 G) Es) as [x [y [pre [Ei ->]]]].
  assert (Bp : bytes pre). { destruct G as [_ Bi]. rewrite Ei in Bi. unbytes Bi. apply Forall_app in Bi. apply Bi. }
  cbn [seg_payload] in E.
  assert (SE : forall dd bb rr, seg_end DRI dd bb rr = (d', b', s) -> dd = d').
  { intros dd bb [u|e|q|] H; cbn [seg_end] in H; try (inv H; auto; fail). destruct e; inv H; auto. }
  destruct (p_u16 pre) as [[v i]|e|q|] eqn:P; apply SE in E; subst d'; try exact R. cbn [set_restart d_restart].
  unfold p_u16 in P. destruct pre as [|a [|c pre]]; try discriminate. assert (v = 256 * a + c) by congruence. unbytes Bp. unfold is_byte in *. lia.
Qed.
Lemma run_kept_ok : forall dbg rerun rayon fuel p d b, dec_ok d -> good b -> pc_ok p d -> kept_ok d -> kept_ok (fst (fst (run dbg rerun rayon fuel p d b))).
Proof.
  intros dbg rerun rayon. induction fuel as [|fuel IH]; intros p d b K G P M; cbn [run]; [exact M|].
  pose proof (step_inv dbg rerun rayon p d b K G P) as SI. destruct (step dbg rerun rayon p d b) as [[d' b'] r] eqn:E.
  pose proof (step_kept_ok _ _ _ _ _ _ _ _ _ G E M) as M'. destruct SI as [K' [G' [_ R]]]. destruct r as [p'|r]; [|exact M']. destruct R as [P' _]. apply IH; auto.
Qed.
Lemma codec_kept_ok : forall dbg rerun rayon k buf, codec_ok k buf -> kept_ok (k_dec k) -> kept_ok (k_dec (fst (fst (codec_decode dbg rerun rayon k buf)))).
Proof.
  intros dbg rerun rayon k buf [K [P G]] M. unfold codec_decode. destruct buf as [|x buf]; [exact M|]. cbv zeta.
  pose proof (run_kept_ok dbg rerun rayon (run_fuel (mkBiter (x :: buf) (k_bits k) (k_count k))) (k_pc k) (k_dec k) _ K G P M) as X.
  destruct (run _ _ _ _ _ _ _) as [[d' b'] r]. destruct r; exact X.
Qed.
Lemma streaming_kept_ok : forall dbg rerun rayon k buf, streaming dbg rerun rayon k buf -> kept_ok (k_dec k).
Proof.
  intros dbg rerun rayon k buf H. induction H as [|k buf more H IH B|k buf k' buf' r H IH E].
  - split; [split; [reflexivity|repeat constructor; lia]|cbn; lia].
  - exact IH.
  - pose proof (codec_kept_ok dbg rerun rayon k buf (streaming_ok _ _ _ _ _ H) IH) as X. rewrite E in X. exact X.
Qed.

(** ** The next file *)
Lemma transform_left_color : forall k l, last (map transform_of (adobes l)) (d_color (k_dec k)) = color_for (last (map Some (adobes l)) (transform_left k)).
Proof.
  intros k l. induction (adobes l) as [|a m IH]; [|].
  - cbn [map last]. unfold transform_left. destruct (d_color (k_dec k)) as [[]|]; reflexivity.
  - destruct m as [|b m]; [reflexivity|]. exact IH.
Qed.
Lemma transform_left_small : forall k l, Forall (fun s => hseg_ok (snd s)) l -> match last (map Some (adobes l)) (transform_left k) with Some t => 0 <= t <= 2 | None => True end.
Proof.
  intros k l F. pose proof (transforms_small l F) as X. unfold last_transform in X. destruct (adobes l) as [|a m].
  - cbn [map last]. unfold transform_left. destruct (d_color (k_dec k)) as [[]|]; cbn; auto; lia.
  - cbn [map] in *. rewrite (last_any _ _ _ (transform_left k) None). exact X.
Qed.

Section At.
Variables (dbg rerun rayon : bool) (k : codec) (segs : list (nat * hseg)) (h : frame_header) (fill1 fill2 : nat) (ss : list scan_comp) (ts : list tables) (qs : list (list Z)) (ds : list Z) (more : list (Z * list Z)) (post : list (nat * hseg)) (fill3 : nat) (extra : list Z).
Hypotheses (HF : header_for segs h ss ts qs) (Bds : bytes ds) (MO : more_ok more) (PO : post_ok post).
Let cs := fh_comps h. Let lines := fh_lines h. Let samples := fh_samples h.
Hypotheses (P1 : 0 < lines) (P2 : 0 < samples).
Let file := file_bytes segs fill1 fill2 (mkSpS ss 0 63 0 0) (scan_bytes ds more) post fill3.
Hypotheses (H : streaming dbg rerun rayon k (file ++ extra)) (Pk : k_pc k = PcMarker).
Let read := ref_scan_after (bits_left k) cs ts (last (dris segs) (interval_left k)) (mcus lines (largest (map cs_v cs)) * mcus samples (largest (map cs_h cs))) ds more.

Lemma at_call : forall W, runs_to dbg false rayon (PcMarker, k_dec k, mkBiter (file ++ extra) (k_bits k) (k_count k)) W ->
    codec_decode dbg rerun rayon k (file ++ extra) =
      (mkCodec (fst (fst W)) (match snd W with RNeed p => p | _ => PcMarker end) (bi_bits (snd (fst W))) (bi_count (snd (fst W))),
       match snd W with RImage _ | RError _ | RNeed _ => bi_input (snd (fst W)) | _ => file ++ extra end, answer (snd W)).
Proof.
  pose proof (streaming_ok _ _ _ _ _ H) as CK.
  intros [[d b] r] R. destruct (file ++ extra) as [|x buf] eqn:Ef; [exfalso; unfold file, file_bytes, marker_bytes in Ef; discriminate Ef|].
  destruct (codec_call dbg rerun rayon k x buf CK) as (d1 & b1 & r1 & _ & E1 & N1 & E2).
  rewrite Pk, run_rerun in E1 by exact I.
  assert (R1 : runs_to dbg false rayon (PcMarker, k_dec k, mkBiter (x :: buf) (k_bits k) (k_count k)) (d1, b1, r1)) by (eexists; split; [exact E1|exact N1]).
  pose proof (runs_det _ _ _ _ _ _ R R1) as W. inv W. exact E2.
Qed.
Lemma at_scan : match read with
  | Some ms => exists d, d_frame d = Some (frame_of (fh_marker h) (fh_precision h) lines samples cs) /\
      d_color d = color_for (last (map Some (adobes (segs ++ post))) (transform_left k)) /\ d_planes d = map line_of (map (map known) (d_planes d)) /\
      length (d_planes d) = length cs /\
      (forall i c, nth_error cs i = Some c -> exists q p, nth_error qs i = Some q /\ nth_error (map (map known) (d_planes d)) i = Some p /\ plane_from lines samples cs ms i c q p) /\
      final_answer rayon lines samples cs (map (map known) (d_planes d)) (last (map Some (adobes (segs ++ post))) (transform_left k)) (upsample_image dbg rayon d) /\
      exists k' buf', codec_decode dbg rerun rayon k (file ++ extra) = (k', buf', answered (upsample_image dbg rayon d)) /\
        (forall img, upsample_image dbg rayon d = Ok img -> buf' = extra)
  | None => Forall clean_end (ds :: map snd more) ->
      exists k' buf' r, codec_decode dbg rerun rayon k (file ++ extra) = (k', buf', r) /\ (r = Ok None \/ exists e, r = Fail e)
  end.
Proof.
  pose proof (streaming_ok _ _ _ _ _ H) as CK. destruct (streaming_kept_ok _ _ _ _ _ H) as [Fk Rk]. pose proof CK as [K [_ [RK Bf]]]. cbn [bi_input] in Bf.
  assert (RK' : reader_ok (mkBiter [] (k_bits k) (k_count k))) by exact RK.
  pose proof (next_scan dbg rayon (k_dec k) (k_bits k) (k_count k) segs h fill1 fill2 ss ts qs ds more post fill3 extra K Fk Rk RK' HF Bds MO PO P1 P2 Bf) as NS. cbv zeta in NS. fold file cs lines samples in NS.
  change (to_bits (Z.to_nat (k_count k)) (k_bits k)) with (bits_left k) in NS. change (d_restart (k_dec k)) with (interval_left k) in NS. fold read in NS.
  destruct read as [ms|].
  - destruct NS as [d [b [j [S7 [Eb [J5 [Fr5 [Co5 [Ep [Lp [PF PL]]]]]]]]]]].
    destruct HF as [F Sf ND L4 Few CC]. destruct (sof_ok segs h F ltac:(rewrite Sf; left; reflexivity)) as [Fm HO]. fold cs lines samples in HO, ND, L4, Few.
    destruct PO as [Fp Sop]. exists d. rewrite transform_left_color in Co5.
    split; [exact Fr5|]. split; [exact Co5|]. split; [exact Ep|]. split; [exact Lp|]. split; [exact PL|].
    assert (TA : final_answer rayon lines samples cs (map (map known) (d_planes d)) (last (map Some (adobes (segs ++ post))) (transform_left k)) (upsample_image dbg rayon d)).
    { apply (total_answer dbg rayon d (fh_marker h) (fh_precision h) lines samples cs _ _); auto.
      - unfold lenZ in L4. lia.
      - apply transform_left_small. apply Forall_app. split; [exact F|exact Fp]. }
    split; [exact TA|].
    set (r := match upsample_image dbg rayon d with Ok img => RImage img | Fail e => RError e | Panic p => RPanic p | UB => RUB end).
    assert (E : step dbg false rayon PcMarker d b = (d, mkBiter extra (bi_bits b) (bi_count b), SStop r)).
    { cbn [step]. assert (P : parse_marker (bi_input b) = Ok (EOI, extra)).
      { apply parse_marker_ok. exists 0xD9. split; [constructor|]. exists j, fill3. split; [exact J5|]. split; [lia|]. split; [lia|]. rewrite Eb. unfold marker_bytes. rewrite <- app_assoc. reflexivity. }
      rewrite P. unfold r. destruct (upsample_image dbg rayon d); reflexivity. }
    assert (Nr : r <> RPanic PFuel).
    { pose proof (answer_not_fuel _ _ _ _ _ _ _ TA) as NF. unfold r. destruct (upsample_image dbg rayon d); congruence. }
    assert (R : runs_to dbg false rayon (PcMarker, d, b) (d, mkBiter extra (bi_bits b) (bi_count b), r)) by (exists 1%nat; split; [cbn [run]; rewrite E; reflexivity|exact Nr]).
    pose proof (at_call _ (from_runs _ _ _ _ _ S7 _ R)) as C. cbn [fst snd bi_input] in C.
    destruct (upsample_image dbg rayon d) as [img|e|p|]; unfold r in C; cbn [answer] in C; eexists _, _; (split; [exact C|]); intros i Ei; try discriminate Ei; reflexivity.
  - intros CE. destruct (NS CE) as (p1 & d1 & b1 & d' & b' & r & S1 & St & Gv).
    assert (R : runs_to dbg false rayon (p1, d1, b1) (d', b', r)) by (exists 1%nat; split; [cbn [run]; rewrite St; reflexivity|cbn [snd]; intros ->; contradiction]).
    pose proof (at_call _ (from_runs _ _ _ _ _ S1 _ R)) as C. cbn [fst snd] in C. eexists _, _, _. split; [exact C|]. destruct r; try contradiction; cbn [answer]; eauto.
Qed.
Lemma at_same : forall ms segs' h' fill1' fill2' ss' ts' ds' more' post' fill3',
  read = Some ms -> header_for segs' h' ss' ts' qs -> bytes ds' -> more_ok more' -> post_ok post' ->
  fh_lines h' = lines -> fh_samples h' = samples -> map (fun c => (cs_h c, cs_v c)) (fh_comps h') = map (fun c => (cs_h c, cs_v c)) cs ->
  last_transform (segs' ++ post') = last (map Some (adobes (segs ++ post))) (transform_left k) ->
  ref_scan (fh_comps h') ts' (last (dris segs') 0) 0 (mcus lines (largest (map cs_v cs)) * mcus samples (largest (map cs_h cs))) ds' more' = Some ms ->
  let file' := file_bytes segs' fill1' fill2' (mkSpS ss' 0 63 0 0) (scan_bytes ds' more') post' fill3' in bytes file' ->
  exists k' buf', codec_decode dbg rerun rayon k (file ++ extra) = (k', buf', answered (decode_fresh dbg rayon file')) /\
    (forall img, decode_fresh dbg rayon file' = Ok img -> buf' = extra).
Proof.
  intros ms segs' h' fill1' fill2' ss' ts' ds' more' post' fill3' Er HF' B2 M2 PO' El Es Ef Et R' file' B'.
  pose proof at_scan as AS. rewrite Er in AS. destruct AS as (d & Fr & Co & Ep & Lp & PL & _ & C).
  assert (HP' : has_planes dbg rayon segs' post' h' qs ms fill3' file').
  { refine (code_has dbg rayon segs' h' fill1' fill2' ss' ts' qs ds' more' post' fill3' ms HF' B2 M2 PO' _ _ B' _); [rewrite El; exact P1|rewrite Es; exact P2|].
    rewrite El, Es, (factors_h (fh_comps h')), (factors_v (fh_comps h')). unfold factors at 1 2. rewrite Ef. fold (factors cs). rewrite <- factors_h, <- factors_v. exact R'. }
  destruct HP' as [d' [b' [js' [ps' [S' [Eb' [Jn' [Fr' [Co' [Ep' [Lp' PL']]]]]]]]]]].
  set (ps := map (map known) (d_planes d)) in *. rewrite El, Es in *. fold (factors (fh_comps h')) in Ef. fold (factors cs) in Ef.
  assert (Lc : length (fh_comps h') = length cs) by (rewrite <- (map_length (fun c => (cs_h c, cs_v c)) (fh_comps h')); unfold factors in Ef; rewrite Ef, map_length; reflexivity).
  assert (Lps : length ps = length cs) by (unfold ps; rewrite map_length; exact Lp).
  pose proof (hf_segs _ _ _ _ _ HF) as F. pose proof (hf_frame _ _ _ _ _ HF) as Sf.
  assert (Eps : ps' = ps).
  { apply lists_ext. intros i. destruct (nth_error cs i) as [c|] eqn:Ec.
    - destruct (nth_error (fh_comps h') i) as [c'|] eqn:Ec'; [|apply nth_error_None in Ec'; assert (i < length cs)%nat by (apply nth_error_Some; congruence); lia].
      destruct (PL i c Ec) as [q [p [Eq [Ek Fp]]]]. destruct (PL' i c' Ec') as [q' [p' [Eq' [Ek' Fp']]]]. rewrite Ek, Ek'. f_equal. assert (q' = q) by congruence. subst q'.
      destruct (factors_nth _ _ _ _ _ (eq_sym Ef) Ec Ec') as [Eh Ev]. apply (plane_factors _ _ cs (fh_comps h') ms i c c' q p' (eq_sym Ef) Eh Ev) in Fp'.
      destruct (sof_ok segs h F ltac:(rewrite Sf; left; reflexivity)) as [_ HO]. fold cs lines samples in HO.
      assert (HV : 1 <= cs_h c <= 4 /\ 1 <= cs_v c <= 4) by (destruct HO as [_ _ _ _ _ X]; rewrite Forall_forall in X; apply X; exact (nth_error_In _ _ Ec)).
      assert (W0 : 0 <= mcus samples (largest (map cs_h cs)) /\ 0 <= mcus lines (largest (map cs_v cs))) by (destruct (frame_fits _ ltac:(exists (fh_marker h), (fh_precision h), lines, samples, cs; split; [reflexivity|exact HO])) as [_ [X [Y _]]]; split; [exact X|exact Y]).
      apply (px_lists p' p (plane_rows lines cs c) (plane_stride samples cs c)).
      + unfold plane_rows. nia.
      + unfold plane_stride. nia.
      + destruct Fp' as [[_ X] _]. rewrite X. apply Z.mul_comm.
      + destruct Fp as [[_ X] _]. rewrite X. apply Z.mul_comm.
      + intros y x Hy Hx. exact (planes_meet lines samples cs ms ms i c q p' p y x Fp' Fp Hy Hx eq_refl).
    - apply nth_error_None in Ec. assert (X : nth_error ps i = None) by (apply nth_error_None; lia). assert (Y : nth_error ps' i = None) by (apply nth_error_None; lia). rewrite X, Y. reflexivity. }
  assert (Ei : upsample_image dbg rayon d' = upsample_image dbg rayon d).
  { eapply image_view; [exact Ef|exact Fr'|exact Fr| |rewrite Ep, Ep', Eps; reflexivity].
    rewrite Co, Co', <- Et. unfold last_transform, color_for. apply last_map_some. }
  rewrite (answers dbg rayon _ d' js' fill3' b' B' S' Eb' Jn'), Ei. exact C.
Qed.
End At.

Lemma after_image : forall dbg rerun rayon k0 buf0 k buf img0 arrived,
  streaming dbg rerun rayon k0 buf0 -> codec_decode dbg rerun rayon k0 buf0 = (k, buf, Ok (Some img0)) -> bytes arrived ->
  streaming dbg rerun rayon k (buf ++ arrived) /\ k_pc k = PcMarker.
Proof.
  intros dbg rerun rayon k0 buf0 k buf img0 arrived H E B. split.
  - apply stream_more; [|exact B]. eapply stream_call; [exact H|exact E].
  - destruct buf0 as [|x buf0]; [discriminate E|]. destruct (codec_call dbg rerun rayon k0 x buf0 (streaming_ok _ _ _ _ _ H)) as (d1 & b1 & r1 & _ & _ & _ & E2).
    rewrite E in E2. assert (Ek : k = mkCodec d1 (match r1 with RNeed p => p | _ => PcMarker end) (bi_bits b1) (bi_count b1)) by congruence. assert (Er : answer r1 = Ok (Some img0)) by congruence.
    rewrite Ek. destruct r1; try discriminate Er; reflexivity.
Qed.

Lemma next_file : forall dbg rerun rayon k0 buf0 k buf img0 arrived segs h fill1 fill2 ss ts qs ds more post fill3 extra,
  streaming dbg rerun rayon k0 buf0 -> codec_decode dbg rerun rayon k0 buf0 = (k, buf, Ok (Some img0)) -> bytes arrived ->
  header_for segs h ss ts qs -> bytes ds -> more_ok more -> post_ok post ->
  let cs := fh_comps h in let lines := fh_lines h in let samples := fh_samples h in 0 < lines -> 0 < samples ->
  let file := file_bytes segs fill1 fill2 (mkSpS ss 0 63 0 0) (scan_bytes ds more) post fill3 in buf ++ arrived = file ++ extra ->
  match ref_scan_after (bits_left k) cs ts (last (dris segs) (interval_left k)) (mcus lines (largest (map cs_v cs)) * mcus samples (largest (map cs_h cs))) ds more with
  | Some ms => exists ps a, length ps = length cs /\
      (forall i c, nth_error cs i = Some c -> exists q p, nth_error qs i = Some q /\ nth_error ps i = Some p /\ plane_from lines samples cs ms i c q p) /\
      final_answer rayon lines samples cs ps (last (map Some (adobes (segs ++ post))) (transform_left k)) a /\
      exists k' buf', codec_decode dbg rerun rayon k (buf ++ arrived) = (k', buf', answered a) /\ (forall img, a = Ok img -> buf' = extra)
  | None => Forall clean_end (ds :: map snd more) ->
      exists k' buf' r, codec_decode dbg rerun rayon k (buf ++ arrived) = (k', buf', r) /\ (r = Ok None \/ exists e, r = Fail e)
  end.
Proof.
  intros dbg rerun rayon k0 buf0 k buf img0 arrived segs h fill1 fill2 ss ts qs ds more post fill3 extra H E B HF Bds MO PO cs lines samples P1 P2 file Eb.
  destruct (after_image dbg rerun rayon k0 buf0 k buf img0 arrived H E B) as [S Pk]. rewrite Eb in *.
  pose proof (at_scan dbg rerun rayon k segs h fill1 fill2 ss ts qs ds more post fill3 extra HF Bds MO PO P1 P2 S Pk) as AS. fold cs lines samples file in AS.
  destruct (ref_scan_after _ _ _ _ _ _ _) as [ms|]; [|exact AS]. destruct AS as (d & _ & _ & _ & Lp & PL & FA & C).
  exists (map (map known) (d_planes d)), (upsample_image dbg rayon d). split; [rewrite map_length; exact Lp|]. split; [exact PL|]. split; [exact FA|exact C].
Qed.

Lemma next_same : forall dbg rerun rayon k0 buf0 k buf img0 arrived segs h fill1 fill2 ss ts qs ds more post fill3 extra ms segs' h' fill1' fill2' ss' ts' ds' more' post' fill3',
  streaming dbg rerun rayon k0 buf0 -> codec_decode dbg rerun rayon k0 buf0 = (k, buf, Ok (Some img0)) -> bytes arrived ->
  header_for segs h ss ts qs -> bytes ds -> more_ok more -> post_ok post -> header_for segs' h' ss' ts' qs -> bytes ds' -> more_ok more' -> post_ok post' ->
  fh_lines h' = fh_lines h -> fh_samples h' = fh_samples h -> 0 < fh_lines h -> 0 < fh_samples h ->
  map (fun c => (cs_h c, cs_v c)) (fh_comps h') = map (fun c => (cs_h c, cs_v c)) (fh_comps h) ->
  last_transform (segs' ++ post') = last (map Some (adobes (segs ++ post))) (transform_left k) ->
  let N := mcus (fh_lines h) (largest (map cs_v (fh_comps h))) * mcus (fh_samples h) (largest (map cs_h (fh_comps h))) in
  ref_scan_after (bits_left k) (fh_comps h) ts (last (dris segs) (interval_left k)) N ds more = Some ms -> ref_scan (fh_comps h') ts' (last (dris segs') 0) 0 N ds' more' = Some ms ->
  let file := file_bytes segs fill1 fill2 (mkSpS ss 0 63 0 0) (scan_bytes ds more) post fill3 in
  let file' := file_bytes segs' fill1' fill2' (mkSpS ss' 0 63 0 0) (scan_bytes ds' more') post' fill3' in
  buf ++ arrived = file ++ extra -> bytes file' ->
  exists k' buf', codec_decode dbg rerun rayon k (buf ++ arrived) = (k', buf', answered (decode_fresh dbg rayon file')) /\
    (forall img, decode_fresh dbg rayon file' = Ok img -> buf' = extra).
Proof.
  intros dbg rerun rayon k0 buf0 k buf img0 arrived segs h fill1 fill2 ss ts qs ds more post fill3 extra ms segs' h' fill1' fill2' ss' ts' ds' more' post' fill3' H E B HF Bds MO PO HF' B2 M2 PO' El Es P1 P2 Ef Et N R R' file file' Eb B'.
  destruct (after_image dbg rerun rayon k0 buf0 k buf img0 arrived H E B) as [S Pk]. rewrite Eb in *.
  exact (at_same dbg rerun rayon k segs h fill1 fill2 ss ts qs ds more post fill3 extra HF Bds MO PO P1 P2 S Pk ms segs' h' fill1' fill2' ss' ts' ds' more' post' fill3' R HF' B2 M2 PO' El Es Ef Et R' B').
Qed.

(** ** Nothing left *)
Lemma scan_after_nil : forall cs ts r N ds more, ref_scan_after [] cs ts r N ds more = ref_scan cs ts r 0 N ds more.
Proof.
  intros cs ts r N ds more. unfold ref_scan_after, ref_interval_after. destruct more as [|[m ds'] more]; cbn [ref_scan]; unfold ref_interval; cbn [app]; destruct ((r =? 0) || (N <=? r)); reflexivity.
Qed.
Lemma next_clean : forall dbg rerun rayon k0 buf0 k buf img0 arrived segs h fill1 fill2 ss ts qs ds more post fill3 extra ms,
  streaming dbg rerun rayon k0 buf0 -> codec_decode dbg rerun rayon k0 buf0 = (k, buf, Ok (Some img0)) -> bytes arrived ->
  header_for segs h ss ts qs -> bytes ds -> more_ok more -> post_ok post -> 0 < fh_lines h -> 0 < fh_samples h ->
  bits_left k = [] -> (dris segs <> [] \/ interval_left k = 0) -> (adobes (segs ++ post) <> [] \/ transform_left k = None) ->
  ref_scan (fh_comps h) ts (last (dris segs) 0) 0 (mcus (fh_lines h) (largest (map cs_v (fh_comps h))) * mcus (fh_samples h) (largest (map cs_h (fh_comps h)))) ds more = Some ms ->
  let file := file_bytes segs fill1 fill2 (mkSpS ss 0 63 0 0) (scan_bytes ds more) post fill3 in
  buf ++ arrived = file ++ extra ->
  exists k' buf', codec_decode dbg rerun rayon k (buf ++ arrived) = (k', buf', answered (decode_fresh dbg rayon file)) /\
    (forall img, decode_fresh dbg rayon file = Ok img -> buf' = extra).
Proof.
  intros dbg rerun rayon k0 buf0 k buf img0 arrived segs h fill1 fill2 ss ts qs ds more post fill3 extra ms H E B HF Bds MO PO P1 P2 Lb Li Lt R file Eb.
  destruct (after_image dbg rerun rayon k0 buf0 k buf img0 arrived H E B) as [S _]. destruct (streaming_ok _ _ _ _ _ S) as [_ [_ [_ Bf]]]. cbn [bi_input] in Bf. rewrite Eb in Bf. apply Forall_app in Bf.
  refine (next_same dbg rerun rayon k0 buf0 k buf img0 arrived segs h fill1 fill2 ss ts qs ds more post fill3 extra ms segs h fill1 fill2 ss ts ds more post fill3 H E B HF Bds MO PO HF Bds MO PO eq_refl eq_refl P1 P2 eq_refl _ _ R Eb (proj1 Bf)).
  - unfold last_transform. destruct Lt as [Lt|Lt]; [|rewrite Lt; reflexivity]. destruct (adobes (segs ++ post)) as [|a l]; [contradiction|]. cbn [map]. apply last_any.
  - rewrite Lb, scan_after_nil. replace (last (dris segs) (interval_left k)) with (last (dris segs) 0); [exact R|].
    destruct Li as [Li|Li]; [|rewrite Li; reflexivity]. destruct (dris segs) as [|a l]; [contradiction|]. apply last_any.
Qed.
