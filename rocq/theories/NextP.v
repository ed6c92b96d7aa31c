(** The next file on a codec (C49). *)
From Verif Require Import Base Tactics SpecColor SpecBits SpecReader SpecHuffman SpecBlock SpecTables Biterator BitsP Readers ReadersP Huffman HuffmanP3 Marker SpecMarker MarkerP Types Idct IdctP Upsampler Parsers Decode ParsersP SpecFrame SpecSegments SpecScan SpecPlane SpecUpsample SpecImage SpecFile SpecAnswer SpecLimits SpecDamage SpecCode SpecNext
  BlockP PlaneP SegmentsP SafeP InvP ScanP RestartP PlacedP EncodeP SpecGlobal GlobalP ExtP SpecStream StreamP StreamP2 RowP UpsampleP ImageP FileP CorruptP AnswerP AnswerP2 AnswerP3 ReuseP DamageP DamageP2 PiecesP TransP CodeP CodeP2 CodeP3.

(** ** The scan, when bits are left over *)
Section Scan.
  Variables (dbg : bool) (d0 : decoder) (fr : frame) (sc : scan) (ts : list tables) (specs : list comp_spec).
  Let MW := dim_w (f_mcu fr).
  Let MH := dim_h (f_mcu fr).
  Let N := lenZ (mcu_list (f_mcu fr)).
  Let r := d_restart d0.
  Hypothesis Fr : d_frame d0 = Some fr.
  Hypothesis Sc : d_scan d0 = Some sc.
  Hypothesis S0 : s_start sc = 0.
  Hypothesis S1 : 63 <= s_end sc.
  Hypothesis S2 : s_low sc = 0.
  Hypothesis Rd : comps_ready dbg d0 (f_components fr) (s_headers sc) ts.
  Hypothesis FG : frame_good fr.
  Hypothesis Few : (total_blocks (f_components fr) <= MAX_BLOCKS)%nat.
  Hypothesis Bpm : Forall (fun c => Z.to_nat (c_blocks_per_mcu c) = blocks_in c) (f_components fr).
  Hypothesis Spec : Forall2 same_blocks (f_components fr) specs.
  Hypothesis Pos : Forall (fun s => 0 <= cs_h s * cs_v s) specs.
  Hypothesis Qt : Forall (fun c => exists qt, index (d_qt d0) (c_tq c) = Ok (Some qt)) (f_components fr).
  Hypothesis Cp : coding_process fr = Ok Baseline \/ coding_process fr = Ok Sequential.
  Hypothesis Rp : 0 <= d_restart d0.
  Hypothesis Lts : (length ts <= 4)%nat.
  Variables (bb cc : Z).
  Hypothesis RK : reader_ok (mkBiter [] bb cc).
  Let left := to_bits (Z.to_nat cc) bb.
  Let zs := map (fun _ : tables => 0) ts.
  Notation in_code := (in_code d0 fr ts).
  Notation interval_ref := (interval_ref dbg d0 fr sc ts specs Fr Sc S0 S1 S2 Rd FG Few Bpm Spec Pos Qt Cp Lts).
  Notation scan_ref := (scan_ref dbg d0 fr sc ts specs Fr Sc S0 S1 S2 Rd FG Few Bpm Spec Pos Qt Cp Rp Lts).

  Lemma start_after : forall ds tail, bytes ds -> stands (ends_clean ds) tail (mkBiter (stuff ds ++ tail) bb cc) (left ++ bits_of ds).
  Proof.
    intros ds tail B n Hn. split; [exact RK|]. exists ds. split; [exact B|]. split; [reflexivity|]. exists n. split; [destruct Hn as [->|Z]; [left; reflexivity|right; apply clean_ends; exact Z]|].
    exists []. rewrite app_nil_r. unfold pending, left. cbn [bi_count bi_bits]. rewrite <- app_assoc. reflexivity.
  Qed.

Lemma last_after : forall tail ds pre todo d, marker_tail tail -> bytes tail -> bytes ds -> todo <> [] -> mcu_list (f_mcu fr) = pre ++ todo ->
    in_code 0 zs d -> counters r (lenZ pre) d -> (0 < r -> lenZ pre mod r = 0) -> r = 0 \/ lenZ todo <= r ->
    match ref_interval_after left specs ts (Z.to_nat (lenZ todo)) ds with
    | Some ms => Forall (mcu_shape specs) ms /\ length ms = length todo /\
        exists log d' b', mcus_read dbg todo d (mkBiter (stuff ds ++ tail) bb cc) log d' b' /\ Forall2 logged log ms
    | None => clean_end ds -> forall log d' b', ~ mcus_read dbg todo d (mkBiter (stuff ds ++ tail) bb cc) log d' b'
    end.
  Proof.
    intros tail ds pre todo d MT BT B Nt E I C P Q.
    assert (L0 : 0 < lenZ todo) by (destruct todo; [congruence|unfold lenZ; cbn [length]; lia]).
    unfold ref_interval_after. replace (Z.to_nat (lenZ todo)) with (length todo) by (unfold lenZ; lia). fold zs.
    assert (ND : forall i, lenZ pre <= i < lenZ pre + lenZ todo -> restart_due r N i = true -> False).
    { intros i Hi Du. assert (LN : N = lenZ pre + lenZ todo) by (unfold N, lenZ; rewrite E, app_length; lia).
      unfold restart_due in Du. apply andb_prop in Du. destruct Du as [Du D3]. apply andb_prop in Du. destruct Du as [D1 D2].
      assert (Hr : 0 < r) by lia. pose proof (P Hr) as P1. assert (Lt : lenZ todo <= r) by lia.
      apply Z.eqb_eq in D2. apply Z.mod_divide in D2; [|lia]. apply Z.mod_divide in P1; [|lia]. destruct D2 as [a D2]. destruct P1 as [c P1].
      assert (c < a < c + 1) by nia. lia. }
    pose proof (interval_ref (ends_clean ds) tail MT BT (length todo) 0 zs (left ++ bits_of ds) pre todo [] d _ eq_refl ltac:(unfold lenZ in L0; lia) ltac:(rewrite app_nil_r; exact E) I C
      (start_after ds tail B) ltac:(intros i Hi Du; exfalso; exact (ND i Hi Du))) as IR. cbv zeta in IR. change (d_restart d0) with r in IR. change (lenZ (mcu_list (f_mcu fr))) with N in IR. change (CodeP2.zs ts) with zs in IR.
    destruct (restart_due r N (lenZ pre + lenZ todo - 1)) eqn:Du; [exfalso; exact (ND (lenZ pre + lenZ todo - 1) ltac:(lia) Du)|].
    destruct (ref_mcus (ends_clean ds) specs ts (length todo) 0 zs (left ++ bits_of ds)) as [ms|]; [exact IR|]. intros CE. apply IR. apply clean_ends. exact CE.
  Qed.
Lemma first_after : forall tail n ds pre t1 t2 d, marker_tail tail -> bytes tail -> bytes ds -> t2 <> [] -> lenZ t1 = r -> mcu_list (f_mcu fr) = pre ++ t1 ++ t2 ->
    in_code 0 zs d -> counters r (lenZ pre) d -> 0 < r -> lenZ pre mod r = 0 -> n = (lenZ pre / r) mod 8 ->
    match ref_interval_after left specs ts (Z.to_nat r) ds with
    | Some ms => Forall (mcu_shape specs) ms /\ length ms = length t1 /\
        (forall rest, parse_marker tail = Ok (RST n, rest) ->
           exists log d1, mcus_read dbg t1 d (mkBiter (stuff ds ++ tail) bb cc) log d1 (mkBiter rest 0 0) /\ Forall2 logged log ms /\ counters r (lenZ pre + r) d1 /\ in_code 0 zs d1) /\
        ((forall rest, parse_marker tail <> Ok (RST n, rest)) -> forall log d' b', ~ mcus_read dbg (t1 ++ t2) d (mkBiter (stuff ds ++ tail) bb cc) log d' b')
    | None => clean_end ds -> forall log d' b', ~ mcus_read dbg (t1 ++ t2) d (mkBiter (stuff ds ++ tail) bb cc) log d' b'
    end.
  Proof.
    intros tail n ds pre t1 t2 d MT BT B Nt Lt1 E I C Hr P1 P2.
    assert (LN : N = lenZ pre + r + lenZ t2) by (unfold N; rewrite E; unfold lenZ in *; rewrite !app_length; lia).
    assert (Lt2 : 0 < lenZ t2) by (unfold lenZ; destruct t2; [congruence|cbn [length]; lia]).
    assert (Dm : (lenZ pre + r - 1) / r = lenZ pre / r /\ (lenZ pre + r - 1 + 1) mod r = 0).
    { apply Z.mod_divide in P1; [|lia]. destruct P1 as [c P1]. rewrite P1. rewrite Z.div_mul by lia. split.
      - replace (c * r + r - 1) with (r - 1 + c * r) by lia. rewrite Z.div_add by lia. rewrite Z.div_small by lia. lia.
      - replace (c * r + r - 1 + 1) with ((c + 1) * r) by lia. apply Z.mod_mul. lia. }
    destruct Dm as [Dm1 Dm2].
    assert (Due : forall i, lenZ pre <= i < lenZ pre + lenZ t1 -> restart_due r N i = true -> i = lenZ pre + lenZ t1 - 1).
    { intros i Hi Du. rewrite Lt1 in *. unfold restart_due in Du. apply andb_prop in Du. destruct Du as [Du D3]. apply andb_prop in Du. destruct Du as [D1 D2].
      apply Z.eqb_eq in D2. pose proof P1 as P1'. apply Z.mod_divide in D2; [|lia]. apply Z.mod_divide in P1'; [|lia]. destruct D2 as [a D2]. destruct P1' as [c P1'].
      assert (a = c + 1) by nia. subst a. lia. }
    assert (Du : restart_due r N (lenZ pre + r - 1) = true).
    { unfold restart_due. rewrite Dm2. replace (0 <? r) with true by lia. change (0 =? 0) with true. cbn [andb]. lia. }
    unfold ref_interval_after. fold zs. replace (Z.to_nat r) with (length t1) by (unfold lenZ in Lt1; lia).
    pose proof (interval_ref (ends_clean ds) tail MT BT (length t1) 0 zs (left ++ bits_of ds) pre t1 t2 d _ eq_refl ltac:(unfold lenZ in Lt1; lia) E I C (start_after ds tail B) Due) as IR.
    cbv zeta in IR. change (d_restart d0) with r in IR. change (lenZ (mcu_list (f_mcu fr))) with N in IR. change (CodeP2.zs ts) with zs in IR. rewrite Lt1, Du, Dm1, <- P2 in IR. replace (lenZ pre + r - 1 + 1) with (lenZ pre + r) in IR by lia.
    assert (Back : forall log d' b' b, mcus_read dbg (t1 ++ t2) d b log d' b' -> exists log1 d1 b1, mcus_read dbg t1 d b log1 d1 b1).
    { intros log d' b' b H. apply reads_split in H. destruct H as [log1 [d1 [b1 [log2 [_ [H1 _]]]]]]. eauto. }
    destruct (ref_mcus (ends_clean ds) specs ts (length t1) 0 zs (left ++ bits_of ds)) as [ms|].
    - destruct IR as [Sh [Lm [G1 G2]]]. split; [exact Sh|]. split; [exact Lm|]. split.
      + intros rest PM. destruct (G1 rest PM) as [log [d1 [M [Lg [C1 I1]]]]]. exists log, d1. auto.
      + intros NM log d' b' H. destruct (Back _ _ _ _ H) as [log1 [d1 [b1 H1]]]. exact (G2 NM _ _ _ H1).
    - intros CE log d' b' H. destruct (Back _ _ _ _ H) as [log1 [d1 [b1 H1]]]. apply clean_ends in CE. exact (IR CE _ _ _ H1).
  Qed.
  Lemma scan_after : forall tail, marker_tail tail -> bytes tail -> (forall n rest, parse_marker tail <> Ok (RST n, rest)) ->
    forall more ds d, more_ok more -> bytes ds -> mcu_list (f_mcu fr) <> [] -> in_code 0 zs d -> counters r 0 d ->
    match ref_scan_after left specs ts r N ds more with
    | Some ms => Forall (mcu_shape specs) ms /\ length ms = length (mcu_list (f_mcu fr)) /\
        exists log d' b', mcus_read dbg (mcu_list (f_mcu fr)) d (mkBiter (scan_bytes ds more ++ tail) bb cc) log d' b' /\ Forall2 logged log ms
    | None => Forall clean_end (ds :: map snd more) -> forall log d' b', ~ mcus_read dbg (mcu_list (f_mcu fr)) d (mkBiter (scan_bytes ds more ++ tail) bb cc) log d' b'
    end.
  Proof.
    intros tail MT BT NR more ds d MO B Nt I C. set (todo := mcu_list (f_mcu fr)) in *.
    assert (P0 : 0 < r -> lenZ (@nil (Z * Z)) mod r = 0) by (intros Hr; change (lenZ (@nil (Z * Z))) with 0; apply Z.mod_0_l; lia).
    assert (C0 : counters r (lenZ (@nil (Z * Z))) d) by exact C.
    assert (Q0 : 0 <= r) by exact Rp.
    destruct ((r =? 0) || (N <=? r)) eqn:Q.
    - unfold ref_scan_after. rewrite Q. set (tail1 := flat_map rst_bytes more ++ tail).
      assert (ES : scan_bytes ds more ++ tail = stuff ds ++ tail1) by (unfold scan_bytes, tail1; rewrite <- app_assoc; reflexivity).
      assert (MT1 : marker_tail tail1 /\ bytes tail1).
      { unfold tail1. split; [|apply Forall_app; split; [exact (more_bytes d0 fr ts Few Lts more MO)|exact BT]].
        destruct more as [|[m ds'] more]; [exact MT|]. inversion MO as [|p0 l0 MO1 MO2]; subst p0 l0. cbn [fst snd] in MO1. cbn [flat_map]. unfold rst_bytes at 1. cbn [fst snd]. eexists _, _. split; [cbn [app]; reflexivity|lia]. }
      rewrite ES. pose proof (last_after tail1 ds [] todo d (proj1 MT1) (proj2 MT1) B Nt eq_refl I C0 P0 ltac:(unfold N in Q; fold todo in Q; lia)) as LR.
      fold todo in LR. change (lenZ todo) with N in LR.
      destruct (ref_interval_after left specs ts (Z.to_nat N) ds); [exact LR|]. intros CE. apply LR. exact (Forall_inv CE).
    - assert (Hr : 0 < r) by lia. assert (LN : N = lenZ todo) by reflexivity. unfold ref_scan_after. rewrite Q.
      pose proof (firstn_skipn (Z.to_nat r) todo) as FS.
      set (t1 := firstn (Z.to_nat r) todo) in *. set (t2 := skipn (Z.to_nat r) todo) in *.
      assert (L1 : lenZ t1 = r) by (unfold t1, lenZ; unfold lenZ in LN; rewrite firstn_length; lia).
      assert (L2 : lenZ t2 = lenZ todo - r) by (unfold t2, lenZ; unfold lenZ in LN; rewrite skipn_length; lia).
      assert (N2 : t2 <> []) by (intros X; rewrite X in L2; change (lenZ (@nil (Z * Z))) with 0 in L2; lia).
      assert (Z8 : 0 = (lenZ (@nil (Z * Z)) / r) mod 8) by (change (lenZ (@nil (Z * Z))) with 0; rewrite Z.div_0_l by lia; reflexivity).
      destruct more as [|[m ds'] more].
      + unfold scan_bytes. cbn [flat_map map]. rewrite app_nil_r.
        pose proof (first_after tail 0 ds [] t1 t2 d MT BT B N2 L1 ltac:(cbn [app]; rewrite FS; reflexivity) I C0 Hr (P0 Hr) Z8) as FF. rewrite FS in FF.
        assert (None' : Forall clean_end [ds] -> forall log d' b', ~ mcus_read dbg todo d (mkBiter (stuff ds ++ tail) bb cc) log d' b').
        { intros CE. destruct (ref_interval_after left specs ts (Z.to_nat r) ds); [apply FF; apply NR|apply FF; exact (Forall_inv CE)]. }
        destruct (ref_interval_after left specs ts (Z.to_nat r) ds); exact None'.
      + inversion MO as [|p0 l0 MO1 MO2]; subst p0 l0. cbn [fst snd] in MO1. destruct MO1 as [Hm Bd].
        set (tail1 := [255; 0xD0 + m] ++ scan_bytes ds' more ++ tail).
        assert (ES : scan_bytes ds ((m, ds') :: more) ++ tail = stuff ds ++ tail1).
        { unfold scan_bytes, tail1. cbn [flat_map]. unfold rst_bytes at 1, scan_bytes. cbn [fst snd]. rewrite <- !app_assoc. reflexivity. }
        rewrite ES. cbn [map snd].
        assert (MT1 : marker_tail tail1) by (eexists _, _; split; [reflexivity|lia]).
        assert (BT1 : bytes tail1).
        { apply Forall_app; split; [repeat first [apply Forall_nil | apply Forall_cons]; unfold is_byte; lia|apply Forall_app; split; [|exact BT]].
          apply Forall_app; split; [exact (stuff_bytes d0 fr ts Few Lts _ Bd)|exact (more_bytes d0 fr ts Few Lts more MO2)]. }
        pose proof (first_after tail1 0 ds [] t1 t2 d MT1 BT1 B N2 L1 ltac:(cbn [app]; rewrite FS; reflexivity) I C0 Hr (P0 Hr) Z8) as FF. rewrite FS in FF.
        destruct (ref_interval_after left specs ts (Z.to_nat r) ds) as [ms1|]; [|intros CE; apply FF; exact (Forall_inv CE)].
        destruct FF as [Sh1 [Lm1 [G1 G2]]].
        destruct (Z.eqb_spec m 0) as [->|Nm].
        2:{ intros _. apply G2. intros rest. unfold tail1. rewrite (rst_first d0 fr ts Few Lts) by lia. congruence. }
        destruct (G1 (scan_bytes ds' more ++ tail) ltac:(unfold tail1; apply (rst_first d0 fr ts Few Lts); lia)) as [log1 [d1 [M1 [Lg1 [C1 I1]]]]].
        change (lenZ (@nil (Z * Z)) + r) with (0 + r) in C1.
        assert (C1' : counters r (lenZ t1) d1) by (replace (lenZ t1) with (0 + r) by lia; exact C1).
        pose proof (scan_ref tail MT BT NR more MO2 1 ds' t1 t2 d1 Bd ltac:(lia) N2 ltac:(rewrite FS; reflexivity) I1 C1') as IH.
        rewrite L2 in IH. assert (P' : 0 < d_restart d0 -> lenZ t1 mod d_restart d0 = 0 /\ 1 = (lenZ t1 / d_restart d0) mod 8).
        { intros _. fold r. rewrite L1. rewrite Z.mod_same, Z.div_same by lia. split; reflexivity. }
        specialize (IH P'). clear P'. rewrite <- LN in IH. fold r in IH.
        destruct (ref_scan specs ts r 1 (N - r) ds' more) as [ms2|].
        * destruct IH as [Sh2 [Lm2 [log2 [d2 [b2 [M2 Lg2]]]]]]. split; [apply Forall_app; auto|]. split; [rewrite <- FS, !app_length; lia|].
          exists (log1 ++ log2), d2, b2. split; [rewrite <- FS; apply (reads_app _ _ _ _ _ _ _ _ _ _ _ M1 M2)|apply Forall2_app; auto].
        * intros CE log d' b' H. rewrite <- FS in H. apply reads_split in H. destruct H as [l1 [e1 [c1 [l2 [_ [H1 H2]]]]]].
          destruct (reads_same _ _ _ _ _ _ _ M1 _ _ _ H1) as [_ [-> ->]]. exact (IH (Forall_inv_tail CE) _ _ _ H2).
  Qed.
End Scan.

