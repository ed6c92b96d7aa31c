(** Damaged scan data in pieces (C78): where no code comes next the codec asks for more. *)
From Verif Require Import SpecColor Base Tactics SpecBits SpecReader SpecHuffman SpecBlock SpecTables Biterator BitsP Readers ReadersP Huffman HuffmanP2 HuffmanP3  Marker SpecMarker MarkerP Types Idct IdctP Upsampler Parsers Decode SpecFrame SpecSegments SpecScan SpecPlane SpecUpsample SpecImage SpecFile SpecLimits BlockP PlaneP SegmentsP SafeP InvP ScanP RestartP PlacedP EncodeP SpecGlobal GlobalP ExtP SpecStream StreamP StreamP2 RowP UpsampleP ImageP ParsersP FileP CorruptP SpecCode CodeP3 ReuseP TraceP SpecPieces PiecesP SpecWait DamageP2.

(** ** What a failing MCU can report *)
Lemma fails_bind : forall A B (x : out A) (k : A -> out B) e, bind x k = Fail e -> x = Fail e \/ exists a, x = Ok a /\ k a = Fail e.
Proof. intros A B [a|e'|p|] k e H; cbn in H; try discriminate; eauto. left. congruence. Qed.
Lemma or_fail_is : forall A f (x : bitres A) e, (forall e, x <> Fail e) -> or_fail f x = Fail e -> e = f.
Proof. intros A f [[[v|] b]|e'|p|] e N; cbn; try discriminate; [congruence|]. exfalso. exact (N e' eq_refl). Qed.

Lemma dc_fail : forall dbg ts dct act sc coefs b pred e, built dbg ts dct act -> Forall (fun v => v <= 11) (dc_values ts) -> good b ->
  decode_dc dbg sc dct coefs b pred = Fail e -> e = EEof.
Proof.
  intros dbg ts dct act sc coefs b pred e [B1 B2 B2b B3 _ _ _ _] S G H. unfold decode_dc in H. destruct (s_start sc =? 0); [|discriminate].
  apply fails_bind in H. destruct H as [H|[[value b1] [E H]]]; [exact (or_fail_is _ _ _ _ (table_no_fail dbg dct b) H)|].
  apply or_fail_ok in E. destruct (table_decode_any dbg (dc_counts ts) (dc_values ts) dct b ltac:(eapply table_new_of; eauto) G) as [r [b' [E' [_ [_ I']]]]].
  rewrite E in E'. inv E'. rewrite Forall_forall in S. specialize (S _ I').
  apply fails_bind in H. destruct H as [H|[[diff b2] [_ H]]].
  - destruct (value =? 0); [discriminate|]. replace (11 <? value) with false in H by lia. exact (or_fail_is _ _ _ _ (receive_no_fail dbg b' value) H).
  - cbv zeta in H. apply fails_bind in H. destruct H as [H|[c [_ H]]]; [exfalso; exact (store_no_fail _ _ _ _ _ H)|discriminate].
Qed.
Lemma ac_fail : forall dbg t low last fuel coefs b eob i e, ac_loop dbg fuel t low last coefs b eob i = Fail e -> e = EEof \/ e = EOutOfBits.
Proof.
  intros dbg t low last. induction fuel as [|fuel IH]; intros coefs b eob i e H; [discriminate|]. cbn [ac_loop] in H. cbv zeta in H.
  assert (Put : forall value run b2, (if i + run <=? last then
      let* coefs0 := unzigzag coefs (i + run) (shl16 value low) in
      if i + run + 1 <=? last then ac_loop dbg fuel t low last coefs0 b2 eob (i + run + 1) else Ok (coefs0, b2, eob) else Ok (coefs, b2, eob)) = Fail e -> e = EEof \/ e = EOutOfBits).
  { intros value run b2 K. destruct (i + run <=? last); [|discriminate]. apply fails_bind in K. destruct K as [K|[c [_ K]]]; [exfalso; exact (unzigzag_no_fail _ _ _ _ K)|].
    destruct (i + run + 1 <=? last); [|discriminate]. eapply IH; exact K. }
  apply fails_bind in H. destruct H as [H|[[r b1] [_ H]]]; [exfalso; exact (fast_no_fail _ _ _ _ H)|]. destruct r as [value run|byte|]; [eapply Put; exact H| |left; congruence].
  destruct (Z.land byte 15 =? 0).
  - destruct (Z.shiftr byte 4 =? 15); [destruct (i + 16 <=? last); [eapply IH; exact H|discriminate]|]. destruct (0 <? Z.shiftr byte 4); [|discriminate].
    apply fails_bind in H. destruct H as [H|[[v b2] [_ H]]]; [right; exact (or_fail_is _ _ _ _ (next_bits_no_fail dbg b1 _) H)|discriminate].
  - apply fails_bind in H. destruct H as [H|[[v b2] [_ H]]]; [left; exact (or_fail_is _ _ _ _ (receive_no_fail dbg b1 _) H)|]. eapply Put; exact H.
Qed.
Lemma block_fail : forall dbg ts dct act sc coefs b eob pred e, built dbg ts dct act -> Forall (fun v => v <= 11) (dc_values ts) -> good b ->
  decode_block dbg sc dct act coefs b eob pred = Fail e -> e = EEof \/ e = EOutOfBits.
Proof.
  intros dbg ts dct act sc coefs b eob pred e B S G H. unfold decode_block in H. apply fails_bind in H. destruct H as [H|[[[c b1] p1] [_ H]]]; [left; eapply dc_fail; eauto|].
  cbv zeta in H. destruct (_ && _); [discriminate|]. destruct (_ <? _); [|discriminate]. apply fails_bind in H. destruct H as [H|[[[c2 b2] e2] [_ H]]]; [eapply ac_fail; exact H|discriminate].
Qed.
Lemma blocks_fail : forall dbg ts dct act sc, built dbg ts dct act -> Forall (fun v => v <= 11) (dc_values ts) -> 0 <= s_start sc ->
  forall n b eob pred e, good b -> 0 <= eob < 2 ^ 15 -> i16 pred -> decode_blocks dbg sc dct act n b eob pred = Fail e -> e = EEof \/ e = EOutOfBits.
Proof.
  intros dbg ts dct act sc B S Hs. destruct (built_ok _ _ _ _ B) as [Hd Ha]. induction n as [|n IH]; intros b eob pred e G He Hp H; cbn [decode_blocks] in H; [discriminate|].
  apply fails_bind in H. destruct H as [H|[[[[c b1] eob1] pred1] [E H]]]; [eapply block_fail; eauto|].
  pose proof (decode_block_safe dbg sc dct act zero_block b eob pred Hd Ha Hs eq_refl zero_block_i16 G He Hp) as D. rewrite E in D. destruct D as [_ [G1 [_ [E1 P1]]]].
  apply fails_bind in H. destruct H as [H|[[[[cs b2] eob2] pred2] [_ H]]]; [eapply IH; eauto|discriminate].
Qed.
Lemma comps_fail : forall dbg d sc, 0 <= s_start sc -> forall cs hs ts, comps_ready dbg d cs hs ts -> Forall (fun t => Forall (fun v => v <= 11) (dc_values t)) ts ->
  forall ps avail b eob e, Forall i16 ps -> good b -> 0 <= eob < 2 ^ 15 -> decode_comps dbg d sc cs hs ps avail b eob = Fail e -> e = EEof \/ e = EOutOfBits.
Proof.
  intros dbg d sc S0 cs hs ts R. induction R as [|c cs h hs t ts [dct [act [I1 [I2 B]]]] R IH]; intros F ps avail b eob e Fp G He H; cbn [decode_comps] in H; [discriminate|].
  destruct ps as [|p ps]; [discriminate|]. inv F. inv Fp. rewrite I1 in H. cbn [bind] in H. rewrite I2 in H. cbn [bind] in H. cbv zeta in H.
  destruct (built_ok _ _ _ _ B) as [Td Ta].
  apply fails_bind in H. destruct H as [H|[[[[bl b1] eob1] p1] [E H]]]; [eapply blocks_fail; eauto|].
  pose proof (blocks_inv dbg sc dct act Td Ta S0 (Nat.min (Z.to_nat (c_blocks_per_mcu c)) avail) b eob p G He H4) as D. rewrite E in D. destruct D as [G1 [_ [E1 [P1 _]]]].
  apply fails_bind in H. destruct H as [H|[[[[r ps'] b2] e2] [_ H]]]; [eapply IH; eauto|discriminate].
Qed.
Lemma row_fail : forall dbg d b fr sc ts e, d_frame d = Some fr -> d_scan d = Some sc -> 0 <= s_start sc -> comps_ready dbg d (f_components fr) (s_headers sc) ts ->
  Forall (fun t => Forall (fun v => v <= 11) (dc_values t)) ts -> dec_ok d -> good b -> ~ has_eob_runs d -> decode_row dbg d b = Fail e -> e = EEof.
Proof.
  intros dbg d b fr sc ts e Fr Sc S0 R F K G NE H. assert (X : e = EEof \/ e = EOutOfBits).
  { unfold decode_row in H. rewrite Sc, Fr in H. cbv zeta in H. apply fails_bind in H. destruct H as [H|[[[[bl ps] b1] e1] [_ H]]]; [|discriminate].
    eapply (comps_fail dbg d sc S0 _ _ _ R F); [apply K|exact G|apply K|exact H]. }
  destruct X as [->| ->]; [reflexivity|]. exfalso. apply NE. eapply row_oob. exact H.
Qed.

(** ** The scan without restart intervals *)
Section Stuck.
  Variables (dbg : bool) (d0 : decoder) (fr : frame) (sc : scan) (ts : list tables) (tail : list Z).
  Hypothesis Fr : d_frame d0 = Some fr.
  Hypothesis Sc : d_scan d0 = Some sc.
  Hypothesis S0 : 0 <= s_start sc.
  Hypothesis Rd : comps_ready dbg d0 (f_components fr) (s_headers sc) ts.
  Hypothesis FG : frame_good fr.
  Hypothesis Few : (total_blocks (f_components fr) <= MAX_BLOCKS)%nat.
  Hypothesis Qt : Forall (fun c => exists qt, index (d_qt d0) (c_tq c) = Ok (Some qt)) (f_components fr).
  Hypothesis Cp : coding_process fr = Ok Baseline \/ coding_process fr = Ok Sequential.
  Hypothesis Small : Forall (fun t => Forall (fun v => v <= 11) (dc_values t)) ts.
  Hypothesis NE : ~ has_eob_runs d0.
  Hypothesis R0 : d_restart d0 = 0.
  Hypothesis ST : stop_tail tail.

  Lemma scan_stuck : forall todo pre d b, mcu_list (f_mcu fr) = pre ++ todo -> (exists s, d = set_ss d0 s) -> dec_ok d -> good b -> in_data tail (bi_input b) ->
    Forall2 (sized (dim_h (f_mcu fr))) (f_components fr) (ss_results (d_ss d)) ->
    forall d' b' r, scan_loop dbg false true todo PhRow d b = (d', b', r) ->
    r = ScDone \/ exists todo', r = ScNeed todo' PhRow /\ in_data tail (bi_input b').
  Proof.
    induction todo as [|[y x] rest IH]; intros pre d b E [s ->] K G ID Sz d' b' r SL.
    { cbn in SL. inv SL. left. reflexivity. }
    cbn [scan_loop] in SL. cbn [set_ss d_ss] in Sz.
    assert (Row : (exists r, decode_row dbg (set_ss d0 s) b = Ok r) \/ (exists e, decode_row dbg (set_ss d0 s) b = Fail e)).
    { unfold decode_row. cbn [set_ss d_scan d_frame d_ss]. rewrite Sc, Fr. fold (set_ss d0 s).
      destruct (comps_calm dbg d0 sc S0 s _ _ _ (ready_set _ _ s _ _ _ Rd) (ss_preds s) MAX_BLOCKS b (ss_eob s) (ok_preds _ K) G (ok_eob _ K)) as [[[[[bl ps] b1] e1] ->]|[e ->]]; cbn [bind]; eauto. }
    pose proof (row_inv dbg (set_ss d0 s) b K G) as RI.
    destruct Row as [[[d1 b1] ER]|[e ER]]; rewrite ER in SL, RI; cbn [SafeP.post] in RI.
    2:{ assert (X : e = EEof).
        { apply (row_fail dbg (set_ss d0 s) b fr sc ts e Fr Sc S0 (ready_set _ _ s _ _ _ Rd) Small K G); [|exact ER]. intros H. apply NE. eapply has_eob_kin; [|exact H]. exists s. reflexivity. }
        subst e. inv SL. right. exists ((y, x) :: rest). split; [reflexivity|exact ID]. }
    destruct RI as [Sm [G1 [_ [Lc _]]]]. pose proof (same_ok _ _ K Sm) as K1.
    pose proof (row_keep (in_data tail) (fill_data tail ST) _ _ _ _ _ ID ER) as ID1.
    destruct Sm as [s1 [E1 [Rs1 _]]]. cbn [set_ss d_ss] in Rs1. change (d1 = set_ss d0 s1) in E1.
    assert (RC : restart_check dbg x y d1 = Ok (false, d1)) by (unfold restart_check; rewrite E1 at 1; cbn [set_ss d_restart]; rewrite R0; reflexivity).
    rewrite RC in SL. cbv iota in SL. destruct (mcu_in _ _ _ _ _ E) as [Hx Hy].
    assert (Sz1 : Forall2 (sized (dim_h (f_mcu fr))) (f_components fr) (ss_results (d_ss d1))) by (rewrite E1; cbn [set_ss d_ss]; rewrite Rs1; exact Sz).
    destruct (deq_ok dbg d0 fr Fr FG Few Qt Cp x y d1 ltac:(eauto) Hx Hy Sz1) as [ps [ED Sz4]]; [rewrite Lc; unfold MAX_BLOCKS; lia|].
    rewrite ED in SL. apply (IH (pre ++ [(y, x)])) in SL; auto.
    - rewrite <- app_assoc. exact E.
    - rewrite E1. eexists. reflexivity.
    - destruct K1 as [A1 A2 A3 A4 A5 A6 A7 A8]. constructor; cbn; auto.
  Qed.
End Stuck.

(** ** The file up to the damaged MCU *)
Lemma sos_enter : forall dbg rayon segs d fmk pr lines samples cs ss ts qs data tail, bytes data -> bytes tail ->
  Forall (fun s => hseg_ok (snd s)) segs -> header_ok lines samples cs -> 0 <= fmk <= 1 ->
  d_frame d = Some (frame_of fmk pr lines samples cs) -> 0 <= d_restart d -> d_finished d = [0; 0; 0; 0] ->
  quant_slots [None; None; None; None] (d_qt d) (dqts segs) ->
  dc_slots dbg [None; None; None; None] (d_dc d) (dhts segs) -> ac_slots dbg [None; None; None; None] (d_ac d) (dhts segs) ->
  NoDup (map cs_id cs) -> lenZ cs <= 4 -> (blocks_before cs (length cs) <= 10)%nat -> comp_codings segs cs ss ts qs ->
  dec_ok d -> good (mkBiter (segment (sos_bytes (mkSpS ss 0 63 0 0)) ++ data ++ tail) 0 0) ->
  let fr := frame_of fmk pr lines samples cs in let b0 := mkBiter (data ++ tail) 0 0 in
  exists d1 sc d2,
    step dbg false rayon (PcSegment SOS) d (mkBiter (segment (sos_bytes (mkSpS ss 0 63 0 0)) ++ data ++ tail) 0 0) = (d2, b0, SNext (PcScan true (mcu_list (f_mcu fr)) PhRow)) /\
    scan_start dbg fr ts (d_qt d) (d_restart d) d1 sc d2 /\ frame_good fr /\ (total_blocks (f_components fr) <= MAX_BLOCKS)%nat /\
    (coding_process fr = Ok Baseline \/ coding_process fr = Ok Sequential) /\ good b0 /\ pc_ok (PcScan true (mcu_list (f_mcu fr)) PhRow) d2 /\
    (exists s, d2 = set_ss d1 s) /\ d_ac d1 = d_ac d /\ d_qt d1 = d_qt d /\ counters (d_restart d1) 0 d2 /\ map h_index (s_headers sc) = zrange (lenZ (s_headers sc)) /\ length (s_headers sc) = length cs /\
    Forall2 (sized (dim_h (f_mcu fr))) (f_components fr) (ss_results (d_ss d2)).
Proof.
  intros dbg rayon segs d fmk pr lines samples cs ss ts qs data tail Bd Bt F HO Fm Fr Rs Fin Q D A ND L4 Few CC Kd Gd fr b0.
  destruct (codings_length _ _ _ _ _ CC) as [Lss [Lts [Lqs Ids]]]. fold fr in Fr.
  set (s := mkSpS ss 0 63 0 0). set (ks := zrange (lenZ cs)). set (sc := scan_of s ks).
  assert (L1 : 1 <= lenZ cs) by (destruct HO as [_ _ N _ _ _]; unfold lenZ; destruct cs; [congruence|cbn [length]; lia]).
  assert (Lk : length ks = length cs) by (unfold ks; rewrite zrange_length; unfold lenZ; lia).
  assert (Lh : length (s_headers sc) = length cs) by (unfold sc, scan_of; cbn [s_headers sp_comps s]; rewrite headers_length; lia).
  assert (Hi : map h_index (s_headers sc) = ks) by (unfold sc, scan_of; cbn [s_headers sp_comps s]; apply combine_header; lia).
  assert (Hi' : map h_index (s_headers sc) = zrange (lenZ (s_headers sc))) by (rewrite Hi; unfold ks, lenZ; rewrite Lh; reflexivity).
  assert (SH : sos_segment (Some fr) (sos_bytes s) = Ok (sc, [])).
  { rewrite <- (app_nil_r (sos_bytes s)). apply sos_header_scan; [destruct HO as [_ _ _ N _ _]; unfold fr, frame_of; cbn [f_components]; unfold lenZ in *; rewrite map_length; lia| |apply scan_in_all; auto].
    unfold scan_ok, s. cbn [sp_comps sp_start sp_end sp_high sp_low]. split; [|unfold is_byte, nibble; lia].
    apply Forall_forall. intros x Ix. apply In_nth_error in Ix. destruct Ix as [k Ek]. assert (Hk : (k < length cs)%nat) by (rewrite <- Lss; apply nth_error_Some; congruence).
    destruct (nth_error cs k) as [c|] eqn:Ec; [|apply nth_error_None in Ec; lia]. destruct (codings_nth _ _ _ _ _ CC k c Ec) as [x' [t [q [X1 [_ [_ [Y1 Y2 Y3 _ _ _ _]]]]]]].
    assert (x' = x) by congruence. subst x'. destruct HO as [_ _ _ _ HR _]. rewrite Forall_forall in HR. destruct (HR c (nth_error_In _ _ Ec)) as [B _]. split; [congruence|]. unfold nibble. lia. }
  destruct (finish_all dbg (s_headers sc) ltac:(unfold lenZ in L4; lia) Hi') as [fin [MF AF]].
  set (d1 := set_finished (set_scan d (Some sc)) fin).
  assert (CP : coding_process fr = Ok Baseline \/ coding_process fr = Ok Sequential).
  { unfold coding_process, fr, frame_of. cbn [f_marker]. assert (O : fmk = 0 \/ fmk = 1) by lia. destruct O as [-> | ->]; cbn; auto. }
  assert (SB : sos_begin dbg d sc = (d1, Ok true)).
  { unfold sos_begin. cbn [set_scan d_frame d_finished]. rewrite Fr.
    rewrite Fin. change (s_low sc) with 0. change (s_start sc) with 0. change (s_end sc) with 63. change (0 =? 0) with true. cbn iota.
    rewrite MF. destruct CP as [-> | ->]; rewrite AF; reflexivity. }
  assert (RD : comps_ready dbg d1 (f_components fr) (s_headers sc) ts).
  { unfold fr, frame_of, sc, scan_of. cbn [f_components s_headers sp_comps s]. eapply codings_ready; eauto. }
  destruct (ready_tables _ _ _ _ _ RD) as [U1 U2].
  assert (SI : scan_init true d1 = Ok (set_ss d1 (mkSS zero_coefs [0; 0; 0; 0] 0 0 (d_restart d) (map (fun c => repeat None (Z.to_nat (area (c_block_size c) * 64))) (f_components fr))))).
  { unfold scan_init. cbn [d1 set_finished set_scan d_frame d_scan]. rewrite Fr. change (s_start sc) with 0. change (s_end sc) with 63. change (0 =? 0) with true. change (1 <? 63) with true. cbn iota.
    fold (set_finished (set_scan d (Some sc)) fin). fold d1. rewrite U1. cbn [bind]. rewrite U2. cbn [bind].
    assert (X : lenZ (f_components fr) <=? 4 = true) by (unfold fr, frame_of; cbn [f_components]; unfold lenZ in *; rewrite map_length; lia).
    rewrite X. reflexivity. }
  set (d2 := set_ss d1 _) in SI.
  assert (ST : step dbg false rayon (PcSegment SOS) d (mkBiter (segment (sos_bytes s) ++ data ++ tail) 0 0)
    = (d2, b0, SNext (PcScan true (mcu_list (f_mcu fr)) PhRow))).
  { rewrite step_segment by reflexivity. unfold on_payload, do_sos. rewrite Fr, SH, SB, SI. cbn [d2 d1 set_ss set_finished set_scan d_frame]. rewrite Fr. reflexivity. }
  assert (FG : frame_good fr) by (exists fmk, pr, lines, samples, cs; split; [reflexivity|exact HO]).
  assert (Qts : forall k c, nth_error cs k = Some c -> exists qt q, index (d_qt d) (cs_tq c) = Ok (Some qt) /\ nth_error qs k = Some q /\ natural_order qt q).
  { intros k c Ec. destruct (codings_nth _ _ _ _ _ CC k c Ec) as [x' [t [q [_ [_ [X3 [_ _ _ Y4 _ _ [e [Y5 Y6]]]]]]]]]. destruct Q as [Q1 Q2]. specialize (Q2 (Z.to_nat (cs_tq c)) ltac:(lia)).
    rewrite Z2Nat.id in Q2 by lia. rewrite Y5 in Q2. destruct Q2 as [qt [Q3 Q4]]. exists qt, q. split; [apply slot_ok; auto|]. split; [exact X3|]. rewrite Y6. exact Q4. }
  assert (Qf : Forall (fun c => exists qt, index (d_qt d) (c_tq c) = Ok (Some qt)) (f_components fr)).
  { unfold fr, frame_of; cbn [f_components]; apply Forall_forall; intros c Ic; apply in_map_iff in Ic; destruct Ic as [c0 [<- Ic]]; cbn [c_tq]; apply In_nth_error in Ic; destruct Ic as [k Ek]; destruct (Qts k c0 Ek) as [qt [q [X _]]]; exists qt; exact X. }
  pose proof (step_inv dbg false rayon (PcSegment SOS) d _ Kd Gd I) as SV. fold s in SV. rewrite ST in SV. destruct SV as [K2 [G2 [_ [P2 _]]]].
  assert (SS : scan_start dbg fr ts (d_qt d) (d_restart d) d1 sc d2) by (unfold scan_start; splits; auto).
  exists d1, sc, d2. splits; auto.
  - unfold fr. rewrite total_before by exact HO. exact Few.
  - eexists. reflexivity.
  - destruct (init_counts _ _ _ SI Rs) as [C0 _]. exact C0.
  - cbn [d2 set_ss d_ss ss_results]. eapply covered_sized. apply covered_start. exact FG.
Qed.

Lemma sos_stuck : forall dbg rayon segs d fmk pr lines samples cs ss ts qs data tail, stop_tail tail -> rst_only data -> bytes data -> bytes tail ->
  Forall (fun s => hseg_ok (snd s)) segs -> header_ok lines samples cs -> 0 <= fmk <= 1 ->
  d_frame d = Some (frame_of fmk pr lines samples cs) -> d_restart d = 0 -> d_finished d = [0; 0; 0; 0] ->
  quant_slots [None; None; None; None] (d_qt d) (dqts segs) ->
  dc_slots dbg [None; None; None; None] (d_dc d) (dhts segs) -> ac_slots dbg [None; None; None; None] (d_ac d) (dhts segs) ->
  NoDup (map cs_id cs) -> lenZ cs <= 4 -> (blocks_before cs (length cs) <= 10)%nat -> comp_codings segs cs ss ts qs ->
  dec_ok d -> good (mkBiter (segment (sos_bytes (mkSpS ss 0 63 0 0)) ++ data ++ tail) 0 0) ->
  Forall (fun t => Forall (fun v => v <= 11) (dc_values t)) ts -> ~ has_eob_runs d ->
  let fr := frame_of fmk pr lines samples cs in
  (forall dq sc d2, scan_start dbg fr ts (d_qt d) 0 dq sc d2 -> forall log d3 b3, ~ mcus_read dbg (mcu_list (f_mcu fr)) d2 (mkBiter (data ++ tail) 0 0) log d3 b3) ->
  exists d2 d3 b3 todo,
    step dbg false rayon (PcSegment SOS) d (mkBiter (segment (sos_bytes (mkSpS ss 0 63 0 0)) ++ data ++ tail) 0 0)
      = (d2, mkBiter (data ++ tail) 0 0, SNext (PcScan true (mcu_list (f_mcu fr)) PhRow)) /\
    step dbg false rayon (PcScan true (mcu_list (f_mcu fr)) PhRow) d2 (mkBiter (data ++ tail) 0 0) = (d3, b3, SStop (RNeed (PcScan true todo PhRow))) /\
    in_data tail (bi_input b3).
Proof.
  intros dbg rayon segs d fmk pr lines samples cs ss ts qs data tail StT RO Bd Bt F HO Fm Fr Rs Fin Q D A ND L4 Few CC Kd Gd Small NE fr NR.
  destruct (sos_enter dbg rayon segs d fmk pr lines samples cs ss ts qs data tail Bd Bt F HO Fm Fr ltac:(lia) Fin Q D A ND L4 Few CC Kd Gd) as (d1 & sc & d2 & ST & SS & FG & Few' & CP & G2 & P2 & E2 & Ac & Qe & C0 & _ & _ & Sz).
  fold fr in ST, SS, FG, Few', CP, P2, Sz. rewrite Rs in SS. set (b0 := mkBiter (data ++ tail) 0 0) in *.
  pose proof SS as (Fr1 & Sc1 & S0 & S1 & S2 & RD & _ & Re & SI & K2 & Qf).
  destruct (scan_loop dbg false true (mcu_list (f_mcu fr)) PhRow d2 b0) as [[d3 b3] r] eqn:SL.
  assert (NE1 : ~ has_eob_runs d1) by (unfold has_eob_runs in *; rewrite Ac; exact NE).
  destruct (scan_stuck dbg d1 fr sc ts tail Fr1 Sc1 ltac:(lia) RD FG Few' ltac:(rewrite Qe; exact Qf) CP Small NE1 Re StT
     (mcu_list (f_mcu fr)) [] d2 b0 eq_refl E2 K2 G2 ltac:(exists data; auto) Sz d3 b3 r SL) as [->|[todo [-> ID]]].
  - exfalso. apply scan_loop_reads in SL. destruct SL as [log MR]. exact (NR _ _ _ SS _ _ _ MR).
  - exists d2, d3, b3, todo. split; [exact ST|]. split; [cbn [step]; rewrite SL; reflexivity|exact ID].
Qed.

Lemma sos_read : forall dbg rayon segs d fmk pr lines samples cs ss ts qs data tail, stop_tail tail -> rst_only data -> bytes data -> bytes tail ->
  Forall (fun s => hseg_ok (snd s)) segs -> header_ok lines samples cs -> 0 <= fmk <= 1 ->
  d_frame d = Some (frame_of fmk pr lines samples cs) -> 0 <= d_restart d -> d_finished d = [0; 0; 0; 0] ->
  quant_slots [None; None; None; None] (d_qt d) (dqts segs) ->
  dc_slots dbg [None; None; None; None] (d_dc d) (dhts segs) -> ac_slots dbg [None; None; None; None] (d_ac d) (dhts segs) ->
  NoDup (map cs_id cs) -> lenZ cs <= 4 -> (blocks_before cs (length cs) <= 10)%nat -> comp_codings segs cs ss ts qs ->
  dec_ok d -> good (mkBiter (segment (sos_bytes (mkSpS ss 0 63 0 0)) ++ data ++ tail) 0 0) ->
  let fr := frame_of fmk pr lines samples cs in
  (forall dq sc d2, scan_start dbg fr ts (d_qt d) (d_restart d) dq sc d2 -> exists log d3 b3, mcus_read dbg (mcu_list (f_mcu fr)) d2 (mkBiter (data ++ tail) 0 0) log d3 b3) ->
  exists d2 d4 b3,
    step dbg false rayon (PcSegment SOS) d (mkBiter (segment (sos_bytes (mkSpS ss 0 63 0 0)) ++ data ++ tail) 0 0)
      = (d2, mkBiter (data ++ tail) 0 0, SNext (PcScan true (mcu_list (f_mcu fr)) PhRow)) /\
    step dbg false rayon (PcScan true (mcu_list (f_mcu fr)) PhRow) d2 (mkBiter (data ++ tail) 0 0) = (d4, b3, SNext PcMarker) /\
    in_data tail (bi_input b3) /\ four_slots d4.
Proof.
  intros dbg rayon segs d fmk pr lines samples cs ss ts qs data tail StT RO Bd Bt F HO Fm Fr Rs Fin Q D A ND L4 Few CC Kd Gd fr RD'.
  destruct (sos_enter dbg rayon segs d fmk pr lines samples cs ss ts qs data tail Bd Bt F HO Fm Fr Rs Fin Q D A ND L4 Few CC Kd Gd) as (d1 & sc & d2 & ST & SS & FG & Few' & CP & G2 & P2 & E2 & Ac & Qe & C0 & Hi & Lh & Sz).
  fold fr in ST, SS, FG, Few', CP, P2, Sz. set (b0 := mkBiter (data ++ tail) 0 0) in *.
  pose proof SS as (Fr1 & Sc1 & S0 & S1 & S2 & RD & _ & Re & SI & K2 & Qf).
  destruct (RD' _ _ _ SS) as [log [d3 [b3 MR]]].
  assert (SL : scan_loop dbg false true (mcu_list (f_mcu fr)) PhRow d2 b0 = (d3, b3, ScDone)) by (apply scan_loop_reads; exists log; exact MR).
  destruct (scan_calm dbg d1 fr sc ts tail Fr1 Sc1 ltac:(lia) RD FG Few' ltac:(rewrite Qe; exact Qf) CP StT
     (mcu_list (f_mcu fr)) [] d2 b0 eq_refl E2 K2 G2 ltac:(exists data; auto) Sz ltac:(intros _; exact C0) d3 b3 _ SL) as [_ [[s3 E3] Dn]].
  destruct (Dn eq_refl) as [ID3 Sz3].
  assert (L3 : length (ss_results (d_ss d3)) = length (s_headers sc)).
  { apply Forall2_length in Sz3. rewrite <- Sz3, Lh. unfold fr, frame_of. cbn [f_components]. apply map_length. }
  destruct (take_all (s_headers sc) (ss_results (d_ss d3)) ltac:(unfold lenZ in L4; lia) Hi L3) as [r TK].
  assert (SF : exists d4, scan_finish d3 = Ok d4).
  { assert (Sc3 : d_scan d3 = Some sc) by (rewrite E3; exact Sc1). unfold scan_finish. rewrite Sc3, TK. cbn [bind]. eexists. reflexivity. }
  destruct SF as [d4 SF].
  assert (ST2 : step dbg false rayon (PcScan true (mcu_list (f_mcu fr)) PhRow) d2 b0 = (d4, b3, SNext PcMarker)) by (cbn [step]; rewrite SL, SF; reflexivity).
  pose proof (step_inv dbg false rayon _ d2 b0 K2 G2 P2) as SV. rewrite ST2 in SV. destruct SV as [K4 _].
  exists d2, d4, b3. splits; auto; apply K4.
Qed.

(** ** Pieces of an input whose scan waits for ever *)
Definition in_scan (r : res) : Prop := match r with RNeed (PcScan _ _ _) => True | _ => False end.
Lemma call_need : forall s dbg rerun rayon W, in_scan (snd W) -> forall fuel p d b d' b' r,
  run dbg rerun rayon fuel p d b = (d', b', r) -> r <> RPanic PFuel ->
  runs_to dbg rerun rayon (p, d, ext s b) W -> uncut dbg rerun rayon p d (ext s b) ->
  (forall q e c, from dbg rerun rayon (p, d, ext s b) (q, e, c) -> ~ has_eob_runs e) ->
  exists p', r = RNeed p' /\ runs_to dbg rerun rayon (p', d', ext s b') W /\ uncut dbg rerun rayon p' d' (ext s b') /\
     step dbg rerun rayon p' d' b' = (d', b', SStop (RNeed p')) /\
     (forall q e c, from dbg rerun rayon (p', d', ext s b') (q, e, c) ->
        exists q0 e0 c0, from dbg rerun rayon (p, d, ext s b) (q0, e0, c0) /\ kin e0 e).
Proof.
  intros s dbg rerun rayon W ST. induction fuel as [|fuel IH]; intros p d b d' b' r E N RW U NE; [cbn in E; congruence|].
  cbn [run] in E. destruct (step dbg rerun rayon p d b) as [[d1 b1] R] eqn:SE.
  pose proof (step_ext s _ _ _ _ _ _ _ _ _ SE) as X. destruct R as [p1|r1].
  - apply (runs_next _ _ _ _ _ _ _ _ _ W) in X as RN. apply RN in RW.
    assert (FM : forall c, from dbg rerun rayon (p1, d1, ext s b1) c -> from dbg rerun rayon (p, d, ext s b) c).
    { intros c F. eapply from_moves; [|exact F]. exact X. }
    assert (U1 : uncut dbg rerun rayon p1 d1 (ext s b1)).
    { destruct U as [U|[U1 U2]]; [left; exact U|right]. split; [eapply next_not_restart; exact SE|]. intros q e c F. eapply U2. apply FM. exact F. }
    destruct (IH _ _ _ _ _ _ E N RW U1) as [p' [H1 [H2 [H3 [H4 H5]]]]]; [intros q e c F; eapply NE; apply FM; exact F|].
    exists p'. splits; auto. intros q e c F. destruct (H5 q e c F) as [q0 [e0 [c0 [F0 K]]]]. exists q0, e0, c0. auto.
  - inversion E. subst d1 b1 r1. clear E.
    assert (FIN : ~ in_scan r -> step dbg rerun rayon p d (ext s b) = (d', ext s b', SStop r) -> False).
    { intros H Y. apply H. rewrite (runs_stop _ _ _ _ _ _ _ _ _ _ Y RW) in ST. exact ST. }
    destruct r as [img|e|p'|e|q|]; try (exfalso; apply FIN; [exact (fun x => x)|exact X]).
    + exists p'. destruct X as [[K [X1 X2]]|[[m [-> ->]] X]]; [|exfalso; apply FIN; [exact (fun x => x)|exact X]].
      assert (UP : rerun = false \/ ~ in_restart p' /\ d_restart d = 0).
      { destruct U as [U|[U1 U2]]; [left; exact U|right]. pose proof (U2 _ _ _ (from_here _ _ _ _)) as D0. split; [|exact D0].
        intros H. destruct (X2 H) as [H2|H2]; [exact (U1 H2)|lia]. }
      destruct X1 as [X1 X3]; [tauto|].
      assert (FF : forall q e c, from dbg rerun rayon (p', d', ext s b') (q, e, c) ->
         exists q0 e0 c0, from dbg rerun rayon (p, d, ext s b) (q0, e0, c0) /\ kin e0 e).
      { intros q e c F. destruct (from_step_eq _ _ _ _ _ _ _ _ _ _ X1 F) as [G|G].
        - inv G. exists p, d, (ext s b). split; [apply from_here|exact K].
        - exists q, e, c. split; [exact G|apply kin_refl]. }
      splits; auto.
      * eapply runs_step_eq; [exact X1|exact RW].
      * destruct U as [->|[U1 U2]]; [left; reflexivity|]. destruct UP as [->|[UP1 UP2]]; [left; reflexivity|right].
        split; [exact UP1|]. intros q e c F. destruct (FF _ _ _ F) as [q0 [e0 [c0 [F0 K0]]]].
        rewrite (kin_restart _ _ K0). eapply U2; exact F0.
    + destruct e; try (exfalso; apply FIN; [exact (fun x => x)|exact X]).
      destruct X as [X|X]; exfalso; [|apply FIN; [exact (fun x => x)|exact X]]. exact (NE _ _ _ (from_here _ _ _ _) X).
Qed.

Lemma feed_need : forall dbg rerun rayon dW bW rW, in_scan rW -> forall chunks k buf,
  codec_ok k buf -> Forall bytes chunks -> waiting dbg rerun rayon k buf ->
  runs_to dbg rerun rayon (conf k (buf ++ concat chunks)) (dW, bW, rW) ->
  uncut dbg rerun rayon (k_pc k) (k_dec k) (mkBiter (buf ++ concat chunks) (k_bits k) (k_count k)) ->
  (forall q e c, from dbg rerun rayon (conf k (buf ++ concat chunks)) (q, e, c) -> ~ has_eob_runs e) ->
  exists k', codec_feed dbg rerun rayon k buf chunks = (k', bi_input bW, Ok None) /\ waiting dbg rerun rayon k' (bi_input bW).
Proof.
  intros dbg rerun rayon dW bW rW NW. induction chunks as [|c chunks IH]; intros k buf OK By WT RW U NE.
  - cbn [concat] in RW. rewrite app_nil_r in RW. pose proof (runs_stop _ _ _ _ _ _ _ _ _ _ WT RW) as H. inversion H. subst. exists k. split; [reflexivity|exact WT].
  - cbn [concat] in RW, U, NE. inversion By as [|? ? Bc Bs]; subst. rewrite app_assoc in RW, U, NE.
    pose proof (codec_ok_more _ _ c OK Bc) as OK1. cbn [codec_feed]. destruct (buf ++ c) as [|x buf1] eqn:EB.
    + destruct (app_eq_nil _ _ EB) as [-> ->]. exact (IH k [] OK Bs WT RW U NE).
    + destruct (codec_call dbg rerun rayon k x buf1 OK1) as [d1 [b1 [r1 [_ [E [N CD]]]]]].
      destruct (call_need (concat chunks) dbg rerun rayon (dW, bW, rW) NW _ _ _ _ _ _ _ E N RW U NE) as [p' [H1 [H2 [H3 [H4 H5]]]]].
      subst r1. cbn [answer] in CD.
      set (k1 := mkCodec d1 p' (bi_bits b1) (bi_count b1)) in *.
      assert (OK2 : codec_ok k1 (bi_input b1)).
      { pose proof (codec_step_ok dbg rerun rayon k (x :: buf1) OK1) as S. rewrite CD in S. apply S. }
      assert (WT2 : waiting dbg rerun rayon k1 (bi_input b1)) by (unfold waiting; destruct b1; exact H4).
      assert (NE2 : forall q e c, from dbg rerun rayon (conf k1 (bi_input b1 ++ concat chunks)) (q, e, c) -> ~ has_eob_runs e).
      { intros q e c0 F HE. destruct (H5 q e c0 F) as [q0 [e0 [c1 [F0 K]]]]. apply (NE _ _ _ F0). eapply has_eob_kin; eauto. }
      rewrite CD. exact (IH k1 (bi_input b1) OK2 Bs WT2 H2 H3 NE2).
Qed.

(** ** The file *)
Lemma stop_more : forall tail s, stop_tail tail -> stop_tail (tail ++ s).
Proof. intros tail s [k [c [more [-> H]]]]. exists k, c, (more ++ s). split; [|exact H]. rewrite <- app_assoc. reflexivity. Qed.
Lemma stop_marker : forall tail, stop_tail tail -> marker_tail tail.
Proof. intros tail [k [c [m [-> [C0 _]]]]]. exists (match k with O => c | S _ => 255 end), (match k with O => m | S n => FF n ++ c :: m end). destruct k; cbn; split; try reflexivity; lia. Qed.
Lemma zero_last : forall l, Forall (fun n => n = 0) l -> last l 0 = 0.
Proof. intros l F. induction F as [|n l H F IH]; [reflexivity|]. cbn [last]. destruct l; auto. Qed.

Lemma along_header : forall dbg rayon segs rest fill1 fill2, Forall (fun s => hseg_ok (snd s)) segs -> sequential_tables segs -> no_intervals segs ->
  exists d1, along (fun d => tables_ok d = true /\ d_restart d = 0) dbg false rayon
      (PcMarker, decoder_default, biter_new (marker_bytes fill1 0xD8 ++ flat_map hseg_bytes segs ++ marker_bytes fill2 0xDA ++ rest)) (PcSegment SOS, d1, mkBiter rest 0 0) /\
    header_state dbg decoder_default d1 segs.
Proof.
  intros dbg rayon segs rest fill1 fill2 F Sq Ni. set (P := fun d => tables_ok d = true /\ d_restart d = 0).
  assert (P0 : P decoder_default) by (split; reflexivity).
  set (rest1 := marker_bytes fill2 0xDA ++ rest).
  assert (S1 : along P dbg false rayon (PcMarker, decoder_default, biter_new (marker_bytes fill1 0xD8 ++ flat_map hseg_bytes segs ++ rest1))
    (PcMarker, decoder_default, mkBiter ([] ++ flat_map hseg_bytes segs ++ rest1) 0 0)).
  { apply (along_next _ _ _ _ _ (PcSegment SOI, decoder_default, mkBiter (flat_map hseg_bytes segs ++ rest1) 0 0)); [|reflexivity|exact P0]. eapply along_next; [apply along_here; exact P0| |exact P0]. cbn [moves biter_new].
    apply (marker_step dbg false rayon decoder_default [] fill1 0xD8 SOI); [constructor|constructor|discriminate]. }
  assert (Gr : forall d d' s, In s segs -> four_slots d -> header_state dbg d d' [s] -> P d -> P d').
  { intros d0 d' x Ix [_ [L _]] HS [T R]. split.
    + apply (slots_ok dbg (d_ac d0) (d_ac d') (dhts [x])); [apply HS|exact L| |exact T].
      apply Forall_forall. intros t It. unfold sequential_tables in Sq. rewrite Forall_forall in Sq. apply Sq. unfold dhts in *. apply in_flat_map. exists x. split; [exact Ix|].
      cbn [flat_map] in It. rewrite app_nil_r in It. exact It.
    + destruct HS as [_ _ _ HD _ _ _ _ _]. rewrite HD, R. apply zero_last. apply Forall_forall. intros n In0. unfold no_intervals in Ni. rewrite Forall_forall in Ni. apply Ni.
      unfold dris in *. apply in_flat_map. exists x. split; [exact Ix|]. cbn [flat_map] in In0. rewrite app_nil_r in In0. exact In0. }
  destruct (along_segments P dbg rayon segs Gr 0 0 segs decoder_default [] rest1 (incl_refl _) P0 ltac:(split; [|split]; reflexivity) F ltac:(constructor)) as [d1 [junk [S2 [J [F4 HS]]]]].
  exists d1. split; [|exact HS]. pose proof (along_end _ _ _ _ _ _ S2) as P1. eapply along_trans; [exact S1|]. eapply along_trans; [exact S2|].
    eapply along_next; [apply along_here; exact P1| |exact P1]. cbn [moves]. apply (marker_step dbg false rayon d1 junk fill2 0xDA SOS); [exact J|constructor|discriminate].
Qed.

Lemma stuck_run : forall dbg rayon segs h fill1 fill2 ss ts qs ds post fill3 s,
  header_for segs h ss ts qs -> bytes ds -> clean_end ds -> post_ok post ->
  let cs := fh_comps h in let lines := fh_lines h in let samples := fh_samples h in 0 < lines -> 0 < samples ->
  sequential_tables segs -> no_intervals segs -> dc_sizes ts ->
  ref_scan cs ts 0 0 (mcus lines (largest (map cs_v cs)) * mcus samples (largest (map cs_h cs))) ds [] = None ->
  let tail := (flat_map hseg_bytes post ++ marker_bytes fill3 0xD9) ++ s in
  let file := file_bytes segs fill1 fill2 (mkSpS ss 0 63 0 0) (stuff ds) post fill3 ++ s in bytes file ->
  (exists p d b d' b' todo, from dbg false rayon (PcMarker, decoder_default, biter_new file) (p, d, b) /\
     step dbg false rayon p d b = (d', b', SStop (RNeed (PcScan true todo PhRow))) /\ exists j, bi_input b' = j ++ tail) /\
  no_eob_runs dbg rayon file /\ no_restarts dbg rayon file.
Proof.
  intros dbg rayon segs h fill1 fill2 ss ts qs ds post fill3 s [F Sf ND L4 Few CC] Bds CE [Fp Sop] cs lines samples P1 P2 Sq Ni Sm RN tail file B.
  destruct (sof_ok segs h F ltac:(rewrite Sf; left; reflexivity)) as [Fm HO]. fold cs lines samples in HO, ND, L4, Few, CC.
  set (rest := segment (sos_bytes (mkSpS ss 0 63 0 0)) ++ stuff ds ++ tail).
  assert (Ef : file = marker_bytes fill1 0xD8 ++ flat_map hseg_bytes segs ++ marker_bytes fill2 0xDA ++ rest).
  { unfold file, file_bytes, rest, tail. rewrite <- !app_assoc. reflexivity. }
  assert (ST : stop_tail tail) by (apply stop_more; apply header_stop; exact Fp).
  assert (BT : bytes tail) by (unfold bytes in *; rewrite Ef in B; unfold rest in B; rewrite !Forall_app in B; tauto).
  assert (Bd : bytes (stuff ds)) by (unfold bytes in *; rewrite Ef in B; unfold rest in B; rewrite !Forall_app in B; tauto).
  destruct (along_header dbg rayon segs rest fill1 fill2 F Sq Ni) as [d1 [A HS]]. rewrite <- Ef in A.
  pose proof (along_end _ _ _ _ _ _ A) as [T1 R1]. cbn [dec_of fst snd] in T1, R1. pose proof (along_from _ _ _ _ _ _ A) as A1.
  destruct HS as [H1 H2 H3 H5 H6 H7 H8 H9 _]. rewrite Sf in H6. cbn [map last] in H6. cbn [decoder_default d_qt d_dc d_ac d_restart d_color d_finished] in *.
  destruct (from_inv dbg rayon _ _ A1 _ _ _ _ _ _ eq_refl eq_refl default_ok ltac:(split; [unfold biter_new, reader_ok; cbn; lia|exact B]) I) as [Kd [Gd _]].
  pose proof (tables_ok_sound d1 T1) as NE.
  destruct (sos_stuck dbg rayon segs d1 (fh_marker h) (fh_precision h) lines samples cs ss ts qs (stuff ds) tail ST (ro_stuff ds) Bd BT F HO Fm H6 R1 H9 H1 H2 H3 ND L4 Few CC Kd Gd Sm NE)
    as [d2 [d3 [b3 [todo [M1 [M2 [j [_ Ej]]]]]]]].
  { intros dq sc d2 SS log d3 b3.
    pose proof (scan_code dbg (fh_marker h) (fh_precision h) lines samples cs ts (d_qt d1) 0 dq sc d2 ds [] tail HO L4 Few Fm P1 P2 SS ltac:(lia) (stop_marker _ ST) BT (stop_not_rst tail ST) Bds ltac:(constructor)) as K.
    cbv zeta in K. rewrite RN in K. unfold scan_bytes in K. cbn [flat_map] in K. rewrite app_nil_r in K. apply K. constructor; [exact CE|constructor]. }
  fold rest in M1. set (p2 := PcScan true (mcu_list (f_mcu (frame_of (fh_marker h) (fh_precision h) lines samples cs))) PhRow) in *.
  assert (A2 : along (fun d => tables_ok d = true /\ d_restart d = 0) dbg false rayon (PcMarker, decoder_default, biter_new file) (p2, d2, mkBiter (stuff ds ++ tail) 0 0)).
  { eapply along_next; [exact A|exact M1|]. cbn [dec_of fst snd]. unfold tables_ok. rewrite (step_ac _ _ _ _ _ _ _ _ _ M1 ltac:(discriminate)), (proj1 (step_kept _ _ _ _ _ _ _ _ _ M1) ltac:(discriminate)). split; [exact T1|exact R1]. }
  assert (PA : forall d, passes dbg rayon file d -> tables_ok d = true /\ d_restart d = 0).
  { intros d [p [b Fx]]. destruct (along_cut _ _ _ _ _ _ A2 Fx) as [X|X]; [exact X|]. apply from_cases in X. destruct X as [X|[p' [d' [b' [S _]]]]].
    - injection X as _ <- _. exact (along_end _ _ _ _ _ _ A2).
    - rewrite M2 in S. discriminate. }
  split.
  - exists p2, d2, (mkBiter (stuff ds ++ tail) 0 0), d3, b3, todo. split; [exact (along_from _ _ _ _ _ _ A2)|]. split; [exact M2|]. exists j. exact Ej.
  - split; intros d Pd; [apply tables_ok_sound|]; apply PA; exact Pd.
Qed.

Lemma waits : forall dbg rerun rayon segs h fill1 fill2 ss ts qs ds post fill3 s chunks,
  header_for segs h ss ts qs -> bytes ds -> clean_end ds -> post_ok post ->
  let cs := fh_comps h in let lines := fh_lines h in let samples := fh_samples h in 0 < lines -> 0 < samples ->
  sequential_tables segs -> no_intervals segs -> dc_sizes ts ->
  ref_scan cs ts 0 0 (mcus lines (largest (map cs_v cs)) * mcus samples (largest (map cs_h cs))) ds [] = None ->
  let after := flat_map hseg_bytes post ++ marker_bytes fill3 0xD9 in
  let file := file_bytes segs fill1 fill2 (mkSpS ss 0 63 0 0) (stuff ds) post fill3 in
  Forall bytes chunks -> concat chunks = file ++ s ->
  decode_fresh dbg rayon (file ++ s) = Fail EEof /\
  snd (read_decode dbg rerun rayon codec_new [] chunks) = Fail EEof /\
  exists k kept, codec_feed dbg rerun rayon codec_new [] chunks = (k, kept ++ after ++ s, Ok None).
Proof.
  intros dbg rerun rayon segs h fill1 fill2 ss ts qs ds post fill3 s chunks HF Bds CE PO cs lines samples P1 P2 Sq Ni Sm RN after file By EC.
  pose proof (bytes_concat chunks By) as B. rewrite EC in B.
  destruct (stuck_run dbg rayon segs h fill1 fill2 ss ts qs ds post fill3 s HF Bds CE PO P1 P2 Sq Ni Sm RN B) as [[p [d [b [d' [b' [todo [S [E [j Ej]]]]]]]]] [NE NR]].
  fold file in S, NE, NR. fold after in Ej.
  pose proof (run_calm dbg rayon _ p d b d' b' _ B S E) as DF. cbv iota in DF.
  assert (RW : runs_to dbg false rayon (PcMarker, decoder_default, biter_new (file ++ s)) (d', b', RNeed (PcScan true todo PhRow))).
  { apply (from_runs _ _ _ _ _ S). exists 1%nat. split; [cbn [run]; rewrite E; reflexivity|discriminate]. }
  destruct (feed_need dbg rerun rayon d' b' (RNeed (PcScan true todo PhRow)) I chunks codec_new [] start_ok By (start_waiting _ _ _)) as [k [CF _]].
  - cbn [app]. rewrite EC. destruct RW as [fuel [R N]]. exists fuel. split; [|exact N]. cbn [conf]. etransitivity; [apply run_rerun; exact (fun x => x)|exact R].
  - cbn [app]. rewrite EC. apply uncut_start. right. exact NR.
  - cbn [app]. rewrite EC. apply no_eob_start. exact NE.
  - rewrite Ej in CF. split; [exact DF|]. split; [rewrite read_feed, CF; reflexivity|]. exists k, j. exact CF.
Qed.

(** ** Data in which all MCUs are found *)
Lemma skip_along : forall (P : decoder -> Prop) dbg rayon n j d t bits count, P d -> (length j <= n)%nat -> rst_only j ->
  exists j', no_marker j' /\ along P dbg false rayon (PcMarker, d, mkBiter (j ++ t) bits count) (PcMarker, d, mkBiter (j' ++ t) bits count).
Proof.
  intros P dbg rayon. induction n as [|n IH]; intros j d t bits count Pd L R.
  - exists j. split; [|apply along_here; exact Pd]. destruct j; [constructor|cbn in L; lia].
  - destruct (ro_split j R) as [NM|[k [rest [Hk [R' FM]]]]]; [exists j; split; [exact NM|apply along_here; exact Pd]|].
    assert (Lr : (length rest <= n)%nat).
    { destruct FM as [pre [m [_ [_ [_ ->]]]]]. rewrite !app_length in L. cbn [length] in L. unfold FF in L. rewrite repeat_length in L. lia. }
    destruct (IH rest d t bits count Pd Lr R') as [j' [N' F']]. exists j'. split; [exact N'|]. eapply along_trans; [|exact F'].
    assert (PM : parse_marker (j ++ t) = Ok (RST k, rest ++ t)).
    { apply parse_marker_ok. exists (0xD0 + k). split; [constructor; lia|]. apply first_app. exact FM. }
    apply (along_next _ _ _ _ _ (PcSegment (RST k), d, mkBiter (rest ++ t) bits count)); [|reflexivity|exact Pd]. eapply along_next; [apply along_here; exact Pd| |exact Pd]. cbn [moves step bi_input bi_bits bi_count]. rewrite PM. reflexivity.
Qed.

Section Reads.
Variables (dbg rerun rayon : bool).
Definition calm_state (d : decoder) : Prop := tables_ok d = true /\ (rerun = false \/ d_restart d = 0).
Lemma calm_grows : forall all, sequential_tables all -> rerun = false \/ no_intervals all ->
  forall d d' s, In s all -> four_slots d -> header_state dbg d d' [s] -> calm_state d -> calm_state d'.
Proof.
  intros all Sq Ni d0 d' x Ix [_ [L _]] HS [T R]. split.
  - apply (slots_ok dbg (d_ac d0) (d_ac d') (dhts [x])); [apply HS|exact L| |exact T].
    apply Forall_forall. intros t It. unfold sequential_tables in Sq. rewrite Forall_forall in Sq. apply Sq. unfold dhts in *. apply in_flat_map. exists x. split; [exact Ix|].
    cbn [flat_map] in It. rewrite app_nil_r in It. exact It.
  - destruct Ni as [Ni|Ni]; [left; exact Ni|]. destruct R as [R|R]; [left; exact R|right]. destruct HS as [_ _ _ HD _ _ _ _ _]. rewrite HD, R. apply zero_last. apply Forall_forall. intros n In0. unfold no_intervals in Ni. rewrite Forall_forall in Ni. apply Ni.
    unfold dris in *. apply in_flat_map. exists x. split; [exact Ix|]. cbn [flat_map] in In0. rewrite app_nil_r in In0. exact In0.
Qed.
Lemma calm_same : forall d d', d_ac d' = d_ac d -> d_restart d' = d_restart d -> calm_state d -> calm_state d'.
Proof. intros d d' E1 E2 [T R]. split; [unfold tables_ok; rewrite E1; exact T|rewrite E2; exact R]. Qed.

Lemma along_data : forall segs h fill1 fill2 ss ts qs ds more post fill3 ms,
  header_for segs h ss ts qs -> bytes ds -> more_ok more -> post_ok post ->
  let cs := fh_comps h in let lines := fh_lines h in let samples := fh_samples h in 0 < lines -> 0 < samples ->
  let file := file_bytes segs fill1 fill2 (mkSpS ss 0 63 0 0) (scan_bytes ds more) post fill3 in bytes file ->
  sequential_tables (segs ++ post) -> rerun = false \/ no_intervals (segs ++ post) ->
  ref_scan cs ts (last (dris segs) 0) 0 (mcus lines (largest (map cs_v cs)) * mcus samples (largest (map cs_h cs))) ds more = Some ms ->
  exists d b j, along calm_state dbg false rayon (PcMarker, decoder_default, biter_new file) (PcMarker, d, b) /\ bi_input b = j ++ marker_bytes fill3 0xD9 /\ no_marker j.
Proof.
  intros segs h fill1 fill2 ss ts qs ds more post fill3 ms [F Sf ND L4 Few CC] Bds MO [Fp Sop] cs lines samples P1 P2 file B Sq Ni RN.
  destruct (sof_ok segs h F ltac:(rewrite Sf; left; reflexivity)) as [Fm HO]. fold cs lines samples in HO, ND, L4, Few, CC.
  pose proof (calm_grows (segs ++ post) Sq Ni) as Gr.
  set (tail := flat_map hseg_bytes post ++ marker_bytes fill3 0xD9). set (data := scan_bytes ds more) in *.
  set (rest := marker_bytes fill2 0xDA ++ segment (sos_bytes (mkSpS ss 0 63 0 0)) ++ data ++ tail).
  assert (Ef : file = marker_bytes fill1 0xD8 ++ flat_map hseg_bytes segs ++ rest) by reflexivity.
  assert (ST : stop_tail tail) by (apply header_stop; exact Fp).
  assert (BT : bytes tail) by (unfold bytes in *; rewrite Ef in B; unfold rest in B; rewrite !Forall_app in B; tauto).
  assert (Bd : bytes data) by (unfold bytes in *; rewrite Ef in B; unfold rest in B; rewrite !Forall_app in B; tauto).
  assert (P0 : calm_state decoder_default) by (split; [reflexivity|right; reflexivity]).
  assert (S1 : along calm_state dbg false rayon (PcMarker, decoder_default, biter_new file)
    (PcMarker, decoder_default, mkBiter ([] ++ flat_map hseg_bytes segs ++ rest) 0 0)).
  { apply (along_next _ _ _ _ _ (PcSegment SOI, decoder_default, mkBiter (flat_map hseg_bytes segs ++ rest) 0 0)); [|reflexivity|exact P0]. eapply along_next; [apply along_here; exact P0| |exact P0]. cbn [moves biter_new]. rewrite Ef.
    apply (marker_step dbg false rayon decoder_default [] fill1 0xD8 SOI); [constructor|constructor|discriminate]. }
  destruct (along_segments calm_state dbg rayon (segs ++ post) Gr 0 0 segs decoder_default [] rest ltac:(intros x Ix; apply in_or_app; left; exact Ix) P0 ltac:(split; [|split]; reflexivity) F ltac:(constructor)) as [d1 [junk [S2 [J [F4 HS]]]]].
  pose proof (along_end _ _ _ _ _ _ S2) as C1. cbn [dec_of fst snd] in C1.
  assert (S3 : along calm_state dbg false rayon (PcMarker, decoder_default, biter_new file) (PcSegment SOS, d1, mkBiter (segment (sos_bytes (mkSpS ss 0 63 0 0)) ++ data ++ tail) 0 0)).
  { eapply along_trans; [exact S1|]. eapply along_trans; [exact S2|]. eapply along_next; [apply along_here; exact C1| |exact C1]. cbn [moves]. apply (marker_step dbg false rayon d1 junk fill2 0xDA SOS); [exact J|constructor|discriminate]. }
  destruct HS as [H1 H2 H3 H5 H6 H7 H8 H9 _]. rewrite Sf in H6. cbn [map last] in H6. cbn [decoder_default d_qt d_dc d_ac d_restart d_color d_finished] in *.
  destruct (from_inv dbg rayon _ _ (along_from _ _ _ _ _ _ S3) _ _ _ _ _ _ eq_refl eq_refl default_ok ltac:(split; [unfold biter_new, reader_ok; cbn; lia|exact B]) I) as [Kd [Gd _]].
  destruct (sos_read dbg rayon segs d1 (fh_marker h) (fh_precision h) lines samples cs ss ts qs data tail ST (scan_bytes_ro ds more MO) Bd BT F HO Fm H6 ltac:(rewrite H5; apply dri_nonneg; exact F) H9 H1 H2 H3 ND L4 Few CC Kd Gd)
    as [d2 [d4 [b3 [M1 [M2 [[j3 [Rj Ej]] Fs]]]]]].
  { intros dq sc d2 SS. rewrite H5 in SS.
    pose proof (scan_code dbg (fh_marker h) (fh_precision h) lines samples cs ts (d_qt d1) _ dq sc d2 ds more tail HO L4 Few Fm P1 P2 SS (dri_nonneg segs F) (stop_marker _ ST) BT (stop_not_rst tail ST) Bds MO) as K.
    cbv zeta in K. rewrite RN in K. destruct K as [_ [_ [log [d' [b' [MR _]]]]]]. eauto. }
  assert (C2 : calm_state d2) by (apply (calm_same d1); [exact (step_ac _ _ _ _ _ _ _ _ _ M1 ltac:(discriminate))|exact (proj1 (step_kept _ _ _ _ _ _ _ _ _ M1) ltac:(discriminate))|exact C1]).
  assert (C4 : calm_state d4) by (apply (calm_same d2); [exact (step_ac _ _ _ _ _ _ _ _ _ M2 ltac:(discriminate))|exact (proj1 (step_kept _ _ _ _ _ _ _ _ _ M2) ltac:(discriminate))|exact C2]).
  destruct b3 as [i3 bits3 count3]. cbn [bi_input] in Ej. subst i3.
  destruct (skip_along calm_state dbg rayon (length j3) j3 d4 tail bits3 count3 C4 ltac:(lia) Rj) as [j4 [N4 S5]].
  destruct (along_segments calm_state dbg rayon (segs ++ post) Gr bits3 count3 post d4 j4 (marker_bytes fill3 0xD9) ltac:(intros x Ix; apply in_or_app; right; exact Ix) C4 Fs Fp N4) as [d5 [j5 [S6 [J5 _]]]].
  exists d5, (mkBiter (j5 ++ marker_bytes fill3 0xD9) bits3 count3), j5. split; [|split; [reflexivity|exact J5]].
  eapply along_trans; [exact S3|]. eapply along_trans; [|exact S6]. eapply along_trans; [|exact S5].
  set (p2 := PcScan true (mcu_list (f_mcu (frame_of (fh_marker h) (fh_precision h) lines samples cs))) PhRow) in *.
  apply (along_next _ _ _ _ _ (p2, d2, mkBiter (data ++ tail) 0 0)); [|exact M2|exact C4]. eapply along_next; [apply along_here; exact C1|exact M1|exact C2].
Qed.

(** Everything after the last marker of the file. *)
Lemma file_ends : forall file fill3 d5 b5 j5, bytes file -> along calm_state dbg false rayon (PcMarker, decoder_default, biter_new file) (PcMarker, d5, b5) ->
  bi_input b5 = j5 ++ marker_bytes fill3 0xD9 -> no_marker j5 ->
  (exists d b r, run dbg false rayon (run_fuel (biter_new file)) PcMarker decoder_default (biter_new file) = (d, b, r) /\ bi_input b = [] /\ ~ is_need r /\
    (forall e, r <> RFail e) /\ r <> RUB /\ r <> RPanic PFuel /\ answer r = lift (decode_fresh dbg rayon file) /\ lift (decode_fresh dbg rayon file) <> Ok None) /\
  forall s d, passes dbg rayon (file ++ s) d -> calm_state d.
Proof.
  intros file fill3 d5 b5 j5 Bf A Eb J. split.
  - apply along_from in A.
    assert (NF : decode_fresh dbg rayon file <> Panic PFuel) by exact (decode_no_fuel dbg rayon decoder_default file ltac:(constructor) Bf).
    assert (NU : decode_fresh dbg rayon file <> UB) by exact (decode_no_ub dbg rayon decoder_default file ltac:(constructor) Bf).
    assert (PM : parse_marker (bi_input b5) = Ok (EOI, [])).
    { apply parse_marker_ok. exists 0xD9. split; [constructor|]. exists j5, fill3. split; [exact J|]. split; [lia|]. split; [lia|]. rewrite Eb. unfold marker_bytes. reflexivity. }
    set (r := match upsample_image dbg rayon d5 with Ok img => RImage img | Fail e => RError e | Panic p => RPanic p | UB => RUB end).
    assert (E : step dbg false rayon PcMarker d5 b5 = (d5, mkBiter [] (bi_bits b5) (bi_count b5), SStop r)) by (cbn [step]; rewrite PM; unfold r; destruct (upsample_image dbg rayon d5); reflexivity).
    pose proof (run_calm dbg rayon file _ _ _ _ _ _ Bf A E) as DF. cbn [bi_input] in DF.
    destruct (run dbg false rayon (run_fuel (biter_new file)) PcMarker decoder_default (biter_new file)) as [[d' b'] r'] eqn:ER.
    assert (R : runs_to dbg false rayon (PcMarker, decoder_default, biter_new file) (d5, mkBiter [] (bi_bits b5) (bi_count b5), r)).
    { apply (from_runs _ _ _ _ _ A). exists 1%nat. split; [cbn [run]; rewrite E; reflexivity|]. cbn [snd]. intros X. rewrite X in DF. congruence. }
    assert (R' : runs_to dbg false rayon (PcMarker, decoder_default, biter_new file) (d', b', r')).
    { exists (run_fuel (biter_new file)). split; [exact ER|]. cbn [snd]. intros ->. apply NF. unfold decode_fresh, decode. rewrite ER. reflexivity. }
    pose proof (runs_det _ _ _ _ _ _ R R') as W. injection W as W1 W2 W3. rewrite <- W1, <- W2, <- W3. eexists _, _, _. split; [reflexivity|]. cbn [bi_input]. split; [reflexivity|].
    clear W1 W2 W3 R R' ER E A. rewrite DF in *. unfold r in *. clear DF. destruct (upsample_image dbg rayon d5); cbn [is_need answer lift] in *; splits; auto; try discriminate; congruence.
  - intros s d [p [b F]].
    pose proof (along_ext s _ _ _ _ _ _ A) as A'. change (ext_conf s (PcMarker, decoder_default, biter_new file)) with (PcMarker, decoder_default, biter_new (file ++ s)) in A'.
    destruct (along_cut _ _ _ _ _ _ A' F) as [X|X]; [exact X|]. cbn [ext_conf fst snd] in X. apply from_cases in X. destruct X as [X|[p' [d' [b' [S _]]]]].
    + injection X as _ <- _. exact (along_end _ _ _ _ _ _ A).
    + exfalso. cbn [step] in S. assert (PM : parse_marker (bi_input (ext s b5)) = Ok (EOI, s)).
      { apply parse_marker_ok. exists 0xD9. split; [constructor|]. exists j5, fill3. split; [exact J|]. split; [lia|]. split; [lia|]. cbn [ext bi_input]. rewrite Eb. unfold marker_bytes. rewrite <- !app_assoc. reflexivity. }
      cbn [snd] in S. rewrite PM in S. destruct (upsample_image dbg rayon d5); discriminate S.
Qed.

Lemma data_tail : forall segs h fill1 fill2 ss ts qs ds more post fill3 ms s chunks,
  header_for segs h ss ts qs -> bytes ds -> more_ok more -> post_ok post ->
  let cs := fh_comps h in let lines := fh_lines h in let samples := fh_samples h in 0 < lines -> 0 < samples ->
  let file := file_bytes segs fill1 fill2 (mkSpS ss 0 63 0 0) (scan_bytes ds more) post fill3 in
  sequential_tables (segs ++ post) -> rerun = false \/ no_intervals (segs ++ post) ->
  ref_scan cs ts (last (dris segs) 0) 0 (mcus lines (largest (map cs_v cs)) * mcus samples (largest (map cs_h cs))) ds more = Some ms ->
  Forall bytes chunks -> concat chunks = file ++ s ->
  exists done c rest k0 buf0 k buf', chunks = done ++ c :: rest /\
    codec_feed dbg rerun rayon codec_new [] done = (k0, buf0, Ok None) /\
    codec_decode dbg rerun rayon k0 (buf0 ++ c) = (k, buf', lift (decode_fresh dbg rayon file)) /\
    (exists l, l ++ concat rest = s /\ ((forall p, decode_fresh dbg rayon file <> Panic p) -> l = buf')) /\ lift (decode_fresh dbg rayon file) <> Ok None.
Proof.
  intros segs h fill1 fill2 ss ts qs ds more post fill3 ms s chunks HF Bds MO PO cs lines samples P1 P2 file Sq Ni RN By EC.
  pose proof (bytes_concat _ By) as B. rewrite EC in B. unfold bytes in B. apply Forall_app in B. destruct B as [Bf _].
  destruct (along_data segs h fill1 fill2 ss ts qs ds more post fill3 ms HF Bds MO PO P1 P2 Bf Sq Ni RN) as [d5 [b5 [j5 [A [Eb J]]]]]. fold file in A.
  destruct (file_ends file fill3 d5 b5 j5 Bf A Eb J) as [[d [b [r [E [EI [N1 [N2 [N4 [N3 [A1 A2]]]]]]]]]] PS].
  apply (run_ext_done s) in E; auto. change (ext s (biter_new file)) with (biter_new (file ++ s)) in E. rewrite <- EC in E.
  assert (E2 : run dbg false rayon (run_fuel (biter_new (concat chunks))) PcMarker decoder_default (biter_new (concat chunks)) = (d, ext s b, r)).
  { rewrite <- E. apply run_more; [rewrite E; exact N3|]. unfold run_fuel, biter_new. cbn [bi_input]. rewrite EC, app_length. lia. }
  destruct (feed_any dbg rerun rayon chunks d (ext s b) r By E2 N1 N3) as [done [c [rest [k0 [buf0 [buf' [H0 [H1 [H3 H2]]]]]]]]].
  - rewrite EC. intros d0 Pd. apply tables_ok_sound. exact (proj1 (PS s d0 Pd)).
  - destruct rerun eqn:Rr; [right|left; reflexivity]. rewrite EC. intros d0 Pd. destruct (PS s d0 Pd) as [_ [X|X]]; [rewrite Rr in X; discriminate|exact X].
  - exists done, c, rest, k0, buf0. eexists _, buf'. splits; [exact H0|exact H1|rewrite <- A1; exact H3| |exact A2].
    assert (H4 : bi_input (ext s b) = s) by (cbn [ext bi_input]; rewrite EI; reflexivity).
    destruct r; try (exists buf'; split; [rewrite <- H4; exact H2|reflexivity]); destruct H2 as [l H2]; exists l; (split; [rewrite <- H4; exact H2|]); intros NP; exfalso;
      cbn [answer] in A1; destruct (decode_fresh dbg rayon file) eqn:Ed; try discriminate A1; try (eapply NP; reflexivity); try contradiction; try (eapply N2; reflexivity); try (apply N4; reflexivity); exact (N1 Logic.I).
Qed.
End Reads.
