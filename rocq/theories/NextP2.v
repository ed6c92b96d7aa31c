(** The next file on a codec (C49): files. *)
From Verif Require Import Base Tactics SpecColor SpecBits SpecReader SpecHuffman SpecBlock SpecTables Biterator BitsP Readers ReadersP Huffman HuffmanP3 Marker SpecMarker MarkerP Types Idct IdctP Upsampler Parsers Decode ParsersP SpecFrame SpecSegments SpecScan SpecPlane SpecUpsample SpecImage SpecFile SpecAnswer SpecLimits SpecDamage SpecCode SpecNext
  BlockP PlaneP SegmentsP SafeP InvP ScanP RestartP PlacedP EncodeP SpecGlobal GlobalP ExtP SpecStream StreamP StreamP2 RowP UpsampleP ImageP FileP CorruptP AnswerP AnswerP2 AnswerP3 ReuseP DamageP DamageP2 PiecesP TransP CodeP CodeP2 CodeP3 NextP.

Lemma scan_code_after : forall dbg fmk pr lines samples cs ts qts r dq sc d2 bb cc ds more tail, reader_ok (mkBiter [] bb cc) ->
  header_ok lines samples cs -> lenZ cs <= 4 -> (blocks_before cs (length cs) <= 10)%nat -> 0 <= fmk <= 1 -> 0 < lines -> 0 < samples ->
  let fr := frame_of fmk pr lines samples cs in
  scan_start dbg fr ts qts r dq sc d2 -> 0 <= r -> marker_tail tail -> bytes tail -> (forall n rest, parse_marker tail <> Ok (RST n, rest)) ->
  bytes ds -> more_ok more ->
  let N := mcus lines (largest (map cs_v cs)) * mcus samples (largest (map cs_h cs)) in
  match ref_scan_after (to_bits (Z.to_nat cc) bb) cs ts r N ds more with
  | Some ms => Forall (mcu_shape cs) ms /\ lenZ ms = N /\
      exists log d' b', mcus_read dbg (mcu_list (f_mcu fr)) d2 (mkBiter (scan_bytes ds more ++ tail) bb cc) log d' b' /\ Forall2 logged log ms
  | None => Forall clean_end (ds :: map snd more) -> forall log d' b', ~ mcus_read dbg (mcu_list (f_mcu fr)) d2 (mkBiter (scan_bytes ds more ++ tail) bb cc) log d' b'
  end.
Proof.
  intros dbg fmk pr lines samples cs ts qts r dq sc d2 bb cc ds more tail RK HO L4 Few Fm P1 P2 fr (Fr & Sc & S0 & S1 & S2 & RD & Qe & Re & SI & _ & Qts) R0 MT BT NR B MO N. subst qts r.
  assert (FG : frame_good fr) by (exists fmk, pr, lines, samples, cs; split; [reflexivity|exact HO]).
  destruct (frame_fits fr FG) as [_ [W0 [H0 _]]].
  assert (Lts : length ts = length cs).
  { assert (G : length ts = length (f_components fr)) by (clear - RD; induction RD; cbn; auto). rewrite G. unfold fr, frame_of. cbn [f_components]. apply map_length. }
  assert (HF : Forall factors_ok cs) by (destruct HO; assumption). assert (Ne : cs <> []) by (destruct HO; assumption).
  pose proof (mcu_length (f_mcu fr) H0 W0) as ML.
  assert (LN : lenZ (mcu_list (f_mcu fr)) = N) by (rewrite ML; unfold N; reflexivity).
  assert (HV : 1 <= largest (map cs_v cs) <= 4) by (apply largest_factors; [exact Ne|]; rewrite Forall_forall in HF; intros c Ic; apply (HF c Ic)).
  assert (HH : 1 <= largest (map cs_h cs) <= 4) by (apply largest_factors; [exact Ne|]; rewrite Forall_forall in HF; intros c Ic; apply (HF c Ic)).
  assert (N0 : 0 < N).
  { unfold N, mcus, ceil_div. apply Z.mul_pos_pos; apply Z.div_str_pos; lia. }
  assert (Td : mcu_list (f_mcu fr) <> []) by (intros X; rewrite X in LN; change (lenZ (@nil (Z * Z))) with 0 in LN; lia).
  rewrite <- LN.
  assert (Few' : (total_blocks (f_components fr) <= MAX_BLOCKS)%nat) by (unfold fr; rewrite total_before by exact HO; exact Few).
  assert (Bpm : Forall (fun c => Z.to_nat (c_blocks_per_mcu c) = blocks_in c) (f_components fr)).
  { unfold fr, frame_of. cbn [f_components]. apply Forall_forall. intros c Ic. apply in_map_iff in Ic. destruct Ic as [c0 [<- Ic]]. unfold blocks_in. cbn [c_blocks_per_mcu c_v c_h].
    rewrite Forall_forall in HF. destruct (HF c0 Ic). rewrite Z2Nat.inj_mul by lia. lia. }
  assert (Sp : Forall2 same_blocks (f_components fr) cs).
  { unfold fr, frame_of. cbn [f_components]. generalize (map cs_v cs), (map cs_h cs). intros vs hs. clear. induction cs as [|c cs IH]; cbn [map]; constructor; [reflexivity|exact IH]. }
  assert (Ps : Forall (fun s => 0 <= cs_h s * cs_v s) cs) by (eapply Forall_impl; [|exact HF]; intros c [X Y]; nia).
  assert (Cp : coding_process fr = Ok Baseline \/ coding_process fr = Ok Sequential).
  { unfold coding_process, fr, frame_of. cbn [f_marker]. assert (O : fmk = 0 \/ fmk = 1) by lia. destruct O as [-> | ->]; cbn; auto. }
  assert (L4' : (length ts <= 4)%nat) by (unfold lenZ in L4; lia).
  destruct (init_counts _ _ _ SI R0) as [C1 [C2 [C3 [s C4]]]].
  assert (IC : in_code dq fr ts 0 (zs ts) d2).
  { constructor; auto; [eauto| | |lia|].
    - exists (repeat 0 (4 - length ts)). split; [|unfold zs; rewrite map_length, repeat_length; lia]. rewrite C2. unfold zs.
      clear - L4'. destruct ts as [|a [|b [|c [|e [|f l]]]]]; try reflexivity. cbn in L4'. lia.
    - unfold zs. apply map_length.
    - unfold scan_init in SI. rewrite Fr, Sc in SI.
      destruct (if s_start sc =? 0 then _ else _) as [u| | |]; try discriminate. cbn [bind] in SI. destruct u; [discriminate|].
      destruct (if 1 <? s_end sc then _ else _) as [u| | |]; try discriminate. cbn [bind] in SI. destruct u; [discriminate|].
      destruct (assert_ (lenZ (f_components fr) <=? 4) PCapacity) as [u| | |]; try discriminate. cbn [bind] in SI. inv SI. cbn [set_ss d_ss ss_results].
      eapply covered_sized. apply covered_start. exact FG. }
  assert (CN : counters (d_restart dq) (lenZ (@nil (Z * Z))) d2) by (rewrite C4 in C1 at 1; exact C1).
  pose proof (scan_after dbg dq fr sc ts cs Fr Sc S0 ltac:(lia) S2 RD FG Few' Bpm Sp Ps Qts Cp R0 L4' bb cc RK tail MT BT NR more ds d2 MO B Td IC CN) as SR.
  destruct (ref_scan_after _ cs ts (d_restart dq) (lenZ (mcu_list (f_mcu fr))) ds more) as [ms|]; [|exact SR].
  destruct SR as [X1 [X2 X3]]. split; [exact X1|]. split; [unfold lenZ; lia|exact X3].
Qed.

(** ** A scan header read by a used decoder *)
Lemma finish_any : forall dbg hs l, (length hs <= 4)%nat -> map h_index hs = zrange (lenZ hs) -> fin_ok l ->
  exists fin, mark_finished dbg (z_from_to 0 63) hs l = Ok fin /\ all_finished fin hs = Ok true.
Proof.
  intros dbg hs l L E F. destruct (finish_all dbg hs L E) as [f0 [M A]].
  assert (C : fin_cov [0; 0; 0; 0] l).
  { split; [reflexivity|]. split; [exact F|]. intros i x Ex. destruct F as [Ll F].
    assert (x = 0) by (apply index_Ok in Ex; destruct Ex as [_ Ex]; apply nth_error_In in Ex; cbn in Ex; intuition). subst x.
    pose proof (index_range _ _ _ _ Ex) as Ri. exists (nth (Z.to_nat i) l 0). split; [apply index_nth; unfold lenZ in *; rewrite Ll; exact Ri|].
    intros k Hk T. rewrite Z.bits_0 in T. discriminate. }
  destruct (mark_cov _ _ _ _ _ _ C M) as [f1 [M1 C1]]. exists f1. split; [exact M1|]. exact (all_cov _ _ _ C1 A).
Qed.
Lemma coding_ready_any : forall dbg dc0 ac0 segs d c comp s t q k, Forall (fun s => hseg_ok (snd s)) segs ->
  dc_slots dbg dc0 (d_dc d) (dhts segs) -> ac_slots dbg ac0 (d_ac d) (dhts segs) ->
  comp_coding segs c s t q -> comp_ready dbg d comp (mkHeader k (sc_dc s) (sc_ac s)) t.
Proof.
  intros dbg dc0 ac0 segs d c comp s t q k F [L1 D1] [L2 D2] [_ Hd Ha _ [e1 [E1 [C1 V1]]] [e2 [E2 [C2 V2]]] _].
  specialize (D1 (Z.to_nat (sc_dc s)) ltac:(lia)). rewrite E1 in D1. destruct D1 as [t1 [N1 T1]].
  specialize (D2 (Z.to_nat (sc_ac s)) ltac:(lia)). rewrite E2 in D2. destruct D2 as [t2 [N2 T2]].
  exists t1, t2. cbn [h_dc h_ac]. split; [apply slot_ok; auto|]. split; [apply slot_ok; auto|].
  destruct (entry_in _ _ _ _ E1) as [I1 _]. destruct (entry_in _ _ _ _ E2) as [I2 _]. apply (dhts_ok segs) in I1; auto. apply (dhts_ok segs) in I2; auto.
  destruct I1 as [_ [A1 [A2 [A3 _]]]]. destruct I2 as [_ [B1 [B2 [B3 _]]]]. constructor; rewrite ?C1, ?V1, ?C2, ?V2; auto.
Qed.
Lemma codings_ready_any : forall dbg dc0 ac0 segs d (g : comp_spec -> component), Forall (fun s => hseg_ok (snd s)) segs ->
  dc_slots dbg dc0 (d_dc d) (dhts segs) -> ac_slots dbg ac0 (d_ac d) (dhts segs) ->
  forall cs ss ts qs, comp_codings segs cs ss ts qs -> forall ks, length ks = length cs ->
  comps_ready dbg d (map g cs) (map header_of (combine ss ks)) ts.
Proof.
  intros dbg dc0 ac0 segs d g F D A cs ss ts qs H. induction H as [|c cs s ss t ts q qs C H IH]; intros ks L; [constructor|].
  destruct ks as [|k ks]; [discriminate|]. cbn [map combine]. constructor; [|apply IH; cbn in L; lia].
  unfold header_of. cbn [fst snd]. eapply coding_ready_any; eauto.
Qed.
Lemma sos_any_next : forall dbg rayon q0 dc0 ac0 bb cc segs d fmk pr lines samples cs ss ts qs data tail, stop_tail tail -> rst_only data -> bytes data -> bytes tail ->
  Forall (fun s => hseg_ok (snd s)) segs -> header_ok lines samples cs -> 0 <= fmk <= 1 ->
  d_frame d = Some (frame_of fmk pr lines samples cs) -> 0 <= d_restart d -> fin_ok (d_finished d) ->
  quant_slots q0 (d_qt d) (dqts segs) ->
  dc_slots dbg dc0 (d_dc d) (dhts segs) -> ac_slots dbg ac0 (d_ac d) (dhts segs) ->
  NoDup (map cs_id cs) -> lenZ cs <= 4 -> (blocks_before cs (length cs) <= 10)%nat -> comp_codings segs cs ss ts qs ->
  dec_ok d -> good (mkBiter (segment (sos_bytes (mkSpS ss 0 63 0 0)) ++ data ++ tail) bb cc) ->
  let mw := mcus samples (largest (map cs_h cs)) in let mh := mcus lines (largest (map cs_v cs)) in
  exists p1 d1 b1, from dbg false rayon (PcSegment SOS, d, mkBiter (segment (sos_bytes (mkSpS ss 0 63 0 0)) ++ data ++ tail) bb cc) (p1, d1, b1) /\
  (((exists d' b' r, step dbg false rayon p1 d1 b1 = (d', b', SStop r) /\ gives_up r) /\
    exists dq sc d2, scan_start dbg (frame_of fmk pr lines samples cs) ts (d_qt d) (d_restart d) dq sc d2 /\
      forall log d3 b3, ~ mcus_read dbg (mcu_list (f_mcu (frame_of fmk pr lines samples cs))) d2 (mkBiter (data ++ tail) bb cc) log d3 b3) \/
   (p1 = PcMarker /\ in_data tail (bi_input b1) /\ d_frame d1 = d_frame d /\ d_color d1 = d_color d /\ four_slots d1 /\ Forall full (d_planes d1) /\
    length (d_planes d1) = length cs /\
    exists dq sc d2 log d3, scan_start dbg (frame_of fmk pr lines samples cs) ts (d_qt d) (d_restart d) dq sc d2 /\
      mcus_read dbg (mcu_list (f_mcu (frame_of fmk pr lines samples cs))) d2 (mkBiter (data ++ tail) bb cc) log d3 b1 /\
      placed lines samples cs qs log (d_planes d1))).
Proof.
  intros dbg rayon q0 dc0 ac0 bb cc segs d fmk pr lines samples cs ss ts qs data tail StT RO Bd Bt F HO Fm Fr R0 Fin Q D A ND L4 Few CC Kd Gd mw mh.
  destruct (codings_length _ _ _ _ _ CC) as [Lss [Lts [Lqs Ids]]].
  set (fr := frame_of fmk pr lines samples cs) in *. set (s := mkSpS ss 0 63 0 0). set (ks := zrange (lenZ cs)). set (sc := scan_of s ks).
  assert (L1 : 1 <= lenZ cs) by (destruct HO as [_ _ N _ _ _]; unfold lenZ; destruct cs; [congruence|cbn [length]; lia]).
  assert (Lk : length ks = length cs) by (unfold ks; rewrite zrange_length; unfold lenZ; lia).
  assert (Lh : length (s_headers sc) = length cs) by (unfold sc, scan_of; cbn [s_headers sp_comps s]; rewrite headers_length; lia).
  assert (Hi : map h_index (s_headers sc) = ks) by (unfold sc, scan_of; cbn [s_headers sp_comps s]; apply combine_header; lia).
  assert (Hi' : map h_index (s_headers sc) = zrange (lenZ (s_headers sc))) by (rewrite Hi; unfold ks, lenZ; rewrite Lh; reflexivity).
  assert (SH : sos_segment (Some fr) (sos_bytes s) = Ok (sc, [])).
  { rewrite <- (app_nil_r (sos_bytes s)). apply sos_header_scan; [destruct HO as [_ _ _ N _ _]; unfold fr, frame_of; cbn [f_components]; unfold lenZ in *; rewrite map_length; lia| |apply scan_in_all; auto].
    unfold scan_ok, s. cbn [sp_comps sp_start sp_end sp_high sp_low]. split; [|unfold is_byte, nibble; lia].
    apply Forall_forall. intros x Ix. apply In_nth_error in Ix. destruct Ix as [k Ek]. assert (Hk : (k < length cs)%nat) by (rewrite <- Lss; apply nth_error_Some; congruence).
    destruct (nth_error cs k) as [c|] eqn:Ec; [|apply nth_error_None in Ec; lia]. destruct (codings_nth _ _ _ _ _ CC k c Ec) as [x' [t [q [X1 [_ [_ [Y1 Y2 Y3 _ _ _ _]]]]]]].
    assert (x' = x) by congruence. subst x'. destruct HO as [_ _ _ _ HR _]. rewrite Forall_forall in HR. destruct (HR c (nth_error_In _ _ Ec)) as [B _]. split; [congruence|]. unfold nibble. lia. }
  destruct (finish_any dbg (s_headers sc) (d_finished d) ltac:(unfold lenZ in L4; lia) Hi' Fin) as [fin [MF AF]].
  set (d1 := set_finished (set_scan d (Some sc)) fin).
  assert (SB : sos_begin dbg d sc = (d1, Ok true)).
  { unfold sos_begin. cbn [set_scan d_frame d_finished]. rewrite Fr.
    assert (CP : coding_process fr = Ok Baseline \/ coding_process fr = Ok Sequential).
    { unfold coding_process, fr, frame_of. cbn [f_marker]. assert (O : fmk = 0 \/ fmk = 1) by lia. destruct O as [-> | ->]; cbn; auto. }
    change (s_low sc) with 0. change (s_start sc) with 0. change (s_end sc) with 63. change (0 =? 0) with true. cbn iota.
    rewrite MF. destruct CP as [-> | ->]; rewrite AF; reflexivity. }
  assert (RD : comps_ready dbg d1 (f_components fr) (s_headers sc) ts).
  { unfold fr, frame_of, sc, scan_of. cbn [f_components s_headers sp_comps s]. eapply codings_ready_any; eauto. }
  destruct (ready_tables _ _ _ _ _ RD) as [U1 U2].
  assert (SI : scan_init true d1 = Ok (set_ss d1 (mkSS zero_coefs [0; 0; 0; 0] 0 0 (d_restart d) (map (fun c => repeat None (Z.to_nat (area (c_block_size c) * 64))) (f_components fr))))).
  { unfold scan_init. cbn [d1 set_finished set_scan d_frame d_scan]. rewrite Fr. change (s_start sc) with 0. change (s_end sc) with 63. change (0 =? 0) with true. change (1 <? 63) with true. cbn iota.
    fold (set_finished (set_scan d (Some sc)) fin). fold d1. rewrite U1. cbn [bind]. rewrite U2. cbn [bind].
    assert (X : lenZ (f_components fr) <=? 4 = true) by (unfold fr, frame_of; cbn [f_components]; unfold lenZ in *; rewrite map_length; lia).
    rewrite X. reflexivity. }
  set (d2 := set_ss d1 _) in SI.
  assert (ST : step dbg false rayon (PcSegment SOS) d (mkBiter (segment (sos_bytes s) ++ data ++ tail) bb cc)
    = (d2, mkBiter (data ++ tail) bb cc, SNext (PcScan true (mcu_list (f_mcu fr)) PhRow))).
  { rewrite step_segment by reflexivity. unfold on_payload, do_sos. rewrite Fr, SH, SB, SI. cbn [d2 d1 set_ss set_finished set_scan d_frame]. rewrite Fr. reflexivity. }
  assert (FG : frame_good fr) by (exists fmk, pr, lines, samples, cs; split; [reflexivity|exact HO]).
  destruct (frame_fits fr FG) as [_ [W0 [H0 [_ Ar]]]].
  assert (Qts : forall k c, nth_error cs k = Some c -> exists qt q, index (d_qt d) (cs_tq c) = Ok (Some qt) /\ nth_error qs k = Some q /\ natural_order qt q).
  { intros k c Ec. destruct (codings_nth _ _ _ _ _ CC k c Ec) as [x' [t [q [_ [_ [X3 [_ _ _ Y4 _ _ [e [Y5 Y6]]]]]]]]]. destruct Q as [Q1 Q2]. specialize (Q2 (Z.to_nat (cs_tq c)) ltac:(lia)).
    rewrite Z2Nat.id in Q2 by lia. rewrite Y5 in Q2. destruct Q2 as [qt [Q3 Q4]]. exists qt, q. split; [apply slot_ok; auto|]. split; [exact X3|]. rewrite Y6. exact Q4. }
  set (b0 := mkBiter (data ++ tail) bb cc) in *.
  pose proof (step_inv dbg false rayon (PcSegment SOS) d _ Kd Gd I) as SV. fold s in SV. rewrite ST in SV. destruct SV as [K2 [G2 [_ [P2 _]]]].
  assert (S1 : from dbg false rayon (PcSegment SOS, d, mkBiter (segment (sos_bytes s) ++ data ++ tail) bb cc) (PcScan true (mcu_list (f_mcu fr)) PhRow, d2, b0)) by (eapply from_next; [apply from_here|exact ST]).
  pose proof (scan_inv dbg false true (mcu_list (f_mcu fr)) PhRow d2 b0 K2 G2 P2) as SV.
  destruct (scan_loop dbg false true (mcu_list (f_mcu fr)) PhRow d2 b0) as [[d3 b3] r] eqn:SL. destruct SV as [K3 [G3 _]].
  assert (CP : coding_process fr = Ok Baseline \/ coding_process fr = Ok Sequential).
  { unfold coding_process, fr, frame_of. cbn [f_marker]. assert (O : fmk = 0 \/ fmk = 1) by lia. destruct O as [-> | ->]; cbn; auto. }
  destruct (init_counts _ _ _ SI R0) as [C0 _].
  destruct (scan_calm dbg d1 fr sc ts tail Fr eq_refl ltac:(cbn; lia) RD FG ltac:(unfold fr; rewrite total_before by exact HO; exact Few)
     ltac:(unfold fr, frame_of; cbn [f_components]; apply Forall_forall; intros c Ic; apply in_map_iff in Ic; destruct Ic as [c0 [<- Ic]]; cbn [c_tq]; apply In_nth_error in Ic; destruct Ic as [k Ek]; destruct (Qts k c0 Ek) as [qt [q [X _]]]; exists qt; exact X)
     CP StT (mcu_list (f_mcu fr)) [] d2 b0 eq_refl ltac:(eexists; reflexivity) K2 G2 ltac:(exists data; auto)
     ltac:(cbn [d2 set_ss d_ss ss_results]; eapply covered_sized; apply covered_start; exact FG) ltac:(intros _; exact C0) d3 b3 r SL) as [Cm [[s3 E3] Dn]].
  assert (SS : scan_start dbg fr ts (d_qt d) (d_restart d) d1 sc d2).
  { unfold scan_start. splits; auto. unfold fr, frame_of; cbn [f_components]; apply Forall_forall; intros c Ic; apply in_map_iff in Ic; destruct Ic as [c0 [<- Ic]]; cbn [c_tq]; apply In_nth_error in Ic; destruct Ic as [k Ek]; destruct (Qts k c0 Ek) as [qt [q [X _]]]; exists qt; exact X. }
  assert (NR : r <> ScDone -> forall log d5 b5, ~ mcus_read dbg (mcu_list (f_mcu fr)) d2 b0 log d5 b5).
  { intros ND' log d5 b5 MR. assert (X : scan_loop dbg false true (mcu_list (f_mcu fr)) PhRow d2 b0 = (d5, b5, ScDone)) by (apply scan_loop_reads; exists log; exact MR). congruence. }
  destruct r as [|todo' ph'|e|p|]; try contradiction.
  2:{ exists (PcScan true (mcu_list (f_mcu fr)) PhRow), d2, b0. split; [exact S1|]. left. split; [cbn [step]; rewrite SL; eexists _, _, _; split; [reflexivity|exact I]|].
      exists d1, sc, d2. split; [exact SS|]. apply NR. discriminate. }
  2:{ exists (PcScan true (mcu_list (f_mcu fr)) PhRow), d2, b0. split; [exact S1|]. left. split; [cbn [step]; rewrite SL; eexists _, _, _; split; [reflexivity|exact I]|].
      exists d1, sc, d2. split; [exact SS|]. apply NR. discriminate. }
  destruct (Dn eq_refl) as [ID3 Sz3].
  assert (L3 : length (ss_results (d_ss d3)) = length (s_headers sc)).
  { apply Forall2_length in Sz3. rewrite <- Sz3, Lh. unfold fr, frame_of. cbn [f_components]. apply map_length. }
  destruct (take_all (s_headers sc) (ss_results (d_ss d3)) ltac:(unfold lenZ in L4; lia) Hi' L3) as [r TK].
  assert (SF : exists d4, scan_finish d3 = Ok d4 /\ d_frame d4 = d_frame d /\ d_color d4 = d_color d).
  { assert (Sc3 : d_scan d3 = Some sc) by (rewrite E3; reflexivity). unfold scan_finish. rewrite Sc3, TK. cbn [bind]. eexists. split; [reflexivity|]. rewrite E3. split; reflexivity. }
  destruct SF as [d4 [SF [Fr4 Co4]]].
  assert (ST2 : step dbg false rayon (PcScan true (mcu_list (f_mcu fr)) PhRow) d2 b0 = (d4, b3, SNext PcMarker)) by (cbn [step]; rewrite SL, SF; reflexivity).
  pose proof (step_inv dbg false rayon _ d2 b0 K2 G2 P2) as SV. rewrite ST2 in SV. destruct SV as [K4 _].
  assert (NDh : NoDup (map h_index (s_headers sc))) by (rewrite Hi; unfold ks, zrange; apply FinFun.Injective_map_NoDup; [intros a b; lia|apply seq_NoDup]).
  destruct (scan_placed dbg rayon d1 fmk pr lines samples cs sc d2 _ d4 b3 HO Fr eq_refl NDh SI ST2) as [log2 [d5 [MR [Lp PL]]]].
  exists PcMarker, d4, b3. split; [eapply from_next; [exact S1|exact ST2]|]. right. split; [reflexivity|]. split; [exact ID3|]. split; [exact Fr4|]. split; [exact Co4|].
  split; [apply K4|]. split; [apply K4|]. split; [rewrite Lp; exact Lh|].
  exists d1, sc, d2, log2, d5. split; [exact SS|split; [exact MR|]].
  unfold placed. cbv zeta. fold mw mh.
  intros k c Ec. assert (Hk : (k < length cs)%nat) by (apply nth_error_Some; congruence).
  destruct (nth_error (s_headers sc) k) as [hd|] eqn:Eh; [|apply nth_error_None in Eh; lia].
  assert (Ek : h_index hd = Z.of_nat k).
  { assert (X : nth_error ks k = Some (h_index hd)) by (rewrite <- Hi, nth_error_map, Eh; reflexivity). unfold ks in X.
    pose proof (zrange_nth_error (lenZ cs) (Z.of_nat k) ltac:(unfold lenZ; lia)) as Y. rewrite Nat2Z.id in Y. congruence. }
  destruct (PL k hd c Eh) as [p [Ep [Lpp Sp]]]; [rewrite Ek, Nat2Z.id; exact Ec|]. rewrite Ek, Nat2Z.id in Sp. fold mw mh in Lpp, Sp.
  destruct (Qts k c Ec) as [qt [q [Q1 [Q2 Q3]]]]. exists p, qt, q. split; [exact Ep|]. split; [exact Q2|]. split; [exact Q3|]. split; [exact Lpp|].
  intros y x Hy Hx. destruct (Sp y x Hy Hx) as [qt' [Q4 Es]]. cbn [d1 set_finished set_scan d_qt] in Q4. assert (qt' = qt) by congruence. subst qt'. exact Es.
Qed.

(** ** A file read by a used decoder with bits left over *)
Lemma file_next_exact : forall dbg rayon u bb cc segs h fill1 fill2 ss ts qs data post fill3 extra,
  dec_ok u -> fin_ok (d_finished u) -> 0 <= d_restart u -> reader_ok (mkBiter [] bb cc) ->
  header_for segs h ss ts qs -> rst_only data -> post_ok post ->
  let cs := fh_comps h in let lines := fh_lines h in let samples := fh_samples h in
  let file := file_bytes segs fill1 fill2 (mkSpS ss 0 63 0 0) data post fill3 in bytes (file ++ extra) ->
  let fr := frame_of (fh_marker h) (fh_precision h) lines samples cs in
  let tail := flat_map hseg_bytes post ++ marker_bytes fill3 0xD9 ++ extra in
  ((exists p1 d1 b1 d' b' r, from dbg false rayon (PcMarker, u, mkBiter (file ++ extra) bb cc) (p1, d1, b1) /\ step dbg false rayon p1 d1 b1 = (d', b', SStop r) /\ gives_up r) /\
   exists dq sc d2 qts, scan_start dbg fr ts qts (last (dris segs) (d_restart u)) dq sc d2 /\
     forall log d3 b3, ~ mcus_read dbg (mcu_list (f_mcu fr)) d2 (mkBiter (data ++ tail) bb cc) log d3 b3) \/
  exists d b j dq sc d2 qts log d3 b3, from dbg false rayon (PcMarker, u, mkBiter (file ++ extra) bb cc) (PcMarker, d, b) /\
    bi_input b = j ++ marker_bytes fill3 0xD9 ++ extra /\ no_marker j /\ d_frame d = Some fr /\
    d_color d = last (map transform_of (adobes (segs ++ post))) (d_color u) /\ d_planes d = map line_of (map (map known) (d_planes d)) /\
    length (d_planes d) = length cs /\ Forall2 (plane_for lines samples cs) cs (map (map known) (d_planes d)) /\
    scan_start dbg fr ts qts (last (dris segs) (d_restart u)) dq sc d2 /\
    mcus_read dbg (mcu_list (f_mcu fr)) d2 (mkBiter (data ++ tail) bb cc) log d3 b3 /\
    placed lines samples cs qs log (d_planes d).
Proof.
  intros dbg rayon u bb cc segs h fill1 fill2 ss ts qs data post fill3 extra Ku Fu0 Ru RK [F Sf ND L4 Few CC] RO [Fp Sop] cs lines samples file Bf fr tail.
  destruct (sof_ok segs h F ltac:(rewrite Sf; left; reflexivity)) as [Fm HO].
  fold cs lines samples in HO.
  set (rest := marker_bytes fill2 0xDA ++ segment (sos_bytes (mkSpS ss 0 63 0 0)) ++ data ++ tail).
  assert (Ef : file ++ extra = marker_bytes fill1 0xD8 ++ flat_map hseg_bytes segs ++ rest) by (unfold file, file_bytes, rest, tail; rewrite <- !app_assoc; reflexivity).
  assert (Bt : bytes data /\ bytes tail) by (unfold bytes in *; rewrite Ef in Bf; unfold rest in Bf; rewrite !Forall_app in Bf; tauto). destruct Bt as [Bd Bt].
  assert (StT : stop_tail tail).
  { destruct (header_stop post fill3 Fp) as [k [c [m [Em Hc]]]]. exists k, c, (m ++ extra). split; [|exact Hc]. unfold tail. rewrite app_assoc, Em, <- app_assoc. reflexivity. }
  set (start := (PcMarker, u, mkBiter (file ++ extra) bb cc)).
  assert (S1 : from dbg false rayon start (PcMarker, u, mkBiter ([] ++ flat_map hseg_bytes segs ++ rest) bb cc)).
  { unfold start. rewrite Ef. apply (from_next _ _ _ _ (PcSegment SOI, u, mkBiter (flat_map hseg_bytes segs ++ rest) bb cc)); [|reflexivity]. eapply from_next; [apply from_here|]. cbn [moves].
    apply (marker_step dbg false rayon u [] fill1 0xD8 SOI); [constructor|constructor|discriminate]. }
  destruct (header_run dbg false rayon bb cc segs u [] rest (ok_slots _ Ku) F ltac:(constructor)) as [d1 [junk [S2 [J [F4 [H1 H2 H3 H5 H6 H7 H8 H9 _]]]]]].
  rewrite Sf in H6. cbn [map last] in H6.
  set (bs := mkBiter (segment (sos_bytes (mkSpS ss 0 63 0 0)) ++ data ++ tail) bb cc).
  assert (S3 : from dbg false rayon start (PcSegment SOS, d1, bs)).
  { eapply from_trans; [exact S1|]. eapply from_trans; [exact S2|]. eapply from_next; [apply from_here|]. cbn [moves]. apply (marker_step dbg false rayon d1 junk fill2 0xDA SOS); [exact J|constructor|discriminate]. }
  destruct (from_inv dbg rayon _ _ S3 _ _ _ _ _ _ eq_refl eq_refl Ku ltac:(split; [exact RK|exact Bf]) I) as [Kd [Gd _]].
  assert (R1 : 0 <= d_restart d1).
  { rewrite H5. pose proof (dri_nonneg segs F) as X. destruct (dris segs) as [|x l]; [exact Ru|]. rewrite (last_any _ l x (d_restart u) 0). exact X. }
  destruct (sos_any_next dbg rayon (d_qt u) (d_dc u) (d_ac u) bb cc segs d1 (fh_marker h) (fh_precision h) lines samples cs ss ts qs data tail StT RO Bd Bt F HO Fm H6 R1 ltac:(rewrite H9; exact Fu0) H1 H2 H3 ND L4 Few CC Kd Gd)
    as [p1 [d2 [b2 [S4 [[[d' [b' [r [St Gv]]]] [dq [sc [d3 [SS NR]]]]]|[-> [[j2 [Rj Ei]] [Fr2 [Co2 [Fs2 [Fu [Lp [dq [sc [d3 [log [d4 [SS [MR PL]]]]]]]]]]]]]]]]]]].
  - left. split; [exists p1, d2, b2, d', b', r; split; [eapply from_trans; [exact S3|exact S4]|split; [exact St|exact Gv]]|].
    exists dq, sc, d3, (d_qt d1). split; [rewrite <- H5; exact SS|exact NR].
  - right. remember b2 as b2' eqn:Eb2. rewrite Eb2 in MR. destruct b2' as [i2 bits2 count2]. cbn [bi_input] in Ei. subst i2.
    destruct (skip_rst dbg rayon (length j2) j2 d2 tail bits2 count2 ltac:(lia) Rj) as [j3 [N3 S5]].
    destruct (header_run dbg false rayon bits2 count2 post d2 j3 (marker_bytes fill3 0xD9 ++ extra) Fs2 Fp N3) as [d5 [j5 [S6 [J5 [F5 [K1 K2 K3 K5 K6 K7 K8 K9 _]]]]]].
    rewrite Sop in K6. cbn [map last] in K6. rewrite <- K8 in Fu, Lp, PL.
    assert (Fr5 : d_frame d5 = Some (frame_of (fh_marker h) (fh_precision h) lines samples cs)) by (rewrite K6, Fr2; exact H6).
    assert (Co5 : d_color d5 = last (map transform_of (adobes (segs ++ post))) (d_color u)) by (rewrite K7, Co2, H7; unfold adobes; rewrite flat_map_app, map_app, last_app; reflexivity).
    assert (S7 : from dbg false rayon start (PcMarker, d5, mkBiter (j5 ++ marker_bytes fill3 0xD9 ++ extra) bits2 count2)).
    { eapply from_trans; [exact S3|]. eapply from_trans; [exact S4|]. eapply from_trans; [exact S5|exact S6]. }
    assert (Ep : d_planes d5 = map line_of (map (map known) (d_planes d5))).
    { rewrite map_map. rewrite <- (map_id (d_planes d5)) at 1. apply map_ext_in. intros p Ip. rewrite Forall_forall in Fu. apply (full_known p (Fu p Ip)). }
    assert (PF : Forall2 (plane_for lines samples cs) cs (map (map known) (d_planes d5))).
    { apply Forall2_nth_error; [rewrite map_length; symmetry; exact Lp|]. intros k c p Ec Ek. destruct (PL k c Ec) as [p' [qt' [q' [Ep' [_ [_ [Lpp _]]]]]]]. rewrite nth_error_map in Ek. unfold plane in *. rewrite Ep' in Ek. injection Ek as <-.
      rewrite Forall_forall in Fu. split; [apply (full_known p' (Fu p' (nth_error_In _ _ Ep')))|]. unfold plane_rows, plane_stride, lenZ in *. rewrite map_length, Lpp. apply Z.mul_comm. }
    exists d5, (mkBiter (j5 ++ marker_bytes fill3 0xD9 ++ extra) bits2 count2), j5, dq, sc, d3, (d_qt d1), log, d4, b2. splits; auto. rewrite <- H5. exact SS.
Qed.

Lemma next_scan : forall dbg rayon u bb cc segs h fill1 fill2 ss ts qs ds more post fill3 extra,
  dec_ok u -> fin_ok (d_finished u) -> 0 <= d_restart u -> reader_ok (mkBiter [] bb cc) ->
  header_for segs h ss ts qs -> bytes ds -> more_ok more -> post_ok post ->
  let cs := fh_comps h in let lines := fh_lines h in let samples := fh_samples h in 0 < lines -> 0 < samples ->
  let file := file_bytes segs fill1 fill2 (mkSpS ss 0 63 0 0) (scan_bytes ds more) post fill3 in bytes (file ++ extra) ->
  match ref_scan_after (to_bits (Z.to_nat cc) bb) cs ts (last (dris segs) (d_restart u)) (mcus lines (largest (map cs_v cs)) * mcus samples (largest (map cs_h cs))) ds more with
  | Some ms => exists d b j, from dbg false rayon (PcMarker, u, mkBiter (file ++ extra) bb cc) (PcMarker, d, b) /\
      bi_input b = j ++ marker_bytes fill3 0xD9 ++ extra /\ no_marker j /\ d_frame d = Some (frame_of (fh_marker h) (fh_precision h) lines samples cs) /\
      d_color d = last (map transform_of (adobes (segs ++ post))) (d_color u) /\ d_planes d = map line_of (map (map known) (d_planes d)) /\
      length (d_planes d) = length cs /\ Forall2 (plane_for lines samples cs) cs (map (map known) (d_planes d)) /\
      (forall k c, nth_error cs k = Some c -> exists q p, nth_error qs k = Some q /\ nth_error (map (map known) (d_planes d)) k = Some p /\ plane_from lines samples cs ms k c q p)
  | None => Forall clean_end (ds :: map snd more) ->
      exists p1 d1 b1 d' b' r, from dbg false rayon (PcMarker, u, mkBiter (file ++ extra) bb cc) (p1, d1, b1) /\ step dbg false rayon p1 d1 b1 = (d', b', SStop r) /\ gives_up r
  end.
Proof.
  intros dbg rayon u bb cc segs h fill1 fill2 ss ts qs ds more post fill3 extra Ku Fu0 Ru RK HF Bds MO PO cs lines samples P1 P2 file B.
  pose proof (file_next_exact dbg rayon u bb cc segs h fill1 fill2 ss ts qs (scan_bytes ds more) post fill3 extra Ku Fu0 Ru RK HF (scan_bytes_ro ds more MO) PO B) as FS. cbv zeta in FS. fold file cs lines samples in FS.
  destruct HF as [F Sf ND L4 Few CC]. destruct (sof_ok segs h F ltac:(rewrite Sf; left; reflexivity)) as [Fm HO]. fold cs lines samples in HO, ND, L4, Few.
  destruct PO as [Fp Sop]. set (tail := flat_map hseg_bytes post ++ marker_bytes fill3 0xD9 ++ extra) in *.
  assert (ST : stop_tail tail).
  { destruct (header_stop post fill3 Fp) as [k [c [m [Em Hc]]]]. exists k, c, (m ++ extra). split; [|exact Hc]. unfold tail. rewrite app_assoc, Em, <- app_assoc. reflexivity. }
  assert (MT : marker_tail tail).
  { destruct ST as [k [c [m [-> [C0 _]]]]]. exists (match k with O => c | S _ => 255 end), (match k with O => m | S n => FF n ++ c :: m end). destruct k; cbn; split; try reflexivity; lia. }
  assert (BT : bytes tail) by (unfold bytes in *; unfold file, file_bytes in B; rewrite !Forall_app in B; unfold tail; rewrite !Forall_app; tauto).
  set (r := last (dris segs) (d_restart u)) in *.
  assert (R0 : 0 <= r).
  { unfold r. pose proof (dri_nonneg segs F) as X. destruct (dris segs) as [|x l]; [exact Ru|]. rewrite (last_any _ l x (d_restart u) 0). exact X. }
  assert (Key : forall dq sc d2 qts, scan_start dbg (frame_of (fh_marker h) (fh_precision h) lines samples cs) ts qts r dq sc d2 -> _) by
    (intros dq sc d2 qts SS; exact (scan_code_after dbg _ _ lines samples cs ts qts _ dq sc d2 bb cc ds more tail RK HO L4 Few Fm P1 P2 SS R0 MT BT (stop_not_rst tail ST) Bds MO)).
  cbv zeta in Key. fold (frame_of (fh_marker h) (fh_precision h) lines samples cs) in Key.
  destruct (ref_scan_after (to_bits (Z.to_nat cc) bb) cs ts r (mcus lines (largest (map cs_v cs)) * mcus samples (largest (map cs_h cs))) ds more) as [ms|].
  - destruct FS as [[_ [dq [sc [d2 [qts [SS No]]]]]]|[d [b [j [dq [sc [d2 [qts [log [d3 [b3 [S7 [Eb [J5 [Fr5 [Co5 [Ep [Lp [PF [SS [MR PL]]]]]]]]]]]]]]]]]]]]].
    { exfalso. destruct (Key _ _ _ _ SS) as [_ [_ [log [d' [b' [MR _]]]]]]. exact (No _ _ _ MR). }
    destruct (Key _ _ _ _ SS) as [Sh [Lm [log' [d' [b' [MR' LG]]]]]]. destruct (reads_same _ _ _ _ _ _ _ MR _ _ _ MR') as [-> [-> ->]].
    exists d, b, j. do 8 (split; [assumption|]).
    exact (planes_from lines samples cs qs _ (d_planes d) ms HO LG Sh Lm PL PF).
  - intros CE. destruct FS as [[E _]|[d [b [j [dq [sc [d2 [qts [log [d3 [b3 [S7 [Eb [J5 [Fr5 [Co5 [Ep [Lp [PF [SS [MR PL]]]]]]]]]]]]]]]]]]]]]; [exact E|].
    exfalso. exact (Key _ _ _ _ SS CE _ _ _ MR).
Qed.
