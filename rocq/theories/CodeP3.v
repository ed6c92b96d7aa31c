(** The reading of entropy-coded data refines the reference (C63): files. *)
From Verif Require Import Base Tactics SpecColor SpecBits SpecReader SpecHuffman SpecBlock SpecTables Biterator BitsP Readers ReadersP Huffman HuffmanP3 Marker SpecMarker MarkerP Types Idct IdctP Upsampler Parsers Decode ParsersP SpecFrame SpecSegments SpecScan SpecPlane SpecUpsample SpecImage SpecFile SpecAnswer SpecLimits SpecDamage SpecCode
  BlockP PlaneP SegmentsP SafeP InvP ScanP RestartP PlacedP EncodeP SpecGlobal GlobalP ExtP SpecStream StreamP StreamP2 RowP UpsampleP ImageP FileP CorruptP AnswerP AnswerP2 AnswerP3 ReuseP DamageP DamageP2 PiecesP TransP CodeP CodeP2.

Lemma scan_code : forall dbg fmk pr lines samples cs ts qts r dq sc d2 ds more tail,
  header_ok lines samples cs -> lenZ cs <= 4 -> (blocks_before cs (length cs) <= 10)%nat -> 0 <= fmk <= 1 -> 0 < lines -> 0 < samples ->
  let fr := frame_of fmk pr lines samples cs in
  scan_start dbg fr ts qts r dq sc d2 -> 0 <= r -> marker_tail tail -> bytes tail -> (forall n rest, parse_marker tail <> Ok (RST n, rest)) ->
  bytes ds -> more_ok more ->
  let N := mcus lines (largest (map cs_v cs)) * mcus samples (largest (map cs_h cs)) in
  match ref_scan cs ts r 0 N ds more with
  | Some ms => Forall (mcu_shape cs) ms /\ lenZ ms = N /\
      exists log d' b', mcus_read dbg (mcu_list (f_mcu fr)) d2 (mkBiter (scan_bytes ds more ++ tail) 0 0) log d' b' /\ Forall2 logged log ms
  | None => Forall clean_end (ds :: map snd more) -> forall log d' b', ~ mcus_read dbg (mcu_list (f_mcu fr)) d2 (mkBiter (scan_bytes ds more ++ tail) 0 0) log d' b'
  end.
Proof.
  intros dbg fmk pr lines samples cs ts qts r dq sc d2 ds more tail HO L4 Few Fm P1 P2 fr (Fr & Sc & S0 & S1 & S2 & RD & Qe & Re & SI & _ & Qts) R0 MT BT NR B MO N. subst qts r.
  assert (FG : frame_good fr) by (exists fmk, pr, lines, samples, cs; split; [reflexivity|exact HO]).
  destruct (frame_fits fr FG) as [_ [W0 [H0 _]]].
  assert (Lts : length ts = length cs).
  { assert (G : length ts = length (f_components fr)) by (clear - RD; induction RD; cbn; auto). rewrite G. unfold fr, frame_of. cbn [f_components]. apply map_length. }
  assert (HF : Forall factors_ok cs) by (destruct HO; assumption). assert (Ne : cs <> []) by (destruct HO; assumption).
  pose proof (mcu_length (f_mcu fr) H0 W0) as ML.
  assert (LN : lenZ (mcu_list (f_mcu fr)) = N) by (rewrite ML; unfold N; reflexivity).
  assert (HV : 1 <= largest (map cs_v cs) <= 4) by (apply largest_factors; [exact Ne|]; rewrite Forall_forall in HF; intros c Ic; apply (HF c Ic)).
  assert (HH : 1 <= largest (map cs_h cs) <= 4) by (apply largest_factors; [exact Ne|]; rewrite Forall_forall in HF; intros c Ic; apply (HF c Ic)).
  assert (N0 : 0 < N).
  { unfold N, mcus, ceil_div. apply Z.mul_pos_pos; apply Z.div_str_pos; lia. }
  assert (Td : mcu_list (f_mcu fr) <> []) by (intros X; rewrite X in LN; change (lenZ (@nil (Z * Z))) with 0 in LN; lia).
  rewrite <- LN.
  assert (Few' : (total_blocks (f_components fr) <= MAX_BLOCKS)%nat) by (unfold fr; rewrite total_before by exact HO; exact Few).
  assert (Bpm : Forall (fun c => Z.to_nat (c_blocks_per_mcu c) = blocks_in c) (f_components fr)).
  { unfold fr, frame_of. cbn [f_components]. apply Forall_forall. intros c Ic. apply in_map_iff in Ic. destruct Ic as [c0 [<- Ic]]. unfold blocks_in. cbn [c_blocks_per_mcu c_v c_h].
    rewrite Forall_forall in HF. destruct (HF c0 Ic). rewrite Z2Nat.inj_mul by lia. lia. }
  assert (Sp : Forall2 same_blocks (f_components fr) cs).
  { unfold fr, frame_of. cbn [f_components]. generalize (map cs_v cs), (map cs_h cs). intros vs hs. clear. induction cs as [|c cs IH]; cbn [map]; constructor; [reflexivity|exact IH]. }
  assert (Ps : Forall (fun s => 0 <= cs_h s * cs_v s) cs) by (eapply Forall_impl; [|exact HF]; intros c [X Y]; nia).
  assert (Cp : coding_process fr = Ok Baseline \/ coding_process fr = Ok Sequential).
  { unfold coding_process, fr, frame_of. cbn [f_marker]. assert (O : fmk = 0 \/ fmk = 1) by lia. destruct O as [-> | ->]; cbn; auto. }
  assert (L4' : (length ts <= 4)%nat) by (unfold lenZ in L4; lia).
  destruct (init_counts _ _ _ SI R0) as [C1 [C2 [C3 [s C4]]]].
  assert (IC : in_code dq fr ts 0 (zs ts) d2).
  { constructor; auto; [eauto| | |lia|].
    - exists (repeat 0 (4 - length ts)). split; [|unfold zs; rewrite map_length, repeat_length; lia]. rewrite C2. unfold zs.
      clear - L4'. destruct ts as [|a [|b [|c [|e [|f l]]]]]; try reflexivity. cbn in L4'. lia.
    - unfold zs. apply map_length.
    - unfold scan_init in SI. rewrite Fr, Sc in SI.
      destruct (if s_start sc =? 0 then _ else _) as [u| | |]; try discriminate. cbn [bind] in SI. destruct u; [discriminate|].
      destruct (if 1 <? s_end sc then _ else _) as [u| | |]; try discriminate. cbn [bind] in SI. destruct u; [discriminate|].
      destruct (assert_ (lenZ (f_components fr) <=? 4) PCapacity) as [u| | |]; try discriminate. cbn [bind] in SI. inv SI. cbn [set_ss d_ss ss_results].
      eapply covered_sized. apply covered_start. exact FG. }
  assert (CN : counters (d_restart dq) (lenZ (@nil (Z * Z))) d2) by (rewrite C4 in C1 at 1; exact C1).
  pose proof (scan_ref dbg dq fr sc ts cs Fr Sc S0 ltac:(lia) S2 RD FG Few' Bpm Sp Ps Qts Cp R0 L4' tail MT BT NR more MO 0 ds [] (mcu_list (f_mcu fr)) d2 B ltac:(lia) Td eq_refl IC CN) as SR.
  assert (P' : 0 < d_restart dq -> lenZ (@nil (Z * Z)) mod d_restart dq = 0 /\ 0 = lenZ (@nil (Z * Z)) / d_restart dq mod 8).
  { intros Hr. change (lenZ (@nil (Z * Z))) with 0. rewrite Z.mod_0_l, Z.div_0_l by lia. split; reflexivity. }
  specialize (SR P'). destruct (ref_scan cs ts (d_restart dq) 0 (lenZ (mcu_list (f_mcu fr))) ds more) as [ms|]; [|exact SR].
  destruct SR as [X1 [X2 X3]]. split; [exact X1|]. split; [unfold lenZ; lia|exact X3].
Qed.

Lemma stop_not_rst : forall tail, stop_tail tail -> forall n rest, parse_marker tail <> Ok (RST n, rest).
Proof.
  intros tail [k [c [more [-> [C0 [C1 C2]]]]]] n rest E. unfold parse_marker in E. rewrite scan_FF in E. cbn [marker_scan] in E.
  replace (c =? 255) with false in E by lia. replace (c =? 0) with false in E by lia. destruct (marker_of_byte c) as [m|] eqn:M; [|discriminate]. inv E.
  apply marker_of_byte_code in M. inv M; lia.
Qed.
Lemma scan_bytes_ro : forall ds more, more_ok more -> rst_only (scan_bytes ds more).
Proof.
  intros ds more MO. unfold scan_bytes. apply ro_app; [apply ro_stuff|]. induction MO as [|[n d'] more [Hn B] MO IH]; cbn [flat_map]; [constructor|].
  unfold rst_bytes at 1. cbn [fst snd] in *. rewrite <- app_assoc. apply (ro_rst 0); [lia|]. apply ro_app; [apply ro_stuff|exact IH].
Qed.

(** ** Files *)
Lemma code_scan : forall dbg rayon segs h fill1 fill2 ss ts qs ds more post fill3,
  header_for segs h ss ts qs -> bytes ds -> more_ok more -> post_ok post ->
  let cs := fh_comps h in let lines := fh_lines h in let samples := fh_samples h in 0 < lines -> 0 < samples ->
  let file := file_bytes segs fill1 fill2 (mkSpS ss 0 63 0 0) (scan_bytes ds more) post fill3 in bytes file ->
  match ref_scan cs ts (last (dris segs) 0) 0 (mcus lines (largest (map cs_v cs)) * mcus samples (largest (map cs_h cs))) ds more with
  | Some ms => exists d b j, from dbg false rayon (PcMarker, decoder_default, biter_new file) (PcMarker, d, b) /\
      bi_input b = j ++ marker_bytes fill3 0xD9 /\ no_marker j /\ d_frame d = Some (frame_of (fh_marker h) (fh_precision h) lines samples cs) /\
      d_color d = last (map transform_of (adobes (segs ++ post))) None /\ d_planes d = map line_of (map (map known) (d_planes d)) /\
      length (d_planes d) = length cs /\ Forall2 (plane_for lines samples cs) cs (map (map known) (d_planes d)) /\
      (forall k c, nth_error cs k = Some c -> exists q p, nth_error qs k = Some q /\ nth_error (map (map known) (d_planes d)) k = Some p /\ plane_from lines samples cs ms k c q p)
  | None => Forall clean_end (ds :: map snd more) -> exists e, decode_fresh dbg rayon file = Fail e
  end.
Proof.
  intros dbg rayon segs h fill1 fill2 ss ts qs ds more post fill3 HF Bds MO PO cs lines samples P1 P2 file B.
  pose proof (file_scan_exact dbg rayon segs h fill1 fill2 ss ts qs (scan_bytes ds more) post fill3 HF (scan_bytes_ro ds more MO) PO B) as FS. cbv zeta in FS. fold file cs lines samples in FS.
  destruct HF as [F Sf ND L4 Few CC]. destruct (sof_ok segs h F ltac:(rewrite Sf; left; reflexivity)) as [Fm HO]. fold cs lines samples in HO, ND, L4, Few.
  destruct PO as [Fp Sop]. set (tail := flat_map hseg_bytes post ++ marker_bytes fill3 0xD9) in *.
  assert (ST : stop_tail tail) by (apply header_stop; exact Fp).
  assert (MT : marker_tail tail).
  { destruct ST as [k [c [m [-> [C0 _]]]]]. exists (match k with O => c | S _ => 255 end), (match k with O => m | S n => FF n ++ c :: m end). destruct k; cbn; split; try reflexivity; lia. }
  assert (BT : bytes tail) by (unfold bytes in *; unfold file, file_bytes in B; rewrite !Forall_app in B; unfold tail; rewrite !Forall_app; tauto).
  assert (Key : forall dq sc d2 qts, scan_start dbg (frame_of (fh_marker h) (fh_precision h) lines samples cs) ts qts (last (dris segs) 0) dq sc d2 -> _) by
    (intros dq sc d2 qts SS; exact (scan_code dbg _ _ lines samples cs ts qts _ dq sc d2 ds more tail HO L4 Few Fm P1 P2 SS (dri_nonneg segs F) MT BT (stop_not_rst tail ST) Bds MO)).
  cbv zeta in Key. fold (frame_of (fh_marker h) (fh_precision h) lines samples cs) in Key.
  destruct (ref_scan cs ts (last (dris segs) 0) 0 (mcus lines (largest (map cs_v cs)) * mcus samples (largest (map cs_h cs))) ds more) as [ms|].
  - destruct FS as [[_ [dq [sc [d2 [qts [SS No]]]]]]|[d [b [j [dq [sc [d2 [qts [log [d3 [b3 [S7 [Eb [J5 [Fr5 [Co5 [Ep [Lp [PF [SS [MR PL]]]]]]]]]]]]]]]]]]]]].
    { exfalso. destruct (Key _ _ _ _ SS) as [_ [_ [log [d' [b' [MR _]]]]]]. exact (No _ _ _ MR). }
    destruct (Key _ _ _ _ SS) as [Sh [Lm [log' [d' [b' [MR' LG]]]]]]. destruct (reads_same _ _ _ _ _ _ _ MR _ _ _ MR') as [-> [-> ->]].
    exists d, b, j. do 8 (split; [assumption|]).
    exact (planes_from lines samples cs qs _ (d_planes d) ms HO LG Sh Lm PL PF).
  - intros CE. destruct FS as [[E _]|[d [b [j [dq [sc [d2 [qts [log [d3 [b3 [S7 [Eb [J5 [Fr5 [Co5 [Ep [Lp [PF [SS [MR PL]]]]]]]]]]]]]]]]]]]]]; [exact E|].
    exfalso. exact (Key _ _ _ _ SS CE _ _ _ MR).
Qed.

Lemma code_file : forall dbg rayon segs h fill1 fill2 ss ts qs ds more post fill3,
  header_for segs h ss ts qs -> bytes ds -> more_ok more -> post_ok post ->
  let cs := fh_comps h in let lines := fh_lines h in let samples := fh_samples h in 0 < lines -> 0 < samples ->
  let file := file_bytes segs fill1 fill2 (mkSpS ss 0 63 0 0) (scan_bytes ds more) post fill3 in bytes file ->
  match ref_scan cs ts (last (dris segs) 0) 0 (mcus lines (largest (map cs_v cs)) * mcus samples (largest (map cs_h cs))) ds more with
  | Some ms => exists ps, length ps = length cs /\
      (forall k c, nth_error cs k = Some c -> exists q p, nth_error qs k = Some q /\ nth_error ps k = Some p /\ plane_from lines samples cs ms k c q p) /\
      final_answer rayon lines samples cs ps (last_transform (segs ++ post)) (decode_fresh dbg rayon file)
  | None => Forall clean_end (ds :: map snd more) -> exists e, decode_fresh dbg rayon file = Fail e
  end.
Proof.
  intros dbg rayon segs h fill1 fill2 ss ts qs ds more post fill3 HF Bds MO PO cs lines samples P1 P2 file B.
  pose proof (code_scan dbg rayon segs h fill1 fill2 ss ts qs ds more post fill3 HF Bds MO PO P1 P2 B) as CS. cbv zeta in CS. fold file cs lines samples in CS.
  destruct (ref_scan cs ts (last (dris segs) 0) 0 (mcus lines (largest (map cs_v cs)) * mcus samples (largest (map cs_h cs))) ds more) as [ms|]; [|exact CS].
  destruct CS as [d [b [j [S7 [Eb [J5 [Fr5 [Co5 [Ep [Lp [PF PL]]]]]]]]]]].
  destruct HF as [F Sf ND L4 Few CC]. destruct (sof_ok segs h F ltac:(rewrite Sf; left; reflexivity)) as [Fm HO]. fold cs lines samples in HO, ND, L4, Few.
  destruct PO as [Fp Sop].
    exists (map (map known) (d_planes d)). split; [rewrite map_length; exact Lp|].
    split; [exact PL|].
    assert (TA : final_answer rayon lines samples cs (map (map known) (d_planes d)) (last_transform (segs ++ post)) (upsample_image dbg rayon d)).
    { apply (total_answer dbg rayon d (fh_marker h) (fh_precision h) lines samples cs _ (last_transform (segs ++ post))); auto.
      - unfold lenZ in L4. lia.
      - rewrite Co5. unfold last_transform, color_for. apply last_map_some.
      - apply transforms_small. apply Forall_app. split; [exact F|exact Fp]. }
    rewrite (decode_answers dbg rayon file d j fill3 b B S7 Eb J5); [exact TA|]. apply (answer_not_fuel _ _ _ _ _ _ _ TA).
Qed.

Lemma code_has : forall dbg rayon segs h fill1 fill2 ss ts qs ds more post fill3 ms,
  header_for segs h ss ts qs -> bytes ds -> more_ok more -> post_ok post ->
  let cs := fh_comps h in let lines := fh_lines h in let samples := fh_samples h in 0 < lines -> 0 < samples ->
  let file := file_bytes segs fill1 fill2 (mkSpS ss 0 63 0 0) (scan_bytes ds more) post fill3 in bytes file ->
  ref_scan cs ts (last (dris segs) 0) 0 (mcus lines (largest (map cs_v cs)) * mcus samples (largest (map cs_h cs))) ds more = Some ms ->
  has_planes dbg rayon segs post h qs ms fill3 file.
Proof.
  intros dbg rayon segs h fill1 fill2 ss ts qs ds more post fill3 ms HF Bds MO PO cs lines samples P1 P2 file B E.
  pose proof (code_scan dbg rayon segs h fill1 fill2 ss ts qs ds more post fill3 HF Bds MO PO P1 P2 B) as CS. cbv zeta in CS. fold file cs lines samples in CS. rewrite E in CS.
  destruct CS as [d [b [j [S7 [Eb [J5 [Fr5 [Co5 [Ep [Lp [PF PL]]]]]]]]]]].
  exists d, b, j, (map (map known) (d_planes d)). do 6 (split; [assumption|]). split; [rewrite map_length; exact Lp|exact PL].
Qed.

Lemma code_same : forall dbg rayon segs h fill1 fill2 ss ts ds more post fill3 segs' h' fill1' fill2' ss' ts' ds' more' post' fill3' qs ms,
  header_for segs h ss ts qs -> bytes ds -> more_ok more -> post_ok post -> header_for segs' h' ss' ts' qs -> bytes ds' -> more_ok more' -> post_ok post' ->
  fh_lines h' = fh_lines h -> fh_samples h' = fh_samples h -> 0 < fh_lines h -> 0 < fh_samples h ->
  map (fun c => (cs_h c, cs_v c)) (fh_comps h') = map (fun c => (cs_h c, cs_v c)) (fh_comps h) ->
  last_transform (segs' ++ post') = last_transform (segs ++ post) ->
  let N := mcus (fh_lines h) (largest (map cs_v (fh_comps h))) * mcus (fh_samples h) (largest (map cs_h (fh_comps h))) in
  ref_scan (fh_comps h) ts (last (dris segs) 0) 0 N ds more = Some ms -> ref_scan (fh_comps h') ts' (last (dris segs') 0) 0 N ds' more' = Some ms ->
  let file := file_bytes segs fill1 fill2 (mkSpS ss 0 63 0 0) (scan_bytes ds more) post fill3 in
  let file' := file_bytes segs' fill1' fill2' (mkSpS ss' 0 63 0 0) (scan_bytes ds' more') post' fill3' in
  bytes file -> bytes file' -> decode_fresh dbg rayon file' = decode_fresh dbg rayon file.
Proof.
  intros dbg rayon segs h fill1 fill2 ss ts ds more post fill3 segs' h' fill1' fill2' ss' ts' ds' more' post' fill3' qs ms HF B1 M1 PO HF' B2 M2 PO' El Es P1 P2 Ef Et N R R' file file' B B'.
  refine (planes_answer dbg rayon segs h post fill3 segs' h' post' fill3' qs ms file file' (hf_segs _ _ _ _ _ HF) (hf_frame _ _ _ _ _ HF) (hf_segs _ _ _ _ _ HF') _ _ PO PO' El Es Ef Et B B').
  - exact (code_has dbg rayon segs h fill1 fill2 ss ts qs ds more post fill3 ms HF B1 M1 PO P1 P2 B R).
  - refine (code_has dbg rayon segs' h' fill1' fill2' ss' ts' qs ds' more' post' fill3' ms HF' B2 M2 PO' _ _ B' _); [rewrite El; exact P1|rewrite Es; exact P2|].
    rewrite El, Es, (factors_h (fh_comps h')), (factors_v (fh_comps h')). unfold factors at 1 2. rewrite Ef. fold (factors (fh_comps h)). rewrite <- factors_h, <- factors_v. exact R'.
Qed.

Lemma block_code : forall dbg ts dct act sc ds tail run pred,
  built dbg ts dct act -> s_start sc = 0 -> 63 <= s_end sc -> s_low sc = 0 -> bytes ds -> marker_tail tail -> bytes tail -> 0 <= run ->
  match ref_block (ends_clean ds) ts run pred (bits_of ds) with
  | Some (q, run', rest) =>
      exists blk b', decode_block dbg sc dct act zero_block (biter_new (stuff ds ++ tail)) run pred = Ok (blk, b', run', q_dc q) /\
        q_values blk q /\ holds_at tail b' rest
  | None => clean_end ds -> exists e, decode_block dbg sc dct act zero_block (biter_new (stuff ds ++ tail)) run pred = Fail e
  end.
Proof.
  intros dbg ts dct act sc ds tail run pred Bu S0 S1 S2 B MT BT Hr.
  pose proof (block_ref dbg (ends_clean ds) tail MT BT ts dct act sc _ _ run pred Bu S0 S1 S2 Hr (start_stands ds tail B)) as R.
  destruct (ref_block (ends_clean ds) ts run pred (bits_of ds)) as [[[q run'] rest]|].
  - destruct R as [_ [blk [b' [E [V St]]]]]. exists blk, b'. split; [exact E|]. split; [exact V|]. specialize (St 0%nat ltac:(auto)). cbn [repeat] in St. rewrite app_nil_r in St. exact St.
  - intros C. apply R. apply clean_ends. exact C.
Qed.
