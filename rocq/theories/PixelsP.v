(** The pixels of earlier images do not matter once a scan is read (C52). *)
From Verif Require Import Base Tactics SpecBits SpecReader SpecFrame SpecMarker SpecSegments SpecHeader SpecGlobal SpecStream SpecFile SpecPixels Biterator Huffman Marker Idct
  Types Parsers Decode HuffmanP3 SafeP InvP GlobalP FileP CorruptP HeaderP.

Definition over (d : decoder) (s : scan_state) (ps : list plane) : decoder := set_planes (set_ss d s) ps.
Lemma same_over : forall d d', same_settings d d' -> d' = over d (d_ss d') (d_planes d').
Proof. intros [] [] (A & B & C & D & E & F & G & H). cbn in *. subst. reflexivity. Qed.
Lemma over_same : forall d s ps, same_settings d (over d s ps).
Proof. intros [] s ps. repeat split. Qed.

Section Over.
Variables (s : scan_state) (ps : list plane).
Notation ov d := (over d s ps).
Definition ov2 {A} (x : decoder * out A) : decoder * out A := let '(d, r) := x in (ov d, r).

Lemma huff_over : forall dbg d c th ls vs, store_huffman dbg (ov d) c th ls vs =
  match store_huffman dbg d c th ls vs with Ok d' => Ok (ov d') | Fail e => Fail e | Panic p => Panic p | UB => UB end.
Proof.
  intros dbg [] c th ls vs. unfold store_huffman, over. cbn. destruct c.
  - destruct (table_new dbg ls vs); cbn; auto. destruct (store _ th _); reflexivity.
  - destruct (ac_new dbg ls vs); cbn; auto. destruct (store _ th _); reflexivity.
Qed.
Lemma dht_over : forall dbg fuel i d, seg_dht dbg fuel (ov d) i = ov2 (seg_dht dbg fuel d i).
Proof.
  intros dbg. induction fuel as [|n IH]; intros [|x i] d; cbn [seg_dht]; try reflexivity.
  destruct (huffman_table (x :: i)) as [[[[[c th] ls] vs] i']| | |]; try reflexivity.
  rewrite huff_over. destruct (store_huffman dbg d c th ls vs); try reflexivity. apply IH.
Qed.
Lemma quant_over : forall d tq t, store_quant (ov d) tq t =
  match store_quant d tq t with Ok d' => Ok (ov d') | Fail e => Fail e | Panic p => Panic p | UB => UB end.
Proof. intros d tq t. unfold store_quant. change (d_qt (ov d)) with (d_qt d). destruct (quantization_table_new t); cbn [bind]; auto. destruct (store _ tq _); reflexivity. Qed.
Lemma dqt_over : forall fuel i d, seg_dqt fuel (ov d) i = ov2 (seg_dqt fuel d i).
Proof.
  induction fuel as [|n IH]; intros [|x i] d; cbn [seg_dqt]; try reflexivity.
  destruct (dqt (x :: i)) as [[[tq t] i']| | |]; try reflexivity.
  rewrite quant_over. destruct (store_quant d tq t); try reflexivity. apply IH.
Qed.
Lemma payload_over : forall dbg m d data, seg_payload dbg m (ov d) data = ov2 (seg_payload dbg m d data).
Proof.
  intros dbg m d data. destruct m; cbn [seg_payload]; try reflexivity.
  - destruct (sof dbg n data) as [[f r]| | |]; reflexivity.
  - apply dht_over.
  - apply dqt_over.
  - destruct (p_u16 data) as [[f r]| | |]; reflexivity.
  - destruct (n =? 14); [|reflexivity]. destruct (app_adobe data) as [[f r]| | |]; reflexivity.
Qed.
Lemma begin_over : forall dbg d sc, sos_begin dbg (ov d) sc = ov2 (sos_begin dbg d sc).
Proof.
  intros dbg d sc. unfold sos_begin. change (d_frame (set_scan (ov d) (Some sc))) with (d_frame d). change (d_frame (set_scan d (Some sc))) with (d_frame d).
  change (d_finished (set_scan (ov d) (Some sc))) with (d_finished (set_scan d (Some sc))).
  destruct (d_frame d) as [f|]; [|reflexivity]. destruct (coding_process f) as [[]| | |]; try reflexivity;
    (destruct (if s_low sc =? 0 then _ else _); reflexivity).
Qed.
Lemma init_over : forall final d, scan_init final (ov d) =
  match scan_init final d with Ok d' => Ok (set_planes d' ps) | Fail e => Fail e | Panic p => Panic p | UB => UB end.
Proof.
  intros final [fr sc ac dc qt pl co re fi ss0]. unfold scan_init, over. cbn [set_planes set_ss d_frame d_scan d_dc d_ac d_restart].
  destruct fr as [f|]; [|reflexivity]. destruct sc as [sc|]; [|reflexivity].
  destruct (if s_start sc =? 0 then any_unset dc _ else _) as [[]| | |]; cbn [bind]; try reflexivity.
  destruct (if 1 <? s_end sc then any_unset ac _ else _) as [[]| | |]; cbn [bind]; try reflexivity.
  destruct final; [|reflexivity]. destruct (assert_ _ _); reflexivity.
Qed.
End Over.

(** The scan does not look at the planes. *)
Section Planes.
Variable ps : list plane.
Notation pl d := (set_planes d ps).
Lemma comps_planes : forall dbg d sc cs hs preds avail b eob, decode_comps dbg (pl d) sc cs hs preds avail b eob = decode_comps dbg d sc cs hs preds avail b eob.
Proof.
  intros dbg d sc. induction cs as [|c cs IH]; intros [|h hs] [|p preds] avail b eob; try reflexivity. cbn [decode_comps].
  change (d_dc (pl d)) with (d_dc d). change (d_ac (pl d)) with (d_ac d).
  destruct (index (d_dc d) (h_dc h)) as [[t|]| | |]; try reflexivity. cbn [bind].
  destruct (index (d_ac d) (h_ac h)) as [[a|]| | |]; try reflexivity. cbn [bind].
  destruct (decode_blocks _ _ _ _ _ _ _ _) as [[[[bl b1] e1] p1]| | |]; try reflexivity. cbn [bind]. rewrite IH. reflexivity.
Qed.
Lemma row_planes : forall dbg d b, decode_row dbg (pl d) b =
  match decode_row dbg d b with Ok (d', b') => Ok (pl d', b') | Fail e => Fail e | Panic p => Panic p | UB => UB end.
Proof.
  intros dbg d b. unfold decode_row. change (d_scan (pl d)) with (d_scan d). change (d_frame (pl d)) with (d_frame d). change (d_ss (pl d)) with (d_ss d).
  destruct (d_scan d) as [sc|]; [|reflexivity]. destruct (d_frame d) as [fr|]; [|reflexivity]. rewrite comps_planes.
  destruct (decode_comps _ _ _ _ _ _ _ _ _) as [[[[bl b1] e1] p1]| | |]; reflexivity.
Qed.
Lemma check_planes : forall dbg x y d, restart_check dbg x y (pl d) =
  match restart_check dbg x y d with Ok (n, d') => Ok (n, pl d') | Fail e => Fail e | Panic p => Panic p | UB => UB end.
Proof.
  intros dbg x y d. unfold restart_check. change (d_restart (pl d)) with (d_restart d). change (d_frame (pl d)) with (d_frame d). change (d_ss (pl d)) with (d_ss d).
  destruct (0 <? d_restart d); [|reflexivity]. destruct (d_frame d) as [fr|]; [|reflexivity].
  destruct (usub dbg 16 (dim_w (f_mcu fr)) 1) as [z| | |]; try reflexivity. cbn [bind].
  destruct (if x =? z then _ else _); try reflexivity. cbn [bind].
  destruct (usub dbg 16 (ss_left (d_ss d)) 1); reflexivity.
Qed.
Lemma restart_planes : forall d b, restart_marker (pl d) b =
  match restart_marker d b with Ok (d', b') => Ok (pl d', b') | Fail e => Fail e | Panic p => Panic p | UB => UB end.
Proof.
  intros d b. unfold restart_marker. destruct (parse_marker (bi_input b)) as [[m r]| | |]; try reflexivity. cbn [bind].
  unfold handle_restart. change (d_ss (pl d)) with (d_ss d). destruct m; try reflexivity. destruct (_ =? _); reflexivity.
Qed.
Lemma deq_planes : forall dbg x y d, dequantize dbg x y (pl d) =
  match dequantize dbg x y d with Ok d' => Ok (pl d') | Fail e => Fail e | Panic p => Panic p | UB => UB end.
Proof.
  intros dbg x y d. unfold dequantize. change (d_frame (pl d)) with (d_frame d). change (d_ss (pl d)) with (d_ss d). change (d_qt (pl d)) with (d_qt d).
  destruct (d_frame d) as [fr|]; [|reflexivity]. destruct (coding_process fr) as [[]| | |]; cbn [bind]; try reflexivity;
    destruct (dequantize_comps _ _ _ _ _ _ _); reflexivity.
Qed.
Lemma loop_planes : forall dbg rerun final todo ph d b, scan_loop dbg rerun final todo ph (pl d) b =
  let '(d1, b1, r) := scan_loop dbg rerun final todo ph d b in (pl d1, b1, r).
Proof.
  intros dbg rerun final. induction todo as [|[y x] rest IH]; intros ph d b; [reflexivity|]. cbn [scan_loop].
  replace (match ph with PhRow => decode_row dbg (pl d) b | PhRestart => Ok (pl d, b) end) with
    (match (match ph with PhRow => decode_row dbg d b | PhRestart => Ok (d, b) end) with Ok (d', b') => Ok (pl d', b') | Fail e => Fail e | Panic p => Panic p | UB => UB end)
    by (destruct ph; [symmetry; apply row_planes|reflexivity]).
  destruct (match ph with PhRow => decode_row dbg d b | PhRestart => Ok (d, b) end) as [[d1 b1]|[]| |]; try reflexivity.
  set (check := match ph with PhRow => true | PhRestart => rerun end).
  replace (if check then restart_check dbg x y (pl d1) else Ok (true, pl d1)) with
    (match (if check then restart_check dbg x y d1 else Ok (true, d1)) with Ok (n, d') => Ok (n, pl d') | Fail e => Fail e | Panic p => Panic p | UB => UB end)
    by (destruct check; [symmetry; apply check_planes|reflexivity]).
  destruct (if check then restart_check dbg x y d1 else Ok (true, d1)) as [[need d2]| | |]; try reflexivity.
  replace (if need then restart_marker (pl d2) b1 else Ok (pl d2, b1)) with
    (match (if need then restart_marker d2 b1 else Ok (d2, b1)) with Ok (d', b') => Ok (pl d', b') | Fail e => Fail e | Panic p => Panic p | UB => UB end)
    by (destruct need; [symmetry; apply restart_planes|reflexivity]).
  destruct (if need then restart_marker d2 b1 else Ok (d2, b1)) as [[d3 b3]|[]| |]; try reflexivity.
  replace (if final then dequantize dbg x y (pl d3) else Ok (pl d3)) with
    (match (if final then dequantize dbg x y d3 else Ok d3) with Ok d' => Ok (pl d') | Fail e => Fail e | Panic p => Panic p | UB => UB end)
    by (destruct final; [symmetry; apply deq_planes|reflexivity]).
  destruct (if final then dequantize dbg x y d3 else Ok d3) as [d4| | |]; try reflexivity. apply IH.
Qed.
End Planes.

(** From the scan on. *)
Definition stop_of (x : decoder * biter * res) : biter * res := let '(_, b, r) := x in (b, r).
Lemma scan_planes : forall dbg rerun rayon final todo ph d ps b fuel,
  stop_of (run dbg rerun rayon fuel (PcScan final todo ph) (set_planes d ps) b) = stop_of (run dbg rerun rayon fuel (PcScan final todo ph) d b).
Proof.
  intros dbg rerun rayon final todo ph d ps b [|n]; [reflexivity|]. cbn [run step]. rewrite loop_planes.
  destruct (scan_loop dbg rerun final todo ph d b) as [[d1 b1] r]. destruct r; try reflexivity.
  unfold scan_finish. change (d_scan (set_planes d1 ps)) with (d_scan d1). change (d_ss (set_planes d1 ps)) with (d_ss d1).
  destruct (d_scan d1) as [sc|]; [|reflexivity]. destruct (take_planes (ss_results (d_ss d1)) (s_headers sc)) as [[p' r']| | |]; reflexivity.
Qed.
Lemma sos_over : forall dbg rerun rayon d s ps b fuel,
  stop_of (run dbg rerun rayon fuel (PcSegment SOS) (over d s ps) b) = stop_of (run dbg rerun rayon fuel (PcSegment SOS) d b).
Proof.
  intros dbg rerun rayon d s ps b [|n]; [reflexivity|]. cbn [run step no_segment].
  destruct (segment_data dbg (bi_input b)) as [[data rest]|[]| |]; try reflexivity. unfold do_sos. change (d_frame (over d s ps)) with (d_frame d).
  destruct (sos_segment (d_frame d) data) as [[sc r]|[]| |]; try reflexivity. rewrite begin_over.
  destruct (sos_begin dbg d sc) as [d1 [final| | |]]; cbn [ov2]; try reflexivity. rewrite init_over.
  destruct (scan_init final d1) as [d2| | |]; try reflexivity. change (d_frame (set_planes d2 ps)) with (d_frame d2). apply scan_planes.
Qed.

(** Before the scan. *)
Definition is_scan (p : pc) : bool := match p with PcScan _ _ _ => true | PcSegment SOS => true | _ => false end.
Lemma step_over : forall dbg rerun rayon p d s ps b d1 b1 p1, is_scan p = false -> step dbg rerun rayon p d b = (d1, b1, SNext p1) ->
  step dbg rerun rayon p (over d s ps) b = (over d1 s ps, b1, SNext p1).
Proof.
  intros dbg rerun rayon p d s ps b d1 b1 p1 N E. destruct p as [|m|]; [| |discriminate].
  - cbn [step] in *. destruct (parse_marker (bi_input b)) as [[m rest]|[]| |]; try discriminate.
    destruct m; try (inv E; reflexivity). destruct (upsample_image dbg rayon d); discriminate.
  - cbn [step] in *. destruct (no_segment m); [inv E; reflexivity|].
    destruct (segment_data dbg (bi_input b)) as [[data rest]|[]| |]; try discriminate.
    destruct m; try discriminate; rewrite payload_over; destruct (seg_payload dbg _ d data) as [d' [u|[]| |]]; cbn [ov2 seg_end] in *; inv E; reflexivity.
Qed.

(** A run of header segments for both decoders. *)
Lemma hseg_over : forall dbg rayon bits count segs d s0 ps junk rest, four_slots d -> Forall (fun s => hseg_ok (snd s)) segs -> no_marker junk ->
  exists d', from dbg false rayon (PcMarker, d, mkBiter (junk ++ flat_map hseg_bytes segs ++ rest) bits count) (PcMarker, d', mkBiter (left_overs segs junk ++ rest) bits count) /\
    from dbg false rayon (PcMarker, over d s0 ps, mkBiter (junk ++ flat_map hseg_bytes segs ++ rest) bits count) (PcMarker, over d' s0 ps, mkBiter (left_overs segs junk ++ rest) bits count) /\
    no_marker (left_overs segs junk).
Proof.
  intros dbg rayon bits count. induction segs as [|g segs IH]; intros d s0 ps junk rest F4 F J.
  - exists d. splits; [apply from_here|apply from_here|exact J].
  - inv F. destruct (hseg_moves dbg false rayon bits count d junk g (flat_map hseg_bytes segs ++ rest) F4 H1 J) as [d1 [m [b1 [M1 [M2 [J1 [F1 _]]]]]]].
    destruct (IH d1 s0 ps (left_over g) rest F1 H2 J1) as [d2 [E2 [E3 J2]]]. exists d2.
    assert (Nm : is_scan (PcSegment m) = false).
    { destruct m; try reflexivity. exfalso. clear M1. cbn [moves step no_segment] in M2.
      destruct (segment_data dbg (bi_input b1)) as [[data r]|[]| |]; try discriminate. unfold do_sos in M2.
      destruct (sos_segment (d_frame d) data) as [[sc r']|[]| |]; try discriminate. destruct (sos_begin dbg d sc) as [d3 [fin| | |]]; try discriminate.
      destruct (scan_init fin d3); discriminate. }
    cbn [flat_map]. rewrite <- app_assoc. splits; [| |exact J2].
    + eapply from_trans; [|exact E2]. eapply from_next; [eapply from_next; [apply from_here|exact M1]|exact M2].
    + eapply from_trans; [|exact E3]. apply (from_next _ _ _ _ (PcSegment m, over d s0 ps, b1)); [eapply from_next; [apply from_here|]|]; cbn [moves] in *.
      * apply step_over; [reflexivity|exact M1].
      * apply step_over; [exact Nm|exact M2].
Qed.

Lemma own_pixels : forall dbg rayon d d' fill1 segs fill2 rest, reachable dbg rayon d -> reachable dbg rayon d' -> same_settings d d' ->
  Forall (fun s => hseg_ok (snd s)) segs ->
  let input := marker_bytes fill1 0xD8 ++ flat_map hseg_bytes segs ++ marker_bytes fill2 0xDA ++ rest in bytes input ->
  snd (decode dbg rayon d input) = snd (decode dbg rayon d' input).
Proof.
  intros dbg rayon d d' fill1 segs fill2 rest R R' SS F input B. rewrite (same_over d d' SS) in R' |- *. set (s := d_ss d') in *. set (ps := d_planes d') in *. clearbody s ps. clear SS.
  pose proof (ok_slots _ (reachable_ok _ _ _ R)) as F4.
  destruct (hseg_over dbg rayon 0 0 segs d s ps [] (marker_bytes fill2 0xDA ++ rest) F4 F ltac:(constructor)) as [d1 [E1 [E2 J]]]. cbn [app] in E1, E2.
  assert (G : forall e e1, from dbg false rayon (PcMarker, e, mkBiter (flat_map hseg_bytes segs ++ marker_bytes fill2 0xDA ++ rest) 0 0) (PcMarker, e1, mkBiter (left_overs segs [] ++ marker_bytes fill2 0xDA ++ rest) 0 0) ->
     from dbg false rayon (PcMarker, e, biter_new input) (PcSegment SOS, e1, mkBiter rest 0 0)).
  { intros e e1 H. eapply from_trans; [|eapply from_next; [exact H|]].
    - apply (from_next _ _ _ _ (PcSegment SOI, e, mkBiter (flat_map hseg_bytes segs ++ marker_bytes fill2 0xDA ++ rest) 0 0)); [|reflexivity]. eapply from_next; [apply from_here|]. cbn [moves biter_new].
      apply (marker_step dbg false rayon e [] fill1 0xD8 SOI); [constructor|constructor|discriminate].
    - cbn [moves]. apply (marker_step dbg false rayon e1 (left_overs segs []) fill2 0xDA SOS); [exact J|constructor|discriminate]. }
  pose proof (G _ _ E1) as X1. pose proof (G _ _ E2) as X2. clear G E1 E2.
  destruct (run_from dbg rayon d input _ _ _ R B X1) as [n1 Q1]. destruct (run_from dbg rayon (over d s ps) input _ _ _ R' B X2) as [n2 Q2].
  assert (NF : forall e, reachable dbg rayon e -> snd (run dbg false rayon (run_fuel (biter_new input)) PcMarker e (biter_new input)) <> RPanic PFuel).
  { intros e Re. pose proof (run_inv dbg false rayon (run_fuel (biter_new input)) PcMarker e (biter_new input) (reachable_ok _ _ _ Re) (good_start _ B) Logic.I (run_fuel_enough _ _)) as RI.
    destruct (run dbg false rayon (run_fuel (biter_new input)) PcMarker e (biter_new input)) as [[d2 b2] r]. cbn [snd]. intros ->. apply RI. }
  pose proof (NF _ R) as N1. pose proof (NF _ R') as N2. rewrite Q1 in N1. rewrite Q2 in N2.
  rewrite <- (run_more _ _ _ _ _ _ _ N1 (Nat.max n1 n2)) in Q1 by lia. rewrite <- (run_more _ _ _ _ _ _ _ N2 (Nat.max n1 n2)) in Q2 by lia.
  pose proof (sos_over dbg false rayon d1 s ps (mkBiter rest 0 0) (Nat.max n1 n2)) as E.
  unfold decode. fold input. rewrite Q1, Q2.
  destruct (run dbg false rayon (Nat.max n1 n2) (PcSegment SOS) d1 (mkBiter rest 0 0)) as [[da ba] ra].
  destruct (run dbg false rayon (Nat.max n1 n2) (PcSegment SOS) (over d1 s ps) (mkBiter rest 0 0)) as [[db bb] rb].
  cbn [stop_of] in E. inv E. reflexivity.
Qed.
