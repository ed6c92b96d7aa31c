(** Scans of progressive frames (C64). *)
From Verif Require Import Base Tactics SpecBits SpecMarker SpecHuffman SpecFrame SpecSegments SpecGlobal SpecStream SpecFile SpecLimits
  Biterator Marker MarkerP Types Parsers ParsersP2 Decode SegmentsP InvP GlobalP ExtP StreamP StreamP2 FileP CommentP CorruptP PanicP.

Lemma progressive_step : forall dbg rayon d fr s ks rest bits count, d_frame d = Some fr -> f_marker fr = 2 -> lenZ (f_components fr) <= 256 ->
  scan_ok s -> scan_in_frame fr s ks ->
  exists d', step dbg false rayon (PcSegment SOS) d (mkBiter (segment (sos_bytes s) ++ rest) bits count) = (d', mkBiter rest bits count, SStop (RPanic PUnimplemented)).
Proof.
  intros dbg rayon d fr s ks rest bits count Fr Mk L So Sf. cbn [step no_segment bi_input bi_bits bi_count]. rewrite segment_data_ok. unfold do_sos. rewrite Fr.
  pose proof (sos_segment_ok fr s ks [] L So Sf) as E. rewrite app_nil_r in E. rewrite E.
  unfold sos_begin. cbn [set_scan d_frame]. rewrite Fr. unfold coding_process. rewrite Mk. cbn. eauto.
Qed.

Theorem progressive_panics : forall dbg rayon d a fill1 precision lines samples cs tabs fill2 s ks rest,
  reachable dbg rayon d -> between_segments dbg rayon d a ->
  header_ok lines samples cs -> Forall (fun s => hseg_ok (snd s)) tabs -> sofs tabs = [] ->
  scan_ok s -> scan_in_frame (frame_of 2 precision lines samples cs) s ks ->
  let input := a ++ marker_bytes fill1 0xC2 ++ segment (sof_bytes precision lines samples cs) ++ flat_map hseg_bytes tabs ++
               marker_bytes fill2 0xDA ++ segment (sos_bytes s) ++ rest in
  bytes input -> snd (decode dbg rayon d input) = Panic PUnimplemented.
Proof.
  intros dbg rayon d a fill1 precision lines samples cs tabs fill2 s ks rest R [d1 [junk [bits [count [J F]]]]] HO FT ST So Sf input B.
  pose proof (from_ext (marker_bytes fill1 0xC2 ++ segment (sof_bytes precision lines samples cs) ++ flat_map hseg_bytes tabs ++
               marker_bytes fill2 0xDA ++ segment (sos_bytes s) ++ rest) _ _ _ _ _ _ F) as F1. unfold ext in F1. cbn [bi_input bi_bits bi_count biter_new] in F1.
  set (fr := frame_of 2 precision lines samples cs) in *. set (d2 := set_frame d1 (Some fr)).
  set (r2 := flat_map hseg_bytes tabs ++ marker_bytes fill2 0xDA ++ segment (sos_bytes s) ++ rest) in *.
  assert (F2 : from dbg false rayon (PcMarker, d, biter_new input) (PcMarker, d2, mkBiter r2 bits count)).
  { pose proof (sof_segment dbg false rayon 2 d1 precision lines samples cs [] r2 bits count HO) as E. rewrite app_nil_r in E.
    apply (from_next _ _ _ _ (PcSegment (SOF 2), d1, mkBiter (segment (sof_bytes precision lines samples cs) ++ r2) bits count)); [|exact E].
    eapply from_next; [exact F1|]. cbn [moves]. apply (marker_step dbg false rayon d1 junk fill1 0xC2 (SOF 2)); [exact J|apply (code_SOF 2); lia|discriminate]. }
  destruct (from_inv dbg rayon _ _ F2 _ _ _ _ _ _ eq_refl eq_refl (reachable_ok _ _ _ R) (good_start _ B) Logic.I) as [K [G P]].
  destruct (header_run dbg false rayon bits count tabs d2 [] (marker_bytes fill2 0xDA ++ segment (sos_bytes s) ++ rest) (ok_slots _ K) FT ltac:(constructor))
    as [d3 [junk3 [F3 [J3 [_ HS]]]]]. cbn [app] in F3.
  pose proof (from_trans _ _ _ _ _ _ F2 F3) as F4.
  assert (Fr : d_frame d3 = Some fr) by (rewrite (hs_frame _ _ _ _ HS), ST; reflexivity).
  destruct (from_inv dbg rayon _ _ F4 _ _ _ _ _ _ eq_refl eq_refl (reachable_ok _ _ _ R) (good_start _ B) Logic.I) as [K3 _].
  destruct (progressive_step dbg rayon d3 fr s ks rest bits count Fr eq_refl (frame_256 fr (ok_frame _ K3 fr Fr)) So Sf) as [d4 E4].
  assert (F5 : from dbg false rayon (PcMarker, d, biter_new input) (PcSegment SOS, d3, mkBiter (segment (sos_bytes s) ++ rest) bits count)).
  { eapply from_next; [exact F4|]. cbn [moves]. apply (marker_step dbg false rayon d3 junk3 fill2 0xDA SOS); [exact J3|constructor|discriminate]. }
  unfold decode. rewrite (call_from dbg rayon d input _ _ _ _ _ _ R B F5 E4). reflexivity.
Qed.
