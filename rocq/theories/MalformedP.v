(** Segments with malformed contents (C86). *)
From Coq Require Import Sorted.
From Verif Require Import Base Tactics SpecBits SpecReader SpecMarker SpecHuffman SpecBlock SpecTables SpecFrame SpecSegments SpecGlobal SpecStream SpecOutcome SpecFile SpecLimits SpecPanic SpecMalformed
  Biterator Marker MarkerP Huffman HuffmanP3 Color Types ParsersP ParsersP2 Parsers Decode SegmentsP InvP GlobalP ExtP StreamP StreamP2 FileP CommentP CorruptP PanicP.

Lemma at_marker : forall dbg rayon d a fill code m, reachable dbg rayon d -> bytes a -> between_segments dbg rayon d a -> code_of m code -> m <> EOI ->
  exists d' bits count, dec_ok d' /\ forall rest, from dbg false rayon (PcMarker, d, biter_new (a ++ marker_bytes fill code ++ rest)) (PcSegment m, d', mkBiter rest bits count).
Proof.
  intros dbg rayon d a fill code m R B [d' [junk [bits [count [J F]]]]] C N. exists d', bits, count. split.
  - exact (proj1 (from_inv dbg rayon _ _ F _ _ _ _ _ _ eq_refl eq_refl (reachable_ok _ _ _ R) (good_start _ B) Logic.I)).
  - intros rest. pose proof (from_ext (marker_bytes fill code ++ rest) _ _ _ _ _ _ F) as F1. unfold ext in F1. cbn [bi_input bi_bits bi_count biter_new] in F1.
    eapply from_next; [exact F1|]. cbn [moves]. exact (marker_step dbg false rayon d' junk fill code m rest bits count J C N).
Qed.

Lemma segment_marker : forall code, segment_code code -> exists m, code_of m code /\ m <> EOI /\ no_segment m = false /\
  ((exists n, m = SOF n /\ code = 0xC0 + n /\ 0 <= n <= 2) \/ (m = DHT /\ code = 0xC4) \/ (m = SOS /\ code = 0xDA) \/ (m = DQT /\ code = 0xDB) \/ (m = DRI /\ code = 0xDD) \/
   (exists n, m = APP n /\ code = 0xE0 + n /\ 0 <= n <= 15)).
Proof.
  intros code [H|[H|[H|[H|H]]]].
  - remember (code - 192) as n eqn:En. assert (code = 192 + n) by lia. subst code. exists (SOF n). split; [constructor; lia|split; [discriminate|split; [reflexivity|]]]. left. exists n. split; [reflexivity|split; lia].
  - subst. exists DHT. split; [constructor|split; [discriminate|split; [reflexivity|]]]. auto.
  - assert (E : code = 218 \/ code = 219) by lia. destruct E as [->| ->]; [exists SOS|exists DQT]; (split; [constructor|split; [discriminate|split; [reflexivity|]]]); auto 6.
  - subst. exists DRI. split; [constructor|split; [discriminate|split; [reflexivity|]]]. auto 8.
  - remember (code - 224) as n eqn:En. assert (code = 224 + n) by lia. subst code. exists (APP n). split; [constructor; lia|split; [discriminate|split; [reflexivity|]]]. do 5 right. exists n. split; [reflexivity|split; lia].
Qed.

Lemma transform_some : forall t, 0 <= t <= 2 -> exists c, transform_of t = Some c.
Proof. intros t H. assert (E : t = 0 \/ t = 1 \/ t = 2) by lia. destruct E as [->|[->| ->]]; eexists; reflexivity. Qed.
Lemma transform_range : forall t c, transform_of t = Some c -> 0 <= t <= 2.
Proof. unfold transform_of. intros t c H. destruct (t =? 0) eqn:E0; [lia|]. destruct (t =? 1) eqn:E1; [lia|]. destruct (t =? 2) eqn:E2; [lia|discriminate]. Qed.

(** ** Well-formed segments are passed *)
Lemma well_formed_passed : forall dbg rayon d a fill code payload, reachable dbg rayon d -> between_segments dbg rayon d a -> segment_code code -> code <> 0xDA ->
  bytes a -> well_formed code payload -> between_segments dbg rayon d (a ++ marker_bytes fill code ++ segment payload).
Proof.
  intros dbg rayon d a fill code payload R Bt C N B [W1 [W2 [_ [W4 [W5 W6]]]]]. destruct (segment_marker code C) as [m [Cm [Nm [Ns Hm]]]].
  destruct (at_marker dbg rayon d a fill code m R B Bt Cm Nm) as [d1 [bits [count [K F]]]]. specialize (F (segment payload)). pose proof (ok_slots _ K) as F4.
  assert (G : exists d2, step dbg false rayon (PcSegment m) d1 (mkBiter (segment payload ++ []) bits count) = (d2, mkBiter [] bits count, SNext PcMarker)).
  { destruct Hm as [[n [-> [E Hn]]]|[[-> E]|[[-> E]|[[-> E]|[[-> E]|[n [-> [E Hn]]]]]]]].
    - destruct (W1 ltac:(lia)) as [pr [lines [samples [cs [extra [Ho ->]]]]]]. eexists. apply sof_segment. exact Ho.
    - destruct (W2 E) as [ts [Fo ->]]. destruct (dht_segment dbg false rayon d1 ts [] bits count F4 Fo) as [dc [ac [S _]]]. eauto.
    - contradiction.
    - destruct (W4 E) as [ts [Fo ->]]. destruct (dqt_segment dbg false rayon d1 ts [] bits count F4 Fo) as [l [S _]]. eauto.
    - destruct (W5 E) as [n [extra [Hn ->]]]. eexists. apply dri_segment.
    - destruct (Z.eq_dec n 14) as [->|Nn]; [|eexists; apply app_segment; exact Nn]. destruct (W6 ltac:(lia)) as [v [fl [t [extra [Hv [Lf [Ht ->]]]]]]]. destruct (transform_some t Ht) as [c Ec].
      eexists. eapply adobe_segment; eauto. }
  destruct G as [d2 G]. rewrite app_nil_r in G. exists d2, [], bits, count. split; [constructor|]. eapply from_next; [exact F|exact G].
Qed.

(** ** Malformed segments stop the decoder *)
Definition answer_of (r : Decode.res) : out (list Z) := match r with RFail e => Fail e | RNeed _ => Fail EEof | RPanic p => Panic p | _ => UB end.
Lemma malformed_step : forall dbg rayon d m code payload bits count, dec_ok d -> bytes payload -> no_segment m = false ->
  ((exists n, m = SOF n /\ code = 0xC0 + n /\ 0 <= n <= 2) \/ (m = DHT /\ code = 0xC4) \/ (m = SOS /\ code = 0xDA) \/ (m = DQT /\ code = 0xDB) \/ (m = DRI /\ code = 0xDD) \/
   (exists n, m = APP n /\ code = 0xE0 + n /\ 0 <= n <= 15)) -> ~ well_formed code payload ->
  exists d' r, (forall rest, step dbg false rayon (PcSegment m) d (mkBiter (segment payload ++ rest) bits count) = (d', mkBiter rest bits count, SStop r)) /\
    match r with RFail _ | RNeed _ => True | RPanic _ => crashes dbg code payload | _ => False end.
Proof.
  intros dbg rayon d m code payload bits count K B Ns Hm W. destruct (segment_isolated dbg false rayon m d payload bits count Ns) as [d' [s E]]. pose proof (ok_slots _ K) as F4.
  assert (Rj : forall d2 r, rejected r -> step dbg false rayon (PcSegment m) d (mkBiter (segment payload ++ []) bits count) = (d2, mkBiter [] bits count, r) ->
    exists d' r, (forall rest, step dbg false rayon (PcSegment m) d (mkBiter (segment payload ++ rest) bits count) = (d', mkBiter rest bits count, SStop r)) /\
      match r with RFail _ | RNeed _ => True | RPanic _ => crashes dbg code payload | _ => False end).
  { intros d2 r Hr Er. rewrite E in Er. assert (s = r) by congruence. subst s. unfold rejected in Hr. destruct r as [p|[]]; try contradiction; (eexists d', _; split; [exact E|exact Logic.I]). }
  destruct Hm as [[n [-> [Ec Hn]]]|[[-> Ec]|[[-> Ec]|[[-> Ec]|[[-> Ec]|[n [-> [Ec Hn]]]]]]]].
  - assert (W' : ~ exists p lines samples cs extra, header_ok lines samples cs /\ payload = sof_bytes p lines samples cs ++ extra).
    { intros H. apply W. unfold well_formed. splits; intros Q; try lia. exact H. }
    destruct (Z.eq_dec (nth 5 payload 1) 0) as [Z5|Z5].
    + destruct payload as [|x0 [|x1 [|x2 [|x3 [|x4 [|x5 more]]]]]]; cbn [nth] in Z5; try discriminate. subst x5.
      exists d, (RPanic PUnwrap). split; [|left; split; [lia|reflexivity]]. intros rest. rewrite step_segment by reflexivity. unfold on_payload. cbn [seg_payload]. unfold sof. cbn [p_any p_u16 bind Z.to_nat p_count map max_unwrap]. reflexivity.
    + destruct (sof_segment_reject dbg false rayon n d payload [] bits count B Z5 W') as [r [S Rr]]. exact (Rj _ _ Rr S).
  - assert (S := E []). rewrite step_segment in S by reflexivity. unfold on_payload, seg_payload in S. destruct (seg_dht dbg (length payload) d payload) as [d1 r1] eqn:Es. destruct r1 as [u|e|q|].
    + exfalso. apply W. unfold well_formed. splits; intros Q; try lia. destruct u. exact (seg_dht_only _ _ _ _ _ B Es).
    + cbn [seg_end] in S. exists d'. destruct e; cbn [seg_end] in S; (eexists; split; [intros rest; rewrite E; assert (X := f_equal snd S); cbn [snd] in X; rewrite <- X; reflexivity|exact Logic.I]).
    + cbn [seg_end] in S. exists d', (RPanic q). split; [intros rest; rewrite E; assert (X := f_equal snd S); cbn [snd] in X; rewrite <- X; reflexivity|]. right. split; [exact Ec|]. exact (dht_panics _ _ _ _ _ _ B F4 (le_n _) Es).
    + exfalso. pose proof (dht_inv dbg (length payload) d payload K B (le_n _)) as Hd. rewrite Es in Hd. cbn in Hd. tauto.
  - destruct (d_frame d) as [fr|] eqn:Fr.
    + destruct (sos_segment_rejected dbg false rayon d fr payload [] bits count Fr (frame_256 fr (ok_frame _ K fr Fr)) B) as [r [S Rr]].
      { intros [sp [ks [extra [H1 [[H2 _] H3]]]]]. apply W. unfold well_formed. splits; intros Q; try lia. exists sp, extra. auto. }
      exact (Rj _ _ Rr S).
    + destruct (sos_no_frame dbg false rayon d payload [] bits count Fr B) as [d2 [r [S Rr]]]. exact (Rj _ _ Rr S).
  - assert (S := E []). destruct s as [p|r].
    + assert (p = PcMarker). { rewrite step_segment in S by reflexivity. unfold on_payload in S. destruct (seg_payload dbg DQT d payload) as [d1 [u|[]|q|]]; cbn [seg_end] in S; congruence. }
      subst p. exfalso. apply W. unfold well_formed. splits; intros Q; try lia. exact (dqt_segment_only _ _ _ _ _ _ _ _ _ _ F4 B S).
    + exists d', r. split; [exact E|]. rewrite step_segment in S by reflexivity. unfold on_payload, seg_payload in S.
      destruct (seg_dqt_any (length payload) d payload B (proj2 (proj2 F4)) (le_n _)) as [ts [r0 [l [_ [_ [_ [[_ Eq]|[_ [e [_ Eq]]]]]]]]]]; rewrite Eq in S; [discriminate|]. destruct e; cbn [seg_end] in S; (assert (X := f_equal snd S); cbn [snd] in X; inv X; exact Logic.I).
  - destruct payload as [|x0 [|x1 more]].
    + eexists d, _. split; [intros rest; rewrite step_segment by reflexivity; reflexivity|exact Logic.I].
    + eexists d, _. split; [intros rest; rewrite step_segment by reflexivity; reflexivity|exact Logic.I].
    + exfalso. apply W. unfold well_formed. splits; intros Q; try lia. inv B. inv H2. unfold is_byte in *. exists (256 * x0 + x1), more. split; [lia|]. unfold be16. cbn [app]. repeat f_equal.
      * symmetry. rewrite Z.mul_comm. rewrite Z.div_add_l by lia. rewrite Z.div_small by lia. lia.
      * symmetry. rewrite Z.mul_comm, Z.add_comm. rewrite Z.mod_add by lia. apply Z.mod_small. lia.
  - destruct (Z.eq_dec n 14) as [->|Nn]; [|exfalso; apply W; unfold well_formed; splits; intros Q; lia].
    destruct (adobe_only dbg false rayon d payload [] bits count B) as [[v [fl [t [c [extra [H1 [H2 [H3 H4]]]]]]]]|[r [S Rr]]]; [|exact (Rj _ _ Rr S)].
    exfalso. apply W. unfold well_formed. splits; intros Q; try lia. exists v, fl, t, extra. splits; auto; apply transform_range in H3; lia.
Qed.

Lemma malformed_stops : forall dbg rayon d a fill code payload, reachable dbg rayon d -> between_segments dbg rayon d a -> segment_code code -> bytes a -> bytes payload ->
  ~ well_formed code payload -> exists r, (forall b, bytes (a ++ marker_bytes fill code ++ segment payload ++ b) -> snd (decode dbg rayon d (a ++ marker_bytes fill code ++ segment payload ++ b)) = r) /\
    match r with Fail _ => True | Panic _ => crashes dbg code payload | _ => False end.
Proof.
  intros dbg rayon d a fill code payload R Bt C B Bp W. destruct (segment_marker code C) as [m [Cm [Nm [Ns Hm]]]].
  destruct (at_marker dbg rayon d a fill code m R B Bt Cm Nm) as [d1 [bits [count [K F]]]].
  destruct (malformed_step dbg rayon d1 m code payload bits count K Bp Ns Hm W) as [d2 [r [S Hr]]]. exists (answer_of r). split; [|destruct r; exact Hr].
  intros b Bb. unfold decode. rewrite (call_from dbg rayon d _ _ _ _ _ _ _ R Bb (F (segment payload ++ b)) (S b)). destruct r; try contradiction; reflexivity.
Qed.

Lemma malformed_error : forall dbg rayon d a fill code payload, reachable dbg rayon d -> between_segments dbg rayon d a -> segment_code code -> bytes a -> bytes payload ->
  ~ well_formed code payload -> ~ crashes dbg code payload ->
  exists e, forall b, bytes (a ++ marker_bytes fill code ++ segment payload ++ b) -> snd (decode dbg rayon d (a ++ marker_bytes fill code ++ segment payload ++ b)) = Fail e.
Proof.
  intros dbg rayon d a fill code payload R Bt C B Bp W N. destruct (malformed_stops dbg rayon d a fill code payload R Bt C B Bp W) as [r [H Hr]].
  destruct r as [img|e|p|]; try contradiction. exists e. exact H.
Qed.

Lemma malformed_crash : forall dbg rayon d a fill code payload b, reachable dbg rayon d -> between_segments dbg rayon d a -> segment_code code ->
  bytes (a ++ marker_bytes fill code ++ segment payload ++ b) -> crashes dbg code payload ->
  exists p, snd (decode dbg rayon d (a ++ marker_bytes fill code ++ segment payload ++ b)) = Panic p.
Proof.
  intros dbg rayon d a fill code payload b R Bt C B X. assert (B0 := B). unfold bytes in B0. rewrite !Forall_app in B0. destruct B0 as [Ba [_ [Bs _]]].
  destruct (segment_marker code C) as [m [Cm [Nm [Ns Hm]]]]. destruct (at_marker dbg rayon d a fill code m R Ba Bt Cm Nm) as [d1 [bits [count [K F]]]]. specialize (F (segment payload ++ b)).
  apply certain_panics; [exact R|exact B|].
  assert (Pl : SpecPanic.payload (segment payload ++ b) payload).
  { exists ((lenZ payload + 2) / 256), ((lenZ payload + 2) mod 256), b. split; [reflexivity|]. unfold segment, be16 in Bs. cbn [app] in Bs. inv Bs. unfold is_byte in H1.
    pose proof (Z.div_mod (lenZ payload + 2) 256 ltac:(lia)) as D. pose proof (Z.mod_pos_bound (lenZ payload + 2) 256 ltac:(lia)). pose proof (Nat2Z.is_nonneg (length payload)). unfold lenZ in *.
    rewrite Z.mod_small; lia. }
  destruct X as [[Hc Z5]|[Hc [ts [t [more [Ep [Ft [T1 [T2 [T3 T4]]]]]]]]]].
  - destruct Hm as [[n [-> [Ec Hn]]]|[[-> Ec]|[[-> Ec]|[[-> Ec]|[[-> Ec]|[n [-> [Ec Hn]]]]]]]]; try lia.
    destruct payload as [|x0 [|x1 [|x2 [|x3 [|x4 [|x5 more]]]]]]; cbn [nth] in Z5; try discriminate. subst x5.
    eapply cause_no_component; [exists bits, count; exact F|exact Pl].
  - destruct Hm as [[n [-> [Ec Hn]]]|[[-> Ec]|[[-> Ec]|[[-> Ec]|[[-> Ec]|[n [-> [Ec Hn]]]]]]]]; try lia.
    rewrite Ep in Pl at 2. eapply cause_huffman; [exists bits, count; exact F|exact Pl| | | | |]; eauto.
Qed.

(** ** Scan headers *)
Lemma sorted_nat : forall ks, Sorted Z.lt ks -> Forall (fun k => 0 <= k) ks -> Sorted lt (map Z.to_nat ks).
Proof.
  intros ks S F. induction S as [|k ks S IH H]; [constructor|]. inv F. cbn [map]. constructor; [auto|]. destruct H as [|k' ks H]; [constructor|]. inv H3. cbn [map]. constructor. lia.
Qed.
Lemma frame_ids : forall m pr lines samples cs, map c_id (f_components (frame_of m pr lines samples cs)) = map cs_id cs.
Proof. intros. unfold frame_of. cbn [f_components]. rewrite map_map. reflexivity. Qed.
Lemma in_frame_names : forall m pr lines samples cs s ks, scan_in_frame (frame_of m pr lines samples cs) s ks -> names cs s.
Proof.
  intros m pr lines samples cs s ks [N [F S]]. split; [exact N|]. unfold component_at in F. rewrite frame_ids in F. exists (map Z.to_nat ks). split.
  - apply sorted_nat; [exact S|]. clear - F. remember (map sc_id (sp_comps s)) as ids. clear Heqids. induction F as [|id k ids ks H F IH]; constructor; [apply H|exact IH].
  - clear - F. remember (sp_comps s) as l. clear Heql s. revert ks F. induction l as [|c l IH]; intros [|k ks] F; cbn [map] in *; inv F; constructor; auto. destruct H2 as [_ H2]. exact H2.
Qed.

Lemma at_sos : forall dbg rayon d fill1 segs fill2, reachable dbg rayon d -> Forall (fun s => hseg_ok (snd s)) segs -> bytes (marker_bytes fill1 0xD8 ++ flat_map hseg_bytes segs) ->
  exists d' bits count, dec_ok d' /\ header_state dbg d d' segs /\
    forall rest, from dbg false rayon (PcMarker, d, biter_new ((marker_bytes fill1 0xD8 ++ flat_map hseg_bytes segs) ++ marker_bytes fill2 0xDA ++ rest)) (PcSegment SOS, d', mkBiter rest bits count).
Proof.
  intros dbg rayon d fill1 segs fill2 R F B. pose proof (ok_slots _ (reachable_ok _ _ _ R)) as F4.
  destruct (header_run dbg false rayon 0 0 segs d [] [] F4 F ltac:(constructor)) as [d' [junk [S [J [_ HS]]]]]. rewrite !app_nil_r in S. cbn [app] in S.
  assert (Fr : from dbg false rayon (PcMarker, d, biter_new (marker_bytes fill1 0xD8 ++ flat_map hseg_bytes segs)) (PcMarker, d', mkBiter junk 0 0)).
  { eapply from_trans; [|exact S]. apply (from_next _ _ _ _ (PcSegment SOI, d, mkBiter (flat_map hseg_bytes segs) 0 0)); [|reflexivity]. eapply from_next; [apply from_here|]. cbn [moves biter_new].
    apply (marker_step dbg false rayon d [] fill1 0xD8 SOI); [constructor|constructor|discriminate]. }
  exists d', 0, 0. split; [|split; [exact HS|]].
  - exact (proj1 (from_inv dbg rayon _ _ Fr _ _ _ _ _ _ eq_refl eq_refl (reachable_ok _ _ _ R) (good_start _ B) Logic.I)).
  - intros rest. pose proof (from_ext (marker_bytes fill2 0xDA ++ rest) _ _ _ _ _ _ Fr) as F1. unfold ext in F1. cbn [bi_input bi_bits bi_count biter_new] in F1.
    eapply from_next; [exact F1|]. cbn [moves]. exact (marker_step dbg false rayon d' junk fill2 0xDA SOS rest 0 0 J ltac:(constructor) ltac:(discriminate)).
Qed.

Lemma sos_answer : forall dbg rayon d fill1 segs fill2 payload d1 bits count d2 r, reachable dbg rayon d ->
  (forall rest, from dbg false rayon (PcMarker, d, biter_new ((marker_bytes fill1 0xD8 ++ flat_map hseg_bytes segs) ++ marker_bytes fill2 0xDA ++ rest)) (PcSegment SOS, d1, mkBiter rest bits count)) ->
  step dbg false rayon (PcSegment SOS) d1 (mkBiter (segment payload ++ []) bits count) = (d2, mkBiter [] bits count, r) -> rejected r ->
  exists e, forall b, bytes (marker_bytes fill1 0xD8 ++ flat_map hseg_bytes segs ++ marker_bytes fill2 0xDA ++ segment payload ++ b) ->
    snd (decode dbg rayon d (marker_bytes fill1 0xD8 ++ flat_map hseg_bytes segs ++ marker_bytes fill2 0xDA ++ segment payload ++ b)) = Fail e.
Proof.
  intros dbg rayon d fill1 segs fill2 payload d1 bits count d2 r R F S Rr. destruct (segment_isolated dbg false rayon SOS d1 payload bits count eq_refl) as [d' [s E]].
  assert (s = r) by (rewrite E in S; congruence). subst s. destruct r as [p|r]; [contradiction|].
  exists (match answer_of r with Fail e => e | _ => EEof end). intros b Bb. rewrite (app_assoc (marker_bytes fill1 216)) in *. unfold decode.
  rewrite (call_from dbg rayon d _ _ _ _ _ _ _ R Bb (F (segment payload ++ b)) (E b)). destruct r; try contradiction; reflexivity.
Qed.

Lemma scan_header_error : forall dbg rayon d fill1 segs fill2 payload h, reachable dbg rayon d -> Forall (fun s => hseg_ok (snd s)) segs ->
  last (map Some (sofs segs)) None = Some h -> bytes payload ->
  ~ (exists s extra, scan_ok s /\ names (fh_comps h) s /\ payload = sos_bytes s ++ extra) ->
  exists e, forall b, bytes (marker_bytes fill1 0xD8 ++ flat_map hseg_bytes segs ++ marker_bytes fill2 0xDA ++ segment payload ++ b) ->
    snd (decode dbg rayon d (marker_bytes fill1 0xD8 ++ flat_map hseg_bytes segs ++ marker_bytes fill2 0xDA ++ segment payload ++ b)) = Fail e.
Proof.
  intros dbg rayon d fill1 segs fill2 payload h R F Lh Bp N.
  assert (X : bytes (marker_bytes fill1 0xD8 ++ flat_map hseg_bytes segs) \/ ~ bytes (marker_bytes fill1 0xD8 ++ flat_map hseg_bytes segs)).
  { unfold bytes. destruct (Forall_dec is_byte (fun x => ltac:(unfold is_byte; destruct (Z_le_dec 0 x), (Z_lt_dec x 256); [left|right|right|right]; lia)) (marker_bytes fill1 0xD8 ++ flat_map hseg_bytes segs)); auto. }
  destruct X as [B|B]; [|exists EEof; intros b Bb; exfalso; apply B; rewrite (app_assoc (marker_bytes fill1 216)) in Bb; unfold bytes in *; apply Forall_app in Bb; apply Bb].
  destruct (at_sos dbg rayon d fill1 segs fill2 R F B) as [d1 [bits [count [K [HS Fr]]]]].
  assert (Ef : d_frame d1 = Some (frame_of (fh_marker h) (fh_precision h) (fh_lines h) (fh_samples h) (fh_comps h))).
  { rewrite (hs_frame _ _ _ _ HS). clear - Lh. induction (sofs segs) as [|h0 l IH]; [discriminate|]. destruct l as [|h1 l]; [cbn in *; congruence|]. exact (IH Lh). }
  destruct (sos_segment_rejected dbg false rayon d1 _ payload [] bits count Ef (frame_256 _ (ok_frame _ K _ Ef)) Bp) as [r [S Rr]].
  { intros [s [ks [extra [H1 [H2 H3]]]]]. apply N. exists s, extra. split; [exact H1|]. split; [exact (in_frame_names _ _ _ _ _ _ _ H2)|exact H3]. }
  exact (sos_answer _ _ _ _ _ _ _ _ _ _ _ _ R Fr S Rr).
Qed.

Lemma scan_without_frame : forall dbg rayon fill1 segs fill2 payload, Forall (fun s => hseg_ok (snd s)) segs -> sofs segs = [] -> bytes payload ->
  exists e, forall b, bytes (marker_bytes fill1 0xD8 ++ flat_map hseg_bytes segs ++ marker_bytes fill2 0xDA ++ segment payload ++ b) ->
    decode_fresh dbg rayon (marker_bytes fill1 0xD8 ++ flat_map hseg_bytes segs ++ marker_bytes fill2 0xDA ++ segment payload ++ b) = Fail e.
Proof.
  intros dbg rayon fill1 segs fill2 payload F Ns Bp.
  assert (X : bytes (marker_bytes fill1 0xD8 ++ flat_map hseg_bytes segs) \/ ~ bytes (marker_bytes fill1 0xD8 ++ flat_map hseg_bytes segs)).
  { unfold bytes. destruct (Forall_dec is_byte (fun x => ltac:(unfold is_byte; destruct (Z_le_dec 0 x), (Z_lt_dec x 256); [left|right|right|right]; lia)) (marker_bytes fill1 0xD8 ++ flat_map hseg_bytes segs)); auto. }
  destruct X as [B|B]; [|exists EEof; intros b Bb; exfalso; apply B; rewrite (app_assoc (marker_bytes fill1 216)) in Bb; unfold bytes in *; apply Forall_app in Bb; apply Bb].
  destruct (at_sos dbg rayon decoder_default fill1 segs fill2 ltac:(constructor) F B) as [d1 [bits [count [K [HS Fr]]]]].
  assert (Ef : d_frame d1 = None) by (rewrite (hs_frame _ _ _ _ HS), Ns; reflexivity).
  destruct (sos_no_frame dbg false rayon d1 payload [] bits count Ef Bp) as [d2 [r [S Rr]]].
  exact (sos_answer _ _ _ _ _ _ _ _ _ _ _ _ ltac:(constructor) Fr S Rr).
Qed.
