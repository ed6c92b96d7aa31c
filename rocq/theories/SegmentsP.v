(** Segments as steps of the decoder. *)
From Coq Require Import Sorted.
From Verif Require Import Base Tactics SpecBits SpecFrame SpecBlock SpecHuffman SpecSegments Huffman HuffmanP HuffmanP2 HuffmanP3
  Marker Color Types Biterator Parsers Decode SpecOutcome BlockP ParsersP ParsersP2.

Lemma usub_ok : forall dbg bits a b, b <= a -> usub dbg bits a b = Ok (a - b).
Proof. intros. unfold usub. replace (a <? b) with false by lia. reflexivity. Qed.

Lemma segment_data_ok : forall dbg payload rest, segment_data dbg (segment payload ++ rest) = Ok (payload, rest).
Proof.
  intros. unfold segment_data, segment. rewrite <- app_assoc, p_u16_be16. cbn [bind].
  pose proof (lenZ_nonneg _ payload). rewrite usub_ok by lia. cbn [bind].
  replace (lenZ payload + 2 - 2) with (lenZ payload) by lia. apply p_take_app.
Qed.

(** The step on a complete segment. *)
Definition on_payload (dbg : bool) (m : marker) (d : decoder) (b : biter) (payload : list Z) : decoder * biter * step_res :=
  match m with
  | SOS => do_sos dbg d b payload
  | _ => let '(d', r) := seg_payload dbg m d payload in seg_end m d' b r
  end.

Lemma step_segment : forall dbg rerun rayon m d payload rest bits count, no_segment m = false ->
  step dbg rerun rayon (PcSegment m) d (mkBiter (segment payload ++ rest) bits count) =
    on_payload dbg m d (mkBiter rest bits count) payload.
Proof. intros. unfold step. rewrite H. cbn [bi_input bi_bits bi_count]. rewrite segment_data_ok. reflexivity. Qed.

Lemma do_sos_frame : forall dbg d payload, exists d' r, forall b, do_sos dbg d b payload = (d', b, r).
Proof.
  intros dbg d payload. unfold do_sos.
  destruct (sos_segment (d_frame d) payload) as [[sc i]|[]|p|]; try (eexists _, _; reflexivity).
  destruct (sos_begin dbg d sc) as [d1 [final|e|p|]]; try (eexists _, _; reflexivity).
  destruct (scan_init final d1) as [d2|e|p|]; eexists _, _; reflexivity.
Qed.

Lemma seg_end_frame : forall m d r, exists r', forall b, seg_end m d b r = (d, b, r').
Proof. intros m d [a|[]|p|]; eexists; reflexivity. Qed.

Lemma segment_isolated : forall dbg rerun rayon m d payload bits count, no_segment m = false ->
  exists d' r, forall rest,
    step dbg rerun rayon (PcSegment m) d (mkBiter (segment payload ++ rest) bits count) = (d', mkBiter rest bits count, r).
Proof.
  intros dbg rerun rayon m d payload bits count H.
  assert (E : exists d' r, forall b, on_payload dbg m d b payload = (d', b, r)).
  { unfold on_payload. destruct m; try apply do_sos_frame; destruct (seg_payload _ _ _ _) as [d1 r1];
    (match goal with |- context [seg_end ?m _ _ _] => destruct (seg_end_frame m d1 r1) as [r' E'] end); exists d1, r'; exact E'. }
  destruct E as [d' [r E]]. exists d', r. intros rest. rewrite step_segment by auto. apply E.
Qed.

Lemma segment_incomplete : forall dbg rerun rayon m d n data bits count, no_segment m = false -> 2 <= n < 65536 ->
  lenZ data < n - 2 ->
  let b := mkBiter (be16 n ++ data) bits count in
  step dbg rerun rayon (PcSegment m) d b = (d, b, SStop (RNeed (PcSegment m))).
Proof.
  intros dbg rerun rayon m d n data bits count H Hn L b. unfold step. rewrite H. subst b. cbn [bi_input]. unfold segment_data.
  rewrite p_u16_be16. cbn [bind]. rewrite usub_ok by lia. cbn [bind]. unfold p_take. replace (n - 2 <=? lenZ data) with false by lia.
  reflexivity.
Qed.

(** ** DQT *)
Lemma dqt_segment : forall dbg rerun rayon d ts rest bits count, four_slots d -> Forall dqt_ok ts ->
  exists l, step dbg rerun rayon (PcSegment DQT) d (mkBiter (segment (flat_map dqt_bytes ts) ++ rest) bits count) =
      (set_qt d l, mkBiter rest bits count, SNext PcMarker) /\ quant_slots (d_qt d) l ts.
Proof.
  intros dbg rerun rayon d ts rest bits count [_ [_ L]] F. rewrite step_segment by reflexivity.
  destruct (seg_dqt_ok ts (length (flat_map dqt_bytes ts)) d L F (le_n _)) as [l [E S]].
  exists l. unfold on_payload, seg_payload. rewrite E. auto.
Qed.

Lemma dqt_segment_only : forall dbg rerun rayon d payload rest bits count d' b', four_slots d -> bytes payload ->
  step dbg rerun rayon (PcSegment DQT) d (mkBiter (segment payload ++ rest) bits count) = (d', b', SNext PcMarker) ->
  exists ts, Forall dqt_ok ts /\ payload = flat_map dqt_bytes ts.
Proof.
  intros dbg rerun rayon d payload rest bits count d' b' [_ [_ L]] B H. rewrite step_segment in H by reflexivity.
  unfold on_payload, seg_payload in H.
  destruct (seg_dqt_any (length payload) d payload B L (le_n _)) as [ts [r [l [Ep [F [S [[-> E]|[N [e [Ed E]]]]]]]]]]; rewrite E in H.
  - rewrite app_nil_r in Ep. eauto.
  - destruct e; discriminate.
Qed.

Lemma dqt_segment_bad : forall dbg rerun rayon d ts pq tq r rest bits count, four_slots d -> Forall dqt_ok ts ->
  nibble pq -> nibble tq -> 1 < pq \/ 3 < tq ->
  exists l e, step dbg rerun rayon (PcSegment DQT) d
      (mkBiter (segment (flat_map dqt_bytes ts ++ nibbles pq tq :: r) ++ rest) bits count) =
      (set_qt d l, mkBiter rest bits count, SStop (RFail e)).
Proof.
  intros dbg rerun rayon d ts pq tq r rest bits count [_ [_ L]] F P T H. rewrite step_segment by reflexivity.
  unfold on_payload, seg_payload. set (payload := flat_map dqt_bytes ts ++ _).
  assert (G : forall fuel d0, (length payload <= fuel)%nat -> length (d_qt d0) = 4%nat ->
    exists l e, seg_dqt fuel d0 payload = (set_qt d0 l, Fail e) /\ (e = EDqtPrecision \/ e = EDqtDest)).
  { subst payload. clear L d. induction ts as [|t ts IH]; intros fuel d Hf L; cbn [flat_map] in *.
    - destruct fuel as [|fuel]; [cbn in Hf; lia|]. rewrite seg_dqt_unfold by (cbn; discriminate). cbn [app].
      exists (d_qt d). destruct (dqt_reject pq tq r P T H) as [-> | ->]; eexists; (split; [destruct d; reflexivity|auto]).
    - inv F. destruct fuel as [|fuel]; [cbn in Hf; lia|]. rewrite seg_dqt_unfold by (cbn; discriminate).
      rewrite <- app_assoc, dqt_parse by auto. destruct (store_quant_ok d t L H2) as [q [E N]]. rewrite E.
      rewrite <- app_assoc, app_length in Hf. cbn [dqt_bytes length] in Hf.
      destruct (IH H3 fuel (set_qt d (upd (d_qt d) (Z.to_nat (tq_dest t)) (Some q)))) as [l [e [E2 He]]].
      { lia. } { cbn. rewrite upd_length. auto. }
      exists l, e. rewrite E2, set_qt_twice. auto. }
  destruct (G (length payload) d (le_n _) L) as [l [e [E [-> | ->]]]]; rewrite E; eexists _, _; reflexivity.
Qed.

(** ** DHT *)
Lemma dht_segment : forall dbg rerun rayon d ts rest bits count, four_slots d -> Forall dht_ok ts ->
  exists dc ac, step dbg rerun rayon (PcSegment DHT) d (mkBiter (segment (flat_map dht_bytes ts) ++ rest) bits count) =
      (tables_set d dc ac, mkBiter rest bits count, SNext PcMarker) /\
    dc_slots dbg (d_dc d) dc ts /\ ac_slots dbg (d_ac d) ac ts.
Proof.
  intros dbg rerun rayon d ts rest bits count [L1 [L2 _]] F. rewrite step_segment by reflexivity.
  destruct (seg_dht_ok dbg ts (length (flat_map dht_bytes ts)) d L1 L2 F (le_n _)) as [dc [ac [E [S1 S2]]]].
  exists dc, ac. unfold on_payload, seg_payload. rewrite E. auto.
Qed.

Lemma seg_dht_only : forall dbg fuel d i d', bytes i -> seg_dht dbg fuel d i = (d', Ok tt) ->
  exists ts, Forall dht_ok ts /\ i = flat_map dht_bytes ts.
Proof.
  intros dbg. induction fuel as [|fuel IH]; intros d i d' B H.
  - destruct i; [exists []; auto|discriminate].
  - destruct i as [|x i]; [exists []; auto|]. rewrite seg_dht_unfold in H by discriminate.
    destruct (huffman_table (x :: i)) as [[[[[c th] ls] vs] i']|e|p|] eqn:E; try discriminate.
    destruct (huffman_table_inv _ _ _ _ _ _ B E) as [Ei [T [C [V L]]]].
    destruct (store_huffman dbg d c th ls vs) as [d1|e|p|] eqn:Es; try discriminate.
    rewrite Ei in B. apply Forall_app in B. destruct B as [_ B].
    destruct (IH d1 i' d' B H) as [ts [F ->]]. exists (mkDht c th ls vs :: ts). split; [|rewrite Ei; reflexivity].
    constructor; auto. unfold dht_ok. cbn [th_class th_dest th_counts th_values].
    assert (A : exists t, table_new dbg ls vs = Ok t).
    { unfold store_huffman in Es. destruct c.
      - destruct (table_new dbg ls vs); eauto; discriminate.
      - unfold ac_new in Es. destruct (table_new dbg ls vs); eauto; discriminate. }
    apply accept_iff in A; auto.
Qed.

Lemma dht_segment_only : forall dbg rerun rayon d payload rest bits count d' b', bytes payload ->
  step dbg rerun rayon (PcSegment DHT) d (mkBiter (segment payload ++ rest) bits count) = (d', b', SNext PcMarker) ->
  exists ts, Forall dht_ok ts /\ payload = flat_map dht_bytes ts.
Proof.
  intros dbg rerun rayon d payload rest bits count d' b' B H. rewrite step_segment in H by reflexivity.
  unfold on_payload, seg_payload in H. destruct (seg_dht dbg (length payload) d payload) as [d1 [[]|[]|p|]] eqn:E; try discriminate.
  eapply seg_dht_only; eauto.
Qed.

(** ** SOF *)
Lemma sof_segment : forall dbg rerun rayon m d p lines samples cs extra rest bits count, header_ok lines samples cs ->
  step dbg rerun rayon (PcSegment (SOF m)) d (mkBiter (segment (sof_bytes p lines samples cs ++ extra) ++ rest) bits count) =
    (set_frame d (Some (frame_of m p lines samples cs)), mkBiter rest bits count, SNext PcMarker).
Proof.
  intros dbg rerun rayon m d p lines samples cs extra rest bits count [H1 H2 H3 H4 H5 H6]. rewrite step_segment by reflexivity.
  unfold on_payload, seg_payload. rewrite sof_ok by auto. reflexivity.
Qed.

Lemma sof_segment_only : forall dbg rerun rayon m d payload rest bits count d' b', bytes payload ->
  step dbg rerun rayon (PcSegment (SOF m)) d (mkBiter (segment payload ++ rest) bits count) = (d', b', SNext PcMarker) ->
  exists p lines samples cs extra, header_ok lines samples cs /\ payload = sof_bytes p lines samples cs ++ extra.
Proof.
  intros dbg rerun rayon m d payload rest bits count d' b' B H. rewrite step_segment in H by reflexivity.
  unfold on_payload, seg_payload in H. destruct (sof dbg m payload) as [[fr i]|[]|p|] eqn:E; try discriminate.
  destruct (sof_inv _ _ _ _ _ B E) as [p [lines [samples [cs [-> [Bp [H1 [H2 [H3 [H4 [H5 [H6 _]]]]]]]]]]]].
  exists p, lines, samples, cs, i. split; auto. constructor; auto.
Qed.

Lemma sof_segment_iff : forall dbg rerun rayon m d payload rest bits count, bytes payload ->
  ((exists d', step dbg rerun rayon (PcSegment (SOF m)) d (mkBiter (segment payload ++ rest) bits count) =
      (d', mkBiter rest bits count, SNext PcMarker)) <->
   exists p lines samples cs extra, header_ok lines samples cs /\ payload = sof_bytes p lines samples cs ++ extra).
Proof.
  intros dbg rerun rayon m d payload rest bits count B. split.
  - intros [d' H]. eapply sof_segment_only; eauto.
  - intros [p [lines [samples [cs [extra [H ->]]]]]]. eexists. apply sof_segment; auto.
Qed.

Lemma sof_segment_reject : forall dbg rerun rayon m d payload rest bits count, bytes payload -> nth 5 payload 1 <> 0 ->
  ~ (exists p lines samples cs extra, header_ok lines samples cs /\ payload = sof_bytes p lines samples cs ++ extra) ->
  exists r, step dbg rerun rayon (PcSegment (SOF m)) d (mkBiter (segment payload ++ rest) bits count) =
    (d, mkBiter rest bits count, r) /\ rejected r.
Proof.
  intros dbg rerun rayon m d payload rest bits count B N H. rewrite step_segment by reflexivity.
  unfold on_payload, seg_payload. pose proof (sof_safe dbg m payload B N) as S.
  destruct (sof dbg m payload) as [[fr i]|e|p|] eqn:E; try contradiction.
  - exfalso. apply H. destruct (sof_inv _ _ _ _ _ B E) as [p [lines [samples [cs [-> [Bp [H1 [H2 [H3 [H4 [H5 [H6 _]]]]]]]]]]]].
    exists p, lines, samples, cs, i. split; auto. constructor; auto.
  - destruct e; eexists; split; try reflexivity; exact I.
Qed.

(** ** SOS header *)
Lemma sos_header_iff : forall fr payload, lenZ (f_components fr) <= 256 -> bytes payload ->
  ((exists sc r, sos_segment (Some fr) payload = Ok (sc, r)) <->
   exists s ks extra, scan_ok s /\ scan_in_frame fr s ks /\ payload = sos_bytes s ++ extra).
Proof.
  intros fr payload L B. split.
  - intros [sc [r H]]. destruct (sos_segment_inv _ _ _ _ L B H) as [s [ks [A [C [-> ->]]]]]. exists s, ks, r. auto.
  - intros [s [ks [extra [A [C ->]]]]]. exists (scan_of s ks), extra. apply sos_segment_ok; auto.
Qed.

Lemma sos_header_reject : forall fr payload, lenZ (f_components fr) <= 256 -> bytes payload ->
  ~ (exists s ks extra, scan_ok s /\ scan_in_frame fr s ks /\ payload = sos_bytes s ++ extra) ->
  exists e, sos_segment (Some fr) payload = Fail e.
Proof.
  intros fr payload L B H. pose proof (sos_segment_safe (Some fr) payload) as S.
  destruct (sos_segment (Some fr) payload) as [[sc r]|e|p|] eqn:E; try contradiction; eauto.
  exfalso. apply H. apply sos_header_iff; eauto.
Qed.

Lemma sos_no_frame : forall dbg rerun rayon d payload rest bits count, d_frame d = None -> bytes payload ->
  exists d' r, step dbg rerun rayon (PcSegment SOS) d (mkBiter (segment payload ++ rest) bits count) =
    (d', mkBiter rest bits count, r) /\ rejected r.
Proof.
  intros dbg rerun rayon d payload rest bits count N B. rewrite step_segment by reflexivity.
  unfold on_payload, do_sos. rewrite N. pose proof (sos_segment_safe None payload) as S.
  destruct (sos_segment None payload) as [[sc r]|e|p|] eqn:E; try contradiction.
  - unfold sos_begin. cbn [set_scan d_frame]. rewrite N. eexists _, _; split; [reflexivity|exact I].
  - destruct e; eexists _, _; (split; [reflexivity|exact I]).
Qed.

Lemma sos_header_scan : forall fr s ks extra, lenZ (f_components fr) <= 256 -> scan_ok s -> scan_in_frame fr s ks ->
  sos_segment (Some fr) (sos_bytes s ++ extra) = Ok (scan_of s ks, extra).
Proof. intros. apply sos_segment_ok; auto. Qed.

Lemma sos_segment_rejected : forall dbg rerun rayon d fr payload rest bits count, d_frame d = Some fr ->
  lenZ (f_components fr) <= 256 -> bytes payload ->
  ~ (exists s ks extra, scan_ok s /\ scan_in_frame fr s ks /\ payload = sos_bytes s ++ extra) ->
  exists r, step dbg rerun rayon (PcSegment SOS) d (mkBiter (segment payload ++ rest) bits count) =
    (d, mkBiter rest bits count, r) /\ rejected r.
Proof.
  intros dbg rerun rayon d fr payload rest bits count N L B H. rewrite step_segment by reflexivity.
  unfold on_payload, do_sos. rewrite N. destruct (sos_header_reject fr payload L B H) as [e ->].
  destruct e; eexists; (split; [reflexivity|exact I]).
Qed.

(** ** Application segments, DRI *)
Lemma app_segment : forall dbg rerun rayon n d payload rest bits count, n <> 14 ->
  step dbg rerun rayon (PcSegment (APP n)) d (mkBiter (segment payload ++ rest) bits count) =
    (d, mkBiter rest bits count, SNext PcMarker).
Proof.
  intros. rewrite step_segment by reflexivity. unfold on_payload, seg_payload. replace (n =? 14) with false by lia. reflexivity.
Qed.

Lemma adobe_segment : forall dbg rerun rayon d version flags t a extra rest bits count,
  0 <= version < 256 -> length flags = 4%nat -> transform_of t = Some a ->
  step dbg rerun rayon (PcSegment (APP 14)) d (mkBiter (segment (adobe_bytes version flags t ++ extra) ++ rest) bits count) =
    (set_color d (Some a), mkBiter rest bits count, SNext PcMarker).
Proof.
  intros. rewrite step_segment by reflexivity. unfold on_payload, seg_payload. cbn [Z.eqb Pos.eqb].
  rewrite app_adobe_ok by auto. rewrite H1. reflexivity.
Qed.

Lemma adobe_only : forall dbg rerun rayon d payload rest bits count, bytes payload ->
  (exists version flags t a extra, 0 <= version < 256 /\ length flags = 4%nat /\ transform_of t = Some a /\
     payload = adobe_bytes version flags t ++ extra) \/
  exists r, step dbg rerun rayon (PcSegment (APP 14)) d (mkBiter (segment payload ++ rest) bits count) =
    (d, mkBiter rest bits count, r) /\ rejected r.
Proof.
  intros dbg rerun rayon d payload rest bits count B. rewrite step_segment by reflexivity.
  unfold on_payload, seg_payload. cbn [Z.eqb Pos.eqb]. pose proof (app_adobe_safe payload) as S.
  destruct (app_adobe payload) as [[a i]|e|p|] eqn:E; try contradiction.
  - left. destruct (app_adobe_inv _ _ _ B E) as [v [fl [t [V [L [-> T]]]]]]. exists v, fl, t, a, i. auto.
  - right. destruct e; eexists; (split; [reflexivity|exact I]).
Qed.

Lemma dri_segment : forall dbg rerun rayon d n extra rest bits count,
  step dbg rerun rayon (PcSegment DRI) d (mkBiter (segment (be16 n ++ extra) ++ rest) bits count) =
    (set_restart d n, mkBiter rest bits count, SNext PcMarker).
Proof. intros. rewrite step_segment by reflexivity. unfold on_payload, seg_payload. rewrite p_u16_be16. reflexivity. Qed.

Lemma short_segment : exists (m : marker) (n : Z), no_segment m = false /\ 0 <= n < 2 /\
  forall (d : decoder) (data rest : list Z) (bits count : Z),
    step true false false (PcSegment m) d (mkBiter (be16 n ++ data) bits count) =
      (d, mkBiter (be16 n ++ data) bits count, SStop (RPanic POverflow)) /\
    (lenZ data = 65535 ->
     step false false false (PcSegment m) d (mkBiter (be16 n ++ data ++ rest) bits count) =
       (d, mkBiter rest bits count, SNext PcMarker)).
Proof.
  exists (APP 1), 1. split; [reflexivity|]. split; [lia|]. intros d data rest bits count. split.
  - unfold step. cbn [no_segment bi_input]. unfold segment_data. rewrite p_u16_be16. reflexivity.
  - intros L. unfold step. cbn [no_segment bi_input bi_bits bi_count]. unfold segment_data. rewrite p_u16_be16. cbn [bind].
    change (usub false 16 1 2) with (@Ok Z 65535). cbn [bind]. rewrite <- L, p_take_app. reflexivity.
Qed.
