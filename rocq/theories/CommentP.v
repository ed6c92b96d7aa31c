(** Comments and metadata segments in whole files (C31, C44). *)
From Verif Require Import Base Tactics SpecBits SpecMarker SpecHuffman SpecBlock SpecTables SpecFrame SpecSegments SpecGlobal SpecStream SpecFile SpecLimits
  Biterator Marker MarkerP Huffman Types Parsers Decode SegmentsP InvP GlobalP ExtP StreamP StreamP2 FileP.

Lemma from_ext : forall s dbg rayon c p d b, from dbg false rayon c (p, d, b) ->
  from dbg false rayon (let '(p0, d0, b0) := c in (p0, d0, ext s b0)) (p, d, ext s b).
Proof.
  intros s dbg rayon [[p0 d0] b0] p d b H. remember (p, d, b) as c eqn:E. revert p d b E.
  induction H as [|c1 c2 H IH M]; intros p d b E; [inv E; apply from_here|]. subst c2. destruct c1 as [[p1 d1] b1]. cbn [moves] in M.
  eapply from_next; [apply IH; reflexivity|]. cbn [moves]. exact (step_ext s _ _ _ _ _ _ _ _ _ M).
Qed.

(** Two inputs that bring the decoder to the same state before the same bytes. *)
Lemma decode_join : forall dbg rayon d A B d' j1 j2 b bits count, reachable dbg rayon d -> bytes A -> bytes B ->
  from dbg false rayon (PcMarker, d, biter_new A) (PcMarker, d', mkBiter (j1 ++ b) bits count) ->
  from dbg false rayon (PcMarker, d, biter_new B) (PcMarker, d', mkBiter (j2 ++ b) bits count) ->
  no_marker j1 -> no_marker j2 -> decode dbg rayon d A = decode dbg rayon d B.
Proof.
  intros dbg rayon d A B d' j1 j2 b bits count R BA BB FA FB J1 J2.
  assert (G : forall I j, bytes I -> no_marker j -> from dbg false rayon (PcMarker, d, biter_new I) (PcMarker, d', mkBiter (j ++ b) bits count) ->
    exists W, runs_to dbg false rayon (PcMarker, d', mkBiter (j ++ b) bits count) W /\
      run dbg false rayon (run_fuel (biter_new I)) PcMarker d (biter_new I) = W).
  { intros I j BI J F. pose proof (decode_no_fuel dbg rayon d I R BI) as NF. unfold decode in NF. cbv zeta in NF.
    destruct (run dbg false rayon (run_fuel (biter_new I)) PcMarker d (biter_new I)) as [[d1 b1] r] eqn:ER. exists (d1, b1, r). split; [|reflexivity].
    assert (RT : runs_to dbg false rayon (PcMarker, d, biter_new I) (d1, b1, r)).
    { eexists. split; [exact ER|]. cbn [snd]. intros ->. apply NF. reflexivity. }
    clear - F RT. remember (PcMarker, d', mkBiter (j ++ b) bits count) as c. clear Heqc. induction F as [|c1 c2 F IH M]; [exact RT|].
    destruct c1 as [[p1 e1] x1], c2 as [[p2 e2] x2]. cbn [moves] in M. apply (runs_next _ _ _ _ _ _ _ _ _ _ M). exact IH. }
  destruct (G A j1 BA J1 FA) as [WA [RA EA]]. destruct (G B j2 BB J2 FB) as [WB [RB EB]]. clear G FA FB. unfold decode. cbv zeta. rewrite EA, EB. clear EA EB.
  assert (P : forall j, no_marker j -> parse_marker (j ++ b) = parse_marker b) by (intros j J; apply scan_no_marker; exact J).
  destruct (parse_marker b) as [[m rest]|e|p|] eqn:Pb.
  2: destruct e.
  all: try (assert (SE : step dbg false rayon PcMarker d' (mkBiter (j1 ++ b) bits count) = step dbg false rayon PcMarker d' (mkBiter (j2 ++ b) bits count)) by
    (cbn [step bi_input bi_bits bi_count]; rewrite !P by assumption; destruct m; reflexivity);
    pose proof (runs_step_eq _ _ _ _ _ _ _ _ _ _ SE RA) as RA'; rewrite (runs_det _ _ _ _ _ _ RA' RB); reflexivity).
  all: assert (S1 : forall j, no_marker j -> exists r, step dbg false rayon PcMarker d' (mkBiter (j ++ b) bits count) = (d', mkBiter (j ++ b) bits count, SStop r) /\
        (match parse_marker b with Fail EEof => r = RNeed PcMarker | Fail e => r = RFail e | Panic p => r = RPanic p | UB => r = RUB | _ => False end))
        by (intros j J; cbn [step bi_input]; rewrite (P j J), Pb; eexists; split; reflexivity).
  all: rewrite Pb in S1; destruct (S1 j1 J1) as [r1 [T1 ->]]; destruct (S1 j2 J2) as [r2 [T2 ->]];
    rewrite (runs_stop _ _ _ _ _ _ _ _ _ _ T1 RA), (runs_stop _ _ _ _ _ _ _ _ _ _ T2 RB); reflexivity.
Qed.

Lemma bytes_drop : forall a x b, bytes (a ++ x ++ b) -> bytes (a ++ b).
Proof. unfold bytes. intros a x b H. rewrite !Forall_app in *. tauto. Qed.

Lemma comment_skipped : forall dbg rayon d a fill payload b, reachable dbg rayon d -> between_segments dbg rayon d a ->
  no_marker (segment payload) -> let comment := marker_bytes fill 0xFE ++ segment payload in
  bytes (a ++ comment ++ b) -> decode dbg rayon d (a ++ comment ++ b) = decode dbg rayon d (a ++ b).
Proof.
  intros dbg rayon d a fill payload b R [d' [junk [bits [count [J F]]]]] NM comment B.
  apply (decode_join dbg rayon d _ _ d' (segment payload) junk b bits count R B (bytes_drop _ _ _ B)); [|exact (from_ext b _ _ _ _ _ _ F)|exact NM|exact J].
  pose proof (from_ext (comment ++ b) _ _ _ _ _ _ F) as F1. unfold ext in F1. cbn [bi_input bi_bits bi_count biter_new] in F1.
  apply (from_next _ _ _ _ (PcSegment COM, d', mkBiter (segment payload ++ b) bits count)); [|reflexivity].
  eapply from_next; [exact F1|]. cbn [moves]. unfold comment. rewrite <- app_assoc. apply (marker_step dbg false rayon d' junk fill 254 COM); [exact J|constructor|discriminate].
Qed.

Lemma comment_exact : forall dbg rayon d a fill rest, reachable dbg rayon d -> between_segments dbg rayon d a ->
  bytes (a ++ marker_bytes fill 0xFE ++ rest) -> decode dbg rayon d (a ++ marker_bytes fill 0xFE ++ rest) = decode dbg rayon d (a ++ rest).
Proof.
  intros dbg rayon d a fill rest R [d' [junk [bits [count [J F]]]]] B.
  apply (decode_join dbg rayon d _ _ d' [] junk rest bits count R B (bytes_drop _ _ _ B)); [|exact (from_ext rest _ _ _ _ _ _ F)|constructor|exact J].
  pose proof (from_ext (marker_bytes fill 0xFE ++ rest) _ _ _ _ _ _ F) as F1. unfold ext in F1. cbn [bi_input bi_bits bi_count biter_new] in F1.
  apply (from_next _ _ _ _ (PcSegment COM, d', mkBiter rest bits count)); [|reflexivity].
  eapply from_next; [exact F1|]. cbn [moves]. apply (marker_step dbg false rayon d' junk fill 254 COM); [exact J|constructor|discriminate].
Qed.

Lemma app_skipped : forall dbg rayon d a fill n payload b, reachable dbg rayon d -> between_segments dbg rayon d a ->
  0 <= n <= 15 -> n <> 14 -> lenZ payload + 2 < 65536 -> let app := marker_bytes fill (0xE0 + n) ++ segment payload in
  bytes (a ++ app ++ b) -> decode dbg rayon d (a ++ app ++ b) = decode dbg rayon d (a ++ b).
Proof.
  intros dbg rayon d a fill n payload b R [d' [junk [bits [count [J F]]]]] Hn N14 Ln app B.
  apply (decode_join dbg rayon d _ _ d' [] junk b bits count R B (bytes_drop _ _ _ B)); [|exact (from_ext b _ _ _ _ _ _ F)|constructor|exact J].
  pose proof (from_ext (app ++ b) _ _ _ _ _ _ F) as F1. unfold ext in F1. cbn [bi_input bi_bits bi_count biter_new] in F1.
  apply (from_next _ _ _ _ (PcSegment (APP n), d', mkBiter (segment payload ++ b) bits count)); [|exact (app_segment dbg false rayon n d' payload b bits count N14)].
  eapply from_next; [exact F1|]. cbn [moves]. unfold app. rewrite <- app_assoc. apply (marker_step dbg false rayon d' junk fill (0xE0 + n) (APP n)); [exact J|constructor; lia|discriminate].
Qed.

(** Bytes that are no marker, between segments. *)
Lemma junk_skipped : forall dbg rayon d a x b, reachable dbg rayon d -> between_segments dbg rayon d a -> no_marker x ->
  bytes (a ++ x ++ b) -> decode dbg rayon d (a ++ x ++ b) = decode dbg rayon d (a ++ b).
Proof.
  intros dbg rayon d a x b R [d' [junk [bits [count [J F]]]]] NM B.
  apply (decode_join dbg rayon d _ _ d' (junk ++ x) junk b bits count R B (bytes_drop _ _ _ B)); [|exact (from_ext b _ _ _ _ _ _ F)| |exact J].
  - pose proof (from_ext (x ++ b) _ _ _ _ _ _ F) as F1. unfold ext in F1. cbn [bi_input bi_bits bi_count biter_new] in F1. rewrite <- app_assoc. exact F1.
  - clear - J NM. induction J; cbn [app]; [exact NM|constructor; auto|rewrite <- app_assoc; apply (nm_stuffed k); exact IHJ].
Qed.

(** The header of a file up to any of its segments is such a place. *)
Lemma header_between : forall dbg rayon d fill segs, reachable dbg rayon d -> Forall (fun s => hseg_ok (snd s)) segs ->
  between_segments dbg rayon d (marker_bytes fill 0xD8 ++ flat_map hseg_bytes segs).
Proof.
  intros dbg rayon d fill segs R F. pose proof (ok_slots _ (reachable_ok _ _ _ R)) as F4.
  destruct (header_run dbg false rayon 0 0 segs d [] [] F4 F ltac:(constructor)) as [d' [junk [S [J _]]]]. rewrite !app_nil_r in S. exists d', junk, 0, 0. split; [exact J|].
  eapply from_trans; [|exact S].
  apply (from_next _ _ _ _ (PcSegment SOI, d, mkBiter (flat_map hseg_bytes segs) 0 0)); [|reflexivity]. eapply from_next; [apply from_here|]. cbn [moves biter_new].
  apply (marker_step dbg false rayon d [] fill 0xD8 SOI); [constructor|constructor|discriminate].
Qed.
Lemma header_interval : forall dbg rayon d fill segs, reachable dbg rayon d -> Forall (fun s => hseg_ok (snd s)) segs ->
  exists d' junk bits count, no_marker junk /\ d_restart d' = last (dris segs) (d_restart d) /\
    from dbg false rayon (PcMarker, d, biter_new (marker_bytes fill 0xD8 ++ flat_map hseg_bytes segs)) (PcMarker, d', mkBiter junk bits count).
Proof.
  intros dbg rayon d fill segs R F. pose proof (ok_slots _ (reachable_ok _ _ _ R)) as F4.
  destruct (header_run dbg false rayon 0 0 segs d [] [] F4 F ltac:(constructor)) as [d' [junk [S [J [_ HS]]]]]. rewrite !app_nil_r in S. exists d', junk, 0, 0.
  split; [exact J|]. split; [exact (hs_dri _ _ _ _ HS)|]. eapply from_trans; [|exact S].
  apply (from_next _ _ _ _ (PcSegment SOI, d, mkBiter (flat_map hseg_bytes segs) 0 0)); [|reflexivity]. eapply from_next; [apply from_here|]. cbn [moves biter_new].
  apply (marker_step dbg false rayon d [] fill 0xD8 SOI); [constructor|constructor|discriminate].
Qed.
Lemma start_between : forall dbg rayon d, between_segments dbg rayon d [].
Proof. intros. exists d, [], 0, 0. split; [constructor|apply from_here]. Qed.
