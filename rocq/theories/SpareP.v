(** Tables that an image does not use (C93). *)
From Verif Require Import Base Tactics SpecBits SpecMarker SpecHuffman SpecBlock SpecTables SpecFrame SpecSegments SpecGlobal SpecStream SpecFile SpecLimits SpecDefine SpecSpare
  Biterator Marker MarkerP Huffman Types Color Upsampler Parsers Decode SegmentsP InvP GlobalP ExtP StreamP StreamP2 FileP CommentP ReuseP DefineP.

Lemma payload_planes : forall dbg m d data, d_planes (fst (seg_payload dbg m d data)) = d_planes d.
Proof.
  assert (H : forall dbg n d data, d_planes (fst (seg_dht dbg n d data)) = d_planes d).
  { intros dbg. induction n as [|n IH]; intros d data; (destruct data as [|z data]; [reflexivity|]); [reflexivity|]. cbn [seg_dht].
    destruct (huffman_table (z :: data)) as [[[[[c th] lengths] values] i']|e|p|]; try reflexivity.
    destruct (store_huffman dbg d c th lengths values) as [d'|e|p|] eqn:E; try reflexivity. rewrite IH. unfold store_huffman, bind in E.
    repeat match type of E with context [match ?x with _ => _ end] => destruct x end; try discriminate; inv E; reflexivity. }
  assert (Q : forall n d data, d_planes (fst (seg_dqt n d data)) = d_planes d).
  { induction n as [|n IH]; intros d data; (destruct data as [|z data]; [reflexivity|]); [reflexivity|]. cbn [seg_dqt].
    destruct (dqt (z :: data)) as [[[tq t] i']|e|p|]; try reflexivity.
    destruct (store_quant d tq t) as [d'|e|p|] eqn:E; try reflexivity. rewrite IH. unfold store_quant, bind in E.
    repeat match type of E with context [match ?x with _ => _ end] => destruct x end; try discriminate; inv E; reflexivity. }
  intros dbg m d data. destruct m; cbn [seg_payload]; try reflexivity; try apply H; try apply Q.
  all: repeat match goal with |- context [match ?x with _ => _ end] => destruct x end; reflexivity.
Qed.
Lemma sos_planes : forall dbg d b data d' b' p, do_sos dbg d b data = (d', b', SNext p) -> d_planes d' = d_planes d.
Proof.
  intros dbg d b data d' b' p E. unfold do_sos in E. destruct (sos_segment (d_frame d) data) as [[sc i]|[]| |]; try discriminate.
  destruct (sos_begin dbg d sc) as [d1 [final|e|q|]] eqn:S; try discriminate. destruct (scan_init final d1) as [d2| | |] eqn:I; try discriminate. inv E.
  assert (A : d_planes d1 = d_planes d).
  { unfold sos_begin in S. repeat match type of S with context [match ?x with _ => _ end] => destruct x end; inv S; reflexivity. }
  rewrite <- A. unfold scan_init, bind in I. repeat match type of I with context [match ?x with _ => _ end] => destruct x end; try discriminate; inv I; reflexivity.
Qed.
Lemma segment_planes : forall dbg rerun rayon m d b d' b' p, step dbg rerun rayon (PcSegment m) d b = (d', b', SNext p) -> d_planes d' = d_planes d.
Proof.
  intros dbg rerun rayon m d b d' b' p' E. cbn [step] in E. destruct (no_segment m); [inv E; reflexivity|].
  destruct (segment_data dbg (bi_input b)) as [[data rest]|e|p|]; [|destruct e; discriminate|discriminate|discriminate].
  pose proof (payload_planes dbg m d data) as S.
  destruct m; try (destruct (seg_payload dbg _ d data) as [d1 r]; cbn [fst] in S; cbn [seg_end] in E; destruct r as [u|e|p|]; [inv E; exact S|destruct e; discriminate|discriminate|discriminate]).
  exact (sos_planes _ _ _ _ _ _ _ E).
Qed.
Lemma marker_same : forall dbg rerun rayon d b d' b' p, step dbg rerun rayon PcMarker d b = (d', b', SNext p) -> d' = d.
Proof.
  intros dbg rerun rayon d b d' b' p E. cbn [step] in E. destruct (parse_marker (bi_input b)) as [[m rest]|[]|q|]; try discriminate.
  destruct m; try (inv E; reflexivity). destruct (upsample_image dbg rayon d); discriminate.
Qed.
Lemma image_at_marker : forall dbg rerun rayon p d b d' b' img, step dbg rerun rayon p d b = (d', b', SStop (RImage img)) ->
  p = PcMarker.
Proof.
  intros dbg rerun rayon p d b d' b' img E. destruct p as [|m|final todo ph]; [reflexivity| |]; exfalso; cbn [step] in E.
  - destruct (no_segment m); [discriminate|]. destruct (segment_data dbg (bi_input b)) as [[data rest]|[]|q|]; try discriminate.
    assert (X : (let '(d1, r) := seg_payload dbg m d data in seg_end m d1 (mkBiter rest (bi_bits b) (bi_count b)) r) = (d', b', SStop (RImage img)) -> False).
    { destruct (seg_payload dbg m d data) as [d1 r]. unfold seg_end. destruct r as [[]|[]| |]; discriminate. }
    destruct m; try (apply X; exact E). clear X. unfold do_sos in E. destruct (sos_segment (d_frame d) data) as [[sc i]|[]| |]; try discriminate.
    destruct (sos_begin dbg d sc) as [d1 [final|e|q|]]; try discriminate. destruct (scan_init final d1); discriminate.
  - destruct (scan_loop dbg rerun final todo ph d b) as [[d1 b1] r]. destruct r; try discriminate. destruct (scan_finish d1); discriminate.
Qed.

Lemma run_spare : forall dbg rerun rayon fuel p f u b f' b' img, sim p f u -> d_planes u = d_planes f ->
  run dbg rerun rayon fuel p f b = (f', b', RImage img) -> exists u', run dbg rerun rayon fuel p u b = (u', b', RImage img).
Proof.
  intros dbg rerun rayon. induction fuel as [|fuel IH]; intros p f u b f' b' img C P E; [discriminate|]. cbn [run] in *.
  destruct (step dbg rerun rayon p f b) as [[f1 b1] s] eqn:S. pose proof (step_cov _ _ _ _ _ _ _ _ _ _ C S) as X. destruct s as [p1|r].
  - destruct X as [[u1 [S1 C1]]|X]; [|exfalso; pose proof (stuck_end dbg rerun rayon fuel p1 f1 b1 X) as Y; rewrite E in Y; exact Y].
    rewrite S1. eapply IH; [exact C1| |exact E]. destruct p as [|m|final todo ph].
    + rewrite (marker_same _ _ _ _ _ _ _ _ S), (marker_same _ _ _ _ _ _ _ _ S1). exact P.
    + rewrite (segment_planes _ _ _ _ _ _ _ _ _ S), (segment_planes _ _ _ _ _ _ _ _ _ S1). exact P.
    + destruct C as [C Cs]. cbn [step] in S, S1. destruct (scan_loop dbg rerun final todo ph f b) as [[d1 b2] r] eqn:SL. destruct r; try discriminate.
      destruct (loop_cov _ _ _ _ _ _ u _ _ _ C Cs SL) as [s1 [-> SL']]. rewrite SL' in S1. unfold scan_finish in S, S1. cbn [set_ss d_scan d_ss] in S, S1.
      destruct (d_scan f) as [sc|] eqn:Sc; [|discriminate]. rewrite (cv_scan _ _ C _ Sc) in S1. cbv zeta in S, S1.
      destruct (take_planes (ss_results s1) (s_headers sc)) as [[ps rr]| | |]; try discriminate. cbn [bind] in S, S1. inv S. inv S1. reflexivity.
  - inv E. pose proof (image_at_marker _ _ _ _ _ _ _ _ _ S) as ->. destruct C as [C _]. cbn [step] in *.
    destruct (parse_marker (bi_input b)) as [[m rest]|[]|q|]; try discriminate. destruct m; try discriminate.
    assert (U : forall i, upsample_image dbg rayon f = Ok i -> upsample_image dbg rayon u = Ok i).
    { intros i Q. unfold upsample_image in *. destruct (d_frame f) as [fr|] eqn:Fr; [|discriminate]. rewrite (cv_frame _ _ C _ Fr), (cv_color _ _ C), P. exact Q. }
    destruct (upsample_image dbg rayon f) as [i| | |]; try discriminate. rewrite (U i eq_refl). inv S. eauto.
Qed.

Lemma more_cov : forall dbg f u l l', header_state dbg decoder_default f l -> header_state dbg decoder_default u l' -> defines_more l l' -> cov f u.
Proof.
  intros dbg f u l l' [A1 A2 A3 A4 A5 A6 A7 A8 A9] [B1 B2 B3 B4 B5 B6 B7 B8 B9] [Q [H [R [S T]]]].
  rewrite last_some in A5, A6, B5, B6. rewrite <- (map_id (dris l)), last_some in A4. rewrite <- (map_id (dris l')), last_some in B4.
  constructor.
  - apply slots_cover; [apply A2|apply B2|]. intros k t Hk E. destruct A2 as [_ A2], B2 as [_ B2]. specialize (A2 k Hk). specialize (B2 k Hk).
    destruct (last_entry (is_slot DC k) (dhts l)) as [x|] eqn:L; [|cbn [decoder_default d_dc] in A2; rewrite none_nth in A2; congruence].
    destruct (H DC k x Hk L) as [x' [L' [H1 H2]]]. rewrite L' in B2. destruct A2 as [t1 [A2 T1]], B2 as [t2 [B2 T2]]. congruence.
  - apply slots_cover; [apply A3|apply B3|]. intros k t Hk E. destruct A3 as [_ A3], B3 as [_ B3]. specialize (A3 k Hk). specialize (B3 k Hk).
    destruct (last_entry (is_slot AC k) (dhts l)) as [x|] eqn:L; [|cbn [decoder_default d_ac] in A3; rewrite none_nth in A3; congruence].
    destruct (H AC k x Hk L) as [x' [L' [H1 H2]]]. rewrite L' in B3. destruct A3 as [t1 [A3 T1]], B3 as [t2 [B3 T2]]. congruence.
  - apply slots_cover; [apply A1|apply B1|]. intros k t Hk E. destruct A1 as [_ A1], B1 as [_ B1]. specialize (A1 k Hk). specialize (B1 k Hk).
    destruct (last_entry _ (dqts l)) as [x|] eqn:L; [|cbn [decoder_default d_qt] in A1; rewrite none_nth in A1; congruence].
    destruct (Q k x Hk L) as [x' [L' H1]]. rewrite L' in B1. destruct A1 as [t1 [A1 T1]], B1 as [t2 [B1 T2]]. rewrite H1 in T2. rewrite (order_unique _ _ _ T1 T2) in A1. congruence.
  - intros fr E. rewrite B5, <- S, <- A5. exact E.
  - intros sc E. rewrite A9 in E. discriminate.
  - rewrite A4, B4, R. reflexivity.
  - rewrite A6, B6, T. reflexivity.
  - left. exact A7.
  - rewrite A8, B8. split; [reflexivity|]. split; [split; [reflexivity|repeat constructor; lia]|]. intros i x E. exists x. split; [exact E|]. intros k _ Hk. exact Hk.
Qed.

Lemma spare_tables : forall dbg rayon fill segs segs' rest img,
  let input := fun s => marker_bytes fill 0xD8 ++ flat_map hseg_bytes s ++ rest in
  Forall (fun s => hseg_ok (snd s)) segs -> Forall (fun s => hseg_ok (snd s)) segs' -> bytes (input segs) -> bytes (input segs') ->
  defines_more segs segs' -> decode_fresh dbg rayon (input segs) = Ok img -> decode_fresh dbg rayon (input segs') = Ok img.
Proof.
  intros dbg rayon fill segs segs' rest img input O O' B B' M E.
  assert (F0 : four_slots decoder_default) by (split; [|split]; reflexivity).
  assert (Start : forall s, from dbg false rayon (PcMarker, decoder_default, biter_new (input s)) (PcMarker, decoder_default, mkBiter (flat_map hseg_bytes s ++ rest) 0 0)).
  { intros s. apply (from_next _ _ _ _ (PcSegment SOI, decoder_default, mkBiter (flat_map hseg_bytes s ++ rest) 0 0)); [|reflexivity]. eapply from_next; [apply from_here|]. cbn [moves biter_new].
    apply (marker_step dbg false rayon decoder_default [] fill 0xD8 SOI); [constructor|constructor|discriminate]. }
  destruct (header_walk dbg rayon 0 0 segs decoder_default [] rest F0 O ltac:(constructor)) as [f [Ff [Jf [_ [Hf _]]]]].
  destruct (header_walk dbg rayon 0 0 segs' decoder_default [] rest F0 O' ltac:(constructor)) as [u [Fu [Ju [_ [Hu _]]]]]. cbn [app] in Ff, Fu.
  pose proof (more_cov dbg f u segs segs' Hf Hu M) as C.
  assert (P : d_planes u = d_planes f) by (rewrite (hs_planes _ _ _ _ Hf), (hs_planes _ _ _ _ Hu); reflexivity).
  assert (G : forall s d' b, bytes (input s) -> from dbg false rayon (PcMarker, decoder_default, biter_new (input s)) (PcMarker, d', b) ->
    exists W, runs_to dbg false rayon (PcMarker, d', b) W /\ run dbg false rayon (run_fuel (biter_new (input s))) PcMarker decoder_default (biter_new (input s)) = W).
  { intros s d' b Bs Fr. pose proof (decode_no_fuel dbg rayon decoder_default (input s) (fresh _ _) Bs) as NF. unfold decode in NF. cbv zeta in NF.
    destruct (run dbg false rayon (run_fuel (biter_new (input s))) PcMarker decoder_default (biter_new (input s))) as [[d1 b1] r] eqn:ER. exists (d1, b1, r). split; [|reflexivity].
    assert (RT : runs_to dbg false rayon (PcMarker, decoder_default, biter_new (input s)) (d1, b1, r)).
    { eexists. split; [exact ER|]. cbn [snd]. intros ->. apply NF. reflexivity. }
    clear - Fr RT. remember (PcMarker, d', b) as c. clear Heqc. induction Fr as [|c1 c2 Fr IH M]; [exact RT|].
    destruct c1 as [[p1 e1] x1], c2 as [[p2 e2] x2]. cbn [moves] in M. apply (runs_next _ _ _ _ _ _ _ _ _ _ M). exact IH. }
  destruct (G segs f _ B (from_trans _ _ _ _ _ _ (Start _) Ff)) as [Wf [Rf Ef]]. destruct (G segs' u _ B' (from_trans _ _ _ _ _ _ (Start _) Fu)) as [Wu [Ru Eu]].
  unfold decode_fresh, decode in E. cbv zeta in E. rewrite Ef in E. destruct Wf as [[d1 b1] r]. cbn [snd] in E. destruct r as [im| | | | |]; try discriminate. 2: destruct (bi_input b1); discriminate.
  destruct (bi_input b1) eqn:Bi; [|discriminate]. injection E as ->. destruct Rf as [fuel [Rf _]].
  (* both look for the next marker, past what the last comment left *)
  assert (Rf' : exists fuel', run dbg false rayon fuel' PcMarker f (mkBiter (left_overs segs' [] ++ rest) 0 0) = (d1, b1, RImage img)).
  { destruct fuel as [|fuel]; [discriminate|]. exists (S fuel). cbn [run] in *.
    assert (SE : forall j, no_marker j -> parse_marker (j ++ rest) = parse_marker rest) by (intros j J; apply scan_no_marker; exact J).
    assert (ST : match parse_marker rest with Ok _ => step dbg false rayon PcMarker f (mkBiter (left_overs segs' [] ++ rest) 0 0) = step dbg false rayon PcMarker f (mkBiter (left_overs segs [] ++ rest) 0 0)
                 | _ => forall d b i, step dbg false rayon PcMarker f (mkBiter (left_overs segs [] ++ rest) 0 0) <> (d, b, SStop (RImage i)) /\ forall q, step dbg false rayon PcMarker f (mkBiter (left_overs segs [] ++ rest) 0 0) <> (d, b, SNext q) end).
    { cbn [step bi_input bi_bits bi_count]. rewrite !SE by assumption. destruct (parse_marker rest) as [[m r]|[]|q|]; try reflexivity; intros; split; discriminate. }
    destruct (parse_marker rest) as [[m r]| | |]; [rewrite ST; exact Rf| | |]; exfalso;
      destruct (step dbg false rayon PcMarker f (mkBiter (left_overs segs [] ++ rest) 0 0)) as [[d2 b2] [q|s]];
      (apply (proj2 (ST d2 b2 []) q); reflexivity) || (inv Rf; apply (proj1 (ST d1 b1 img)); reflexivity). }
  destruct Rf' as [fuel' Rf']. destruct (run_spare _ _ _ _ PcMarker _ u _ _ _ _ (conj C I) P Rf') as [u2 R2].
  assert (Q : runs_to dbg false rayon (PcMarker, u, mkBiter (left_overs segs' [] ++ rest) 0 0) (u2, b1, RImage img)) by (exists fuel'; split; [exact R2|discriminate]).
  rewrite (runs_det _ _ _ _ _ _ Ru Q) in Eu. unfold decode_fresh, decode. cbv zeta. rewrite Eu. cbn [snd]. rewrite Bi. reflexivity.
Qed.

(** One more segment of tables. *)
Lemma more_tables : forall a s b, only_tables s -> Forall (independent s) (a ++ b) -> defines_more (a ++ b) (a ++ s :: b).
Proof.
  intros a [f s] b O F. change ((f, s) :: b) with ([(f, s)] ++ b).
  assert (X : forall A (sel : A -> bool) x y z t, (forall v w, In v y -> In w (x ++ z) -> sel v = true -> sel w = true -> False) ->
    last_entry sel (x ++ z) = Some t -> last_entry sel (x ++ y ++ z) = Some t).
  { intros A sel x y z t N E. pose proof (entry_in _ _ _ _ E) as [It St]. rewrite !last_entry_app in *. destruct (last_entry sel z) as [w|] eqn:Ez; [exact E|].
    destruct (last_entry sel y) as [v|] eqn:Ey; [|exact E]. exfalso. apply entry_in in Ey. apply (N v t); tauto. }
  unfold defines_more, dqts, dhts, dris, sofs, adobes. rewrite !flat_map_app.
  assert (In1 : forall t, In t (dqts (a ++ b)) -> exists g ts, In (g, HDqt ts) (a ++ b) /\ In t ts).
  { intros t H. unfold dqts in H. apply in_flat_map in H. destruct H as [[g [ts| | | | | |]] [H1 H2]]; cbn [snd] in H2; try contradiction. eauto. }
  assert (In2 : forall t, In t (dhts (a ++ b)) -> exists g ts, In (g, HDht ts) (a ++ b) /\ In t ts).
  { intros t H. unfold dhts in H. apply in_flat_map in H. destruct H as [[g [|ts| | | | |]] [H1 H2]]; cbn [snd] in H2; try contradiction. eauto. }
  unfold dqts in In1. unfold dhts in In2. rewrite flat_map_app in In1, In2. rewrite Forall_forall in F.
  destruct s as [ts|ts| | | | |]; try contradiction; cbn [flat_map snd app]; rewrite ?app_nil_r; splits; try reflexivity.
  - intros k t Hk E. exists t. split; [|reflexivity]. apply X; [|exact E]. intros v w Hv Hw Sv Sw. destruct (In1 w Hw) as [g [us [Hu Hw']]]. specialize (F _ Hu). cbn in F. apply (F v w Hv Hw'). lia.
  - intros c k t Hk E. exists t. auto.
  - intros k t Hk E. exists t. auto.
  - intros c k t Hk E. exists t. split; [|auto]. apply X; [|exact E]. intros v w Hv Hw Sv Sw. destruct (In2 w Hw) as [g [us [Hu Hw']]]. specialize (F _ Hu). cbn in F.
    unfold is_slot in Sv, Sw. destruct c, (th_class v) eqn:Cv, (th_class w) eqn:Cw; try discriminate; (apply (F v w Hv Hw'); [congruence|lia]).
Qed.
Lemma spare_segment : forall dbg rayon fill a s b rest img,
  let input := fun l => marker_bytes fill 0xD8 ++ flat_map hseg_bytes l ++ rest in
  Forall (fun s => hseg_ok (snd s)) (a ++ s :: b) -> bytes (input (a ++ s :: b)) -> only_tables s -> Forall (independent s) (a ++ b) ->
  decode_fresh dbg rayon (input (a ++ b)) = Ok img -> decode_fresh dbg rayon (input (a ++ s :: b)) = Ok img.
Proof.
  intros dbg rayon fill a s b rest img input O B T I E.
  apply (spare_tables dbg rayon fill (a ++ b) (a ++ s :: b) rest img).
  - rewrite Forall_app in *. destruct O as [O1 O2]. inv O2. auto.
  - exact O.
  - unfold input, bytes in *. rewrite flat_map_app in *. cbn [flat_map] in B. rewrite !Forall_app in *. tauto.
  - exact B.
  - apply more_tables; assumption.
  - exact E.
Qed.
