(** Decoders that decode encoded files one after another (C09). *)
From Verif Require Import Base Tactics SpecBits SpecMarker SpecGlobal SpecStream SpecHuffman SpecBlock SpecTables SpecFrame SpecSegments SpecScan SpecPlane SpecUpsample SpecImage SpecColor SpecFile SpecAnswer SpecLimits SpecReuse
  Biterator Marker MarkerP Huffman Types Idct Color Upsampler Parsers Decode BlockP ExtP StreamP StreamP2 InvP GlobalP ScansP FileP AnswerP2 AnswerP3 EmptyP ReuseP CorruptP SafeP.

(** ** Tables change only at their markers *)
Definition same_tables (d d' : decoder) : Prop :=
  d_qt d' = d_qt d /\ d_dc d' = d_dc d /\ d_ac d' = d_ac d /\ d_restart d' = d_restart d /\ d_color d' = d_color d.
Lemma begin_tables : forall dbg d sc, same_tables d (fst (sos_begin dbg d sc)).
Proof.
  intros dbg d sc. unfold sos_begin. cbn [set_scan d_frame d_finished]. destruct (d_frame d) as [fr|]; [|repeat split].
  assert (X : same_tables d (fst (match (if s_low sc =? 0 then mark_finished dbg (z_from_to (s_start sc) (s_end sc)) (s_headers sc) (d_finished d) else Ok (d_finished d)) with
    | Ok fin => (set_finished (set_scan d (Some sc)) fin, all_finished fin (s_headers sc)) | Fail e => (set_scan d (Some sc), Fail e) | Panic q => (set_scan d (Some sc), Panic q) | UB => (set_scan d (Some sc), UB) end))).
  { destruct (if s_low sc =? 0 then _ else _) as [fin| | |] eqn:M; repeat split. }
  destruct (coding_process fr) as [[]| | |]; try exact X; repeat split.
Qed.
Lemma step_tables : forall dbg rerun rayon p d b d' b' s, step dbg rerun rayon p d b = (d', b', s) ->
  match p with PcSegment m => m = SOS | _ => True end -> same_tables d d'.
Proof.
  intros dbg rerun rayon p d b d' b' s E Hp. assert (R : forall d, same_tables d d) by (repeat split). destruct p as [|m|final todo ph]; cbn [step] in E.
  - destruct (parse_marker (bi_input b)) as [[m rest]|[]|q|]; try (inv E; apply R). destruct m; try (inv E; apply R). destruct (upsample_image dbg rayon d); inv E; apply R.
  - subst m. cbn [no_segment] in E. destruct (segment_data dbg (bi_input b)) as [[data rest]|[]|q|]; try (inv E; apply R).
    unfold do_sos in E. destruct (sos_segment (d_frame d) data) as [[sc i]|[]| |]; try (inv E; apply R).
    pose proof (begin_tables dbg d sc) as K. destruct (sos_begin dbg d sc) as [d1 [final|e|q|]]; try (inv E; exact K).
    destruct (scan_init final d1) as [d2| | |] eqn:SI; try (inv E; exact K). apply scan_init_kept in SI. destruct SI as [s0 ->]. inv E. exact K.
  - destruct (scan_loop dbg rerun final todo ph d b) as [[d1 b1] r] eqn:SL. destruct (scan_loop_ext [] _ _ _ _ _ _ _ _ _ _ SL) as [[s0 ->] _].
    destruct r; try (inv E; repeat split; fail). unfold scan_finish in E. cbn [set_ss d_scan] in E. destruct (d_scan d) as [sc|]; [|inv E; repeat split]. cbv zeta in E.
    destruct (take_planes _ _) as [[ps rr]| | |]; cbn [bind] in E; inv E; repeat split.
Qed.

(** ** What is retained *)
Record retains (dbg : bool) (d d' : decoder) (l : list (nat * hseg)) : Prop := mkRet {
  rt_qt : quant_slots (d_qt d) (d_qt d') (dqts l);
  rt_dc : dc_slots dbg (d_dc d) (d_dc d') (dhts l);
  rt_ac : ac_slots dbg (d_ac d) (d_ac d') (dhts l);
  rt_dri : d_restart d' = last (dris l) (d_restart d);
  rt_color : d_color d' = last (map transform_of (adobes l)) (d_color d);
}.
Lemma header_retains : forall dbg d d' l, header_state dbg d d' l -> retains dbg d d' l.
Proof. intros dbg d d' l [A B C D E F _ _ _]. constructor; auto. Qed.
Lemma retains_app : forall dbg d d1 d2 a b, retains dbg d d1 a -> retains dbg d1 d2 b -> retains dbg d d2 (a ++ b).
Proof.
  intros dbg d d1 d2 a b [A1 A2 A3 A4 A5] [B1 B2 B3 B4 B5]. constructor.
  - unfold dqts. rewrite flat_map_app. eapply quant_app; eauto.
  - unfold dhts. rewrite flat_map_app. eapply dc_app; eauto.
  - unfold dhts. rewrite flat_map_app. eapply ac_app; eauto.
  - unfold dris. rewrite flat_map_app, last_app. rewrite B4, A4. reflexivity.
  - unfold adobes. rewrite flat_map_app, map_app, last_app. rewrite B5, A5. reflexivity.
Qed.
Lemma retains_same : forall dbg d d1 d2 a, retains dbg d d1 a -> same_tables d1 d2 -> retains dbg d d2 a.
Proof. intros dbg d d1 d2 a [A B C D E] [S1 [S2 [S3 [S4 S5]]]]. constructor; congruence. Qed.

(** Decoders that retain the same segments. *)
Lemma retained_cov : forall dbg u f' u' a b, retains dbg decoder_default u a ->
  header_state dbg decoder_default f' (retained a ++ b) -> header_state dbg u u' b -> fin_ok (d_finished u) -> cov f' u'.
Proof.
  intros dbg u f' u' a b R [A1 A2 A3 A4 A5 A6 A7 A8 A9] HU F.
  assert (Q1 : forall l, dqts (retained l) = dqts l) by (induction l as [|[n []] l IH]; cbn; try (f_equal; exact IH); exact IH).
  assert (Q2 : forall l, dhts (retained l) = dhts l) by (induction l as [|[n []] l IH]; cbn; try (f_equal; exact IH); exact IH).
  assert (Q3 : forall l, dris (retained l) = dris l) by (induction l as [|[n []] l IH]; cbn; try (f_equal; exact IH); exact IH).
  assert (Q4 : forall l, adobes (retained l) = adobes l) by (induction l as [|[n []] l IH]; cbn; try (f_equal; exact IH); exact IH).
  assert (Q5 : forall l, sofs (retained l) = []) by (induction l as [|[n []] l IH]; cbn; try (f_equal; exact IH); exact IH).
  pose proof (retains_app _ _ _ _ _ _ R (header_retains _ _ _ _ HU)) as [B1 B2 B3 B4 B5].
  destruct HU as [_ _ _ _ B6 _ _ B8 _].
  unfold dqts, dhts, dris, adobes, sofs in *. rewrite flat_map_app in *. rewrite Q1 in A1. rewrite Q2 in A2, A3. rewrite Q3 in A4. rewrite Q4 in A6. rewrite Q5 in A5. cbn [app] in A5. constructor.
  - apply slots_cover; [apply A2|apply B2|]. intros k t Hk E. destruct A2 as [_ A2], B2 as [_ B2]. specialize (A2 k Hk). specialize (B2 k Hk).
    destruct (last_entry (is_slot DC k) _); [destruct A2 as [t1 [A2 T1]], B2 as [t2 [B2 T2]]; congruence|]. cbn [decoder_default d_dc] in A2. rewrite none_nth in A2. congruence.
  - apply slots_cover; [apply A3|apply B3|]. intros k t Hk E. destruct A3 as [_ A3], B3 as [_ B3]. specialize (A3 k Hk). specialize (B3 k Hk).
    destruct (last_entry (is_slot AC k) _); [destruct A3 as [t1 [A3 T1]], B3 as [t2 [B3 T2]]; congruence|]. cbn [decoder_default d_ac] in A3. rewrite none_nth in A3. congruence.
  - apply slots_cover; [apply A1|apply B1|]. intros k t Hk E. destruct A1 as [_ A1], B1 as [_ B1]. specialize (A1 k Hk). specialize (B1 k Hk).
    destruct (last_entry _ _); [destruct A1 as [t1 [A1 T1]], B1 as [t2 [B1 T2]]; rewrite (order_unique _ _ _ T1 T2) in A1; congruence|]. cbn [decoder_default d_qt] in A1. rewrite none_nth in A1. congruence.
  - intros fr E. rewrite A5 in E. rewrite B6. destruct (map _ (flat_map _ b)) as [|x l]; [discriminate|]. rewrite <- E. apply last_any.
  - intros sc E. rewrite A9 in E. discriminate.
  - rewrite A4, B4. reflexivity.
  - rewrite A6, B5. reflexivity.
  - left. rewrite A7. reflexivity.
  - rewrite A8, B8. split; [reflexivity|]. split; [exact F|]. intros i x E. destruct F as [L F].
    assert (x = 0) by (apply index_Ok in E; destruct E as [_ E]; apply nth_error_In in E; cbn in E; intuition). subst x.
    pose proof (index_range _ _ _ _ E) as Ri. exists (nth (Z.to_nat i) (d_finished u) 0). split; [apply index_nth; unfold lenZ in *; rewrite L; exact Ri|].
    intros k Hk T. rewrite Z.bits_0 in T. discriminate.
Qed.

(** The same segments take covered decoders to covered decoders. *)
Lemma headers_cov : forall dbg f u f' u' l, cov f u -> header_state dbg f f' l -> header_state dbg u u' l -> cov f' u'.
Proof.
  intros dbg f u f' u' l [C1 C2 C3 C4 C5 C6 C7 C8 C9] [A1 A2 A3 A4 A5 A6 A7 A8 A9] [B1 B2 B3 B4 B5 B6 B7 B8 B9].
  assert (NI : forall A (x y : list (option A)) k t, covers x y -> (k < 4)%nat -> nth k x None = Some t -> nth k y None = Some t).
  { intros A x y k t [L1 [L2 CV]] Hk E. specialize (CV (Z.of_nat k) t). rewrite (index_nth _ x (Z.of_nat k) None), (index_nth _ y (Z.of_nat k) None), Nat2Z.id in CV by (unfold lenZ; lia).
    rewrite E in CV. specialize (CV eq_refl). congruence. }
  constructor.
  - apply slots_cover; [apply A2|apply B2|]. intros k t Hk E. destruct A2 as [_ A2], B2 as [_ B2]. specialize (A2 k Hk). specialize (B2 k Hk).
    destruct (last_entry (is_slot DC k) (dhts l)); [destruct A2 as [t1 [A2 T1]], B2 as [t2 [B2 T2]]; congruence|]. rewrite B2. apply (NI _ _ _ _ _ C1 Hk). congruence.
  - apply slots_cover; [apply A3|apply B3|]. intros k t Hk E. destruct A3 as [_ A3], B3 as [_ B3]. specialize (A3 k Hk). specialize (B3 k Hk).
    destruct (last_entry (is_slot AC k) (dhts l)); [destruct A3 as [t1 [A3 T1]], B3 as [t2 [B3 T2]]; congruence|]. rewrite B3. apply (NI _ _ _ _ _ C2 Hk). congruence.
  - apply slots_cover; [apply A1|apply B1|]. intros k t Hk E. destruct A1 as [_ A1], B1 as [_ B1]. specialize (A1 k Hk). specialize (B1 k Hk).
    destruct (last_entry _ (dqts l)); [destruct A1 as [t1 [A1 T1]], B1 as [t2 [B1 T2]]; rewrite (order_unique _ _ _ T1 T2) in A1; congruence|]. rewrite B1. apply (NI _ _ _ _ _ C3 Hk). congruence.
  - intros fr E. rewrite A5 in E. rewrite B5. destruct (map _ (sofs l)) as [|x r]; [apply C4; exact E|]. rewrite <- E. apply last_any.
  - intros sc E. rewrite B9. apply C5. congruence.
  - rewrite A4, B4, C6. reflexivity.
  - rewrite A6, B6, C7. reflexivity.
  - rewrite A7, B7. exact C8.
  - rewrite A8, B8. exact C9.
Qed.

(** ** Decoding a file with a used decoder *)
Lemma decode_ends : forall dbg rayon u input d junk fill b, reachable dbg rayon u -> bytes input ->
  from dbg false rayon (PcMarker, u, biter_new input) (PcMarker, d, b) -> bi_input b = junk ++ marker_bytes fill 0xD9 -> no_marker junk ->
  upsample_image dbg rayon d <> Panic PFuel ->
  decode dbg rayon u input = (d, upsample_image dbg rayon d).
Proof.
  intros dbg rayon u input d junk fill b Ru B S Eb J NU.
  set (r := match upsample_image dbg rayon d with Ok img => RImage img | Fail e => RError e | Panic p => RPanic p | UB => RUB end).
  assert (E : step dbg false rayon PcMarker d b = (d, mkBiter [] (bi_bits b) (bi_count b), SStop r)).
  { cbn [step]. assert (P : parse_marker (bi_input b) = Ok (EOI, [])).
    { apply parse_marker_ok. exists 0xD9. split; [constructor|]. exists junk, fill. split; [exact J|]. split; [lia|]. split; [lia|]. rewrite Eb. unfold marker_bytes. reflexivity. }
    rewrite P. unfold r. destruct (upsample_image dbg rayon d); reflexivity. }
  assert (Nr : r <> RPanic PFuel) by (unfold r; destruct (upsample_image dbg rayon d); congruence).
  assert (R : runs_to dbg false rayon (PcMarker, d, b) (d, mkBiter [] (bi_bits b) (bi_count b), r)).
  { exists 1%nat. split; [|exact Nr]. cbn [run]. rewrite E. reflexivity. }
  apply (from_runs _ _ _ _ _ S) in R. destruct R as [fuel [R _]].
  pose proof (decode_no_fuel dbg rayon u input Ru B) as NF. unfold decode in *.
  destruct (run dbg false rayon (run_fuel (biter_new input)) PcMarker u (biter_new input)) as [[d' b'] r'] eqn:ER.
  assert (W : (d', b', r') = (d, mkBiter [] (bi_bits b) (bi_count b), r)).
  { rewrite <- ER, <- R. destruct (Nat.le_ge_cases fuel (run_fuel (biter_new input))) as [Le|Le].
    - apply run_more; [rewrite R; exact Nr|exact Le].
    - symmetry. apply run_more; [rewrite ER; cbn [snd] in *; intros ->; apply NF; reflexivity|exact Le]. }
  assert (Er : r' = r) by congruence. assert (Ed : d' = d) by congruence. assert (Eb' : bi_input b' = []) by (replace b' with (mkBiter [] (bi_bits b) (bi_count b)) by congruence; reflexivity).
  cbn [snd]. rewrite Er, Ed, Eb'. unfold r. destruct (upsample_image dbg rayon d); reflexivity.
Qed.

Lemma same_image : forall dbg rayon f u, cov f u -> d_planes f <> [] -> d_frame f <> None -> upsample_image dbg rayon u = upsample_image dbg rayon f.
Proof.
  intros dbg rayon f u C Np Nf. unfold upsample_image. destruct (d_frame f) as [fr|] eqn:Fr; [|congruence]. rewrite (cv_frame _ _ C _ Fr), (cv_color _ _ C).
  destruct (cv_planes _ _ C) as [P|P]; [congruence|]. rewrite P. reflexivity.
Qed.

Lemma fresh_slots : four_slots decoder_default. Proof. split; [|split]; reflexivity. Qed.
Lemma left_first : forall first segs, (forall s, In s first -> left_over s = []) -> left_overs (first ++ segs) [] = left_overs segs [].
Proof.
  intros first segs H. unfold left_overs. rewrite fold_left_app. f_equal. induction first as [|s first IH]; [reflexivity|]. cbn [fold_left]. rewrite (H s (or_introl eq_refl)).
  apply IH. intros x I. apply H. right. exact I.
Qed.

Lemma file_reused : forall dbg rayon u first f, reachable dbg rayon u -> encodes_with first f -> bytes (coded_bytes f) -> (forall s, In s first -> left_over s = []) ->
  (forall f' u', header_state dbg decoder_default f' (first ++ cf_segs f) -> header_state dbg u u' (cf_segs f) -> cov f' u') ->
  exists u', decode dbg rayon u (coded_bytes f) = (u', decode_fresh dbg rayon (bytes_with first f)) /\ retains dbg u u' (cf_segs f ++ cf_post f).
Proof.
  intros dbg rayon u first [segs h fill1 fill2 ss ts qs ms data post fill3] Ru [En [[Fp Sop] BF]] BU LO CV. unfold coded_bytes, bytes_with in *. cbn [cf_segs cf_h cf_fill1 cf_fill2 cf_ss cf_ts cf_qs cf_ms cf_data cf_post cf_fill3 app] in *.
  set (fileF := file_bytes (first ++ segs) fill1 fill2 (mkSpS ss 0 63 0 0) data post fill3) in *. set (fileU := file_bytes segs fill1 fill2 (mkSpS ss 0 63 0 0) data post fill3) in *.
  assert (NU : decode_fresh dbg rayon fileF <> Panic PFuel) by (apply decode_no_fuel; [constructor|exact BF]).
  destruct En as [F Sf ND L4 Few CC Sh Lm SD]. set (cs := fh_comps h) in *. set (lines := fh_lines h) in *. set (samples := fh_samples h) in *.
  destruct (post_marker post fill3 Fp) as [fl [code [more [Et Hc]]]].
  destruct (sof_ok (first ++ segs) h F ltac:(rewrite Sf; left; reflexivity)) as [Fm HO]. fold cs lines samples in HO.
  set (tail := marker_bytes fill2 0xDA ++ segment (sos_bytes (mkSpS ss 0 63 0 0)) ++ data ++ marker_bytes fl code ++ more).
  assert (EF : fileF = marker_bytes fill1 0xD8 ++ flat_map hseg_bytes (first ++ segs) ++ tail) by (unfold fileF, file_bytes, tail; rewrite Et; reflexivity).
  assert (EU : fileU = marker_bytes fill1 0xD8 ++ flat_map hseg_bytes segs ++ tail) by (unfold fileU, file_bytes, tail; rewrite Et; reflexivity).
  assert (Bm : bytes more) by (unfold bytes in *; rewrite EU in BU; unfold tail in BU; rewrite !Forall_app in BU; tauto).
  assert (Fs : Forall (fun s => hseg_ok (snd s)) segs) by (apply Forall_app in F; apply F).
  assert (S1 : forall d l, from dbg false rayon (PcMarker, d, biter_new (marker_bytes fill1 0xD8 ++ flat_map hseg_bytes l ++ tail)) (PcMarker, d, mkBiter ([] ++ flat_map hseg_bytes l ++ tail) 0 0)).
  { intros d l. apply (from_next _ _ _ _ (PcSegment SOI, d, mkBiter (flat_map hseg_bytes l ++ tail) 0 0)); [|reflexivity]. eapply from_next; [apply from_here|]. cbn [moves biter_new].
    apply (marker_step dbg false rayon d [] fill1 0xD8 SOI); [constructor|constructor|discriminate]. }
  destruct (header_runs dbg false rayon 0 0 (first ++ segs) decoder_default [] tail fresh_slots F ltac:(constructor)) as [f1 [SF2 [J [F4 HF]]]].
  destruct (header_runs dbg false rayon 0 0 segs u [] tail (ok_slots _ (reachable_ok _ _ _ Ru)) Fs ltac:(constructor)) as [u1 [SU2 [_ [U4 HU]]]].
  rewrite (left_first first segs LO) in SF2, J. set (junk := left_overs segs []) in *.
  pose proof (CV f1 u1 HF HU) as C1.
  assert (S3 : forall d, from dbg false rayon (PcMarker, d, mkBiter (junk ++ tail) 0 0) (PcSegment SOS, d, mkBiter (segment (sos_bytes (mkSpS ss 0 63 0 0)) ++ data ++ marker_bytes fl code ++ more) 0 0)).
  { intros d. eapply from_next; [apply from_here|]. cbn [moves]. apply (marker_step dbg false rayon d junk fill2 0xDA SOS); [exact J|constructor|discriminate]. }
  pose proof HF as [H1 H2 H3 H5 H6 H7 H8 H9 _]. rewrite Sf in H6. cbn [map last] in H6. cbn [decoder_default d_qt d_dc d_ac d_restart d_color d_finished] in *.
  destruct (sos_moves dbg rayon (first ++ segs) f1 (fh_marker h) (fh_precision h) lines samples cs ss ts qs ms data fl code more Hc Bm F HO Fm H6 H5) as [f2 [b2 [ds [[todo [fx [bx [M1 M2]]]] [Ei [Fr2 [Co2 [Fs2 [Lp PL]]]]]]]]]; auto.
  { rewrite H5. apply dri_nonneg. exact F. }
  clear PL. cbn [moves] in M1, M2.
  assert (C1' : sim (PcSegment SOS) f1 u1) by (split; [exact C1|exact Logic.I]). pose proof (step_cov _ _ _ _ _ u1 _ _ _ _ C1' M1) as X1. cbn iota in X1. destruct X1 as [[ux [N1 Cx]]|[]].
  pose proof (step_cov _ _ _ _ _ ux _ _ _ _ Cx M2) as X2. cbn iota in X2. destruct X2 as [[u2 [N2 [C2 _]]]|[]].
  assert (T2 : same_tables u1 u2).
  { pose proof (step_tables _ _ _ _ _ _ _ _ _ N1 eq_refl) as [A1 [A2 [A3 [A4 A5]]]]. pose proof (step_tables _ _ _ _ _ _ _ _ _ N2 I) as [B1 [B2 [B3 [B4 B5]]]]. unfold same_tables. repeat split; congruence. }
  rewrite <- Et in Ei. destruct b2 as [i2 bits2 count2]. cbn [bi_input] in Ei. subst i2.
  assert (U42 : four_slots u2) by (destruct T2 as [T [T' [T'' _]]]; unfold four_slots in *; rewrite T, T', T''; exact U4).
  destruct (header_runs dbg false rayon bits2 count2 post f2 (stuff ds) (marker_bytes fill3 0xD9) (Fs2 F4) Fp (no_marker_stuff ds)) as [f5 [SF5 [J5 [_ HF5]]]].
  destruct (header_runs dbg false rayon bits2 count2 post u2 (stuff ds) (marker_bytes fill3 0xD9) U42 Fp (no_marker_stuff ds)) as [u5 [SU5 [_ [_ HU5]]]].
  pose proof (headers_cov _ _ _ _ _ _ C2 HF5 HU5) as C5.
  assert (Np : d_planes f5 <> []).
  { rewrite (hs_planes _ _ _ _ HF5). intros E. rewrite E in Lp. destruct HO as [_ _ X _ _ _]. destruct cs; [congruence|discriminate Lp]. }
  assert (Nf : d_frame f5 <> None) by (rewrite (hs_frame _ _ _ _ HF5), Sop; cbn [map last]; rewrite Fr2, H6; discriminate).
  pose proof (same_image dbg rayon f5 u5 C5 Np Nf) as SI.
  assert (WF : from dbg false rayon (PcMarker, decoder_default, biter_new fileF) (PcMarker, f5, mkBiter (left_overs post (stuff ds) ++ marker_bytes fill3 0xD9) bits2 count2)).
  { rewrite EF. eapply from_trans; [apply S1|]. eapply from_trans; [exact SF2|]. eapply from_trans; [apply S3|]. eapply from_trans; [|exact SF5].
    apply (from_next _ _ _ _ (PcScan true todo PhRow, fx, bx)); [apply (from_next _ _ _ _ _ _ (from_here _ _ _ _)); exact M1|exact M2]. }
  assert (WU : from dbg false rayon (PcMarker, u, biter_new fileU) (PcMarker, u5, mkBiter (left_overs post (stuff ds) ++ marker_bytes fill3 0xD9) bits2 count2)).
  { rewrite EU. eapply from_trans; [apply S1|]. eapply from_trans; [exact SU2|]. eapply from_trans; [apply S3|]. eapply from_trans; [|exact SU5].
    apply (from_next _ _ _ _ (PcScan true todo PhRow, ux, bx)); [apply (from_next _ _ _ _ _ _ (from_here _ _ _ _)); exact N1|exact N2]. }
  assert (NF : upsample_image dbg rayon f5 <> Panic PFuel).
  { destruct (from_inv dbg rayon _ _ WF _ _ _ _ _ _ eq_refl eq_refl default_ok (good_start fileF BF) I) as [K _].
    pose proof (post_image dbg rayon f5 (ok_frame f5 K) (ok_planes f5 K)) as Q. destruct (upsample_image dbg rayon f5) as [img|e|q|]; try discriminate. intros E. inversion E. subst q. exact Q. }
  exists u5. split.
  - rewrite (decode_ends dbg rayon u fileU u5 _ fill3 _ Ru BU WU eq_refl J5) by (rewrite SI; exact NF). unfold decode_fresh.
    rewrite (decode_ends dbg rayon decoder_default fileF f5 _ fill3 _ ltac:(constructor) BF WF eq_refl J5 NF). cbn [snd]. rewrite SI. reflexivity.
  - eapply retains_app; [eapply retains_same; [apply header_retains; exact HU|exact T2]|apply header_retains; exact HU5].
Qed.

(** ** Any history; a series of files *)
Lemma reuse_file : forall dbg rayon history f, Forall bytes history -> encodes_with [] f ->
  dris (cf_segs f) <> [] \/ never 0xDD history -> adobes (cf_segs f) <> [] \/ never 0xEE history ->
  snd (decode dbg rayon (decoder_after dbg rayon history) (coded_bytes f)) = decode_fresh dbg rayon (coded_bytes f).
Proof.
  intros dbg rayon history f F En HD HE. destruct (after_kept dbg rayon history F) as [K1 [K2 K3]]. pose proof (after_reachable dbg rayon history F) as Ru.
  destruct (file_reused dbg rayon _ [] f Ru En ltac:(apply En) ltac:(intros s [])) as [u' [E _]].
  { intros f' u' Hf Hu. eapply header_cov; eauto; [destruct HD as [HD|HD]|destruct HE as [HE|HE]]; auto. }
  rewrite E. reflexivity.
Qed.

Lemma decoder_after_snoc : forall dbg rayon h i, decoder_after dbg rayon (h ++ [i]) = fst (decode dbg rayon (decoder_after dbg rayon h) i).
Proof. intros. unfold decoder_after. rewrite fold_left_app. reflexivity. Qed.
Lemma bytes_without : forall first f, bytes (bytes_with first f) -> bytes (coded_bytes f).
Proof.
  intros first f. unfold coded_bytes, bytes_with, file_bytes, bytes. cbn [app]. rewrite flat_map_app, !Forall_app. tauto.
Qed.
Lemma retained_left : forall l s, In s (retained l) -> left_over s = [].
Proof. intros l [n s] I. apply filter_In in I. destruct I as [_ I]. unfold left_over. cbn [snd] in *. destruct s; try reflexivity. discriminate I. Qed.
Lemma series_split : forall a before b, series before (a ++ b) -> series before a /\ series (before ++ a) b.
Proof.
  induction a as [|f a IH]; intros before b H; cbn [app series] in *; [rewrite app_nil_r; auto|]. destruct H as [H1 H2]. apply IH in H2. destruct H2 as [H2 H3].
  rewrite <- app_assoc in H3. auto.
Qed.
Lemma series_decoder : forall dbg rayon files, series [] files -> Forall bytes (map coded_bytes files) /\
  retains dbg decoder_default (decoder_after dbg rayon (map coded_bytes files)) (all_segs files).
Proof.
  intros dbg rayon files. induction files as [|f files IH] using rev_ind; intros H.
  - split; [constructor|]. apply header_retains. pose proof fresh_slots as [A [B C]]. constructor; cbn; auto using quant_same, dc_same, ac_same.
  - apply series_split in H. destruct H as [H [E _]]. cbn [app] in E. destruct (IH H) as [Bs R]. pose proof (bytes_without _ _ (proj2 (proj2 E))) as Bf.
    split; [rewrite map_app; apply Forall_app; split; [exact Bs|constructor; [exact Bf|constructor]]|].
    destruct (after_kept dbg rayon _ Bs) as [_ [_ K3]].
    destruct (file_reused dbg rayon _ _ f (after_reachable dbg rayon _ Bs) E Bf (retained_left _)) as [u' [D R']].
    { intros f' u' Hf Hu. eapply retained_cov; eauto. }
    rewrite map_app. cbn [map]. rewrite decoder_after_snoc, D. cbn [fst]. unfold all_segs. rewrite flat_map_app. cbn [flat_map]. rewrite app_nil_r. eapply retains_app; eauto.
Qed.
Lemma series_answer : forall dbg rayon files f, series [] (files ++ [f]) ->
  snd (decode dbg rayon (decoder_after dbg rayon (map coded_bytes files)) (coded_bytes f)) = decode_fresh dbg rayon (bytes_with (retained (all_segs files)) f).
Proof.
  intros dbg rayon files f H. apply series_split in H. destruct H as [H [E _]]. cbn [app] in E. destruct (series_decoder dbg rayon files H) as [Bs R].
  destruct (after_kept dbg rayon _ Bs) as [_ [_ K3]].
  destruct (file_reused dbg rayon _ _ f (after_reachable dbg rayon _ Bs) E (bytes_without _ _ (proj2 (proj2 E))) (retained_left _)) as [u' [D _]].
  { intros f' u' Hf Hu. eapply retained_cov; eauto. }
  rewrite D. reflexivity.
Qed.
