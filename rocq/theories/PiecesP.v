(** Decoding encoded files in pieces. *)
From Verif Require Import Framed SpecFramed FramedP.
From Verif Require Import Base Tactics SpecBits SpecReader SpecMarker Biterator Huffman Marker Types Parsers Decode SpecGlobal SpecStream ExtP StreamP StreamP2 InvP GlobalP.
From Verif Require Import SpecHuffman SpecBlock SpecTables SpecFrame SpecSegments SpecScan SpecPlane SpecUpsample SpecImage SpecColor SpecFile SpecAnswer SpecPieces.
From Verif Require Import ReuseP TraceP MarkerP FileP AnswerP3.

(** ** Chains of configurations whose decoders all satisfy [P] *)
Definition dec_of (c : pc * decoder * biter) : decoder := snd (fst c).
Inductive along (P : decoder -> Prop) (dbg rerun rayon : bool) (c : pc * decoder * biter) : pc * decoder * biter -> Prop :=
| along_here : P (dec_of c) -> along P dbg rerun rayon c c
| along_next : forall c1 c2, along P dbg rerun rayon c c1 -> moves dbg rerun rayon c2 c1 -> P (dec_of c2) -> along P dbg rerun rayon c c2.

Lemma along_end : forall P dbg rerun rayon c c', along P dbg rerun rayon c c' -> P (dec_of c').
Proof. intros P dbg rerun rayon c c' H. destruct H; assumption. Qed.
Lemma along_trans : forall P dbg rerun rayon c1 c2 c3, along P dbg rerun rayon c1 c2 -> along P dbg rerun rayon c2 c3 -> along P dbg rerun rayon c1 c3.
Proof. intros P dbg rerun rayon c1 c2 c3 A B. induction B; [exact A|]. eapply along_next; eauto. Qed.
Lemma along_from : forall P dbg rerun rayon c c', along P dbg rerun rayon c c' -> from dbg rerun rayon c c'.
Proof. intros P dbg rerun rayon c c' H. induction H; [apply from_here|eapply from_next; eauto]. Qed.
Lemma moves_det : forall dbg rerun rayon c c1 c2, moves dbg rerun rayon c1 c -> moves dbg rerun rayon c2 c -> c1 = c2.
Proof. intros dbg rerun rayon [[p d] b] [[p1 d1] b1] [[p2 d2] b2] A B. cbn [moves] in *. congruence. Qed.
Lemma along_cut : forall P dbg rayon c c' x, along P dbg false rayon c c' -> from dbg false rayon c x -> P (dec_of x) \/ from dbg false rayon c' x.
Proof.
  intros P dbg rayon c c' x A F. induction A as [|c1 c2 A IH M H]; [right; exact F|]. destruct IH as [IH|IH]; [left; exact IH|].
  destruct c1 as [[p1 d1] b1], x as [[px dx] bx]. apply from_cases in IH. destruct IH as [IH|[p' [d' [b' [S IH]]]]].
  - left. rewrite IH. exact (along_end _ _ _ _ _ _ A).
  - right. rewrite (moves_det _ _ _ _ _ (p', d', b') M S). exact IH.
Qed.
(** More input changes nothing. *)
Definition ext_conf (s : list Z) (c : pc * decoder * biter) : pc * decoder * biter := (fst c, ext s (snd c)).
Lemma along_ext : forall s P dbg rerun rayon c c', along P dbg rerun rayon c c' -> along P dbg rerun rayon (ext_conf s c) (ext_conf s c').
Proof.
  intros s P dbg rerun rayon c c' H. induction H as [H|c1 c2 H IH M N]; [apply along_here; exact H|]. eapply along_next; [exact IH| |exact N].
  destruct c1 as [[p1 d1] b1], c2 as [[p2 d2] b2]. cbn [moves ext_conf fst snd] in *. exact (step_ext s _ _ _ _ _ _ _ _ _ M).
Qed.

(** ** What AC tables and restart intervals a decoder has *)
Lemma store_ac : forall dbg d c th ls vs d1, store_huffman dbg d c th ls vs = Ok d1 -> c = DC -> d_ac d1 = d_ac d.
Proof. intros dbg d c th ls vs d1 E ->. unfold store_huffman in E. binv E. binv E. inv E. reflexivity. Qed.
Lemma quant_ac : forall fuel d i, d_ac (fst (seg_dqt fuel d i)) = d_ac d.
Proof.
  induction fuel as [|fuel IH]; intros d i; destruct i as [|x i]; try reflexivity; cbn [seg_dqt].
  destruct (dqt (x :: i)) as [[[tq t] i']|e|q|]; try reflexivity. destruct (store_quant d tq t) as [d1|e|q|] eqn:E; try reflexivity.
  rewrite IH. unfold store_quant in E. binv E. binv E. inv E. reflexivity.
Qed.
Lemma step_ac : forall dbg rerun rayon p d b d' b' s, step dbg rerun rayon p d b = (d', b', s) -> p <> PcSegment DHT -> d_ac d' = d_ac d.
Proof.
  intros dbg rerun rayon p d b d' b' s E N. destruct p as [|m|final todo ph]; cbn [step] in E.
  - destruct (parse_marker (bi_input b)) as [[m rest]|[]|q|]; try (inv E; reflexivity). destruct m; try (inv E; reflexivity). destruct (upsample_image dbg rayon d); inv E; reflexivity.
  - destruct (no_segment m); [inv E; reflexivity|]. destruct (segment_data dbg (bi_input b)) as [[data rest]|[]|q|]; try (inv E; reflexivity).
    assert (X : (let '(d1, r) := seg_payload dbg m d data in seg_end m d1 (mkBiter rest (bi_bits b) (bi_count b)) r) = (d', b', s) -> d_ac d' = d_ac d).
    { assert (K : d_ac (fst (seg_payload dbg m d data)) = d_ac d).
      { destruct m; cbn [seg_payload]; try reflexivity; try congruence.
        - destruct (sof dbg n data) as [[f i]| | |]; reflexivity.
        - apply quant_ac.
        - destruct (p_u16 data) as [[r i]| | |]; reflexivity.
        - destruct (n =? 14); [|reflexivity]. destruct (app_adobe data) as [[t i]| | |]; reflexivity. }
      destruct (seg_payload dbg m d data) as [d1 r]. intros Q. unfold seg_end in Q. destruct r as [u|[]| |]; inv Q; exact K. }
    destruct m; try exact (X E). clear X. unfold do_sos in E. destruct (sos_segment (d_frame d) data) as [[sc i]|[]| |]; try (inv E; reflexivity).
    assert (K : d_ac (fst (sos_begin dbg d sc)) = d_ac d).
    { unfold sos_begin. cbn [set_scan d_frame d_finished]. destruct (d_frame d) as [fr|]; [|reflexivity]. destruct (coding_process fr) as [[]| | |]; try reflexivity;
        (destruct (if s_low sc =? 0 then _ else _) as [fin| | |]; reflexivity). }
    destruct (sos_begin dbg d sc) as [d1 [final|e|q|]]; try (inv E; exact K).
    destruct (scan_init final d1) as [d2| | |] eqn:SI; try (inv E; exact K). apply scan_init_kept in SI. destruct SI as [s0 ->]. inv E. exact K.
  - destruct (scan_loop dbg rerun final todo ph d b) as [[d1 b1] r] eqn:SL. destruct (scan_loop_ext [] _ _ _ _ _ _ _ _ _ _ SL) as [[s0 ->] _].
    destruct r; try (inv E; reflexivity). unfold scan_finish in E. cbn [set_ss d_scan] in E. destruct (d_scan d) as [sc|]; [|inv E; reflexivity]. cbv zeta in E.
    destruct (take_planes _ _) as [[ps rr]| | |]; cbn [bind] in E; inv E; reflexivity.
Qed.

(** A table with harmless values is harmless. *)
Lemma symbol_harmless : forall v, ~ eob_run v -> symbol_ok v = true.
Proof. intros v N. unfold symbol_ok, eob_run in *. destruct (Z.land v 15 =? 0) eqn:A; [|reflexivity]. destruct (0 <? Z.shiftr v 4) eqn:B; [|reflexivity]. destruct (Z.shiftr v 4 =? 15) eqn:C; [reflexivity|]. exfalso. apply N. lia. Qed.
Lemma Forall_front : forall A (P : A -> Prop) n l, Forall P l -> Forall P (firstn n l) /\ Forall P (skipn n l).
Proof. intros A P n l F. rewrite <- (firstn_skipn n l) in F. apply Forall_app in F. exact F. Qed.
Lemma build_lut_ok : forall sizes i hc values lut lut', Forall (fun v => symbol_ok v = true) values -> Forall (fun e => symbol_ok (fst e) = true) lut ->
  build_lut i sizes hc values lut = Ok lut' -> Forall (fun e : Z * Z => symbol_ok (fst e) = true) lut'.
Proof.
  induction sizes as [|size sizes IH]; intros i hc values lut lut' V L E; cbn [build_lut] in E; [inv E; exact L|].
  destruct (size <=? LUT_BITS); [|eapply IH; eauto]. binv E. cbv zeta in E. binv E. binv E. eapply IH; [exact V| |exact E].
  apply index_in in E1. rewrite Forall_forall in V. unfold fill_slots in E2. destruct (_ && _); [|discriminate]. inv E2.
  apply Forall_app. split; [apply Forall_front; exact L|]. apply Forall_app. split; [|apply Forall_front; exact L].
  apply Forall_forall. intros e Ie. apply repeat_spec in Ie. subst e. apply V. exact E1.
Qed.
Lemma pad_ok : forall (P : Z -> Prop) n x l, P x -> Forall P l -> Forall P (pad_to n x l).
Proof. intros P n x l Px F. unfold pad_to. apply Forall_front. apply Forall_app. split; [exact F|]. apply Forall_forall. intros y Iy. apply repeat_spec in Iy. subst y. exact Px. Qed.
Lemma new_table_ok : forall dbg counts values t, Forall (fun v => ~ eob_run v) values -> ac_new dbg counts values = Ok t -> table_ok t = true.
Proof.
  intros dbg counts values t V E. unfold ac_new in E. binv E. inv E. unfold table_new in E0. do 5 binv E0. binv E0. destruct a5 as [vo mc]. binv E0. inv E0.
  assert (W : Forall (fun v => symbol_ok v = true) values) by (eapply Forall_impl; [|exact V]; intros v; apply symbol_harmless).
  unfold table_ok. cbn [ac_table_base t_values t_lut]. apply andb_true_intro. split; apply forallb_forall; apply Forall_forall.
  - apply (pad_ok (fun v => symbol_ok v = true)); [reflexivity|exact W].
  - eapply build_lut_ok; [exact W| |exact E6]. apply Forall_forall. intros e Ie. apply repeat_spec in Ie. subst e. reflexivity.
Qed.
Lemma slots_ok : forall dbg before after ts, ac_slots dbg before after ts -> length before = 4%nat ->
  Forall (fun t => th_class t = AC -> Forall (fun v => ~ eob_run v) (th_values t)) ts ->
  forallb (fun o => match o with Some t => table_ok t | None => true end) before = true ->
  forallb (fun o => match o with Some t => table_ok t | None => true end) after = true.
Proof.
  intros dbg before after ts [L A] Lb F B. rewrite forallb_forall in *. intros o Io. apply In_nth_error in Io. destruct Io as [k Ek].
  assert (Hk : (k < 4)%nat) by (rewrite <- L; apply nth_error_Some; congruence). specialize (A k Hk). pose proof (nth_error_nth _ _ None Ek) as En.
  destruct (last_entry (is_slot AC k) ts) as [t|] eqn:El.
  - destruct A as [tab [E1 E2]]. rewrite En in E1. rewrite E1. apply entry_in in El. destruct El as [It Is]. rewrite Forall_forall in F.
    apply (new_table_ok dbg (th_counts t) (th_values t)); [|exact E2]. apply F; [exact It|]. unfold is_slot in Is. destruct (th_class t); [|reflexivity]. cbn in Is. discriminate.
  - rewrite En in A. rewrite A. apply B. apply nth_In. lia.
Qed.

(** ** A segment, a header, a scan *)
Section Chain.
Variable P : decoder -> Prop.
Hypothesis same : forall d d', d_ac d' = d_ac d -> d_restart d' = d_restart d -> P d -> P d'.
Variables (dbg rayon : bool).
Variable all : list (nat * hseg).
Hypothesis grows : forall d d' s, In s all -> four_slots d -> header_state dbg d d' [s] -> P d -> P d'.

Lemma along_segments : forall bits count segs d junk rest, incl segs all -> P d -> four_slots d -> Forall (fun s => hseg_ok (snd s)) segs -> no_marker junk ->
  exists d' junk', along P dbg false rayon (PcMarker, d, mkBiter (junk ++ flat_map hseg_bytes segs ++ rest) bits count) (PcMarker, d', mkBiter (junk' ++ rest) bits count) /\
    no_marker junk' /\ four_slots d' /\ header_state dbg d d' segs.
Proof.
  intros bits count. induction segs as [|s segs IH]; intros d junk rest Inc Pd F4 F J.
  - exists d, junk. splits; [apply along_here; exact Pd|exact J|exact F4|]. destruct F4 as [A [B C]]. constructor; cbn; auto using quant_same, dc_same, ac_same.
  - inv F. destruct (hseg_moves dbg false rayon bits count d junk s (flat_map hseg_bytes segs ++ rest) F4 H1 J) as [d1 [m [b1 [M1 [M2 [J1 [F1 S1]]]]]]].
    assert (P1 : P d1) by (apply (grows d d1 s); auto; apply Inc; left; reflexivity).
    destruct (IH d1 (left_over s) rest) as [d2 [j2 [E2 [J2 [F2 S2]]]]]; auto. { intros x Ix. apply Inc. right. exact Ix. }
    exists d2, j2. splits; auto; [|apply (header_app dbg d d1 d2 [s] segs); auto]. cbn [flat_map]. rewrite <- app_assoc. eapply along_trans; [|exact E2].
    eapply along_next; [eapply along_next; [apply along_here; exact Pd|exact M1|exact Pd]|exact M2|exact P1].
Qed.

Lemma along_file : forall segs h fill1 fill2 ss ts qs ms data post fill3, encodes segs h ss ts qs ms data -> post_ok post ->
  let file := file_bytes segs fill1 fill2 (mkSpS ss 0 63 0 0) data post fill3 in bytes file -> all = segs ++ post -> P decoder_default ->
  exists d b junk, along P dbg false rayon (PcMarker, decoder_default, biter_new file) (PcMarker, d, b) /\ bi_input b = junk ++ marker_bytes fill3 0xD9 /\ no_marker junk.
Proof.
  intros segs h fill1 fill2 ss ts qs ms data post fill3 [F Sf ND L4 Few CC Sh Lm SD] [Fp Sop] file Bf Ea P0.
  set (cs := fh_comps h) in *. set (lines := fh_lines h) in *. set (samples := fh_samples h) in *.
  destruct (post_marker post fill3 Fp) as [f [code [more [Et Hc]]]].
  destruct (sof_ok segs h F ltac:(rewrite Sf; left; reflexivity)) as [Fm HO]. fold cs lines samples in HO.
  set (tail := marker_bytes fill2 0xDA ++ segment (sos_bytes (mkSpS ss 0 63 0 0)) ++ data ++ marker_bytes f code ++ more).
  assert (Ef : file = marker_bytes fill1 0xD8 ++ flat_map hseg_bytes segs ++ tail) by (unfold file, file_bytes, tail; rewrite Et; reflexivity).
  assert (Bm : bytes more) by (unfold bytes in *; rewrite Ef in Bf; unfold tail in Bf; rewrite !Forall_app in Bf; tauto).
  assert (S1 : along P dbg false rayon (PcMarker, decoder_default, biter_new file)
    (PcMarker, decoder_default, mkBiter ([] ++ flat_map hseg_bytes segs ++ tail) 0 0)).
  { apply (along_next _ _ _ _ _ (PcSegment SOI, decoder_default, mkBiter (flat_map hseg_bytes segs ++ tail) 0 0)); [|reflexivity|exact P0]. eapply along_next; [apply along_here; exact P0| |exact P0]. cbn [moves biter_new]. rewrite Ef.
    apply (marker_step dbg false rayon decoder_default [] fill1 0xD8 SOI); [constructor|constructor|discriminate]. }
  destruct (along_segments 0 0 segs decoder_default [] tail ltac:(rewrite Ea; intros x Ix; apply in_or_app; left; exact Ix) P0 ltac:(split; [|split]; reflexivity) F ltac:(constructor)) as [d1 [junk [S2 [J [F4 [H1 H2 H3 H5 H6 H7 H8 H9 _]]]]]].
  pose proof (along_end _ _ _ _ _ _ S2) as P1. cbn [dec_of fst snd] in P1.
  rewrite Sf in H6. cbn [map last] in H6. cbn [decoder_default d_qt d_dc d_ac d_restart d_color d_finished] in *.
  assert (S3 : along P dbg false rayon (PcMarker, d1, mkBiter (junk ++ tail) 0 0) (PcSegment SOS, d1, mkBiter (segment (sos_bytes (mkSpS ss 0 63 0 0)) ++ data ++ marker_bytes f code ++ more) 0 0)).
  { eapply along_next; [apply along_here; exact P1| |exact P1]. cbn [moves]. apply (marker_step dbg false rayon d1 junk fill2 0xDA SOS); [exact J|constructor|discriminate]. }
  destruct (sos_moves dbg rayon segs d1 (fh_marker h) (fh_precision h) lines samples cs ss ts qs ms data f code more Hc Bm F HO Fm H6 H5) as [d2 [b2 [ds [[todo [d3 [b3 [M1 M2]]]] [Ei [_ [_ [Fs2 _]]]]]]]]; auto.
  { rewrite H5. apply dri_nonneg. exact F. }
  assert (P3 : P d3). { cbn [moves] in M1. apply (same d1); [exact (step_ac _ _ _ _ _ _ _ _ _ M1 ltac:(discriminate))|exact (proj1 (step_kept _ _ _ _ _ _ _ _ _ M1) ltac:(discriminate))|exact P1]. }
  assert (P2 : P d2). { cbn [moves] in M2. apply (same d3); [exact (step_ac _ _ _ _ _ _ _ _ _ M2 ltac:(discriminate))|exact (proj1 (step_kept _ _ _ _ _ _ _ _ _ M2) ltac:(discriminate))|exact P3]. }
  rewrite <- Et in Ei. destruct b2 as [i2 bits2 count2]. cbn [bi_input] in Ei. subst i2.
  destruct (along_segments bits2 count2 post d2 (stuff ds) (marker_bytes fill3 0xD9) ltac:(rewrite Ea; intros x Ix; apply in_or_app; right; exact Ix) P2 (Fs2 F4) Fp (no_marker_stuff ds)) as [d5 [j5 [S5 [J5 _]]]].
  exists d5, (mkBiter (j5 ++ marker_bytes fill3 0xD9) bits2 count2), j5. split; [|split; [reflexivity|exact J5]].
  eapply along_trans; [exact S1|]. eapply along_trans; [exact S2|]. eapply along_trans; [exact S3|]. eapply along_trans; [|exact S5].
  eapply along_next; [eapply along_next; [apply along_here; exact P1|exact M1|exact P3]|exact M2|exact P2].
Qed.

(** Every state passed through on the file, whatever follows it, satisfies [P]. *)
Lemma passes_file : forall segs h fill1 fill2 ss ts qs ms data post fill3 s, encodes segs h ss ts qs ms data -> post_ok post ->
  let file := file_bytes segs fill1 fill2 (mkSpS ss 0 63 0 0) data post fill3 in bytes file -> all = segs ++ post -> P decoder_default ->
  forall d, passes dbg rayon (file ++ s) d -> P d.
Proof.
  intros segs h fill1 fill2 ss ts qs ms data post fill3 s En PO file Bf Ea P0 d [p [b F]].
  destruct (along_file segs h fill1 fill2 ss ts qs ms data post fill3 En PO Bf Ea P0) as [d5 [b5 [j5 [A [Eb J]]]]]. fold file in A.
  pose proof (along_ext s _ _ _ _ _ _ A) as A'. change (ext_conf s (PcMarker, decoder_default, biter_new file)) with (PcMarker, decoder_default, biter_new (file ++ s)) in A'.
  destruct (along_cut _ _ _ _ _ _ A' F) as [X|X]; [exact X|]. cbn [ext_conf fst snd] in X. apply from_cases in X. destruct X as [X|[p' [d' [b' [S _]]]]].
  - injection X as _ <- _. exact (along_end _ _ _ _ _ _ A).
  - exfalso. cbn [step] in S. assert (PM : parse_marker (bi_input (ext s b5)) = Ok (EOI, s)).
    { apply parse_marker_ok. exists 0xD9. split; [constructor|]. exists j5, fill3. split; [exact J|]. split; [lia|]. split; [lia|]. cbn [ext bi_input]. rewrite Eb. unfold marker_bytes. rewrite <- !app_assoc. reflexivity. }
    cbn [snd] in S. rewrite PM in S. destruct (upsample_image dbg rayon d5); discriminate S.
Qed.
End Chain.

Lemma file_no_eob : forall dbg rayon segs h fill1 fill2 ss ts qs ms data post fill3 s, encodes segs h ss ts qs ms data -> post_ok post ->
  let file := file_bytes segs fill1 fill2 (mkSpS ss 0 63 0 0) data post fill3 in bytes file -> sequential_tables (segs ++ post) -> no_eob_runs dbg rayon (file ++ s).
Proof.
  intros dbg rayon segs h fill1 fill2 ss ts qs ms data post fill3 s En PO file B Sq d Pd. apply tables_ok_sound.
  apply (passes_file (fun d => tables_ok d = true)) with (dbg := dbg) (rayon := rayon) (all := segs ++ post) (segs := segs) (h := h) (fill1 := fill1) (fill2 := fill2) (ss := ss) (ts := ts) (qs := qs) (ms := ms) (data := data) (post := post) (fill3 := fill3) (s := s); auto.
  - intros d0 d' E _ T. unfold tables_ok. rewrite E. exact T.
  - intros d0 d' x Ix [_ [L _]] HS T. apply (slots_ok dbg (d_ac d0) (d_ac d') (dhts [x])); [apply HS|exact L| |exact T].
    apply Forall_forall. intros t It. unfold sequential_tables in Sq. rewrite Forall_forall in Sq. apply Sq. unfold dhts in *. apply in_flat_map. exists x. split; [exact Ix|].
    cbn [flat_map] in It. rewrite app_nil_r in It. exact It.
Qed.
Lemma file_no_restarts : forall dbg rayon segs h fill1 fill2 ss ts qs ms data post fill3 s, encodes segs h ss ts qs ms data -> post_ok post ->
  let file := file_bytes segs fill1 fill2 (mkSpS ss 0 63 0 0) data post fill3 in bytes file -> no_intervals (segs ++ post) -> no_restarts dbg rayon (file ++ s).
Proof.
  intros dbg rayon segs h fill1 fill2 ss ts qs ms data post fill3 s En PO file B Ni d Pd.
  apply (passes_file (fun d => d_restart d = 0)) with (dbg := dbg) (rayon := rayon) (all := segs ++ post) (segs := segs) (h := h) (fill1 := fill1) (fill2 := fill2) (ss := ss) (ts := ts) (qs := qs) (ms := ms) (data := data) (post := post) (fill3 := fill3) (s := s); auto.
  - intros d0 d' _ E T. congruence.
  - intros d0 d' x Ix _ [_ _ _ HD _ _ _ _ _] T. rewrite HD, T. unfold no_intervals in Ni. rewrite Forall_forall in Ni. assert (Z : forall n, In n (dris [x]) -> n = 0).
    { intros n In0. apply Ni. unfold dris in *. apply in_flat_map. exists x. split; [exact Ix|]. cbn [flat_map] in In0. rewrite app_nil_r in In0. exact In0. }
    clear - Z. induction (dris [x]) as [|n l IH]; [reflexivity|]. cbn [last]. destruct l; [apply Z; left; reflexivity|]. apply IH. intros m Im. apply Z. right. exact Im.
Qed.

(** ** The answer in pieces *)
Lemma file_run : forall dbg rayon segs h fill1 fill2 ss ts qs ms data post fill3, encodes segs h ss ts qs ms data -> post_ok post ->
  let file := file_bytes segs fill1 fill2 (mkSpS ss 0 63 0 0) data post fill3 in bytes file ->
  exists d b r, run dbg false rayon (run_fuel (biter_new file)) PcMarker decoder_default (biter_new file) = (d, b, r) /\ bi_input b = [] /\ ~ is_need r /\
    (forall e, r <> RFail e) /\ r <> RUB /\ r <> RPanic PFuel /\ answer r = lift (decode_fresh dbg rayon file) /\ lift (decode_fresh dbg rayon file) <> Ok None.
Proof.
  intros dbg rayon segs h fill1 fill2 ss ts qs ms data post fill3 En PO file Bf.
  destruct (along_file (fun _ => True) ltac:(auto) dbg rayon (segs ++ post) ltac:(auto) segs h fill1 fill2 ss ts qs ms data post fill3 En PO Bf eq_refl Logic.I) as [d5 [b5 [j5 [A [Eb J]]]]].
  fold file in A. apply along_from in A.
  assert (NF : decode_fresh dbg rayon file <> Panic PFuel) by exact (decode_no_fuel dbg rayon decoder_default file ltac:(constructor) Bf).
  assert (NU : decode_fresh dbg rayon file <> UB) by exact (decode_no_ub dbg rayon decoder_default file ltac:(constructor) Bf).
  assert (PM : parse_marker (bi_input b5) = Ok (EOI, [])).
  { apply parse_marker_ok. exists 0xD9. split; [constructor|]. exists j5, fill3. split; [exact J|]. split; [lia|]. split; [lia|]. rewrite Eb. unfold marker_bytes. reflexivity. }
  set (r := match upsample_image dbg rayon d5 with Ok img => RImage img | Fail e => RError e | Panic p => RPanic p | UB => RUB end).
  assert (E : step dbg false rayon PcMarker d5 b5 = (d5, mkBiter [] (bi_bits b5) (bi_count b5), SStop r)) by (cbn [step]; rewrite PM; unfold r; destruct (upsample_image dbg rayon d5); reflexivity).
  destruct (run dbg false rayon (run_fuel (biter_new file)) PcMarker decoder_default (biter_new file)) as [[d' b'] r'] eqn:ER.
  pose proof (decode_no_fuel dbg rayon decoder_default file ltac:(constructor) Bf) as ND. unfold decode_fresh, decode in ND, NF, NU |- *. rewrite ER in *. cbn [snd] in *.
  assert (R : runs_to dbg false rayon (PcMarker, decoder_default, biter_new file) (d', b', r')).
  { exists (run_fuel (biter_new file)). split; [exact ER|]. cbn [snd]. intros ->. apply ND. reflexivity. }
  assert (W : (d', b', r') = (d5, mkBiter [] (bi_bits b5) (bi_count b5), r)).
  { clear - A R E. remember (PcMarker, decoder_default, biter_new file) as c0. clear Heqc0. revert R.
    assert (G : forall c c', from dbg false rayon c c' -> runs_to dbg false rayon c (d', b', r') -> runs_to dbg false rayon c' (d', b', r')).
    { intros c c' H. induction H as [|c1 c2 H IH M]; [auto|]. intros R. apply IH in R. destruct c1 as [[p1 d1] b1], c2 as [[p2 d2] b2]. cbn [moves] in M. apply (runs_next _ _ _ _ _ _ _ _ _ _ M). exact R. }
    intros R. apply (G _ _ A) in R. exact (runs_stop _ _ _ _ _ _ _ _ _ _ E R). }
  injection W as -> -> ->. eexists _, _, _. split; [reflexivity|]. cbn [bi_input] in *. split; [reflexivity|].
  unfold r in *. destruct (upsample_image dbg rayon d5); cbn [is_need answer lift] in *; splits; auto; try discriminate; congruence.
Qed.

Section Pieces.
Variables (dbg rerun rayon : bool) (segs : list (nat * hseg)) (h : frame_header) (fill1 fill2 : nat) (ss : list scan_comp) (ts : list tables) (qs : list (list Z)) (ms : list mcu) (data : list Z).
Variables (post : list (nat * hseg)) (fill3 : nat) (s : list Z) (chunks : list (list Z)).
Hypothesis En : encodes segs h ss ts qs ms data.
Hypothesis PO : post_ok post.
Let file := file_bytes segs fill1 fill2 (mkSpS ss 0 63 0 0) data post fill3.
Hypothesis Sq : sequential_tables (segs ++ post).
Hypothesis Ni : rerun = false \/ no_intervals (segs ++ post).
Hypothesis Bc : Forall bytes chunks.

Lemma bytes_concat : forall l, Forall bytes l -> bytes (concat l).
Proof. intros l F. unfold bytes in *. induction F; cbn [concat]; [constructor|]. apply Forall_app. auto. Qed.

Lemma pieces_tail : concat chunks = file ++ s ->
  exists done c rest k0 buf0 k buf', chunks = done ++ c :: rest /\
    codec_feed dbg rerun rayon codec_new [] done = (k0, buf0, Ok None) /\
    codec_decode dbg rerun rayon k0 (buf0 ++ c) = (k, buf', lift (decode_fresh dbg rayon file)) /\
    (exists l, l ++ concat rest = s /\ ((forall p, decode_fresh dbg rayon file <> Panic p) -> l = buf')) /\ lift (decode_fresh dbg rayon file) <> Ok None.
Proof.
  intros EC. pose proof (bytes_concat _ Bc) as B. rewrite EC in B. unfold bytes in B. apply Forall_app in B. destruct B as [Bf _].
  destruct (file_run dbg rayon segs h fill1 fill2 ss ts qs ms data post fill3 En PO Bf) as [d [b [r [E [EI [N1 [N2 [N4 [N3 [A1 A2]]]]]]]]]]. fold file in E, A1, A2.
  apply (run_ext_done s) in E; auto. change (ext s (biter_new file)) with (biter_new (file ++ s)) in E. rewrite <- EC in E.
  assert (E2 : run dbg false rayon (run_fuel (biter_new (concat chunks))) PcMarker decoder_default (biter_new (concat chunks)) = (d, ext s b, r)).
  { rewrite <- E. apply run_more; [rewrite E; exact N3|]. unfold run_fuel, biter_new. cbn [bi_input]. rewrite EC, app_length. lia. }
  destruct (feed_any dbg rerun rayon chunks d (ext s b) r Bc E2 N1 N3) as [done [c [rest [k0 [buf0 [buf' [H0 [H1 [H3 H2]]]]]]]]].
  - rewrite EC. exact (file_no_eob dbg rayon segs h fill1 fill2 ss ts qs ms data post fill3 s En PO Bf Sq).
  - destruct Ni as [X|X]; [left; exact X|right]. rewrite EC. exact (file_no_restarts dbg rayon segs h fill1 fill2 ss ts qs ms data post fill3 s En PO Bf X).
  - exists done, c, rest, k0, buf0. eexists _, buf'. splits; [exact H0|exact H1|rewrite <- A1; exact H3| |exact A2].
    assert (H4 : bi_input (ext s b) = s) by (cbn [ext bi_input]; rewrite EI; reflexivity).
    destruct r; try (exists buf'; split; [rewrite <- H4; exact H2|reflexivity]); destruct H2 as [l H2]; exists l; (split; [rewrite <- H4; exact H2|]); intros NP; exfalso;
      cbn [answer] in A1; destruct (decode_fresh dbg rayon file) eqn:Ed; try discriminate A1; try (eapply NP; reflexivity); try contradiction; try (eapply N2; reflexivity); try (apply N4; reflexivity); exact (N1 Logic.I).
Qed.

Lemma pieces_feed : concat chunks = file ++ s -> exists k buf, codec_feed dbg rerun rayon codec_new [] chunks = (k, buf, lift (decode_fresh dbg rayon file)).
Proof.
  intros EC. destruct (pieces_tail EC) as [done [c [rest [k0 [buf0 [k [buf' [-> [H0 [H1 [_ H3]]]]]]]]]]]. eexists _, _. eapply feed_done; eauto.
Qed.
Lemma pieces_read : concat chunks = file ++ s -> snd (read_decode dbg rerun rayon codec_new [] chunks) = decode_fresh dbg rayon file.
Proof.
  intros EC. destruct (pieces_feed EC) as [k [buf E]]. rewrite read_feed, E. destruct (decode_fresh dbg rayon file); reflexivity.
Qed.
End Pieces.

Lemma pieces_early : forall dbg rerun rayon segs h fill1 fill2 ss ts qs ms data post fill3 chunks s, encodes segs h ss ts qs ms data -> post_ok post ->
  let file := file_bytes segs fill1 fill2 (mkSpS ss 0 63 0 0) data post fill3 in sequential_tables (segs ++ post) -> rerun = false \/ no_intervals (segs ++ post) ->
  Forall bytes chunks -> bytes s -> s <> [] -> concat chunks ++ s = file ->
  exists k buf, codec_feed dbg rerun rayon codec_new [] chunks = (k, buf, Ok None).
Proof.
  intros dbg rerun rayon segs h fill1 fill2 ss ts qs ms data post fill3 chunks s En PO file Sq Ni Bc Bs Ns EC.
  assert (EC2 : concat (chunks ++ [s]) = file ++ []) by (rewrite concat_app; cbn [concat]; rewrite !app_nil_r; exact EC).
  destruct (pieces_tail dbg rerun rayon segs h fill1 fill2 ss ts qs ms data post fill3 [] (chunks ++ [s]) En PO Sq Ni ltac:(apply Forall_app; split; auto) EC2) as [done [c [rest [k0 [buf0 [k [buf' [H0 [H1 [_ [[l [H2 _]] _]]]]]]]]]]].
  apply app_eq_nil in H2. destruct H2 as [_ H2].
  destruct rest as [|r0 rest] using rev_ind.
  - apply app_inj_tail in H0. destruct H0 as [-> ->]. eauto.
  - exfalso. rewrite app_comm_cons, app_assoc in H0. apply app_inj_tail in H0. destruct H0 as [_ <-].
    rewrite concat_app in H2. apply app_eq_nil in H2. destruct H2 as [_ H2]. cbn in H2. rewrite app_nil_r in H2. auto.
Qed.

(** ** Readers whose reads fail *)
Lemma pieces_retry : forall dbg rerun rayon segs h fill1 fill2 ss ts qs ms data post fill3 evs c rest answers, encodes segs h ss ts qs ms data -> post_ok post ->
  let file := file_bytes segs fill1 fill2 (mkSpS ss 0 63 0 0) data post fill3 in sequential_tables (segs ++ post) -> rerun = false \/ no_intervals (segs ++ post) ->
  bytes file -> c <> [] -> delivered evs ++ c = file ->
  session dbg rerun rayon codec_new [] (evs ++ Data c :: rest) answers <-> answers = repeat AIo (io_errors evs) ++ [answered (decode_fresh dbg rayon file)].
Proof.
  intros dbg rerun rayon segs h fill1 fill2 ss ts qs ms data post fill3 evs c rest answers En PO file Sq Ni B Nc EC.
  assert (B' := B). rewrite <- EC in B'. apply Forall_app in B'. destruct B' as [B1 B2]. pose proof (bytes_chunks evs B1) as BC.
  destruct (pieces_early dbg rerun rayon segs h fill1 fill2 ss ts qs ms data post fill3 ([] :: map chunk_of evs) c En PO Sq Ni BC B2 Nc EC) as [k1 [buf1 F1]].
  destruct (pieces_feed dbg rerun rayon segs h fill1 fill2 ss ts qs ms data post fill3 [] (([] :: map chunk_of evs) ++ [c]) En PO Sq Ni) as [k2 [buf2 F2]].
  { apply Forall_app. split; [exact BC|]. constructor; [exact B2|constructor]. }
  { rewrite concat_app. cbn [concat app]. rewrite !app_nil_r. exact EC. }
  fold file in F2. rewrite feed_app, F1 in F2. cbn [codec_feed] in F2.
  destruct (codec_decode dbg rerun rayon k1 (buf1 ++ c)) as [[k3 buf3] r] eqn:E3.
  assert (r = lift (decode_fresh dbg rayon file)) as -> by (destruct r as [[i|]|e|p|]; congruence).
  assert (NN : lift (decode_fresh dbg rayon file) <> Ok None) by (destruct (decode_fresh dbg rayon file); discriminate).
  pose proof (session_wait dbg rerun rayon evs codec_new [] k1 buf1 c rest k3 buf3 _ F1 E3 NN) as S.
  replace (ans (lift (decode_fresh dbg rayon file))) with (answered (decode_fresh dbg rayon file)) in S by (destruct (decode_fresh dbg rayon file); reflexivity).
  split; [intros H; eapply session_det; [exact H|exact S]|intros ->; exact S].
Qed.
Lemma pieces_cut : forall dbg rerun rayon segs h fill1 fill2 ss ts qs ms data post fill3 evs s answers, encodes segs h ss ts qs ms data -> post_ok post ->
  let file := file_bytes segs fill1 fill2 (mkSpS ss 0 63 0 0) data post fill3 in sequential_tables (segs ++ post) -> rerun = false \/ no_intervals (segs ++ post) ->
  bytes file -> s <> [] -> delivered evs ++ s = file ->
  session dbg rerun rayon codec_new [] evs answers <-> answers = repeat AIo (io_errors evs) ++ [AError EEof].
Proof.
  intros dbg rerun rayon segs h fill1 fill2 ss ts qs ms data post fill3 evs s answers En PO file Sq Ni B Ns EC.
  assert (B' := B). rewrite <- EC in B'. apply Forall_app in B'. destruct B' as [B1 B2]. pose proof (bytes_chunks evs B1) as BC.
  destruct (pieces_early dbg rerun rayon segs h fill1 fill2 ss ts qs ms data post fill3 ([] :: map chunk_of evs) s En PO Sq Ni BC B2 Ns EC) as [k1 [buf1 F1]].
  pose proof (session_end dbg rerun rayon evs codec_new [] k1 buf1 F1) as S.
  split; [intros H; eapply session_det; [exact H|exact S]|intros ->; exact S].
Qed.
