(** Files whose scans list fewer components than the frame (C47). *)
From Verif Require Import Base Tactics SpecBits SpecGlobal SpecStream SpecFrame SpecMarker SpecSegments SpecHeader SpecScans SpecLimits Biterator Marker Huffman Types Color Upsampler Parsers Decode HuffmanP3 MarkerP SafeP ExtP StreamP StreamP2 InvP GlobalP ScansP ReuseP.

Definition scan_source (input : list Z) (d : decoder) : Prop :=
  forall sc, d_scan d = Some sc -> scan_in input (lenZ (s_headers sc)).
Definition scan_traced (input : list Z) (p : pc) (d : decoder) (b : biter) : Prop :=
  suffix (bi_input b) input /\ scan_source input d /\ (p = PcSegment SOS -> exists pre, input = pre ++ [255; 0xDA] ++ bi_input b).

Lemma headers_count : forall f n mx i hs r, sos_headers f n mx i = Ok (hs, r) -> length hs = n.
Proof.
  intros f. induction n as [|n IH]; intros mx i hs r E; cbn [sos_headers] in E; [inv E; reflexivity|].
  binv E. destruct a as [id i1]. binv E. destruct a as [[dc ac] i2]. destruct f as [fr|]; [|discriminate]. destruct (position id (f_components fr) 0) as [k|]; [|discriminate].
  cbv zeta in E. binv E. binv E. destruct a0 as [hs1 i3]. inv E. cbn [length]. f_equal. eapply IH; eauto.
Qed.
Lemma header_count : forall f i sc r, sos_segment f i = Ok (sc, r) -> exists i', i = lenZ (s_headers sc) :: i'.
Proof.
  intros f i sc r E. unfold sos_segment in E. destruct i as [|n i]; [discriminate|]. cbn [p_any bind] in E.
  destruct ((1 <=? n) && (n <=? 4)) eqn:En; [|discriminate]. binv E. destruct a as [hs i1]. apply headers_count in E0. binv E. destruct a. binv E. destruct a. binv E. destruct a as [[ah al] i4]. inv E.
  exists i. f_equal. cbn [s_headers]. unfold lenZ. rewrite E0. lia.
Qed.
Lemma begin_scan : forall dbg d sc, d_scan (fst (sos_begin dbg d sc)) = Some sc.
Proof.
  intros dbg d sc. unfold sos_begin. cbn [set_scan d_frame]. destruct (d_frame d) as [fr|]; [|reflexivity].
  destruct (coding_process fr) as [[]| | |]; try reflexivity; destruct (if s_low sc =? 0 then _ else _); reflexivity.
Qed.

Lemma step_source : forall dbg rerun rayon input p d b d' b' r, dec_ok d -> good b -> pc_ok p d -> scan_traced input p d b ->
  step dbg rerun rayon p d b = (d', b', r) -> scan_source input d' /\ match r with SNext p' => scan_traced input p' d' b' | SStop _ => True end.
Proof.
  intros dbg rerun rayon input p d b d' b' r K G P [Su [Sc Pc]] E.
  pose proof (step_inv dbg rerun rayon p d b K G P) as SI. rewrite E in SI. destruct SI as [_ [_ [Su' _]]].
  assert (Su2 : suffix (bi_input b') input) by (eapply suffix_trans; eauto).
  assert (Y : d_scan d' = d_scan d -> (forall p', r = SNext p' -> p' <> PcSegment SOS) -> scan_source input d' /\ match r with SNext p' => scan_traced input p' d' b' | SStop _ => True end).
  { intros Es Hp. assert (S' : scan_source input d') by (unfold scan_source; rewrite Es; exact Sc). split; [exact S'|]. destruct r as [p'|]; [|exact I].
    split; [exact Su2|]. split; [exact S'|]. intros X. exfalso. exact (Hp p' eq_refl X). }
  destruct p as [|m|final todo ph]; cbn [step] in E.
  - destruct (parse_marker (bi_input b)) as [[m rest]|[]|q|] eqn:Em; try (inv E; apply Y; [reflexivity|discriminate]).
    destruct m; try (inv E; apply Y; [reflexivity|intros p' X; inv X; discriminate]).
    + inv E. split; [exact Sc|]. split; [exact Su2|]. split; [exact Sc|]. intros _. apply parse_marker_ok in Em. destruct Em as [c [C [pre [k [_ [_ [_ Ei]]]]]]].
      inversion C; subst. destruct Su as [q ->]. destruct (app_FF k) as [pk Ek]. rewrite Ei, Ek. cbn [bi_input]. exists (q ++ pre ++ pk). rewrite <- !app_assoc. reflexivity.
    + destruct (upsample_image dbg rayon d); inv E; apply Y; try reflexivity; discriminate.
  - destruct (no_segment m); [inv E; apply Y; [reflexivity|intros p' X; inv X; discriminate]|].
    destruct (segment_data dbg (bi_input b)) as [[data rest]|[]|q|] eqn:Es; try (inv E; apply Y; [reflexivity|discriminate]).
    assert (X : (let '(d1, r0) := seg_payload dbg m d data in seg_end m d1 (mkBiter rest (bi_bits b) (bi_count b)) r0) = (d', b', r) ->
      scan_source input d' /\ match r with SNext p' => scan_traced input p' d' b' | SStop _ => True end).
    { pose proof (payload_core dbg m d data) as [C _]. destruct (seg_payload dbg m d data) as [d1 r0]. intros Q. cbn [fst] in C.
      unfold seg_end in Q. destruct r0 as [u|[]| |]; inv Q; apply Y; auto; try discriminate. intros p' Z; inv Z; discriminate. }
    destruct m; try exact (X E). clear X. unfold do_sos in E. destruct (sos_segment (d_frame d) data) as [[sc i]|[]| |] eqn:Eh; try (inv E; apply Y; [reflexivity|discriminate]).
    destruct (header_count _ _ _ _ Eh) as [i' Ed]. destruct (segment_data_len _ _ _ _ (proj2 G) Es) as [x [y [pre [Ei Epre]]]]. destruct (Pc eq_refl) as [q Eq].
    assert (SS : scan_in input (lenZ (s_headers sc))).
    { exists q, x, y, (i' ++ rest). rewrite Eq, Ei. subst pre. rewrite Ed. reflexivity. }
    pose proof (begin_scan dbg d sc) as S1. destruct (sos_begin dbg d sc) as [d1 o]. cbn [fst] in S1.
    assert (S1' : scan_source input d1) by (intros sc' E'; rewrite S1 in E'; inv E'; exact SS).
    destruct o as [final|e|p|]; try (inv E; split; [exact S1'|exact I]).
    destruct (scan_init final d1) as [d2| | |] eqn:Si; try (inv E; split; [exact S1'|exact I]). apply scan_init_kept in Si. destruct Si as [s0 ->]. inv E.
    split; [exact S1'|]. split; [exact Su2|]. split; [exact S1'|discriminate].
  - destruct (scan_loop dbg rerun final todo ph d b) as [[d1 b1] r1] eqn:SL. destruct (scan_loop_ext [] _ _ _ _ _ _ _ _ _ _ SL) as [[s0 ->] _].
    destruct r1; try (inv E; apply Y; [reflexivity|discriminate]). unfold scan_finish in E. cbn [set_ss d_scan] in E. destruct (d_scan d) as [sc|] eqn:Sd; [|inv E; apply Y; [cbn; congruence|discriminate]]. cbv zeta in E.
    destruct (take_planes _ _) as [[ps rr]| | |]; cbn [bind] in E; inv E; (apply Y; [cbn; congruence|]); try discriminate. intros p' Z; inv Z; discriminate.
Qed.
Lemma run_source : forall dbg rerun rayon input fuel p d b, dec_ok d -> good b -> pc_ok p d -> scan_traced input p d b ->
  scan_source input (fst (fst (run dbg rerun rayon fuel p d b))).
Proof.
  intros dbg rerun rayon input. induction fuel as [|fuel IH]; intros p d b K G P T; cbn [run]; [apply T|].
  pose proof (step_inv dbg rerun rayon p d b K G P) as SI. destruct (step dbg rerun rayon p d b) as [[d' b'] r] eqn:E.
  destruct (step_source _ _ _ _ _ _ _ _ _ _ K G P T E) as [S T']. destruct SI as [K' [G' [_ R]]].
  destruct r as [p'|r]; [|exact S]. destruct R as [P' _]. apply IH; auto.
Qed.

Lemma no_full_scan : forall dbg rayon input n img, bytes input ->
  (forall lines samples cs, header_in input lines samples cs -> n <= lenZ cs) -> (forall k, scan_in input k -> k < n) ->
  dbg = true \/ ~ has_code 0xEE input -> decode_fresh dbg rayon input = Ok img -> img = [].
Proof.
  intros dbg rayon input n img B HN HS HA E. destruct (list_eq_dec Z.eq_dec img []) as [X|NE]; [exact X|exfalso].
  destruct (decode dbg rayon decoder_default input) as [d r] eqn:D. unfold decode_fresh in E. rewrite D in E. cbn [snd] in E. subst r.
  destruct (one_scan_only dbg rayon input d img D NE) as [fr [Fr L]].
  assert (T0 : traced None input PcMarker decoder_default (biter_new input)) by (split; [apply suffix_refl|]; split; [left; reflexivity|exact I]).
  pose proof (run_traced dbg false rayon None input (run_fuel (biter_new input)) PcMarker decoder_default (biter_new input) default_ok (good_start input B) I B T0) as [_ [T2 _]].
  assert (T1 : scan_traced input PcMarker decoder_default (biter_new input)) by (split; [apply suffix_refl|]; split; [discriminate|discriminate]).
  pose proof (run_source dbg false rayon input (run_fuel (biter_new input)) PcMarker decoder_default (biter_new input) default_ok (good_start input B) I T1) as T3.
  assert (A : announced input PcMarker (biter_new input)) by (split; [apply suffix_refl|split; discriminate]).
  pose proof (run_kept dbg false rayon input (run_fuel (biter_new input)) PcMarker decoder_default (biter_new input) default_ok (good_start input B) I A) as [_ [KC _]].
  pose proof D as D'. unfold decode in D. destruct (run dbg false rayon (run_fuel (biter_new input)) PcMarker decoder_default (biter_new input)) as [[d' b'] r] eqn:ER.
  assert (d' = d) by congruence. subst d'. cbn [fst snd] in *.
  assert (AU : all_used dbg (length (f_components fr)) (d_color d)).
  { destruct HA as [->|HA]; [left; reflexivity|]. right. left. rewrite (KC HA). split; [|discriminate].
    destruct r; try (inv D; fail); destruct (bi_input b'); inv D. destruct (run_scan_state _ _ _ _ _ _ _ _ _ _ ER ltac:(left; reflexivity)) as [_ U].
    unfold upsample_image in U. rewrite Fr, (KC HA) in U. cbv zeta in U. unfold choose_color_convert_func, lenZ in U.
    destruct (Z.eqb_spec (Z.of_nat (length (f_components fr))) 3); [lia|]. destruct (Z.of_nat (length (f_components fr)) =? 4); cbn [bind] in U; discriminate U. }
  destruct (L AU) as [sc [Sc Ls]]. specialize (HS _ (T3 sc Sc)).
  destruct T2 as [T2|[fr' [Hf' [pre [m [l1 [l0 [pr [lines [samples [cs [po [Hm [HO [HI ->]]]]]]]]]]]]]]]; [congruence|].
  rewrite Fr in Hf'. inv Hf'. specialize (HN lines samples cs ltac:(exists pre, m, l1, l0, pr, po; auto)).
  unfold frame_of in Ls. cbn [f_components] in Ls. rewrite map_length in Ls. unfold lenZ in *. lia.
Qed.
