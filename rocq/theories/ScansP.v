(** Images coded in several scans (C47). *)
From Verif Require Import Base Tactics SpecBits SpecGlobal SpecStream SpecFrame SpecLimits Biterator Marker Huffman Types Idct Color Upsampler Parsers Decode ExtP StreamP StreamP2 InvP GlobalP.

Definition core (d d' : decoder) : Prop := d_scan d' = d_scan d /\ d_planes d' = d_planes d.
Lemma dht_core : forall dbg fuel d i, core d (fst (seg_dht dbg fuel d i)).
Proof.
  intros dbg. induction fuel as [|fuel IH]; intros d i; destruct i as [|x i]; try (split; reflexivity). cbn [seg_dht].
  destruct (huffman_table (x :: i)) as [[[[[c th] ls] vs] i']|e|p|]; try (split; reflexivity).
  destruct (store_huffman dbg d c th ls vs) as [d1|e|p|] eqn:E; try (split; reflexivity). destruct (IH d1 i') as [A B].
  assert (C : core d d1) by (unfold store_huffman in E; destruct c; binv E; binv E; inv E; split; reflexivity).
  destruct C as [C1 C2]. split; congruence.
Qed.
Lemma dqt_core : forall fuel d i, core d (fst (seg_dqt fuel d i)).
Proof.
  induction fuel as [|fuel IH]; intros d i; destruct i as [|x i]; try (split; reflexivity). cbn [seg_dqt].
  destruct (dqt (x :: i)) as [[[tq t] i']|e|p|]; try (split; reflexivity).
  destruct (store_quant d tq t) as [d1|e|p|] eqn:E; try (split; reflexivity). destruct (IH d1 i') as [A B].
  assert (C : core d d1) by (unfold store_quant in E; binv E; binv E; inv E; split; reflexivity).
  destruct C as [C1 C2]. split; congruence.
Qed.
Lemma payload_core : forall dbg m d data, core d (fst (seg_payload dbg m d data)).
Proof.
  intros dbg m d data. destruct m; cbn [seg_payload]; try (split; reflexivity).
  - destruct (sof dbg n data) as [[f i]| | |]; split; reflexivity.
  - apply dht_core.
  - apply dqt_core.
  - destruct (p_u16 data) as [[r i]| | |]; split; reflexivity.
  - destruct (n =? 14); [|split; reflexivity]. destruct (app_adobe data) as [[t i]| | |]; split; reflexivity.
Qed.

(** Between scans the planes are those of the last scan. *)
Definition of_last_scan (d : decoder) : Prop := d_planes d = [] \/ exists sc, d_scan d = Some sc /\ length (d_planes d) = length (s_headers sc).
Definition scan_state (p : pc) (d : decoder) : Prop :=
  match p with PcScan _ _ _ => exists sc, d_scan d = Some sc | _ => of_last_scan d end.
Lemma core_last : forall d d', core d d' -> of_last_scan d -> of_last_scan d'.
Proof. intros d d' [A B] H. unfold of_last_scan. rewrite A, B. exact H. Qed.

Lemma take_length : forall hs ps qs r, take_planes ps hs = Ok (qs, r) -> length qs = length hs.
Proof.
  induction hs as [|h hs IH]; intros ps qs r E; cbn [take_planes] in E; [inv E; reflexivity|]. binv E. binv E. binv E. destruct a1 as [q1 r1]. inv E. cbn [length]. f_equal. eapply IH; eauto.
Qed.
Lemma seg_end_next : forall m d b r d' b' p', seg_end m d b r = (d', b', SNext p') -> d' = d /\ p' = PcMarker.
Proof. intros m d b r d' b' p' E. unfold seg_end in E. destruct r as [u|[]| |]; inv E; auto. Qed.

Lemma step_scan_state : forall dbg rerun rayon p d b d' b' p', step dbg rerun rayon p d b = (d', b', SNext p') -> scan_state p d -> scan_state p' d'.
Proof.
  intros dbg rerun rayon p d b d' b' p' E H. destruct p as [|m|final todo ph]; cbn [step] in E.
  - destruct (parse_marker (bi_input b)) as [[m rest]|[]|q|]; try discriminate. destruct m; try (inv E; exact H). destruct (upsample_image dbg rayon d); discriminate.
  - destruct (no_segment m); [inv E; exact H|]. destruct (segment_data dbg (bi_input b)) as [[data rest]|[]|q|]; try discriminate.
    assert (X : (let '(d1, r) := seg_payload dbg m d data in seg_end m d1 (mkBiter rest (bi_bits b) (bi_count b)) r) = (d', b', SNext p') -> scan_state p' d').
    { pose proof (payload_core dbg m d data) as C. destruct (seg_payload dbg m d data) as [d1 r]. intros Q. apply seg_end_next in Q. destruct Q as [-> ->]. eapply core_last; eauto. }
    destruct m; try exact (X E). clear X. unfold do_sos in E. destruct (sos_segment (d_frame d) data) as [[sc i]|[]| |]; try discriminate.
    destruct (sos_begin dbg d sc) as [d1 [final|e|q|]] eqn:SB; try discriminate. destruct (scan_init final d1) as [d2| | |] eqn:SI; try discriminate. inv E.
    assert (S1 : d_scan d1 = Some sc).
    { unfold sos_begin in SB. cbn [set_scan d_frame] in SB. destruct (d_frame d); [|inv SB].
      destruct (coding_process f) as [[]| | |]; try (inv SB; fail); (destruct (if s_low sc =? 0 then _ else _); inv SB; reflexivity). }
    exists sc. unfold scan_init in SI. destruct (d_frame d1); [|discriminate]. rewrite S1 in SI.
    destruct (if s_start sc =? 0 then _ else _) as [[]| | |]; cbn [bind] in SI; try discriminate. destruct (if 1 <? s_end sc then _ else _) as [[]| | |]; cbn [bind] in SI; try discriminate.
    destruct final; cbn [bind] in SI; [destruct (assert_ _ _); try discriminate|]; cbn [bind] in SI; inv SI; exact S1.
  - destruct (scan_loop dbg rerun final todo ph d b) as [[d1 b1] r] eqn:SL. destruct r; try discriminate. destruct (scan_finish d1) as [d2| | |] eqn:SF; try discriminate. inv E.
    destruct (scan_loop_ext [] _ _ _ _ _ _ _ _ _ _ SL) as [[s ->] _]. destruct H as [sc H]. unfold scan_finish in SF. cbn [set_ss d_scan d_ss] in SF. rewrite H in SF. cbv zeta in SF.
    destruct (take_planes (ss_results s) (s_headers sc)) as [[ps r]| | |] eqn:T; try discriminate. inv SF. right. exists sc. split; [exact H|]. cbn. eapply take_length; eauto.
Qed.

Lemma run_scan_state : forall dbg rerun rayon fuel p d b d' b' img, run dbg rerun rayon fuel p d b = (d', b', RImage img) -> scan_state p d ->
  of_last_scan d' /\ upsample_image dbg rayon d' = Ok img.
Proof.
  intros dbg rerun rayon. induction fuel as [|fuel IH]; intros p d b d' b' img E H; [discriminate|]. cbn [run] in E.
  destruct (step dbg rerun rayon p d b) as [[d1 b1] [p1|r]] eqn:S; [eapply IH; [exact E|eapply step_scan_state; eauto]|]. inv E.
  destruct p as [|m|final todo ph]; cbn [step] in S.
  - destruct (parse_marker (bi_input b)) as [[m rest]|[]|q|]; try discriminate. destruct m; try discriminate. destruct (upsample_image dbg rayon d) eqn:U; inv S. auto.
  - destruct (no_segment m); [discriminate|]. destruct (segment_data dbg (bi_input b)) as [[data rest]|[]|q|]; try discriminate.
    assert (X : (let '(d1, r) := seg_payload dbg m d data in seg_end m d1 (mkBiter rest (bi_bits b) (bi_count b)) r) = (d', b', SStop (RImage img)) -> False).
    { destruct (seg_payload dbg m d data) as [d1 r]. unfold seg_end. destruct r as [u|[]| |]; discriminate. }
    destruct m; try (exfalso; exact (X S)). unfold do_sos in S. destruct (sos_segment (d_frame d) data) as [[sc i]|[]| |]; try discriminate.
    destruct (sos_begin dbg d sc) as [d1 [final|e|q|]]; try discriminate. destruct (scan_init final d1); discriminate.
  - destruct (scan_loop dbg rerun final todo ph d b) as [[d1 b1] r]. destruct r; try discriminate. destruct (scan_finish d1); discriminate.
Qed.

(** How many planes an image needs. *)
Lemma rows_length : forall dbg cs data bufs row width ls bufs', upsample_rows dbg cs data bufs row width = Ok (ls, bufs') -> (length ls <= length data)%nat /\ (length ls <= length cs)%nat.
Proof.
  intros dbg. induction cs as [|c cs IH]; intros data bufs row width ls bufs' E; [cbn in E; inv E; cbn; lia|].
  destruct data as [|p data]; [cbn in E; inv E; cbn; lia|]. destruct bufs as [|b bufs]; [cbn in E; inv E; cbn; lia|]. cbn [upsample_rows] in E.
  binv E. destruct a as [l b1]. destruct (upsample_rows dbg cs data bufs row width) as [[ls1 bs1]| | |] eqn:R; try discriminate. inv E. cbn [length]. apply IH in R. lia.
Qed.

(** The colours a conversion reads. *)
Lemma mapM_length : forall A B (f : A -> out B) l r, mapM f l = Ok r -> length r = length l.
Proof.
  induction l as [|a l IH]; intros r E; cbn [mapM] in E; [inv E; reflexivity|]. binv E. destruct (mapM f l) as [l1| | |]; try discriminate. inv E. cbn [length]. f_equal. apply IH. reflexivity.
Qed.
Lemma image_planes : forall dbg rayon d img fr, upsample_image dbg rayon d = Ok img -> d_frame d = Some fr -> img <> [] ->
  all_used dbg (length (f_components fr)) (d_color d) -> (length (f_components fr) <= length (d_planes d))%nat.
Proof.
  intros dbg rayon d img fr E Fr NE AR. unfold upsample_image in E. rewrite Fr in E. cbv zeta in E. binv E. rename a into f. binv E. rename a into ups. binv E. rename a into v. binv E.
  destruct (image_lines _ _ _ _ _ _ _ _) as [lines| | |] eqn:IL; try discriminate. cbn [bind] in E. injection E as E.
  assert (Lu : length ups = length (f_components fr)).
  { unfold upsampler_new in E1. binv E1. binv E1. apply mapM_length in E1. exact E1. }
  destruct (line_groups rayon (f_lines fr) v) as [|[row n] gs]; [cbn [image_lines] in IL; inv IL; exfalso; apply NE; reflexivity|].
  cbn [image_lines] in IL. destruct (upsample_and_interleave_row dbg ups (d_planes d) [[]; []; []; []] row (f_samples fr)) as [[colors bufs]| | |] eqn:UR; try discriminate.
  cbn [bind] in IL. destruct (color_convert dbg f (repeat 0 (Z.to_nat (f_samples fr * lenZ (f_components fr)))) colors) as [line| | |] eqn:CL; try discriminate. clear IL.
  unfold upsample_and_interleave_row in UR. binv UR. apply rows_length in UR. destruct UR as [R1 R2].
  destruct AR as [-> |[[N T]|[N T]]].
  - unfold debug_assert in E4. destruct (lenZ (d_planes d) =? lenZ ups) eqn:Q; [|discriminate]. unfold lenZ in Q. lia.
  - unfold choose_color_convert_func in E0. unfold lenZ in E0. rewrite N in E0. change (Z.of_nat 3 =? 3) with true in E0. cbn iota in E0.
    assert (f = CYcbcr) by (destruct (d_color d) as [[]|]; congruence). subst f. cbn [color_convert] in CL.
    destruct colors as [|c0 [|c1 [|c2 [|c3 colors]]]]; try discriminate. cbn [length] in R1. lia.
  - unfold choose_color_convert_func in E0. unfold lenZ in E0. rewrite N, T in E0. change (Z.of_nat 4 =? 3) with false in E0. change (Z.of_nat 4 =? 4) with true in E0. cbn iota in E0.
    inv E0. cbn [color_convert] in CL. destruct colors as [|c0 [|c1 [|c2 [|c3 [|c4 colors]]]]]; try discriminate. cbn [length] in R1. lia.
Qed.

Lemma one_scan_only : forall dbg rayon input d img, decode dbg rayon decoder_default input = (d, Ok img) -> img <> [] ->
  exists fr, d_frame d = Some fr /\
    (all_used dbg (length (f_components fr)) (d_color d) -> exists sc, d_scan d = Some sc /\ (length (f_components fr) <= length (s_headers sc))%nat).
Proof.
  intros dbg rayon input d img E NE. unfold decode in E. cbv zeta in E.
  destruct (run dbg false rayon (run_fuel (biter_new input)) PcMarker decoder_default (biter_new input)) as [[d' b'] r] eqn:R.
  destruct r; try (inv E; fail); destruct (bi_input b'); inv E.
  destruct (run_scan_state _ _ _ _ _ _ _ _ _ _ R ltac:(left; reflexivity)) as [OS U].
  pose proof U as U'. unfold upsample_image in U'. destruct (d_frame d) as [fr|] eqn:Fr; [|discriminate]. clear U'. exists fr. split; [reflexivity|]. intros AR.
  pose proof (image_planes _ _ _ _ _ U Fr NE AR) as L. destruct OS as [OS|[sc [S1 S2]]]; [|exists sc; split; [exact S1|lia]].
  rewrite OS in L. cbn [length] in L. destruct AR as [-> |[[N _]|[N _]]]; try lia.
  assert (N : length (f_components fr) = 0%nat) by lia. unfold upsample_image in U. rewrite Fr in U. unfold lenZ in U. rewrite N in U. discriminate.
Qed.
