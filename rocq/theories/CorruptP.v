(** Damaged scan data (C42): the decoder never leaves the scan through a marker other than
    RSTn, and nothing in the scan panics. *)
From Verif Require Import SpecColor Base Tactics SpecBits SpecReader SpecHuffman SpecBlock SpecTables Biterator BitsP Readers ReadersP Huffman HuffmanP3 Marker SpecMarker MarkerP Types Idct IdctP Upsampler Parsers Decode SpecFrame SpecSegments SpecScan SpecPlane SpecUpsample SpecImage SpecFile SpecLimits BlockP PlaneP SegmentsP SafeP InvP ScanP RestartP PlacedP EncodeP SpecGlobal GlobalP ExtP SpecStream StreamP StreamP2 RowP UpsampleP ImageP FileP.

(** ** What the bit reader does to the input *)
Section Keep.
  Variable P : list Z -> Prop.
  Hypothesis Pf : forall b ok b', P (bi_input b) -> fill_bits b = (ok, b') -> P (bi_input b').

  Lemma consume_keep : forall dbg b n b', consume_bits dbg b n = Ok b' -> bi_input b' = bi_input b.
  Proof. intros dbg b n b' E. unfold consume_bits in E. binv E. binv E. inv E. reflexivity. Qed.
  Lemma next_keep : forall dbg b n r b', P (bi_input b) -> next_bits dbg b n = Ok (r, b') -> P (bi_input b').
  Proof.
    intros dbg b n r b' H E. unfold next_bits in E. destruct (if bi_count b <? n then fill_bits b else (true, b)) as [ok b1] eqn:F.
    assert (H1 : P (bi_input b1)) by (destruct (bi_count b <? n); [eapply Pf; eauto|inv F; exact H]).
    destruct ok; [|inv E; exact H1]. binv E. binv E. inv E. apply consume_keep in E1. rewrite E1. exact H1.
  Qed.
  Lemma extend_keep : forall dbg b n r b', P (bi_input b) -> receive_extend dbg b n = Ok (r, b') -> P (bi_input b').
  Proof.
    intros dbg b n r b' H E. unfold receive_extend in E. binv E. destruct a as [v b1]. pose proof (next_keep _ _ _ _ _ H E0) as H1. destruct v; inv E; exact H1.
  Qed.
  Lemma ensure_keep : forall b ok b', P (bi_input b) -> ensure16 b = (ok, b') -> P (bi_input b').
  Proof. intros b ok b' H E. unfold ensure16 in E. destruct (bi_count b <? 16); [eapply Pf; eauto|inv E; exact H]. Qed.
  Lemma search_keep : forall dbg t bits n b i r b', search_code dbg t b bits n i = Ok (r, b') -> bi_input b' = bi_input b.
  Proof.
    intros dbg t bits. induction n as [|n IH]; intros b i r b' E; cbn [search_code] in E; [inv E; reflexivity|].
    binv E. destruct (_ <=? a); [|apply IH in E; exact E]. binv E. binv E. binv E. inv E. eapply consume_keep; eauto.
  Qed.
  Lemma inner_keep : forall dbg t b k r b', decode_inner dbg t b k = Ok (r, b') -> bi_input b' = bi_input b.
  Proof.
    intros dbg t b k r b' E. unfold decode_inner in E. binv E. destruct a as [value size]. destruct (0 <? size).
    - binv E. inv E. eapply consume_keep; eauto.
    - binv E. eapply search_keep; eauto.
  Qed.
  Lemma table_keep : forall dbg t b r b', P (bi_input b) -> table_decode dbg t b = Ok (r, b') -> P (bi_input b').
  Proof.
    intros dbg t b r b' H E. unfold table_decode in E. destruct (ensure16 b) as [ok b1] eqn:F. pose proof (ensure_keep _ _ _ H F) as H1.
    destruct ok; [|inv E; exact H1]. binv E. apply inner_keep in E. rewrite E. exact H1.
  Qed.
  Lemma fast_keep : forall dbg t b r b', P (bi_input b) -> decode_fast_ac dbg t b = Ok (r, b') -> P (bi_input b').
  Proof.
    intros dbg t b r b' H E. unfold decode_fast_ac in E. destruct (ensure16 b) as [ok b1] eqn:F. pose proof (ensure_keep _ _ _ H F) as H1.
    destruct ok; [|inv E; exact H1]. binv E. binv E. destruct a0 as [value rs]. destruct (negb (rs =? 0)).
    - binv E. inv E. rewrite (consume_keep _ _ _ _ E2). exact H1.
    - binv E. destruct a0 as [v b2]. apply inner_keep in E2. destruct v; inv E; rewrite E2; exact H1.
  Qed.
  Lemma or_fail_ok : forall A e (x : bitres A) v b, or_fail e x = Ok (v, b) -> x = Ok (Some v, b).
  Proof. intros A e x v b E. unfold or_fail in E. binv E. destruct a as [[w|] b1]; inv E. reflexivity. Qed.
  Lemma dc_keep : forall dbg sc t coefs b pred c b' p, P (bi_input b) -> decode_dc dbg sc t coefs b pred = Ok (c, b', p) -> P (bi_input b').
  Proof.
    intros dbg sc t coefs b pred c b' p H E. unfold decode_dc in E. destruct (s_start sc =? 0); [|inv E; exact H].
    binv E. destruct a as [value b1]. apply or_fail_ok in E0. pose proof (table_keep _ _ _ _ _ H E0) as H1.
    binv E. destruct a as [diff b2]. cbv zeta in E. binv E. inv E.
    destruct (value =? 0); [inv E1; exact H1|]. destruct (11 <? value); [discriminate|]. apply or_fail_ok in E1. eapply extend_keep; eauto.
  Qed.
  Lemma ac_keep : forall dbg t low last fuel coefs b eob i c b' e, P (bi_input b) -> ac_loop dbg fuel t low last coefs b eob i = Ok (c, b', e) -> P (bi_input b').
  Proof.
    intros dbg t low last. induction fuel as [|fuel IH]; intros coefs b eob i c b' e H E; [discriminate|]. cbn [ac_loop] in E. cbv zeta in E.
    binv E. destruct a as [r b1]. pose proof (fast_keep _ _ _ _ _ H E0) as H1.
    assert (Put : forall value run b2, P (bi_input b2) ->
      (if i + run <=? last then let* coefs0 := unzigzag coefs (i + run) (shl16 value low) in
         if i + run + 1 <=? last then ac_loop dbg fuel t low last coefs0 b2 eob (i + run + 1) else Ok (coefs0, b2, eob) else Ok (coefs, b2, eob)) = Ok (c, b', e) -> P (bi_input b')).
    { intros value run b2 H2 Q. destruct (i + run <=? last); [|inv Q; exact H2]. binv Q. destruct (i + run + 1 <=? last); [eapply IH; eauto|inv Q; exact H2]. }
    destruct r as [value run|byte|]; [eapply Put; eauto| |discriminate].
    destruct (Z.land byte 15 =? 0).
    - destruct (Z.shiftr byte 4 =? 15); [destruct (i + 16 <=? last); [eapply IH; eauto|inv E; exact H1]|].
      destruct (0 <? Z.shiftr byte 4); [|inv E; exact H1]. binv E. destruct a as [v b2]. apply or_fail_ok in E1. inv E. eapply next_keep; eauto.
    - binv E. destruct a as [v b2]. apply or_fail_ok in E1. eapply Put; [|exact E]. eapply extend_keep; eauto.
  Qed.
  Lemma block_keep : forall dbg sc dct act coefs b eob pred c b' e p, P (bi_input b) -> decode_block dbg sc dct act coefs b eob pred = Ok (c, b', e, p) -> P (bi_input b').
  Proof.
    intros dbg sc dct act coefs b eob pred c b' e p H E. unfold decode_block in E. binv E. destruct a as [[c1 b1] p1]. pose proof (dc_keep _ _ _ _ _ _ _ _ _ H E0) as H1.
    destruct (_ && _); [inv E; exact H1|]. destruct (_ <? _); [|inv E; exact H1]. binv E. destruct a as [[c2 b2] e2]. inv E. eapply ac_keep; eauto.
  Qed.
  Lemma blocks_keep : forall dbg sc dct act n b eob pred c b' e p, P (bi_input b) -> decode_blocks dbg sc dct act n b eob pred = Ok (c, b', e, p) -> P (bi_input b').
  Proof.
    intros dbg sc dct act. induction n as [|n IH]; intros b eob pred c b' e p H E; cbn [decode_blocks] in E; [inv E; exact H|].
    binv E. destruct a as [[[c1 b1] e1] p1]. pose proof (block_keep _ _ _ _ _ _ _ _ _ _ _ _ H E0) as H1. binv E. destruct a as [[[c2 b2] e2] p2]. inv E. eapply IH; eauto.
  Qed.
  Lemma comps_keep : forall dbg d sc cs hs ps avail b eob bl ps' b' e, P (bi_input b) -> decode_comps dbg d sc cs hs ps avail b eob = Ok (bl, ps', b', e) -> P (bi_input b').
  Proof.
    intros dbg d sc. induction cs as [|c cs IH]; intros hs ps avail b eob bl ps' b' e H E; cbn [decode_comps] in E; [inv E; exact H|].
    destruct hs as [|h hs]; [inv E; exact H|]. destruct ps as [|p ps]; [inv E; exact H|]. binv E. binv E. binv E. binv E. cbv zeta in E. binv E. destruct a3 as [[[c1 b1] e1] p1].
    pose proof (blocks_keep _ _ _ _ _ _ _ _ _ _ _ _ H E4) as H1. binv E. destruct a3 as [[[r2 ps2] b2] e2]. inv E. eapply IH; eauto.
  Qed.
  Lemma row_keep : forall dbg d b d' b', P (bi_input b) -> decode_row dbg d b = Ok (d', b') -> P (bi_input b').
  Proof.
    intros dbg d b d' b' H E. unfold decode_row in E. destruct (d_scan d); [|discriminate]. destruct (d_frame d); [|discriminate]. cbv zeta in E. binv E. destruct a as [[[bl ps] b1] e]. inv E.
    eapply comps_keep; eauto.
  Qed.
End Keep.

(** ** Scan data *)
Lemma ro_tail : forall b r, rst_only (b :: r) -> rst_only r.
Proof.
  intros b r H. remember (b :: r) as l eqn:E. destruct H as [|x l N H1|k l H1|k n l Hn H1].
  - discriminate.
  - congruence.
  - cbn [FF repeat app] in E. injection E as _ <-. destruct k as [|k]; [apply ro_byte; [lia|exact H1]|]. apply (ro_stuffed k). exact H1.
  - cbn [FF repeat app] in E. remember (0xD0 + n) as c. injection E as _ <-. destruct k as [|k]; [apply ro_byte; [lia|exact H1]|]. subst c. apply (ro_rst k); auto.
Qed.
Lemma ro_skipn : forall n r, rst_only r -> rst_only (skipn n r).
Proof. induction n as [|n IH]; intros r H; [exact H|]. destruct r; [exact H|]. cbn [skipn]. apply IH. eapply ro_tail; eauto. Qed.
Lemma ro_one : ~ rst_only [255].
Proof.
  intros H. remember [255] as l eqn:E. destruct H as [|x l N H1|k l H1|k n l Hn H1]; try discriminate.
  - congruence.
  - destruct k; discriminate.
  - cbn [FF repeat app] in E. remember (0xD0 + n) as c. injection E as E. destruct k; discriminate.
Qed.

(** A marker other than RSTn. *)
Definition stop_tail (tail : list Z) : Prop :=
  exists k c more, tail = FF (S k) ++ c :: more /\ c <> 0 /\ c <> 255 /\ ~ (0xD0 <= c <= 0xD7).
Definition in_data (tail i : list Z) : Prop := exists j, rst_only j /\ i = j ++ tail.

Lemma fill_loop_data : forall tail, stop_tail tail -> forall j2 p cpc bits count ok b',
  rst_only (p ++ j2) -> rst_only j2 -> count - cpc <= 8 * Z.of_nat (length p) ->
  fill_loop ((p ++ j2) ++ tail) cpc (j2 ++ tail) bits count = (ok, b') -> in_data tail (bi_input b').
Proof.
  intros tail ST j2. induction j2 as [j2 IH] using (well_founded_induction (Wf_nat.well_founded_ltof _ (@length Z))). unfold Wf_nat.ltof in IH.
  intros p cpc bits count ok b' R R2 C E.
  assert (Skip : forall bits1 ok b', 
     match skip_bytes (reskip cpc (count + 8)) ((p ++ j2) ++ tail) with
     | None => (false, mkBiter [] bits1 (count + 8))
     | Some input' => let '(bits', count') := pad_zeros 8 (clear_low_byte bits1) (count + 8) in (true, mkBiter input' bits' count') end = (ok, b') -> in_data tail (bi_input b')).
  { intros bits1 ok1 b1 Q. assert (L : (reskip cpc (count + 8) <= length p)%nat) by (unfold reskip; clear - C; lia).
    rewrite skip_bytes_spec in Q by (rewrite !app_length; lia). destruct (pad_zeros _ _ _) as [bb cc]. inv Q. cbn [bi_input].
    exists (skipn (reskip cpc (count + 8)) (p ++ j2)). split; [apply ro_skipn; exact R|]. rewrite (skipn_app _ (p ++ j2) tail).
    replace (reskip cpc (count + 8) - length (p ++ j2))%nat with 0%nat by (rewrite app_length; lia). reflexivity. }
  assert (Fin : forall b2, b2 = mkBiter (j2 ++ tail) bits count -> in_data tail (bi_input b2)) by (intros b2 ->; exists j2; auto).
  destruct j2 as [|x j2].
  - cbn [app] in E. destruct ST as [k [c [more [-> [C0 [C1 C2]]]]]]. cbn [FF repeat app] in E. change (repeat 255 k) with (FF k) in E. cbn [fill_loop] in E.
    destruct (count <=? 56); [|inv E; apply Fin; reflexivity]. change (255 =? 255) with true in E. cbn iota in E.
    destruct k as [|k]; cbn [FF repeat app] in E.
    + replace (c =? 0) with false in E by lia. eapply Skip; exact E.
    + change (255 =? 0) with false in E. eapply Skip; exact E.
  - cbn [app] in E. cbn [fill_loop] in E. destruct (count <=? 56); [|inv E; apply Fin; reflexivity].
    destruct (x =? 255) eqn:X.
    + assert (x = 255) by lia. subst x. destruct j2 as [|y j2]; [exfalso; exact (ro_one R2)|]. cbn [app] in E. destruct (y =? 0) eqn:Y.
      * replace ((p ++ 255 :: y :: j2) ++ tail) with (((p ++ [255; y]) ++ j2) ++ tail) in E by (rewrite <- !app_assoc; reflexivity).
        eapply (IH j2); [cbn; lia| | | |exact E]; [rewrite <- app_assoc; exact R|eapply ro_tail, ro_tail; eauto|rewrite app_length; cbn [length]; lia].
      * eapply Skip; exact E.
    + replace ((p ++ x :: j2) ++ tail) with (((p ++ [x]) ++ j2) ++ tail) in E by (rewrite <- !app_assoc; reflexivity).
      eapply (IH j2); [cbn; lia| | | |exact E]; [rewrite <- app_assoc; exact R|eapply ro_tail; eauto|rewrite app_length; cbn [length]; lia].
Qed.
Lemma fill_data : forall tail, stop_tail tail -> forall b ok b', in_data tail (bi_input b) -> fill_bits b = (ok, b') -> in_data tail (bi_input b').
Proof.
  intros tail ST b ok b' [j [R E]] F. unfold fill_bits in F. rewrite E in F. apply (fill_loop_data tail ST j [] _ _ _ _ _ R R) in F; [exact F|cbn; lia].
Qed.

Lemma nm_app : forall a b, no_marker a -> no_marker b -> no_marker (a ++ b).
Proof. intros a b H. induction H; intros K; cbn [app]; auto; [constructor; auto|]. rewrite <- app_assoc. apply (nm_stuffed k). auto. Qed.
Lemma ro_split : forall j, rst_only j -> no_marker j \/ exists n rest, 0 <= n <= 7 /\ rst_only rest /\ first_marker j (0xD0 + n) rest.
Proof.
  induction 1 as [|b r N H IH|k r H IH|k n r Hn H IH].
  - left. constructor.
  - destruct IH as [IH|[n [rest [Hn [R [pre [k [NM [C0 [C1 E]]]]]]]]]]; [left; constructor; auto|]. right. exists n, rest. split; [exact Hn|]. split; [exact R|].
    exists (b :: pre), k. splits; auto; [constructor; auto|]. rewrite E. reflexivity.
  - destruct IH as [IH|[n [rest [Hn [R [pre [k' [NM [C0 [C1 E]]]]]]]]]]; [left; apply (nm_stuffed k); auto|]. right. exists n, rest. split; [exact Hn|]. split; [exact R|].
    exists (FF (S k) ++ 0 :: pre), k'. splits; auto; [apply (nm_stuffed k); auto|]. rewrite E. rewrite <- app_assoc. reflexivity.
  - right. exists n, r. splits; auto; try lia. exists [], k. splits; try lia; [constructor|reflexivity].
Qed.
Lemma code_unique : forall m m' c, code_of m c -> code_of m' c -> m = m'.
Proof. intros m m' c H H'. apply marker_of_byte_code in H, H'. congruence. Qed.
Lemma first_app : forall j c rest t, first_marker j c rest -> first_marker (j ++ t) c (rest ++ t).
Proof. intros j c rest t [pre [k [N [C0 [C1 ->]]]]]. exists pre, k. splits; auto. rewrite <- !app_assoc. reflexivity. Qed.
Lemma rst_data : forall tail i n rest, stop_tail tail -> in_data tail i -> parse_marker i = Ok (RST n, rest) -> in_data tail rest.
Proof.
  intros tail i n rest ST [j [R ->]] E. destruct (ro_split j R) as [NM|[n' [rest' [Hn [R' FM]]]]].
  - exfalso. destruct ST as [k [c [more [-> [C0 [C1 C2]]]]]]. unfold parse_marker in E. rewrite scan_no_marker, scan_FF in E by exact NM. cbn [marker_scan] in E.
    replace (c =? 255) with false in E by lia. replace (c =? 0) with false in E by lia. destruct (marker_of_byte c) as [m|] eqn:M; [|discriminate]. inv E.
    apply marker_of_byte_code in M. inv M; lia.
  - apply (first_app _ _ _ tail) in FM. assert (P : parse_marker (j ++ tail) = Ok (RST n', rest' ++ tail)).
    { apply parse_marker_ok. exists (0xD0 + n'). split; [|exact FM]. constructor. lia. }
    rewrite P in E. inv E. exists rest'. auto.
Qed.
Lemma parse_calm : forall i, (exists r, parse_marker i = Ok r) \/ (exists e, parse_marker i = Fail e).
Proof. intros i. destruct (parse_marker_total i) as [[m [rest E]]|[E|E]]; eauto. Qed.

(** ** The scan *)
Section Scan.
  Variables (dbg : bool) (d0 : decoder) (fr : frame) (sc : scan) (ts : list tables) (tail : list Z).
  Hypothesis Fr : d_frame d0 = Some fr.
  Hypothesis Sc : d_scan d0 = Some sc.
  Hypothesis S0 : 0 <= s_start sc.
  Hypothesis Rd : comps_ready dbg d0 (f_components fr) (s_headers sc) ts.
  Hypothesis FG : frame_good fr.
  Hypothesis Few : (total_blocks (f_components fr) <= MAX_BLOCKS)%nat.
  Hypothesis Qt : Forall (fun c => exists qt, index (d_qt d0) (c_tq c) = Ok (Some qt)) (f_components fr).
  Hypothesis Cp : coding_process fr = Ok Baseline \/ coding_process fr = Ok Sequential.
  Hypothesis ST : stop_tail tail.

  Lemma comps_calm : forall s cs hs ts', comps_ready dbg (set_ss d0 s) cs hs ts' -> forall ps avail b eob, Forall i16 ps -> good b -> 0 <= eob < 2 ^ 15 ->
    (exists r, decode_comps dbg (set_ss d0 s) sc cs hs ps avail b eob = Ok r) \/ (exists e, decode_comps dbg (set_ss d0 s) sc cs hs ps avail b eob = Fail e).
  Proof.
    intros s cs hs ts' R. induction R as [|c cs h hs t ts' [dct [act [I1 [I2 B]]]] R IH]; intros ps avail b eob F G He; cbn [decode_comps]; [eauto|].
    destruct ps as [|p ps]; [eauto|]. inv F. rewrite I1. cbn [bind]. rewrite I2. cbn [bind]. cbv zeta.
    destruct (built_ok _ _ _ _ B) as [Td Ta]. set (n := Nat.min _ avail).
    pose proof (blocks_inv dbg sc dct act Td Ta S0 n b eob p G He H1) as D.
    destruct (decode_blocks dbg sc dct act n b eob p) as [[[[bl b1] eob1] p1]|e| |]; try contradiction; cbn [bind]; [|right; eauto].
    destruct D as [G1 [_ [E1 [P1 _]]]].
    destruct (IH ps (avail - n)%nat b1 eob1 H2 G1 E1) as [[[[[r ps'] b2] e2] ->]|[e ->]]; cbn [bind]; eauto.
  Qed.

  Definition calm (r : scan_res) : Prop := match r with ScDone | ScNeed _ _ | ScFail _ => True | _ => False end.
  Lemma scan_calm : forall todo pre d b, mcu_list (f_mcu fr) = pre ++ todo -> (exists s, d = set_ss d0 s) -> dec_ok d -> good b -> in_data tail (bi_input b) ->
    Forall2 (sized (dim_h (f_mcu fr))) (f_components fr) (ss_results (d_ss d)) -> (todo <> [] -> counters (d_restart d0) (lenZ pre) d) ->
    forall d' b' r, scan_loop dbg false true todo PhRow d b = (d', b', r) ->
    calm r /\ (exists s, d' = set_ss d0 s) /\
    (r = ScDone -> in_data tail (bi_input b') /\ Forall2 (sized (dim_h (f_mcu fr))) (f_components fr) (ss_results (d_ss d'))).
  Proof.
    induction todo as [|[y x] rest IH]; intros pre d b E SD K G ID Sz C d' b' r SL.
    { cbn in SL. inv SL. split; [exact I|]. split; [exact SD|]. intros _. auto. }
    cbn [scan_loop] in SL. specialize (C ltac:(discriminate)). destruct SD as [s ->]. cbn [set_ss d_ss] in Sz.
    assert (Row : (exists r, decode_row dbg (set_ss d0 s) b = Ok r) \/ (exists e, decode_row dbg (set_ss d0 s) b = Fail e)).
    { unfold decode_row. cbn [set_ss d_scan d_frame d_ss]. rewrite Sc, Fr. fold (set_ss d0 s).
      destruct (comps_calm s _ _ _ (ready_set _ _ s _ _ _ Rd) (ss_preds s) MAX_BLOCKS b (ss_eob s) (ok_preds _ K) G (ok_eob _ K)) as [[[[[bl ps] b1] e1] ->]|[e ->]]; cbn [bind]; eauto. }
    pose proof (row_inv dbg (set_ss d0 s) b K G) as RI.
    destruct Row as [[[d1 b1] ER]|[e ER]]; rewrite ER in SL, RI; cbn [post] in RI.
    2:{ destruct e; inv SL; (split; [exact I|split; [eauto|discriminate]]). }
    destruct RI as [Sm [G1 [_ [Lc _]]]]. pose proof (same_ok _ _ K Sm) as K1.
    pose proof (row_keep (in_data tail) (fill_data tail ST) _ _ _ _ _ ID ER) as ID1.
    destruct (row_counts _ _ _ _ _ ER) as [[s1 E1] Sc1]. destruct Sm as [s1' [E1' [Rs1 _]]]. cbn [set_ss d_ss] in Rs1.
    assert (s1' = s1) by (assert (X : d_ss d1 = s1 /\ d_ss d1 = s1') by (rewrite E1 at 1; rewrite E1'; cbn; auto); destruct X; congruence). subst s1'. clear E1'.
    assert (E1' : d1 = set_ss d0 s1) by (rewrite E1; reflexivity). clear E1.
    destruct (mcu_in _ _ _ _ _ E) as [Hx Hy].
    assert (C1 : counters (d_restart d1) (lenZ pre) d1).
    { rewrite E1' at 1. cbn [set_ss d_restart]. intros H. destruct (C H). destruct Sc1 as [A B]. rewrite A, B. auto. }
    assert (Lf : 0 < d_restart d1 -> 1 <= ss_left (d_ss d1)).
    { intros H. destruct (C1 H) as [A _]. rewrite A. pose proof (Z.mod_pos_bound (lenZ pre) (d_restart d1) H). lia. }
    assert (Fr1 : d_frame d1 = Some fr) by (rewrite E1'; exact Fr).
    (* the counter and the restart marker *)
    assert (AM : match restart_check dbg x y d1 with
                 | Ok (need, d2) => same d1 d2 /\ (exists s, d2 = set_ss d0 s) /\ ss_coefs (d_ss d2) = ss_coefs (d_ss d1) /\
                     match (if need then restart_marker d2 b1 else Ok (d2, b1)) with
                     | Ok (d3, b3) => same d1 d3 /\ good b3 /\ (exists s, d3 = set_ss d0 s) /\ ss_coefs (d_ss d3) = ss_coefs (d_ss d1) /\ in_data tail (bi_input b3) /\
                         (rest <> [] -> counters (d_restart d0) (lenZ pre + 1) d3)
                     | Fail _ => True
                     | _ => False
                     end
                 | _ => False end).
    { pose proof (after_spec dbg d1 b1 fr pre y x rest Fr1 E Lf) as AS. unfold after_mcu in AS. pose proof (check_inv dbg x y d1 K1) as CI.
      pose proof (fun NR d2 b2 => after_counts dbg d1 b1 fr pre y x rest d2 b2 Fr1 E NR C1) as AC. unfold after_mcu in AC.
      destruct (restart_check dbg x y d1) as [[need d2]|e|p|] eqn:RC; cbn [bind post] in *.
      - assert (K2 : dec_ok d2) by (eapply same_ok; eauto).
        assert (D2 : (exists s, d2 = set_ss d0 s) /\ ss_coefs (d_ss d2) = ss_coefs (d_ss d1)).
        { unfold restart_check in RC. destruct (0 <? d_restart d1).
          - rewrite Fr1 in RC. binv RC. binv RC. binv RC. inv RC. cbn [set_ss d_ss]. split; [|reflexivity]. eexists. reflexivity.
          - inv RC. eauto. }
        destruct D2 as [[s2 D2] D3]. split; [exact CI|]. split; [eauto|]. split; [exact D3|].
        destruct need.
        + pose proof (restart_inv d2 b1 K2 G1) as RI. pose proof (AC) as AC'. unfold restart_marker in *.
          destruct (parse_calm (bi_input b1)) as [[[m rest'] PM]|[e PM]]; rewrite PM in *; cbn [bind] in *; [|exact I].
          unfold handle_restart in *. destruct m as [|n0| | | | |n|n1| |]; try exact I. destruct (n =? ss_rst (d_ss d2)); [|exact I]. cbn [post] in RI. destruct RI as [R1 [R2 _]].
          split; [eapply same_trans; eauto|]. split; [exact R2|]. split; [subst d2; eexists; reflexivity|]. split; [cbn [set_ss d_ss ss_coefs]; exact D3|].
          split; [cbn [biter_reset bi_input]; eapply rst_data; eauto|].
          intros NR. specialize (AC' NR _ _ eq_refl). rewrite D2 in AC' at 1. exact AC'.
        + split; [exact CI|]. split; [exact G1|]. split; [eauto|]. split; [exact D3|]. split; [exact ID1|].
          intros NR. specialize (AC NR _ _ eq_refl). rewrite D2 in AC at 1. exact AC.
      - exfalso. destruct (0 <? d_restart d1); [|discriminate]. destruct (_ && _); [|discriminate]. clear - AS RC.
        unfold restart_check in RC. destruct (0 <? d_restart d1); [|discriminate]. destruct (d_frame d1); [|discriminate].
        unfold usub in RC. repeat (match type of RC with context [if ?c then _ else _] => destruct c end; cbn [bind] in RC; try discriminate).
      - exfalso. destruct (0 <? d_restart d1); [|discriminate]. destruct (_ && _); [|discriminate]. unfold restart_marker in AS. destruct (parse_calm (bi_input b1)) as [[[m rest'] PM]|[e PM]]; rewrite PM in AS; cbn [bind] in AS; try discriminate.
        unfold handle_restart in AS. destruct m; try discriminate. destruct (n =? ss_rst (d_ss (lowered d1))); discriminate.
      - contradiction. }
    destruct (restart_check dbg x y d1) as [[need d2]|e|p|]; try contradiction. destruct AM as [_ [D2 [_ AM]]].
    destruct (if need then restart_marker d2 b1 else Ok (d2, b1)) as [[d3 b3]|e|p|]; try contradiction.
    2:{ destruct e; inv SL; (split; [exact I|split; [eauto|discriminate]]). }
    destruct AM as [S3 [G3 [D3 [Co3 [ID3 C3]]]]]. pose proof (same_ok _ _ K1 S3) as K3.
    assert (Sz3 : Forall2 (sized (dim_h (f_mcu fr))) (f_components fr) (ss_results (d_ss d3))).
    { destruct S3 as [s3 [E3 [R3 _]]]. rewrite E3. cbn [set_ss d_ss]. rewrite R3, E1'. cbn [set_ss d_ss]. rewrite Rs1. exact Sz. }
    destruct (deq_ok dbg d0 fr Fr FG Few Qt Cp x y d3 D3 Hx Hy Sz3) as [ps [ED Sz4]]; [rewrite Co3, Lc; unfold MAX_BLOCKS; lia|].
    rewrite ED in SL. apply (IH (pre ++ [(y, x)])) in SL; auto.
    - rewrite <- app_assoc. exact E.
    - destruct D3 as [s3 ->]. eexists. reflexivity.
    - destruct K3 as [A1 A2 A3 A4 A5 A6 A7 A8]. constructor; cbn; auto.
    - intros NR. specialize (C3 NR). unfold lenZ in *. rewrite app_length. cbn [length]. replace (Z.of_nat (length pre + 1)) with (Z.of_nat (length pre) + 1) by lia. exact C3.
  Qed.
End Scan.

(** ** The whole file *)
Lemma from_inv : forall dbg rayon c c', from dbg false rayon c c' -> forall p d b p' d' b', c = (p, d, b) -> c' = (p', d', b') ->
  dec_ok d -> good b -> pc_ok p d -> dec_ok d' /\ good b' /\ pc_ok p' d'.
Proof.
  intros dbg rayon c c' H. induction H as [|c1 c2 H IH M]; intros p d b p' d' b' E1 E2 K G P.
  - assert (X : (p, d, b) = (p', d', b')) by congruence. inv X. auto.
  - destruct c1 as [[p1 d1] b1]. subst c2. cbn [moves] in M. destruct (IH _ _ _ _ _ _ E1 eq_refl K G P) as [K1 [G1 P1]].
    pose proof (step_inv dbg false rayon p1 d1 b1 K1 G1 P1) as SI. rewrite M in SI. destruct SI as [A [B [_ [C _]]]]. auto.
Qed.

(** The state in which the scan starts, and where the samples come from in the end. *)
Definition scan_start (dbg : bool) (fr : frame) (ts : list tables) (qts : list (option (list Z))) (r : Z) (dq : decoder) (sc : scan) (d2 : decoder) : Prop :=
  d_frame dq = Some fr /\ d_scan dq = Some sc /\ s_start sc = 0 /\ s_end sc = 63 /\ s_low sc = 0 /\
  comps_ready dbg dq (f_components fr) (s_headers sc) ts /\ d_qt dq = qts /\ d_restart dq = r /\ scan_init true dq = Ok d2 /\ dec_ok d2 /\
  Forall (fun c => exists qt, index qts (c_tq c) = Ok (Some qt)) (f_components fr).
Definition placed (lines samples : Z) (cs : list comp_spec) (qs : list (list Z)) (log : list (list (list Z))) (planes : list plane) : Prop :=
  let mw := mcus samples (largest (map cs_h cs)) in let mh := mcus lines (largest (map cs_v cs)) in
  forall k c, nth_error cs k = Some c -> exists p qt q, nth_error planes k = Some p /\ nth_error qs k = Some q /\ natural_order qt q /\
    lenZ p = 8 * (mh * cs_v c) * (8 * (mw * cs_h c)) /\
    forall y x, 0 <= y < 8 * (mh * cs_v c) -> 0 <= x < 8 * (mw * cs_h c) ->
      sample_at p (8 * (mw * cs_h c)) y x = Some (in_block (block_samples (containing_block log mw (blocks_before cs k) (cs_h c) (cs_v c) y x) qt) y x).

Definition gives_up (r : res) : Prop := match r with RNeed _ | RFail _ => True | _ => False end.
Lemma sos_any : forall dbg rayon segs d fmk pr lines samples cs ss ts qs data tail, stop_tail tail -> rst_only data -> bytes data -> bytes tail ->
  Forall (fun s => hseg_ok (snd s)) segs -> header_ok lines samples cs -> 0 <= fmk <= 1 ->
  d_frame d = Some (frame_of fmk pr lines samples cs) -> d_restart d = last (dris segs) 0 -> 0 <= d_restart d -> d_finished d = [0; 0; 0; 0] ->
  quant_slots [None; None; None; None] (d_qt d) (dqts segs) ->
  dc_slots dbg [None; None; None; None] (d_dc d) (dhts segs) -> ac_slots dbg [None; None; None; None] (d_ac d) (dhts segs) ->
  NoDup (map cs_id cs) -> lenZ cs <= 4 -> (blocks_before cs (length cs) <= 10)%nat -> comp_codings segs cs ss ts qs ->
  dec_ok d -> good (mkBiter (segment (sos_bytes (mkSpS ss 0 63 0 0)) ++ data ++ tail) 0 0) ->
  let mw := mcus samples (largest (map cs_h cs)) in let mh := mcus lines (largest (map cs_v cs)) in
  exists p1 d1 b1, from dbg false rayon (PcSegment SOS, d, mkBiter (segment (sos_bytes (mkSpS ss 0 63 0 0)) ++ data ++ tail) 0 0) (p1, d1, b1) /\
  (((exists d' b' r, step dbg false rayon p1 d1 b1 = (d', b', SStop r) /\ gives_up r) /\
    exists dq sc d2, scan_start dbg (frame_of fmk pr lines samples cs) ts (d_qt d) (d_restart d) dq sc d2 /\
      forall log d3 b3, ~ mcus_read dbg (mcu_list (f_mcu (frame_of fmk pr lines samples cs))) d2 (mkBiter (data ++ tail) 0 0) log d3 b3) \/
   (p1 = PcMarker /\ in_data tail (bi_input b1) /\ d_frame d1 = d_frame d /\ d_color d1 = d_color d /\ four_slots d1 /\ Forall full (d_planes d1) /\
    length (d_planes d1) = length cs /\
    exists dq sc d2 log d3, scan_start dbg (frame_of fmk pr lines samples cs) ts (d_qt d) (d_restart d) dq sc d2 /\
      mcus_read dbg (mcu_list (f_mcu (frame_of fmk pr lines samples cs))) d2 (mkBiter (data ++ tail) 0 0) log d3 b1 /\
      placed lines samples cs qs log (d_planes d1))).
Proof.
  intros dbg rayon segs d fmk pr lines samples cs ss ts qs data tail StT RO Bd Bt F HO Fm Fr Rs R0 Fin Q D A ND L4 Few CC Kd Gd mw mh.
  destruct (codings_length _ _ _ _ _ CC) as [Lss [Lts [Lqs Ids]]].
  set (fr := frame_of fmk pr lines samples cs) in *. set (s := mkSpS ss 0 63 0 0). set (ks := zrange (lenZ cs)). set (sc := scan_of s ks).
  assert (L1 : 1 <= lenZ cs) by (destruct HO as [_ _ N _ _ _]; unfold lenZ; destruct cs; [congruence|cbn [length]; lia]).
  assert (Lk : length ks = length cs) by (unfold ks; rewrite zrange_length; unfold lenZ; lia).
  assert (Lh : length (s_headers sc) = length cs) by (unfold sc, scan_of; cbn [s_headers sp_comps s]; rewrite headers_length; lia).
  assert (Hi : map h_index (s_headers sc) = ks) by (unfold sc, scan_of; cbn [s_headers sp_comps s]; apply combine_header; lia).
  assert (Hi' : map h_index (s_headers sc) = zrange (lenZ (s_headers sc))) by (rewrite Hi; unfold ks, lenZ; rewrite Lh; reflexivity).
  assert (SH : sos_segment (Some fr) (sos_bytes s) = Ok (sc, [])).
  { rewrite <- (app_nil_r (sos_bytes s)). apply sos_header_scan; [destruct HO as [_ _ _ N _ _]; unfold fr, frame_of; cbn [f_components]; unfold lenZ in *; rewrite map_length; lia| |apply scan_in_all; auto].
    unfold scan_ok, s. cbn [sp_comps sp_start sp_end sp_high sp_low]. split; [|unfold is_byte, nibble; lia].
    apply Forall_forall. intros x Ix. apply In_nth_error in Ix. destruct Ix as [k Ek]. assert (Hk : (k < length cs)%nat) by (rewrite <- Lss; apply nth_error_Some; congruence).
    destruct (nth_error cs k) as [c|] eqn:Ec; [|apply nth_error_None in Ec; lia]. destruct (codings_nth _ _ _ _ _ CC k c Ec) as [x' [t [q [X1 [_ [_ [Y1 Y2 Y3 _ _ _ _]]]]]]].
    assert (x' = x) by congruence. subst x'. destruct HO as [_ _ _ _ HR _]. rewrite Forall_forall in HR. destruct (HR c (nth_error_In _ _ Ec)) as [B _]. split; [congruence|]. unfold nibble. lia. }
  destruct (finish_all dbg (s_headers sc) ltac:(unfold lenZ in L4; lia) Hi') as [fin [MF AF]].
  set (d1 := set_finished (set_scan d (Some sc)) fin).
  assert (SB : sos_begin dbg d sc = (d1, Ok true)).
  { unfold sos_begin. cbn [set_scan d_frame d_finished]. rewrite Fr.
    assert (CP : coding_process fr = Ok Baseline \/ coding_process fr = Ok Sequential).
    { unfold coding_process, fr, frame_of. cbn [f_marker]. assert (O : fmk = 0 \/ fmk = 1) by lia. destruct O as [-> | ->]; cbn; auto. }
    rewrite Fin. change (s_low sc) with 0. change (s_start sc) with 0. change (s_end sc) with 63. change (0 =? 0) with true. cbn iota.
    rewrite MF. destruct CP as [-> | ->]; rewrite AF; reflexivity. }
  assert (RD : comps_ready dbg d1 (f_components fr) (s_headers sc) ts).
  { unfold fr, frame_of, sc, scan_of. cbn [f_components s_headers sp_comps s]. eapply codings_ready; eauto. }
  destruct (ready_tables _ _ _ _ _ RD) as [U1 U2].
  assert (SI : scan_init true d1 = Ok (set_ss d1 (mkSS zero_coefs [0; 0; 0; 0] 0 0 (d_restart d) (map (fun c => repeat None (Z.to_nat (area (c_block_size c) * 64))) (f_components fr))))).
  { unfold scan_init. cbn [d1 set_finished set_scan d_frame d_scan]. rewrite Fr. change (s_start sc) with 0. change (s_end sc) with 63. change (0 =? 0) with true. change (1 <? 63) with true. cbn iota.
    fold (set_finished (set_scan d (Some sc)) fin). fold d1. rewrite U1. cbn [bind]. rewrite U2. cbn [bind].
    assert (X : lenZ (f_components fr) <=? 4 = true) by (unfold fr, frame_of; cbn [f_components]; unfold lenZ in *; rewrite map_length; lia).
    rewrite X. reflexivity. }
  set (d2 := set_ss d1 _) in SI.
  assert (ST : step dbg false rayon (PcSegment SOS) d (mkBiter (segment (sos_bytes s) ++ data ++ tail) 0 0)
    = (d2, mkBiter (data ++ tail) 0 0, SNext (PcScan true (mcu_list (f_mcu fr)) PhRow))).
  { rewrite step_segment by reflexivity. unfold on_payload, do_sos. rewrite Fr, SH, SB, SI. cbn [d2 d1 set_ss set_finished set_scan d_frame]. rewrite Fr. reflexivity. }
  assert (FG : frame_good fr) by (exists fmk, pr, lines, samples, cs; split; [reflexivity|exact HO]).
  destruct (frame_fits fr FG) as [_ [W0 [H0 [_ Ar]]]].
  assert (Qts : forall k c, nth_error cs k = Some c -> exists qt q, index (d_qt d) (cs_tq c) = Ok (Some qt) /\ nth_error qs k = Some q /\ natural_order qt q).
  { intros k c Ec. destruct (codings_nth _ _ _ _ _ CC k c Ec) as [x' [t [q [_ [_ [X3 [_ _ _ Y4 _ _ [e [Y5 Y6]]]]]]]]]. destruct Q as [Q1 Q2]. specialize (Q2 (Z.to_nat (cs_tq c)) ltac:(lia)).
    rewrite Z2Nat.id in Q2 by lia. rewrite Y5 in Q2. destruct Q2 as [qt [Q3 Q4]]. exists qt, q. split; [apply slot_ok; auto|]. split; [exact X3|]. rewrite Y6. exact Q4. }
  set (b0 := mkBiter (data ++ tail) 0 0) in *.
  pose proof (step_inv dbg false rayon (PcSegment SOS) d _ Kd Gd I) as SV. fold s in SV. rewrite ST in SV. destruct SV as [K2 [G2 [_ [P2 _]]]].
  assert (S1 : from dbg false rayon (PcSegment SOS, d, mkBiter (segment (sos_bytes s) ++ data ++ tail) 0 0) (PcScan true (mcu_list (f_mcu fr)) PhRow, d2, b0)) by (eapply from_next; [apply from_here|exact ST]).
  pose proof (scan_inv dbg false true (mcu_list (f_mcu fr)) PhRow d2 b0 K2 G2 P2) as SV.
  destruct (scan_loop dbg false true (mcu_list (f_mcu fr)) PhRow d2 b0) as [[d3 b3] r] eqn:SL. destruct SV as [K3 [G3 _]].
  assert (CP : coding_process fr = Ok Baseline \/ coding_process fr = Ok Sequential).
  { unfold coding_process, fr, frame_of. cbn [f_marker]. assert (O : fmk = 0 \/ fmk = 1) by lia. destruct O as [-> | ->]; cbn; auto. }
  destruct (init_counts _ _ _ SI R0) as [C0 _].
  destruct (scan_calm dbg d1 fr sc ts tail Fr eq_refl ltac:(cbn; lia) RD FG ltac:(unfold fr; rewrite total_before by exact HO; exact Few)
     ltac:(unfold fr, frame_of; cbn [f_components]; apply Forall_forall; intros c Ic; apply in_map_iff in Ic; destruct Ic as [c0 [<- Ic]]; cbn [c_tq]; apply In_nth_error in Ic; destruct Ic as [k Ek]; destruct (Qts k c0 Ek) as [qt [q [X _]]]; exists qt; exact X)
     CP StT (mcu_list (f_mcu fr)) [] d2 b0 eq_refl ltac:(eexists; reflexivity) K2 G2 ltac:(exists data; auto)
     ltac:(cbn [d2 set_ss d_ss ss_results]; eapply covered_sized; apply covered_start; exact FG) ltac:(intros _; exact C0) d3 b3 r SL) as [Cm [[s3 E3] Dn]].
  assert (SS : scan_start dbg fr ts (d_qt d) (d_restart d) d1 sc d2).
  { unfold scan_start. splits; auto. unfold fr, frame_of; cbn [f_components]; apply Forall_forall; intros c Ic; apply in_map_iff in Ic; destruct Ic as [c0 [<- Ic]]; cbn [c_tq]; apply In_nth_error in Ic; destruct Ic as [k Ek]; destruct (Qts k c0 Ek) as [qt [q [X _]]]; exists qt; exact X. }
  assert (NR : r <> ScDone -> forall log d5 b5, ~ mcus_read dbg (mcu_list (f_mcu fr)) d2 b0 log d5 b5).
  { intros ND' log d5 b5 MR. assert (X : scan_loop dbg false true (mcu_list (f_mcu fr)) PhRow d2 b0 = (d5, b5, ScDone)) by (apply scan_loop_reads; exists log; exact MR). congruence. }
  destruct r as [|todo' ph'|e|p|]; try contradiction.
  2:{ exists (PcScan true (mcu_list (f_mcu fr)) PhRow), d2, b0. split; [exact S1|]. left. split; [cbn [step]; rewrite SL; eexists _, _, _; split; [reflexivity|exact I]|].
      exists d1, sc, d2. split; [exact SS|]. apply NR. discriminate. }
  2:{ exists (PcScan true (mcu_list (f_mcu fr)) PhRow), d2, b0. split; [exact S1|]. left. split; [cbn [step]; rewrite SL; eexists _, _, _; split; [reflexivity|exact I]|].
      exists d1, sc, d2. split; [exact SS|]. apply NR. discriminate. }
  destruct (Dn eq_refl) as [ID3 Sz3].
  assert (L3 : length (ss_results (d_ss d3)) = length (s_headers sc)).
  { apply Forall2_length in Sz3. rewrite <- Sz3, Lh. unfold fr, frame_of. cbn [f_components]. apply map_length. }
  destruct (take_all (s_headers sc) (ss_results (d_ss d3)) ltac:(unfold lenZ in L4; lia) Hi' L3) as [r TK].
  assert (SF : exists d4, scan_finish d3 = Ok d4 /\ d_frame d4 = d_frame d /\ d_color d4 = d_color d).
  { assert (Sc3 : d_scan d3 = Some sc) by (rewrite E3; reflexivity). unfold scan_finish. rewrite Sc3, TK. cbn [bind]. eexists. split; [reflexivity|]. rewrite E3. split; reflexivity. }
  destruct SF as [d4 [SF [Fr4 Co4]]].
  assert (ST2 : step dbg false rayon (PcScan true (mcu_list (f_mcu fr)) PhRow) d2 b0 = (d4, b3, SNext PcMarker)) by (cbn [step]; rewrite SL, SF; reflexivity).
  pose proof (step_inv dbg false rayon _ d2 b0 K2 G2 P2) as SV. rewrite ST2 in SV. destruct SV as [K4 _].
  assert (NDh : NoDup (map h_index (s_headers sc))) by (rewrite Hi; unfold ks, zrange; apply FinFun.Injective_map_NoDup; [intros a b; lia|apply seq_NoDup]).
  destruct (scan_placed dbg rayon d1 fmk pr lines samples cs sc d2 _ d4 b3 HO Fr eq_refl NDh SI ST2) as [log2 [d5 [MR [Lp PL]]]].
  exists PcMarker, d4, b3. split; [eapply from_next; [exact S1|exact ST2]|]. right. split; [reflexivity|]. split; [exact ID3|]. split; [exact Fr4|]. split; [exact Co4|].
  split; [apply K4|]. split; [apply K4|]. split; [rewrite Lp; exact Lh|].
  exists d1, sc, d2, log2, d5. split; [exact SS|split; [exact MR|]].
  unfold placed. cbv zeta. fold mw mh.
  intros k c Ec. assert (Hk : (k < length cs)%nat) by (apply nth_error_Some; congruence).
  destruct (nth_error (s_headers sc) k) as [hd|] eqn:Eh; [|apply nth_error_None in Eh; lia].
  assert (Ek : h_index hd = Z.of_nat k).
  { assert (X : nth_error ks k = Some (h_index hd)) by (rewrite <- Hi, nth_error_map, Eh; reflexivity). unfold ks in X.
    pose proof (zrange_nth_error (lenZ cs) (Z.of_nat k) ltac:(unfold lenZ; lia)) as Y. rewrite Nat2Z.id in Y. congruence. }
  destruct (PL k hd c Eh) as [p [Ep [Lpp Sp]]]; [rewrite Ek, Nat2Z.id; exact Ec|]. rewrite Ek, Nat2Z.id in Sp. fold mw mh in Lpp, Sp.
  destruct (Qts k c Ec) as [qt [q [Q1 [Q2 Q3]]]]. exists p, qt, q. split; [exact Ep|]. split; [exact Q2|]. split; [exact Q3|]. split; [exact Lpp|].
  intros y x Hy Hx. destruct (Sp y x Hy Hx) as [qt' [Q4 Es]]. cbn [d1 set_finished set_scan d_qt] in Q4. assert (qt' = qt) by congruence. subst qt'. exact Es.
Qed.

Lemma skip_rst : forall dbg rayon n j d t bits count, (length j <= n)%nat -> rst_only j ->
  exists j', no_marker j' /\ from dbg false rayon (PcMarker, d, mkBiter (j ++ t) bits count) (PcMarker, d, mkBiter (j' ++ t) bits count).
Proof.
  intros dbg rayon. induction n as [|n IH]; intros j d t bits count L R.
  - exists j. split; [|apply from_here]. destruct j; [constructor|cbn in L; lia].
  - destruct (ro_split j R) as [NM|[k [rest [Hk [R' FM]]]]]; [exists j; split; [exact NM|apply from_here]|].
    assert (Lr : (length rest <= n)%nat).
    { destruct FM as [pre [m [_ [_ [_ ->]]]]]. rewrite !app_length in L. cbn [length] in L. unfold FF in L. rewrite repeat_length in L. lia. }
    destruct (IH rest d t bits count Lr R') as [j' [N' F']]. exists j'. split; [exact N'|]. eapply from_trans; [|exact F'].
    assert (P : parse_marker (j ++ t) = Ok (RST k, rest ++ t)).
    { apply parse_marker_ok. exists (0xD0 + k). split; [constructor; lia|]. apply first_app. exact FM. }
    apply (from_next _ _ _ _ (PcSegment (RST k), d, mkBiter (rest ++ t) bits count)); [|reflexivity]. eapply from_next; [apply from_here|]. cbn [moves step bi_input bi_bits bi_count]. rewrite P. reflexivity.
Qed.

Lemma run_calm : forall dbg rayon input p d b d' b' r, bytes input -> from dbg false rayon (PcMarker, decoder_default, biter_new input) (p, d, b) ->
  step dbg false rayon p d b = (d', b', SStop r) ->
  decode_fresh dbg rayon input = match r with
       | RImage img => match bi_input b' with [] => Ok img | _ => Panic PAssert end
       | RError e => match bi_input b' with [] => Fail e | _ => Panic PAssert end
       | RNeed _ => Fail EEof
       | RFail e => Fail e
       | RPanic p => Panic p
       | RUB => UB
       end.
Proof.
  intros dbg rayon input p d b d' b' r B S E.
  assert (R : runs_to dbg false rayon (p, d, b) (d', b', r)).
  { exists 1%nat. split; [cbn [run]; rewrite E; reflexivity|]. cbn [snd]. intros ->.
    destruct (from_inv dbg rayon _ _ S _ _ _ _ _ _ eq_refl eq_refl default_ok ltac:(split; [unfold biter_new, reader_ok; cbn; lia|exact B]) I) as [K [G P]].
    pose proof (step_inv dbg false rayon p d b K G P) as X. rewrite E in X. destruct X as [_ [_ [_ []]]]. }
  apply (from_runs _ _ _ _ _ S) in R. destruct R as [fuel [R NP]].
  pose proof (decode_no_fuel dbg rayon decoder_default input ltac:(constructor) B) as NF. unfold decode_fresh. unfold decode in *.
  destruct (run dbg false rayon (run_fuel (biter_new input)) PcMarker decoder_default (biter_new input)) as [[d1 b1] r1] eqn:ER.
  assert (W : (d1, b1, r1) = (d', b', r)).
  { rewrite <- ER, <- R. destruct (Nat.le_ge_cases fuel (run_fuel (biter_new input))) as [Le|Le].
    - apply run_more; [rewrite R; exact NP|exact Le].
    - symmetry. apply run_more; [rewrite ER; cbn [snd] in *; intros ->; apply NF; reflexivity|exact Le]. }
  inv W. reflexivity.
Qed.

Lemma full_known : forall p : plane, full p -> p = line_of (map known p) /\ bytes (map known p).
Proof.
  intros p F. unfold line_of, bytes. induction F as [|o p [v [-> Bv]] F [IH1 IH2]]; [split; [reflexivity|constructor]|]. cbn [map known]. split; [rewrite <- IH1; reflexivity|constructor; assumption].
Qed.

Lemma header_stop : forall post fill, Forall (fun s => hseg_ok (snd s)) post -> stop_tail (flat_map hseg_bytes post ++ marker_bytes fill 0xD9).
Proof.
  intros [|s post] fill F.
  - exists fill, 0xD9, []. unfold marker_bytes. cbn [flat_map app]. splits; [reflexivity|lia|lia|lia].
  - inv F. exists (fst s), (hseg_code (snd s)), (segment (hseg_payload (snd s)) ++ flat_map hseg_bytes post ++ marker_bytes fill 0xD9).
    splits; [cbn [flat_map]; unfold hseg_bytes at 1, marker_bytes at 1; rewrite <- !app_assoc; reflexivity| | |]; destruct H1 as [H1 _]; destruct (snd s); cbn [hseg_code] in *; lia.
Qed.

Lemma file_scan_exact : forall dbg rayon segs h fill1 fill2 ss ts qs data post fill3,
  header_for segs h ss ts qs -> rst_only data -> post_ok post ->
  let cs := fh_comps h in let lines := fh_lines h in let samples := fh_samples h in
  let file := file_bytes segs fill1 fill2 (mkSpS ss 0 63 0 0) data post fill3 in bytes file ->
  let fr := frame_of (fh_marker h) (fh_precision h) lines samples cs in
  ((exists e, decode_fresh dbg rayon file = Fail e) /\
   exists dq sc d2 qts, scan_start dbg fr ts qts (last (dris segs) 0) dq sc d2 /\
     forall log d3 b3, ~ mcus_read dbg (mcu_list (f_mcu fr)) d2 (mkBiter (data ++ flat_map hseg_bytes post ++ marker_bytes fill3 0xD9) 0 0) log d3 b3) \/
  exists d b j dq sc d2 qts log d3 b3, from dbg false rayon (PcMarker, decoder_default, biter_new file) (PcMarker, d, b) /\
    bi_input b = j ++ marker_bytes fill3 0xD9 /\ no_marker j /\ d_frame d = Some fr /\
    d_color d = last (map transform_of (adobes (segs ++ post))) None /\ d_planes d = map line_of (map (map known) (d_planes d)) /\
    length (d_planes d) = length cs /\ Forall2 (plane_for lines samples cs) cs (map (map known) (d_planes d)) /\
    scan_start dbg fr ts qts (last (dris segs) 0) dq sc d2 /\
    mcus_read dbg (mcu_list (f_mcu fr)) d2 (mkBiter (data ++ flat_map hseg_bytes post ++ marker_bytes fill3 0xD9) 0 0) log d3 b3 /\
    placed lines samples cs qs log (d_planes d).
Proof.
  intros dbg rayon segs h fill1 fill2 ss ts qs data post fill3 [F Sf ND L4 Few CC] RO [Fp Sop] cs lines samples file Bf fr.
  destruct (sof_ok segs h F ltac:(rewrite Sf; left; reflexivity)) as [Fm HO].
  fold cs lines samples in HO.
  set (tail := flat_map hseg_bytes post ++ marker_bytes fill3 0xD9).
  set (rest := marker_bytes fill2 0xDA ++ segment (sos_bytes (mkSpS ss 0 63 0 0)) ++ data ++ tail).
  assert (Ef : file = marker_bytes fill1 0xD8 ++ flat_map hseg_bytes segs ++ rest) by reflexivity.
  assert (Bt : bytes data /\ bytes tail) by (unfold bytes in *; rewrite Ef in Bf; unfold rest in Bf; rewrite !Forall_app in Bf; tauto). destruct Bt as [Bd Bt].
  assert (S1 : from dbg false rayon (PcMarker, decoder_default, biter_new file)
    (PcMarker, decoder_default, mkBiter ([] ++ flat_map hseg_bytes segs ++ rest) 0 0)).
  { apply (from_next _ _ _ _ (PcSegment SOI, decoder_default, mkBiter (flat_map hseg_bytes segs ++ rest) 0 0)); [|reflexivity]. eapply from_next; [apply from_here|]. cbn [moves biter_new]. rewrite Ef.
    apply (marker_step dbg false rayon decoder_default [] fill1 0xD8 SOI); [constructor|constructor|discriminate]. }
  destruct (header_run dbg false rayon 0 0 segs decoder_default [] rest ltac:(split; [|split]; reflexivity) F ltac:(constructor)) as [d1 [junk [S2 [J [F4 [H1 H2 H3 H5 H6 H7 H8 H9 _]]]]]].
  rewrite Sf in H6. cbn [map last] in H6. cbn [decoder_default d_qt d_dc d_ac d_restart d_color d_finished] in *.
  set (bs := mkBiter (segment (sos_bytes (mkSpS ss 0 63 0 0)) ++ data ++ tail) 0 0).
  assert (S3 : from dbg false rayon (PcMarker, decoder_default, biter_new file) (PcSegment SOS, d1, bs)).
  { eapply from_trans; [exact S1|]. eapply from_trans; [exact S2|]. eapply from_next; [apply from_here|]. cbn [moves]. apply (marker_step dbg false rayon d1 junk fill2 0xDA SOS); [exact J|constructor|discriminate]. }
  destruct (from_inv dbg rayon _ _ S3 _ _ _ _ _ _ eq_refl eq_refl default_ok ltac:(split; [unfold biter_new, reader_ok; cbn; lia|exact Bf]) I) as [Kd [Gd _]].
  destruct (sos_any dbg rayon segs d1 (fh_marker h) (fh_precision h) lines samples cs ss ts qs data tail (header_stop post fill3 Fp) RO Bd Bt F HO Fm H6 H5 ltac:(rewrite H5; apply dri_nonneg; exact F) H9 H1 H2 H3 ND L4 Few CC Kd Gd)
    as [p1 [d2 [b2 [S4 [[[d' [b' [r [St Gv]]]] [dq [sc [d3 [SS NR]]]]]|[-> [[j2 [Rj Ei]] [Fr2 [Co2 [Fs2 [Fu [Lp [dq [sc [d3 [log [d4 [SS [MR PL]]]]]]]]]]]]]]]]]]].
  - rewrite (run_calm dbg rayon file p1 d2 b2 d' b' r Bf ltac:(eapply from_trans; [exact S3|exact S4]) St). left. split; [destruct r; try contradiction; eauto|].
    exists dq, sc, d3, (d_qt d1). split; [rewrite <- H5; exact SS|exact NR].
  - right. remember b2 as b2' eqn:Eb2. rewrite Eb2 in MR. destruct b2' as [i2 bits2 count2]. cbn [bi_input] in Ei. subst i2.
    destruct (skip_rst dbg rayon (length j2) j2 d2 tail bits2 count2 ltac:(lia) Rj) as [j3 [N3 S5]].
    destruct (header_run dbg false rayon bits2 count2 post d2 j3 (marker_bytes fill3 0xD9) Fs2 Fp N3) as [d5 [j5 [S6 [J5 [F5 [K1 K2 K3 K5 K6 K7 K8 K9 _]]]]]].
    rewrite Sop in K6. cbn [map last] in K6. rewrite <- K8 in Fu, Lp, PL.
    assert (Fr5 : d_frame d5 = Some (frame_of (fh_marker h) (fh_precision h) lines samples cs)) by (rewrite K6, Fr2; exact H6).
    assert (Co5 : d_color d5 = last (map transform_of (adobes (segs ++ post))) None) by (rewrite K7, Co2, H7; unfold adobes; rewrite flat_map_app, map_app, last_app; reflexivity).
    assert (S7 : from dbg false rayon (PcMarker, decoder_default, biter_new file) (PcMarker, d5, mkBiter (j5 ++ marker_bytes fill3 0xD9) bits2 count2)).
    { eapply from_trans; [exact S3|]. eapply from_trans; [exact S4|]. eapply from_trans; [exact S5|exact S6]. }
    assert (Ep : d_planes d5 = map line_of (map (map known) (d_planes d5))).
    { rewrite map_map. rewrite <- (map_id (d_planes d5)) at 1. apply map_ext_in. intros p Ip. rewrite Forall_forall in Fu. apply (full_known p (Fu p Ip)). }
    assert (PF : Forall2 (plane_for lines samples cs) cs (map (map known) (d_planes d5))).
    { apply Forall2_nth_error; [rewrite map_length; symmetry; exact Lp|]. intros k c p Ec Ek. destruct (PL k c Ec) as [p' [qt' [q' [Ep' [_ [_ [Lpp _]]]]]]]. rewrite nth_error_map in Ek. unfold plane in *. rewrite Ep' in Ek. injection Ek as <-.
      rewrite Forall_forall in Fu. split; [apply (full_known p' (Fu p' (nth_error_In _ _ Ep')))|]. unfold plane_rows, plane_stride, lenZ in *. rewrite map_length, Lpp. apply Z.mul_comm. }
    exists d5, (mkBiter (j5 ++ marker_bytes fill3 0xD9) bits2 count2), j5, dq, sc, d3, (d_qt d1), log, d4, b2. splits; auto. rewrite <- H5. exact SS.
Qed.

Lemma file_scan : forall dbg rayon segs h fill1 fill2 ss ts qs data post fill3,
  header_for segs h ss ts qs -> rst_only data -> post_ok post ->
  let cs := fh_comps h in let lines := fh_lines h in let samples := fh_samples h in
  let file := file_bytes segs fill1 fill2 (mkSpS ss 0 63 0 0) data post fill3 in bytes file ->
  let fr := frame_of (fh_marker h) (fh_precision h) lines samples cs in
  (exists e, decode_fresh dbg rayon file = Fail e) \/
  exists d b j dq sc d2 qts log d3 b3, from dbg false rayon (PcMarker, decoder_default, biter_new file) (PcMarker, d, b) /\
    bi_input b = j ++ marker_bytes fill3 0xD9 /\ no_marker j /\ d_frame d = Some fr /\
    d_color d = last (map transform_of (adobes (segs ++ post))) None /\ d_planes d = map line_of (map (map known) (d_planes d)) /\
    length (d_planes d) = length cs /\ Forall2 (plane_for lines samples cs) cs (map (map known) (d_planes d)) /\
    scan_start dbg fr ts qts (last (dris segs) 0) dq sc d2 /\
    mcus_read dbg (mcu_list (f_mcu fr)) d2 (mkBiter (data ++ flat_map hseg_bytes post ++ marker_bytes fill3 0xD9) 0 0) log d3 b3 /\
    placed lines samples cs qs log (d_planes d).
Proof.
  intros dbg rayon segs h fill1 fill2 ss ts qs data post fill3 HF RO PO cs lines samples file Bf fr.
  destruct (file_scan_exact dbg rayon segs h fill1 fill2 ss ts qs data post fill3 HF RO PO Bf) as [[E _]|E]; [left; exact E|right; exact E].
Qed.

Lemma file_any : forall dbg rayon segs h fill1 fill2 ss ts qs data post fill3,
  header_for segs h ss ts qs -> shows h (adobes (segs ++ post)) -> rst_only data -> post_ok post ->
  let file := file_bytes segs fill1 fill2 (mkSpS ss 0 63 0 0) data post fill3 in bytes file -> returns (decode_fresh dbg rayon file).
Proof.
  intros dbg rayon segs h fill1 fill2 ss ts qs data post fill3 HF [P1 [P2 [WR [WW Cl]]]] RO PO file Bf.
  destruct (file_scan dbg rayon segs h fill1 fill2 ss ts qs data post fill3 HF RO PO Bf) as [[e E]|[d5 [b5 [j5 [dq [sc [d2 [qts [log [d3 [b3 [S7 [Eb [J5 [Fr5 [Co5 [Ep [Lp [PF _]]]]]]]]]]]]]]]]]]]; [fold file in E; rewrite E; exact I|].
  destruct HF as [F Sf ND L4 Few CC]. destruct (sof_ok segs h F ltac:(rewrite Sf; left; reflexivity)) as [Fm HO].
  set (cs := fh_comps h) in *. set (lines := fh_lines h) in *. set (samples := fh_samples h) in *.
    assert (U : exists img, upsample_image dbg rayon d5 = Ok img).
    { remember (map (map known) (d_planes d5)) as ps eqn:Eps. assert (Lps : length ps = length cs) by (subst ps; rewrite map_length; exact Lp). clear Eps. clearbody cs. clear - Cl Lps Ep PF Fr5 Co5 HO P1 P2 WR WW.
      destruct Cl as [[L N]|[L [N1 N2]]]; rewrite L in Lps.
      - destruct cs as [|c0 [|c1 [|c2 [|c3 cs]]]]; try discriminate L. destruct ps as [|q0 [|q1 [|q2 [|q3 ps]]]]; try discriminate Lps.
        destruct (image_ycbcr dbg rayon d5 (fh_marker h) (fh_precision h) lines samples c0 c1 c2 q0 q1 q2 HO P1 P2 WR WW PF Fr5 Ep) as [img [E _]]; [rewrite Co5, color_of_last; intros [_ X]; congruence|eauto].
      - destruct cs as [|c0 [|c1 [|c2 [|c3 [|c4 cs]]]]]; try discriminate L. destruct ps as [|q0 [|q1 [|q2 [|q3 [|q4 ps]]]]]; try discriminate Lps.
        destruct (image_cmyk dbg rayon d5 (fh_marker h) (fh_precision h) lines samples c0 c1 c2 c3 q0 q1 q2 q3 HO P1 P2 WR WW PF Fr5 Ep) as [img [E _]]; [rewrite Co5, color_of_last; auto|eauto]. }
    destruct U as [img U]. rewrite (decode_from dbg rayon file d5 j5 fill3 img _ Bf S7 Eb J5 U). exact I.
Qed.

(** A panic on a prefix is a panic on the whole. *)
Lemma prefix_returns : forall dbg rayon d pre more, reachable dbg rayon d -> bytes (pre ++ more) ->
  returns (snd (decode dbg rayon d (pre ++ more))) -> returns (snd (decode dbg rayon d pre)).
Proof.
  intros dbg rayon d pre more Rd B R. pose proof B as B'. unfold bytes in B'. apply Forall_app in B'. destruct B' as [Bp _].
  pose proof (decode_no_fuel dbg rayon d pre Rd Bp) as NF. pose proof (decode_no_fuel dbg rayon d (pre ++ more) Rd B) as NF2. unfold decode in *.
  destruct (run dbg false rayon (run_fuel (biter_new pre)) PcMarker d (biter_new pre)) as [[d1 b1] r1] eqn:E. cbn [snd] in *.
  assert (X : ~ is_need r1 -> r1 <> RFail EOutOfBits -> run dbg false rayon (run_fuel (biter_new (pre ++ more))) PcMarker d (biter_new (pre ++ more)) = (d1, ext more b1, r1)).
  { intros N1 N2. pose proof (run_ext_done more _ _ _ _ _ _ _ _ _ _ E N1 N2 ltac:(intros ->; apply NF; reflexivity)) as Y. change (ext more (biter_new pre)) with (biter_new (pre ++ more)) in Y.
    rewrite <- Y. apply run_more; [rewrite Y; cbn [snd]; intros ->; apply NF; reflexivity|]. unfold run_fuel, biter_new. cbn [bi_input]. rewrite app_length. lia. }
  destruct r1 as [img|e|q|e|q|]; try exact I.
  - rewrite (X (fun x => x) ltac:(discriminate)) in R. cbn [ext bi_input] in R. destruct (bi_input b1); [exact I|exact R].
  - rewrite (X (fun x => x) ltac:(discriminate)) in R. cbn [ext bi_input] in R. destruct (bi_input b1); [exact I|exact R].
  - rewrite (X (fun x => x) ltac:(discriminate)) in R. exact R.
  - rewrite (X (fun x => x) ltac:(discriminate)) in R. exact R.
Qed.

Lemma damaged_scan : forall dbg rayon segs h fill1 fill2 ss ts qs data post fill3 input more,
  header_for segs h ss ts qs -> shows h (adobes (segs ++ post)) -> rst_only data -> post_ok post ->
  input ++ more = file_bytes segs fill1 fill2 (mkSpS ss 0 63 0 0) data post fill3 -> bytes (input ++ more) ->
  returns (decode_fresh dbg rayon input).
Proof.
  intros dbg rayon segs h fill1 fill2 ss ts qs data post fill3 input more HF SH RO PO E B. apply (prefix_returns dbg rayon decoder_default input more ltac:(constructor) B).
  rewrite E in *. eapply file_any; eauto.
Qed.
Lemma panics_persist : forall dbg rayon d input more, reachable dbg rayon d -> bytes (input ++ more) ->
  ~ returns (snd (decode dbg rayon d input)) -> ~ returns (snd (decode dbg rayon d (input ++ more))).
Proof. intros dbg rayon d input more R B N X. apply N. eapply prefix_returns; eauto. Qed.
