(** Any scan data in pieces (C78): what is waited for once never comes. *)
From Verif Require Import SpecColor Base Tactics SpecBits SpecReader SpecHuffman SpecBlock SpecTables Biterator BitsP Readers ReadersP Huffman HuffmanP2 HuffmanP3  Marker SpecMarker MarkerP Types Idct IdctP Color Upsampler Parsers Decode SpecFrame SpecSegments SpecScan SpecPlane SpecUpsample SpecImage SpecFile SpecLimits BlockP PlaneP SegmentsP SafeP InvP ScanP RestartP PlacedP EncodeP SpecGlobal GlobalP ExtP SpecStream StreamP StreamP2 RowP UpsampleP ImageP ParsersP FileP CorruptP SpecCode CodeP3 ReuseP TraceP SpecPieces PiecesP SpecWait DamageP2 WaitP.

(** ** Reading in front of a marker does not depend on what follows the marker *)
Lemma fill_loop_true : forall tail, stop_tail tail -> forall j2 p cpc bits count ok b',
  rst_only j2 -> count - cpc <= 8 * Z.of_nat (length p) ->
  fill_loop ((p ++ j2) ++ tail) cpc (j2 ++ tail) bits count = (ok, b') -> ok = true.
Proof.
  intros tail ST j2. induction j2 as [j2 IH] using (well_founded_induction (Wf_nat.well_founded_ltof _ (@length Z))). unfold Wf_nat.ltof in IH.
  intros p cpc bits count ok b' R2 C E.
  assert (Skip : forall bits1 ok b', 
     match skip_bytes (reskip cpc (count + 8)) ((p ++ j2) ++ tail) with
     | None => (false, mkBiter [] bits1 (count + 8))
     | Some input' => let '(bits', count') := pad_zeros 8 (clear_low_byte bits1) (count + 8) in (true, mkBiter input' bits' count') end = (ok, b') -> ok = true).
  { intros bits1 ok1 b1 Q. assert (L : (reskip cpc (count + 8) <= length p)%nat) by (unfold reskip; clear - C; lia).
    rewrite skip_bytes_spec in Q by (rewrite !app_length; lia). destruct (pad_zeros _ _ _) as [bb cc]. inv Q. reflexivity. }
  destruct j2 as [|x j2].
  - cbn [app] in E. destruct ST as [k [c [more [-> [C0 [C1 C2]]]]]]. cbn [FF repeat app] in E. change (repeat 255 k) with (FF k) in E. cbn [fill_loop] in E.
    destruct (count <=? 56); [|inv E; reflexivity]. change (255 =? 255) with true in E. cbn iota in E.
    destruct k as [|k]; cbn [FF repeat app] in E.
    + replace (c =? 0) with false in E by lia. eapply Skip; exact E.
    + change (255 =? 0) with false in E. eapply Skip; exact E.
  - cbn [app] in E. cbn [fill_loop] in E. destruct (count <=? 56); [|inv E; reflexivity].
    destruct (x =? 255) eqn:X.
    + assert (x = 255) by lia. subst x. destruct j2 as [|y j2]; [exfalso; exact (ro_one R2)|]. cbn [app] in E. destruct (y =? 0) eqn:Y.
      * replace ((p ++ 255 :: y :: j2) ++ tail) with (((p ++ [255; y]) ++ j2) ++ tail) in E by (rewrite <- !app_assoc; reflexivity).
        eapply (IH j2); [cbn; lia| | |exact E]; [eapply ro_tail, ro_tail; eauto|rewrite app_length; cbn [length]; lia].
      * eapply Skip; exact E.
    + replace ((p ++ x :: j2) ++ tail) with (((p ++ [x]) ++ j2) ++ tail) in E by (rewrite <- !app_assoc; reflexivity).
      eapply (IH j2); [cbn; lia| | |exact E]; [eapply ro_tail; eauto|rewrite app_length; cbn [length]; lia].
Qed.
Lemma fill_true : forall tail, stop_tail tail -> forall b, in_data tail (bi_input b) -> exists b', fill_bits b = (true, b').
Proof.
  intros tail ST b [j [R E]]. destruct (fill_bits b) as [ok b'] eqn:F. unfold fill_bits in F. rewrite E in F.
  apply (fill_loop_true tail ST j []) in F as ->; [exists b'; reflexivity|exact R|cbn; lia].
Qed.

Section Same.
  Variables (s : list Z) (tail : list Z).
  Hypothesis ST : stop_tail tail.
  Notation P := (in_data tail).
  (** [y] is [x] with its result mapped by [f]. *)
  Definition sx {A} (f : A -> A) (x y : out A) : Prop := y = bind x (fun a => Ok (f a)).
  Lemma sx_bind : forall A B (f : A -> A) (g : B -> B) x y k k',
    sx f x y -> (forall a, x = Ok a -> sx g (k a) (k' (f a))) -> sx g (bind x k) (bind y k').
  Proof. intros A B f g x y k k' -> K. destruct x as [a|e|p|]; try reflexivity. cbn [bind]. apply K. reflexivity. Qed.
  Lemma sx_keep : forall A B (g : B -> B) (x : out A) k k', (forall a, x = Ok a -> sx g (k a) (k' a)) -> sx g (bind x k) (bind x k').
  Proof. intros A B g x k k' K. destruct x as [a|e|p|]; try reflexivity. cbn [bind]. apply K. reflexivity. Qed.
  Definition fb {A} : A * biter -> A * biter := fun '(a, b) => (a, ext s b).

  Lemma sx_consume : forall A (f : A -> A) dbg b n k k', (forall b', sx f (k b') (k' (ext s b'))) -> sx f (bind (consume_bits dbg b n) k) (bind (consume_bits dbg (ext s b) n) k').
  Proof. intros A f dbg b n k k' K. rewrite consume_ext. destruct (consume_bits dbg b n); try reflexivity. apply K. Qed.
  Lemma ensure_sx : forall b, P (bi_input b) -> exists b', ensure16 b = (true, b') /\ ensure16 (ext s b) = (true, ext s b').
  Proof.
    intros b H. unfold ensure16. cbn [bi_count ext]. destruct (bi_count b <? 16); [|exists b; auto].
    destruct (fill_true tail ST b H) as [b' F]. exists b'. split; [exact F|]. apply fill_bits_ext. exact F.
  Qed.
  Lemma next_sx : forall dbg b n, P (bi_input b) -> sx fb (next_bits dbg b n) (next_bits dbg (ext s b) n).
  Proof.
    intros dbg b n H. unfold next_bits. cbn [bi_count ext].
    assert (R : forall b1, sx fb (let* v := peek_bits dbg b1 n in let* b := consume_bits dbg b1 n in Ok (Some v, b))
       (let* v := peek_bits dbg (ext s b1) n in let* b := consume_bits dbg (ext s b1) n in Ok (Some v, b))).
    { intros b1. rewrite peek_ext. apply sx_keep. intros v _. apply sx_consume. reflexivity. }
    destruct (bi_count b <? n); [|apply R]. destruct (fill_true tail ST b H) as [b' F]. rewrite F, (fill_bits_ext s b b' F). apply R.
  Qed.
  Lemma extend_sx : forall dbg b n, P (bi_input b) -> sx fb (receive_extend dbg b n) (receive_extend dbg (ext s b) n).
  Proof. intros dbg b n H. unfold receive_extend. eapply sx_bind; [apply next_sx; exact H|]. intros [[v|] b1] _; reflexivity. Qed.
  Lemma search_sx : forall dbg t bits n b i, sx fb (search_code dbg t b bits n i) (search_code dbg t (ext s b) bits n i).
  Proof.
    intros dbg t bits. induction n as [|n IH]; intros b i; cbn [search_code]; [reflexivity|].
    apply sx_keep. intros mc _. destruct (Z.shiftr bits (15 - i) <=? mc); [|apply IH]. apply sx_consume. intros b'. apply sx_keep. intros vo _. apply sx_keep. reflexivity.
  Qed.
  Lemma inner_sx : forall dbg t b k, sx fb (decode_inner dbg t b k) (decode_inner dbg t (ext s b) k).
  Proof.
    intros dbg t b k. unfold decode_inner. apply sx_keep. intros [value size] _. destruct (0 <? size).
    - apply sx_consume. reflexivity.
    - rewrite peek_ext. apply sx_keep. intros bits _. apply search_sx.
  Qed.
  Lemma table_sx : forall dbg t b, P (bi_input b) -> sx fb (table_decode dbg t b) (table_decode dbg t (ext s b)).
  Proof.
    intros dbg t b H. unfold table_decode. destruct (ensure_sx b H) as [b' [-> ->]]. rewrite peek_u8_ext. apply sx_keep. intros k _. apply inner_sx.
  Qed.
  Lemma fast_sx : forall dbg t b, P (bi_input b) -> sx fb (decode_fast_ac dbg t b) (decode_fast_ac dbg t (ext s b)).
  Proof.
    intros dbg t b H. unfold decode_fast_ac. destruct (ensure_sx b H) as [b' [-> ->]]. rewrite peek_u8_ext. apply sx_keep. intros k _. apply sx_keep. intros [value rs] _.
    destruct (negb (rs =? 0)); [apply sx_consume; reflexivity|]. eapply sx_bind; [apply inner_sx|]. intros [[v|] b2] _; reflexivity.
  Qed.
  Lemma sx_or_fail : forall A e (x y : bitres A), sx fb x y -> sx fb (or_fail e x) (or_fail e y).
  Proof. intros A e x y ->. unfold or_fail. destruct x as [[[v|] b]|e'|p|]; reflexivity. Qed.
  Lemma dc_sx : forall dbg sc t coefs b pred, P (bi_input b) -> sx (f3 s) (decode_dc dbg sc t coefs b pred) (decode_dc dbg sc t coefs (ext s b) pred).
  Proof.
    intros dbg sc t coefs b pred H. unfold decode_dc. destruct (s_start sc =? 0); [|reflexivity].
    eapply sx_bind; [apply sx_or_fail, table_sx; exact H|]. intros [value b1] E. apply or_fail_ok in E. pose proof (table_keep P (fill_data tail ST) _ _ _ _ _ H E) as H1. cbn [fb].
    eapply (sx_bind _ _ fb).
    - destruct (value =? 0); [reflexivity|]. destruct (11 <? value); [reflexivity|]. apply sx_or_fail, extend_sx. exact H1.
    - intros [diff b2] _. cbn [fb]. cbv zeta. apply sx_keep. reflexivity.
  Qed.
  Lemma ac_sx : forall dbg t low last fuel coefs b eob i, P (bi_input b) -> sx (f3 s) (ac_loop dbg fuel t low last coefs b eob i) (ac_loop dbg fuel t low last coefs (ext s b) eob i).
  Proof.
    intros dbg t low last. induction fuel as [|fuel IH]; intros coefs b eob i H; [reflexivity|]. cbn [ac_loop]. cbv zeta.
    assert (Put : forall value run b2, P (bi_input b2) ->
      sx (f3 s) (if i + run <=? last then let* coefs0 := unzigzag coefs (i + run) (shl16 value low) in
         if i + run + 1 <=? last then ac_loop dbg fuel t low last coefs0 b2 eob (i + run + 1) else Ok (coefs0, b2, eob) else Ok (coefs, b2, eob))
      (if i + run <=? last then let* coefs0 := unzigzag coefs (i + run) (shl16 value low) in
         if i + run + 1 <=? last then ac_loop dbg fuel t low last coefs0 (ext s b2) eob (i + run + 1) else Ok (coefs0, ext s b2, eob) else Ok (coefs, ext s b2, eob))).
    { intros value run b2 H2. destruct (i + run <=? last); [|reflexivity]. apply sx_keep. intros c _. destruct (i + run + 1 <=? last); [apply IH; exact H2|reflexivity]. }
    eapply sx_bind; [apply fast_sx; exact H|]. intros [r b1] E. pose proof (fast_keep P (fill_data tail ST) _ _ _ _ _ H E) as H1. cbn [fb].
    destruct r as [value run|byte|]; [apply Put; exact H1| |reflexivity].
    destruct (Z.land byte 15 =? 0).
    - destruct (Z.shiftr byte 4 =? 15); [destruct (i + 16 <=? last); [apply IH; exact H1|reflexivity]|].
      destruct (0 <? Z.shiftr byte 4); [|reflexivity]. eapply sx_bind; [apply sx_or_fail, next_sx; exact H1|]. intros [v b2] _. reflexivity.
    - eapply sx_bind; [apply sx_or_fail, extend_sx; exact H1|]. intros [v b2] E2. apply or_fail_ok in E2. cbn [fb]. apply Put. eapply (extend_keep P (fill_data tail ST)); eauto.
  Qed.
  Lemma block_sx : forall dbg sc dct act coefs b eob pred, P (bi_input b) -> sx (f4 s) (decode_block dbg sc dct act coefs b eob pred) (decode_block dbg sc dct act coefs (ext s b) eob pred).
  Proof.
    intros dbg sc dct act coefs b eob pred H. unfold decode_block. eapply sx_bind; [apply dc_sx; exact H|]. intros [[c1 b1] p1] E. pose proof (dc_keep P (fill_data tail ST) _ _ _ _ _ _ _ _ _ H E) as H1. cbn [f3].
    destruct (_ && _); [reflexivity|]. destruct (_ <? _); [|reflexivity]. eapply sx_bind; [apply ac_sx; exact H1|]. intros [[c2 b2] e2] _. reflexivity.
  Qed.
  Lemma blocks_sx : forall dbg sc dct act n b eob pred, P (bi_input b) -> sx (f4 s) (decode_blocks dbg sc dct act n b eob pred) (decode_blocks dbg sc dct act n (ext s b) eob pred).
  Proof.
    intros dbg sc dct act. induction n as [|n IH]; intros b eob pred H; cbn [decode_blocks]; [reflexivity|].
    eapply sx_bind; [apply block_sx; exact H|]. intros [[[c1 b1] e1] p1] E. pose proof (block_keep P (fill_data tail ST) _ _ _ _ _ _ _ _ _ _ _ _ H E) as H1. cbn [f4].
    eapply sx_bind; [apply IH; exact H1|]. intros [[[c2 b2] e2] p2] _. reflexivity.
  Qed.
  Lemma comps_sx : forall dbg d sc cs hs ps avail b eob, P (bi_input b) ->
    sx (fun '(x, y, b, e) => (x, y, ext s b, e)) (decode_comps dbg d sc cs hs ps avail b eob) (decode_comps dbg d sc cs hs ps avail (ext s b) eob).
  Proof.
    intros dbg d sc. induction cs as [|c cs IH]; intros hs ps avail b eob H; cbn [decode_comps]; [reflexivity|].
    destruct hs as [|h hs]; [reflexivity|]. destruct ps as [|p ps]; [reflexivity|]. do 4 (apply sx_keep; intros ? _). cbv zeta.
    eapply sx_bind; [apply blocks_sx; exact H|]. intros [[[c1 b1] e1] p1] E. pose proof (blocks_keep P (fill_data tail ST) _ _ _ _ _ _ _ _ _ _ _ _ H E) as H1. cbn [f4].
    eapply sx_bind; [apply IH; exact H1|]. intros [[[c2 b2] e2] p2] _. reflexivity.
  Qed.
  Lemma row_sx : forall dbg d b, P (bi_input b) -> sx fb (decode_row dbg d b) (decode_row dbg d (ext s b)).
  Proof.
    intros dbg d b H. unfold decode_row. destruct (d_scan d); [|reflexivity]. destruct (d_frame d); [|reflexivity]. cbv zeta.
    eapply sx_bind; [apply comps_sx; exact H|]. intros [[[c2 b2] e2] p2] _. reflexivity.
  Qed.

  (** The whole scan. *)
  Lemma data_marker : forall i, P i -> exists c rest, first_marker i c rest /\ (0xD0 <= c <= 0xD7 -> P rest).
  Proof.
    intros i [j [R ->]]. destruct (ro_split j R) as [NM|[n [rest [Hn [R' FM]]]]].
    - destruct ST as [k [c [more [-> [C0 [C1 C2]]]]]]. exists c, more. split; [|intros X; contradiction]. exists j, k. auto.
    - exists (0xD0 + n), (rest ++ tail). split; [apply first_app; exact FM|]. intros _. exists rest. auto.
  Qed.
  Lemma marker_sx : forall d b, P (bi_input b) -> restart_marker d b <> Fail EEof /\ sx fb (restart_marker d b) (restart_marker d (ext s b)) /\ forall d' b', restart_marker d b = Ok (d', b') -> P (bi_input b').
  Proof.
    intros d b H. unfold restart_marker. cbn [ext bi_input bi_bits bi_count]. destruct (data_marker _ H) as [c [rest [FM K]]].
    rewrite (parse_first _ _ _ FM), (parse_first _ _ _ (first_app _ _ _ s FM)).
    destruct (marker_of_byte c) as [m|] eqn:M; cbn [bind]; [|split; [discriminate|split; [reflexivity|discriminate]]].
    unfold handle_restart. destruct m as [|n0| | | | |n|n1| |]; try (split; [discriminate|split; [reflexivity|discriminate]]).
    destruct (n =? ss_rst (d_ss d)); [|split; [discriminate|split; [reflexivity|discriminate]]].
    split; [discriminate|]. split; [reflexivity|]. intros d' b' E. injection E as _ <-. cbn [biter_reset bi_input]. apply K. apply marker_of_byte_code in M. inv M. lia.
  Qed.
  Definition same_scan (x y : decoder * biter * scan_res) : Prop :=
    let '(d, b, r) := x in y = (d, ext s b, r) /\
    match r with ScDone => P (bi_input b) | ScNeed _ ph => ph = PhRow /\ P (bi_input b) | _ => True end.
  Lemma scan_same : forall dbg final todo d b, P (bi_input b) -> same_scan (scan_loop dbg false final todo PhRow d b) (scan_loop dbg false final todo PhRow d (ext s b)).
  Proof.
    intros dbg final. induction todo as [|[y x] rest IH]; intros d b H; cbn [scan_loop]; [split; [reflexivity|exact H]|].
    rewrite (row_sx dbg d b H). destruct (decode_row dbg d b) as [[d1 b1]|e|p|] eqn:ER; cbn [bind fb]; try (split; [reflexivity|exact I]); [|destruct e; split; auto].
    pose proof (row_keep P (fill_data tail ST) _ _ _ _ _ H ER) as H1.
    destruct (restart_check dbg x y d1) as [[need d2]|e|p|]; try (split; [reflexivity|exact I]).
    assert (G : forall d3 b3, P (bi_input b3) ->
      same_scan match (if final then dequantize dbg x y d3 else Ok d3) with
                  | Ok d4 => scan_loop dbg false final rest PhRow d4 b3
                  | Fail e => (d3, b3, ScFail e) | Panic p => (d3, b3, ScPanic p) | UB => (d3, b3, ScUB) end
                match (if final then dequantize dbg x y d3 else Ok d3) with
                  | Ok d4 => scan_loop dbg false final rest PhRow d4 (ext s b3)
                  | Fail e => (d3, ext s b3, ScFail e) | Panic p => (d3, ext s b3, ScPanic p) | UB => (d3, ext s b3, ScUB) end).
    { intros d3 b3 H3. destruct (if final then dequantize dbg x y d3 else Ok d3) as [d4|e|p|]; try (split; [reflexivity|exact I]). apply IH. exact H3. }
    destruct need; [|apply G; exact H1]. destruct (marker_sx d2 b1 H1) as [NE [-> K]].
    destruct (restart_marker d2 b1) as [[d3 b3]|e|p|] eqn:RM; cbn [bind fb]; try (split; [reflexivity|exact I]); [apply G; eapply K; reflexivity|].
    destruct e; try (split; [reflexivity|exact I]). congruence.
  Qed.
End Same.

(** ** No error of the scan is an end of input *)
Section Scan.
  Variables (dbg : bool) (d0 : decoder) (fr : frame) (sc : scan) (ts : list tables) (tail : list Z).
  Hypothesis Fr : d_frame d0 = Some fr.
  Hypothesis Sc : d_scan d0 = Some sc.
  Hypothesis S0 : 0 <= s_start sc.
  Hypothesis Rd : comps_ready dbg d0 (f_components fr) (s_headers sc) ts.
  Hypothesis FG : frame_good fr.
  Hypothesis Few : (total_blocks (f_components fr) <= MAX_BLOCKS)%nat.
  Hypothesis Qt : Forall (fun c => exists qt, index (d_qt d0) (c_tq c) = Ok (Some qt)) (f_components fr).
  Hypothesis Cp : coding_process fr = Ok Baseline \/ coding_process fr = Ok Sequential.
  Hypothesis ST : stop_tail tail.

  Lemma scan_fails : forall todo pre d b, mcu_list (f_mcu fr) = pre ++ todo -> (exists s, d = set_ss d0 s) -> dec_ok d -> good b -> in_data tail (bi_input b) ->
    Forall2 (sized (dim_h (f_mcu fr))) (f_components fr) (ss_results (d_ss d)) -> (todo <> [] -> counters (d_restart d0) (lenZ pre) d) ->
    forall d' b' r, scan_loop dbg false true todo PhRow d b = (d', b', r) ->
    r <> ScFail EEof.
  Proof.
    induction todo as [|[y x] rest IH]; intros pre d b E SD K G ID Sz C d' b' r SL.
    { cbn in SL. inv SL. discriminate. }
    cbn [scan_loop] in SL. specialize (C ltac:(discriminate)). destruct SD as [s ->]. cbn [set_ss d_ss] in Sz.
    assert (Row : (exists r, decode_row dbg (set_ss d0 s) b = Ok r) \/ (exists e, decode_row dbg (set_ss d0 s) b = Fail e)).
    { unfold decode_row. cbn [set_ss d_scan d_frame d_ss]. rewrite Sc, Fr. fold (set_ss d0 s).
      destruct (comps_calm dbg d0 sc S0 s _ _ _ (ready_set _ _ s _ _ _ Rd) (ss_preds s) MAX_BLOCKS b (ss_eob s) (ok_preds _ K) G (ok_eob _ K)) as [[[[[bl ps] b1] e1] ->]|[e ->]]; cbn [bind]; eauto. }
    pose proof (row_inv dbg (set_ss d0 s) b K G) as RI.
    destruct Row as [[[d1 b1] ER]|[e ER]]; rewrite ER in SL, RI; cbn [SafeP.post] in RI.
    2:{ destruct e; inv SL; discriminate. }
    destruct RI as [Sm [G1 [_ [Lc _]]]]. pose proof (same_ok _ _ K Sm) as K1.
    pose proof (row_keep (in_data tail) (fill_data tail ST) _ _ _ _ _ ID ER) as ID1.
    destruct (row_counts _ _ _ _ _ ER) as [[s1 E1] Sc1]. destruct Sm as [s1' [E1' [Rs1 _]]]. cbn [set_ss d_ss] in Rs1.
    assert (s1' = s1) by (assert (X : d_ss d1 = s1 /\ d_ss d1 = s1') by (rewrite E1 at 1; rewrite E1'; cbn; auto); destruct X; congruence). subst s1'. clear E1'.
    assert (E1' : d1 = set_ss d0 s1) by (rewrite E1; reflexivity). clear E1.
    destruct (mcu_in _ _ _ _ _ E) as [Hx Hy].
    assert (C1 : counters (d_restart d1) (lenZ pre) d1).
    { rewrite E1' at 1. cbn [set_ss d_restart]. intros H. destruct (C H). destruct Sc1 as [A B]. rewrite A, B. auto. }
    assert (Lf : 0 < d_restart d1 -> 1 <= ss_left (d_ss d1)).
    { intros H. destruct (C1 H) as [A _]. rewrite A. pose proof (Z.mod_pos_bound (lenZ pre) (d_restart d1) H). lia. }
    assert (Fr1 : d_frame d1 = Some fr) by (rewrite E1'; exact Fr).
    (* the counter and the restart marker *)
    assert (AM : match restart_check dbg x y d1 with
                 | Ok (need, d2) => same d1 d2 /\ (exists s, d2 = set_ss d0 s) /\ ss_coefs (d_ss d2) = ss_coefs (d_ss d1) /\
                     match (if need then restart_marker d2 b1 else Ok (d2, b1)) with
                     | Ok (d3, b3) => same d1 d3 /\ good b3 /\ (exists s, d3 = set_ss d0 s) /\ ss_coefs (d_ss d3) = ss_coefs (d_ss d1) /\ in_data tail (bi_input b3) /\
                         (rest <> [] -> counters (d_restart d0) (lenZ pre + 1) d3)
                     | Fail _ => True
                     | _ => False
                     end
                 | _ => False end).
    { pose proof (after_spec dbg d1 b1 fr pre y x rest Fr1 E Lf) as AS. unfold after_mcu in AS. pose proof (check_inv dbg x y d1 K1) as CI.
      pose proof (fun NR d2 b2 => after_counts dbg d1 b1 fr pre y x rest d2 b2 Fr1 E NR C1) as AC. unfold after_mcu in AC.
      destruct (restart_check dbg x y d1) as [[need d2]|e|p|] eqn:RC; cbn [bind SafeP.post] in *.
      - assert (K2 : dec_ok d2) by (eapply same_ok; eauto).
        assert (D2 : (exists s, d2 = set_ss d0 s) /\ ss_coefs (d_ss d2) = ss_coefs (d_ss d1)).
        { unfold restart_check in RC. destruct (0 <? d_restart d1).
          - rewrite Fr1 in RC. binv RC. binv RC. binv RC. inv RC. cbn [set_ss d_ss]. split; [|reflexivity]. eexists. reflexivity.
          - inv RC. eauto. }
        destruct D2 as [[s2 D2] D3]. split; [exact CI|]. split; [eauto|]. split; [exact D3|].
        destruct need.
        + pose proof (restart_inv d2 b1 K2 G1) as RI. pose proof (AC) as AC'. unfold restart_marker in *.
          destruct (parse_calm (bi_input b1)) as [[[m rest'] PM]|[e PM]]; rewrite PM in *; cbn [bind] in *; [|exact I].
          unfold handle_restart in *. destruct m as [|n0| | | | |n|n1| |]; try exact I. destruct (n =? ss_rst (d_ss d2)); [|exact I]. cbn [SafeP.post] in RI. destruct RI as [R1 [R2 _]].
          split; [eapply same_trans; eauto|]. split; [exact R2|]. split; [subst d2; eexists; reflexivity|]. split; [cbn [set_ss d_ss ss_coefs]; exact D3|].
          split; [cbn [biter_reset bi_input]; eapply rst_data; eauto|].
          intros NR. specialize (AC' NR _ _ eq_refl). rewrite D2 in AC' at 1. exact AC'.
        + split; [exact CI|]. split; [exact G1|]. split; [eauto|]. split; [exact D3|]. split; [exact ID1|].
          intros NR. specialize (AC NR _ _ eq_refl). rewrite D2 in AC at 1. exact AC.
      - exfalso. destruct (0 <? d_restart d1); [|discriminate]. destruct (_ && _); [|discriminate]. clear - AS RC.
        unfold restart_check in RC. destruct (0 <? d_restart d1); [|discriminate]. destruct (d_frame d1); [|discriminate].
        unfold usub in RC. repeat (match type of RC with context [if ?c then _ else _] => destruct c end; cbn [bind] in RC; try discriminate).
      - exfalso. destruct (0 <? d_restart d1); [|discriminate]. destruct (_ && _); [|discriminate]. unfold restart_marker in AS. destruct (parse_calm (bi_input b1)) as [[[m rest'] PM]|[e PM]]; rewrite PM in AS; cbn [bind] in AS; try discriminate.
        unfold handle_restart in AS. destruct m; try discriminate. destruct (n =? ss_rst (d_ss (lowered d1))); discriminate.
      - contradiction. }
    destruct (restart_check dbg x y d1) as [[need d2]|e|p|]; try contradiction. destruct AM as [_ [D2 [_ AM]]].
    destruct (if need then restart_marker d2 b1 else Ok (d2, b1)) as [[d3 b3]|e|p|]; try contradiction.
    2:{ destruct e; inv SL; discriminate. }
    destruct AM as [S3 [G3 [D3 [Co3 [ID3 C3]]]]]. pose proof (same_ok _ _ K1 S3) as K3.
    assert (Sz3 : Forall2 (sized (dim_h (f_mcu fr))) (f_components fr) (ss_results (d_ss d3))).
    { destruct S3 as [s3 [E3 [R3 _]]]. rewrite E3. cbn [set_ss d_ss]. rewrite R3, E1'. cbn [set_ss d_ss]. rewrite Rs1. exact Sz. }
    destruct (deq_ok dbg d0 fr Fr FG Few Qt Cp x y d3 D3 Hx Hy Sz3) as [ps [ED Sz4]]; [rewrite Co3, Lc; unfold MAX_BLOCKS; lia|].
    rewrite ED in SL. apply (IH (pre ++ [(y, x)])) in SL; auto.
    - rewrite <- app_assoc. exact E.
    - destruct D3 as [s3 ->]. eexists. reflexivity.
    - destruct K3 as [A1 A2 A3 A4 A5 A6 A7 A8]. constructor; cbn; auto.
    - intros NR. specialize (C3 NR). unfold lenZ in *. rewrite app_length. cbn [length]. replace (Z.of_nat (length pre + 1)) with (Z.of_nat (length pre) + 1) by lia. exact C3.
  Qed.
End Scan.

Lemma sos_any : forall dbg rayon segs d fmk pr lines samples cs ss ts qs data tail s, stop_tail tail -> rst_only data -> bytes data -> bytes tail ->
  Forall (fun s => hseg_ok (snd s)) segs -> header_ok lines samples cs -> 0 <= fmk <= 1 ->
  d_frame d = Some (frame_of fmk pr lines samples cs) -> 0 <= d_restart d -> d_finished d = [0; 0; 0; 0] ->
  quant_slots [None; None; None; None] (d_qt d) (dqts segs) ->
  dc_slots dbg [None; None; None; None] (d_dc d) (dhts segs) -> ac_slots dbg [None; None; None; None] (d_ac d) (dhts segs) ->
  NoDup (map cs_id cs) -> lenZ cs <= 4 -> (blocks_before cs (length cs) <= 10)%nat -> comp_codings segs cs ss ts qs ->
  dec_ok d -> good (mkBiter (segment (sos_bytes (mkSpS ss 0 63 0 0)) ++ data ++ tail) 0 0) ->
  let p2 := PcScan true (mcu_list (f_mcu (frame_of fmk pr lines samples cs))) PhRow in let b0 := mkBiter (data ++ tail) 0 0 in
  exists d2 d3 b3 R,
    step dbg false rayon (PcSegment SOS) d (mkBiter (segment (sos_bytes (mkSpS ss 0 63 0 0)) ++ data ++ tail) 0 0) = (d2, b0, SNext p2) /\
    step dbg false rayon p2 d2 b0 = (d3, b3, R) /\ step dbg false rayon p2 d2 (ext s b0) = (d3, ext s b3, R) /\
    match R with
    | SNext p => p = PcMarker /\ in_data tail (bi_input b3) /\ four_slots d3
    | SStop (RNeed p) => (exists todo, p = PcScan true todo PhRow) /\ in_data tail (bi_input b3)
    | SStop (RFail e) => e <> EEof
    | _ => False
    end.
Proof.
  intros dbg rayon segs d fmk pr lines samples cs ss ts qs data tail s StT RO Bd Bt F HO Fm Fr Rs Fin Q D A ND L4 Few CC Kd Gd p2 b0.
  destruct (sos_enter dbg rayon segs d fmk pr lines samples cs ss ts qs data tail Bd Bt F HO Fm Fr Rs Fin Q D A ND L4 Few CC Kd Gd) as (d1 & sc & d2 & ST & SS & FG & Few' & CP & G2 & P2 & E2 & Ac & Qe & C0 & Hi & Lh & Sz).
  set (fr := frame_of fmk pr lines samples cs) in *. fold b0 in ST, G2. fold p2 in ST, P2.
  pose proof SS as (Fr1 & Sc1 & S0 & S1 & S2 & RD & _ & Re & SI & K2 & Qf).
  destruct (scan_loop dbg false true (mcu_list (f_mcu fr)) PhRow d2 b0) as [[d3 b3] r] eqn:SL.
  destruct (scan_calm dbg d1 fr sc ts tail Fr1 Sc1 ltac:(lia) RD FG Few' ltac:(rewrite Qe; exact Qf) CP StT
     (mcu_list (f_mcu fr)) [] d2 b0 eq_refl E2 K2 G2 ltac:(exists data; auto) Sz ltac:(intros _; exact C0) d3 b3 _ SL) as [Ca [[s3 E3] Dn]].
  pose proof (scan_fails dbg d1 fr sc ts tail Fr1 Sc1 ltac:(lia) RD FG Few' ltac:(rewrite Qe; exact Qf) CP StT
     (mcu_list (f_mcu fr)) [] d2 b0 eq_refl E2 K2 G2 ltac:(exists data; auto) Sz ltac:(intros _; exact C0) d3 b3 _ SL) as NF.
  pose proof (scan_same s tail StT dbg true (mcu_list (f_mcu fr)) d2 b0 ltac:(exists data; auto)) as Sm. rewrite SL in Sm. destruct Sm as [Sm R3].
  destruct r as [|todo ph|e|p|]; try contradiction.
  - destruct (Dn eq_refl) as [ID3 Sz3].
    assert (L3 : length (ss_results (d_ss d3)) = length (s_headers sc)).
    { apply Forall2_length in Sz3. rewrite <- Sz3, Lh. unfold fr, frame_of. cbn [f_components]. apply map_length. }
    destruct (take_all (s_headers sc) (ss_results (d_ss d3)) ltac:(unfold lenZ in L4; lia) Hi L3) as [r TK].
    assert (SF : exists d4, scan_finish d3 = Ok d4).
    { assert (Sc3 : d_scan d3 = Some sc) by (rewrite E3; exact Sc1). unfold scan_finish. rewrite Sc3, TK. cbn [bind]. eexists. reflexivity. }
    destruct SF as [d4 SF].
    assert (ST2 : step dbg false rayon p2 d2 b0 = (d4, b3, SNext PcMarker)) by (unfold p2; cbn [step]; rewrite SL, SF; reflexivity).
    pose proof (step_inv dbg false rayon _ d2 b0 K2 G2 P2) as SV. rewrite ST2 in SV. destruct SV as [K4 _].
    exists d2, d4, b3, (SNext PcMarker). split; [exact ST|]. split; [exact ST2|]. split; [unfold p2; cbn [step]; rewrite Sm, SF; reflexivity|]. split; [reflexivity|]. split; [exact ID3|]. split; [apply K4|split; apply K4].
  - destruct R3 as [-> R3]. exists d2, d3, b3, (SStop (RNeed (PcScan true todo PhRow))). split; [exact ST|]. split; [unfold p2; cbn [step]; rewrite SL; reflexivity|]. split; [unfold p2; cbn [step]; rewrite Sm; reflexivity|]. eauto.
  - exists d2, d3, b3, (SStop (RFail e)). split; [exact ST|]. split; [unfold p2; cbn [step]; rewrite SL; reflexivity|]. split; [unfold p2; cbn [step]; rewrite Sm; reflexivity|]. congruence.
Qed.

(** ** The image is never an end of input *)
Definition ne {A} (x : out A) : Prop := x <> Fail EEof.
Lemma ne_bind : forall A B (x : out A) (k : A -> out B), ne x -> (forall a, ne (k a)) -> ne (bind x k).
Proof. intros A B [a|e|p|] k H K; cbn [bind]; [apply K| | |]; unfold ne in *; congruence. Qed.
Ltac ne1 := first [ apply ne_bind; [|intros] | match goal with |- ne (Ok _) => discriminate | |- ne (Panic _) => discriminate | |- ne UB => discriminate | |- ne (if ?c then _ else _) => destruct c | |- ne (let '(_, _) := ?x in _) => destruct x | |- ne (match ?x with _ => _ end) => destruct x end ].
Ltac nes := repeat ne1.
Lemma ne_index : forall A (l : list A) i, ne (index l i). Proof. intros. unfold index. nes. Qed.
Lemma ne_read : forall o, ne (Color.read o). Proof. intros [v|]; discriminate. Qed.
Lemma ne_rd : forall p i, ne (rd p i). Proof. intros. unfold rd. apply ne_bind; [apply ne_index|apply ne_read]. Qed.
Lemma ne_store : forall A (l : list A) i v, ne (store l i v). Proof. intros. unfold store. nes. Qed.
Lemma ne_slice : forall A (l : list A) i j, ne (slice l i j). Proof. intros. unfold slice. nes. Qed.
Lemma ne_slice_from : forall A (l : list A) i, ne (slice_from l i). Proof. intros. apply ne_slice. Qed.
Lemma ne_usub : forall dbg n a b, ne (usub dbg n a b). Proof. intros. unfold usub. nes. Qed.
Lemma ne_debug : forall dbg b, ne (debug_assert dbg b). Proof. intros. unfold debug_assert, assert_. nes. Qed.
Lemma ne_max : forall l, ne (max_unwrap l). Proof. intros. unfold max_unwrap. nes. Qed.
Lemma ne_mapM : forall A B (f : A -> out B) l, (forall a, ne (f a)) -> ne (mapM f l).
Proof. intros A B f l H. induction l as [|x l IH]; cbn [mapM]; nes; auto. Qed.
#[local] Hint Resolve ne_index ne_read ne_rd ne_store ne_slice ne_slice_from ne_usub ne_debug ne_max : ne.
Lemma ne_h2v1 : forall n outs input, (length outs <= n)%nat -> ne (h2v1_loop outs input).
Proof.
  induction n as [|n IH]; intros outs input L; destruct outs as [|x [|y outs]]; cbn [h2v1_loop length] in *; try discriminate; try lia.
  destruct input as [|a [|b [|c t]]]; try discriminate. repeat (apply ne_bind; [auto with ne|intros]); [apply IH; lia|discriminate].
Qed.
Lemma ne_h1v2 : forall outs near far, ne (h1v2_loop outs near far).
Proof. induction outs as [|x outs IH]; intros [|a near] [|b far]; cbn [h1v2_loop]; try discriminate. repeat (apply ne_bind; [auto with ne|intros]); discriminate. Qed.
Lemma ne_h2v2 : forall n outs near far t, (length outs <= n)%nat -> ne (h2v2_loop outs near far t).
Proof.
  induction n as [|n IH]; intros outs near far t L; destruct outs as [|x [|y outs]]; cbn [h2v2_loop length] in *; try discriminate; try lia.
  destruct near as [|a near], far as [|b far]; try discriminate. repeat (apply ne_bind; [auto with ne|intros]); [apply IH; lia|]. destruct a2. discriminate.
Qed.
Lemma ne_generic : forall hf input outs, ne (generic_loop hf outs input).
Proof. intros hf. induction input as [|x input IH]; intros outs; cbn [generic_loop]; [discriminate|]. destruct (_ <? _); [discriminate|]. repeat (apply ne_bind; [auto with ne|intros]); discriminate. Qed.
Lemma ne_row : forall dbg c input row width buf, ne (upsample_row dbg c input row width buf).
Proof.
  intros dbg c input row width buf. unfold upsample_row. destruct (up_kind c); (apply ne_bind; [|discriminate]).
  - apply ne_slice.
  - unfold up_h2v1. cbv zeta. apply ne_bind; [auto with ne|intros i]. destruct (_ =? 1); repeat (apply ne_bind; [solve [eapply ne_h2v1; apply le_n|auto with ne]|intros]); auto with ne.
  - unfold up_h1v2. cbv zeta. repeat (apply ne_bind; [auto with ne|intros]). apply ne_h1v2.
  - unfold up_h2v2. cbv zeta. repeat (apply ne_bind; [auto with ne|intros]). destruct (_ =? 1); repeat (apply ne_bind; [solve [eapply ne_h2v2; apply le_n|auto with ne]|intros]); auto with ne.
    destruct a8 as [tail t]. apply ne_bind; [auto with ne|intros]. auto with ne.
  - unfold up_generic. cbv zeta. apply ne_bind; [auto with ne|intros]. apply ne_generic.
Qed.
Lemma ne_rows : forall dbg cs data bufs row width, ne (upsample_rows dbg cs data bufs row width).
Proof.
  intros dbg. induction cs as [|c cs IH]; intros [|p data] [|b bufs] row width; cbn [upsample_rows]; try discriminate.
  apply ne_bind; [apply ne_row|intros [l b']]. apply ne_bind; [apply IH|intros [ls bs]; discriminate].
Qed.
Lemma ne_rgb : forall dbg y cb cr, ne (ycbcr_to_rgb dbg y cb cr).
Proof. intros. unfold ycbcr_to_rgb, ycc_clamp, index_unchecked. nes; auto with ne. Qed.
Lemma ne_ycbcr : forall dbg n data y cb cr, (length data <= n)%nat -> ne (line_ycbcr dbg data y cb cr).
Proof.
  intros dbg. induction n as [|n IH]; intros data y cb cr L; destruct data as [|a [|b [|c data]]]; cbn [line_ycbcr length] in *; try discriminate; try lia.
  destruct y, cb, cr; try discriminate. do 3 (apply ne_bind; [auto with ne|intros]). apply ne_bind; [apply ne_rgb|intros [[r g] b']]. apply ne_bind; [apply IH; lia|discriminate].
Qed.
Lemma ne_ycck : forall dbg n data y cb cr, (length data <= n)%nat -> ne (line_ycck dbg data y cb cr).
Proof.
  intros dbg. induction n as [|n IH]; intros data y cb cr L; destruct data as [|a [|b [|c [|k data]]]]; cbn [line_ycck length] in *; try discriminate; try lia.
  destruct y, cb, cr; try discriminate. do 3 (apply ne_bind; [auto with ne|intros]). apply ne_bind; [apply ne_rgb|intros [[r g] b']]. apply ne_bind; [apply IH; lia|discriminate].
Qed.
Lemma ne_cmyk : forall n data c m y k, (length data <= n)%nat -> ne (line_cmyk data c m y k).
Proof.
  induction n as [|n IH]; intros data c m y k L; destruct data as [|a [|b [|e [|f data]]]]; cbn [line_cmyk length] in *; try discriminate; try lia.
  destruct c, m, y, k; try discriminate. do 4 (apply ne_bind; [auto with ne|intros]). apply ne_bind; [apply IH; lia|discriminate].
Qed.
Lemma ne_lines : forall dbg f ups data w n gs bufs, ne (image_lines dbg f ups data w n bufs gs).
Proof.
  intros dbg f ups data w n. induction gs as [|[row k] gs IH]; intros bufs; cbn [image_lines]; [discriminate|].
  apply ne_bind; [unfold upsample_and_interleave_row; apply ne_bind; [auto with ne|intros; apply ne_rows]|intros [colors bufs']].
  apply ne_bind; [|intros; apply ne_bind; [apply IH|discriminate]].
  unfold color_convert. destruct f; [discriminate| | |].
  - destruct colors as [|y [|cb [|cr [|]]]]; try discriminate. eapply ne_ycbcr; apply le_n.
  - destruct colors as [|y [|cb [|cr [|]]]]; try discriminate. eapply ne_ycck; apply le_n.
  - destruct colors as [|c [|m [|y [|k' [|]]]]]; try discriminate. eapply ne_cmyk; apply le_n.
Qed.
Lemma ne_image : forall dbg rayon d, ne (upsample_image dbg rayon d).
Proof.
  intros dbg rayon d. unfold upsample_image. destruct (d_frame d) as [fr|]; [|discriminate].
  apply ne_bind; [unfold choose_color_convert_func; nes; discriminate|intros f].
  apply ne_bind; [unfold upsampler_new; do 2 (apply ne_bind; [auto with ne|intros]); apply ne_mapM; intros c; apply ne_bind; [unfold choose_upsampler; nes; discriminate|discriminate]|intros ups].
  apply ne_bind; [auto with ne|intros v]. apply ne_bind; [unfold assert_; nes|intros _]. apply ne_bind; [apply ne_lines|discriminate].
Qed.
Lemma eoi_run : forall dbg rayon file fill3 d5 b5 j5, bytes file -> from dbg false rayon (PcMarker, decoder_default, biter_new file) (PcMarker, d5, b5) ->
  bi_input b5 = j5 ++ marker_bytes fill3 0xD9 -> no_marker j5 -> decode_fresh dbg rayon file = upsample_image dbg rayon d5.
Proof.
  intros dbg rayon file fill3 d5 b5 j5 Bf A Eb J.
  assert (PM : parse_marker (bi_input b5) = Ok (EOI, [])).
  { apply parse_marker_ok. exists 0xD9. split; [constructor|]. exists j5, fill3. split; [exact J|]. split; [lia|]. split; [lia|]. rewrite Eb. unfold marker_bytes. reflexivity. }
  set (r := match upsample_image dbg rayon d5 with Ok img => RImage img | Fail e => RError e | Panic p => RPanic p | UB => RUB end).
  assert (E : step dbg false rayon PcMarker d5 b5 = (d5, mkBiter [] (bi_bits b5) (bi_count b5), SStop r)) by (cbn [step]; rewrite PM; unfold r; destruct (upsample_image dbg rayon d5); reflexivity).
  pose proof (run_calm dbg rayon file _ _ _ _ _ _ Bf A E) as DF. cbn [bi_input] in DF. rewrite DF. unfold r. destruct (upsample_image dbg rayon d5); reflexivity.
Qed.

(** ** The file *)
Definition gives (dbg rerun rayon : bool) (file s : list Z) (chunks : list (list Z)) : Prop :=
  exists done c rest k0 buf0 k buf', chunks = done ++ c :: rest /\
    codec_feed dbg rerun rayon codec_new [] done = (k0, buf0, Ok None) /\
    codec_decode dbg rerun rayon k0 (buf0 ++ c) = (k, buf', lift (decode_fresh dbg rayon file)) /\
    (forall img, decode_fresh dbg rayon file = Ok img -> buf' ++ concat rest = s).

Lemma gives_stop : forall dbg rerun rayon file s chunks d b r, Forall bytes chunks -> concat chunks = file ++ s ->
  run dbg false rayon (run_fuel (biter_new (concat chunks))) PcMarker decoder_default (biter_new (concat chunks)) = (d, ext s b, r) ->
  ~ is_need r -> r <> RPanic PFuel -> answer r = lift (decode_fresh dbg rayon file) -> (forall img, r = RImage img -> bi_input b = []) ->
  (forall d, passes dbg rayon (file ++ s) d -> calm_state rerun d) -> gives dbg rerun rayon file s chunks.
Proof.
  intros dbg rerun rayon file s chunks d b r By EC E N1 N3 A1 EI PS.
  destruct (feed_any dbg rerun rayon chunks d (ext s b) r By E N1 N3) as [done [c [rest [k0 [buf0 [buf' [H0 [H1 [H3 H2]]]]]]]]].
  - rewrite EC. intros d0 Pd. apply tables_ok_sound. exact (proj1 (PS d0 Pd)).
  - destruct rerun eqn:Rr; [right|left; reflexivity]. rewrite EC. intros d0 Pd. destruct (PS d0 Pd) as [_ [X|X]]; [discriminate|exact X].
  - exists done, c, rest, k0, buf0. eexists _, buf'. splits; [exact H0|exact H1|rewrite <- A1; exact H3|].
    intros img Ei. rewrite Ei in A1. destruct r as [im|e|p|e|p|]; cbn [answer lift] in A1; try discriminate A1.
    rewrite H2. cbn [ext bi_input]. rewrite (EI im eq_refl). reflexivity.
Qed.

Lemma any_data_calm : forall dbg rerun rayon segs h fill1 fill2 ss ts qs data post fill3 s chunks,
  header_for segs h ss ts qs -> rst_only data -> post_ok post ->
  sequential_tables (segs ++ post) -> rerun = false \/ no_intervals (segs ++ post) ->
  let after := flat_map hseg_bytes post ++ marker_bytes fill3 0xD9 in
  let file := file_bytes segs fill1 fill2 (mkSpS ss 0 63 0 0) data post fill3 in
  Forall bytes chunks -> concat chunks = file ++ s ->
  (decode_fresh dbg rayon file = Fail EEof /\ decode_fresh dbg rayon (file ++ s) = Fail EEof /\
   snd (read_decode dbg rerun rayon codec_new [] chunks) = Fail EEof /\
   exists k kept, codec_feed dbg rerun rayon codec_new [] chunks = (k, kept ++ after ++ s, Ok None)) \/
  (decode_fresh dbg rayon file <> Fail EEof /\ gives dbg rerun rayon file s chunks /\ forall d, passes dbg rayon (file ++ s) d -> calm_state rerun d).
Proof.
  intros dbg rerun rayon segs h fill1 fill2 ss ts qs data post fill3 s chunks [F Sf ND L4 Few CC] RO [Fp Sop] Sq Ni tail file By EC.
  pose proof (bytes_concat _ By) as B. rewrite EC in B. pose proof B as Bs. unfold bytes in B. apply Forall_app in B. destruct B as [Bf _]. fold (bytes file) in Bf.
  destruct (sof_ok segs h F ltac:(rewrite Sf; left; reflexivity)) as [Fm HO]. set (cs := fh_comps h) in *. set (lines := fh_lines h) in *. set (samples := fh_samples h) in *.
  pose proof (calm_grows dbg rerun (segs ++ post) Sq Ni) as Gr. set (P := calm_state rerun) in *.
  set (rest := marker_bytes fill2 0xDA ++ segment (sos_bytes (mkSpS ss 0 63 0 0)) ++ data ++ tail).
  assert (Ef : file = marker_bytes fill1 0xD8 ++ flat_map hseg_bytes segs ++ rest) by reflexivity.
  assert (ST : stop_tail tail) by (apply header_stop; exact Fp).
  assert (BT : bytes tail) by (unfold bytes in *; rewrite Ef in Bf; unfold rest in Bf; rewrite !Forall_app in Bf; tauto).
  assert (Bd : bytes data) by (unfold bytes in *; rewrite Ef in Bf; unfold rest in Bf; rewrite !Forall_app in Bf; tauto).
  assert (P0 : P decoder_default) by (split; [reflexivity|right; reflexivity]).
  assert (S1 : along P dbg false rayon (PcMarker, decoder_default, biter_new file)
    (PcMarker, decoder_default, mkBiter ([] ++ flat_map hseg_bytes segs ++ rest) 0 0)).
  { apply (along_next _ _ _ _ _ (PcSegment SOI, decoder_default, mkBiter (flat_map hseg_bytes segs ++ rest) 0 0)); [|reflexivity|exact P0]. eapply along_next; [apply along_here; exact P0| |exact P0]. cbn [moves biter_new]. rewrite Ef.
    apply (marker_step dbg false rayon decoder_default [] fill1 0xD8 SOI); [constructor|constructor|discriminate]. }
  destruct (along_segments P dbg rayon (segs ++ post) Gr 0 0 segs decoder_default [] rest ltac:(intros x Ix; apply in_or_app; left; exact Ix) P0 ltac:(split; [|split]; reflexivity) F ltac:(constructor)) as [d1 [junk [S2 [J [F4 HS]]]]].
  pose proof (along_end _ _ _ _ _ _ S2) as C1. cbn [dec_of fst snd] in C1.
  assert (S3 : along P dbg false rayon (PcMarker, decoder_default, biter_new file) (PcSegment SOS, d1, mkBiter (segment (sos_bytes (mkSpS ss 0 63 0 0)) ++ data ++ tail) 0 0)).
  { eapply along_trans; [exact S1|]. eapply along_trans; [exact S2|]. eapply along_next; [apply along_here; exact C1| |exact C1]. cbn [moves]. apply (marker_step dbg false rayon d1 junk fill2 0xDA SOS); [exact J|constructor|discriminate]. }
  destruct HS as [H1 H2 H3 H5 H6 H7 H8 H9 _]. rewrite Sf in H6. cbn [map last] in H6. cbn [decoder_default d_qt d_dc d_ac d_restart d_color d_finished] in *.
  destruct (from_inv dbg rayon _ _ (along_from _ _ _ _ _ _ S3) _ _ _ _ _ _ eq_refl eq_refl default_ok ltac:(split; [unfold biter_new, reader_ok; cbn; lia|exact Bf]) I) as [Kd [Gd _]].
  destruct (sos_any dbg rayon segs d1 (fh_marker h) (fh_precision h) lines samples cs ss ts qs data tail s ST RO Bd BT F HO Fm H6 ltac:(rewrite H5; apply dri_nonneg; exact F) H9 H1 H2 H3 ND L4 Few CC Kd Gd)
    as [d2 [d4 [b3 [R [M1 [M2 [M3 RR]]]]]]].
  assert (C2 : P d2) by (apply (calm_same rerun d1); [exact (step_ac _ _ _ _ _ _ _ _ _ M1 ltac:(discriminate))|exact (proj1 (step_kept _ _ _ _ _ _ _ _ _ M1) ltac:(discriminate))|exact C1]).
  set (p2 := PcScan true (mcu_list (f_mcu (frame_of (fh_marker h) (fh_precision h) lines samples cs))) PhRow) in *. set (b0 := mkBiter (data ++ tail) 0 0) in *.
  assert (S4 : along P dbg false rayon (PcMarker, decoder_default, biter_new file) (p2, d2, b0)) by (eapply along_next; [exact S3|exact M1|exact C2]).
  pose proof (along_ext s _ _ _ _ _ _ S4) as S4e. change (ext_conf s (PcMarker, decoder_default, biter_new file)) with (PcMarker, decoder_default, biter_new (file ++ s)) in S4e. change (ext_conf s (p2, d2, b0)) with (p2, d2, ext s b0) in S4e.
  assert (PA : forall r, R = SStop r -> forall d, passes dbg rayon (file ++ s) d -> P d).
  { intros r -> d [p [b Fx]]. destruct (along_cut _ _ _ _ _ _ S4e Fx) as [X|X]; [exact X|]. apply from_cases in X. destruct X as [X|[p' [d' [b' [Sx _]]]]].
    - injection X as _ <- _. exact C2.
    - pose proof (eq_trans (eq_sym M3) Sx). discriminate. }
  destruct R as [p|[img|e|p|e|p|]]; try contradiction.
  - (* all MCUs are found *)
    destruct RR as [-> [[j3 [Rj Ej]] Fs]]. right.
    assert (C4 : P d4) by (apply (calm_same rerun d2); [exact (step_ac _ _ _ _ _ _ _ _ _ M2 ltac:(discriminate))|exact (proj1 (step_kept _ _ _ _ _ _ _ _ _ M2) ltac:(discriminate))|exact C2]).
    destruct b3 as [i3 bits3 count3]. cbn [bi_input] in Ej. subst i3.
    destruct (skip_along P dbg rayon (length j3) j3 d4 tail bits3 count3 C4 ltac:(lia) Rj) as [j4 [N4 S5]].
    destruct (along_segments P dbg rayon (segs ++ post) Gr bits3 count3 post d4 j4 (marker_bytes fill3 0xD9) ltac:(intros x Ix; apply in_or_app; right; exact Ix) C4 Fs Fp N4) as [d5 [j5 [S6 [J5 _]]]].
    assert (S7 : along P dbg false rayon (PcMarker, decoder_default, biter_new file) (PcMarker, d5, mkBiter (j5 ++ marker_bytes fill3 0xD9) bits3 count3)).
    { eapply along_trans; [exact S4|]. eapply along_trans; [|exact S6]. eapply along_trans; [|exact S5]. eapply along_next; [apply along_here; exact C2|exact M2|exact C4]. }
    destruct (file_ends dbg rerun rayon file fill3 d5 _ j5 Bf S7 eq_refl J5) as [[d [b [r [E [EI [N1 [N2 [N4' [N3 [A1 A2]]]]]]]]]] PS].
    apply (run_ext_done s) in E; auto. change (ext s (biter_new file)) with (biter_new (file ++ s)) in E. rewrite <- EC in E.
    assert (E2 : run dbg false rayon (run_fuel (biter_new (concat chunks))) PcMarker decoder_default (biter_new (concat chunks)) = (d, ext s b, r)).
    { rewrite <- E. apply run_more; [rewrite E; exact N3|]. unfold run_fuel, biter_new. cbn [bi_input]. rewrite EC, app_length. lia. }
    split.
    + rewrite (eoi_run dbg rayon file fill3 d5 _ j5 Bf (along_from _ _ _ _ _ _ S7) eq_refl J5). apply ne_image.
    + split; [|exact (PS s)]. exact (gives_stop dbg rerun rayon file s chunks d b r By EC E2 N1 N3 A1 ltac:(intros; exact EI) (PS s)).
  - (* a code does not come *)
    destruct RR as [[todo ->] [j [Rj Ej]]]. left.
    pose proof (run_calm dbg rayon file _ _ _ _ _ _ Bf (along_from _ _ _ _ _ _ S4) M2) as DF. cbv iota in DF.
    pose proof (run_calm dbg rayon (file ++ s) _ _ _ _ _ _ Bs (along_from _ _ _ _ _ _ S4e) M3) as DFs. cbv iota in DFs.
    assert (RW : runs_to dbg false rayon (PcMarker, decoder_default, biter_new (file ++ s)) (d4, ext s b3, RNeed (PcScan true todo PhRow))).
    { apply (from_runs _ _ _ _ _ (along_from _ _ _ _ _ _ S4e)). exists 1%nat. split; [unfold run; rewrite M3; reflexivity|discriminate]. }
    specialize (PA _ eq_refl).
    destruct (feed_need dbg rerun rayon d4 (ext s b3) (RNeed (PcScan true todo PhRow)) I chunks codec_new [] start_ok By (start_waiting _ _ _)) as [k [CF _]].
    + cbn [app]. rewrite EC. destruct RW as [fuel [R N]]. exists fuel. split; [|exact N]. cbn [conf]. etransitivity; [apply run_rerun; exact (fun x => x)|exact R].
    + cbn [app]. rewrite EC. apply uncut_start. destruct rerun eqn:Rr; [right|left; reflexivity]. intros d0 Pd. destruct (PA d0 Pd) as [_ [X|X]]; [discriminate|exact X].
    + cbn [app]. rewrite EC. apply no_eob_start. intros d0 Pd. apply tables_ok_sound. exact (proj1 (PA d0 Pd)).
    + cbn [ext bi_input] in CF. rewrite Ej, <- app_assoc in CF. split; [exact DF|]. split; [exact DFs|]. split; [rewrite read_feed, CF; reflexivity|]. exists k, j. exact CF.
  - (* another error *)
    right. pose proof (run_calm dbg rayon file _ _ _ _ _ _ Bf (along_from _ _ _ _ _ _ S4) M2) as DF. cbv iota in DF. split; [rewrite DF; congruence|].
    assert (RW : runs_to dbg false rayon (PcMarker, decoder_default, biter_new (file ++ s)) (d4, ext s b3, RFail e)).
    { apply (from_runs _ _ _ _ _ (along_from _ _ _ _ _ _ S4e)). exists 1%nat. split; [unfold run; rewrite M3; reflexivity|discriminate]. }
    pose proof (decode_no_fuel dbg rayon decoder_default (file ++ s) ltac:(constructor) Bs) as NF.
    destruct (run dbg false rayon (run_fuel (biter_new (file ++ s))) PcMarker decoder_default (biter_new (file ++ s))) as [[d' b'] r'] eqn:ER.
    assert (R' : runs_to dbg false rayon (PcMarker, decoder_default, biter_new (file ++ s)) (d', b', r')).
    { exists (run_fuel (biter_new (file ++ s))). split; [exact ER|]. cbn [snd]. intros ->. apply NF. unfold decode. rewrite ER. reflexivity. }
    pose proof (runs_det _ _ _ _ _ _ RW R') as W. injection W as W1 W2 W3.
    split; [|exact (PA _ eq_refl)]. apply (gives_stop dbg rerun rayon file s chunks d4 b3 (RFail e) By EC); [rewrite EC, ER; congruence|exact (fun x => x)|discriminate|rewrite DF; reflexivity|discriminate|exact (PA _ eq_refl)].
Qed.
Lemma any_data : forall dbg rerun rayon segs h fill1 fill2 ss ts qs data post fill3 s chunks,
  header_for segs h ss ts qs -> rst_only data -> post_ok post ->
  sequential_tables (segs ++ post) -> rerun = false \/ no_intervals (segs ++ post) ->
  let after := flat_map hseg_bytes post ++ marker_bytes fill3 0xD9 in
  let file := file_bytes segs fill1 fill2 (mkSpS ss 0 63 0 0) data post fill3 in
  Forall bytes chunks -> concat chunks = file ++ s ->
  (decode_fresh dbg rayon file = Fail EEof /\ decode_fresh dbg rayon (file ++ s) = Fail EEof /\
   snd (read_decode dbg rerun rayon codec_new [] chunks) = Fail EEof /\
   exists k kept, codec_feed dbg rerun rayon codec_new [] chunks = (k, kept ++ after ++ s, Ok None)) \/
  (decode_fresh dbg rayon file <> Fail EEof /\ gives dbg rerun rayon file s chunks).
Proof.
  intros dbg rerun rayon segs h fill1 fill2 ss ts qs data post fill3 s chunks HF RO PO Sq Ni after file By EC.
  destruct (any_data_calm dbg rerun rayon segs h fill1 fill2 ss ts qs data post fill3 s chunks HF RO PO Sq Ni By EC) as [H|[H1 [H2 _]]]; [left; exact H|right; split; assumption].
Qed.
