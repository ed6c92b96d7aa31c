(** Decoding in pieces: every pause of the parser can be resumed. *)
From Verif Require Import Base Tactics SpecBits Biterator Huffman Marker Types Parsers Decode SpecGlobal SpecStream ExtP.

(** Only the scan state differs. *)
Definition kin (d d' : decoder) : Prop := exists s, d' = set_ss d s.
Lemma kin_refl : forall d, kin d d.
Proof. intros d. exists (d_ss d). destruct d; reflexivity. Qed.
Lemma kin_trans : forall a b c, kin a b -> kin b c -> kin a c.
Proof. intros a b c [s ->] [t ->]. exists t. reflexivity. Qed.
Lemma kin_ac : forall d d', kin d d' -> d_ac d' = d_ac d.
Proof. intros d d' [s ->]. reflexivity. Qed.
Lemma kin_restart : forall d d', kin d d' -> d_restart d' = d_restart d.
Proof. intros d d' [s ->]. reflexivity. Qed.
Lemma has_eob_kin : forall d d', kin d d' -> has_eob_runs d' -> has_eob_runs d.
Proof. intros d d' K H. unfold has_eob_runs in *. rewrite (kin_ac _ _ K) in H. exact H. Qed.

Lemma row_kin : forall dbg d b d' b', decode_row dbg d b = Ok (d', b') -> kin d d'.
Proof.
  intros dbg d b d' b' E. unfold decode_row in E. destruct (d_scan d); [|discriminate]. destruct (d_frame d); [|discriminate].
  cbv zeta in E. binv E. destruct a as [[[blocks ps] b1] e]. inv E. eexists. reflexivity.
Qed.
Lemma check_kin : forall dbg x y d need d', restart_check dbg x y d = Ok (need, d') -> kin d d' /\ (need = true -> 0 < d_restart d).
Proof.
  intros dbg x y d need d' E. unfold restart_check in E. destruct (0 <? d_restart d) eqn:R.
  - destruct (d_frame d); [|discriminate]. binv E. binv E. cbv zeta in E. binv E. inv E. split; [eexists; reflexivity|lia].
  - inv E. split; [apply kin_refl|discriminate].
Qed.
Lemma restart_kin : forall d b d' b', restart_marker d b = Ok (d', b') -> kin d d'.
Proof.
  intros d b d' b' E. unfold restart_marker in E. binv E. destruct a as [m rest]. unfold handle_restart in E. cbv zeta in E.
  destruct m; try discriminate. destruct (n =? ss_rst (d_ss d)); [|discriminate]. inv E. eexists. reflexivity.
Qed.
Lemma dequantize_kin : forall dbg x y d d', dequantize dbg x y d = Ok d' -> kin d d'.
Proof.
  intros dbg x y d d' E. unfold dequantize in E. destruct (d_frame d); [|discriminate]. binv E. binv E. cbv zeta in E. binv E. inv E.
  eexists. reflexivity.
Qed.

(** ** Running out of bits in an end-of-band run *)
Definition oob {A} (x : out A) : Prop := x = Fail EOutOfBits.
Lemma oob_bind : forall A B (x : out A) (k : A -> out B), oob (bind x k) -> oob x \/ exists a, x = Ok a /\ oob (k a).
Proof. unfold oob. intros A B [a|e|p|] k H; cbn in H; try discriminate; eauto. left. congruence. Qed.
Lemma or_fail_eof : forall A (x : bitres A), (forall e, x <> Fail e) -> or_fail EEof x <> Fail EOutOfBits.
Proof. intros A [[[v|] b]|e|p|] N; cbn; try discriminate. exfalso. exact (N e eq_refl). Qed.
Lemma next_bits_no_fail : forall dbg b n e, next_bits dbg b n <> Fail e.
Proof.
  intros. unfold next_bits. destruct (if bi_count b <? n then fill_bits b else (true, b)) as [[|] b1]; [|discriminate].
  apply bind_no_fail; [apply peek_no_fail|]. intros v. apply bind_no_fail; [apply consume_no_fail|]. discriminate.
Qed.
Lemma receive_no_fail : forall dbg b n e, receive_extend dbg b n <> Fail e.
Proof. intros. unfold receive_extend. apply bind_no_fail; [apply next_bits_no_fail|]. intros [[v|] b'] e'; discriminate. Qed.
Lemma search_no_fail : forall dbg t bits n b i e, search_code dbg t b bits n i <> Fail e.
Proof.
  intros dbg t bits. induction n as [|n IH]; intros b i; cbn [search_code]; [discriminate|]. apply bind_no_fail; [apply index_no_fail|].
  intros mc. destruct (Z.shiftr bits (15 - i) <=? mc); [|apply IH]. apply bind_no_fail; [apply consume_no_fail|]. intros b1.
  apply bind_no_fail; [apply index_no_fail|]. intros vo. apply bind_no_fail; [apply index_no_fail|]. discriminate.
Qed.
Lemma inner_no_fail : forall dbg t b k e, decode_inner dbg t b k <> Fail e.
Proof.
  intros. unfold decode_inner. apply bind_no_fail; [apply index_no_fail|]. intros [value size]. destruct (0 <? size).
  - apply bind_no_fail; [apply consume_no_fail|]. discriminate.
  - apply bind_no_fail; [apply peek_no_fail|]. intros bits. apply search_no_fail.
Qed.
Lemma table_no_fail : forall dbg t b e, table_decode dbg t b <> Fail e.
Proof.
  intros. unfold table_decode. destruct (ensure16 b) as [[|] b1]; [|discriminate]. apply bind_no_fail; [apply peek_u8_no_fail|].
  intros k. apply inner_no_fail.
Qed.
Lemma fast_no_fail : forall dbg t b e, decode_fast_ac dbg t b <> Fail e.
Proof.
  intros. unfold decode_fast_ac. destruct (ensure16 b) as [[|] b1]; [|discriminate]. apply bind_no_fail; [apply peek_u8_no_fail|].
  intros k. apply bind_no_fail; [apply index_no_fail|]. intros [value rs]. destruct (negb (rs =? 0)); cbv zeta.
  - apply bind_no_fail; [apply consume_no_fail|]. discriminate.
  - apply bind_no_fail; [apply inner_no_fail|]. intros [[v|] b2]; discriminate.
Qed.
Lemma store_no_fail : forall A (l : list A) i v e, store l i v <> Fail e.
Proof. intros. unfold store. destruct ((0 <=? i) && (i <? Z.of_nat (length l))); discriminate. Qed.
Lemma unzigzag_no_fail : forall l i v e, unzigzag l i v <> Fail e.
Proof.
  intros. unfold unzigzag. apply bind_no_fail; [apply index_no_fail|]. intros z e'. unfold store_unchecked.
  destruct ((0 <=? z) && (z <? Z.of_nat (length l))); discriminate.
Qed.

Lemma dc_oob : forall dbg sc t coefs b pred, ~ oob (decode_dc dbg sc t coefs b pred).
Proof.
  intros dbg sc t coefs b pred H. unfold decode_dc in H. destruct (s_start sc =? 0); [|discriminate].
  apply oob_bind in H. destruct H as [H|[[value b1] [_ H]]]; [exact (or_fail_eof _ _ (table_no_fail dbg t b) H)|].
  apply oob_bind in H. destruct H as [H|[[diff b2] [_ H]]].
  - destruct (value =? 0); [discriminate|]. destruct (11 <? value); [discriminate|]. exact (or_fail_eof _ _ (receive_no_fail dbg b1 value) H).
  - cbv zeta in H. apply oob_bind in H. destruct H as [H|[c [_ H]]]; [exact (store_no_fail _ _ _ _ _ H)|discriminate].
Qed.
Lemma ac_loop_oob : forall dbg t low last fuel coefs b eob i, oob (ac_loop dbg fuel t low last coefs b eob i) ->
  exists b v b', decode_fast_ac dbg t b = Ok (ANormal v, b') /\ eob_run v.
Proof.
  intros dbg t low last. induction fuel as [|fuel IH]; intros coefs b eob i H; [discriminate|]. cbn [ac_loop] in H. cbv zeta in H.
  assert (P : forall value run b1,
    oob (if i + run <=? last then
         let* coefs0 := unzigzag coefs (i + run) (shl16 value low) in
         if i + run + 1 <=? last then ac_loop dbg fuel t low last coefs0 b1 eob (i + run + 1) else Ok (coefs0, b1, eob)
       else Ok (coefs, b1, eob)) -> exists b v b', decode_fast_ac dbg t b = Ok (ANormal v, b') /\ eob_run v).
  { intros value run b1 K. destruct (i + run <=? last); [|discriminate]. apply oob_bind in K.
    destruct K as [K|[c [_ K]]]; [exfalso; exact (unzigzag_no_fail _ _ _ _ K)|].
    destruct (i + run + 1 <=? last); [|discriminate]. eapply IH; exact K. }
  apply oob_bind in H. destruct H as [H|[[r b1] [E H]]]; [exfalso; exact (fast_no_fail _ _ _ _ H)|].
  destruct r as [value run|byte|]; [exact (P _ _ _ H)| |discriminate].
  destruct (Z.land byte 15 =? 0) eqn:L.
  - destruct (Z.shiftr byte 4 =? 15) eqn:R.
    + destruct (i + 16 <=? last); [eapply IH; exact H|discriminate].
    + destruct (0 <? Z.shiftr byte 4) eqn:R0; [|discriminate].
      exists b, byte, b1. split; [exact E|]. unfold eob_run. lia.
  - apply oob_bind in H. destruct H as [H|[[v b2] [_ H]]]; [exfalso; exact (or_fail_eof _ _ (receive_no_fail dbg b1 _) H)|].
    exact (P _ _ _ H).
Qed.
Lemma block_oob : forall dbg sc dct act coefs b eob pred, oob (decode_block dbg sc dct act coefs b eob pred) ->
  exists b v b', decode_fast_ac dbg act b = Ok (ANormal v, b') /\ eob_run v.
Proof.
  intros dbg sc dct act coefs b eob pred H. unfold decode_block in H. apply oob_bind in H.
  destruct H as [H|[[[c b1] p] [_ H]]]; [exfalso; exact (dc_oob _ _ _ _ _ _ H)|]. cbv zeta in H.
  destruct ((Z.max (s_start sc) 1 <=? Z.min (s_end sc) 63) && (0 <? eob)); [discriminate|].
  destruct (Z.max (s_start sc) 1 <? Z.min (s_end sc) 63); [|discriminate]. apply oob_bind in H.
  destruct H as [H|[[[c2 b2] e2] [_ H]]]; [eapply ac_loop_oob; exact H|discriminate].
Qed.
Lemma blocks_oob : forall dbg sc dct act n b eob pred, oob (decode_blocks dbg sc dct act n b eob pred) ->
  exists b v b', decode_fast_ac dbg act b = Ok (ANormal v, b') /\ eob_run v.
Proof.
  intros dbg sc dct act. induction n as [|n IH]; intros b eob pred H; [discriminate|]. cbn [decode_blocks] in H. apply oob_bind in H.
  destruct H as [H|[[[[c b1] e1] p1] [_ H]]]; [eapply block_oob; exact H|]. apply oob_bind in H.
  destruct H as [H|[[[[cs b2] e2] p2] [_ H]]]; [eapply IH; exact H|discriminate].
Qed.
Lemma comps_oob : forall dbg d sc cs hs ps avail b eob, oob (decode_comps dbg d sc cs hs ps avail b eob) -> has_eob_runs d.
Proof.
  intros dbg d sc. induction cs as [|c cs IH]; intros hs ps avail b eob H; [discriminate|].
  destruct hs as [|h hs]; [discriminate|]. destruct ps as [|p ps]; [discriminate|]. cbn [decode_comps] in H.
  apply oob_bind in H. destruct H as [H|[dct [_ H]]]; [exfalso; exact (index_no_fail _ _ _ _ H)|].
  apply oob_bind in H. destruct H as [H|[dct' [_ H]]]; [destruct dct; discriminate|].
  apply oob_bind in H. destruct H as [H|[act [EA H]]]; [exfalso; exact (index_no_fail _ _ _ _ H)|].
  apply oob_bind in H. destruct H as [H|[act' [EA' H]]]; [destruct act; discriminate|]. cbv zeta in H.
  apply oob_bind in H. destruct H as [H|[[[[bl b1] e1] p1] [_ H]]].
  - apply blocks_oob in H. destruct H as [b0 [v [b' [E R]]]]. exists dbg, act', b0, v, b'. splits; auto.
    destruct act as [t|]; [|discriminate]. inv EA'. apply index_Ok in EA. destruct EA as [_ EA]. apply nth_error_In in EA. exact EA.
  - apply oob_bind in H. destruct H as [H|[[[[r qs] b2] e2] [_ H]]]; [eapply IH; exact H|discriminate].
Qed.
Lemma row_oob : forall dbg d b, oob (decode_row dbg d b) -> has_eob_runs d.
Proof.
  intros dbg d b H. unfold decode_row in H. destruct (d_scan d); [|discriminate]. destruct (d_frame d); [|discriminate]. cbv zeta in H.
  apply oob_bind in H. destruct H as [H|[[[[bl ps] b1] e1] [_ H]]]; [eapply comps_oob; exact H|discriminate].
Qed.

(** ** The scan loop *)
Definition f_scan (s : list Z) : decoder * biter * scan_res -> decoder * biter * scan_res := fun '(d, b, r) => (d, ext s b, r).
Lemma restart_oob : forall d b, restart_marker d b <> Fail EOutOfBits.
Proof.
  intros d b H. change (oob (restart_marker d b)) in H. unfold restart_marker in H. apply oob_bind in H. destruct H as [H|[[m rest] [_ H]]].
  - unfold parse_marker in H. revert H. generalize false. induction (bi_input b) as [|x i IH]; intros seen H; [discriminate|]. cbn [marker_scan] in H.
    destruct (x =? 255); [eapply IH; exact H|]. destruct seen; [|eapply IH; exact H]. destruct (x =? 0); [eapply IH; exact H|].
    destruct (marker_of_byte x); discriminate.
  - unfold handle_restart in H. cbv zeta in H. destruct m; try discriminate. destruct (n =? ss_rst (d_ss d)); discriminate.
Qed.
Lemma check_no_fail : forall dbg x y d e, restart_check dbg x y d <> Fail e.
Proof.
  intros. unfold restart_check. destruct (0 <? d_restart d); [|discriminate]. destruct (d_frame d); [|discriminate].
  apply bind_no_fail; [apply usub_no_fail|]. intros lx. apply bind_no_fail.
  - intros e'. destruct (x =? lx); [|discriminate]. apply bind_no_fail; [apply usub_no_fail|discriminate].
  - intros il. cbv zeta. apply bind_no_fail; [apply usub_no_fail|]. discriminate.
Qed.

Lemma scan_loop_ext : forall s dbg rerun final todo ph d b d' b' r,
  scan_loop dbg rerun final todo ph d b = (d', b', r) ->
  kin d d' /\
  match r with
  | ScNeed todo' ph' =>
      (rerun = false \/ ph' = PhRow ->
       scan_loop dbg rerun final todo ph d (ext s b) = scan_loop dbg rerun final todo' ph' d' (ext s b') /\
       scan_loop dbg rerun final todo' ph' d' b' = (d', b', ScNeed todo' ph')) /\
      (ph' = PhRestart -> ph = PhRestart \/ 0 < d_restart d)
  | ScFail EOutOfBits => has_eob_runs d \/ scan_loop dbg rerun final todo ph d (ext s b) = (d', ext s b', r)
  | _ => scan_loop dbg rerun final todo ph d (ext s b) = (d', ext s b', r)
  end.
Proof.
  intros s dbg rerun final. induction todo as [|[y x] todo IH]; intros ph d b d' b' r E.
  - cbn [scan_loop] in E. inv E. split; [apply kin_refl|reflexivity].
  - cbn [scan_loop] in E.
    set (row b := match ph with PhRow => decode_row dbg d b | PhRestart => Ok (d, b) end).
    change (match ph with PhRow => decode_row dbg d b | PhRestart => Ok (d, b) end) with (row b) in E.
    assert (ER : er (fd s) (row b) (row (ext s b))) by (unfold row; destruct ph; [apply decode_row_ext|reflexivity]).
    assert (KR : forall d1 b1, row b = Ok (d1, b1) -> kin d d1).
    { unfold row. intros d1 b1 K. destruct ph; [eapply row_kin; exact K|]. inv K. apply kin_refl. }
    assert (OR : row b = Fail EOutOfBits -> has_eob_runs d) by (unfold row; destruct ph; [apply row_oob|discriminate]).
    assert (NR : row b = Fail EEof -> ph = PhRow) by (unfold row; destruct ph; [reflexivity|discriminate]).
    assert (HD : scan_loop dbg rerun final ((y, x) :: todo) ph d (ext s b) =
      match row (ext s b) with
      | Ok (d1, b1) =>
          match (if match ph with PhRow => true | PhRestart => rerun end then restart_check dbg x y d1 else Ok (true, d1)) with
          | Ok (need, d2) =>
              match (if need then restart_marker d2 b1 else Ok (d2, b1)) with
              | Ok (d3, b3) =>
                  match (if final then dequantize dbg x y d3 else Ok d3) with
                  | Ok d4 => scan_loop dbg rerun final todo PhRow d4 b3
                  | Fail e => (d3, b3, ScFail e) | Panic p => (d3, b3, ScPanic p) | UB => (d3, b3, ScUB)
                  end
              | Fail EEof => (d2, b1, ScNeed ((y, x) :: todo) PhRestart)
              | Fail e => (d2, b1, ScFail e) | Panic p => (d2, b1, ScPanic p) | UB => (d2, b1, ScUB)
              end
          | Fail e => (d1, b1, ScFail e) | Panic p => (d1, b1, ScPanic p) | UB => (d1, b1, ScUB)
          end
      | Fail EEof => (d, ext s b, ScNeed ((y, x) :: todo) PhRow)
      | Fail e => (d, ext s b, ScFail e) | Panic p => (d, ext s b, ScPanic p) | UB => (d, ext s b, ScUB)
      end) by reflexivity.
    unfold er in ER. destruct (row b) as [[d1 b1]|e|p|] eqn:R.
    + specialize (KR d1 b1 eq_refl). cbn [fd] in ER. rewrite ER in HD.
      destruct (if match ph with PhRow => true | PhRestart => rerun end then restart_check dbg x y d1 else Ok (true, d1)) as [[need d2]|e|p|] eqn:CK.
      * assert (K2 : kin d d2 /\ (need = true -> ph = PhRestart \/ 0 < d_restart d)).
        { destruct ph.
          - apply check_kin in CK. destruct CK as [K N]. rewrite (kin_restart _ _ KR) in N. split; [eapply kin_trans; eauto|auto].
          - destruct rerun.
            + apply check_kin in CK. destruct CK as [K N]. split; [eapply kin_trans; eauto|auto].
            + inv CK. split; auto. }
        destruct K2 as [K2 N2].
        destruct (if need then restart_marker d2 b1 else Ok (d2, b1)) as [[d3 b3]|e|p|] eqn:RM.
        -- assert (K3 : kin d d3).
           { destruct need; [|inv RM; exact K2]. eapply kin_trans; [exact K2|]. eapply restart_kin; exact RM. }
           assert (RM' : (if need then restart_marker d2 (ext s b1) else Ok (d2, ext s b1)) = Ok (d3, ext s b3)).
           { destruct need; [|inv RM; reflexivity]. pose proof (restart_marker_ext s d2 b1) as Q. rewrite RM in Q. exact Q. }
           rewrite RM' in HD.
           destruct (if final then dequantize dbg x y d3 else Ok d3) as [d4|e|p|] eqn:DQ.
           ++ assert (K4 : kin d d4).
              { destruct final; [|inv DQ; exact K3]. eapply kin_trans; [exact K3|]. eapply dequantize_kin; exact DQ. }
              destruct (IH _ _ _ _ _ _ E) as [K5 Q]. split; [eapply kin_trans; eauto|]. rewrite HD.
              destruct r; auto.
              ** destruct Q as [Q1 Q2]. split; [exact Q1|]. intros HH. right. rewrite <- (kin_restart _ _ K4). destruct (Q2 HH) as [Q3|Q3]; [discriminate|exact Q3].
              ** destruct e; auto. destruct Q as [Q|Q]; [left; eapply has_eob_kin; eauto|right; exact Q].
           ++ inv E. split; [exact K3|]. destruct e; auto.
           ++ inv E. split; auto.
           ++ inv E. split; auto.
        -- assert (need = true) by (destruct need; [reflexivity|discriminate]). subst need.
           pose proof (restart_marker_ext s d2 b1) as Q. rewrite RM in Q.
           destruct e; try (inv E; split; [exact K2|]; rewrite HD; cbn [er] in Q; rewrite Q; reflexivity).
           ++ inv E. split; [exact K2|]. split; [|auto]. intros [->|]; [|discriminate].
              split; [rewrite HD; cbn [scan_loop]; reflexivity|cbn [scan_loop]; rewrite RM; reflexivity].
           ++ exfalso. exact (restart_oob _ _ RM).
        -- assert (need = true) by (destruct need; [reflexivity|discriminate]). subst need.
           pose proof (restart_marker_ext s d2 b1) as Q. rewrite RM in Q. inv E. split; [exact K2|]. rewrite HD. cbn [er] in Q. rewrite Q. reflexivity.
        -- assert (need = true) by (destruct need; [reflexivity|discriminate]). subst need.
           pose proof (restart_marker_ext s d2 b1) as Q. rewrite RM in Q. inv E. split; [exact K2|]. rewrite HD. cbn [er] in Q. rewrite Q. reflexivity.
      * inv E. split; [exact KR|]. destruct e; auto.
      * inv E. split; auto.
      * inv E. split; auto.
    + destruct e; try (inv E; split; [apply kin_refl|]; rewrite HD, ER; reflexivity).
      * assert (PH : ph = PhRow) by auto. subst ph. inv E. split; [apply kin_refl|]. split; [|discriminate]. intros _. split; [reflexivity|].
        cbn [scan_loop]. subst row. cbn beta iota in R. rewrite R. reflexivity.
      * inv E. split; [apply kin_refl|]. left. apply OR. reflexivity.
    + inv E. split; [apply kin_refl|]. rewrite HD, ER. reflexivity.
    + inv E. split; [apply kin_refl|]. rewrite HD, ER. reflexivity.
Qed.

(** ** One transition *)
Definition in_restart (p : pc) : Prop := match p with PcScan _ _ PhRestart => True | _ => False end.
Definition f_step {A} (s : list Z) : decoder * biter * A -> decoder * biter * A := fun '(d, b, r) => (d, ext s b, r).

Lemma do_sos_ext : forall s dbg d b data, do_sos dbg d (ext s b) data = f_step s (do_sos dbg d b data).
Proof.
  intros. unfold do_sos. destruct (sos_segment (d_frame d) data) as [[sc i]|[]|p|]; try reflexivity.
  destruct (sos_begin dbg d sc) as [d1 [final|e|p|]]; try reflexivity. destruct (scan_init final d1); reflexivity.
Qed.
Lemma seg_end_ext : forall s m d b r, seg_end m d (ext s b) r = f_step s (seg_end m d b r).
Proof. intros s m d b [u|[]|p|]; reflexivity. Qed.

(** [resumes s p d b p' d' b']: pausing at [p'] and appending [s] is as good as having had
    [s] from the start. *)
Definition resumes (dbg rerun rayon : bool) (s : list Z) p d b p' d' b' : Prop :=
  kin d d' /\
  (rerun = false \/ ~ in_restart p' ->
   step dbg rerun rayon p d (ext s b) = step dbg rerun rayon p' d' (ext s b') /\
   step dbg rerun rayon p' d' b' = (d', b', SStop (RNeed p'))) /\
  (in_restart p' -> in_restart p \/ 0 < d_restart d).

Lemma marker_oob : forall i, parse_marker i <> Fail EOutOfBits.
Proof.
  intros i H. unfold parse_marker in H. revert H. generalize false. induction i as [|x i IH]; intros seen H; [discriminate|]. cbn [marker_scan] in H.
  destruct (x =? 255); [eapply IH; exact H|]. destruct seen; [|eapply IH; exact H]. destruct (x =? 0); [eapply IH; exact H|].
  destruct (marker_of_byte x); discriminate.
Qed.
Lemma segment_data_fail : forall dbg i e, segment_data dbg i = Fail e -> e = EEof.
Proof.
  intros dbg i e H. unfold segment_data, p_u16 in H. destruct i as [|x [|y i]]; try (inv H; reflexivity). cbn [bind] in H.
  unfold usub in H. destruct (256 * x + y <? 2); [destruct dbg; [discriminate|]|]; cbn [bind] in H; unfold p_take in H; destruct (_ <=? _); inv H; reflexivity.
Qed.
Lemma step_ext : forall s dbg rerun rayon p d b d' b' R, step dbg rerun rayon p d b = (d', b', R) ->
  match R with
  | SStop (RNeed p') => resumes dbg rerun rayon s p d b p' d' b' \/
      (exists m, p = PcSegment m /\ p' = PcSegment m) /\ step dbg rerun rayon p d (ext s b) = (d', ext s b', R)
  | SStop (RFail EOutOfBits) => has_eob_runs d \/ step dbg rerun rayon p d (ext s b) = (d', ext s b', R)
  | _ => step dbg rerun rayon p d (ext s b) = (d', ext s b', R)
  end.
Proof.
  intros s dbg rerun rayon p d b d' b' R E. destruct p as [|m|final todo ph].
  - cbn [step] in E |- *. cbn [bi_input bi_bits bi_count ext]. pose proof (parse_marker_ext s (bi_input b)) as Q.
    destruct (parse_marker (bi_input b)) as [[m rest]|e|p|] eqn:PM; cbn [er fr] in Q.
    + rewrite Q. destruct m; try (inv E; reflexivity). destruct (upsample_image dbg rayon d); inv E; reflexivity.
    + destruct e; try (inv E; rewrite Q; reflexivity).
      * inv E. left. split; [apply kin_refl|]. split; [|intros []]. intros _. split; [reflexivity|]. cbn [step]. rewrite PM. reflexivity.
      * exfalso. exact (marker_oob _ PM).
    + inv E. rewrite Q. reflexivity.
    + inv E. rewrite Q. reflexivity.
  - cbn [step] in E |- *. destruct (no_segment m) eqn:NS; [inv E; reflexivity|].
    cbn [bi_input bi_bits bi_count ext]. pose proof (segment_data_ext s dbg (bi_input b)) as Q.
    destruct (segment_data dbg (bi_input b)) as [[data rest]|e|p|] eqn:PM; cbn [er fr] in Q.
    + rewrite Q. set (b1 := mkBiter rest (bi_bits b) (bi_count b)) in *.
      change (mkBiter (rest ++ s) (bi_bits b) (bi_count b)) with (ext s b1).
      assert (G : forall X Y, X = (d', b', R) -> Y = f_step s X ->
        (forall p', R = SStop (RNeed p') -> p' = PcSegment m) ->
        match R with
        | SStop (RNeed p') => resumes dbg rerun rayon s (PcSegment m) d b p' d' b' \/
            (exists m0, PcSegment m = PcSegment m0 /\ p' = PcSegment m0) /\ Y = (d', ext s b', R)
        | SStop (RFail EOutOfBits) => has_eob_runs d \/ Y = (d', ext s b', R)
        | _ => Y = (d', ext s b', R)
        end).
      { intros X Y -> -> N. destruct R as [p'|[img|e|p'|e|p'|]]; try reflexivity.
        - right. split; [|reflexivity]. exists m. split; [reflexivity|]. apply N. reflexivity.
        - destruct e; try reflexivity. right. reflexivity. }
      assert (SG : forall d1 r p', seg_end m d1 b1 r = (d', b', SStop (RNeed p')) -> p' = PcSegment m).
      { intros d1 r p' H. destruct r as [u|e|q|]; cbn [seg_end] in H; try discriminate. destruct e; try discriminate. congruence. }
      destruct m; try discriminate NS; cbn [seg_payload] in E |- *;
        try (match type of E with (let '(_, _) := ?x in _) = _ => destruct x as [d1 r] end;
             eapply G; [exact E|apply seg_end_ext|]; intros p' ->; eapply SG; exact E).
      eapply G; [exact E|apply do_sos_ext|]. intros p' ->. unfold do_sos in E.
      destruct (sos_segment (d_frame d) data) as [[sc i]|e|q|]; try discriminate.
      * destruct (sos_begin dbg d sc) as [d1 [final|e|q|]]; try discriminate. destruct (scan_init final d1); discriminate.
      * destruct e; try discriminate. congruence.
    + pose proof (segment_data_fail _ _ _ PM) as ->. inv E. left. split; [apply kin_refl|]. split; [|intros []]. intros _. split.
      * cbn [step]. rewrite NS. reflexivity.
      * cbn [step]. rewrite NS, PM. reflexivity.
    + inv E. rewrite Q. reflexivity.
    + inv E. rewrite Q. reflexivity.
  - cbn [step] in E |- *. destruct (scan_loop dbg rerun final todo ph d b) as [[d1 b1] r] eqn:SL.
    destruct (scan_loop_ext s _ _ _ _ _ _ _ _ _ _ SL) as [K Q]. destruct r as [|todo' ph'|e|p|].
    + rewrite Q. destruct (scan_finish d1) as [d2|e|p|] eqn:SF; inv E; try reflexivity. destruct e; try reflexivity. right; reflexivity.
    + inv E. left. destruct Q as [Q1 Q2]. split; [exact K|]. split.
      * intros H. destruct Q1 as [Q1 Q3]; [destruct H as [H|H]; [left; exact H|right; destruct ph'; [reflexivity|exfalso; apply H; exact I]]|].
        cbn [step]. rewrite Q1, Q3. split; reflexivity.
      * intros H. destruct ph'; [destruct H|]. destruct (Q2 eq_refl) as [->|Q4]; [left; exact I|right; exact Q4].
    + inv E. destruct e; try (rewrite Q; reflexivity). destruct Q as [Q|Q]; [left; exact Q|right; rewrite Q; reflexivity].
    + inv E. rewrite Q. reflexivity.
    + inv E. rewrite Q. reflexivity.
Qed.
