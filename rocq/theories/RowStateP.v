(** The stateful model of [decode_row] agrees with the pure one. *)
From Verif Require Import Base Tactics Biterator Huffman Idct Types Parsers Decode ExtP RowState.

Definition agrees {A} (x : left A) (y : out A) : Prop :=
  match y with
  | Ok a => x = (a, Ok tt)
  | Fail e => snd x = Fail e
  | Panic p => snd x = Panic p
  | UB => snd x = UB
  end.

Lemma dc_agrees : forall dbg sc t coefs b pred, agrees (dc_state dbg sc t coefs b pred) (decode_dc dbg sc t coefs b pred).
Proof.
  intros. unfold dc_state, decode_dc. destruct (s_start sc =? 0); [|reflexivity]. unfold or_fail.
  destruct (table_decode dbg t b) as [[[value|] b1]|e|p|]; cbn [bind]; try reflexivity.
  assert (ST : forall diff b2,
    agrees (A := list Z * biter * Z) (let pred0 := w16 (pred + diff) in match store coefs 0 (shl16 pred0 (s_low sc)) with
          | Ok coefs => ((coefs, b2, pred0), Ok tt) | Fail e => ((coefs, b2, pred0), Fail e) | Panic p => ((coefs, b2, pred0), Panic p) | UB => ((coefs, b2, pred0), UB) end)
      (let pred0 := w16 (pred + diff) in let* coefs := store coefs 0 (shl16 pred0 (s_low sc)) in Ok (coefs, b2, pred0))).
  { intros diff b2. cbv zeta. destruct (store coefs 0 (shl16 (w16 (pred + diff)) (s_low sc))); reflexivity. }
  destruct (value =? 0); [apply ST|]. destruct (11 <? value); [reflexivity|].
  destruct (receive_extend dbg b1 value) as [[[diff|] b2]|e|p|]; cbn [bind]; try reflexivity. apply ST.
Qed.

Lemma ac_agrees : forall dbg t low last fuel coefs b eob i,
  agrees (ac_state dbg fuel t low last coefs b eob i) (ac_loop dbg fuel t low last coefs b eob i).
Proof.
  intros dbg t low last. induction fuel as [|fuel IH]; intros coefs b eob i; [reflexivity|]. cbn [ac_state ac_loop]. cbv zeta.
  assert (P : forall value run b1,
    agrees (A := list Z * biter * Z) (if i + run <=? last then
          match unzigzag coefs (i + run) (shl16 value low) with
          | Ok coefs0 => if i + run + 1 <=? last then ac_state dbg fuel t low last coefs0 b1 eob (i + run + 1) else ((coefs0, b1, eob), Ok tt)
          | Fail e => ((coefs, b1, eob), Fail e) | Panic p => ((coefs, b1, eob), Panic p) | UB => ((coefs, b1, eob), UB) end
        else ((coefs, b1, eob), Ok tt))
      (if i + run <=? last then
         let* coefs0 := unzigzag coefs (i + run) (shl16 value low) in
         if i + run + 1 <=? last then ac_loop dbg fuel t low last coefs0 b1 eob (i + run + 1) else Ok (coefs0, b1, eob)
       else Ok (coefs, b1, eob))).
  { intros value run b1. destruct (i + run <=? last); [|reflexivity]. destruct (unzigzag coefs (i + run) (shl16 value low)); try reflexivity.
    cbn [bind]. destruct (i + run + 1 <=? last); [apply IH|reflexivity]. }
  destruct (decode_fast_ac dbg t b) as [[[value run|byte|] b1]|e|p|]; cbn [bind]; try reflexivity; [apply P|].
  destruct (Z.land byte 15 =? 0).
  - destruct (Z.shiftr byte 4 =? 15); [destruct (i + 16 <=? last); [apply IH|reflexivity]|]. destruct (0 <? Z.shiftr byte 4); [|reflexivity].
    unfold or_fail. destruct (next_bits dbg b1 (Z.shiftr byte 4)) as [[[v|] b2]|e|p|]; reflexivity.
  - unfold or_fail. destruct (receive_extend dbg b1 (Z.land byte 15)) as [[[v|] b2]|e|p|]; cbn [bind]; try reflexivity. apply P.
Qed.

Lemma block_agrees : forall dbg sc dct act coefs b eob pred,
  agrees (block_state dbg sc dct act coefs b eob pred) (decode_block dbg sc dct act coefs b eob pred).
Proof.
  intros. unfold block_state, decode_block. generalize 64%nat as fuel. intros fuel. pose proof (dc_agrees dbg sc dct coefs b pred) as D. unfold agrees in D.
  destruct (decode_dc dbg sc dct coefs b pred) as [[[c b1] p]|e|p|].
  - rewrite D. cbn [bind]. cbv zeta. destruct ((Z.max (s_start sc) 1 <=? Z.min (s_end sc) 63) && (0 <? eob)); [reflexivity|].
    destruct (Z.max (s_start sc) 1 <? Z.min (s_end sc) 63); [|reflexivity].
    pose proof (ac_agrees dbg act (s_low sc) (Z.min (s_end sc) 63) fuel c b1 eob (Z.max (s_start sc) 1)) as A. unfold agrees in A.
    destruct (ac_loop dbg fuel act (s_low sc) (Z.min (s_end sc) 63) c b1 eob (Z.max (s_start sc) 1)) as [[[c2 b2] e2]|e|q|].
    + rewrite A. reflexivity.
    + destruct (ac_state dbg fuel act (s_low sc) (Z.min (s_end sc) 63) c b1 eob (Z.max (s_start sc) 1)) as [[[c2 b2] e2] r]. exact A.
    + destruct (ac_state dbg fuel act (s_low sc) (Z.min (s_end sc) 63) c b1 eob (Z.max (s_start sc) 1)) as [[[c2 b2] e2] r]. exact A.
    + destruct (ac_state dbg fuel act (s_low sc) (Z.min (s_end sc) 63) c b1 eob (Z.max (s_start sc) 1)) as [[[c2 b2] e2] r]. exact A.
  - destruct (dc_state dbg sc dct coefs b pred) as [[[c b1] p] r]. cbn in D. subst r. reflexivity.
  - destruct (dc_state dbg sc dct coefs b pred) as [[[c b1] p'] r]. cbn in D. subst r. reflexivity.
  - destruct (dc_state dbg sc dct coefs b pred) as [[[c b1] p'] r]. cbn in D. subst r. reflexivity.
Qed.

Lemma upd_upd : forall A (l : list A) i x y, upd (upd l i x) i y = upd l i y.
Proof. induction l; destruct i; simpl; intros; auto. f_equal. auto. Qed.
Lemma upd_same : forall A (l : list A) i d, upd l i (nth i l d) = l.
Proof. induction l; destruct i; simpl; intros; auto. f_equal. auto. Qed.

Lemma blocks_agree : forall dbg sc dct act j n coefs b eob preds, (j < length preds)%nat ->
  match decode_blocks dbg sc dct act n b eob (nth j preds 0) with
  | Ok (cs, b', eob', p') => blocks_state dbg sc dct act n j (coefs, b, eob, preds) = ((coefs ++ cs, b', eob', upd preds j p'), Ok tt)
  | Fail e => snd (blocks_state dbg sc dct act n j (coefs, b, eob, preds)) = Fail e
  | Panic p => snd (blocks_state dbg sc dct act n j (coefs, b, eob, preds)) = Panic p
  | UB => snd (blocks_state dbg sc dct act n j (coefs, b, eob, preds)) = UB
  end.
Proof.
  intros dbg sc dct act j. induction n as [|n IH]; intros coefs b eob preds L.
  - cbn. rewrite app_nil_r, upd_same. reflexivity.
  - cbn [decode_blocks blocks_state]. pose proof (block_agrees dbg sc dct act zero_block b eob (nth j preds 0)) as B. unfold agrees in B.
    destruct (decode_block dbg sc dct act zero_block b eob (nth j preds 0)) as [[[[c b1] e1] p1]|e|p|]; cbn [bind].
    + rewrite B. specialize (IH (coefs ++ [c]) b1 e1 (upd preds j p1)). rewrite upd_length in IH. specialize (IH L). rewrite nth_upd_eq in IH by exact L.
      destruct (decode_blocks dbg sc dct act n b1 e1 p1) as [[[[cs b2] e2] p2]|e|p|]; cbn [bind]; try exact IH.
      rewrite IH, upd_upd, <- app_assoc. reflexivity.
    + destruct (block_state dbg sc dct act zero_block b eob (nth j preds 0)) as [[[[c b1] e1] p1] r]. cbn in B. subst r. reflexivity.
    + destruct (block_state dbg sc dct act zero_block b eob (nth j preds 0)) as [[[[c b1] e1] p1] r]. cbn in B. subst r. reflexivity.
    + destruct (block_state dbg sc dct act zero_block b eob (nth j preds 0)) as [[[[c b1] e1] p1] r]. cbn in B. subst r. reflexivity.
Qed.

Lemma comps_agree : forall dbg d sc cs hs pre ps avail coefs b eob,
  match decode_comps dbg d sc cs hs ps avail b eob with
  | Ok (bl, ps', b', eob') => comps_state dbg d sc cs hs (length pre) avail (coefs, b, eob, pre ++ ps) = ((coefs ++ bl, b', eob', pre ++ ps'), Ok tt)
  | Fail e => snd (comps_state dbg d sc cs hs (length pre) avail (coefs, b, eob, pre ++ ps)) = Fail e
  | Panic p => snd (comps_state dbg d sc cs hs (length pre) avail (coefs, b, eob, pre ++ ps)) = Panic p
  | UB => snd (comps_state dbg d sc cs hs (length pre) avail (coefs, b, eob, pre ++ ps)) = UB
  end.
Proof.
  intros dbg d sc. induction cs as [|c cs IH]; intros hs pre ps avail coefs b eob; [cbn; rewrite app_nil_r; reflexivity|].
  destruct hs as [|h hs]; [cbn; rewrite app_nil_r; reflexivity|].
  destruct ps as [|p ps]; cbn [decode_comps comps_state]; rewrite skipn_app, skipn_all, Nat.sub_diag; cbn [skipn app]; [rewrite !app_nil_r; reflexivity|].
  destruct (index (d_dc d) (h_dc h)) as [[dct|]|e|q|]; cbn [bind]; try reflexivity.
  destruct (index (d_ac d) (h_ac h)) as [[act|]|e|q|]; cbn [bind]; try reflexivity. cbv zeta.
  assert (L : (length pre < length (pre ++ p :: ps))%nat) by (rewrite app_length; cbn; lia).
  pose proof (blocks_agree dbg sc dct act (length pre) (Nat.min (Z.to_nat (c_blocks_per_mcu c)) avail) coefs b eob (pre ++ p :: ps) L) as B.
  rewrite nth_middle in B.
  set (n := Nat.min (Z.to_nat (c_blocks_per_mcu c)) avail) in *.
  destruct (decode_blocks dbg sc dct act n b eob p) as [[[[bl b1] e1] p1]|e|q|]; cbn [bind].
  - rewrite B. assert (U : upd (pre ++ p :: ps) (length pre) p1 = (pre ++ [p1]) ++ ps).
    { clear. induction pre; cbn; [reflexivity|f_equal; exact IHpre]. }
    rewrite U. specialize (IH hs (pre ++ [p1]) ps (avail - n)%nat (coefs ++ bl) b1 e1).
    rewrite app_length in IH. cbn [length] in IH. rewrite Nat.add_1_r in IH.
    destruct (decode_comps dbg d sc cs hs ps (avail - n) b1 e1) as [[[[rest qs] b2] e2]|e|q|]; cbn [bind]; try exact IH.
    rewrite IH, <- !app_assoc. reflexivity.
  - destruct (blocks_state dbg sc dct act n (length pre) (coefs, b, eob, pre ++ p :: ps)) as [st r]. cbn in B. subst r. reflexivity.
  - destruct (blocks_state dbg sc dct act n (length pre) (coefs, b, eob, pre ++ p :: ps)) as [st r]. cbn in B. subst r. reflexivity.
  - destruct (blocks_state dbg sc dct act n (length pre) (coefs, b, eob, pre ++ p :: ps)) as [st r]. cbn in B. subst r. reflexivity.
Qed.

(** The pure [decode_row] is the stateful one with the state dropped on failure. *)
Lemma row_agrees : forall dbg d b, agrees (row_state dbg d b) (decode_row dbg d b).
Proof.
  intros. unfold row_state, decode_row. cbv zeta. destruct (d_scan d) as [sc|]; [|reflexivity]. destruct (d_frame d) as [fr|]; [|reflexivity].
  pose proof (comps_agree dbg d sc (f_components fr) (s_headers sc) [] (ss_preds (d_ss d)) MAX_BLOCKS [] b (ss_eob (d_ss d))) as C.
  cbn [app length] in C.
  destruct (decode_comps dbg d sc (f_components fr) (s_headers sc) (ss_preds (d_ss d)) MAX_BLOCKS b (ss_eob (d_ss d))) as [[[[bl ps] b1] e1]|e|p|]; cbn [bind].
  - rewrite C. reflexivity.
  - destruct (comps_state dbg d sc (f_components fr) (s_headers sc) 0 MAX_BLOCKS ([], b, ss_eob (d_ss d), ss_preds (d_ss d))) as [[[[cs b1] e1] ps] r]. cbn in C. subst r. reflexivity.
  - destruct (comps_state dbg d sc (f_components fr) (s_headers sc) 0 MAX_BLOCKS ([], b, ss_eob (d_ss d), ss_preds (d_ss d))) as [[[[cs b1] e1] ps] r]. cbn in C. subst r. reflexivity.
  - destruct (comps_state dbg d sc (f_components fr) (s_headers sc) 0 MAX_BLOCKS ([], b, ss_eob (d_ss d), ss_preds (d_ss d))) as [[[[cs b1] e1] ps] r]. cbn in C. subst r. reflexivity.
Qed.

(** ** Rolling back *)
Lemma row_rollback : forall dbg d b d' b' e, row_state dbg d b = ((d', b'), Fail e) ->
  b' = b /\ exists scratch, d' = set_ss d (set_coefs (d_ss d) scratch).
Proof.
  intros dbg d b d' b' e E. unfold row_state in E. cbv zeta in E. destruct (d_scan d) as [sc|]; [|discriminate]. destruct (d_frame d) as [fr|]; [|discriminate].
  destruct (comps_state dbg d sc (f_components fr) (s_headers sc) 0 MAX_BLOCKS ([], b, ss_eob (d_ss d), ss_preds (d_ss d))) as [[[[cs b1] e1] ps] r].
  destruct r; inv E. split; [destruct b; reflexivity|]. eexists. reflexivity.
Qed.

(** The scratch coefficients do not matter: a retry is the same as a first attempt. *)
Lemma comps_scratch : forall dbg d scratch sc cs hs j avail st,
  comps_state dbg (set_ss d (set_coefs (d_ss d) scratch)) sc cs hs j avail st = comps_state dbg d sc cs hs j avail st.
Proof.
  intros dbg d scratch sc. induction cs as [|c cs IH]; intros hs j avail [[[coefs b] eob] preds]; [reflexivity|].
  destruct hs as [|h hs]; [reflexivity|]. cbn [comps_state]. destruct (skipn j preds); [reflexivity|]. cbn [set_ss d_dc d_ac].
  destruct (let* dct := index (d_dc d) (h_dc h) in _) as [[dct act]|e|p|]; try reflexivity. cbv zeta.
  destruct (blocks_state dbg sc dct act _ j _) as [st [u|e|p|]]; try reflexivity. apply IH.
Qed.
Lemma row_retry : forall dbg d b d' b' e c, row_state dbg d b = ((d', b'), Fail e) -> row_state dbg d' c = row_state dbg d c.
Proof.
  intros dbg d b d' b' e c E. assert (N : d_scan d <> None /\ d_frame d <> None).
  { unfold row_state in E. cbv zeta in E. destruct (d_scan d); [|discriminate]. destruct (d_frame d); [|discriminate]. split; discriminate. }
  destruct N as [N1 N2].
  apply row_rollback in E. destruct E as [_ [scratch ->]]. unfold row_state. cbn [set_ss d_scan d_frame d_ss set_coefs ss_preds ss_eob ss_rst ss_left ss_results].
  cbv zeta. destruct (d_scan d) as [sc|]; [|congruence]. destruct (d_frame d) as [fr|]; [|congruence].
  rewrite comps_scratch. reflexivity.
Qed.

Lemma rollback : forall dbg d b d' b' e, row_state dbg d b = ((d', b'), Fail e) ->
  (bi_input b' = bi_input b /\ bi_bits b' = bi_bits b /\ bi_count b' = bi_count b) /\
  ss_preds (d_ss d') = ss_preds (d_ss d) /\ ss_eob (d_ss d') = ss_eob (d_ss d) /\
  (exists scratch, d' = set_ss d (set_coefs (d_ss d) scratch)).
Proof.
  intros dbg d b d' b' e E. apply row_rollback in E. destruct E as [-> [scratch ->]]. split; [auto|]. split; [reflexivity|]. split; [reflexivity|]. exists scratch. reflexivity.
Qed.
Lemma same_row : forall dbg d b,
  match decode_row dbg d b with
  | Ok (d', b') => row_state dbg d b = ((d', b'), Ok tt)
  | Fail e => snd (row_state dbg d b) = Fail e
  | Panic p => snd (row_state dbg d b) = Panic p
  | UB => snd (row_state dbg d b) = UB
  end.
Proof.
  intros. pose proof (row_agrees dbg d b) as A. unfold agrees in A. destruct (decode_row dbg d b) as [[d' b']| | |]; exact A.
Qed.
Lemma scan_suspended : forall dbg rerun final todo ph d b d' b' todo', scan_loop dbg rerun final todo ph d b = (d', b', ScNeed todo' PhRow) ->
  exists done, todo = done ++ todo' /\ todo' <> [] /\ scan_loop dbg rerun final done ph d b = (d', b', ScDone) /\ decode_row dbg d' b' = Fail EEof.
Proof.
  intros dbg rerun final todo. induction todo as [|[y x] rest IH]; intros ph d b d' b' todo' H; [discriminate H|]. cbn [scan_loop] in H.
  destruct (match ph with PhRow => decode_row dbg d b | PhRestart => Ok (d, b) end) as [[d1 b1]|e|p|] eqn:E1; try discriminate H.
  2:{ destruct e; try discriminate H. assert (Q1 : d' = d) by congruence. assert (Q2 : b' = b) by congruence. assert (Q3 : todo' = (y, x) :: rest) by congruence. subst.
      exists []. split; [reflexivity|]. split; [discriminate|]. split; [reflexivity|]. destruct ph; [exact E1|discriminate E1]. }
  destruct (if match ph with PhRow => true | PhRestart => rerun end then restart_check dbg x y d1 else Ok (true, d1)) as [[need d2]|e|p|] eqn:E2; try discriminate H.
  destruct (if need then restart_marker d2 b1 else Ok (d2, b1)) as [[d3 b3]|e|p|] eqn:E3; try discriminate H; [|destruct e; discriminate H].
  destruct (if final then dequantize dbg x y d3 else Ok d3) as [d4|e|p|] eqn:E4; try discriminate H.
  destruct (IH _ _ _ _ _ _ H) as (done & -> & N & L & R). exists ((y, x) :: done). split; [reflexivity|]. split; [exact N|]. split; [|exact R].
  cbn [scan_loop]. rewrite E1, E2, E3, E4. exact L.
Qed.
