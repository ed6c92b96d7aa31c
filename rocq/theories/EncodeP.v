(** Reading an encoded scan (C21, C45): the MCUs read are the MCUs written. *)
From Verif Require Import Base Tactics SpecBits SpecReader SpecHuffman SpecBlock SpecTables Biterator Readers ReadersP Huffman HuffmanP3 Marker SpecMarker MarkerP Types Idct IdctP Parsers Decode SpecScan BlockP SpecPlane PlaneP SegmentsP SafeP InvP ScanP RestartP.

(** ** One component of an MCU *)
Lemma comp_read : forall dbg t dct act sc tail, built dbg t dct act -> marker_tail tail -> bytes tail ->
  s_start sc = 0 -> 63 <= s_end sc -> s_low sc = 0 ->
  forall pred qs bits pred', comp_bits t pred qs bits pred' -> forall b bs, holds_at tail b (bits ++ bs) ->
  exists blks b', decode_blocks dbg sc dct act (length qs) b 0 pred = Ok (blks, b', 0, pred') /\
    Forall2 q_values blks qs /\ holds_at tail b' bs.
Proof.
  intros dbg t dct act sc tail Bu MT BT S0 S1 S2 pred qs bits pred' C. induction C as [pred|pred q qs diff bk bs0 pred' Rg Ok1 Bb C IH]; intros b bs HA.
  - exists [], b. cbn [length decode_blocks]. auto.
  - rewrite <- app_assoc in HA.
    destruct (decode_block_coded dbg t dct act sc tail b (bs0 ++ bs) _ bk pred Bu MT BT S0 S1 S2 Ok1 Bb HA) as [blk [b1 [E1 [V1 H1]]]]. cbn [b_diff b_ac] in *. rewrite <- Rg in E1, V1.
    destruct (IH b1 bs H1) as [blks [b2 [E2 [V2 H2]]]]. exists (blk :: blks), b2. cbn [length decode_blocks]. rewrite E1. cbn [bind]. rewrite E2. cbn [bind].
    auto.
Qed.

(** ** One MCU *)
Lemma ready_set : forall dbg d s cs hs ts, comps_ready dbg d cs hs ts -> comps_ready dbg (set_ss d s) cs hs ts.
Proof. intros dbg d s cs hs ts H. induction H; constructor; auto. Qed.

Definition mcu_fits (cs : list component) (m : mcu) : Prop := Forall2 (fun c qs => length qs = Z.to_nat (c_blocks_per_mcu c)) cs m.

Lemma mcu_read : forall dbg d sc tail, marker_tail tail -> bytes tail -> s_start sc = 0 -> 63 <= s_end sc -> s_low sc = 0 ->
  forall ts ps m bits ps', mcu_bits ts ps m bits ps' -> forall cs hs, comps_ready dbg d cs hs ts -> mcu_fits cs m ->
  forall avail extra b bs, (length (concat m) <= avail)%nat -> holds_at tail b (bits ++ bs) ->
  exists blks b', decode_comps dbg d sc cs hs (ps ++ extra) avail b 0 = Ok (blks, ps' ++ extra, b', 0) /\
    Forall2 q_values blks (concat m) /\ holds_at tail b' bs.
Proof.
  intros dbg d sc tail MT BT S0 S1 S2 ts ps m bits ps' M.
  induction M as [|t ts p ps qs m b1 b2 p' ps' C M IH]; intros cs hs R F avail extra b bs Av HA.
  - inv R. exists [], b. cbn. auto.
  - inversion R as [|c cs' h hs' t' ts' [dct [act [I1 [I2 Bu]]]] R']; subst. inversion F as [|c0 qs0 cs0 m0 Fl F']; subst.
    cbn [concat] in Av. rewrite app_length in Av. rewrite <- app_assoc in HA.
    destruct (comp_read dbg t dct act sc tail Bu MT BT S0 S1 S2 _ _ _ _ C b (b2 ++ bs) HA) as [blks1 [b' [E1 [V1 H1]]]].
    destruct (IH cs' hs' R' F' (avail - length qs)%nat extra b' bs ltac:(lia) H1) as [blks2 [b'' [E2 [V2 H2]]]].
    exists (blks1 ++ blks2), b''. cbn [app decode_comps]. rewrite I1. cbn [bind]. rewrite I2. cbn [bind].
    rewrite <- Fl. replace (Nat.min (length qs) avail) with (length qs) by lia. rewrite E1. cbn [bind]. rewrite E2. cbn [bind concat].
    split; [reflexivity|]. split; [apply Forall2_app; auto|auto].
Qed.

(** ** After an MCU *)
Lemma after_not_due : forall dbg d fr b pre y x rest, d_frame d = Some fr -> mcu_list (f_mcu fr) = pre ++ (y, x) :: rest ->
  counters (d_restart d) (lenZ pre) d -> restart_due (d_restart d) (lenZ (mcu_list (f_mcu fr))) (lenZ pre) = false ->
  exists s, after_mcu dbg x y d b = Ok (set_ss d s, b) /\ ss_preds s = ss_preds (d_ss d) /\ ss_eob s = ss_eob (d_ss d).
Proof.
  intros dbg d fr b pre y x rest Fr E C Du. set (r := d_restart d) in *. set (i := lenZ pre) in *. assert (Hi : 0 <= i) by (unfold i, lenZ; lia).
  rewrite (after_spec dbg d b fr pre y x rest Fr E); fold r.
  2:{ intros H. destruct (C H) as [-> _]. pose proof (Z.mod_pos_bound i r H). lia. }
  destruct (Z.ltb_spec 0 r) as [Hr|Hr]; [|exists (d_ss d); destruct d; auto].
  assert (X : (ss_left (d_ss d) =? 1) && match rest with [] => false | _ => true end = false).
  { destruct (C Hr) as [CL _]. destruct (next_mod r i Hr Hi) as [N1 N2]. unfold restart_due in Du. replace (0 <? r) with true in Du by lia. cbn [andb] in Du.
    destruct (Z.eqb_spec (ss_left (d_ss d)) 1) as [Q|Q]; [|reflexivity]. cbn [andb].
    destruct (N1 ltac:(lia)) as [M _]. rewrite M in Du. change (0 =? 0) with true in Du. cbn [andb] in Du. destruct rest as [|p rest]; [reflexivity|].
    exfalso. rewrite E in Du. unfold i, lenZ in Du. rewrite app_length in Du. cbn [length] in Du. lia. }
  rewrite X. eexists. split; [reflexivity|]. split; reflexivity.
Qed.
Lemma after_due : forall dbg d fr b pre y x rest rest', d_frame d = Some fr -> mcu_list (f_mcu fr) = pre ++ (y, x) :: rest ->
  let r := d_restart d in let i := lenZ pre in
  counters r i d -> restart_due r (lenZ (mcu_list (f_mcu fr))) i = true -> first_marker (bi_input b) (0xD0 + (i / r) mod 8) rest' ->
  exists s, after_mcu dbg x y d b = Ok (set_ss d s, mkBiter rest' 0 0) /\ ss_preds s = [0; 0; 0; 0] /\ ss_eob s = 0.
Proof.
  intros dbg d fr b pre y x rest rest' Fr E r i C Du FM. assert (Hi : 0 <= i) by (unfold i, lenZ; lia). unfold restart_due in Du.
  apply andb_prop in Du. destruct Du as [Du D3]. apply andb_prop in Du. destruct Du as [D1 D2]. assert (Hr : 0 < r) by lia. destruct (C Hr) as [CL CR].
  rewrite (after_spec dbg d b fr pre y x rest Fr E) by (intros _; rewrite CL; pose proof (Z.mod_pos_bound i r Hr); lia). fold r. rewrite D1.
  destruct (next_mod r i Hr Hi) as [N1 N2]. pose proof (Z.mod_pos_bound i r Hr) as B.
  assert (Q : i mod r = r - 1) by (destruct (Z.eq_dec (i mod r) (r - 1)) as [Q|Q]; [exact Q|destruct (N2 Q) as [M _]; lia]).
  replace (ss_left (d_ss d) =? 1) with true by lia.
  destruct rest as [|p rest]; [exfalso; rewrite E in D3; unfold i, lenZ in D3; rewrite app_length in D3; cbn [length] in D3; lia|]. cbn [andb].
  assert (PM : parse_marker (bi_input b) = Ok (RST ((i / r) mod 8), rest')).
  { apply parse_marker_ok. exists (0xD0 + (i / r) mod 8). split; [|exact FM]. apply code_RST. pose proof (Z.mod_pos_bound (i / r) 8). lia. }
  unfold restart_marker. rewrite PM. cbn [bind]. unfold handle_restart. cbn [lowered set_ss d_ss set_left ss_rst]. rewrite CR, Z.eqb_refl.
  eexists. split; [reflexivity|]. split; reflexivity.
Qed.

(** ** States inside a scan *)
Section Scan.
  Variables (dbg : bool) (d0 : decoder) (fr : frame) (sc : scan) (ts : list tables).
  Let MW := dim_w (f_mcu fr).
  Let MH := dim_h (f_mcu fr).
  Let N := lenZ (mcu_list (f_mcu fr)).
  Hypothesis Fr : d_frame d0 = Some fr.
  Hypothesis Sc : d_scan d0 = Some sc.
  Hypothesis S0 : s_start sc = 0.
  Hypothesis S1 : 63 <= s_end sc.
  Hypothesis S2 : s_low sc = 0.
  Hypothesis Rd : comps_ready dbg d0 (f_components fr) (s_headers sc) ts.
  Hypothesis FG : frame_good fr.
  Hypothesis Few : (total_blocks (f_components fr) <= MAX_BLOCKS)%nat.
  Hypothesis Bpm : Forall (fun c => Z.to_nat (c_blocks_per_mcu c) = blocks_in c) (f_components fr).
  Hypothesis Qt : Forall (fun c => exists qt, index (d_qt d0) (c_tq c) = Ok (Some qt)) (f_components fr).
  Hypothesis Cp : coding_process fr = Ok Baseline \/ coding_process fr = Ok Sequential.
  Hypothesis Rp : 0 <= d_restart d0.

  Record in_scan (ps : list Z) (d : decoder) : Prop := mkIn {
    is_set : exists s, d = set_ss d0 s;
    is_preds : exists extra, ss_preds (d_ss d) = ps ++ extra /\ (length ps + length extra = 4)%nat;
    is_eob : ss_eob (d_ss d) = 0;
    is_sized : Forall2 (sized MH) (f_components fr) (ss_results (d_ss d));
  }.

  Lemma in_frame : forall ps d, in_scan ps d -> d_frame d = Some fr /\ d_scan d = Some sc /\ d_restart d = d_restart d0 /\ d_qt d = d_qt d0.
  Proof. intros ps d [[s ->] _ _ _]. cbn. auto. Qed.

  Lemma ready_same : forall s, comps_ready dbg (set_ss d0 s) (f_components fr) (s_headers sc) ts.
  Proof. intros s. apply ready_set. exact Rd. Qed.

  Lemma concat_fits : forall cs m, mcu_fits cs m -> Forall (fun c => Z.to_nat (c_blocks_per_mcu c) = blocks_in c) cs -> length (concat m) = total_blocks cs.
  Proof.
    intros cs m F. induction F as [|c qs cs m L F IH]; intros B; [reflexivity|]. inv B. cbn [concat total_blocks fold_right]. rewrite app_length, IH by auto.
    fold (total_blocks cs). lia.
  Qed.

  Lemma row_read : forall tail ps m bits ps' d b bs, marker_tail tail -> bytes tail -> mcu_bits ts ps m bits ps' -> mcu_fits (f_components fr) m ->
    in_scan ps d -> holds_at tail b (bits ++ bs) ->
    exists d1 b1, decode_row dbg d b = Ok (d1, b1) /\ logged (ss_coefs (d_ss d1)) m /\ in_scan ps' d1 /\ same_counts d d1 /\
      (MAX_BLOCKS <= length (ss_coefs (d_ss d1)))%nat /\ holds_at tail b1 bs.
  Proof.
    intros tail ps m bits ps' d b bs MT BT M F I HA. destruct I as [[s ->] [extra [Ps Lp]] Eo Sz]. cbn [set_ss d_ss] in *.
    assert (Lc : (length (concat m) <= MAX_BLOCKS)%nat) by (rewrite (concat_fits _ _ F Bpm); exact Few).
    destruct (mcu_read dbg (set_ss d0 s) sc tail MT BT S0 S1 S2 ts ps m bits ps' M _ _ (ready_same s) F MAX_BLOCKS extra b bs Lc HA) as [blks [b1 [E [V H1]]]].
    unfold decode_row. cbn [set_ss d_scan d_frame d_ss]. rewrite Sc, Fr, Ps, Eo. rewrite E. cbn [bind].
    assert (Lq : length ps' = length ps) by (clear - M; induction M; cbn; auto).
    eexists _, b1. split; [reflexivity|]. cbn [set_ss d_ss ss_coefs]. split; [|split; [|split; [|split]]].
    - intros k q Ek. assert (X : exists blk, nth_error blks k = Some blk /\ q_values blk q).
      { clear - V Ek. revert k Ek. induction V; intros [|k] Ek; cbn [nth_error] in *; try discriminate; [inv Ek; eauto|apply IHV; exact Ek]. }
      destruct X as [blk [X1 X2]]. exists blk. split; [|exact X2]. rewrite nth_error_app1; [exact X1|]. apply nth_error_Some. congruence.
    - constructor; cbn [set_ss d_ss ss_preds ss_eob ss_results]; auto; [eexists; reflexivity|]. exists extra. split; [reflexivity|]. rewrite Lq. exact Lp.
    - split; reflexivity.
    - rewrite app_length, repeat_length. generalize MAX_BLOCKS, (length blks). intros; lia.
    - exact H1.
  Qed.

  Lemma deq_ok : forall x y d, (exists s, d = set_ss d0 s) -> 0 <= x < MW -> 0 <= y < MH -> Forall2 (sized MH) (f_components fr) (ss_results (d_ss d)) ->
    (MAX_BLOCKS <= length (ss_coefs (d_ss d)))%nat ->
    exists ps, dequantize dbg x y d = Ok (set_ss d (set_results (d_ss d) ps)) /\ Forall2 (sized MH) (f_components fr) ps.
  Proof.
    intros x y d [s ->] Hx Hy Sz Lc. unfold dequantize. cbn [set_ss d_frame d_qt d_ss] in *. rewrite Fr.
    destruct (frame_fits fr FG) as [Ft _].
    pose proof (mcu_comps dbg MW MH (d_qt d0) x y (f_components fr) (ss_results s) (ss_coefs s) Ft Sz Hx Hy) as M.
    assert (Lt : (total_blocks (f_components fr) <= length (ss_coefs s))%nat) by (clear - Few Lc; generalize dependent MAX_BLOCKS; intros; lia).
    destruct (dequantize_comps dbg (d_qt d0) x y (f_components fr) (ss_results s) (ss_coefs s)) as [ps|e|p|] eqn:D; [|contradiction|exfalso; apply M; auto|contradiction].
    exists ps. split.
    - destruct Cp as [E|E]; rewrite E; reflexivity.
    - clear - M Sz. revert Sz. generalize dependent (ss_results s). intros res M. induction M; intros Sz; inv Sz; constructor; auto.
      match goal with H : painted _ _ _ _ _ _ _ |- _ => destruct H as [L _] end. unfold sized in *. unfold lenZ in *. rewrite L. assumption.
  Qed.

  (** ** One MCU, with what follows it *)
  Definition zeros : list Z := map (fun _ => 0) ts.
  Hypothesis Lts : (length ts <= 4)%nat.

  Lemma mcu_step : forall tail ps m bits ps' d b bs pre y x rest, marker_tail tail -> bytes tail -> mcu_bits ts ps m bits ps' -> mcu_fits (f_components fr) m ->
    in_scan ps d -> holds_at tail b (bits ++ bs) -> mcu_list (f_mcu fr) = pre ++ (y, x) :: rest -> counters (d_restart d0) (lenZ pre) d ->
    let i := lenZ pre in let r := d_restart d0 in
    (restart_due r N i = true -> exists rest', tail = [255; 0xD0 + (i / r) mod 8] ++ rest') ->
    exists coefs d' b', mcus_read dbg [(y, x)] d b [coefs] d' b' /\ logged coefs m /\ (rest <> [] -> counters r (i + 1) d') /\
      if restart_due r N i then in_scan zeros d' /\ (exists rest', tail = [255; 0xD0 + (i / r) mod 8] ++ rest' /\ b' = mkBiter rest' 0 0)
      else in_scan ps' d' /\ holds_at tail b' bs.
  Proof.
    intros tail ps m bits ps' d b bs pre y x rest MT BT M F I HA E C i r Mk.
    destruct (row_read tail ps m bits ps' d b bs MT BT M F I HA) as [d1 [b1 [ER [Lg [I1 [Sm [Lc H1]]]]]]].
    destruct (in_frame _ _ I1) as [Fr1 [Sc1 [R1 Q1]]]. fold r in R1. fold r i in C.
    assert (C1 : counters (d_restart d1) i d1) by (rewrite R1; intros H; destruct (C H); destruct Sm as [A B]; rewrite A, B; auto).
    destruct (mcu_in _ _ _ _ _ E) as [Hx Hy]. fold MW in Hx. fold MH in Hy.
    assert (A : exists s2 b2, after_mcu dbg x y d1 b1 = Ok (set_ss d1 s2, b2) /\ ss_eob s2 = 0 /\
      if restart_due r N i then ss_preds s2 = [0; 0; 0; 0] /\ (exists rest', tail = [255; 0xD0 + (i / r) mod 8] ++ rest' /\ b2 = mkBiter rest' 0 0)
      else ss_preds s2 = ss_preds (d_ss d1) /\ b2 = b1).
    { destruct (restart_due r N i) eqn:Du.
      - destruct (Mk eq_refl) as [rest' Et].
        assert (FM : first_marker (bi_input b1) (0xD0 + (i / r) mod 8) rest').
        { destruct H1 as [_ [ds [_ [Ei _]]]]. exists (stuff ds), 0%nat. split; [apply no_marker_stuff|]. pose proof (Z.mod_pos_bound (i / r) 8). split; [lia|]. split; [lia|]. rewrite Ei, Et. reflexivity. }
        rewrite <- R1 in FM, Du. destruct (after_due dbg d1 fr b1 pre y x rest rest' Fr1 E C1 Du FM) as [s2 [A1 [A2 A3]]].
        exists s2, (mkBiter rest' 0 0). split; [exact A1|]. split; [exact A3|]. split; [exact A2|]. exists rest'. auto.
      - rewrite <- R1 in Du. destruct (after_not_due dbg d1 fr b1 pre y x rest Fr1 E C1 Du) as [s2 [A1 [A2 A3]]].
        exists s2, b1. split; [exact A1|]. split; [rewrite A3; apply (is_eob _ _ I1)|]. auto. }
    destruct A as [s2 [b2 [EA [Eo2 Al]]]].
    pose proof EA as EA0. apply after_set in EA0. destruct EA0 as [s2' [Es2 [Sc2 Sr2]]].
    assert (Es2' : s2' = s2) by (assert (X : d_ss (set_ss d1 s2) = d_ss (set_ss d1 s2')) by congruence; cbn in X; congruence). subst s2'. clear Es2.
    destruct I1 as [[s1 E1] [extra [Ps Lp]] Eo Sz]. 
    destruct (deq_ok x y (set_ss d1 s2)) as [pl [ED Sz2]].
    { exists s2. rewrite E1. reflexivity. }
    { exact Hx. } { exact Hy. } { cbn [set_ss d_ss]. rewrite Sr2. exact Sz. } { cbn [set_ss d_ss]. rewrite Sc2. exact Lc. }
    cbn [set_ss d_ss] in ED.
    exists (ss_coefs (d_ss d1)), (set_ss d1 (set_results s2 pl)), b2. split; [|split; [exact Lg|split]].
    - econstructor; eauto. constructor.
    - intros NR. pose proof (after_counts dbg d1 b1 fr pre y x rest _ _ Fr1 E NR C1 EA) as C2. cbn [set_ss d_restart] in C2. rewrite R1 in C2. exact C2.
    - assert (IN : forall ps2 extra2, ss_preds s2 = ps2 ++ extra2 -> (length ps2 + length extra2 = 4)%nat -> in_scan ps2 (set_ss d1 (set_results s2 pl))).
      { intros ps2 extra2 Hp Hl. constructor; cbn [set_ss d_ss set_results ss_preds ss_eob ss_results]; auto; [exists (set_results s2 pl); rewrite E1; reflexivity|eauto]. }
      destruct (restart_due r N i).
      + destruct Al as [P2 [rest' [Et Eb]]]. split; [|exists rest'; auto].
        apply (IN zeros (repeat 0 (4 - length ts))); unfold zeros; [|rewrite map_length, repeat_length; lia].
        rewrite P2. clear - Lts. destruct ts as [|a [|b [|c [|e [|f l]]]]]; try reflexivity. cbn in Lts. lia.
      + destruct Al as [P2 ->]. split; [|exact H1]. apply (IN ps' extra); congruence.
  Qed.

  (** ** One restart interval *)
  Let r := d_restart d0.
  Lemma interval_read : forall tail, marker_tail tail -> bytes tail ->
    forall ps ms bits, mcus_bits ts ps ms bits -> forall pre todo rest d b bs, length todo = length ms -> mcu_list (f_mcu fr) = pre ++ todo ++ rest ->
    Forall (mcu_fits (f_components fr)) ms -> in_scan ps d -> (todo ++ rest <> [] -> counters r (lenZ pre) d) -> holds_at tail b (bits ++ bs) ->
    (forall i, lenZ pre <= i < lenZ pre + lenZ todo -> restart_due r N i = true ->
       i = lenZ pre + lenZ todo - 1 /\ exists rest', tail = [255; 0xD0 + (i / r) mod 8] ++ rest') ->
    exists log d' b', mcus_read dbg todo d b log d' b' /\ Forall2 logged log ms /\ (rest <> [] -> counters r (lenZ pre + lenZ todo) d') /\
      let i := lenZ pre + lenZ todo - 1 in
      if (0 <? lenZ todo) && restart_due r N i then in_scan zeros d' /\ (exists rest', tail = [255; 0xD0 + (i / r) mod 8] ++ rest' /\ b' = mkBiter rest' 0 0)
      else (exists ps', in_scan ps' d') /\ holds_at tail b' bs.
  Proof.
    intros tail MT BT ps ms bits M. induction M as [ps|ps m ms b1 b2 ps' Mm M IH]; intros pre todo rest d b bs L E F I C HA Due.
    - destruct todo; [|discriminate]. exists [], d, b. split; [constructor|]. split; [constructor|]. split.
      + intros NR. replace (lenZ pre + lenZ []) with (lenZ pre) by (unfold lenZ; cbn; lia). apply C. exact NR.
      + change (0 <? lenZ (@nil (Z * Z))) with false. cbn [andb]. cbn [app] in HA. eauto.
    - destruct todo as [|[y x] todo]; [discriminate|]. cbn [length] in L. inversion F as [|m0 ms0 F1 F2]; subst m0 ms0. rewrite <- app_assoc in HA.
      cbn [app] in E, C. specialize (C ltac:(discriminate)).
      assert (L1 : lenZ ((y, x) :: todo) = lenZ todo + 1) by (unfold lenZ; cbn [length]; lia). assert (L0 : 0 <= lenZ todo) by (unfold lenZ; lia).
      rewrite L1 in *. set (i := lenZ pre) in *.
      assert (Mk : restart_due r N i = true -> exists rest', tail = [255; 0xD0 + (i / r) mod 8] ++ rest') by (intros D; destruct (Due i ltac:(lia) D); auto).
      destruct (mcu_step tail ps m b1 ps' d b (b2 ++ bs) pre y x (todo ++ rest) MT BT Mm F1 I HA E C Mk) as [coefs [d1 [b' [R1 [Lg [C1 Al]]]]]].
      fold r i in C1, Al. destruct todo as [|t0 todo].
      + (* last MCU of the interval *)
        destruct ms; [|discriminate]. inv M. exists [coefs], d1, b'. split; [exact R1|]. split; [constructor; [exact Lg|constructor]|].
        change (lenZ (@nil (Z * Z))) with 0 in *. split; [exact C1|]. cbv zeta. replace (i + (0 + 1) - 1) with i by lia. change (0 <? 0 + 1) with true. cbn [andb].
        destruct (restart_due r N i); [exact Al|]. destruct Al as [I1 H1]. cbn [app] in H1. eauto.
      + assert (ND : restart_due r N i = false).
        { destruct (restart_due r N i) eqn:D; [|reflexivity]. destruct (Due i ltac:(lia) D) as [Q _]. unfold lenZ in *. cbn [length] in *. lia. }
        rewrite ND in Al. destruct Al as [I1 H1].
        assert (Li : lenZ (pre ++ [(y, x)]) = i + 1) by (unfold i, lenZ; rewrite app_length; cbn [length]; lia).
        destruct (IH (pre ++ [(y, x)]) (t0 :: todo) rest d1 b' bs) as [log [d2 [b3 [R2 [Lg2 [C2 Al2]]]]]]; auto.
        * rewrite <- app_assoc. exact E.
        * intros _. rewrite Li. apply C1. discriminate.
        * intros j Hj D. rewrite Li in *. destruct (Due j ltac:(lia) D) as [Q1 Q2]. split; [lia|exact Q2].
        * rewrite Li in C2, Al2. exists (coefs :: log), d2, b3. split; [apply (reads_app dbg [(y, x)] (t0 :: todo) d b [coefs] d1 b' log d2 b3 R1 R2)|].
          split; [constructor; auto|]. split.
          -- intros NR. replace (i + (lenZ (t0 :: todo) + 1)) with (i + 1 + lenZ (t0 :: todo)) by lia. auto.
          -- cbv zeta in *. replace (i + (lenZ (t0 :: todo) + 1) - 1) with (i + 1 + lenZ (t0 :: todo) - 1) by lia.
             replace (0 <? lenZ (t0 :: todo) + 1) with true by lia. replace (0 <? lenZ (t0 :: todo)) with true in Al2 by (unfold lenZ; cbn [length]; lia). exact Al2.
  Qed.

  Lemma stuff_bytes : forall ds, bytes ds -> bytes (stuff ds).
  Proof.
    intros ds H. unfold bytes, stuff in *. induction H as [|x l Hx H IH]; cbn [flat_map]; [constructor|].
    apply Forall_app. split; [|exact IH]. destruct (x =? 255); repeat first [apply Forall_nil | apply Forall_cons]; unfold is_byte in *; lia.
  Qed.
  Lemma scan_data_bytes : forall n ms data, scan_data ts r n ms data -> 0 <= n < 8 -> bytes data.
  Proof.
    intros n ms data H. induction H as [n ms data Hr [ds [bits [B [-> _]]]]|n ms data rest data' Hr Hl Ne [ds [bits [B [-> _]]]] Sd IH]; intros Hn.
    - apply stuff_bytes; auto.
    - apply Forall_app. split; [apply stuff_bytes; auto|]. apply Forall_app. split; [repeat first [apply Forall_nil | apply Forall_cons]; unfold is_byte; lia|]. apply IH. apply Z.mod_pos_bound. lia.
  Qed.

  (** ** A whole scan *)
  Lemma scan_read : forall tail, marker_tail tail -> bytes tail ->
    forall n ms data, scan_data ts r n ms data -> 0 <= n < 8 -> forall pre todo d, length todo = length ms -> mcu_list (f_mcu fr) = pre ++ todo ->
    Forall (mcu_fits (f_components fr)) ms -> in_scan zeros d -> (todo <> [] -> counters r (lenZ pre) d) ->
    (0 < r -> lenZ pre mod r = 0 /\ n = (lenZ pre / r) mod 8) ->
    exists log d' b', mcus_read dbg todo d (mkBiter (data ++ tail) 0 0) log d' b' /\ Forall2 logged log ms /\
      (exists ps, in_scan ps d') /\ exists ds, bi_input b' = stuff ds ++ tail.
  Proof.
    intros tail MT BT n ms data H. induction H as [n ms data Hr [ds [bits [B [-> [Eb M]]]]]|n ms data rest data' Hr Hl Ne [ds [bits [B [-> [Eb M]]]]] Sd IH];
      intros Hn pre todo d L E F I C P.
    - destruct (carries_holds ds bits tail B Eb) as [pad HA].
      destruct (interval_read tail MT BT _ ms bits M pre todo [] d (mkBiter (stuff ds ++ tail) 0 0) pad L) as [log [d' [b' [R1 [Lg [_ Al]]]]]]; auto.
      + rewrite app_nil_r. exact E.
      + rewrite app_nil_r. exact C.
      + intros i Hi Du. exfalso. assert (LN : N = lenZ pre + lenZ todo) by (unfold N, lenZ; rewrite E, app_length; lia).
        unfold restart_due in Du. apply andb_prop in Du. destruct Du as [Du D3]. apply andb_prop in Du. destruct Du as [D1 D2].
        destruct Hr as [Hr|Hr]; [lia|]. destruct (P ltac:(lia)) as [P1 _]. assert (Lt : lenZ todo <= r) by (unfold lenZ in *; lia).
        apply Z.eqb_eq in D2. apply Z.mod_divide in D2; [|lia]. apply Z.mod_divide in P1; [|lia]. destruct D2 as [a D2]. destruct P1 as [c P1].
        assert (c < a < c + 1) by nia. lia.
      + exists log, d', b'. split; [exact R1|]. split; [exact Lg|].
        assert (ND : restart_due r N (lenZ pre + lenZ todo - 1) = false).
        { assert (LN : N = lenZ pre + lenZ todo) by (unfold N, lenZ; rewrite E, app_length; lia). unfold restart_due. replace (_ + 1 <? N) with false by lia. apply andb_false_r. }
        cbv zeta in Al. rewrite ND, andb_false_r in Al. destruct Al as [I1 [_ [ds' [_ [Ei _]]]]]. split; [exact I1|]. exists ds'. exact Ei.
    - destruct (P Hr) as [P1 P2]. set (tail1 := [255; 0xD0 + n] ++ data' ++ tail).
      assert (MT1 : marker_tail tail1) by (eexists _, _; split; [reflexivity|]; lia).
      assert (Bd : bytes data') by (apply (scan_data_bytes _ _ _ Sd); apply Z.mod_pos_bound; lia).
      assert (BT1 : bytes tail1) by (apply Forall_app; split; [repeat first [apply Forall_nil | apply Forall_cons]; unfold is_byte; lia|apply Forall_app; auto]).
      set (k := length ms). assert (Lk : k = Z.to_nat r) by (unfold k, lenZ in *; lia).
      rewrite app_length in L. fold k in L. pose proof (firstn_skipn k todo) as FS. set (t1 := firstn k todo) in *. set (t2 := skipn k todo) in *.
      assert (L1 : length t1 = k) by (unfold t1; rewrite firstn_length; lia). assert (L2 : length t2 = length rest) by (unfold t2; rewrite skipn_length; lia).
      apply Forall_app in F. destruct F as [F1 F2].
      destruct (carries_holds ds bits tail1 B Eb) as [pad HA].
      assert (E' : mcu_list (f_mcu fr) = pre ++ t1 ++ t2) by (rewrite FS; exact E).
      assert (Nt : t2 <> []) by (destruct t2; [destruct rest; [congruence|discriminate]|discriminate]).
      assert (Lt1 : lenZ t1 = r) by (unfold lenZ; lia).
      assert (LN : N = lenZ pre + r + lenZ t2) by (unfold N; rewrite E'; unfold lenZ in *; rewrite !app_length; lia).
      assert (Lt2 : 0 < lenZ t2) by (unfold lenZ; destruct t2; [congruence|cbn [length]; lia]).
      assert (Dm : (lenZ pre + r - 1) / r = lenZ pre / r /\ (lenZ pre + r - 1 + 1) mod r = 0).
      { apply Z.mod_divide in P1; [|lia]. destruct P1 as [c P1]. rewrite P1. rewrite Z.div_mul by lia. split.
        - replace (c * r + r - 1) with (r - 1 + c * r) by lia. rewrite Z.div_add by lia. rewrite Z.div_small by lia. lia.
        - replace (c * r + r - 1 + 1) with ((c + 1) * r) by lia. apply Z.mod_mul. lia. }
      destruct Dm as [Dm1 Dm2].
      destruct (interval_read tail1 MT1 BT1 _ ms bits M pre t1 t2 d (mkBiter (stuff ds ++ tail1) 0 0) pad) as [log1 [d1 [b1 [R1 [Lg1 [C1 Al]]]]]]; auto.
      + intros _. apply C. intros Q. destruct todo; [unfold t2 in Nt; rewrite skipn_nil in Nt; congruence|discriminate].
      + intros i Hi Du. rewrite Lt1 in *. unfold restart_due in Du. apply andb_prop in Du. destruct Du as [Du D3]. apply andb_prop in Du. destruct Du as [D1 D2].
        apply Z.eqb_eq in D2. pose proof P1 as P1'. apply Z.mod_divide in D2; [|lia]. apply Z.mod_divide in P1'; [|lia]. destruct D2 as [a D2]. destruct P1' as [c P1'].
        assert (Ei : i = lenZ pre + r - 1) by (assert (a = c + 1) by nia; subst a; lia). split; [exact Ei|]. exists (data' ++ tail). rewrite Ei, Dm1, <- P2. reflexivity.
      + rewrite Lt1 in *. cbv zeta in Al.
        assert (Du : restart_due r N (lenZ pre + r - 1) = true).
        { unfold restart_due. rewrite Dm2. replace (0 <? r) with true by lia. change (0 =? 0) with true. cbn [andb]. lia. }
        rewrite Du in Al. replace (0 <? r) with true in Al by lia. cbn [andb] in Al. destruct Al as [I1 [rest' [Et Eb1]]].
        unfold tail1 in Et. assert (Er : rest' = data' ++ tail) by (cbn [app] in Et; congruence). subst rest'.
        assert (Lp1 : lenZ (pre ++ t1) = lenZ pre + r) by (unfold lenZ in *; rewrite app_length; lia).
        destruct (IH ltac:(apply Z.mod_pos_bound; lia) (pre ++ t1) t2 d1) as [log2 [d2 [b2 [R2 [Lg2 [I2 Ei]]]]]]; auto.
        * rewrite <- app_assoc. exact E'.
        * intros _. rewrite Lp1. apply C1. exact Nt.
        * intros _. rewrite Lp1. apply Z.mod_divide in P1; [|lia]. destruct P1 as [c P1]. rewrite P1 in *. replace (c * r + r) with ((c + 1) * r) by lia.
          rewrite Z.div_mul in * by lia. split; [apply Z.mod_mul; lia|]. rewrite P2. apply Zplus_mod_idemp_l.
        * exists (log1 ++ log2), d2, b2. split; [|split; [apply Forall2_app; auto|split; [exact I2|exact Ei]]].
          rewrite <- FS. replace ((stuff ds ++ [255; 208 + n] ++ data') ++ tail) with (stuff ds ++ tail1) by (unfold tail1; rewrite <- !app_assoc; reflexivity).
          rewrite Eb1 in R1. apply (reads_app _ _ _ _ _ _ _ _ _ _ _ R1 R2).
  Qed.
End Scan.
