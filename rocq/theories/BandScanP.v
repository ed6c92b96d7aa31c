(** Reading a scan of a band with runs of ended blocks (C58): the MCUs read are the MCUs written. *)
From Verif Require Import Base Tactics SpecBits SpecReader SpecHuffman SpecBlock SpecTables Biterator Readers ReadersP Huffman HuffmanP3 Marker SpecMarker MarkerP Types Idct IdctP Parsers Decode SpecScan BlockP SpecPlane PlaneP SegmentsP SafeP InvP ScanP RestartP EncodeP SpecFrame SpecSegments ParsersP FileP PlacedP SpecBand BandP.

(** ** One component of an MCU *)
Lemma chain_pred : forall w pred ks qs pred', dc_chain w pred ks qs pred' ->
  pred' = (if lo w =? 0 then match ks with [] => pred | _ => int16 (pred + sum_diffs ks) end else pred).
Proof.
  intros w pred ks qs pred' C. induction C as [pred|pred k ks q qs pred' A D C IH]; [destruct (lo w =? 0); reflexivity|].
  rewrite IH, D. destruct (lo w =? 0); auto. unfold sum_diffs. cbn [map fold_right]. fold (sum_diffs ks).
  destruct ks as [|k2 ks2]; [unfold sum_diffs; cbn; rewrite Z.add_0_r; reflexivity|]. rewrite int16_int16. f_equal. ring.
Qed.
Lemma chain_values : forall w low pred ks qs pred', dc_chain w pred ks qs pred' -> forall blks, band_values w low blks pred ks ->
  Forall2 (band_q_values w low) blks qs.
Proof.
  intros w low pred ks qs pred' C. induction C as [pred|pred k ks q qs pred' A D C IH]; intros blks V; inversion V as [|blk blks' p0 k0 ks0 dc L J V']; subst; constructor; auto.
  - split; auto. intros j Hj. rewrite J by auto. rewrite A, D. unfold dc. destruct (lo w =? 0); reflexivity.
  - apply IH. rewrite D. exact V'.
Qed.
Lemma chain_length : forall w pred ks qs pred', dc_chain w pred ks qs pred' -> length qs = length ks.
Proof. intros w pred ks qs pred' C. induction C; cbn [length]; auto. Qed.

Lemma comp_band_read : forall dbg t dct act sc w tail, built dbg t dct act -> marker_tail tail -> bytes tail -> scan_band sc w -> 0 <= s_low sc ->
  forall pred run qs bits pred' run', comp_band w t pred run qs bits pred' run' -> forall b bs, holds_at tail b (bits ++ bs) ->
  exists blks b', decode_blocks dbg sc dct act (length qs) b run pred = Ok (blks, b', run', pred') /\
    Forall2 (band_q_values w (s_low sc)) blks qs /\ holds_at tail b' bs.
Proof.
  intros dbg t dct act sc w tail Bu MT BT W Hl pred run qs bits pred' run' [ks [F [B C]]] b bs HA.
  destruct (band_decodes dbg t dct act sc w tail Bu MT BT W Hl run ks bits run' B b bs pred F HA) as [blks [b' [p [E [P [V R]]]]]].
  exists blks, b'. rewrite (chain_length _ _ _ _ _ C), E. rewrite (chain_pred _ _ _ _ _ C), P.
  split; auto. split; auto. eapply chain_values; eauto.
Qed.

(** ** One MCU *)
Lemma mcu_band_read : forall dbg d sc w tail, marker_tail tail -> bytes tail -> scan_band sc w -> 0 <= s_low sc ->
  forall ts ps run m bits ps' run', mcu_band w ts ps run m bits ps' run' -> forall cs hs, comps_ready dbg d cs hs ts -> mcu_fits cs m ->
  forall avail extra b bs, (length (concat m) <= avail)%nat -> holds_at tail b (bits ++ bs) ->
  exists blks b', decode_comps dbg d sc cs hs (ps ++ extra) avail b run = Ok (blks, ps' ++ extra, b', run') /\
    Forall2 (band_q_values w (s_low sc)) blks (concat m) /\ holds_at tail b' bs.
Proof.
  intros dbg d sc w tail MT BT W Hl ts ps run m bits ps' run' M.
  induction M as [run|t ts p ps run qs m b1 b2 p' run1 ps' run' C M IH]; intros cs hs R F avail extra b bs Av HA.
  - inv R. exists [], b. cbn. auto.
  - inversion R as [|c cs' h hs' t' ts' [dct [act [I1 [I2 Bu]]]] R']; subst. inversion F as [|c0 qs0 cs0 m0 Fl F']; subst.
    cbn [concat] in Av. rewrite app_length in Av. rewrite <- app_assoc in HA.
    destruct (comp_band_read dbg t dct act sc w tail Bu MT BT W Hl _ _ _ _ _ _ C b (b2 ++ bs) HA) as [blks1 [b' [E1 [V1 H1]]]].
    destruct (IH cs' hs' R' F' (avail - length qs)%nat extra b' bs ltac:(lia) H1) as [blks2 [b'' [E2 [V2 H2]]]].
    exists (blks1 ++ blks2), b''. cbn [app decode_comps]. rewrite I1. cbn [bind]. rewrite I2. cbn [bind].
    rewrite <- Fl. replace (Nat.min (length qs) avail) with (length qs) by lia. rewrite E1. cbn [bind]. rewrite E2. cbn [bind concat].
    split; [reflexivity|]. split; [apply Forall2_app; auto|auto].
Qed.

(** ** States inside a scan *)
Section Scan.
  Variables (dbg : bool) (d0 : decoder) (fr : frame) (sc : scan) (ts : list tables) (w : band_of).
  Let MW := dim_w (f_mcu fr).
  Let MH := dim_h (f_mcu fr).
  Let N := lenZ (mcu_list (f_mcu fr)).
  Hypothesis Fr : d_frame d0 = Some fr.
  Hypothesis Sc : d_scan d0 = Some sc.
  Hypothesis W : scan_band sc w.
  Hypothesis Hlow : 0 <= s_low sc.
  Hypothesis Rd : comps_ready dbg d0 (f_components fr) (s_headers sc) ts.
  Hypothesis FG : frame_good fr.
  Hypothesis Few : (total_blocks (f_components fr) <= MAX_BLOCKS)%nat.
  Hypothesis Bpm : Forall (fun c => Z.to_nat (c_blocks_per_mcu c) = blocks_in c) (f_components fr).
  Hypothesis Qt : Forall (fun c => exists qt, index (d_qt d0) (c_tq c) = Ok (Some qt)) (f_components fr).
  Hypothesis Cp : coding_process fr = Ok Baseline \/ coding_process fr = Ok Sequential.
  Hypothesis Rp : 0 <= d_restart d0.

  Record in_band (ps : list Z) (run : Z) (d : decoder) : Prop := mkInB {
    ib_set : exists s, d = set_ss d0 s;
    ib_preds : exists extra, ss_preds (d_ss d) = ps ++ extra /\ (length ps + length extra = 4)%nat;
    ib_eob : ss_eob (d_ss d) = run;
    ib_sized : Forall2 (sized MH) (f_components fr) (ss_results (d_ss d));
  }.

  Lemma in_frame : forall ps run d, in_band ps run d -> d_frame d = Some fr /\ d_scan d = Some sc /\ d_restart d = d_restart d0 /\ d_qt d = d_qt d0.
  Proof. intros ps run d [[s ->] _ _ _]. cbn. auto. Qed.

  Lemma ready_same : forall s, comps_ready dbg (set_ss d0 s) (f_components fr) (s_headers sc) ts.
  Proof. intros s. apply ready_set. exact Rd. Qed.

  Lemma concat_fits : forall cs m, mcu_fits cs m -> Forall (fun c => Z.to_nat (c_blocks_per_mcu c) = blocks_in c) cs -> length (concat m) = total_blocks cs.
  Proof.
    intros cs m F. induction F as [|c qs cs m L F IH]; intros B; [reflexivity|]. inv B. cbn [concat total_blocks fold_right]. rewrite app_length, IH by auto.
    fold (total_blocks cs). lia.
  Qed.

  Lemma row_band_read : forall tail ps run m bits ps' run' d b bs, marker_tail tail -> bytes tail -> mcu_band w ts ps run m bits ps' run' -> mcu_fits (f_components fr) m ->
    in_band ps run d -> holds_at tail b (bits ++ bs) ->
    exists d1 b1, decode_row dbg d b = Ok (d1, b1) /\ band_logged w (s_low sc) (ss_coefs (d_ss d1)) m /\ in_band ps' run' d1 /\ same_counts d d1 /\
      (MAX_BLOCKS <= length (ss_coefs (d_ss d1)))%nat /\ holds_at tail b1 bs.
  Proof.
    intros tail ps run m bits ps' run' d b bs MT BT M F I HA. destruct I as [[s ->] [extra [Ps Lp]] Eo Sz]. cbn [set_ss d_ss] in *.
    assert (Lc : (length (concat m) <= MAX_BLOCKS)%nat) by (rewrite (concat_fits _ _ F Bpm); exact Few).
    destruct (mcu_band_read dbg (set_ss d0 s) sc w tail MT BT W Hlow ts ps run m bits ps' run' M _ _ (ready_same s) F MAX_BLOCKS extra b bs Lc HA) as [blks [b1 [E [V H1]]]].
    unfold decode_row. cbn [set_ss d_scan d_frame d_ss]. rewrite Sc, Fr, Ps, Eo. rewrite E. cbn [bind].
    assert (Lq : length ps' = length ps) by (clear - M; induction M; cbn; auto).
    eexists _, b1. split; [reflexivity|]. cbn [set_ss d_ss ss_coefs]. split; [|split; [|split; [|split]]].
    - intros k q Ek. assert (X : exists blk, nth_error blks k = Some blk /\ band_q_values w (s_low sc) blk q).
      { clear - V Ek. revert k Ek. induction V; intros [|k] Ek; cbn [nth_error] in *; try discriminate; [inv Ek; eauto|apply IHV; exact Ek]. }
      destruct X as [blk [X1 X2]]. exists blk. split; [|exact X2]. rewrite nth_error_app1; [exact X1|]. apply nth_error_Some. congruence.
    - constructor; cbn [set_ss d_ss ss_preds ss_eob ss_results]; auto; [eexists; reflexivity|]. exists extra. split; [reflexivity|]. rewrite Lq. exact Lp.
    - split; reflexivity.
    - rewrite app_length, repeat_length. generalize MAX_BLOCKS, (length blks). intros; lia.
    - exact H1.
  Qed.

  Lemma deq_ok : forall x y d, (exists s, d = set_ss d0 s) -> 0 <= x < MW -> 0 <= y < MH -> Forall2 (sized MH) (f_components fr) (ss_results (d_ss d)) ->
    (MAX_BLOCKS <= length (ss_coefs (d_ss d)))%nat ->
    exists ps, dequantize dbg x y d = Ok (set_ss d (set_results (d_ss d) ps)) /\ Forall2 (sized MH) (f_components fr) ps.
  Proof.
    intros x y d [s ->] Hx Hy Sz Lc. unfold dequantize. cbn [set_ss d_frame d_qt d_ss] in *. rewrite Fr.
    destruct (frame_fits fr FG) as [Ft _].
    pose proof (mcu_comps dbg MW MH (d_qt d0) x y (f_components fr) (ss_results s) (ss_coefs s) Ft Sz Hx Hy) as M.
    assert (Lt : (total_blocks (f_components fr) <= length (ss_coefs s))%nat) by (clear - Few Lc; generalize dependent MAX_BLOCKS; intros; lia).
    destruct (dequantize_comps dbg (d_qt d0) x y (f_components fr) (ss_results s) (ss_coefs s)) as [ps|e|p|] eqn:D; [|contradiction|exfalso; apply M; auto|contradiction].
    exists ps. split.
    - destruct Cp as [E|E]; rewrite E; reflexivity.
    - clear - M Sz. revert Sz. generalize dependent (ss_results s). intros res M. induction M; intros Sz; inv Sz; constructor; auto.
      match goal with H : painted _ _ _ _ _ _ _ |- _ => destruct H as [L _] end. unfold sized in *. unfold lenZ in *. rewrite L. assumption.
  Qed.

  (** ** One MCU, with what follows it *)
  Definition zeros : list Z := map (fun _ => 0) ts.
  Hypothesis Lts : (length ts <= 4)%nat.

  Lemma band_step : forall tail ps run m bits ps' run' d b bs pre y x rest, marker_tail tail -> bytes tail -> mcu_band w ts ps run m bits ps' run' -> mcu_fits (f_components fr) m ->
    in_band ps run d -> holds_at tail b (bits ++ bs) -> mcu_list (f_mcu fr) = pre ++ (y, x) :: rest -> counters (d_restart d0) (lenZ pre) d ->
    let i := lenZ pre in let r := d_restart d0 in
    (restart_due r N i = true -> exists rest', tail = [255; 0xD0 + (i / r) mod 8] ++ rest') ->
    exists coefs d' b', mcus_read dbg [(y, x)] d b [coefs] d' b' /\ band_logged w (s_low sc) coefs m /\ (rest <> [] -> counters r (i + 1) d') /\
      if restart_due r N i then in_band zeros 0 d' /\ (exists rest', tail = [255; 0xD0 + (i / r) mod 8] ++ rest' /\ b' = mkBiter rest' 0 0)
      else in_band ps' run' d' /\ holds_at tail b' bs.
  Proof.
    intros tail ps run m bits ps' run' d b bs pre y x rest MT BT M F I HA E C i r Mk.
    destruct (row_band_read tail ps run m bits ps' run' d b bs MT BT M F I HA) as [d1 [b1 [ER [Lg [I1 [Sm [Lc H1]]]]]]].
    destruct (in_frame _ _ _ I1) as [Fr1 [Sc1 [R1 Q1]]]. fold r in R1. fold r i in C.
    assert (C1 : counters (d_restart d1) i d1) by (rewrite R1; intros H; destruct (C H); destruct Sm as [A B]; rewrite A, B; auto).
    destruct (mcu_in _ _ _ _ _ E) as [Hx Hy]. fold MW in Hx. fold MH in Hy.
    assert (A : exists s2 b2, after_mcu dbg x y d1 b1 = Ok (set_ss d1 s2, b2) /\ ss_eob s2 = (if restart_due r N i then 0 else run') /\
      if restart_due r N i then ss_preds s2 = [0; 0; 0; 0] /\ (exists rest', tail = [255; 0xD0 + (i / r) mod 8] ++ rest' /\ b2 = mkBiter rest' 0 0)
      else ss_preds s2 = ss_preds (d_ss d1) /\ b2 = b1).
    { destruct (restart_due r N i) eqn:Du.
      - destruct (Mk eq_refl) as [rest' Et].
        assert (FM : first_marker (bi_input b1) (0xD0 + (i / r) mod 8) rest').
        { destruct H1 as [_ [ds [_ [Ei _]]]]. exists (stuff ds), 0%nat. split; [apply no_marker_stuff|]. pose proof (Z.mod_pos_bound (i / r) 8). split; [lia|]. split; [lia|]. rewrite Ei, Et. reflexivity. }
        rewrite <- R1 in FM, Du. destruct (after_due dbg d1 fr b1 pre y x rest rest' Fr1 E C1 Du FM) as [s2 [A1 [A2 A3]]].
        exists s2, (mkBiter rest' 0 0). split; [exact A1|]. split; [exact A3|]. split; [exact A2|]. exists rest'. auto.
      - rewrite <- R1 in Du. destruct (after_not_due dbg d1 fr b1 pre y x rest Fr1 E C1 Du) as [s2 [A1 [A2 A3]]].
        exists s2, b1. split; [exact A1|]. split; [rewrite A3; apply (ib_eob _ _ _ I1)|]. auto. }
    destruct A as [s2 [b2 [EA [Eo2 Al]]]].
    pose proof EA as EA0. apply after_set in EA0. destruct EA0 as [s2' [Es2 [Sc2 Sr2]]].
    assert (Es2' : s2' = s2) by (assert (X : d_ss (set_ss d1 s2) = d_ss (set_ss d1 s2')) by congruence; cbn in X; congruence). subst s2'. clear Es2.
    destruct I1 as [[s1 E1] [extra [Ps Lp]] Eo Sz]. 
    destruct (deq_ok x y (set_ss d1 s2)) as [pl [ED Sz2]].
    { exists s2. rewrite E1. reflexivity. }
    { exact Hx. } { exact Hy. } { cbn [set_ss d_ss]. rewrite Sr2. exact Sz. } { cbn [set_ss d_ss]. rewrite Sc2. exact Lc. }
    cbn [set_ss d_ss] in ED.
    exists (ss_coefs (d_ss d1)), (set_ss d1 (set_results s2 pl)), b2. split; [|split; [exact Lg|split]].
    - econstructor; eauto. constructor.
    - intros NR. pose proof (after_counts dbg d1 b1 fr pre y x rest _ _ Fr1 E NR C1 EA) as C2. cbn [set_ss d_restart] in C2. rewrite R1 in C2. exact C2.
    - assert (IN : forall ps2 extra2, ss_preds s2 = ps2 ++ extra2 -> (length ps2 + length extra2 = 4)%nat -> in_band ps2 (ss_eob s2) (set_ss d1 (set_results s2 pl))).
      { intros ps2 extra2 Hp Hl. constructor; cbn [set_ss d_ss set_results ss_preds ss_eob ss_results]; auto; [exists (set_results s2 pl); rewrite E1; reflexivity|eauto]. }
      destruct (restart_due r N i); rewrite Eo2 in IN.
      + destruct Al as [P2 [rest' [Et Eb]]]. split; [|exists rest'; auto].
        apply (IN zeros (repeat 0 (4 - length ts))); unfold zeros; [|rewrite map_length, repeat_length; lia].
        rewrite P2. clear - Lts. destruct ts as [|a [|b [|c [|e [|f l]]]]]; try reflexivity. cbn in Lts. lia.
      + destruct Al as [P2 ->]. split; [|exact H1]. apply (IN ps' extra); congruence.
  Qed.

  (** ** One restart interval *)
  Let r := d_restart d0.
  Lemma interval_band_read : forall tail, marker_tail tail -> bytes tail ->
    forall ps run ms bits, mcus_band w ts ps run ms bits -> forall pre todo rest d b bs, length todo = length ms -> mcu_list (f_mcu fr) = pre ++ todo ++ rest ->
    Forall (mcu_fits (f_components fr)) ms -> in_band ps run d -> (todo ++ rest <> [] -> counters r (lenZ pre) d) -> holds_at tail b (bits ++ bs) ->
    (forall i, lenZ pre <= i < lenZ pre + lenZ todo -> restart_due r N i = true ->
       i = lenZ pre + lenZ todo - 1 /\ exists rest', tail = [255; 0xD0 + (i / r) mod 8] ++ rest') ->
    exists log d' b', mcus_read dbg todo d b log d' b' /\ Forall2 (band_logged w (s_low sc)) log ms /\ (rest <> [] -> counters r (lenZ pre + lenZ todo) d') /\
      let i := lenZ pre + lenZ todo - 1 in
      if (0 <? lenZ todo) && restart_due r N i then in_band zeros 0 d' /\ (exists rest', tail = [255; 0xD0 + (i / r) mod 8] ++ rest' /\ b' = mkBiter rest' 0 0)
      else (exists ps' run', in_band ps' run' d') /\ holds_at tail b' bs.
  Proof.
    intros tail MT BT ps run ms bits M. induction M as [ps run|ps run m ms b1 b2 ps' run' Mm M IH]; intros pre todo rest d b bs L E F I C HA Due.
    - destruct todo; [|discriminate]. exists [], d, b. split; [constructor|]. split; [constructor|]. split.
      + intros NR. replace (lenZ pre + lenZ []) with (lenZ pre) by (unfold lenZ; cbn; lia). apply C. exact NR.
      + change (0 <? lenZ (@nil (Z * Z))) with false. cbn [andb]. cbn [app] in HA. eauto.
    - destruct todo as [|[y x] todo]; [discriminate|]. cbn [length] in L. inversion F as [|m0 ms0 F1 F2]; subst m0 ms0. rewrite <- app_assoc in HA.
      cbn [app] in E, C. specialize (C ltac:(discriminate)).
      assert (L1 : lenZ ((y, x) :: todo) = lenZ todo + 1) by (unfold lenZ; cbn [length]; lia). assert (L0 : 0 <= lenZ todo) by (unfold lenZ; lia).
      rewrite L1 in *. set (i := lenZ pre) in *.
      assert (Mk : restart_due r N i = true -> exists rest', tail = [255; 0xD0 + (i / r) mod 8] ++ rest') by (intros D; destruct (Due i ltac:(lia) D); auto).
      destruct (band_step tail ps run m b1 ps' run' d b (b2 ++ bs) pre y x (todo ++ rest) MT BT Mm F1 I HA E C Mk) as [coefs [d1 [b' [R1 [Lg [C1 Al]]]]]].
      fold r i in C1, Al. destruct todo as [|t0 todo].
      + (* last MCU of the interval *)
        destruct ms; [|discriminate]. inv M. exists [coefs], d1, b'. split; [exact R1|]. split; [constructor; [exact Lg|constructor]|].
        change (lenZ (@nil (Z * Z))) with 0 in *. split; [exact C1|]. cbv zeta. replace (i + (0 + 1) - 1) with i by lia. change (0 <? 0 + 1) with true. cbn [andb].
        destruct (restart_due r N i); [exact Al|]. destruct Al as [I1 H1]. cbn [app] in H1. eauto.
      + assert (ND : restart_due r N i = false).
        { destruct (restart_due r N i) eqn:D; [|reflexivity]. destruct (Due i ltac:(lia) D) as [Q _]. unfold lenZ in *. cbn [length] in *. lia. }
        rewrite ND in Al. destruct Al as [I1 H1].
        assert (Li : lenZ (pre ++ [(y, x)]) = i + 1) by (unfold i, lenZ; rewrite app_length; cbn [length]; lia).
        destruct (IH (pre ++ [(y, x)]) (t0 :: todo) rest d1 b' bs) as [log [d2 [b3 [R2 [Lg2 [C2 Al2]]]]]]; auto.
        * rewrite <- app_assoc. exact E.
        * intros _. rewrite Li. apply C1. discriminate.
        * intros j Hj D. rewrite Li in *. destruct (Due j ltac:(lia) D) as [Q1 Q2]. split; [lia|exact Q2].
        * rewrite Li in C2, Al2. exists (coefs :: log), d2, b3. split; [apply (reads_app dbg [(y, x)] (t0 :: todo) d b [coefs] d1 b' log d2 b3 R1 R2)|].
          split; [constructor; auto|]. split.
          -- intros NR. replace (i + (lenZ (t0 :: todo) + 1)) with (i + 1 + lenZ (t0 :: todo)) by lia. auto.
          -- cbv zeta in *. replace (i + (lenZ (t0 :: todo) + 1) - 1) with (i + 1 + lenZ (t0 :: todo) - 1) by lia.
             replace (0 <? lenZ (t0 :: todo) + 1) with true by lia. replace (0 <? lenZ (t0 :: todo)) with true in Al2 by (unfold lenZ; cbn [length]; lia). exact Al2.
  Qed.

  Lemma stuff_bytes : forall ds, bytes ds -> bytes (stuff ds).
  Proof.
    intros ds H. unfold bytes, stuff in *. induction H as [|x l Hx H IH]; cbn [flat_map]; [constructor|].
    apply Forall_app. split; [|exact IH]. destruct (x =? 255); repeat first [apply Forall_nil | apply Forall_cons]; unfold is_byte in *; lia.
  Qed.
  Lemma scan_band_bytes : forall n ms data, scan_band_data w ts r n ms data -> 0 <= n < 8 -> bytes data.
  Proof.
    intros n ms data H. induction H as [n ms data Hr [ds [bits [B [-> _]]]]|n ms data rest data' Hr Hl Ne [ds [bits [B [-> _]]]] Sd IH]; intros Hn.
    - apply stuff_bytes; auto.
    - apply Forall_app. split; [apply stuff_bytes; auto|]. apply Forall_app. split; [repeat first [apply Forall_nil | apply Forall_cons]; unfold is_byte; lia|]. apply IH. apply Z.mod_pos_bound. lia.
  Qed.

  (** ** A whole scan *)
  Lemma scan_band_read : forall tail, marker_tail tail -> bytes tail ->
    forall n ms data, scan_band_data w ts r n ms data -> 0 <= n < 8 -> forall pre todo d, length todo = length ms -> mcu_list (f_mcu fr) = pre ++ todo ->
    Forall (mcu_fits (f_components fr)) ms -> in_band zeros 0 d -> (todo <> [] -> counters r (lenZ pre) d) ->
    (0 < r -> lenZ pre mod r = 0 /\ n = (lenZ pre / r) mod 8) ->
    exists log d' b', mcus_read dbg todo d (mkBiter (data ++ tail) 0 0) log d' b' /\ Forall2 (band_logged w (s_low sc)) log ms /\
      (exists ps run, in_band ps run d') /\ exists ds, bi_input b' = stuff ds ++ tail.
  Proof.
    intros tail MT BT n ms data H. induction H as [n ms data Hr [ds [bits [B [-> [Eb M]]]]]|n ms data rest data' Hr Hl Ne [ds [bits [B [-> [Eb M]]]]] Sd IH];
      intros Hn pre todo d L E F I C P.
    - destruct (carries_holds ds bits tail B Eb) as [pad HA].
      destruct (interval_band_read tail MT BT _ _ ms bits M pre todo [] d (mkBiter (stuff ds ++ tail) 0 0) pad L) as [log [d' [b' [R1 [Lg [_ Al]]]]]]; auto.
      + rewrite app_nil_r. exact E.
      + rewrite app_nil_r. exact C.
      + intros i Hi Du. exfalso. assert (LN : N = lenZ pre + lenZ todo) by (unfold N, lenZ; rewrite E, app_length; lia).
        unfold restart_due in Du. apply andb_prop in Du. destruct Du as [Du D3]. apply andb_prop in Du. destruct Du as [D1 D2].
        destruct Hr as [Hr|Hr]; [lia|]. destruct (P ltac:(lia)) as [P1 _]. assert (Lt : lenZ todo <= r) by (unfold lenZ in *; lia).
        apply Z.eqb_eq in D2. apply Z.mod_divide in D2; [|lia]. apply Z.mod_divide in P1; [|lia]. destruct D2 as [a D2]. destruct P1 as [c P1].
        assert (c < a < c + 1) by nia. lia.
      + exists log, d', b'. split; [exact R1|]. split; [exact Lg|].
        assert (ND : restart_due r N (lenZ pre + lenZ todo - 1) = false).
        { assert (LN : N = lenZ pre + lenZ todo) by (unfold N, lenZ; rewrite E, app_length; lia). unfold restart_due. replace (_ + 1 <? N) with false by lia. apply andb_false_r. }
        cbv zeta in Al. rewrite ND, andb_false_r in Al. destruct Al as [I1 [_ [ds' [_ [Ei _]]]]]. split; [exact I1|]. exists ds'. exact Ei.
    - destruct (P Hr) as [P1 P2]. set (tail1 := [255; 0xD0 + n] ++ data' ++ tail).
      assert (MT1 : marker_tail tail1) by (eexists _, _; split; [reflexivity|]; lia).
      assert (Bd : bytes data') by (apply (scan_band_bytes _ _ _ Sd); apply Z.mod_pos_bound; lia).
      assert (BT1 : bytes tail1) by (apply Forall_app; split; [repeat first [apply Forall_nil | apply Forall_cons]; unfold is_byte; lia|apply Forall_app; auto]).
      set (k := length ms). assert (Lk : k = Z.to_nat r) by (unfold k, lenZ in *; lia).
      rewrite app_length in L. fold k in L. pose proof (firstn_skipn k todo) as FS. set (t1 := firstn k todo) in *. set (t2 := skipn k todo) in *.
      assert (L1 : length t1 = k) by (unfold t1; rewrite firstn_length; lia). assert (L2 : length t2 = length rest) by (unfold t2; rewrite skipn_length; lia).
      apply Forall_app in F. destruct F as [F1 F2].
      destruct (carries_holds ds bits tail1 B Eb) as [pad HA].
      assert (E' : mcu_list (f_mcu fr) = pre ++ t1 ++ t2) by (rewrite FS; exact E).
      assert (Nt : t2 <> []) by (destruct t2; [destruct rest; [congruence|discriminate]|discriminate]).
      assert (Lt1 : lenZ t1 = r) by (unfold lenZ; lia).
      assert (LN : N = lenZ pre + r + lenZ t2) by (unfold N; rewrite E'; unfold lenZ in *; rewrite !app_length; lia).
      assert (Lt2 : 0 < lenZ t2) by (unfold lenZ; destruct t2; [congruence|cbn [length]; lia]).
      assert (Dm : (lenZ pre + r - 1) / r = lenZ pre / r /\ (lenZ pre + r - 1 + 1) mod r = 0).
      { apply Z.mod_divide in P1; [|lia]. destruct P1 as [c P1]. rewrite P1. rewrite Z.div_mul by lia. split.
        - replace (c * r + r - 1) with (r - 1 + c * r) by lia. rewrite Z.div_add by lia. rewrite Z.div_small by lia. lia.
        - replace (c * r + r - 1 + 1) with ((c + 1) * r) by lia. apply Z.mod_mul. lia. }
      destruct Dm as [Dm1 Dm2].
      destruct (interval_band_read tail1 MT1 BT1 _ _ ms bits M pre t1 t2 d (mkBiter (stuff ds ++ tail1) 0 0) pad) as [log1 [d1 [b1 [R1 [Lg1 [C1 Al]]]]]]; auto.
      + intros _. apply C. intros Q. destruct todo; [unfold t2 in Nt; rewrite skipn_nil in Nt; congruence|discriminate].
      + intros i Hi Du. rewrite Lt1 in *. unfold restart_due in Du. apply andb_prop in Du. destruct Du as [Du D3]. apply andb_prop in Du. destruct Du as [D1 D2].
        apply Z.eqb_eq in D2. pose proof P1 as P1'. apply Z.mod_divide in D2; [|lia]. apply Z.mod_divide in P1'; [|lia]. destruct D2 as [a D2]. destruct P1' as [c P1'].
        assert (Ei : i = lenZ pre + r - 1) by (assert (a = c + 1) by nia; subst a; lia). split; [exact Ei|]. exists (data' ++ tail). rewrite Ei, Dm1, <- P2. reflexivity.
      + rewrite Lt1 in *. cbv zeta in Al.
        assert (Du : restart_due r N (lenZ pre + r - 1) = true).
        { unfold restart_due. rewrite Dm2. replace (0 <? r) with true by lia. change (0 =? 0) with true. cbn [andb]. lia. }
        rewrite Du in Al. replace (0 <? r) with true in Al by lia. cbn [andb] in Al. destruct Al as [I1 [rest' [Et Eb1]]].
        unfold tail1 in Et. assert (Er : rest' = data' ++ tail) by (cbn [app] in Et; congruence). subst rest'.
        assert (Lp1 : lenZ (pre ++ t1) = lenZ pre + r) by (unfold lenZ in *; rewrite app_length; lia).
        destruct (IH ltac:(apply Z.mod_pos_bound; lia) (pre ++ t1) t2 d1) as [log2 [d2 [b2 [R2 [Lg2 [I2 Ei]]]]]]; auto.
        * rewrite <- app_assoc. exact E'.
        * intros _. rewrite Lp1. apply C1. exact Nt.
        * intros _. rewrite Lp1. apply Z.mod_divide in P1; [|lia]. destruct P1 as [c P1]. rewrite P1 in *. replace (c * r + r) with ((c + 1) * r) by lia.
          rewrite Z.div_mul in * by lia. split; [apply Z.mod_mul; lia|]. rewrite P2. apply Zplus_mod_idemp_l.
        * exists (log1 ++ log2), d2, b2. split; [|split; [apply Forall2_app; auto|split; [exact I2|exact Ei]]].
          rewrite <- FS. replace ((stuff ds ++ [255; 208 + n] ++ data') ++ tail) with (stuff ds ++ tail1) by (unfold tail1; rewrite <- !app_assoc; reflexivity).
          rewrite Eb1 in R1. apply (reads_app _ _ _ _ _ _ _ _ _ _ _ R1 R2).
  Qed.
End Scan.

(** ** From the headers *)
Lemma band_scan_reads : forall dbg d0 m pr lines samples cs extra rest fr sc w ts ms data tail d,
  header_ok lines samples cs -> lenZ cs <= 4 -> (blocks_before cs (length cs) <= 10)%nat -> 0 <= m <= 1 ->
  sof dbg m (sof_bytes pr lines samples cs ++ extra) = Ok (fr, rest) ->
  d_frame d0 = Some fr -> d_scan d0 = Some sc ->
  lo w = s_start sc /\ hi w = Z.min (s_end sc) 63 /\ 0 <= lo w /\ band_first w < hi w -> 0 <= s_low sc ->
  comps_ready dbg d0 (f_components fr) (s_headers sc) ts -> Forall (fun c => exists qt, index (d_qt d0) (cs_tq c) = Ok (Some qt)) cs ->
  0 <= d_restart d0 -> scan_init true d0 = Ok d -> marker_tail tail -> bytes tail ->
  Forall (mcu_shape cs) ms -> lenZ ms = mcus lines (largest (map cs_v cs)) * mcus samples (largest (map cs_h cs)) ->
  scan_band_data w ts (d_restart d0) 0 ms data ->
  exists log d' b', mcus_read dbg (mcu_list (f_mcu fr)) d (mkBiter (data ++ tail) 0 0) log d' b' /\
    Forall2 (band_logged w (s_low sc)) log ms /\ exists ds, bi_input b' = stuff ds ++ tail.
Proof.
  intros dbg d0 fmk pr lines samples cs extra rest fr sc w ts ms data tail d HO L4 Few Fm SF Fr Sc Wb Hl RD Qts R0 SI MT BT Sh Lm SD.
  assert (Ef : fr = frame_of fmk pr lines samples cs).
  { pose proof HO as [H1 H2 H3 H4 H5 H6]. rewrite ParsersP.sof_ok in SF by auto. congruence. }
  assert (FG : frame_good fr) by (exists fmk, pr, lines, samples, cs; split; [exact Ef|exact HO]).
  destruct (frame_fits fr FG) as [_ [W0 [H0 _]]].
  assert (Lts : length ts = length cs).
  { assert (G : length ts = length (f_components fr)) by (clear - RD; induction RD; cbn; auto). rewrite G, Ef. unfold frame_of. cbn [f_components]. apply map_length. }
  assert (X : exists log d' b', mcus_read dbg (mcu_list (f_mcu fr)) d (mkBiter (data ++ tail) 0 0) log d' b' /\ Forall2 (band_logged w (s_low sc)) log ms /\
      (exists ps run, in_band d0 fr ps run d') /\ exists ds, bi_input b' = stuff ds ++ tail).
  2:{ destruct X as [log [d' [b' [X1 [X2 [_ X4]]]]]]. exists log, d', b'. auto. }
  apply (scan_band_read dbg d0 fr sc ts) with (n := 0) (pre := @nil (Z * Z)); auto.
  - rewrite Ef. rewrite total_before by exact HO. exact Few.
  - rewrite Ef. unfold frame_of. cbn [f_components]. apply Forall_forall. intros c Ic. apply in_map_iff in Ic. destruct Ic as [c0 [<- Ic]]. unfold blocks_in. cbn [c_blocks_per_mcu c_v c_h].
    destruct HO as [_ _ _ _ _ HF]. rewrite Forall_forall in HF. destruct (HF c0 Ic). rewrite Z2Nat.inj_mul by lia. lia.
  - rewrite Ef. unfold frame_of. cbn [f_components]. apply Forall_forall. intros c Ic. apply in_map_iff in Ic. destruct Ic as [c0 [<- Ic]]. cbn [c_tq]. rewrite Forall_forall in Qts. auto.
  - rewrite Ef. unfold coding_process, frame_of. cbn [f_marker]. assert (O : fmk = 0 \/ fmk = 1) by lia. destruct O as [-> | ->]; cbn; auto.
  - unfold lenZ in L4. lia.
  - lia.
  - pose proof (mcu_length (f_mcu fr) H0 W0) as ML. rewrite Ef in ML |- *. unfold lenZ in ML, Lm. unfold frame_of in ML. cbn [f_mcu dim_h dim_w] in ML. unfold frame_of. cbn [f_mcu]. lia.
  - rewrite Ef. eapply Forall_impl; [|exact Sh]. intros mm. apply shape_fits.
  - destruct (init_counts _ _ _ SI R0) as [_ [C2 [C3 C4]]]. constructor; auto.
    + exists (repeat 0 (4 - length ts)). unfold lenZ in L4. split; [|unfold zeros; rewrite map_length, repeat_length; lia]. rewrite C2. unfold zeros.
      clear - Lts L4. destruct ts as [|a [|b [|c [|e [|f l]]]]]; try reflexivity. cbn in Lts. lia.
    + unfold scan_init in SI. rewrite Fr, Sc in SI.
      destruct (if s_start sc =? 0 then _ else _) as [u| | |]; try discriminate. cbn [bind] in SI. destruct u; [discriminate|].
      destruct (if 1 <? s_end sc then _ else _) as [u| | |]; try discriminate. cbn [bind] in SI. destruct u; [discriminate|].
      destruct (assert_ (lenZ (f_components fr) <=? 4) PCapacity) as [u| | |]; try discriminate. cbn [bind] in SI. inv SI. cbn [set_ss d_ss ss_results].
      eapply covered_sized. apply covered_start. exact FG.
  - intros _. destruct (init_counts _ _ _ SI R0) as [C [_ [_ [x E]]]]. rewrite E in C at 1. exact C.
Qed.
