(** Damage that leaves the restart markers in place (C60, C42). *)
From Verif Require Import Base Tactics SpecColor SpecBits SpecReader SpecHuffman SpecBlock SpecTables Biterator BitsP Readers ReadersP Huffman HuffmanP3 Marker SpecMarker MarkerP Types Idct IdctP Upsampler Parsers Decode SpecFrame SpecSegments SpecScan SpecPlane SpecUpsample SpecImage SpecFile SpecAnswer SpecLimits SpecDamage
  BlockP PlaneP SegmentsP SafeP InvP ScanP RestartP PlacedP EncodeP SpecGlobal GlobalP ExtP SpecStream StreamP StreamP2 RowP UpsampleP ImageP FileP CorruptP AnswerP AnswerP2 AnswerP3.

(** ** The reader stays before the marker *)
Definition in_stuff (tail i : list Z) : Prop := exists ds, i = stuff ds ++ tail.
Lemma fill_loop_stuff : forall tail, marker_tail tail -> forall d2 p cpc bits count ok b',
  (exists d, p ++ stuff d2 = stuff d) -> count - cpc <= 8 * Z.of_nat (length p) ->
  fill_loop ((p ++ stuff d2) ++ tail) cpc (stuff d2 ++ tail) bits count = (ok, b') -> in_stuff tail (bi_input b').
Proof.
  intros tail [m [r [Et Nm]]] d2. induction d2 as [|x d2 IH]; intros p cpc bits count ok b' [d Ed] C E.
  all: assert (Skip : forall w bits1 ok b', w = stuff d ->
     match skip_bytes (reskip cpc (count + 8)) (w ++ tail) with
     | None => (false, mkBiter [] bits1 (count + 8))
     | Some input' => let '(bits', count') := pad_zeros 8 (clear_low_byte bits1) (count + 8) in (true, mkBiter input' bits' count') end = (ok, b') -> in_stuff tail (bi_input b'))
   by (intros w bits1 ok1 b1 -> Q; assert (L : (reskip cpc (count + 8) <= length (stuff d))%nat) by (rewrite <- Ed, app_length; unfold reskip; clear - C; lia);
       rewrite skip_bytes_spec in Q by (rewrite app_length; lia); destruct (pad_zeros _ _ _) as [bb cc]; inversion Q; cbn [bi_input];
       destruct (stuff_suffix d _ L) as [d' [S1 _]]; exists d'; rewrite skipn_app, S1; replace (reskip cpc (count + 8) - length (stuff d))%nat with 0%nat by lia; reflexivity).
  - change (stuff []) with (@nil Z) in *. cbn [app] in E. rewrite Et in E at 2. cbn [fill_loop] in E.
    destruct (count <=? 56); [|inversion E; cbn [bi_input]; exists []; subst; reflexivity]. change (255 =? 255) with true in E. cbn iota in E.
    replace (m =? 0) with false in E by lia. eapply Skip; [exact Ed|exact E].
  - change (stuff (x :: d2)) with ((if x =? 255 then [255; 0] else [x]) ++ stuff d2) in *.
    destruct (Z.eqb_spec x 255) as [->|X]; cbn [app] in E; cbn [fill_loop] in E.
    + destruct (count <=? 56); [|inversion E; cbn [bi_input]; exists (255 :: d2); reflexivity]. change (255 =? 255) with true in E. change (0 =? 0) with true in E. cbn iota in E.
      replace ((p ++ 255 :: 0 :: stuff d2) ++ tail) with (((p ++ [255; 0]) ++ stuff d2) ++ tail) in E by (rewrite <- !app_assoc; reflexivity).
      eapply IH; [| |exact E]; [exists d; rewrite <- app_assoc; exact Ed|rewrite app_length; cbn [length]; lia].
    + destruct (count <=? 56); [|inversion E; cbn [bi_input]; exists (x :: d2); change (stuff (x :: d2)) with ((if x =? 255 then [255; 0] else [x]) ++ stuff d2); replace (x =? 255) with false by lia; reflexivity].
      replace (x =? 255) with false in E by lia. replace ((p ++ x :: stuff d2) ++ tail) with (((p ++ [x]) ++ stuff d2) ++ tail) in E by (rewrite <- !app_assoc; reflexivity).
      eapply IH; [| |exact E]; [exists d; rewrite <- app_assoc; exact Ed|rewrite app_length; cbn [length]; lia].
Qed.
Lemma fill_stuff : forall tail, marker_tail tail -> forall b ok b', in_stuff tail (bi_input b) -> fill_bits b = (ok, b') -> in_stuff tail (bi_input b').
Proof.
  intros tail MT b ok b' [d E] F. unfold fill_bits in F. rewrite E in F. apply (fill_loop_stuff tail MT d [] _ _ _ _ _ (ex_intro _ d eq_refl)) in F; [exact F|cbn; lia].
Qed.

Lemma stuffed_bytes : forall ds, bytes ds -> bytes (stuff ds).
Proof.
  intros ds H. unfold bytes, stuff in *. induction H as [|x l Hx H IH]; cbn [flat_map]; [constructor|].
  apply Forall_app. split; [|exact IH]. destruct (x =? 255); repeat first [apply Forall_nil | apply Forall_cons]; unfold is_byte in *; lia.
Qed.
Lemma scan_part_bytes : forall ts r n known data, scan_part ts r n known data -> 0 <= n < 8 -> bytes data.
Proof.
  intros ts r n known data H. induction H as [n kn data Hr [ds [ms [bits [z [B [-> _]]]]]]|n kn data rest data' Hr Hl Ne [ds [ms [bits [z [B [-> _]]]]]] Sd IH]; intros Hn.
  - apply stuffed_bytes; auto.
  - apply Forall_app. split; [apply stuffed_bytes; auto|]. apply Forall_app. split; [repeat first [apply Forall_nil | apply Forall_cons]; unfold is_byte; lia|]. apply IH. apply Z.mod_pos_bound. lia.
Qed.
Lemma reads_nil : forall dbg d b log d' b', mcus_read dbg [] d b log d' b' -> d' = d /\ b' = b.
Proof. intros dbg d b log d' b' H. inversion H; subst; auto. Qed.
Lemma reads_nil_log : forall dbg d b log d' b', mcus_read dbg [] d b log d' b' -> log = [] /\ d' = d /\ b' = b.
Proof. intros dbg d b log d' b' H. inversion H; subst; auto. Qed.
Lemma reads_split : forall dbg a b d i log d' i', mcus_read dbg (a ++ b) d i log d' i' ->
  exists log1 d1 i1 log2, log = log1 ++ log2 /\ mcus_read dbg a d i log1 d1 i1 /\ mcus_read dbg b d1 i1 log2 d' i'.
Proof.
  intros dbg. induction a as [|[y x] a IH]; intros b d i log d' i' H.
  - exists [], d, i, log. split; [reflexivity|]. split; [constructor|exact H].
  - cbn [app] in H. apply reads_cons in H. destruct H as [d1 [b1 [d2 [b2 [d3 [log' [-> [ER [EA [EQ H]]]]]]]]]].
    destruct (IH _ _ _ _ _ _ H) as [log1 [d4 [i4 [log2 [-> [H1 H2]]]]]]. exists (ss_coefs (d_ss d1) :: log1), d4, i4, log2.
    split; [reflexivity|]. split; [econstructor; eauto|exact H2].
Qed.

(** ** What is logged has the right shape *)
Definition sixty_four (coefs : list (list Z)) : Prop := length coefs = 10%nat /\ Forall (fun c => length c = 64%nat) coefs.
Lemma row_64 : forall dbg d b d' b', dec_ok d -> good b -> decode_row dbg d b = Ok (d', b') -> sixty_four (ss_coefs (d_ss d')) /\ same d d' /\ good b'.
Proof.
  intros dbg d b d' b' K G E. pose proof (row_inv dbg d b K G) as R. rewrite E in R. cbn [post] in R. destruct R as [Sm [G' [_ [L [F _]]]]].
  split; [split; [exact L|]|split; [exact Sm|exact G']]. eapply Forall_impl; [|exact F]. intros c [X _]. exact X.
Qed.
Lemma reads_64 : forall dbg todo d b log d' b', mcus_read dbg todo d b log d' b' -> dec_ok d -> good b -> Forall sixty_four log.
Proof.
  intros dbg todo d b log d' b' H. induction H as [d b|y x todo d b d1 b1 d2 b2 d3 log d' b' ER EA EQ HR IH]; intros K G; [constructor|].
  destruct (row_64 _ _ _ _ _ K G ER) as [S [Sm G1]]. constructor; [exact S|]. pose proof (same_ok _ _ K Sm) as K1.
  assert (A : dec_ok d2 /\ good b2).
  { unfold after_mcu in EA. pose proof (check_inv dbg x y d1 K1) as CI. destruct (restart_check dbg x y d1) as [[need d4]| | |]; try discriminate EA. cbn [bind post] in *.
    pose proof (same_ok _ _ K1 CI) as K4. destruct need; [|inversion EA; subst; auto].
    pose proof (restart_inv d4 b1 K4 G1) as RI. rewrite EA in RI. cbn [post] in RI. destruct RI as [S4 [G4 _]]. split; [eapply same_ok; eauto|exact G4]. }
  destruct A as [K2 G2]. apply IH; [|exact G2]. apply dequantize_counts in EQ. destruct EQ as [ps ->]. destruct K2 as [A1 A2 A3 A4 A5 A6 A7 A8]. constructor; cbn; auto.
Qed.

(** ** MCUs from logged blocks *)
Definition q_of (blk : list Z) : qblock := mkQ (nth (natural 0) blk 0) (map (fun k => nth (natural k) blk 0) (seq 1 63)).
Lemma q_of_values : forall blk, length blk = 64%nat -> q_values blk (q_of blk).
Proof.
  intros blk L. split; [exact L|]. intros k Hk. unfold q_of. cbn [q_dc q_ac]. destruct k as [|k]; [reflexivity|]. cbn [nth].
  assert (G : forall f : nat -> Z, nth k (map f (seq 1 63)) 0 = f (S k)); [|rewrite G; reflexivity].
  intros f. rewrite (nth_indep (map f (seq 1 63)) 0 (f 0%nat)) by (rewrite map_length, seq_length; lia). rewrite map_nth, seq_nth by lia. reflexivity.
Qed.
Fixpoint mcu_of (cs : list comp_spec) (coefs : list (list Z)) : mcu :=
  match cs with
  | [] => []
  | c :: cs => map q_of (firstn (Z.to_nat (cs_h c * cs_v c)) coefs) :: mcu_of cs (skipn (Z.to_nat (cs_h c * cs_v c)) coefs)
  end.
Definition need (cs : list comp_spec) : nat := fold_right (fun c n => (Z.to_nat (cs_h c * cs_v c) + n)%nat) 0%nat cs.
Lemma mcu_of_shape : forall cs coefs, (forall c, In c cs -> 0 <= cs_h c * cs_v c) -> (need cs <= length coefs)%nat -> mcu_shape cs (mcu_of cs coefs).
Proof.
  induction cs as [|c cs IH]; intros coefs P L; cbn [mcu_of]; constructor; cbn [need fold_right] in L; fold (need cs) in L.
  - specialize (P c (or_introl eq_refl)). unfold lenZ. rewrite map_length, firstn_length. lia.
  - apply IH; [intros c' I; apply P; right; exact I|]. rewrite skipn_length. lia.
Qed.
Lemma mcu_of_concat : forall cs coefs, concat (mcu_of cs coefs) = map q_of (firstn (need cs) coefs).
Proof.
  induction cs as [|c cs IH]; intros coefs; [reflexivity|]. cbn [mcu_of concat need fold_right]. fold (need cs). rewrite IH, <- map_app. f_equal.
  generalize (Z.to_nat (cs_h c * cs_v c)), (need cs). clear. intros a b. revert coefs. induction a as [|a IH]; intros coefs; [reflexivity|]. destruct coefs as [|x coefs]; [rewrite skipn_nil, !firstn_nil; reflexivity|].
  cbn [firstn skipn Nat.add app]. f_equal. apply IH.
Qed.
Lemma mcu_of_logged : forall cs coefs, Forall (fun c => length c = 64%nat) coefs -> logged coefs (mcu_of cs coefs).
Proof.
  intros cs coefs F k q E. rewrite mcu_of_concat, nth_error_map in E. destruct (nth_error (firstn (need cs) coefs) k) as [blk|] eqn:B; [|discriminate]. cbn [option_map] in E. inversion E; subst q.
  assert (X : nth_error coefs k = Some blk).
  { rewrite <- (firstn_skipn (need cs) coefs). rewrite nth_error_app1; [exact B|]. apply nth_error_Some. congruence. }
  exists blk. split; [exact X|]. apply q_of_values. rewrite Forall_forall in F. apply F. eapply nth_error_In; eauto.
Qed.

Definition seen (k : option mcu) (coefs : list (list Z)) : Prop := forall m, k = Some m -> logged coefs m.
Lemma fill_in : forall cs known log, (forall c, In c cs -> 0 <= cs_h c * cs_v c) -> (need cs <= 10)%nat -> Forall sixty_four log ->
  Forall (known_shape cs) known -> Forall2 seen known log ->
  exists ms, agrees known ms /\ Forall (mcu_shape cs) ms /\ Forall2 logged log ms.
Proof.
  intros cs known log P N F64 Sh S. revert F64 Sh. induction S as [|k coefs known log Hk S IH]; intros F64 Sh; [exists []; repeat constructor|].
  inversion F64 as [|? ? [L10 L64] F64']; subst. inversion Sh as [|? ? Sk Sh']; subst. destruct (IH F64' Sh') as [ms [A [B C]]].
  destruct k as [m|].
  - exists (m :: ms). split; [constructor; [intros m' E; congruence|exact A]|]. split; [constructor; [apply Sk; reflexivity|exact B]|]. constructor; [apply Hk; reflexivity|exact C].
  - exists (mcu_of cs coefs :: ms). split; [constructor; [intros m' E; discriminate E|exact A]|]. split; [constructor; [apply mcu_of_shape; [exact P|lia]|exact B]|]. constructor; [apply mcu_of_logged; exact L64|exact C].
Qed.

(** ** The scan *)
Section Scan.
  Variables (dbg : bool) (d0 : decoder) (fr : frame) (sc : scan) (ts : list tables).
  Let MH := dim_h (f_mcu fr).
  Let N := lenZ (mcu_list (f_mcu fr)).
  Hypothesis Fr : d_frame d0 = Some fr.
  Hypothesis Sc : d_scan d0 = Some sc.
  Hypothesis S0 : s_start sc = 0.
  Hypothesis S1 : 63 <= s_end sc.
  Hypothesis S2 : s_low sc = 0.
  Hypothesis Rd : comps_ready dbg d0 (f_components fr) (s_headers sc) ts.
  Hypothesis FG : frame_good fr.
  Hypothesis Few : (total_blocks (f_components fr) <= MAX_BLOCKS)%nat.
  Hypothesis Bpm : Forall (fun c => Z.to_nat (c_blocks_per_mcu c) = blocks_in c) (f_components fr).
  Hypothesis Qt : Forall (fun c => exists qt, index (d_qt d0) (c_tq c) = Ok (Some qt)) (f_components fr).
  Hypothesis Cp : coding_process fr = Ok Baseline \/ coding_process fr = Ok Sequential.
  Hypothesis Lts : (length ts <= 4)%nat.
  Let r := d_restart d0.
  Let zeros := zeros ts.

  (** Between two MCUs of a damaged interval. *)
  Record adrift (d : decoder) : Prop := mkAd {
    ad_set : exists s, d = set_ss d0 s;
    ad_sized : Forall2 (sized MH) (f_components fr) (ss_results (d_ss d));
  }.
  Lemma in_adrift : forall ps d, in_scan d0 fr ps d -> adrift d.
  Proof. intros ps d [A _ _ D]. constructor; assumption. Qed.

  Lemma adrift_step : forall tail, marker_tail tail -> forall pre y x rest d b coefs d' b', mcus_read dbg [(y, x)] d b [coefs] d' b' ->
    mcu_list (f_mcu fr) = pre ++ (y, x) :: rest -> adrift d -> counters r (lenZ pre) d -> in_stuff tail (bi_input b) ->
    let i := lenZ pre in
    (restart_due r N i = true -> exists rest', tail = [255; 0xD0 + (i / r) mod 8] ++ rest') ->
    (rest <> [] -> counters r (i + 1) d') /\
    if restart_due r N i then in_scan d0 fr zeros d' /\ (exists rest', tail = [255; 0xD0 + (i / r) mod 8] ++ rest' /\ b' = mkBiter rest' 0 0)
    else adrift d' /\ in_stuff tail (bi_input b').
  Proof.
    intros tail MT pre y x rest d b coefs d' b' R E [[s ->] Sz] C IS i Mk. cbn [set_ss d_ss] in Sz.
    apply reads_cons in R. destruct R as [d1 [b1 [d2 [b2 [d3 [log' [El [ER [EA [EQ R]]]]]]]]]]. assert (log' = []) by congruence. subst log'. apply reads_nil in R. destruct R as [-> ->]. clear El.
    pose proof (row_keep (in_stuff tail) (fill_stuff tail MT) _ _ _ _ _ IS ER) as IS1.
    pose proof (row_set _ _ _ _ _ ER) as [cf [pp [eo [E1 Lc]]]]. cbv zeta in E1. cbn [set_ss d_ss] in E1.
    assert (Fr1 : d_frame d1 = Some fr) by (rewrite E1; exact Fr). assert (R1 : d_restart d1 = r) by (rewrite E1; reflexivity).
    assert (C1 : counters (d_restart d1) i d1) by (rewrite R1; intros H; destruct (C H) as [A B]; rewrite E1; cbn [set_ss d_ss ss_left ss_rst] in *; auto).
    assert (Co : ss_coefs (d_ss d1) = cf /\ ss_results (d_ss d1) = ss_results s) by (rewrite E1; split; reflexivity). destruct Co as [Co Re].
    destruct (mcu_in _ _ _ _ _ E) as [Hx Hy].
    assert (E1' : exists s1, d1 = set_ss d0 s1) by (rewrite E1; eexists; reflexivity). destruct E1' as [s1 E1']. clear E1.
    pose proof EA as EA0. apply after_set in EA0. destruct EA0 as [s2 [Es2 [Sc2 Sr2]]].
    destruct (deq_ok dbg d0 fr Fr FG Few Qt Cp x y d2) as [pl [ED Sz2]].
    { exists s2. rewrite Es2, E1'. reflexivity. } { exact Hx. } { exact Hy. } { rewrite Es2. cbn [set_ss d_ss]. rewrite Sr2, Re. exact Sz. } { rewrite Es2. cbn [set_ss d_ss]. rewrite Sc2, Co. exact Lc. }
    assert (Ed3 : d3 = set_ss d2 (set_results (d_ss d2) pl)) by congruence. subst d3. clear EQ.
    assert (SD : exists s', set_ss d2 (set_results (d_ss d2) pl) = set_ss d0 s') by (rewrite Es2, E1'; eexists; reflexivity).
    split.
    - intros NR. pose proof (after_counts dbg d1 b1 fr pre y x rest _ _ Fr1 E NR C1 EA) as C2. rewrite Es2 in C2 at 1. cbn [set_ss d_restart] in C2. rewrite R1 in C2. fold i in C2. intros Hr. destruct (C2 Hr). cbn [set_ss d_ss set_results ss_left ss_rst]. split; assumption.
    - destruct (restart_due r N i) eqn:Du.
      + destruct (Mk eq_refl) as [rest' Et].
        assert (FM : first_marker (bi_input b1) (0xD0 + (i / r) mod 8) rest').
        { destruct IS1 as [ds Ei]. exists (stuff ds), 0%nat. split; [apply no_marker_stuff|]. pose proof (Z.mod_pos_bound (i / r) 8). split; [lia|]. split; [lia|]. rewrite Ei, Et. reflexivity. }
        rewrite <- R1 in FM, Du. destruct (after_due dbg d1 fr b1 pre y x rest rest' Fr1 E C1 Du FM) as [s3 [A1 [A2 A3]]]. assert (Ed : d2 = set_ss d1 s3) by congruence. assert (Eb : b2 = mkBiter rest' 0 0) by congruence. clear EA.
        assert (s3 = d_ss d2) by (rewrite Ed; reflexivity). subst s3. subst b2.
        split; [|exists rest'; split; [exact Et|reflexivity]]. constructor; cbn [set_ss d_ss set_results ss_preds ss_eob ss_results].
        * exact SD.
        * exists (repeat 0 (4 - length ts)). unfold zeros, EncodeP.zeros. split; [|rewrite map_length, repeat_length; lia]. rewrite A2.
          clear - Lts. destruct ts as [|a [|b [|c [|e [|f l]]]]]; try reflexivity. cbn in Lts. lia.
        * exact A3.
        * exact Sz2.
      + rewrite <- R1 in Du. destruct (after_not_due dbg d1 fr b1 pre y x rest Fr1 E C1 Du) as [s3 [A1 _]]. assert (Eb : b2 = b1) by congruence. subst b2. split; [|exact IS1].
        constructor; [exact SD|exact Sz2].
  Qed.

  Lemma adrift_read : forall tail, marker_tail tail -> forall todo pre rest d b log d' b', mcus_read dbg todo d b log d' b' -> todo <> [] ->
    mcu_list (f_mcu fr) = pre ++ todo ++ rest -> adrift d -> counters r (lenZ pre) d -> in_stuff tail (bi_input b) ->
    (forall i, lenZ pre <= i < lenZ pre + lenZ todo -> restart_due r N i = true ->
       i = lenZ pre + lenZ todo - 1 /\ exists rest', tail = [255; 0xD0 + (i / r) mod 8] ++ rest') ->
    (rest <> [] -> counters r (lenZ pre + lenZ todo) d') /\
    let i := lenZ pre + lenZ todo - 1 in
    if restart_due r N i then in_scan d0 fr zeros d' /\ (exists rest', tail = [255; 0xD0 + (i / r) mod 8] ++ rest' /\ b' = mkBiter rest' 0 0) else True.
  Proof.
    intros tail MT. induction todo as [|[y x] todo IH]; intros pre rest d b log d' b' R NE E A C IS Due; [congruence|]. clear NE.
    change ((y, x) :: todo) with ([(y, x)] ++ todo) in R. apply reads_split in R. destruct R as [l1 [d1 [b1 [l2 [_ [R1 R2]]]]]].
    assert (Ll : exists c, l1 = [c]) by (apply reads_length in R1; destruct l1 as [|c [|]]; try discriminate R1; eauto). destruct Ll as [c ->].
    assert (L1 : lenZ ((y, x) :: todo) = lenZ todo + 1) by (unfold lenZ; cbn [length]; lia). assert (L0 : 0 <= lenZ todo) by (unfold lenZ; lia). rewrite L1 in *. cbn [app] in E.
    destruct (adrift_step tail MT pre y x (todo ++ rest) d b c d1 b1 R1 E A C IS) as [C1 Al]; [intros Du; destruct (Due (lenZ pre) ltac:(lia) Du); assumption|].
    destruct todo as [|t0 todo].
    - apply reads_nil in R2. destruct R2 as [-> ->]. change (lenZ (@nil (Z * Z))) with 0 in *. cbn [app] in C1. replace (lenZ pre + (0 + 1)) with (lenZ pre + 1) by lia. split; [exact C1|].
      cbv zeta. replace (lenZ pre + 1 - 1) with (lenZ pre) by lia. cbv zeta in Al. destruct (restart_due r N (lenZ pre)); [exact Al|exact Logic.I].
    - assert (ND : restart_due r N (lenZ pre) = false).
      { destruct (restart_due r N (lenZ pre)) eqn:D; [|reflexivity]. destruct (Due (lenZ pre) ltac:(lia) D) as [Q _]. unfold lenZ in *. cbn [length] in *. lia. }
      cbv zeta in Al. rewrite ND in Al. destruct Al as [A1 IS1].
      assert (Li : lenZ (pre ++ [(y, x)]) = lenZ pre + 1) by (unfold lenZ; rewrite app_length; cbn [length]; lia).
      destruct (IH (pre ++ [(y, x)]) rest d1 b1 l2 d' b' R2) as [C2 Al2]; auto.
      + discriminate.
      + rewrite <- app_assoc. exact E.
      + rewrite Li. apply C1. discriminate.
      + intros j Hj D. rewrite Li in *. destruct (Due j ltac:(lia) D) as [Q1 Q2]. split; [lia|exact Q2].
      + rewrite Li in C2, Al2. replace (lenZ pre + (lenZ (t0 :: todo) + 1)) with (lenZ pre + 1 + lenZ (t0 :: todo)) by lia. split; [exact C2|exact Al2].
  Qed.

  Lemma seen_map : forall log ms, Forall2 logged log ms -> Forall2 seen (map Some ms) log.
  Proof. intros log ms H. induction H; cbn [map]; constructor; auto. intros m E. injection E as <-. assumption. Qed.
  Lemma seen_none : forall log, Forall2 seen (repeat None (length log)) log.
  Proof. induction log; cbn [length repeat]; constructor; auto. intros m E. discriminate E. Qed.

  Lemma part_read : forall tail, marker_tail tail -> bytes tail -> forall known ds ms bits n, bytes ds -> known = map Some ms ++ repeat None n ->
    mcus_bits ts zeros ms bits -> supplies ds bits ->
    forall pre todo rest d log d' b', length todo = length known -> mcu_list (f_mcu fr) = pre ++ todo ++ rest -> Forall (mcu_fits (f_components fr)) ms ->
    in_scan d0 fr zeros d -> (todo ++ rest <> [] -> counters r (lenZ pre) d) ->
    (forall i, lenZ pre <= i < lenZ pre + lenZ todo -> restart_due r N i = true ->
       i = lenZ pre + lenZ todo - 1 /\ exists rest', tail = [255; 0xD0 + (i / r) mod 8] ++ rest') ->
    mcus_read dbg todo d (mkBiter (stuff ds ++ tail) 0 0) log d' b' ->
    Forall2 seen known log /\ (rest <> [] -> counters r (lenZ pre + lenZ todo) d') /\
    let i := lenZ pre + lenZ todo - 1 in
    if (0 <? lenZ todo) && restart_due r N i then in_scan d0 fr zeros d' /\ (exists rest', tail = [255; 0xD0 + (i / r) mod 8] ++ rest' /\ b' = mkBiter rest' 0 0) else True.
  Proof.
    intros tail MT BT known ds ms bits n Bd -> M Su pre todo rest d log d' b' L E F I C Due R. rewrite app_length, map_length, repeat_length in L.
    pose proof (firstn_skipn (length ms) todo) as FS. set (ta := firstn (length ms) todo) in *. set (tb := skipn (length ms) todo) in *.
    assert (La : length ta = length ms) by (unfold ta; rewrite firstn_length; lia). assert (Lb : length tb = n) by (unfold tb; rewrite skipn_length; lia). clearbody ta tb. subst todo.
    apply reads_split in R. destruct R as [l1 [d1 [b1 [l2 [-> [R1 R2]]]]]]. rewrite <- app_assoc in E.
    assert (LT : lenZ (ta ++ tb) = lenZ ta + lenZ tb) by (unfold lenZ; rewrite app_length; lia). rewrite LT in *.
    assert (La0 : 0 <= lenZ ta) by (unfold lenZ; lia). assert (Lb0 : 0 <= lenZ tb) by (unfold lenZ; lia).
    assert (HA : holds_at tail (mkBiter (stuff ds ++ tail) 0 0) (bits ++ [])).
    { split; [unfold reader_ok; cbn; lia|]. exists ds. split; [exact Bd|]. split; [reflexivity|]. destruct Su as [z [Hz P]]. exists z. split; [exact Hz|]. rewrite app_nil_r. exact P. }
    destruct (interval_read dbg d0 fr sc ts Fr Sc S0 S1 S2 Rd FG Few Bpm Qt Cp Lts tail MT BT _ ms bits M pre ta (tb ++ rest) d _ [] La E F I
      ltac:(intros X; apply C; rewrite <- app_assoc; exact X) HA) as [l1' [d1' [b1' [R1' [Lg [C1 Al]]]]]].
    { intros i Hi Du. destruct (Due i ltac:(lia) Du) as [Ei Q]. split; [lia|exact Q]. }
    destruct (reads_det _ _ _ _ _ _ _ R1 _ _ _ R1') as [<- [<- <-]]. clear R1'.
    destruct tb as [|t0 tb].
    - cbn [length] in Lb. subst n. apply reads_nil_log in R2. destruct R2 as [-> [-> ->]]. change (lenZ (@nil (Z * Z))) with 0 in *. rewrite !Z.add_0_r in *. cbn [repeat]. rewrite !app_nil_r.
      split; [apply seen_map; exact Lg|]. split; [exact C1|]. cbv zeta in Al |- *. fold r in Al. fold N in Al. fold zeros in Al. destruct ((0 <? lenZ ta) && restart_due r N (lenZ pre + lenZ ta - 1)); [exact Al|exact Logic.I].
    - set (tb1 := t0 :: tb) in *. assert (Lb1 : 0 < lenZ tb1) by (unfold tb1, lenZ; cbn [length]; lia).
      assert (ND : (0 <? lenZ ta) && restart_due r N (lenZ pre + lenZ ta - 1) = false).
      { destruct (0 <? lenZ ta) eqn:P; [|reflexivity]. destruct (restart_due r N (lenZ pre + lenZ ta - 1)) eqn:Du; [|reflexivity]. exfalso. destruct (Due (lenZ pre + lenZ ta - 1) ltac:(lia) Du). lia. }
      cbv zeta in Al. fold r in Al. fold N in Al. rewrite ND in Al. destruct Al as [[ps' I1] [_ [ds' [_ [Ei _]]]]].
      assert (Lp : lenZ (pre ++ ta) = lenZ pre + lenZ ta) by (unfold lenZ; rewrite app_length; lia).
      destruct (adrift_read tail MT tb1 (pre ++ ta) rest d1 b1 l2 d' b' R2) as [C2 A2].
      + discriminate.
      + rewrite <- app_assoc. exact E.
      + exact (in_adrift _ _ I1).
      + rewrite Lp. apply C1. discriminate.
      + exists ds'. exact Ei.
      + rewrite Lp. intros i Hi Du. destruct (Due i ltac:(lia) Du) as [Q1 Q2]. split; [lia|exact Q2].
      + rewrite Lp in *. rewrite <- Z.add_assoc in C2, A2. split; [|split; [exact C2|]].
        * apply Forall2_app; [apply seen_map; exact Lg|]. rewrite <- Lb, (eq_sym (reads_length _ _ _ _ _ _ _ R2)). apply seen_none.
        * cbv zeta in A2 |- *. replace (0 <? lenZ ta + lenZ tb1) with true by lia. cbn [andb].
          replace (lenZ pre + (lenZ ta + lenZ tb1) - 1) with (lenZ pre + (lenZ ta + lenZ tb1) - 1) in A2 by lia. exact A2.
  Qed.

  Definition fits (k : option mcu) : Prop := forall m, k = Some m -> mcu_fits (f_components fr) m.
  Lemma fits_map : forall ms n, Forall fits (map Some ms ++ repeat None n) -> Forall (mcu_fits (f_components fr)) ms.
  Proof. intros ms n H. apply Forall_app in H. destruct H as [H _]. rewrite Forall_forall in *. intros m Im. apply (H (Some m)); [apply in_map; exact Im|reflexivity]. Qed.

  Lemma parts_read : forall tail, marker_tail tail -> bytes tail ->
    forall n known data, scan_part ts r n known data -> 0 <= n < 8 -> forall pre todo d log d' b', length todo = length known -> mcu_list (f_mcu fr) = pre ++ todo ->
    Forall fits known -> in_scan d0 fr zeros d -> (todo <> [] -> counters r (lenZ pre) d) ->
    (0 < r -> lenZ pre mod r = 0 /\ n = (lenZ pre / r) mod 8) -> mcus_read dbg todo d (mkBiter (data ++ tail) 0 0) log d' b' -> Forall2 seen known log.
  Proof.
    intros tail MT BT n known data H. induction H as [n kn data Hr [ds [ms [bits [z [B [-> [Ek [M Su]]]]]]]]|n kn data rest data' Hr Hl Ne [ds [ms [bits [z [B [-> [Ek [M Su]]]]]]]] Sd IH];
      intros Hn pre todo d log d' b' L E F I C P R.
    - subst kn. pose proof (fits_map _ _ F) as F1.
      destruct (part_read tail MT BT _ ds ms bits z B eq_refl M Su pre todo [] d log d' b' L ltac:(rewrite app_nil_r; exact E) F1 I ltac:(rewrite app_nil_r; exact C)) with (2 := R) as [G _]; [|exact G].
      intros i Hi Du. exfalso. assert (LN : N = lenZ pre + lenZ todo) by (unfold N, lenZ; rewrite E, app_length; lia).
      unfold restart_due in Du. apply andb_prop in Du. destruct Du as [Du D3]. apply andb_prop in Du. destruct Du as [D1 D2].
      destruct Hr as [Hr|Hr]; [lia|]. destruct (P ltac:(lia)) as [P1 _]. assert (Lt : lenZ todo <= r) by (unfold lenZ in *; lia).
      apply Z.eqb_eq in D2. apply Z.mod_divide in D2; [|lia]. apply Z.mod_divide in P1; [|lia]. destruct D2 as [a D2]. destruct P1 as [c P1].
      assert (c < a < c + 1) by nia. lia.
    - destruct (P Hr) as [P1 P2]. set (tail1 := [255; 0xD0 + n] ++ data' ++ tail) in *.
      assert (MT1 : marker_tail tail1) by (eexists _, _; split; [reflexivity|]; lia).
      assert (Bd : bytes data') by (apply (scan_part_bytes _ _ _ _ _ Sd); apply Z.mod_pos_bound; lia).
      assert (BT1 : bytes tail1) by (apply Forall_app; split; [repeat first [apply Forall_nil | apply Forall_cons]; unfold is_byte; lia|apply Forall_app; auto]).
      set (k := length kn) in *. assert (Lk : k = Z.to_nat r) by (unfold k, lenZ in *; lia).
      rewrite app_length in L. fold k in L. pose proof (firstn_skipn k todo) as FS. set (t1 := firstn k todo) in *. set (t2 := skipn k todo) in *.
      assert (L1 : length t1 = k) by (unfold t1; rewrite firstn_length; lia). assert (L2 : length t2 = length rest) by (unfold t2; rewrite skipn_length; lia).
      apply Forall_app in F. destruct F as [F1 F2].
      assert (E' : mcu_list (f_mcu fr) = pre ++ t1 ++ t2) by (rewrite FS; exact E).
      assert (Nt : t2 <> []) by (destruct t2; [destruct rest; [congruence|discriminate]|discriminate]).
      assert (Lt1 : lenZ t1 = r) by (unfold lenZ; lia).
      assert (LN : N = lenZ pre + r + lenZ t2) by (unfold N; rewrite E'; unfold lenZ in *; rewrite !app_length; lia).
      assert (Lt2 : 0 < lenZ t2) by (unfold lenZ; destruct t2; [congruence|cbn [length]; lia]).
      assert (Dm : (lenZ pre + r - 1) / r = lenZ pre / r /\ (lenZ pre + r - 1 + 1) mod r = 0).
      { clear - P1 Hr. apply Z.mod_divide in P1; [|lia]. destruct P1 as [c P1]. rewrite P1. rewrite Z.div_mul by lia. split.
        - replace (c * r + r - 1) with (r - 1 + c * r) by lia. rewrite Z.div_add by lia. rewrite Z.div_small by lia. lia.
        - replace (c * r + r - 1 + 1) with ((c + 1) * r) by lia. apply Z.mod_mul. lia. }
      destruct Dm as [Dm1 Dm2].
      rewrite <- FS in R. replace ((stuff ds ++ [255; 208 + n] ++ data') ++ tail) with (stuff ds ++ tail1) in R by (unfold tail1; rewrite <- !app_assoc; reflexivity).
      apply reads_split in R. destruct R as [l1 [d1 [b1 [l2 [-> [R1 R2]]]]]].
      rewrite Ek in F1. pose proof (fits_map _ _ F1) as F1'.
      destruct (part_read tail1 MT1 BT1 _ ds ms bits z B Ek M Su pre t1 t2 d l1 d1 b1 L1 E' F1' I) with (3 := R1) as [G1 [C1 Al]].
      + intros _. apply C. intros Q. apply Nt. unfold t2. rewrite Q. apply skipn_nil.
      + intros i Hi Du. rewrite Lt1 in *. unfold restart_due in Du. apply andb_prop in Du. destruct Du as [Du D3]. apply andb_prop in Du. destruct Du as [D1 D2].
        apply Z.eqb_eq in D2. pose proof P1 as P1'. apply Z.mod_divide in D2; [|lia]. apply Z.mod_divide in P1'; [|lia]. destruct D2 as [a D2]. destruct P1' as [c P1'].
        assert (Ei : i = lenZ pre + r - 1) by (assert (a = c + 1) by nia; subst a; lia). split; [exact Ei|]. exists (data' ++ tail). rewrite Ei, Dm1, <- P2. reflexivity.
      + rewrite Lt1 in *. cbv zeta in Al.
        assert (Du : restart_due r N (lenZ pre + r - 1) = true).
        { unfold restart_due. rewrite Dm2. replace (0 <? r) with true by lia. change (0 =? 0) with true. cbn [andb]. lia. }
        rewrite Du in Al. replace (0 <? r) with true in Al by lia. cbn [andb] in Al. destruct Al as [I1 [rest' [Et Eb1]]].
        unfold tail1 in Et. assert (Er : rest' = data' ++ tail) by (cbn [app] in Et; congruence). subst rest'. subst b1.
        assert (Lp1 : lenZ (pre ++ t1) = lenZ pre + r) by (unfold lenZ in *; rewrite app_length; lia).
        apply Forall2_app; [exact G1|]. apply (IH ltac:(apply Z.mod_pos_bound; lia) (pre ++ t1) t2 d1 l2 d' b'); auto.
        * rewrite <- app_assoc. exact E'.
        * intros _. rewrite Lp1. apply C1. exact Nt.
        * intros _. rewrite Lp1. clear - P1 P2 Hr. apply Z.mod_divide in P1; [|lia]. destruct P1 as [c P1]. rewrite P1 in *. replace (c * r + r) with ((c + 1) * r) by lia.
          rewrite Z.div_mul in * by lia. split; [apply Z.mod_mul; lia|]. rewrite P2. apply Zplus_mod_idemp_l.
  Qed.
End Scan.
