(** The reading of entropy-coded data refines the reference (C63): MCUs, intervals, scans. *)
From Verif Require Import Base Tactics SpecBits SpecReader SpecHuffman SpecBlock SpecTables Biterator BitsP Readers ReadersP Huffman HuffmanP3 Marker SpecMarker MarkerP Types Idct IdctP Parsers Decode SpecSegments SpecScan SpecCode BlockP SpecPlane PlaneP SegmentsP SafeP InvP ScanP RestartP EncodeP DamageP CodeP.

(** ** One MCU *)
Section Mcu.
Variables (dbg z : bool) (tail : list Z).
Hypothesis MT : marker_tail tail.
Hypothesis BT : bytes tail.

Lemma blocks_ref : forall ts dct act sc, built dbg ts dct act -> s_start sc = 0 -> 63 <= s_end sc -> s_low sc = 0 ->
  forall n b bits run pred, 0 <= run -> stands z tail b bits ->
  match ref_blocks z ts n run pred bits with
  | Some (qs, run', pred', rest) => 0 <= run' /\ length qs = n /\
      exists blks b', decode_blocks dbg sc dct act n b run pred = Ok (blks, b', run', pred') /\ Forall2 q_values blks qs /\ stands z tail b' rest
  | None => z = true -> exists e, decode_blocks dbg sc dct act n b run pred = Fail e
  end.
Proof.
  intros ts dct act sc Bu S0 S1 S2. induction n as [|n IH]; intros b bits run pred Hr St; cbn [ref_blocks decode_blocks].
  - split; [exact Hr|]. split; [reflexivity|]. exists [], b. auto.
  - pose proof (block_ref dbg z tail MT BT ts dct act sc b bits run pred Bu S0 S1 S2 Hr St) as B.
    destruct (ref_block z ts run pred bits) as [[[q run1] rest]|]; [|intros Z; destruct (B Z) as [e Be]; exists e; rewrite Be; reflexivity].
    destruct B as [R1 [blk [b1 [E1 [V1 St1]]]]]. rewrite E1. cbn [bind]. specialize (IH b1 rest run1 (q_dc q) R1 St1).
    destruct (ref_blocks z ts n run1 (q_dc q) rest) as [[[[qs run2] pred2] rest2]|]; [|intros Z; destruct (IH Z) as [e Be]; exists e; rewrite Be; reflexivity].
    destruct IH as [R2 [L2 [blks [b2 [E2 [V2 St2]]]]]]. split; [exact R2|]. split; [cbn [length]; congruence|]. exists (blk :: blks), b2. rewrite E2. cbn [bind]. auto.
Qed.

(** The component as the decoder knows it has the blocks that the frame header says. *)
Definition same_blocks (c : component) (s : comp_spec) : Prop := Z.to_nat (c_blocks_per_mcu c) = Z.to_nat (cs_h s * cs_v s).

Lemma mcu_ref : forall d sc, s_start sc = 0 -> 63 <= s_end sc -> s_low sc = 0 ->
  forall cs hs ts, comps_ready dbg d cs hs ts -> forall specs, Forall2 same_blocks cs specs ->
  forall ps extra avail b bits run, length ps = length ts -> (fold_right (fun c n => (Z.to_nat (c_blocks_per_mcu c) + n)%nat) 0%nat cs <= avail)%nat -> 0 <= run -> stands z tail b bits ->
  match ref_mcu z specs ts run ps bits with
  | Some (m, run', ps', rest) => 0 <= run' /\ length ps' = length ts /\ Forall2 (fun s qs => lenZ qs = Z.of_nat (Z.to_nat (cs_h s * cs_v s))) specs m /\
      exists blks b', decode_comps dbg d sc cs hs (ps ++ extra) avail b run = Ok (blks, ps' ++ extra, b', run') /\ Forall2 q_values blks (concat m) /\ stands z tail b' rest
  | None => z = true -> exists e, decode_comps dbg d sc cs hs (ps ++ extra) avail b run = Fail e
  end.
Proof.
  intros d sc S0 S1 S2 cs hs ts R. induction R as [|c cs h hs t ts [dct [act [I1 [I2 Bu]]]] R IH]; intros specs F ps extra avail b bits run Lp Av Hr St.
  - inv F. destruct ps; [|discriminate]. cbn [ref_mcu]. split; [exact Hr|]. split; [reflexivity|]. split; [constructor|]. exists [], b. cbn. auto.
  - inversion F as [|c0 s cs0 specs' Sb F']; subst. destruct ps as [|p ps]; [discriminate|]. cbn [length] in Lp. cbn [fold_right] in Av. cbn [ref_mcu app decode_comps].
    rewrite I1. cbn [bind]. rewrite I2. cbn [bind]. rewrite <- Sb. set (n := Z.to_nat (c_blocks_per_mcu c)) in *. replace (Nat.min n avail) with n by lia.
    pose proof (blocks_ref t dct act sc Bu S0 S1 S2 n b bits run p Hr St) as B.
    destruct (ref_blocks z t n run p bits) as [[[[qs run1] p1] rest]|]; [|intros Z; destruct (B Z) as [e Be]; exists e; rewrite Be; reflexivity].
    destruct B as [R1 [L1 [blks1 [b1 [E1 [V1 St1]]]]]]. rewrite E1. cbn [bind].
    specialize (IH specs' F' ps extra (avail - n)%nat b1 rest run1 ltac:(lia) ltac:(lia) R1 St1).
    destruct (ref_mcu z specs' ts run1 ps rest) as [[[[m run2] ps2] rest2]|]; [|intros Z; destruct (IH Z) as [e Be]; exists e; rewrite Be; reflexivity].
    destruct IH as [R2 [Lp2 [Sh [blks2 [b2 [E2 [V2 St2]]]]]]]. split; [exact R2|]. split; [cbn [length]; congruence|]. split; [constructor; [unfold lenZ; rewrite L1, <- Sb; reflexivity|exact Sh]|].
    exists (blks1 ++ blks2), b2. rewrite E2. cbn [bind app concat]. split; [reflexivity|]. split; [apply Forall2_app; auto|exact St2].
Qed.
End Mcu.

(** ** Reading MCUs is deterministic *)
Lemma reads_same : forall dbg todo d b log d' b', mcus_read dbg todo d b log d' b' ->
  forall log2 d2 b2, mcus_read dbg todo d b log2 d2 b2 -> log2 = log /\ d2 = d' /\ b2 = b'.
Proof.
  intros dbg todo d b log d' b' H. induction H as [d b|y x todo d b d1 b1 d2 b2 d3 log d' b' ER EA EQ H IH]; intros log2 d2' b2' H2.
  - inv H2. auto.
  - apply reads_cons in H2. destruct H2 as [e1 [c1 [e2 [c2 [e3 [l2 [-> [ER2 [EA2 [EQ2 H2]]]]]]]]]].
    assert (X1 : e1 = d1 /\ c1 = b1) by (split; congruence). destruct X1; subst e1 c1. assert (X2 : e2 = d2 /\ c2 = b2) by (split; congruence). destruct X2; subst e2 c2.
    assert (X3 : e3 = d3) by congruence. subst e3. destruct (IH _ _ _ H2) as [-> [-> ->]]. auto.
Qed.

(** ** A restart marker that is not the expected one *)
Lemma after_wrong : forall dbg d fr b pre y x rest, d_frame d = Some fr -> mcu_list (f_mcu fr) = pre ++ (y, x) :: rest ->
  let r := d_restart d in let i := lenZ pre in
  counters r i d -> restart_due r (lenZ (mcu_list (f_mcu fr))) i = true ->
  (forall rest', parse_marker (bi_input b) <> Ok (RST ((i / r) mod 8), rest')) -> forall d' b', after_mcu dbg x y d b <> Ok (d', b').
Proof.
  intros dbg d fr b pre y x rest Fr E r i C Du NM d' b' A. assert (Hi : 0 <= i) by (unfold i, lenZ; lia). unfold restart_due in Du.
  apply andb_prop in Du. destruct Du as [Du D3]. apply andb_prop in Du. destruct Du as [D1 D2]. assert (Hr : 0 < r) by lia. destruct (C Hr) as [CL CR].
  rewrite (after_spec dbg d b fr pre y x rest Fr E) in A by (intros _; rewrite CL; pose proof (Z.mod_pos_bound i r Hr); lia). fold r in A. rewrite D1 in A.
  destruct (next_mod r i Hr Hi) as [N1 N2]. pose proof (Z.mod_pos_bound i r Hr) as B.
  assert (Q : i mod r = r - 1) by (destruct (Z.eq_dec (i mod r) (r - 1)) as [Q|Q]; [exact Q|destruct (N2 Q) as [M _]; lia]).
  replace (ss_left (d_ss d) =? 1) with true in A by lia.
  destruct rest as [|p rest]; [exfalso; rewrite E in D3; unfold i, lenZ in D3; rewrite app_length in D3; cbn [length] in D3; lia|]. cbn [andb] in A.
  unfold restart_marker in A. destruct (parse_marker (bi_input b)) as [[m rest']| | |] eqn:P; try discriminate. cbn [bind] in A. unfold handle_restart in A.
  destruct m as [| | | | | | |n|n|n]; try discriminate. cbn [lowered set_ss d_ss set_left ss_rst] in A.
  destruct (Z.eqb_spec n (ss_rst (d_ss d))) as [En|]; [|discriminate]. apply (NM rest'). rewrite <- CR. congruence.
Qed.

(** ** States inside a scan *)
Section Scan.
  Variables (dbg : bool) (d0 : decoder) (fr : frame) (sc : scan) (ts : list tables) (specs : list comp_spec).
  Let MW := dim_w (f_mcu fr).
  Let MH := dim_h (f_mcu fr).
  Let N := lenZ (mcu_list (f_mcu fr)).
  Let r := d_restart d0.
  Hypothesis Fr : d_frame d0 = Some fr.
  Hypothesis Sc : d_scan d0 = Some sc.
  Hypothesis S0 : s_start sc = 0.
  Hypothesis S1 : 63 <= s_end sc.
  Hypothesis S2 : s_low sc = 0.
  Hypothesis Rd : comps_ready dbg d0 (f_components fr) (s_headers sc) ts.
  Hypothesis FG : frame_good fr.
  Hypothesis Few : (total_blocks (f_components fr) <= MAX_BLOCKS)%nat.
  Hypothesis Bpm : Forall (fun c => Z.to_nat (c_blocks_per_mcu c) = blocks_in c) (f_components fr).
  Hypothesis Spec : Forall2 same_blocks (f_components fr) specs.
  Hypothesis Pos : Forall (fun s => 0 <= cs_h s * cs_v s) specs.
  Hypothesis Qt : Forall (fun c => exists qt, index (d_qt d0) (c_tq c) = Ok (Some qt)) (f_components fr).
  Hypothesis Cp : coding_process fr = Ok Baseline \/ coding_process fr = Ok Sequential.
  Hypothesis Rp : 0 <= d_restart d0.
  Hypothesis Lts : (length ts <= 4)%nat.

  Record in_code (run : Z) (ps : list Z) (d : decoder) : Prop := mkCode {
    ic_set : exists s, d = set_ss d0 s;
    ic_preds : exists extra, ss_preds (d_ss d) = ps ++ extra /\ (length ps + length extra = 4)%nat;
    ic_len : length ps = length ts;
    ic_eob : ss_eob (d_ss d) = run;
    ic_run : 0 <= run;
    ic_sized : Forall2 (sized MH) (f_components fr) (ss_results (d_ss d));
  }.

  Lemma shape_of : forall m, Forall2 (fun s qs => lenZ qs = Z.of_nat (Z.to_nat (cs_h s * cs_v s))) specs m -> mcu_shape specs m.
  Proof.
    intros m F. unfold mcu_shape. revert Pos. clear - F. induction F as [|s qs specs m L F IH]; intros P; [constructor|]. inv P. constructor; [rewrite L, Z2Nat.id; auto|apply IH; assumption].
  Qed.

  Lemma avail_blocks : (fold_right (fun c n => (Z.to_nat (c_blocks_per_mcu c) + n)%nat) 0%nat (f_components fr) <= MAX_BLOCKS)%nat.
  Proof.
    assert (E : fold_right (fun c n => (Z.to_nat (c_blocks_per_mcu c) + n)%nat) 0%nat (f_components fr) = total_blocks (f_components fr)).
    { unfold total_blocks. generalize Bpm. clear. generalize (f_components fr). clear. intros cs F. induction F as [|c cs Hc F IH]; [reflexivity|]. cbn [fold_right]. rewrite IH, Hc. reflexivity. }
    rewrite E. exact Few.
  Qed.

  Lemma row_ref : forall z tail run ps d b bits, marker_tail tail -> bytes tail -> in_code run ps d -> stands z tail b bits ->
    match ref_mcu z specs ts run ps bits with
    | Some (m, run', ps', rest) => exists d1 b1, decode_row dbg d b = Ok (d1, b1) /\ logged (ss_coefs (d_ss d1)) m /\ mcu_shape specs m /\ in_code run' ps' d1 /\ same_counts d d1 /\
        (MAX_BLOCKS <= length (ss_coefs (d_ss d1)))%nat /\ stands z tail b1 rest
    | None => z = true -> exists e, decode_row dbg d b = Fail e
    end.
  Proof.
    intros z tail run ps d b bits MT BT [[s ->] [extra [Ps Lp]] Lps Eo Hr Sz] St. cbn [set_ss d_ss] in *.
    pose proof (mcu_ref dbg z tail MT BT (set_ss d0 s) sc S0 S1 S2 _ _ _ (ready_set dbg d0 s _ _ _ Rd) specs Spec ps extra MAX_BLOCKS b bits run Lps avail_blocks Hr St) as M.
    unfold decode_row. cbn [set_ss d_scan d_frame d_ss]. rewrite Sc, Fr, Ps, Eo.
    destruct (ref_mcu z specs ts run ps bits) as [[[[m run'] ps'] rest]|]; [|intros Z; destruct (M Z) as [e E]; exists e; rewrite E; reflexivity].
    destruct M as [R' [Lp' [Sh [blks [b1 [E [V St1]]]]]]]. rewrite E. cbn [bind]. eexists _, b1. split; [reflexivity|]. cbn [set_ss d_ss ss_coefs]. split; [|split; [|split; [|split; [|split]]]].
    - intros k q Ek. assert (X : exists blk, nth_error blks k = Some blk /\ q_values blk q).
      { clear - V Ek. revert k Ek. induction V; intros [|k] Ek; cbn [nth_error] in *; try discriminate; [inv Ek; eauto|apply IHV; exact Ek]. }
      destruct X as [blk [X1 X2]]. exists blk. split; [|exact X2]. rewrite nth_error_app1; [exact X1|]. apply nth_error_Some. congruence.
    - apply shape_of. exact Sh.
    - constructor; cbn [set_ss d_ss ss_preds ss_eob ss_results]; auto; [eexists; reflexivity|]. exists extra. split; [reflexivity|]. lia.
    - split; reflexivity.
    - rewrite app_length, repeat_length. generalize MAX_BLOCKS, (length blks). intros; lia.
    - exact St1.
  Qed.

  Definition zs : list Z := map (fun _ => 0) ts.

  Lemma holds_input : forall z tail b bits, stands z tail b bits -> parse_marker (bi_input b) = parse_marker tail.
  Proof. intros z tail b bits St. destruct (St 0%nat ltac:(auto)) as [_ [ds [_ [Ei _]]]]. rewrite Ei. apply parse_marker_stuff. Qed.

  Lemma step_ref : forall z tail run ps d b bits pre y x rest, marker_tail tail -> bytes tail -> in_code run ps d -> stands z tail b bits ->
    mcu_list (f_mcu fr) = pre ++ (y, x) :: rest -> counters r (lenZ pre) d ->
    let i := lenZ pre in
    match ref_mcu z specs ts run ps bits with
    | None => z = true -> forall todo log d' b', ~ mcus_read dbg ((y, x) :: todo) d b log d' b'
    | Some (m, run', ps', bits') => mcu_shape specs m /\
        if restart_due r N i then
          (forall rest', parse_marker tail = Ok (RST ((i / r) mod 8), rest') ->
             exists coefs d', mcus_read dbg [(y, x)] d b [coefs] d' (mkBiter rest' 0 0) /\ logged coefs m /\ (rest <> [] -> counters r (i + 1) d') /\ in_code 0 zs d') /\
          ((forall rest', parse_marker tail <> Ok (RST ((i / r) mod 8), rest')) -> forall todo log d' b', ~ mcus_read dbg ((y, x) :: todo) d b log d' b')
        else exists coefs d' b', mcus_read dbg [(y, x)] d b [coefs] d' b' /\ logged coefs m /\ (rest <> [] -> counters r (i + 1) d') /\ in_code run' ps' d' /\ stands z tail b' bits'
    end.
  Proof.
    intros z tail run ps d b bits pre y x rest MT BT I St E C i.
    pose proof (row_ref z tail run ps d b bits MT BT I St) as RR.
    destruct (ref_mcu z specs ts run ps bits) as [[[[m run'] ps'] bits']|].
    2:{ intros Z todo log d' b' H. destruct (RR Z) as [e ER]. apply reads_cons in H. destruct H as [d1 [b1 [_ [_ [_ [_ [_ [ER2 _]]]]]]]]. congruence. }
    destruct RR as [d1 [b1 [ER [Lg [Sh [I1 [Sm [Lc St1]]]]]]]]. split; [exact Sh|].
    assert (Fr1 : d_frame d1 = Some fr /\ d_restart d1 = r) by (destruct I1 as [[s1 ->] _ _ _ _ _]; cbn; auto). destruct Fr1 as [Fr1 R1].
    assert (C1 : counters (d_restart d1) i d1) by (rewrite R1; intros H; destruct (C H); destruct Sm as [A B]; rewrite A, B; auto).
    destruct (mcu_in _ _ _ _ _ E) as [Hx Hy]. fold MW in Hx. fold MH in Hy.
    assert (Go : forall s2 b2 ps2 extra2 run2, after_mcu dbg x y d1 b1 = Ok (set_ss d1 s2, b2) -> ss_eob s2 = run2 -> 0 <= run2 -> ss_preds s2 = ps2 ++ extra2 -> (length ps2 + length extra2 = 4)%nat -> length ps2 = length ts ->
      exists d', mcus_read dbg [(y, x)] d b [ss_coefs (d_ss d1)] d' b2 /\ (rest <> [] -> counters r (i + 1) d') /\ in_code run2 ps2 d').
    { intros s2 b2 ps2 extra2 run2 EA Eo2 Hr2 Hp Hl Hl2. pose proof EA as EA0. apply after_set in EA0. destruct EA0 as [s2' [Es2 [Sc2 Sr2]]].
      assert (Es2' : s2' = s2) by (assert (X : d_ss (set_ss d1 s2) = d_ss (set_ss d1 s2')) by congruence; cbn in X; congruence). subst s2'. clear Es2.
      pose proof I1 as [[s1 E1] _ _ _ _ Sz].
      destruct (deq_ok dbg d0 fr Fr FG Few Qt Cp x y (set_ss d1 s2)) as [pl [ED Sz2]].
      { exists s2. rewrite E1. reflexivity. }
      { exact Hx. } { exact Hy. } { cbn [set_ss d_ss]. rewrite Sr2. exact Sz. } { cbn [set_ss d_ss]. rewrite Sc2. exact Lc. }
      cbn [set_ss d_ss] in ED. exists (set_ss d1 (set_results s2 pl)). split; [econstructor; eauto; constructor|]. split.
      - intros NR. pose proof (after_counts dbg d1 b1 fr pre y x rest _ _ Fr1 E NR C1 EA) as C2. cbn [set_ss d_restart] in C2. rewrite R1 in C2. exact C2.
      - constructor; cbn [set_ss d_ss set_results ss_preds ss_eob ss_results]; auto; [exists (set_results s2 pl); rewrite E1; reflexivity|eauto]. }
    destruct (restart_due r N i) eqn:Du.
    - split.
      + intros rest' P. assert (FM : first_marker (bi_input b1) (0xD0 + (i / r) mod 8) rest').
        { rewrite <- (holds_input _ _ _ _ St1) in P. apply parse_marker_ok in P. destruct P as [c [Cc FM]]. inversion Cc; subst. exact FM. }
        rewrite <- R1 in FM, Du. destruct (after_due dbg d1 fr b1 pre y x rest rest' Fr1 E C1 Du FM) as [s2 [A1 [A2 A3]]].
        destruct (Go s2 _ zs (repeat 0 (4 - length ts)) 0 A1 A3 ltac:(lia)) as [d' [M [C2 I2]]].
        * rewrite A2. unfold zs. clear - Lts. destruct ts as [|a [|b [|c [|e [|f l]]]]]; try reflexivity. cbn in Lts. lia.
        * unfold zs. rewrite map_length, repeat_length. lia.
        * unfold zs. apply map_length.
        * exists (ss_coefs (d_ss d1)), d'. auto.
      + intros NM todo log d' b' H. apply reads_cons in H. destruct H as [d1' [b1' [d2 [b2 [_ [_ [_ [ER2 [EA _]]]]]]]]].
        assert (X1 : d1' = d1 /\ b1' = b1) by (split; congruence). destruct X1; subst d1' b1'. revert EA.
        apply (after_wrong dbg d1 fr b1 pre y x rest Fr1 E C1); rewrite R1; [exact Du|]. intros rest'. rewrite (holds_input _ _ _ _ St1). apply NM.
    - rewrite <- R1 in Du. destruct (after_not_due dbg d1 fr b1 pre y x rest Fr1 E C1 Du) as [s2 [A1 [A2 A3]]].
      pose proof I1 as [_ [extra [Ps Lp]] Lps Eo Hr' _].
      destruct (Go s2 _ ps' extra run' A1 ltac:(congruence) Hr' ltac:(congruence) Lp Lps) as [d' [M [C2 I2]]].
      exists (ss_coefs (d_ss d1)), d', b1. auto.
  Qed.

  Lemma interval_ref : forall z tail, marker_tail tail -> bytes tail ->
    forall n run ps bits pre todo rest d b, length todo = n -> (0 < n)%nat -> mcu_list (f_mcu fr) = pre ++ todo ++ rest ->
    in_code run ps d -> counters r (lenZ pre) d -> stands z tail b bits ->
    (forall i, lenZ pre <= i < lenZ pre + lenZ todo -> restart_due r N i = true -> i = lenZ pre + lenZ todo - 1) ->
    let i := lenZ pre + lenZ todo - 1 in
    match ref_mcus z specs ts n run ps bits with
    | None => z = true -> forall log d' b', ~ mcus_read dbg todo d b log d' b'
    | Some ms => Forall (mcu_shape specs) ms /\ length ms = n /\
        if restart_due r N i then
          (forall rest', parse_marker tail = Ok (RST ((i / r) mod 8), rest') ->
             exists log d', mcus_read dbg todo d b log d' (mkBiter rest' 0 0) /\ Forall2 logged log ms /\ (rest <> [] -> counters r (i + 1) d') /\ in_code 0 zs d') /\
          ((forall rest', parse_marker tail <> Ok (RST ((i / r) mod 8), rest')) -> forall log d' b', ~ mcus_read dbg todo d b log d' b')
        else exists log d' b', mcus_read dbg todo d b log d' b' /\ Forall2 logged log ms
    end.
  Proof.
    intros z tail MT BT. induction n as [|n IH]; intros run ps bits pre todo rest d b L Hn E I C St Due i; [lia|].
    destruct todo as [|[y x] todo]; [discriminate|]. cbn [length] in L. cbn [app] in E.
    pose proof (step_ref z tail run ps d b bits pre y x (todo ++ rest) MT BT I St E C) as SR. cbv zeta in SR. cbn [ref_mcus].
    destruct (ref_mcu z specs ts run ps bits) as [[[[m run'] ps'] bits']|]; [|intros Z log d' b'; exact (SR Z todo log d' b')].
    destruct SR as [Sh SR]. assert (L1 : lenZ ((y, x) :: todo) = lenZ todo + 1) by (unfold lenZ; cbn [length]; lia). assert (L0 : 0 <= lenZ todo) by (unfold lenZ; lia).
    destruct todo as [|t0 todo].
    - destruct n as [|n]; [|discriminate]. cbn [ref_mcus]. split; [constructor; auto|]. split; [reflexivity|].
      assert (Ei : i = lenZ pre) by (unfold i; rewrite L1; unfold lenZ; cbn [length]; lia). rewrite Ei in *. clear Ei i. cbn [app] in SR.
      destruct (restart_due r N (lenZ pre)).
      + destruct SR as [G1 G2]. split.
        * intros rest' P. destruct (G1 rest' P) as [coefs [d' [M [Lg [C' I']]]]]. exists [coefs], d'. auto.
        * intros NM log d' b'. exact (G2 NM [] log d' b').
      + destruct SR as [coefs [d' [b' [M [Lg _]]]]]. exists [coefs], d', b'. auto.
    - assert (ND : restart_due r N (lenZ pre) = false).
      { destruct (restart_due r N (lenZ pre)) eqn:D; [|reflexivity]. pose proof (Due (lenZ pre) ltac:(lia) D) as Q. unfold lenZ in *. cbn [length] in *. lia. }
      rewrite ND in SR. destruct SR as [coefs [d1 [b1 [M [Lg [C1 [I1 St1]]]]]]].
      assert (Li : lenZ (pre ++ [(y, x)]) = lenZ pre + 1) by (unfold lenZ; rewrite app_length; cbn [length]; lia).
      specialize (IH run' ps' bits' (pre ++ [(y, x)]) (t0 :: todo) rest d1 b1). rewrite Li in IH.
      specialize (IH ltac:(lia) ltac:(cbn [length] in L; lia) ltac:(rewrite <- app_assoc; exact E) I1 (C1 ltac:(discriminate)) St1).
      assert (Due' : forall j, lenZ pre + 1 <= j < lenZ pre + 1 + lenZ (t0 :: todo) -> restart_due r N j = true -> j = lenZ pre + 1 + lenZ (t0 :: todo) - 1).
      { intros j Hj D. rewrite (Due j ltac:(lia) D). lia. }
      specialize (IH Due'). clear Due'. cbv zeta in IH. replace (lenZ pre + 1 + lenZ (t0 :: todo) - 1) with i in IH by (unfold i; lia).
      assert (Back : forall log d' b', mcus_read dbg ((y, x) :: t0 :: todo) d b log d' b' -> exists log2, mcus_read dbg (t0 :: todo) d1 b1 log2 d' b').
      { intros log d' b' H. apply (reads_split dbg [(y, x)] (t0 :: todo)) in H. destruct H as [log1 [d2 [b2 [log2 [_ [H1 H2]]]]]].
        destruct (reads_same _ _ _ _ _ _ _ M _ _ _ H1) as [_ [-> ->]]. eauto. }
      destruct (ref_mcus z specs ts n run' ps' bits') as [ms|]; [|intros Z log d' b' H; destruct (Back _ _ _ H) as [log2 H2]; exact (IH Z _ _ _ H2)].
      destruct IH as [Sh2 [Lm IH]]. split; [constructor; auto|]. split; [cbn [length]; lia|].
      destruct (restart_due r N i).
      + destruct IH as [G1 G2]. split.
        * intros rest' P. destruct (G1 rest' P) as [log [d' [M2 [Lg2 CI]]]]. exists (coefs :: log), d'. split; [apply (reads_app dbg [(y, x)] (t0 :: todo) d b [coefs] d1 b1 log d' _ M M2)|]. split; [constructor; auto|exact CI].
        * intros NM log d' b' H. destruct (Back _ _ _ H) as [log2 H2]. exact (G2 NM _ _ _ H2).
      + destruct IH as [log [d' [b' [M2 Lg2]]]]. exists (coefs :: log), d', b'. split; [apply (reads_app dbg [(y, x)] (t0 :: todo) d b [coefs] d1 b1 log d' _ M M2)|constructor; auto].
  Qed.

  Lemma clean_ends : forall ds, ends_clean ds = true <-> clean_end ds.
  Proof.
    intros ds. unfold ends_clean, clean_end. rewrite forallb_forall, Forall_forall. split; intros H x Hx; specialize (H x Hx); [intros ->; discriminate|].
    apply Bool.negb_true_iff. apply Z.eqb_neq. exact H.
  Qed.
  Lemma start_stands : forall ds tail, bytes ds -> stands (ends_clean ds) tail (mkBiter (stuff ds ++ tail) 0 0) (bits_of ds).
  Proof.
    intros ds tail B n [->|Z].
    - cbn [repeat]. rewrite app_nil_r. apply (biter_new_holds ds tail B).
    - apply (biter_new_zeros ds tail n B). apply clean_ends. exact Z.
  Qed.
  Lemma rst_first : forall n rest, 0 <= n < 8 -> parse_marker ([255; 0xD0 + n] ++ rest) = Ok (RST n, rest).
  Proof.
    intros n rest Hn. unfold parse_marker. cbn [app marker_scan]. assert (X : n = 0 \/ n = 1 \/ n = 2 \/ n = 3 \/ n = 4 \/ n = 5 \/ n = 6 \/ n = 7) by lia.
    destruct X as [->|[->|[->|[->|[->|[->|[->| ->]]]]]]]; reflexivity.
  Qed.
  Lemma more_bytes : forall more, more_ok more -> bytes (flat_map rst_bytes more).
  Proof.
    intros more F. induction F as [|[n ds] more [Hn B] F IH]; cbn [flat_map]; [constructor|]. apply Forall_app. split; [|exact IH].
    unfold rst_bytes. cbn [fst snd] in *. apply Forall_app. split; [repeat first [apply Forall_nil | apply Forall_cons]; unfold is_byte; lia|exact (stuff_bytes d0 fr ts Few Lts _ B)].
  Qed.

  Lemma last_ref : forall tail ds pre todo d, marker_tail tail -> bytes tail -> bytes ds -> todo <> [] -> mcu_list (f_mcu fr) = pre ++ todo ->
    in_code 0 zs d -> counters r (lenZ pre) d -> (0 < r -> lenZ pre mod r = 0) -> r = 0 \/ lenZ todo <= r ->
    match ref_interval specs ts (Z.to_nat (lenZ todo)) ds with
    | Some ms => Forall (mcu_shape specs) ms /\ length ms = length todo /\
        exists log d' b', mcus_read dbg todo d (mkBiter (stuff ds ++ tail) 0 0) log d' b' /\ Forall2 logged log ms
    | None => clean_end ds -> forall log d' b', ~ mcus_read dbg todo d (mkBiter (stuff ds ++ tail) 0 0) log d' b'
    end.
  Proof.
    intros tail ds pre todo d MT BT B Nt E I C P Q.
    assert (L0 : 0 < lenZ todo) by (destruct todo; [congruence|unfold lenZ; cbn [length]; lia]).
    unfold ref_interval. replace (Z.to_nat (lenZ todo)) with (length todo) by (unfold lenZ; lia). fold zs.
    assert (ND : forall i, lenZ pre <= i < lenZ pre + lenZ todo -> restart_due r N i = true -> False).
    { intros i Hi Du. assert (LN : N = lenZ pre + lenZ todo) by (unfold N, lenZ; rewrite E, app_length; lia).
      unfold restart_due in Du. apply andb_prop in Du. destruct Du as [Du D3]. apply andb_prop in Du. destruct Du as [D1 D2].
      assert (Hr : 0 < r) by lia. pose proof (P Hr) as P1. assert (Lt : lenZ todo <= r) by lia.
      apply Z.eqb_eq in D2. apply Z.mod_divide in D2; [|lia]. apply Z.mod_divide in P1; [|lia]. destruct D2 as [a D2]. destruct P1 as [c P1].
      assert (c < a < c + 1) by nia. lia. }
    pose proof (interval_ref (ends_clean ds) tail MT BT (length todo) 0 zs (bits_of ds) pre todo [] d _ eq_refl ltac:(unfold lenZ in L0; lia) ltac:(rewrite app_nil_r; exact E) I C
      (start_stands ds tail B) ltac:(intros i Hi Du; exfalso; exact (ND i Hi Du))) as IR. cbv zeta in IR.
    destruct (restart_due r N (lenZ pre + lenZ todo - 1)) eqn:Du; [exfalso; exact (ND (lenZ pre + lenZ todo - 1) ltac:(lia) Du)|].
    destruct (ref_mcus (ends_clean ds) specs ts (length todo) 0 zs (bits_of ds)) as [ms|]; [exact IR|]. intros CE. apply IR. apply clean_ends. exact CE.
  Qed.

  Lemma first_ref : forall tail n ds pre t1 t2 d, marker_tail tail -> bytes tail -> bytes ds -> t2 <> [] -> lenZ t1 = r -> mcu_list (f_mcu fr) = pre ++ t1 ++ t2 ->
    in_code 0 zs d -> counters r (lenZ pre) d -> 0 < r -> lenZ pre mod r = 0 -> n = (lenZ pre / r) mod 8 ->
    match ref_interval specs ts (Z.to_nat r) ds with
    | Some ms => Forall (mcu_shape specs) ms /\ length ms = length t1 /\
        (forall rest, parse_marker tail = Ok (RST n, rest) ->
           exists log d1, mcus_read dbg t1 d (mkBiter (stuff ds ++ tail) 0 0) log d1 (mkBiter rest 0 0) /\ Forall2 logged log ms /\ counters r (lenZ pre + r) d1 /\ in_code 0 zs d1) /\
        ((forall rest, parse_marker tail <> Ok (RST n, rest)) -> forall log d' b', ~ mcus_read dbg (t1 ++ t2) d (mkBiter (stuff ds ++ tail) 0 0) log d' b')
    | None => clean_end ds -> forall log d' b', ~ mcus_read dbg (t1 ++ t2) d (mkBiter (stuff ds ++ tail) 0 0) log d' b'
    end.
  Proof.
    intros tail n ds pre t1 t2 d MT BT B Nt Lt1 E I C Hr P1 P2.
    assert (LN : N = lenZ pre + r + lenZ t2) by (unfold N; rewrite E; unfold lenZ in *; rewrite !app_length; lia).
    assert (Lt2 : 0 < lenZ t2) by (unfold lenZ; destruct t2; [congruence|cbn [length]; lia]).
    assert (Dm : (lenZ pre + r - 1) / r = lenZ pre / r /\ (lenZ pre + r - 1 + 1) mod r = 0).
    { apply Z.mod_divide in P1; [|lia]. destruct P1 as [c P1]. rewrite P1. rewrite Z.div_mul by lia. split.
      - replace (c * r + r - 1) with (r - 1 + c * r) by lia. rewrite Z.div_add by lia. rewrite Z.div_small by lia. lia.
      - replace (c * r + r - 1 + 1) with ((c + 1) * r) by lia. apply Z.mod_mul. lia. }
    destruct Dm as [Dm1 Dm2].
    assert (Due : forall i, lenZ pre <= i < lenZ pre + lenZ t1 -> restart_due r N i = true -> i = lenZ pre + lenZ t1 - 1).
    { intros i Hi Du. rewrite Lt1 in *. unfold restart_due in Du. apply andb_prop in Du. destruct Du as [Du D3]. apply andb_prop in Du. destruct Du as [D1 D2].
      apply Z.eqb_eq in D2. pose proof P1 as P1'. apply Z.mod_divide in D2; [|lia]. apply Z.mod_divide in P1'; [|lia]. destruct D2 as [a D2]. destruct P1' as [c P1'].
      assert (a = c + 1) by nia. subst a. lia. }
    assert (Du : restart_due r N (lenZ pre + r - 1) = true).
    { unfold restart_due. rewrite Dm2. replace (0 <? r) with true by lia. change (0 =? 0) with true. cbn [andb]. lia. }
    unfold ref_interval. fold zs. replace (Z.to_nat r) with (length t1) by (unfold lenZ in Lt1; lia).
    pose proof (interval_ref (ends_clean ds) tail MT BT (length t1) 0 zs (bits_of ds) pre t1 t2 d _ eq_refl ltac:(unfold lenZ in Lt1; lia) E I C (start_stands ds tail B) Due) as IR.
    cbv zeta in IR. rewrite Lt1, Du, Dm1, <- P2 in IR. replace (lenZ pre + r - 1 + 1) with (lenZ pre + r) in IR by lia.
    assert (Back : forall log d' b' b, mcus_read dbg (t1 ++ t2) d b log d' b' -> exists log1 d1 b1, mcus_read dbg t1 d b log1 d1 b1).
    { intros log d' b' b H. apply reads_split in H. destruct H as [log1 [d1 [b1 [log2 [_ [H1 _]]]]]]. eauto. }
    destruct (ref_mcus (ends_clean ds) specs ts (length t1) 0 zs (bits_of ds)) as [ms|].
    - destruct IR as [Sh [Lm [G1 G2]]]. split; [exact Sh|]. split; [exact Lm|]. split.
      + intros rest PM. destruct (G1 rest PM) as [log [d1 [M [Lg [C1 I1]]]]]. exists log, d1. auto.
      + intros NM log d' b' H. destruct (Back _ _ _ _ H) as [log1 [d1 [b1 H1]]]. exact (G2 NM _ _ _ H1).
    - intros CE log d' b' H. destruct (Back _ _ _ _ H) as [log1 [d1 [b1 H1]]]. apply clean_ends in CE. exact (IR CE _ _ _ H1).
  Qed.

  Lemma scan_ref : forall tail, marker_tail tail -> bytes tail -> (forall n rest, parse_marker tail <> Ok (RST n, rest)) ->
    forall more, more_ok more -> forall n ds pre todo d, bytes ds -> 0 <= n < 8 -> todo <> [] -> mcu_list (f_mcu fr) = pre ++ todo ->
    in_code 0 zs d -> counters r (lenZ pre) d -> (0 < r -> lenZ pre mod r = 0 /\ n = (lenZ pre / r) mod 8) ->
    match ref_scan specs ts r n (lenZ todo) ds more with
    | Some ms => Forall (mcu_shape specs) ms /\ length ms = length todo /\
        exists log d' b', mcus_read dbg todo d (mkBiter (scan_bytes ds more ++ tail) 0 0) log d' b' /\ Forall2 logged log ms
    | None => Forall clean_end (ds :: map snd more) -> forall log d' b', ~ mcus_read dbg todo d (mkBiter (scan_bytes ds more ++ tail) 0 0) log d' b'
    end.
  Proof.
    intros tail MT BT NR. induction more as [|[m ds'] more IH]; intros MO n ds pre todo d B Hn Nt E I C P.
    - unfold scan_bytes. cbn [flat_map ref_scan map]. rewrite app_nil_r.
      destruct ((r =? 0) || (lenZ todo <=? r)) eqn:Q.
      + pose proof (last_ref tail ds pre todo d MT BT B Nt E I C (fun H => proj1 (P H)) ltac:(lia)) as LR.
        destruct (ref_interval specs ts (Z.to_nat (lenZ todo)) ds); [exact LR|]. intros CE. apply LR. exact (Forall_inv CE).
      + assert (Hr : 0 < r) by (unfold r in *; lia). destruct (P Hr) as [P1 P2]. pose proof (firstn_skipn (Z.to_nat r) todo) as FS.
        pose proof (first_ref tail n ds pre (firstn (Z.to_nat r) todo) (skipn (Z.to_nat r) todo) d MT BT B) as FF. rewrite FS in FF.
        specialize (FF ltac:(intros X; apply (f_equal (@length _)) in X; rewrite skipn_length in X; unfold lenZ in Q; cbn [length] in X; lia)
          ltac:(unfold lenZ in *; rewrite firstn_length; lia) E I C Hr P1 P2).
        assert (None' : Forall clean_end [ds] -> forall log d' b', ~ mcus_read dbg todo d (mkBiter (stuff ds ++ tail) 0 0) log d' b').
        { intros CE. destruct (ref_interval specs ts (Z.to_nat r) ds); [apply FF; apply NR|apply FF; exact (Forall_inv CE)]. }
        destruct (ref_interval specs ts (Z.to_nat r) ds); exact None'.
    - inversion MO as [|p0 l0 MO1 MO2]; subst p0 l0. cbn [fst snd] in MO1. destruct MO1 as [Hm Bd].
      set (tail1 := [255; 0xD0 + m] ++ scan_bytes ds' more ++ tail).
      assert (ES : scan_bytes ds ((m, ds') :: more) ++ tail = stuff ds ++ tail1).
      { unfold scan_bytes, tail1. cbn [flat_map]. unfold rst_bytes at 1, scan_bytes. cbn [fst snd]. rewrite <- !app_assoc. reflexivity. }
      rewrite ES. cbn [ref_scan map snd].
      assert (MT1 : marker_tail tail1) by (eexists _, _; split; [reflexivity|lia]).
      assert (BT1 : bytes tail1).
      { apply Forall_app; split; [repeat first [apply Forall_nil | apply Forall_cons]; unfold is_byte; lia|apply Forall_app; split; [|exact BT]].
        apply Forall_app; split; [exact (stuff_bytes d0 fr ts Few Lts _ Bd)|apply more_bytes; exact MO2]. }
      destruct ((r =? 0) || (lenZ todo <=? r)) eqn:Q.
      + pose proof (last_ref tail1 ds pre todo d MT1 BT1 B Nt E I C (fun H => proj1 (P H)) ltac:(lia)) as LR.
        destruct (ref_interval specs ts (Z.to_nat (lenZ todo)) ds); [exact LR|]. intros CE. apply LR. exact (Forall_inv CE).
      + assert (Hr : 0 < r) by (unfold r in *; lia). destruct (P Hr) as [P1 P2]. pose proof (firstn_skipn (Z.to_nat r) todo) as FS.
        set (t1 := firstn (Z.to_nat r) todo) in *. set (t2 := skipn (Z.to_nat r) todo) in *.
        assert (L1 : lenZ t1 = r) by (unfold t1, lenZ; unfold lenZ in Q; rewrite firstn_length; lia).
        assert (L2 : lenZ t2 = lenZ todo - r) by (unfold t2, lenZ; unfold lenZ in Q; rewrite skipn_length; lia).
        assert (N2 : t2 <> []) by (intros X; rewrite X in L2; change (lenZ (@nil (Z * Z))) with 0 in L2; lia).
        pose proof (first_ref tail1 n ds pre t1 t2 d MT1 BT1 B N2 L1 ltac:(rewrite FS; exact E) I C Hr P1 P2) as FF. rewrite FS in FF.
        destruct (ref_interval specs ts (Z.to_nat r) ds) as [ms1|]; [|intros CE; apply FF; exact (Forall_inv CE)].
        destruct FF as [Sh1 [Lm1 [G1 G2]]].
        destruct (Z.eqb_spec m n) as [->|Nm].
        2:{ intros _. apply G2. intros rest. unfold tail1. rewrite rst_first by lia. congruence. }
        destruct (G1 (scan_bytes ds' more ++ tail) ltac:(unfold tail1; apply rst_first; exact Hn)) as [log1 [d1 [M1 [Lg1 [C1 I1]]]]].
        assert (Lp1 : lenZ (pre ++ t1) = lenZ pre + r) by (unfold lenZ in *; rewrite app_length; lia).
        specialize (IH MO2 ((n + 1) mod 8) ds' (pre ++ t1) t2 d1 Bd ltac:(apply Z.mod_pos_bound; lia) N2 ltac:(rewrite <- app_assoc, FS; exact E) I1 ltac:(rewrite Lp1; exact C1)).
        rewrite L2 in IH. assert (P' : 0 < r -> lenZ (pre ++ t1) mod r = 0 /\ (n + 1) mod 8 = (lenZ (pre ++ t1) / r) mod 8).
        { intros _. rewrite Lp1. apply Z.mod_divide in P1; [|lia]. destruct P1 as [c P1]. rewrite P1 in *. replace (c * r + r) with ((c + 1) * r) by lia.
          rewrite Z.div_mul in * by lia. split; [apply Z.mod_mul; lia|]. rewrite P2. apply Zplus_mod_idemp_l. }
        specialize (IH P'). clear P'.
        destruct (ref_scan specs ts r ((n + 1) mod 8) (lenZ todo - r) ds' more) as [ms2|].
        * destruct IH as [Sh2 [Lm2 [log2 [d2 [b2 [M2 Lg2]]]]]]. split; [apply Forall_app; auto|]. split; [rewrite <- FS, !app_length; lia|].
          exists (log1 ++ log2), d2, b2. split; [rewrite <- FS; apply (reads_app _ _ _ _ _ _ _ _ _ _ _ M1 M2)|apply Forall2_app; auto].
        * intros CE log d' b' H. rewrite <- FS in H. apply reads_split in H. destruct H as [l1 [e1 [c1 [l2 [_ [H1 H2]]]]]].
          destruct (reads_same _ _ _ _ _ _ _ M1 _ _ _ H1) as [_ [-> ->]]. exact (IH (Forall_inv_tail CE) _ _ _ H2).
  Qed.
End Scan.
