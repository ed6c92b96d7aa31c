(** Reading the MCUs of a scan: painting (C32) and restarts (C22). *)
From Verif Require Import Base Tactics SpecBits Biterator Huffman HuffmanP3 Marker Types Idct IdctP Parsers Decode SpecScan SpecPlane PlaneP SafeP InvP.

Lemma reads_cons : forall dbg y x todo d b log d' b', mcus_read dbg ((y, x) :: todo) d b log d' b' ->
  exists d1 b1 d2 b2 d3 log', log = ss_coefs (d_ss d1) :: log' /\ decode_row dbg d b = Ok (d1, b1) /\
    after_mcu dbg x y d1 b1 = Ok (d2, b2) /\ dequantize dbg x y d2 = Ok d3 /\ mcus_read dbg todo d3 b2 log' d' b'.
Proof. intros dbg y x todo d b log d' b' H. inversion H; subst. repeat eexists; eauto. Qed.

(** ** The scan loop reads MCUs *)
Lemma scan_loop_reads : forall dbg todo d b d' b',
  scan_loop dbg false true todo PhRow d b = (d', b', ScDone) <-> exists log, mcus_read dbg todo d b log d' b'.
Proof.
  intros dbg. induction todo as [|[y x] todo IH]; intros d b d' b'.
  - cbn. split; [intros E; inv E; exists []; constructor|intros [log H]; inv H; reflexivity].
  - split.
    + intros E. cbn [scan_loop] in E. destruct (decode_row dbg d b) as [[d1 b1]|[]| |] eqn:ER; try discriminate.
      destruct (restart_check dbg x y d1) as [[need d2]| | |] eqn:EC; try discriminate.
      destruct (if need then restart_marker d2 b1 else Ok (d2, b1)) as [[d3 b3]|[]| |] eqn:EM; try discriminate.
      destruct (dequantize dbg x y d3) as [d4| | |] eqn:EQ; try discriminate.
      apply IH in E. destruct E as [log E]. exists (ss_coefs (d_ss d1) :: log). eapply mr_cons; eauto. unfold after_mcu. rewrite EC. exact EM.
    + intros [log H]. apply reads_cons in H. destruct H as [d1 [b1 [d2 [b2 [d3 [log' [-> [ER [EA [EQ H]]]]]]]]]]. cbn [scan_loop]. rewrite ER.
      unfold after_mcu in EA. destruct (restart_check dbg x y d1) as [[need d4]| | |]; try discriminate. cbn [bind] in EA.
      rewrite EA, EQ. apply IH. eauto.
Qed.

Lemma reads_app : forall dbg todo1 todo2 d b log1 d1 b1 log2 d2 b2,
  mcus_read dbg todo1 d b log1 d1 b1 -> mcus_read dbg todo2 d1 b1 log2 d2 b2 -> mcus_read dbg (todo1 ++ todo2) d b (log1 ++ log2) d2 b2.
Proof. induction 1; intros HB; cbn [app]; [exact HB|]. econstructor; eauto. Qed.
Lemma reads_length : forall dbg todo d b log d' b', mcus_read dbg todo d b log d' b' -> length log = length todo.
Proof. induction 1; cbn; auto. Qed.

(** ** What the steps leave alone *)
Lemma row_set : forall dbg d b d1 b1, decode_row dbg d b = Ok (d1, b1) ->
  exists coefs ps eob, let s := d_ss d in d1 = set_ss d (mkSS coefs ps eob (ss_rst s) (ss_left s) (ss_results s)) /\ (MAX_BLOCKS <= length coefs)%nat.
Proof.
  intros dbg d b d1 b1 E. unfold decode_row in E. destruct (d_scan d); [|discriminate]. destruct (d_frame d); [|discriminate].
  destruct (decode_comps dbg d s (f_components f) (s_headers s) (ss_preds (d_ss d)) MAX_BLOCKS b (ss_eob (d_ss d))) as [[[[bl ps] b2] eob]| | |]; try discriminate.
  cbn [bind] in E. inv E. exists (bl ++ repeat zero_block (MAX_BLOCKS - length bl)), ps, eob. split; [reflexivity|]. rewrite app_length, repeat_length. generalize MAX_BLOCKS, (length bl); intros; lia.
Qed.
Lemma after_set : forall dbg x y d b d1 b1, after_mcu dbg x y d b = Ok (d1, b1) ->
  exists s, d1 = set_ss d s /\ ss_coefs s = ss_coefs (d_ss d) /\ ss_results s = ss_results (d_ss d).
Proof.
  intros dbg x y d b d1 b1 E. unfold after_mcu in E. destruct (restart_check dbg x y d) as [[need d2]| | |] eqn:EC; try discriminate. cbn [bind] in E.
  assert (A : exists s, d2 = set_ss d s /\ ss_coefs s = ss_coefs (d_ss d) /\ ss_results s = ss_results (d_ss d)).
  { unfold restart_check in EC. destruct (0 <? d_restart d).
    - destruct (d_frame d); [|discriminate].
      destruct (usub dbg 16 (dim_w (f_mcu f)) 1); try discriminate. cbn [bind] in EC.
      destruct (if x =? a then let* ly := usub dbg 16 (dim_h (f_mcu f)) 1 in Ok (y =? ly) else Ok false); try discriminate. cbn [bind] in EC.
      destruct (usub dbg 16 (ss_left (d_ss d)) 1); try discriminate. cbn [bind] in EC. inv EC. eexists. split; [reflexivity|]. split; reflexivity.
    - inv EC. exists (d_ss d2). destruct d2; auto. }
  destruct A as [s [-> [A1 A2]]]. destruct need; [|inv E; exists s; auto].
  unfold restart_marker in E. destruct (parse_marker (bi_input b)) as [[m rest]| | |]; try discriminate. cbn [bind] in E. unfold handle_restart in E.
  destruct m; try discriminate. destruct (_ =? _); [|discriminate]. inv E. eexists. split; [reflexivity|]. split; [exact A1|exact A2].
Qed.

(** ** Painting *)
(** Number of the first block of the [k]-th component in the MCU. *)
Definition first_block (cs : list component) (k : nat) : nat := total_blocks (firstn k cs).

Lemma painted_nth : forall qts mx my cs blocks ps ps', mcu_painted qts mx my cs blocks ps ps' ->
  length ps' = length cs /\
  forall k c p p', nth_error cs k = Some c -> nth_error ps k = Some p -> nth_error ps' k = Some p' ->
    exists qt, index qts (c_tq c) = Ok (Some qt) /\ painted c qt mx my (skipn (first_block cs k) blocks) p p'.
Proof.
  induction 1 as [blocks|c cs blocks p p' ps ps' qt Q Lb P M [L IH]].
  - split; [reflexivity|]. intros [|k] c p p' H; discriminate.
  - split; [cbn; lia|]. intros [|k] c0 p0 p0' E1 E2 E3; cbn [nth_error] in *.
    + inv E1. inv E2. inv E3. exists qt. split; auto.
    + destruct (IH k c0 p0 p0' E1 E2 E3) as [qt0 [Q0 P0]]. exists qt0. split; auto.
      unfold first_block in *. cbn [firstn total_blocks fold_right]. fold (total_blocks (firstn k cs)). rewrite skipn_skipn, Nat.add_comm in P0. exact P0.
Qed.

(** The planes after reading [todo]: the samples of its MCUs come from the log, the others
    are as before. *)
Lemma reads_painted : forall dbg MW MH fr, Forall (fits MW MH) (f_components fr) ->
  forall todo d b log d' b', mcus_read dbg todo d b log d' b' -> d_frame d = Some fr ->
  (forall y x, In (y, x) todo -> 0 <= x < MW /\ 0 <= y < MH) -> NoDup todo ->
  Forall2 (sized MH) (f_components fr) (ss_results (d_ss d)) ->
  (exists s, d' = set_ss d s) /\ Forall2 (sized MH) (f_components fr) (ss_results (d_ss d')) /\
  forall k c p p', nth_error (f_components fr) k = Some c -> nth_error (ss_results (d_ss d)) k = Some p ->
    nth_error (ss_results (d_ss d')) k = Some p' ->
    forall r q, 0 <= r -> 0 <= q < c_line_stride c ->
      (forall i, nth_error todo i = Some (mcu_row (c_v c) r, mcu_col (c_h c) q) ->
         exists qt, index (d_qt d) (c_tq c) = Ok (Some qt) /\
         sample_at p' (c_line_stride c) r q =
           Some (in_block (block_samples (nth (first_block (f_components fr) k + Z.to_nat (block_no (c_h c) (c_v c) r q)) (nth i log []) []) qt) r q)) /\
      (~ In (mcu_row (c_v c) r, mcu_col (c_h c) q) todo -> sample_at p' (c_line_stride c) r q = sample_at p (c_line_stride c) r q).
Proof.
  intros dbg MW MH fr Ft todo d b log d' b' H. induction H as [d b|y x todo d b d1 b1 d2 b2 d3 log d' b' ER EA EQ HR IH]; intros Fr Rg ND Sz.
  - split; [exists (d_ss d); destruct d; reflexivity|]. split; [exact Sz|]. intros k c p p' Ec Ep Ep' r q Hr Hq. rewrite Ep in Ep'. inv Ep'.
    split; [intros [|i] E; discriminate|reflexivity].
  - apply row_set in ER. destruct ER as [coefs [ps [eob ER]]]. cbv zeta in ER. destruct ER as [-> _].
    apply after_set in EA. destruct EA as [s [-> [EA1 EA2]]]. cbn [set_ss d_ss ss_coefs ss_results] in EA1, EA2.
    unfold dequantize in EQ. cbn [set_ss d_frame d_qt d_ss] in EQ. rewrite Fr in EQ.
    destruct (coding_process fr) as [cp| | |]; try discriminate. cbn [bind] in EQ.
    destruct (match cp with Progressive => Panic PUnimplemented | _ => Ok tt end) as [u| | |]; try discriminate. cbn [bind] in EQ.
    destruct (Rg y x ltac:(left; reflexivity)) as [Hx Hy].
    pose proof (mcu_comps dbg MW MH (d_qt d) x y (f_components fr) (ss_results s) (ss_coefs s) Ft) as M. rewrite EA2 in M at 1.
    specialize (M Sz Hx Hy).
    destruct (dequantize_comps dbg (d_qt d) x y (f_components fr) (ss_results s) (ss_coefs s)) as [ps'| | |]; try discriminate. cbn [bind] in EQ. inv EQ.
    rewrite EA2 in M.
    assert (Sz' : Forall2 (sized MH) (f_components fr) ps').
    { clear - M Sz. revert Sz. generalize dependent (ss_results (d_ss d)). intros res M. induction M; intros Sz; inv Sz; constructor; auto.
      match goal with H : painted _ _ _ _ _ _ _ |- _ => destruct H as [L _] end. unfold sized in *. unfold lenZ in *. rewrite L. assumption. }
    inv ND. destruct IH as [[s' IH0] [IH1 IH2]]; auto.
    { intros y0 x0 I. apply Rg. right. exact I. }
    split; [exists s'; rewrite IH0; reflexivity|]. split; [exact IH1|].
    intros k c p p' Ec Ep Ep' r q Hr Hq. cbn [set_ss d_ss set_results ss_results d_qt] in IH2.
    destruct (painted_nth _ _ _ _ _ _ _ M) as [Lp Pn].
    assert (Ek : exists pm, nth_error ps' k = Some pm).
    { destruct (nth_error ps' k) eqn:Z0; eauto. apply nth_error_None in Z0. assert (nth_error (f_components fr) k <> None) by congruence. apply nth_error_Some in H. lia. }
    destruct Ek as [pm Ek]. destruct (Pn k c p pm Ec Ep Ek) as [qt [Q [_ P]]]. specialize (P r q Hr Hq).
    destruct (IH2 k c pm p' Ec Ek Ep' r q Hr Hq) as [I1 I2]. split.
    + intros [|i] E; cbn [nth_error nth] in *.
      * inv E. exists qt. split; [exact Q|]. rewrite I2 by assumption. rewrite P, !Z.eqb_refl. cbn [andb]. do 3 f_equal. rewrite nth_skipn_gen. reflexivity.
      * apply I1. exact E.
    + intros N. rewrite I2 by (intros I; apply N; right; exact I). rewrite P.
      destruct ((mcu_row (c_v c) r =? y) && (mcu_col (c_h c) q =? x)) eqn:B; [|reflexivity]. exfalso. apply N. left.
      apply andb_prop in B. destruct B as [B1 B2]. apply Z.eqb_eq in B1. apply Z.eqb_eq in B2. congruence.
Qed.
