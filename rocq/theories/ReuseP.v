(** Decoders that were used before (C09). *)
From Verif Require Import Base Tactics SpecBits SpecMarker SpecGlobal SpecStream SpecFrame SpecSegments SpecFile SpecLimits
  Biterator Marker MarkerP HuffmanP3 Huffman Types Idct Color Upsampler Parsers Decode BlockP ExtP StreamP StreamP2 InvP GlobalP ScansP FileP.

(** ** The record of finished coefficients *)
Definition sub_bits (x y : Z) : Prop := forall k, 0 <= k < 64 -> Z.testbit x k = true -> Z.testbit y k = true.
Definition fin_ok (l : list Z) : Prop := length l = 4%nat /\ Forall (fun x => 0 <= x < 2 ^ 64) l.

Lemma lor_range : forall n x y, 0 <= n -> 0 <= x < 2 ^ n -> 0 <= y < 2 ^ n -> 0 <= Z.lor x y < 2 ^ n.
Proof.
  intros n x y Hn Hx Hy. split; [apply Z.lor_nonneg; lia|].
  destruct (Z.eq_dec (Z.lor x y) 0) as [->|N]; [lia|]. assert (P : 0 < Z.lor x y) by (assert (0 <= Z.lor x y) by (apply Z.lor_nonneg; lia); lia).
  apply Z.log2_lt_pow2; [exact P|]. rewrite Z.log2_lor by lia.
  assert (L : forall z, 0 <= z < 2 ^ n -> z = 0 \/ Z.log2 z < n) by (intros z Hz; destruct (Z.eq_dec z 0); [auto|right; apply Z.log2_lt_pow2; lia]).
  pose proof (Z.log2_nonneg x) as G1; pose proof (Z.log2_nonneg y) as G2. destruct (L x Hx) as [->|L1]; destruct (L y Hy) as [->|L2]; try (exfalso; apply N; reflexivity); change (Z.log2 0) with 0; lia.
Qed.
Lemma full_bits : forall x y, 0 <= y < 2 ^ 64 -> sub_bits x y -> x = 2 ^ 64 - 1 -> y = 2 ^ 64 - 1.
Proof.
  intros x y Hy S ->. apply Z.bits_inj'. intros k Hk. change (2 ^ 64 - 1) with (Z.ones 64). rewrite Z.testbit_ones_nonneg by lia.
  destruct (Z.ltb_spec k 64) as [L|L].
  - apply S; [lia|]. change (2 ^ 64 - 1) with (Z.ones 64). apply Z.ones_spec_low. lia.
  - destruct (Z.eq_dec y 0) as [->|N]; [apply Z.bits_0|]. apply Z.bits_above_log2; [lia|]. apply Z.log2_lt_pow2; [lia|]. eapply Z.lt_le_trans; [apply Hy|]. apply Z.pow_le_mono_r; lia.
Qed.
Lemma pow2_range : forall j, j < 64 -> 0 <= 2 ^ j < 2 ^ 64.
Proof. intros j H. split; [apply Z.pow_nonneg; lia|]. destruct (Z.le_gt_cases 0 j); [apply Z.pow_lt_mono_r; lia|rewrite Z.pow_neg_r by lia; lia]. Qed.
Lemma set_bits_range : forall dbg js x y, set_bits dbg js x = Ok y -> 0 <= x < 2 ^ 64 -> 0 <= y < 2 ^ 64.
Proof.
  induction js as [|j js IH]; intros x y E H; cbn [set_bits] in E; [inv E; exact H|].
  destruct (Z.leb_spec 64 j) as [L|L]; [destruct dbg; [discriminate|]|]; apply IH in E; auto; apply lor_range; auto; try lia; apply pow2_range; [|lia].
  pose proof (Z.mod_pos_bound j 64 ltac:(lia)). lia.
Qed.
Lemma set_bits_sub : forall dbg js x y x', set_bits dbg js x = Ok x' -> sub_bits x y -> exists y', set_bits dbg js y = Ok y' /\ sub_bits x' y'.
Proof.
  induction js as [|j js IH]; intros x y x' E S; cbn [set_bits] in *; [inv E; eauto|].
  destruct (64 <=? j); [destruct dbg; [discriminate|]|]; eapply IH; eauto; intros k Hk; rewrite !Z.lor_spec, !orb_true_iff; intros [T|T]; auto.
Qed.

Lemma index_upd : forall A (l : list A) k v i, 0 <= k < lenZ l -> index (upd l (Z.to_nat k) v) i = if i =? k then Ok v else index l i.
Proof.
  intros A l k v i H. unfold index. destruct (Z.eqb_spec i k) as [->|N].
  - destruct (Z.ltb_spec k 0); [lia|]. rewrite nth_error_upd_eq by (unfold lenZ in H; lia). reflexivity.
  - destruct (Z.ltb_spec i 0); [reflexivity|]. rewrite nth_error_upd_neq by lia. reflexivity.
Qed.
Lemma index_range : forall A (l : list A) i x, index l i = Ok x -> 0 <= i < lenZ l.
Proof. intros A l i x E. apply index_Ok in E. destruct E as [H E]. unfold lenZ. assert (Z.to_nat i < length l)%nat by (apply nth_error_Some; congruence). lia. Qed.

Definition fin_cov (l l' : list Z) : Prop :=
  length l = 4%nat /\ fin_ok l' /\ forall i x, index l i = Ok x -> exists y, index l' i = Ok y /\ sub_bits x y.
Lemma index_fin : forall l i y, fin_ok l -> index l i = Ok y -> 0 <= y < 2 ^ 64.
Proof. intros l i y [_ F] E. apply index_Ok in E. destruct E as [_ E]. apply nth_error_In in E. rewrite Forall_forall in F. exact (F y E). Qed.
Lemma mark_range : forall dbg js hs l l', mark_finished dbg js hs l = Ok l' -> fin_ok l -> fin_ok l'.
Proof.
  intros dbg js. induction hs as [|h hs IH]; intros l l' E H; cbn [mark_finished] in E; [inv E; exact H|].
  destruct js as [|j js]; [eapply IH; eauto|]. binv E. binv E. binv E. apply IH in E; [exact E|]. apply store_Ok in E2. destruct E2 as [R ->]. destruct H as [L F].
  split; [rewrite upd_length; exact L|]. apply Forall_upd; [exact F|]. eapply set_bits_range; [exact E1|]. exact (index_fin l _ _ (conj L F) E0).
Qed.
Lemma mark_cov : forall dbg js hs l l1 m, fin_cov l l1 -> mark_finished dbg js hs l = Ok m -> exists m1, mark_finished dbg js hs l1 = Ok m1 /\ fin_cov m m1.
Proof.
  intros dbg js. induction hs as [|h hs IH]; intros l l1 m C E; cbn [mark_finished] in *; [inv E; eauto|].
  destruct js as [|j js]; [eapply IH; eauto|]. binv E. binv E. binv E. destruct C as [L [[L1 F1] C]]. destruct (C _ _ E0) as [y [Ey Sy]].
  destruct (set_bits_sub _ _ _ _ _ E1 Sy) as [y' [Ey' Sy']]. rewrite Ey. cbn [bind]. rewrite Ey'. cbn [bind].
  apply store_Ok in E2. destruct E2 as [R ->]. pose proof (index_range _ _ _ _ Ey) as R1.
  assert (S1 : store l1 (h_index h) y' = Ok (upd l1 (Z.to_nat (h_index h)) y')) by (apply store_Ok; auto). rewrite S1. cbn [bind]. eapply IH; [|exact E].
  split; [rewrite upd_length; exact L|]. split.
  - split; [rewrite upd_length; exact L1|]. apply Forall_upd; [exact F1|]. eapply set_bits_range; [exact Ey'|]. exact (index_fin l1 _ _ (conj L1 F1) Ey).
  - intros i x. rewrite !index_upd by assumption. destruct (i =? h_index h); [intros Q; inv Q; eauto|apply C].
Qed.
Lemma all_cov : forall hs l l1, fin_cov l l1 -> all_finished l hs = Ok true -> all_finished l1 hs = Ok true.
Proof.
  induction hs as [|h hs IH]; intros l l1 C E; cbn [all_finished] in *; [reflexivity|]. binv E. destruct (Z.eqb_spec a (2 ^ 64 - 1)) as [Q|Q]; [|discriminate].
  destruct C as [L [F C]]. destruct (C _ _ E0) as [y [Ey Sy]]. rewrite Ey. cbn [bind]. rewrite (full_bits a y (index_fin _ _ _ F Ey) Sy Q). rewrite Z.eqb_refl. eapply IH; [|exact E]. split; auto.
Qed.

(** ** Tables *)
Definition covers {A} (l l' : list (option A)) : Prop :=
  length l = 4%nat /\ length l' = 4%nat /\ forall i t, index l i = Ok (Some t) -> index l' i = Ok (Some t).
Lemma covers_store : forall A (l l1 m : list (option A)) k t, covers l l1 -> store l k (Some t) = Ok m -> exists m1, store l1 k (Some t) = Ok m1 /\ covers m m1.
Proof.
  intros A l l1 m k t [L [L1 C]] E. apply store_Ok in E. destruct E as [R ->]. unfold lenZ in R. rewrite L in R.
  assert (R1 : 0 <= k < lenZ l1) by (unfold lenZ; lia). exists (upd l1 (Z.to_nat k) (Some t)). split; [apply store_Ok; auto|].
  unfold covers. rewrite !upd_length. split; [exact L|]. split; [exact L1|]. intros i u. rewrite !index_upd by (auto; unfold lenZ; lia). destruct (i =? k); auto.
Qed.
Lemma any_cov : forall A (l l1 : list (option A)) sel, covers l l1 -> any_unset l sel = Ok false -> any_unset l1 sel = Ok false.
Proof.
  intros A l l1 sel C. induction sel as [|i sel IH]; intros E; cbn [any_unset] in *; [reflexivity|]. binv E. destruct a as [t|]; [|discriminate].
  destruct C as [L [L1 C]]. rewrite (C i t E0). cbn [bind]. apply IH. exact E.
Qed.

(** ** Decoders: [u] knows everything that [f] knows *)
Record cov (f u : decoder) : Prop := mkCov {
  cv_dc : covers (d_dc f) (d_dc u);
  cv_ac : covers (d_ac f) (d_ac u);
  cv_qt : covers (d_qt f) (d_qt u);
  cv_frame : forall fr, d_frame f = Some fr -> d_frame u = Some fr;
  cv_scan : forall sc, d_scan f = Some sc -> d_scan u = Some sc;
  cv_restart : d_restart u = d_restart f;
  cv_color : d_color u = d_color f;
  cv_planes : d_planes f = [] \/ d_planes u = d_planes f;
  cv_fin : fin_cov (d_finished f) (d_finished u);
}.
Lemma cov_ss : forall f u s s', cov f u -> cov (set_ss f s) (set_ss u s').
Proof. intros f u s s' [A B C D E F G H I]. constructor; cbn; assumption. Qed.

Lemma huff_cov : forall dbg f u c th ls vs f', cov f u -> store_huffman dbg f c th ls vs = Ok f' -> exists u', store_huffman dbg u c th ls vs = Ok u' /\ cov f' u'.
Proof.
  intros dbg f u c th ls vs f' C E. unfold store_huffman in *. destruct c.
  - binv E. binv E. inv E. rewrite E0. cbn [bind]. destruct (covers_store _ _ _ _ _ _ (cv_dc _ _ C) E1) as [m1 [S1 S2]]. rewrite S1. cbn [bind]. eexists. split; [reflexivity|]. destruct C. constructor; cbn; assumption.
  - binv E. binv E. inv E. rewrite E0. cbn [bind]. destruct (covers_store _ _ _ _ _ _ (cv_ac _ _ C) E1) as [m1 [S1 S2]]. rewrite S1. cbn [bind]. eexists. split; [reflexivity|]. destruct C. constructor; cbn; assumption.
Qed.
Lemma dht_cov : forall dbg fuel i f u f', cov f u -> seg_dht dbg fuel f i = (f', Ok tt) -> exists u', seg_dht dbg fuel u i = (u', Ok tt) /\ cov f' u'.
Proof.
  intros dbg. induction fuel as [|fuel IH]; intros i f u f' C E; destruct i as [|x i]; cbn [seg_dht] in *; try (inv E; eauto; fail).
  destruct (huffman_table (x :: i)) as [[[[[c th] ls] vs] i']| | |]; try (inv E; fail). destruct (store_huffman dbg f c th ls vs) as [f1| | |] eqn:S; try (inv E; fail).
  destruct (huff_cov _ _ _ _ _ _ _ _ C S) as [u1 [S1 C1]]. rewrite S1. eapply IH; eauto.
Qed.
Lemma dqt_cov : forall fuel i f u f', cov f u -> seg_dqt fuel f i = (f', Ok tt) -> exists u', seg_dqt fuel u i = (u', Ok tt) /\ cov f' u'.
Proof.
  induction fuel as [|fuel IH]; intros i f u f' C E; destruct i as [|x i]; cbn [seg_dqt] in *; try (inv E; eauto; fail).
  destruct (dqt (x :: i)) as [[[tq t] i']| | |]; try (inv E; fail). destruct (store_quant f tq t) as [f1| | |] eqn:S; try (inv E; fail).
  unfold store_quant in S. binv S. binv S. inv S. destruct (covers_store _ _ _ _ _ _ (cv_qt _ _ C) E1) as [m1 [S1 S2]].
  assert (S3 : store_quant u tq t = Ok (set_qt u m1)) by (unfold store_quant; rewrite E0; cbn [bind]; rewrite S1; reflexivity). rewrite S3.
  eapply IH; [|exact E]. destruct C. constructor; cbn; assumption.
Qed.
Lemma payload_cov : forall dbg m data f u f', cov f u -> seg_payload dbg m f data = (f', Ok tt) -> exists u', seg_payload dbg m u data = (u', Ok tt) /\ cov f' u'.
Proof.
  intros dbg m data f u f' C E. destruct m; cbn [seg_payload] in *; try (inv E; eauto; fail).
  - destruct (sof dbg n data) as [[fr i]| | |]; inv E. eexists. split; [reflexivity|]. destruct C. constructor; cbn; try assumption. intros; assumption.
  - eapply dht_cov; eauto.
  - eapply dqt_cov; eauto.
  - destruct (p_u16 data) as [[r i]| | |]; inv E. eexists. split; [reflexivity|]. destruct C. constructor; cbn; try assumption. reflexivity.
  - destruct (n =? 14); [|inv E; eauto]. destruct (app_adobe data) as [[r i]| | |]; inv E. eexists. split; [reflexivity|]. destruct C. constructor; cbn; try assumption. reflexivity.
Qed.

(** ** Scans *)
Lemma comps_cov : forall dbg sc f u, cov f u -> forall cs hs ps avail b eob r, decode_comps dbg f sc cs hs ps avail b eob = Ok r -> decode_comps dbg u sc cs hs ps avail b eob = Ok r.
Proof.
  intros dbg sc f u C. induction cs as [|c cs IH]; intros hs ps avail b eob r E; [exact E|]. destruct hs as [|h hs]; [exact E|]. destruct ps as [|p ps]; [exact E|].
  cbn [decode_comps] in *. apply bind_ok in E. destruct E as [dct [E1 E]]. destruct dct as [dct|]; [|discriminate]. cbn [bind] in E.
  apply bind_ok in E. destruct E as [act [E2 E]]. destruct act as [act|]; [|discriminate]. cbn [bind] in E.
  destruct (cv_dc _ _ C) as [_ [_ C1]]. destruct (cv_ac _ _ C) as [_ [_ C2]]. rewrite (C1 _ _ E1). cbn [bind]. rewrite (C2 _ _ E2). cbn [bind].
  destruct (decode_blocks _ _ _ _ _ _ _ _) as [[[[bl b1] e1] p1]| | |]; try discriminate. cbn [bind] in *.
  destruct (decode_comps dbg f sc cs hs ps _ b1 e1) as [[[[r1 r2] r3] r4]| | |] eqn:D; try discriminate. rewrite (IH _ _ _ _ _ _ D). exact E.
Qed.
Lemma row_cov : forall dbg f u b f' b', cov f u -> d_ss u = d_ss f -> decode_row dbg f b = Ok (f', b') ->
  exists s, f' = set_ss f s /\ decode_row dbg u b = Ok (set_ss u s, b').
Proof.
  intros dbg f u b f' b' C S E. unfold decode_row in *. destruct (d_scan f) as [sc|] eqn:Es; [|discriminate]. destruct (d_frame f) as [fr|] eqn:Ef; [|discriminate].
  rewrite (cv_scan _ _ C _ Es), (cv_frame _ _ C _ Ef), S. cbv zeta in *. binv E. rewrite (comps_cov _ _ _ _ C _ _ _ _ _ _ _ E0). cbn [bind]. destruct a as [[[bl ps] b1] eob]. inv E. eauto.
Qed.
Lemma check_cov : forall dbg x y f u need f', cov f u -> d_ss u = d_ss f -> restart_check dbg x y f = Ok (need, f') ->
  exists s, f' = set_ss f s /\ restart_check dbg x y u = Ok (need, set_ss u s).
Proof.
  intros dbg x y f u need f' C S E. unfold restart_check in *. rewrite (cv_restart _ _ C). destruct (0 <? d_restart f).
  - destruct (d_frame f) as [fr|] eqn:Ef; [|discriminate]. rewrite (cv_frame _ _ C _ Ef), S. cbv zeta in *.
    destruct (usub dbg 16 (dim_w (f_mcu fr)) 1) as [lx| | |]; try discriminate. cbn [bind] in *.
    destruct (if x =? lx then _ else _) as [il| | |]; try discriminate. cbn [bind] in *. destruct (usub dbg 16 (ss_left (d_ss f)) 1) as [lf| | |]; try discriminate. cbn [bind] in *. inv E. eauto.
  - inv E. exists (d_ss f'). split; [destruct f'; reflexivity|]. do 2 f_equal. rewrite <- S. destruct u; reflexivity.
Qed.
Lemma marker_cov : forall f u b f' b', cov f u -> d_ss u = d_ss f -> restart_marker f b = Ok (f', b') ->
  exists s, f' = set_ss f s /\ restart_marker u b = Ok (set_ss u s, b').
Proof.
  intros f u b f' b' C S E. unfold restart_marker, handle_restart in *. rewrite (cv_restart _ _ C), S. binv E. rewrite E0. cbn [bind]. destruct a as [m rest].
  destruct m; try discriminate. destruct (n =? ss_rst (d_ss f)); [|discriminate]. inv E. eauto.
Qed.
Lemma deq_comps_cov : forall dbg l l1, covers l l1 -> forall mx my cs ps bl r, dequantize_comps dbg l mx my cs ps bl = Ok r -> dequantize_comps dbg l1 mx my cs ps bl = Ok r.
Proof.
  intros dbg l l1 [_ [_ C]] mx my. induction cs as [|c cs IH]; intros ps bl r E; [exact E|]. destruct ps as [|p ps]; [exact E|]. cbn [dequantize_comps] in *.
  apply bind_ok in E. destruct E as [qt [E1 E]]. destruct qt as [qt|]; [|discriminate]. rewrite (C _ _ E1). cbn [bind] in *. cbv zeta in *.
  destruct (if _ <=? lenZ p then _ else _) as [[bl1 p1]| | |]; try discriminate. cbn [bind] in *.
  destruct (dequantize_comps dbg l mx my cs ps bl1) as [r1| | |] eqn:D; try discriminate. rewrite (IH _ _ _ D). exact E.
Qed.
Lemma deq_cov : forall dbg x y f u f', cov f u -> d_ss u = d_ss f -> dequantize dbg x y f = Ok f' -> exists s, f' = set_ss f s /\ dequantize dbg x y u = Ok (set_ss u s).
Proof.
  intros dbg x y f u f' C S E. unfold dequantize in *. destruct (d_frame f) as [fr|] eqn:Ef; [|discriminate]. rewrite (cv_frame _ _ C _ Ef), S. cbv zeta in *.
  binv E. rewrite E0. cbn [bind]. binv E. rewrite E1. cbn [bind]. binv E. rewrite (deq_comps_cov _ _ _ (cv_qt _ _ C) _ _ _ _ _ _ E2). cbn [bind]. inv E. eauto.
Qed.
Lemma loop_cov : forall dbg rerun final todo ph f u b f' b', cov f u -> d_ss u = d_ss f -> scan_loop dbg rerun final todo ph f b = (f', b', ScDone) ->
  exists s, f' = set_ss f s /\ scan_loop dbg rerun final todo ph u b = (set_ss u s, b', ScDone).
Proof.
  intros dbg rerun final. induction todo as [|[y x] todo IH]; intros ph f u b f' b' C S E; cbn [scan_loop] in *.
  { inv E. exists (d_ss f'). split; [destruct f'; reflexivity|]. do 2 f_equal. rewrite <- S. destruct u; reflexivity. }
  destruct (match ph with PhRow => decode_row dbg f b | PhRestart => Ok (f, b) end) as [[f1 b1]|[]| |] eqn:E1; try discriminate.
  assert (X1 : exists s, f1 = set_ss f s /\ match ph with PhRow => decode_row dbg u b | PhRestart => Ok (u, b) end = Ok (set_ss u s, b1)).
  { destruct ph; [eapply row_cov; eauto|]. inv E1. exists (d_ss f1). split; [destruct f1; reflexivity|]. do 2 f_equal. rewrite <- S. destruct u; reflexivity. }
  destruct X1 as [s1 [-> X1]]. rewrite X1. clear X1 E1.
  destruct (if match ph with PhRow => true | PhRestart => rerun end then _ else _) as [[need f2]| | |] eqn:E2; try discriminate.
  assert (X2 : exists s, f2 = set_ss f s /\ (if match ph with PhRow => true | PhRestart => rerun end then restart_check dbg x y (set_ss u s1) else Ok (true, set_ss u s1)) = Ok (need, set_ss u s)).
  { destruct (match ph with PhRow => true | PhRestart => rerun end); [|inv E2; eauto]. destruct (check_cov _ _ _ _ (set_ss u s1) _ _ (cov_ss _ _ s1 s1 C) eq_refl E2) as [s [-> Q]]. exists s. split; [reflexivity|]. exact Q. }
  destruct X2 as [s2 [-> X2]]. rewrite X2. clear X2 E2.
  destruct (if need then restart_marker (set_ss f s2) b1 else Ok (set_ss f s2, b1)) as [[f3 b3]|[]| |] eqn:E3; try discriminate.
  assert (X3 : exists s, f3 = set_ss f s /\ (if need then restart_marker (set_ss u s2) b1 else Ok (set_ss u s2, b1)) = Ok (set_ss u s, b3)).
  { destruct need; [|inv E3; eauto]. destruct (marker_cov _ (set_ss u s2) _ _ _ (cov_ss _ _ s2 s2 C) eq_refl E3) as [s [-> Q]]. exists s. split; [reflexivity|]. exact Q. }
  destruct X3 as [s3 [-> X3]]. rewrite X3. clear X3 E3.
  destruct (if final then dequantize dbg x y (set_ss f s3) else Ok (set_ss f s3)) as [f4| | |] eqn:E4; try discriminate.
  assert (X4 : exists s, f4 = set_ss f s /\ (if final then dequantize dbg x y (set_ss u s3) else Ok (set_ss u s3)) = Ok (set_ss u s)).
  { destruct final; [|inv E4; eauto]. destruct (deq_cov _ _ _ _ (set_ss u s3) _ (cov_ss _ _ s3 s3 C) eq_refl E4) as [s [-> Q]]. exists s. split; [reflexivity|]. exact Q. }
  destruct X4 as [s4 [-> X4]]. rewrite X4. clear X4 E4.
  destruct (IH PhRow _ (set_ss u s4) _ _ _ (cov_ss _ _ s4 s4 C) eq_refl E) as [s [-> Q]]. exists s. split; [reflexivity|]. exact Q.
Qed.

(** A scan that is not the last one for its components never completes. *)
Definition stuck (p : pc) (d : decoder) : Prop :=
  match p with
  | PcScan false _ _ => ss_results (d_ss d) = [] /\ exists sc, d_scan d = Some sc /\ s_headers sc <> []
  | _ => False
  end.
Lemma loop_empty : forall dbg rerun todo ph d b d' b' r, scan_loop dbg rerun false todo ph d b = (d', b', r) -> ss_results (d_ss d) = [] -> ss_results (d_ss d') = [].
Proof.
  intros dbg rerun. induction todo as [|[y x] todo IH]; intros ph d b d' b' r E H; cbn [scan_loop] in E; [inv E; exact H|].
  destruct (match ph with PhRow => decode_row dbg d b | PhRestart => Ok (d, b) end) as [[f1 b1]|[]| |] eqn:E1; try (inv E; exact H).
  assert (H1 : ss_results (d_ss f1) = []).
  { destruct ph; [|inv E1; exact H]. unfold decode_row in E1. destruct (d_scan d); [|discriminate]. destruct (d_frame d); [|discriminate]. cbv zeta in E1. binv E1. destruct a as [[[? ?] ?] ?]. inv E1. exact H. }
  clear E1. destruct (if match ph with PhRow => true | PhRestart => rerun end then _ else _) as [[need f2]| | |] eqn:E2; try (inv E; exact H1).
  assert (H2 : ss_results (d_ss f2) = []).
  { destruct (match ph with PhRow => true | PhRestart => rerun end); [|inv E2; exact H1]. unfold restart_check in E2. destruct (0 <? d_restart f1); [|inv E2; exact H1]. destruct (d_frame f1); [|discriminate]. cbv zeta in E2. binv E2. binv E2. binv E2. inv E2. exact H1. }
  clear E2. destruct (if need then restart_marker f2 b1 else Ok (f2, b1)) as [[f3 b3]|[]| |] eqn:E3; try (inv E; exact H2).
  assert (H3 : ss_results (d_ss f3) = []).
  { destruct need; [|inv E3; exact H2]. unfold restart_marker, handle_restart in E3. binv E3. destruct a as [m rest]. destruct m; try discriminate. destruct (n =? _); [|discriminate]. inv E3. exact H2. }
  eapply IH; eauto.
Qed.
Lemma stuck_end : forall dbg rerun rayon fuel p d b, stuck p d -> match snd (run dbg rerun rayon fuel p d b) with RImage _ => False | _ => True end.
Proof.
  intros dbg rerun rayon fuel p d b H. destruct fuel as [|fuel]; [exact I|]. destruct p as [| |[] todo ph]; try contradiction. destruct H as [H [sc [Hs Hn]]]. cbn [run step].
  destruct (scan_loop dbg rerun false todo ph d b) as [[d1 b1] r] eqn:SL. destruct r; try exact I.
  pose proof (loop_empty _ _ _ _ _ _ _ _ _ SL H) as H1. destruct (scan_loop_ext [] _ _ _ _ _ _ _ _ _ _ SL) as [[s ->] _].
  unfold scan_finish. cbn [set_ss d_scan d_ss] in *. rewrite Hs. cbv zeta. rewrite H1. destruct (s_headers sc) as [|h hs]; [congruence|]. cbn [take_planes]. unfold index.
  destruct (h_index h <? 0); [exact I|]. destruct (Z.to_nat (h_index h)); exact I.
Qed.

(** ** The image *)
(** In a release build an image that has no scan of its own is black. *)
Lemma black_image : forall dbg rayon d img, upsample_image dbg rayon d = Ok img -> d_planes d = [] ->
  (dbg = true \/ not_black img) -> exists fr v, d_frame d = Some fr /\ max_unwrap (map c_v (f_components fr)) = Ok v /\ line_groups rayon (f_lines fr) v = [].
Proof.
  intros dbg rayon d img E P H. unfold upsample_image in E. destruct (d_frame d) as [fr|]; [|discriminate]. cbv zeta in E. binv E. binv E. binv E. binv E.
  exists fr, a1. split; [reflexivity|]. split; [exact E2|]. rewrite P in E. destruct (image_lines _ _ _ _ _ _ _ _) as [lines| | |] eqn:IL; try discriminate. cbn [bind] in E. injection E as E.
  remember (line_groups rayon (f_lines fr) a1) as gs eqn:Gs. destruct gs as [|g gs]; [reflexivity|]. exfalso. clear Gs.
  assert (Z0 : dbg = false /\ forall l bufs gs lines, image_lines dbg a a0 [] (f_samples fr) l bufs gs = Ok lines -> Forall (Forall (fun v => v = 0)) lines).
  { assert (D : dbg = false).
    { destruct g as [row n]. cbn [image_lines] in IL. unfold upsample_and_interleave_row in IL. destruct dbg; [|reflexivity]. exfalso.
      assert (La : length a0 = length (f_components fr)) by (unfold upsampler_new in E1; binv E1; binv E1; apply mapM_length in E1; exact E1).
      destruct a0 as [|u0 a0]; [|unfold debug_assert in IL; cbn in IL; discriminate].
      destruct (f_components fr); [|discriminate]. discriminate. }
    split; [exact D|]. subst dbg. intros l bufs gs0. revert bufs. induction gs0 as [|[row n] gs0 IH]; intros bufs ls Q; cbn [image_lines] in Q; [inv Q; constructor|].
    unfold upsample_and_interleave_row in Q. cbn [debug_assert bind] in Q.
    assert (R : upsample_rows false a0 [] bufs row (f_samples fr) = Ok ([], bufs)) by (destruct a0; reflexivity). rewrite R in Q. cbn [bind] in Q.
    destruct (color_convert false a (repeat 0 (Z.to_nat (f_samples fr * l))) []) as [line| | |] eqn:CC; try discriminate. cbn [bind] in Q.
    destruct (image_lines false a a0 [] (f_samples fr) l bufs gs0) as [rest| | |] eqn:IR; try discriminate. inv Q. apply Forall_app. split; [|eapply IH; eauto].
    apply Forall_forall. intros x I. apply repeat_spec in I. subst x. destruct a; cbn in CC; try discriminate. inv CC. apply Forall_forall. intros x I. apply repeat_spec in I. exact I. }
  destruct Z0 as [-> Z0]. destruct H as [H|[v [I N]]]; [discriminate|]. apply N. apply Z0 in IL. subst img. apply in_concat in I. destruct I as [l [I1 I2]].
  rewrite Forall_forall in IL. specialize (IL l I1). rewrite Forall_forall in IL. exact (IL v I2).
Qed.
Lemma upsample_cov : forall dbg rayon f u img, cov f u -> upsample_image dbg rayon f = Ok img -> (dbg = true \/ not_black img) -> upsample_image dbg rayon u = Ok img.
Proof.
  intros dbg rayon f u img C E H. destruct (cv_planes _ _ C) as [P|P].
  - destruct (black_image _ _ _ _ E P H) as [fr [v [Fr [Mv Gs]]]]. unfold upsample_image in *. rewrite (cv_frame _ _ C _ Fr). rewrite Fr in E. rewrite (cv_color _ _ C). cbv zeta in *.
    binv E. rewrite E0. cbn [bind]. binv E. rewrite E1. cbn [bind]. rewrite Mv in *. cbn [bind] in *. binv E. rewrite E2. cbn [bind]. rewrite Gs in *. cbn [image_lines] in *. exact E.
  - unfold upsample_image in *. destruct (d_frame f) as [fr|] eqn:Fr; [|discriminate]. rewrite (cv_frame _ _ C _ Fr), (cv_color _ _ C), P. exact E.
Qed.

(** ** Steps *)
Definition sim (p : pc) (f u : decoder) : Prop := cov f u /\ match p with PcScan final _ _ => d_ss u = d_ss f | _ => True end.

Lemma headers_some : forall f n mx i hs r, sos_headers f (S n) mx i = Ok (hs, r) -> hs <> [] /\ f <> None.
Proof.
  intros f n mx i hs r E. cbn [sos_headers] in E. binv E. destruct a as [id i1]. binv E. destruct a as [[dc ac] i2]. destruct f as [fr|]; [|discriminate].
  destruct (position id (f_components fr) 0); [|discriminate]. cbv zeta in E. binv E. binv E. destruct a0. inv E. split; discriminate.
Qed.
Lemma sos_some : forall f i sc r, sos_segment f i = Ok (sc, r) -> s_headers sc <> [] /\ f <> None.
Proof.
  intros f i sc r E. unfold sos_segment in E. binv E. destruct a as [n i1]. destruct ((1 <=? n) && (n <=? 4)) eqn:Q; [|discriminate].
  assert (N : exists m, Z.to_nat n = S m) by (exists (Z.to_nat n - 1)%nat; lia). destruct N as [m N]. rewrite N in E.
  binv E. destruct a as [hs i2]. apply headers_some in E1. binv E. destruct a as [ss i3]. binv E. destruct a as [se i4]. binv E. destruct a as [[ah al] i5]. inv E. exact E1.
Qed.

Lemma sos_cov : forall dbg data f u b f' b' p, cov f u -> do_sos dbg f b data = (f', b', SNext p) ->
  (exists u', do_sos dbg u b data = (u', b', SNext p) /\ sim p f' u') \/ stuck p f'.
Proof.
  intros dbg data f u b f' b' p C E. unfold do_sos in *. destruct (sos_segment (d_frame f) data) as [[sc r]|[]| |] eqn:SS; try discriminate.
  destruct (sos_some _ _ _ _ SS) as [Hh Hf]. destruct (d_frame f) as [fr|] eqn:Fr; [|congruence]. rewrite (cv_frame _ _ C _ Fr), SS. clear Hf.
  unfold sos_begin in *. cbn [set_scan d_frame d_finished] in *. rewrite Fr in E. rewrite (cv_frame _ _ C _ Fr).
  assert (X : forall fin, (if s_low sc =? 0 then mark_finished dbg (z_from_to (s_start sc) (s_end sc)) (s_headers sc) (d_finished f) else Ok (d_finished f)) = Ok fin ->
     exists fin', (if s_low sc =? 0 then mark_finished dbg (z_from_to (s_start sc) (s_end sc)) (s_headers sc) (d_finished u) else Ok (d_finished u)) = Ok fin' /\ fin_cov fin fin').
  { intros fin Q. pose proof (cv_fin _ _ C) as CF. destruct (s_low sc =? 0); [eapply mark_cov; eauto|inv Q; eauto]. }
  assert (E' : exists fin final d2, (if s_low sc =? 0 then mark_finished dbg (z_from_to (s_start sc) (s_end sc)) (s_headers sc) (d_finished f) else Ok (d_finished f)) = Ok fin /\
     (coding_process fr = Ok Baseline \/ coding_process fr = Ok Sequential \/ coding_process fr = Ok LossLess) /\
     all_finished fin (s_headers sc) = Ok final /\ scan_init final (set_finished (set_scan f (Some sc)) fin) = Ok d2 /\ f' = d2 /\ b' = b /\ p = PcScan final (mcu_list (match d_frame d2 with Some fr => f_mcu fr | None => mkDims 0 0 end)) PhRow).
  { destruct (coding_process fr) as [[]| | |] eqn:CP; try (inv E; fail);
    (destruct (if s_low sc =? 0 then _ else _) as [fin| | |]; try (inv E; fail); destruct (all_finished fin (s_headers sc)) as [final| | |] eqn:AF; try (inv E; fail);
     destruct (scan_init final (set_finished (set_scan f (Some sc)) fin)) as [d2| | |] eqn:SI; inv E; exists fin, final, f'; splits; auto). }
  clear E. destruct E' as [fin [final [d2 [M [CP [AF [SI [-> [-> ->]]]]]]]]].
  unfold scan_init in SI. cbn [set_finished set_scan d_frame d_scan d_dc d_ac d_restart] in SI. rewrite Fr in SI.
  destruct (if s_start sc =? 0 then any_unset (d_dc f) (map h_dc (s_headers sc)) else Ok false) as [[]| | |] eqn:U1; try discriminate. cbn [bind] in SI.
  destruct (if 1 <? s_end sc then any_unset (d_ac f) (map h_ac (s_headers sc)) else Ok false) as [[]| | |] eqn:U2; try discriminate. cbn [bind] in SI.
  destruct final.
  2: { right. cbn [bind] in SI. inv SI. cbn. split; [reflexivity|]. exists sc. auto. }
  left. destruct (X _ M) as [fin' [M' FC]]. rewrite M'. pose proof (all_cov _ _ _ FC AF) as AF'.
  assert (V1 : (if s_start sc =? 0 then any_unset (d_dc u) (map h_dc (s_headers sc)) else Ok false) = Ok false) by (destruct (s_start sc =? 0); [eapply any_cov; [apply C|exact U1]|reflexivity]).
  assert (V2 : (if 1 <? s_end sc then any_unset (d_ac u) (map h_ac (s_headers sc)) else Ok false) = Ok false) by (destruct (1 <? s_end sc); [eapply any_cov; [apply C|exact U2]|reflexivity]).
  destruct (assert_ (lenZ (f_components fr) <=? 4) PCapacity) eqn:A; try discriminate. cbn [bind] in SI.
  exists (set_ss (set_finished (set_scan u (Some sc)) fin') (d_ss d2)). split.
  - assert (SI' : scan_init true (set_finished (set_scan u (Some sc)) fin') = Ok (set_ss (set_finished (set_scan u (Some sc)) fin') (d_ss d2))).
    { unfold scan_init. cbn [set_finished set_scan d_frame d_scan d_dc d_ac d_restart]. rewrite (cv_frame _ _ C _ Fr), V1. cbn [bind]. rewrite V2. cbn [bind]. rewrite A. cbn [bind]. rewrite (cv_restart _ _ C). inv SI. reflexivity. }
    inv SI. destruct CP as [CP|[CP|CP]]; rewrite CP, AF', SI'; cbn; rewrite (cv_frame _ _ C _ Fr), Fr; reflexivity.
  - inv SI. split; [|reflexivity]. apply cov_ss. destruct C as [C1 C2 C3 C4 C5 C6 C7 C8 C9]. constructor; cbn; auto.
Qed.

Lemma step_cov : forall dbg rerun rayon p f u b f' b' s, sim p f u -> step dbg rerun rayon p f b = (f', b', s) ->
  match s with
  | SNext p' => (exists u', step dbg rerun rayon p u b = (u', b', SNext p') /\ sim p' f' u') \/ stuck p' f'
  | SStop (RImage img) => (dbg = true \/ not_black img) -> step dbg rerun rayon p u b = (u, b', SStop (RImage img))
  | _ => True
  end.
Proof.
  intros dbg rerun rayon p f u b f' b' s [C S] E. destruct p as [|m|final todo ph]; cbn [step] in *.
  - destruct (parse_marker (bi_input b)) as [[m rest]|[]|q|]; try (inv E; exact I).
    destruct m; try (inv E; left; eexists; split; [reflexivity|split; [exact C|exact I]]; fail).
    destruct (upsample_image dbg rayon f) as [img| | |] eqn:U; try (inv E; exact I). inv E. intros V. rewrite (upsample_cov _ _ _ _ _ C U V). reflexivity.
  - destruct (no_segment m); [inv E; left; eexists; split; [reflexivity|split; [exact C|exact I]]|].
    destruct (segment_data dbg (bi_input b)) as [[data rest]|[]|q|]; try (inv E; exact I).
    assert (X : (let '(d1, r) := seg_payload dbg m f data in seg_end m d1 (mkBiter rest (bi_bits b) (bi_count b)) r) = (f', b', s) ->
      match s with
      | SNext p' => exists u', (let '(d1, r) := seg_payload dbg m u data in seg_end m d1 (mkBiter rest (bi_bits b) (bi_count b)) r) = (u', b', SNext p') /\ sim p' f' u'
      | SStop (RImage img) => False
      | _ => True end).
    { destruct (seg_payload dbg m f data) as [d1 r] eqn:SP. unfold seg_end. destruct r as [[]|[]| |]; intros Q; inv Q; try exact I.
      destruct (payload_cov _ _ _ _ _ _ C SP) as [u' [SP' C']]. rewrite SP'. exists u'. split; [reflexivity|split; [exact C'|exact I]]. }
    destruct m; try (specialize (X E); destruct s as [|[]]; try exact I; [left; exact X|contradiction]). clear X.
    destruct s as [p'|r]; [eapply sos_cov; eauto|]. destruct r; try exact I. exfalso. unfold do_sos in E. destruct (sos_segment (d_frame f) data) as [[sc i]|[]| |]; try discriminate.
    destruct (sos_begin dbg f sc) as [d1 [final|e|q|]]; try discriminate. destruct (scan_init final d1); discriminate.
  - destruct (scan_loop dbg rerun final todo ph f b) as [[d1 b1] r] eqn:SL. destruct r; try (inv E; exact I).
    destruct (loop_cov _ _ _ _ _ _ u _ _ _ C S SL) as [s1 [-> SL']]. rewrite SL'. unfold scan_finish in *. cbn [set_ss d_scan d_ss] in *.
    destruct (d_scan f) as [sc|] eqn:Sc; [|inv E; exact I]. rewrite (cv_scan _ _ C _ Sc). cbv zeta in *. destruct (take_planes (ss_results s1) (s_headers sc)) as [[ps rr]| | |]; try (inv E; exact I).
    cbn [bind] in *. inv E. left. eexists. split; [reflexivity|]. split; [|exact I]. destruct C as [C1 C2 C3 C4 C5 C6 C7 C8 C9]. constructor; cbn; auto.
Qed.

Lemma run_cov : forall dbg rerun rayon fuel p f u b f' b' img, sim p f u -> run dbg rerun rayon fuel p f b = (f', b', RImage img) ->
  (dbg = true \/ not_black img) -> exists u', run dbg rerun rayon fuel p u b = (u', b', RImage img).
Proof.
  intros dbg rerun rayon. induction fuel as [|fuel IH]; intros p f u b f' b' img C E V; [discriminate|]. cbn [run] in *.
  destruct (step dbg rerun rayon p f b) as [[f1 b1] s] eqn:S. pose proof (step_cov _ _ _ _ _ _ _ _ _ _ C S) as X. destruct s as [p1|r].
  - destruct X as [[u1 [S1 C1]]|X]; [rewrite S1; eapply IH; eauto|]. exfalso. pose proof (stuck_end dbg rerun rayon fuel p1 f1 b1 X) as Y. rewrite E in Y. exact Y.
  - inv E. rewrite (X V). eauto.
Qed.

(** ** What a decoder keeps *)
Definition kept (p : pc) (d d' : decoder) : Prop :=
  (p <> PcSegment DRI -> d_restart d' = d_restart d) /\ (p <> PcSegment (APP 14) -> d_color d' = d_color d) /\ (fin_ok (d_finished d) -> fin_ok (d_finished d')).
Lemma kept_same : forall p d d', d_restart d' = d_restart d -> d_color d' = d_color d -> d_finished d' = d_finished d -> kept p d d'.
Proof. intros p d d' A B C. unfold kept. rewrite C. auto. Qed.
Lemma kept_refl : forall p d, kept p d d.
Proof. intros. apply kept_same; reflexivity. Qed.
Lemma dht_kept : forall p dbg fuel d i, kept p d (fst (seg_dht dbg fuel d i)).
Proof.
  intros p dbg fuel d i. assert (X : let d' := fst (seg_dht dbg fuel d i) in d_restart d' = d_restart d /\ d_color d' = d_color d /\ d_finished d' = d_finished d); [|apply kept_same; apply X].
  revert d i. induction fuel as [|fuel IH]; intros d i; cbv zeta; destruct i as [|x i]; try (splits; reflexivity); cbn [seg_dht].
  destruct (huffman_table (x :: i)) as [[[[[c th] ls] vs] i']|e|q|]; try (splits; reflexivity).
  destruct (store_huffman dbg d c th ls vs) as [d1|e|q|] eqn:E; try (splits; reflexivity). specialize (IH d1 i'). cbv zeta in *.
  assert (Y : d_restart d1 = d_restart d /\ d_color d1 = d_color d /\ d_finished d1 = d_finished d) by (unfold store_huffman in E; destruct c; binv E; binv E; inv E; splits; reflexivity).
  destruct IH as [-> [-> ->]]. exact Y.
Qed.
Lemma dqt_kept : forall p fuel d i, kept p d (fst (seg_dqt fuel d i)).
Proof.
  intros p fuel d i. assert (X : let d' := fst (seg_dqt fuel d i) in d_restart d' = d_restart d /\ d_color d' = d_color d /\ d_finished d' = d_finished d); [|apply kept_same; apply X].
  revert d i. induction fuel as [|fuel IH]; intros d i; cbv zeta; destruct i as [|x i]; try (splits; reflexivity); cbn [seg_dqt].
  destruct (dqt (x :: i)) as [[[tq t] i']|e|q|]; try (splits; reflexivity).
  destruct (store_quant d tq t) as [d1|e|q|] eqn:E; try (splits; reflexivity). specialize (IH d1 i'). cbv zeta in *.
  assert (Y : d_restart d1 = d_restart d /\ d_color d1 = d_color d /\ d_finished d1 = d_finished d) by (unfold store_quant in E; binv E; binv E; inv E; splits; reflexivity).
  destruct IH as [-> [-> ->]]. exact Y.
Qed.
Lemma payload_kept : forall dbg m d data, kept (PcSegment m) d (fst (seg_payload dbg m d data)).
Proof.
  intros dbg m d data. destruct m; cbn [seg_payload]; try apply kept_refl.
  - destruct (sof dbg n data) as [[f i]| | |]; apply kept_same; reflexivity.
  - apply dht_kept.
  - apply dqt_kept.
  - destruct (p_u16 data) as [[r i]| | |]; try apply kept_refl. unfold kept. splits; auto. congruence.
  - destruct (Z.eqb_spec n 14) as [->|N]; [|apply kept_refl]. destruct (app_adobe data) as [[t i]| | |]; try apply kept_refl. unfold kept. splits; auto. congruence.
Qed.
Lemma sos_begin_kept : forall p dbg d sc, kept p d (fst (sos_begin dbg d sc)).
Proof.
  intros p dbg d sc. unfold sos_begin. cbn [set_scan d_frame d_finished]. destruct (d_frame d) as [fr|]; [|apply kept_same; reflexivity].
  assert (X : kept p d (fst (match (if s_low sc =? 0 then mark_finished dbg (z_from_to (s_start sc) (s_end sc)) (s_headers sc) (d_finished d) else Ok (d_finished d)) with
    | Ok fin => (set_finished (set_scan d (Some sc)) fin, all_finished fin (s_headers sc)) | Fail e => (set_scan d (Some sc), Fail e) | Panic q => (set_scan d (Some sc), Panic q) | UB => (set_scan d (Some sc), UB) end))).
  { destruct (if s_low sc =? 0 then _ else _) as [fin| | |] eqn:M; try (apply kept_same; reflexivity). unfold kept. splits; auto. cbn. intros F. destruct (s_low sc =? 0); [eapply mark_range; eauto|inv M; exact F]. }
  destruct (coding_process fr) as [[]| | |]; try exact X; apply kept_same; reflexivity.
Qed.
Lemma scan_init_kept : forall final d d', scan_init final d = Ok d' -> exists s, d' = set_ss d s.
Proof.
  intros final d d' E. unfold scan_init in E. destruct (d_frame d); [|discriminate]. destruct (d_scan d) as [sc|]; [|discriminate].
  destruct (if s_start sc =? 0 then _ else _) as [[]| | |]; cbn [bind] in E; try discriminate. destruct (if 1 <? s_end sc then _ else _) as [[]| | |]; cbn [bind] in E; try discriminate.
  destruct final; cbn [bind] in E; [destruct (assert_ _ _); try discriminate|]; cbn [bind] in E; inv E; eauto.
Qed.
Lemma step_kept : forall dbg rerun rayon p d b d' b' s, step dbg rerun rayon p d b = (d', b', s) -> kept p d d'.
Proof.
  intros dbg rerun rayon p d b d' b' s E. destruct p as [|m|final todo ph]; cbn [step] in E.
  - destruct (parse_marker (bi_input b)) as [[m rest]|[]|q|]; try (inv E; apply kept_refl). destruct m; try (inv E; apply kept_refl). destruct (upsample_image dbg rayon d); inv E; apply kept_refl.
  - destruct (no_segment m); [inv E; apply kept_refl|]. destruct (segment_data dbg (bi_input b)) as [[data rest]|[]|q|]; try (inv E; apply kept_refl).
    assert (X : (let '(d1, r) := seg_payload dbg m d data in seg_end m d1 (mkBiter rest (bi_bits b) (bi_count b)) r) = (d', b', s) -> kept (PcSegment m) d d').
    { pose proof (payload_kept dbg m d data) as K. destruct (seg_payload dbg m d data) as [d1 r]. intros Q. unfold seg_end in Q. destruct r as [u|[]| |]; inv Q; exact K. }
    destruct m; try exact (X E). clear X. unfold do_sos in E. destruct (sos_segment (d_frame d) data) as [[sc i]|[]| |]; try (inv E; apply kept_refl).
    pose proof (sos_begin_kept (PcSegment SOS) dbg d sc) as K. destruct (sos_begin dbg d sc) as [d1 [final|e|q|]]; try (inv E; exact K).
    destruct (scan_init final d1) as [d2| | |] eqn:SI; try (inv E; exact K). apply scan_init_kept in SI. destruct SI as [s0 ->]. inv E. exact K.
  - destruct (scan_loop dbg rerun final todo ph d b) as [[d1 b1] r] eqn:SL. destruct (scan_loop_ext [] _ _ _ _ _ _ _ _ _ _ SL) as [[s0 ->] _].
    assert (K : forall s0, kept (PcScan final todo ph) d (set_ss d s0)) by (intros; apply kept_same; reflexivity).
    destruct r; try (inv E; apply K). unfold scan_finish in E. cbn [set_ss d_scan] in E. destruct (d_scan d) as [sc|]; [|inv E; apply K]. cbv zeta in E.
    destruct (take_planes _ _) as [[ps rr]| | |]; cbn [bind] in E; inv E; apply kept_same; reflexivity.
Qed.

(** Restart interval and colour transform change only at their markers. *)
Definition announced (input : list Z) (p : pc) (b : biter) : Prop :=
  suffix (bi_input b) input /\ (p = PcSegment DRI -> has_code 0xDD input) /\ (p = PcSegment (APP 14) -> has_code 0xEE input).
Lemma code_before : forall input b m rest c, suffix (bi_input b) input -> parse_marker (bi_input b) = Ok (m, rest) -> code_of m c -> has_code c input.
Proof.
  intros input b m rest c [q ->] E C. apply parse_marker_ok in E. destruct E as [c' [C' [pre [k [_ [_ [_ Ei]]]]]]]. assert (c' = c) by (inversion C; subst; inversion C'; subst; auto; lia). subst c'.
  destruct (app_FF k) as [pk Ek]. rewrite Ei, Ek. exists (q ++ pre ++ pk), rest. rewrite <- !app_assoc. reflexivity.
Qed.
Lemma run_kept : forall dbg rerun rayon input fuel p d b, dec_ok d -> good b -> pc_ok p d -> announced input p b ->
  let d' := fst (fst (run dbg rerun rayon fuel p d b)) in
  (~ has_code 0xDD input -> d_restart d' = d_restart d) /\ (~ has_code 0xEE input -> d_color d' = d_color d) /\ (fin_ok (d_finished d) -> fin_ok (d_finished d')).
Proof.
  intros dbg rerun rayon input. induction fuel as [|fuel IH]; intros p d b K G P A; cbn [run]; [cbn; auto|].
  pose proof (step_inv dbg rerun rayon p d b K G P) as SI. destruct (step dbg rerun rayon p d b) as [[d1 b1] s] eqn:E. destruct SI as [K1 [G1 [S1 R]]].
  pose proof (step_kept _ _ _ _ _ _ _ _ _ E) as [T1 [T2 T3]]. destruct A as [A1 [A2 A3]].
  assert (T1' : ~ has_code 0xDD input -> d_restart d1 = d_restart d) by (intros N; apply T1; intros Q; apply N; exact (A2 Q)).
  assert (T2' : ~ has_code 0xEE input -> d_color d1 = d_color d) by (intros N; apply T2; intros Q; apply N; exact (A3 Q)).
  destruct s as [p1|r]; [|cbn; auto]. destruct R as [P1 _].
  assert (A' : announced input p1 b1).
  { split; [eapply suffix_trans; eauto|]. destruct p as [|m|final todo ph]; cbn [step] in E.
    - destruct (parse_marker (bi_input b)) as [[m rest]|[]|q|] eqn:Em; try (inv E; fail).
      assert (p1 = PcSegment m) by (destruct m; try (inv E; reflexivity); destruct (upsample_image dbg rayon d); discriminate). subst p1.
      split; intros Q; inv Q; eapply code_before; eauto; [constructor|apply (code_APP 14); lia].
    - destruct (no_segment m); [inv E; split; discriminate|]. destruct (segment_data dbg (bi_input b)) as [[data rest]|[]|q|]; try discriminate.
      assert (X : (let '(d1, r) := seg_payload dbg m d data in seg_end m d1 (mkBiter rest (bi_bits b) (bi_count b)) r) = (d1, b1, SNext p1) -> p1 = PcMarker).
      { destruct (seg_payload dbg m d data) as [d2 r]. intros Q. apply seg_end_next in Q. apply Q. }
      destruct m; try (rewrite (X E); split; discriminate). clear X. unfold do_sos in E. destruct (sos_segment (d_frame d) data) as [[sc i]|[]| |]; try discriminate.
      destruct (sos_begin dbg d sc) as [d2 [final|e|q|]]; try discriminate. destruct (scan_init final d2); inv E. split; discriminate.
    - destruct (scan_loop dbg rerun final todo ph d b) as [[d2 b2] r]. destruct r; try discriminate. destruct (scan_finish d2); inv E. split; discriminate. }
  destruct (IH p1 d1 b1 K1 G1 P1 A') as [U1 [U2 U3]]. splits; auto.
  - intros N. rewrite (U1 N). auto.
  - intros N. rewrite (U2 N). auto.
Qed.

(** ** Histories *)
Lemma after_reachable : forall dbg rayon history, Forall bytes history -> reachable dbg rayon (decoder_after dbg rayon history).
Proof.
  intros dbg rayon history F. unfold decoder_after. assert (X : forall h d, Forall bytes h -> reachable dbg rayon d -> reachable dbg rayon (fold_left (fun d input => fst (decode dbg rayon d input)) h d)).
  { induction h as [|i h IH]; intros d Fh R; [exact R|]. inv Fh. cbn [fold_left]. apply IH; auto. constructor; auto. }
  apply X; [exact F|constructor].
Qed.
Lemma after_kept : forall dbg rayon history, Forall bytes history -> let d := decoder_after dbg rayon history in
  (never 0xDD history -> d_restart d = 0) /\ (never 0xEE history -> d_color d = None) /\ fin_ok (d_finished d).
Proof.
  intros dbg rayon history F. unfold decoder_after.
  assert (X : forall h d, Forall bytes h -> reachable dbg rayon d -> fin_ok (d_finished d) -> let d' := fold_left (fun d input => fst (decode dbg rayon d input)) h d in
    (never 0xDD h -> d_restart d' = d_restart d) /\ (never 0xEE h -> d_color d' = d_color d) /\ fin_ok (d_finished d')).
  { induction h as [|i h IH]; intros d Fh R Fi; [cbn; auto|]. inv Fh. cbn [fold_left].
    assert (A : announced i PcMarker (biter_new i)) by (split; [apply suffix_refl|split; discriminate]).
    pose proof (run_kept dbg false rayon i (run_fuel (biter_new i)) PcMarker d (biter_new i) (reachable_ok _ _ _ R) (good_start i H1) I A) as K. cbv zeta in K.
    assert (ED : fst (decode dbg rayon d i) = fst (fst (run dbg false rayon (run_fuel (biter_new i)) PcMarker d (biter_new i)))).
    { unfold decode. cbv zeta. destruct (run dbg false rayon (run_fuel (biter_new i)) PcMarker d (biter_new i)) as [[d1 b1] r]. reflexivity. }
    rewrite <- ED in K. destruct K as [K1 [K2 K3]]. destruct (IH (fst (decode dbg rayon d i)) H2 ltac:(constructor; auto) (K3 Fi)) as [J1 [J2 J3]]. splits; auto.
    - intros N. rewrite J1 by (intros x I; apply N; right; exact I). apply K1. apply N. left. reflexivity.
    - intros N. rewrite J2 by (intros x I; apply N; right; exact I). apply K2. apply N. left. reflexivity. }
  specialize (X history decoder_default F ltac:(constructor)). apply X. split; [reflexivity|]. repeat constructor; lia.
Qed.

Lemma covers_none : forall A (l : list (option A)), length l = 4%nat -> covers [None; None; None; None] l.
Proof.
  intros A l H. split; [reflexivity|]. split; [exact H|]. intros i t E. exfalso. apply index_Ok in E. destruct E as [_ E].
  destruct (Z.to_nat i) as [|[|[|[|n]]]]; cbn in E; try congruence. destruct n; discriminate.
Qed.
Lemma cov_fresh : forall d, dec_ok d -> fin_ok (d_finished d) -> d_restart d = 0 -> d_color d = None -> cov decoder_default d.
Proof.
  intros d K F R C. destruct (ok_slots d K) as [S1 [S2 S3]]. constructor; cbn; auto using covers_none; try discriminate.
  split; [reflexivity|]. split; [exact F|]. intros i x E. destruct F as [L F].
  assert (x = 0) by (apply index_Ok in E; destruct E as [_ E]; apply nth_error_In in E; cbn in E; intuition). subst x.
  pose proof (index_range _ _ _ _ E) as Ri. exists (nth (Z.to_nat i) (d_finished d) 0). split; [apply index_nth; unfold lenZ in *; rewrite L; exact Ri|].
  intros k Hk T. rewrite Z.bits_0 in T. discriminate.
Qed.

Lemma reuse : forall dbg rayon history input img, Forall bytes history -> never 0xDD history -> never 0xEE history ->
  decode_fresh dbg rayon input = Ok img -> dbg = true \/ not_black img -> snd (decode dbg rayon (decoder_after dbg rayon history) input) = Ok img.
Proof.
  intros dbg rayon history input img F ND NE E V. destruct (after_kept dbg rayon history F) as [K1 [K2 K3]].
  pose proof (cov_fresh _ (reachable_ok _ _ _ (after_reachable dbg rayon history F)) K3 (K1 ND) (K2 NE)) as C.
  unfold decode_fresh, decode in E. cbv zeta in E. destruct (run dbg false rayon (run_fuel (biter_new input)) PcMarker decoder_default (biter_new input)) as [[d' b'] r] eqn:R. cbn [snd] in E.
  destruct r; try discriminate. 2: destruct (bi_input b'); discriminate.
  destruct (bi_input b') eqn:B; [|discriminate]. inv E. destruct (run_cov _ _ _ _ PcMarker _ (decoder_after dbg rayon history) _ _ _ _ (conj C I) R V) as [u' R'].
  unfold decode. cbv zeta. rewrite R'. cbn [snd]. rewrite B. reflexivity.
Qed.

(** ** Files that bring their own restart interval and colour transform *)
Lemma order_unique : forall p q vs, natural_order p vs -> natural_order q vs -> p = q.
Proof.
  intros p q vs [Lp Hp] [Lq Hq]. apply (nth_ext p q 0 0); [congruence|]. intros n Hn. rewrite Lp in Hn. destruct (natural_unnatural n Hn) as [E L]. rewrite <- E, Hp, Hq by exact L. reflexivity.
Qed.
Lemma slots_cover : forall A (l l' : list (option A)), length l = 4%nat -> length l' = 4%nat ->
  (forall k t, (k < 4)%nat -> nth k l None = Some t -> nth k l' None = Some t) -> covers l l'.
Proof.
  intros A l l' L L' H. split; [exact L|]. split; [exact L'|]. intros i t E. pose proof (index_range _ _ _ _ E) as R. unfold lenZ in R. rewrite L in R.
  assert (R' : 0 <= i < lenZ l') by (unfold lenZ; lia). assert (R0 : 0 <= i < lenZ l) by (unfold lenZ; lia). rewrite (index_nth _ l i None R0) in E. rewrite (index_nth _ l' i None R'). f_equal. apply H; [lia|congruence].
Qed.
Lemma none_nth : forall A k, nth k [None; None; None; None] (@None A) = None.
Proof. intros A k. destruct k as [|[|[|[|[|k]]]]]; reflexivity. Qed.
Lemma header_cov : forall dbg u f' u' segs, header_state dbg decoder_default f' segs -> header_state dbg u u' segs -> fin_ok (d_finished u) ->
  dris segs <> [] \/ d_restart u = 0 -> adobes segs <> [] \/ d_color u = None -> cov f' u'.
Proof.
  intros dbg u f' u' segs [A1 A2 A3 A4 A5 A6 A7 A8 A9] [B1 B2 B3 B4 B5 B6 B7 B8 B9] F HR HC. constructor.
  - apply slots_cover; [apply A2|apply B2|]. intros k t Hk E. destruct A2 as [_ A2], B2 as [_ B2]. specialize (A2 k Hk). specialize (B2 k Hk).
    destruct (last_entry (is_slot DC k) (dhts segs)); [destruct A2 as [t1 [A2 T1]], B2 as [t2 [B2 T2]]; congruence|]. cbn [decoder_default d_dc] in A2. rewrite none_nth in A2. congruence.
  - apply slots_cover; [apply A3|apply B3|]. intros k t Hk E. destruct A3 as [_ A3], B3 as [_ B3]. specialize (A3 k Hk). specialize (B3 k Hk).
    destruct (last_entry (is_slot AC k) (dhts segs)); [destruct A3 as [t1 [A3 T1]], B3 as [t2 [B3 T2]]; congruence|]. cbn [decoder_default d_ac] in A3. rewrite none_nth in A3. congruence.
  - apply slots_cover; [apply A1|apply B1|]. intros k t Hk E. destruct A1 as [_ A1], B1 as [_ B1]. specialize (A1 k Hk). specialize (B1 k Hk).
    destruct (last_entry _ (dqts segs)); [destruct A1 as [t1 [A1 T1]], B1 as [t2 [B1 T2]]; rewrite (order_unique _ _ _ T1 T2) in A1; congruence|]. cbn [decoder_default d_qt] in A1. rewrite none_nth in A1. congruence.
  - intros fr E. rewrite A5 in E. rewrite B5. destruct (map _ (sofs segs)) as [|x l]; [discriminate|]. rewrite <- E. apply last_any.
  - intros sc E. rewrite A9 in E. discriminate.
  - rewrite A4, B4. destruct (dris segs) as [|x l]; [|apply last_any]. destruct HR as [HR|HR]; [congruence|exact HR].
  - rewrite A6, B6. destruct (adobes segs) as [|x l]; [|cbn [map]; apply last_any]. destruct HC as [HC|HC]; [congruence|exact HC].
  - left. rewrite A7. reflexivity.
  - rewrite A8, B8. split; [reflexivity|]. split; [exact F|]. intros i x E. destruct F as [L F].
    assert (x = 0) by (apply index_Ok in E; destruct E as [_ E]; apply nth_error_In in E; cbn in E; intuition). subst x.
    pose proof (index_range _ _ _ _ E) as Ri. exists (nth (Z.to_nat i) (d_finished u) 0). split; [apply index_nth; unfold lenZ in *; rewrite L; exact Ri|].
    intros k Hk T. rewrite Z.bits_0 in T. discriminate.
Qed.

Lemma reuse_header : forall dbg rayon history fill segs rest img, let input := marker_bytes fill 0xD8 ++ flat_map hseg_bytes segs ++ rest in
  Forall bytes history -> bytes input -> Forall (fun s => hseg_ok (snd s)) segs ->
  dris segs <> [] \/ never 0xDD history -> adobes segs <> [] \/ never 0xEE history ->
  decode_fresh dbg rayon input = Ok img -> dbg = true \/ not_black img -> snd (decode dbg rayon (decoder_after dbg rayon history) input) = Ok img.
Proof.
  intros dbg rayon history fill segs rest img input F B Fs HD HE E V. destruct (after_kept dbg rayon history F) as [K1 [K2 K3]]. pose proof (after_reachable dbg rayon history F) as Ru.
  remember (decoder_after dbg rayon history) as u eqn:Eu. clear Eu.
  assert (Start : forall d, from dbg false rayon (PcMarker, d, biter_new input) (PcMarker, d, mkBiter (flat_map hseg_bytes segs ++ rest) 0 0)).
  { intros d. apply (from_next _ _ _ _ (PcSegment SOI, d, mkBiter (flat_map hseg_bytes segs ++ rest) 0 0)); [|reflexivity]. eapply from_next; [apply from_here|]. cbn [moves biter_new].
    apply (marker_step dbg false rayon d [] fill 0xD8 SOI); [constructor|constructor|discriminate]. }
  destruct (header_runs dbg false rayon 0 0 segs decoder_default [] rest ltac:(split; [|split]; reflexivity) Fs ltac:(constructor)) as [f' [Sf [J [_ Hf]]]].
  destruct (header_runs dbg false rayon 0 0 segs u [] rest (ok_slots _ (reachable_ok _ _ _ Ru)) Fs ltac:(constructor)) as [u' [Su [_ [_ Hu]]]]. cbn [app] in Sf, Su.
  assert (C : cov f' u').
  { eapply header_cov; eauto; [destruct HD as [HD|HD]|destruct HE as [HE|HE]]; auto. }
  assert (G : forall d d' b, reachable dbg rayon d -> from dbg false rayon (PcMarker, d, biter_new input) (PcMarker, d', b) ->
    exists W, runs_to dbg false rayon (PcMarker, d', b) W /\ run dbg false rayon (run_fuel (biter_new input)) PcMarker d (biter_new input) = W).
  { intros d d' b Rd Fr. pose proof (decode_no_fuel dbg rayon d input Rd B) as NF. unfold decode in NF. cbv zeta in NF.
    destruct (run dbg false rayon (run_fuel (biter_new input)) PcMarker d (biter_new input)) as [[d1 b1] r] eqn:ER. exists (d1, b1, r). split; [|reflexivity].
    assert (RT : runs_to dbg false rayon (PcMarker, d, biter_new input) (d1, b1, r)).
    { eexists. split; [exact ER|]. cbn [snd]. intros ->. apply NF. reflexivity. }
    clear - Fr RT. remember (PcMarker, d', b) as c. clear Heqc. induction Fr as [|c1 c2 Fr IH M]; [exact RT|].
    destruct c1 as [[p1 e1] x1], c2 as [[p2 e2] x2]. cbn [moves] in M. apply (runs_next _ _ _ _ _ _ _ _ _ _ M). exact IH. }
  destruct (G decoder_default f' _ ltac:(constructor) (from_trans _ _ _ _ _ _ (Start _) Sf)) as [Wf [Rf Ef]].
  destruct (G u u' _ Ru (from_trans _ _ _ _ _ _ (Start _) Su)) as [Wu [Ru' Eu']].
  unfold decode_fresh, decode in E. cbv zeta in E. rewrite Ef in E. destruct Wf as [[d1 b1] r]. cbn [snd] in E. destruct r as [im| | | | |]; try discriminate. 2: destruct (bi_input b1); discriminate.
  destruct (bi_input b1) eqn:Bi; [|discriminate]. injection E as ->. destruct Rf as [fuel [Rf _]].
  destruct (run_cov _ _ _ _ PcMarker _ u' _ _ _ _ (conj C I) Rf V) as [u2 R2].
  assert (Q : runs_to dbg false rayon (PcMarker, u', mkBiter (left_overs segs [] ++ rest) 0 0) (u2, b1, RImage img)) by (exists fuel; split; [exact R2|discriminate]).
  rewrite (runs_det _ _ _ _ _ _ Ru' Q) in Eu'. unfold decode. cbv zeta. rewrite Eu'. cbn [snd]. rewrite Bi. reflexivity.
Qed.
