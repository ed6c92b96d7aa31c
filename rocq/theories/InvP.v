(** The invariant of the decoder: tables, frame, scan state and planes. *)
From Verif Require Import Base Tactics SpecBits SpecReader SpecFrame SpecHuffman SpecMarker SpecSegments SpecPlane Biterator Huffman HuffmanP HuffmanP2 HuffmanP3 Marker MarkerP
  Idct IdctP Color Types Upsampler Parsers ParsersP ParsersP2 Decode BlockP SegmentsP PlaneP ImageP SafeP.

Record dec_ok (d : decoder) : Prop := mkDecOk {
  ok_slots : four_slots d;
  ok_dc : forall t, In (Some t) (d_dc d) -> dc_ok t;
  ok_ac : forall t, In (Some t) (d_ac d) -> ac_ok t;
  ok_frame : forall fr, d_frame d = Some fr -> frame_good fr;
  ok_scan : forall sc, d_scan d = Some sc -> 0 <= s_start sc;
  ok_preds : Forall i16 (ss_preds (d_ss d));
  ok_eob : 0 <= ss_eob (d_ss d) < 2 ^ 15;
  ok_planes : Forall full (d_planes d);
}.

Lemma default_ok : dec_ok decoder_default.
Proof.
  constructor; cbn; try discriminate; try lia; try constructor; auto.
  - intros t H. repeat (destruct H as [H|H]; [discriminate|]). contradiction.
  - intros t H. repeat (destruct H as [H|H]; [discriminate|]). contradiction.
  - unfold i16; lia.
  - repeat constructor; unfold i16; lia.
Qed.

(** The MCUs of [done] have been written. *)
Definition comp_covered (MH : Z) (done : list (Z * Z)) (c : component) (p : plane) : Prop :=
  sized MH c p /\
  forall y x, 0 <= y -> 0 <= x < c_line_stride c -> In (mcu_row (c_v c) y, mcu_col (c_h c) x) done ->
    written (sample_at p (c_line_stride c) y x).
Definition covered (fr : frame) (done : list (Z * Z)) (ps : list plane) : Prop :=
  Forall2 (comp_covered (dim_h (f_mcu fr)) done) (f_components fr) ps.

Definition pc_ok (p : pc) (d : decoder) : Prop :=
  match p with
  | PcScan final todo _ =>
      exists fr done, d_frame d = Some fr /\ mcu_list (f_mcu fr) = done ++ todo /\
        if final then covered fr done (ss_results (d_ss d)) else ss_results (d_ss d) = []
  | _ => True
  end.

Lemma frame_fits : forall fr, frame_good fr ->
  Forall (fits (dim_w (f_mcu fr)) (dim_h (f_mcu fr))) (f_components fr) /\
  0 <= dim_w (f_mcu fr) /\ 0 <= dim_h (f_mcu fr) /\ f_components fr <> [] /\
  Forall (fun c => area (c_block_size c) * 64 = rows_of (dim_h (f_mcu fr)) c * c_line_stride c) (f_components fr).
Proof.
  intros fr [m [pr [lines [samples [cs [-> [L S N Fw R X]]]]]]]. unfold frame_of. cbn [f_mcu f_components dim_w dim_h].
  rewrite Forall_forall in X.
  pose proof (largest_factors cs cs_h N (fun c H => proj1 (X c H))) as Hh.
  pose proof (largest_factors cs cs_v N (fun c H => proj2 (X c H))) as Hv.
  pose proof (mcus_bound samples _ S Hh) as [W0 _]. pose proof (mcus_bound lines _ L Hv) as [H0 _]. splits; auto.
  - apply Forall_map, Forall_forall. intros c Hc. destruct (X c Hc). constructor; cbn; lia.
  - destruct cs; cbn; congruence.
  - apply Forall_map, Forall_forall. intros c Hc. unfold rows_of, area. cbn [c_block_size c_line_stride c_v dim_w dim_h]. ring.
Qed.

(** ** Decoding an MCU *)
Lemma zero_block_i16 : Forall i16 zero_block.
Proof. apply Forall_forall. intros x H. apply repeat_spec in H. subst. unfold i16; lia. Qed.

Lemma blocks_inv : forall dbg sc dct act, dc_ok dct -> ac_ok act -> 0 <= s_start sc ->
  forall n b eob pred, good b -> 0 <= eob < 2 ^ 15 -> i16 pred ->
  match decode_blocks dbg sc dct act n b eob pred with
  | Ok (cs, b', eob', pred') => good b' /\ suffix (bi_input b') (bi_input b) /\ 0 <= eob' < 2 ^ 15 /\ i16 pred' /\
      length cs = n /\ Forall (fun c => length c = 64%nat /\ Forall i16 c) cs
  | Fail _ => True
  | _ => False
  end.
Proof.
  intros dbg sc dct act Hd Ha Hs. induction n as [|n IH]; intros b eob pred G He Hp; cbn [decode_blocks].
  - splits; auto using suffix_refl; apply He.
  - pose proof (decode_block_safe dbg sc dct act zero_block b eob pred Hd Ha Hs eq_refl zero_block_i16 G He Hp) as D.
    destruct (decode_block dbg sc dct act zero_block b eob pred) as [[[[c b1] eob1] pred1]| | |]; try contradiction; [|exact I].
    destruct D as [Bd [G1 [S1 [E1 P1]]]]. cbn [bind]. specialize (IH b1 eob1 pred1 G1 E1 P1).
    destruct (decode_blocks dbg sc dct act n b1 eob1 pred1) as [[[[cs b2] eob2] pred2]| | |]; try contradiction; [|exact I].
    destruct IH as [G2 [S2 [E2 [P2 [Ln Fc]]]]]. cbn [bind]. splits; auto; try lia.
    + eapply suffix_trans; eauto.
    + cbn [length]. congruence.
    + constructor; auto. destruct Bd; auto.
Qed.

Lemma comps_inv : forall dbg d sc, dec_ok d -> 0 <= s_start sc ->
  forall cs hs ps avail b eob, Forall i16 ps -> good b -> 0 <= eob < 2 ^ 15 ->
  post (fun '(blocks, ps', b', eob') => Forall i16 ps' /\ length ps' = length ps /\ good b' /\ suffix (bi_input b') (bi_input b) /\
          0 <= eob' < 2 ^ 15 /\ (length blocks <= avail)%nat /\ Forall (fun c => length c = 64%nat /\ Forall i16 c) blocks)
       (decode_comps dbg d sc cs hs ps avail b eob).
Proof.
  intros dbg d sc K Hs. induction cs as [|c cs IH]; intros hs ps avail b eob Fp G He; cbn [decode_comps].
  { cbn [post length]. splits; auto using suffix_refl; lia. }
  destruct hs as [|h hs]. { cbn [post length]. splits; auto using suffix_refl; lia. }
  destruct ps as [|p ps]. { cbn [post length]. splits; auto using suffix_refl; lia. }
  inv Fp.
  eapply post_bind; [apply (post_index _ (fun o => forall t, o = Some t -> dc_ok t)); apply Forall_forall; intros o Ho t ->; apply (ok_dc d K); auto|].
  intros [dct|] Hd; [|exact I]. cbn [bind]. specialize (Hd dct eq_refl).
  eapply post_bind; [apply (post_index _ (fun o => forall t, o = Some t -> ac_ok t)); apply Forall_forall; intros o Ho t ->; apply (ok_ac d K); auto|].
  intros [act|] Ha; [|exact I]. cbn [bind]. specialize (Ha act eq_refl). cbv zeta.
  set (n := Nat.min (Z.to_nat (c_blocks_per_mcu c)) avail).
  pose proof (blocks_inv dbg sc dct act Hd Ha Hs n b eob p G He H1) as D.
  destruct (decode_blocks dbg sc dct act n b eob p) as [[[[bl b1] eob1] p1]| | |]; try contradiction; [|exact I].
  destruct D as [G1 [S1 [E1 [P1 [Ln Fb]]]]]. cbn [bind].
  eapply post_bind; [apply (IH hs ps (avail - n)%nat b1 eob1 H2 G1 E1)|].
  intros [[[rest ps'] b2] eob2] [Q1 [Q2 [Q3 [Q4 [Q5 [Q6 Q7]]]]]]. cbn [post]. splits; auto.
  - cbn [length]. congruence.
  - eapply suffix_trans; eauto.
  - lia.
  - lia.
  - rewrite app_length. unfold n in *. lia.
  - apply Forall_app. split; auto.
Qed.

(** Only the scan state changes, and not the planes. *)
Definition same (d d' : decoder) : Prop :=
  exists s, d' = set_ss d s /\ ss_results s = ss_results (d_ss d) /\ Forall i16 (ss_preds s) /\ 0 <= ss_eob s < 2 ^ 15.

Lemma same_refl : forall d, dec_ok d -> same d d.
Proof. intros d [A B C D E F G H]. exists (d_ss d). splits; auto; try lia. destruct d; reflexivity. Qed.
Lemma same_trans : forall a b c, same a b -> same b c -> same a c.
Proof. intros a b c [s [-> [H1 [H2 H3]]]] [t [-> [K1 [K2 K3]]]]. exists t. splits; auto; try lia. cbn in K1. congruence. Qed.
Lemma same_ok : forall d d', dec_ok d -> same d d' -> dec_ok d'.
Proof. intros d d' [A B C D E F G H] [s [-> [H1 [H2 H3]]]]. constructor; cbn; auto. Qed.
Lemma same_pc : forall d d' final todo ph ph', same d d' -> pc_ok (PcScan final todo ph) d -> pc_ok (PcScan final todo ph') d'.
Proof. intros d d' final todo ph ph' [s [-> [H1 [H2 H3]]]] H. cbn in *. rewrite H1. exact H. Qed.
Lemma same_frame : forall d d', same d d' -> d_frame d' = d_frame d.
Proof. intros d d' [s [-> _]]. reflexivity. Qed.

Lemma row_inv : forall dbg d b, dec_ok d -> good b ->
  post (fun '(d', b') => same d d' /\ good b' /\ suffix (bi_input b') (bi_input b) /\
         length (ss_coefs (d_ss d')) = 10%nat /\ Forall (fun c => length c = 64%nat /\ Forall i16 c) (ss_coefs (d_ss d')) /\
         length (ss_preds (d_ss d')) = length (ss_preds (d_ss d)))
       (decode_row dbg d b).
Proof.
  intros dbg d b K G. unfold decode_row. destruct (d_scan d) as [sc|] eqn:Es; [|exact I]. destruct (d_frame d) as [fr|]; [|exact I].
  eapply post_bind; [apply (comps_inv dbg d sc K (ok_scan d K sc Es)); auto; [apply (ok_preds d K)|apply (ok_eob d K)]|].
  intros [[[blocks ps] b'] eob] [Q1 [Q2 [Q3 [Q4 [Q5 [Q6 Q7]]]]]]. cbn [post]. splits; auto.
  - eexists. splits; try reflexivity; cbn; auto; lia.
  - cbn [d_ss set_ss ss_coefs]. rewrite app_length, repeat_length. unfold MAX_BLOCKS in *. lia.
  - cbn [d_ss set_ss ss_coefs]. apply Forall_app. split; auto. apply Forall_forall. intros x Hx. apply repeat_spec in Hx. subst. split; [reflexivity|apply zero_block_i16].
Qed.

Lemma check_inv : forall dbg x y d, dec_ok d -> post (fun '(need, d') => same d d') (restart_check dbg x y d).
Proof.
  intros dbg x y d K. unfold restart_check. destruct (0 <? d_restart d); [|apply same_refl; auto].
  destruct (d_frame d) as [fr|]; [|exact I]. eapply post_bind; [apply post_usub|]. intros lx _.
  eapply post_bind with (Q := fun _ => True).
  { destruct (x =? lx); [|exact I]. eapply post_bind; [apply post_usub|]. intros; exact I. }
  intros il _. eapply post_bind; [apply post_usub|]. intros lft _. cbn [post]. eexists. splits; try reflexivity; cbn; apply K.
Qed.

Lemma first_marker_len : forall i m rest, parse_marker i = Ok (m, rest) -> suffix rest i /\ (length rest + 2 <= length i)%nat.
Proof.
  intros i m rest H. split; [|eapply parse_marker_len; eauto]. apply parse_marker_ok in H. destruct H as [c [_ [pre [k [_ [_ [_ ->]]]]]]].
  exists (pre ++ FF (S k) ++ [c]). rewrite <- !app_assoc. reflexivity.
Qed.

Lemma good_rest : forall b rest, good b -> suffix rest (bi_input b) -> good (mkBiter rest (bi_bits b) (bi_count b)).
Proof. intros b rest [R B] S. split; [exact R|]. cbn. eapply suffix_Forall; eauto. Qed.

Lemma restart_inv : forall d b, dec_ok d -> good b ->
  post (fun '(d', b') => same d d' /\ good b' /\ suffix (bi_input b') (bi_input b)) (restart_marker d b).
Proof.
  intros d b K G. unfold restart_marker. destruct (parse_marker_total (bi_input b)) as [[m [rest E]]|[E|E]]; rewrite E; cbn [bind]; try exact I.
  destruct (first_marker_len _ _ _ E) as [S _]. pose proof (good_rest b rest G S) as G'.
  unfold handle_restart. destruct m; try exact I. destruct (n =? ss_rst (d_ss d)); [|exact I]. cbn [post]. splits.
  - eexists. splits; try reflexivity; cbn; try lia. repeat constructor; unfold i16; lia.
  - destruct G' as [R B]. split; [|exact B]. unfold biter_reset, reader_ok. cbn. lia.
  - exact S.
Qed.

(** ** Painting an MCU *)
Lemma in_block_byte : forall coefs qt y x, is_byte (in_block (block_samples coefs qt) y x).
Proof.
  intros coefs qt y x. unfold in_block. destruct (block_samples_shape coefs qt) as [L F]. rewrite Forall_forall in F.
  assert (Hy : (Z.to_nat (y mod 8) < 8)%nat) by (pose proof (Z.mod_pos_bound y 8); lia).
  assert (Hx : (Z.to_nat (x mod 8) < 8)%nat) by (pose proof (Z.mod_pos_bound x 8); lia).
  destruct (F (nth (Z.to_nat (y mod 8)) (block_samples coefs qt) [])) as [L8 B]; [apply nth_In; lia|].
  unfold bytes in B. rewrite Forall_forall in B. apply B. apply nth_In. lia.
Qed.

Lemma painted_covered : forall MH c qt mx my blocks done p p', painted c qt mx my blocks p p' ->
  comp_covered MH done c p -> comp_covered MH (done ++ [(my, mx)]) c p'.
Proof.
  intros MH c qt mx my blocks done p p' [L P] [Sz C]. split; [unfold sized, lenZ in *; lia|].
  intros y x Hy Hx Hin. rewrite P by auto. destruct ((mcu_row (c_v c) y =? my) && (mcu_col (c_h c) x =? mx)) eqn:E.
  - eexists. split; [reflexivity|]. apply in_block_byte.
  - apply C; auto. apply in_app_or in Hin. destruct Hin as [|[Hin|[]]]; auto. inv Hin. lia.
Qed.

Lemma mcu_covered : forall MH qts mx my done cs blocks ps ps', mcu_painted qts mx my cs blocks ps ps' ->
  Forall2 (comp_covered MH done) cs ps -> Forall2 (comp_covered MH (done ++ [(my, mx)])) cs ps'.
Proof.
  induction 1; intros F; inv F; constructor; auto. eapply painted_covered; eauto.
Qed.

Lemma zrange_range : forall n k, In k (zrange n) -> 0 <= k < n.
Proof. intros n k H. unfold zrange in H. apply in_map_iff in H. destruct H as [j [<- Hj]]. apply in_seq in Hj. lia. Qed.

Lemma mcu_in : forall mcu done y x rest, mcu_list mcu = done ++ (y, x) :: rest -> 0 <= x < dim_w mcu /\ 0 <= y < dim_h mcu.
Proof.
  intros mcu done y x rest E. assert (H : In (y, x) (mcu_list mcu)) by (rewrite E; apply in_or_app; right; left; reflexivity).
  unfold mcu_list in H. apply in_prod_iff in H. destruct H as [Hy Hx]. apply zrange_range in Hy. apply zrange_range in Hx. lia.
Qed.

(** No model fuel is spent in the inverse transform. *)
Definition nofuel {A} (o : out A) : Prop := o <> Panic PFuel.
Lemma nofuel_bind : forall A B (x : out A) (f : A -> out B), nofuel x -> (forall a, nofuel (f a)) -> nofuel (bind x f).
Proof. intros A B [a|e|p|] f H K; unfold nofuel in *; cbn; try discriminate; auto. congruence. Qed.
Lemma nofuel_assert : forall b p, p <> PFuel -> nofuel (assert_ b p).
Proof. intros [] p H; unfold nofuel; cbn; congruence. Qed.
Lemma nofuel_index : forall A (xs : list A) i, nofuel (index xs i).
Proof. intros. unfold nofuel, index. destruct (i <? 0); [discriminate|]. destruct (nth_error _ _); discriminate. Qed.
Ltac nf := repeat match goal with
  | |- nofuel (bind _ _) => apply nofuel_bind; [|intros]
  | |- nofuel (assert_ _ _) => apply nofuel_assert; discriminate
  | |- nofuel (index _ _) => apply nofuel_index
  | |- nofuel (Ok _) => discriminate
  | |- nofuel (Panic _) => discriminate
  | |- nofuel UB => discriminate
  end.

Lemma skip_nofuel : forall n blocks, nofuel (skip_blocks n blocks).
Proof. induction n; intros [|? ?]; cbn; nf. apply IHn. Qed.
Lemma put_nofuel : forall stride rows p off, nofuel (put_rows p off stride rows).
Proof. induction rows; intros p off; cbn [put_rows]; nf. repeat (match goal with |- context [if ?c then _ else _] => destruct c end; cbn; nf; auto). Qed.
Lemma idct_nofuel : forall dbg c qt st o p, nofuel (idct_block_8x8 dbg c qt st o p).
Proof. intros. unfold idct_block_8x8. cbv zeta. rewrite idct_block_total. generalize (block_samples c qt). intros rows. nf; [destruct dbg; cbn [debug_assert]; nf|]. apply put_nofuel. Qed.
Lemma blocks_x_nofuel : forall dbg c qt start xs blocks p, nofuel (idct_blocks_x dbg c qt start xs blocks p).
Proof. intros dbg c qt start. induction xs as [|x xs IH]; intros blocks p; cbn [idct_blocks_x]; nf. destruct blocks; nf. { apply idct_nofuel. } apply IH. Qed.
Lemma blocks_y_nofuel : forall dbg c qt off ys blocks p, nofuel (idct_blocks_y dbg c qt off ys blocks p).
Proof.
  intros dbg c qt off. induction ys as [|y ys IH]; intros blocks p; cbn [idct_blocks_y]; nf.
  - destruct (_ <=? _); [apply blocks_x_nofuel|]. nf. apply skip_nofuel.
  - destruct a. apply IH.
Qed.
Lemma comps_nofuel : forall dbg qts mx my cs ps blocks, nofuel (dequantize_comps dbg qts mx my cs ps blocks).
Proof.
  intros dbg qts mx my. induction cs as [|c cs IH]; intros ps blocks; cbn [dequantize_comps]; nf. destruct ps as [|p ps]; nf.
  - destruct a; nf.
  - destruct (_ <=? _); [apply blocks_y_nofuel|]. nf. apply skip_nofuel.
  - destruct a1. nf. apply IH.
Qed.

Lemma dequantize_inv : forall dbg x y d fr done rest, frame_good fr -> d_frame d = Some fr -> mcu_list (f_mcu fr) = done ++ (y, x) :: rest ->
  covered fr done (ss_results (d_ss d)) ->
  post (fun d' => exists ps, d' = set_ss d (set_results (d_ss d) ps) /\ covered fr (done ++ [(y, x)]) ps) (dequantize dbg x y d).
Proof.
  intros dbg x y d fr done rest FG Hf E C. unfold dequantize. rewrite Hf.
  eapply post_bind with (Q := fun _ => True).
  { unfold coding_process. repeat (match goal with |- context [if ?c then _ else _] => destruct c end; cbn; auto). }
  intros cp _. eapply post_bind with (Q := fun _ => True). { destruct cp; exact I. }
  intros _ _. destruct (mcu_in _ _ _ _ _ E) as [Hx Hy]. destruct (frame_fits fr FG) as [Ft _].
  assert (Sz : Forall2 (sized (dim_h (f_mcu fr))) (f_components fr) (ss_results (d_ss d))).
  { clear - C. induction C; constructor; auto. apply H. }
  pose proof (mcu_comps dbg _ _ (d_qt d) x y (f_components fr) (ss_results (d_ss d)) (ss_coefs (d_ss d)) Ft Sz Hx Hy) as M.
  destruct (dequantize_comps dbg (d_qt d) x y (f_components fr) (ss_results (d_ss d)) (ss_coefs (d_ss d))) as [ps|e|q|] eqn:D; try contradiction; cbn [bind post].
  - exists ps. split; [reflexivity|]. eapply mcu_covered; eauto.
  - destruct q; auto. apply (comps_nofuel dbg (d_qt d) x y (f_components fr) (ss_results (d_ss d)) (ss_coefs (d_ss d)) D).
Qed.

(** ** A scan *)
Definition scan_post (final : bool) (d : decoder) (b : biter) (r : decoder * biter * scan_res) : Prop :=
  let '(d', b', sr) := r in
  dec_ok d' /\ good b' /\ suffix (bi_input b') (bi_input b) /\ d_frame d' = d_frame d /\
  match sr with
  | ScDone => pc_ok (PcScan final [] PhRow) d'
  | ScNeed todo ph => pc_ok (PcScan final todo ph) d'
  | ScPanic PFuel => False
  | ScUB => False
  | _ => True
  end.

Lemma scan_inv : forall dbg rerun final todo ph d b, dec_ok d -> good b -> pc_ok (PcScan final todo ph) d ->
  scan_post final d b (scan_loop dbg rerun final todo ph d b).
Proof.
  intros dbg rerun final. induction todo as [|[y x] rest IH]; intros ph d b K G P; cbn [scan_loop].
  { unfold scan_post. splits; auto using suffix_refl. }
  set (o1 := match ph with PhRow => decode_row dbg d b | PhRestart => Ok (d, b) end).
  assert (Q1 : post (fun '(d', b') => same d d' /\ good b' /\ suffix (bi_input b') (bi_input b)) o1).
  { unfold o1. destruct ph.
    - eapply post_weaken; [apply row_inv; auto|]. intros [d1 b1]. tauto.
    - cbn. splits; auto using same_refl, suffix_refl. }
  destruct o1 as [[d1 b1]|e|p|].
  2:{ destruct e; unfold scan_post; splits; auto using suffix_refl. }
  2:{ unfold scan_post; splits; auto using suffix_refl; destruct p; auto. }
  2:{ contradiction. }
  destruct Q1 as [S1 [G1 I1]]. pose proof (same_ok _ _ K S1) as K1. cbv zeta.
  set (o2 := if match ph with PhRow => true | PhRestart => rerun end then restart_check dbg x y d1 else Ok (true, d1)).
  assert (Q2 : post (fun '(_, d') => same d1 d') o2).
  { unfold o2. destruct (match ph with PhRow => true | PhRestart => rerun end); [apply check_inv; auto|]. apply same_refl; auto. }
  destruct o2 as [[need d2]|e|p|].
  2:{ unfold scan_post; splits; auto. apply same_frame; auto. }
  2:{ unfold scan_post; splits; auto; try (apply same_frame; auto); destruct p; auto. }
  2:{ contradiction. }
  assert (S2 : same d d2) by (eapply same_trans; eauto). pose proof (same_ok _ _ K S2) as K2. pose proof (same_frame _ _ S2) as F2.
  set (o3 := if need then restart_marker d2 b1 else Ok (d2, b1)).
  assert (Q3 : post (fun '(d', b') => same d2 d' /\ good b' /\ suffix (bi_input b') (bi_input b1)) o3).
  { unfold o3. destruct need; [apply restart_inv; auto|]. cbn. splits; auto using same_refl, suffix_refl. }
  destruct o3 as [[d3 b3]|e|p|].
  2:{ destruct e; unfold scan_post; splits; auto. eapply same_pc; eauto. }
  2:{ unfold scan_post; splits; auto; destruct p; auto. }
  2:{ contradiction. }
  destruct Q3 as [S3 [G3 I3]]. assert (S3' : same d d3) by (eapply same_trans; eauto). pose proof (same_ok _ _ K S3') as K3. pose proof (same_frame _ _ S3') as F3.
  assert (I3' : suffix (bi_input b3) (bi_input b)) by (eapply suffix_trans; eauto).
  pose proof (same_pc _ _ _ _ _ ph S3' P) as P3. destruct P3 as [fr [done [Hf [E C]]]].
  assert (E' : mcu_list (f_mcu fr) = (done ++ [(y, x)]) ++ rest) by (rewrite <- app_assoc; exact E).
  assert (Q4 : post (fun d' => dec_ok d' /\ d_frame d' = d_frame d3 /\ pc_ok (PcScan final rest PhRow) d') (if final then dequantize dbg x y d3 else Ok d3)).
  { destruct final.
    - eapply post_weaken; [apply (dequantize_inv dbg x y d3 fr done rest (ok_frame d3 K3 fr Hf) Hf E C)|].
      intros d' [ps [-> C']]. splits; auto.
      + destruct K3 as [A1 A2 A3 A4 A5 A6 A7 A8]. constructor; cbn; auto.
      + exists fr, (done ++ [(y, x)]). splits; auto.
    - cbn [post]. splits; auto. exists fr, (done ++ [(y, x)]). splits; auto. }
  destruct (if final then dequantize dbg x y d3 else Ok d3) as [d4|e|p|].
  2:{ unfold scan_post; splits; auto. }
  2:{ unfold scan_post; splits; auto; destruct p; auto. }
  2:{ contradiction. }
  destruct Q4 as [K4 [F4 P4]]. specialize (IH PhRow d4 b3 K4 G3 P4).
  destruct (scan_loop dbg rerun final rest PhRow d4 b3) as [[d5 b5] sr]. unfold scan_post in *.
  destruct IH as [A1 [A2 [A3 [A4 A5]]]]. splits; auto; try congruence. eapply suffix_trans; eauto.
Qed.

(** All MCUs done: the planes are written. *)
Lemma covered_full : forall fr ps, frame_good fr -> covered fr (mcu_list (f_mcu fr)) ps -> Forall full ps.
Proof.
  intros fr ps FG C. destruct (frame_fits fr FG) as [Ft [W0 [H0 _]]]. unfold covered in C.
  set (MH := dim_h (f_mcu fr)) in *. set (MW := dim_w (f_mcu fr)) in *.
  assert (X : forall c p, fits MW MH c -> comp_covered MH (mcu_list (f_mcu fr)) c p -> full p).
  { intros c p [Fh Fv Fs Fl Fm] [Sz Cv]. unfold full. apply Forall_forall. intros o Ho. apply (In_nth _ _ None) in Ho. destruct Ho as [i [Hi <-]].
    unfold sized, rows_of in Sz. set (st := c_line_stride c) in *. unfold lenZ in Sz.
    assert (St : 0 < st).
    { assert (0 <= st) by (rewrite Fs; nia). assert (st <> 0). { intros Z0. rewrite Z0 in Sz. lia. } lia. }
    set (r := Z.of_nat i / st). set (q := Z.of_nat i mod st).
    assert (Q : 0 <= q < st) by (apply Z.mod_pos_bound; auto).
    assert (Er : Z.of_nat i = r * st + q) by (unfold r, q; pose proof (Z.div_mod (Z.of_nat i) st); lia).
    assert (R0 : 0 <= r) by (apply Z.div_pos; lia).
    assert (R1 : r < 8 * (MH * c_v c)).
    { apply Z.div_lt_upper_bound; [lia|]. rewrite (Z.mul_comm st). lia. }
    specialize (Cv r q R0 Q). unfold sample_at in Cv. rewrite <- Er, Nat2Z.id in Cv. apply Cv. unfold mcu_list. apply in_prod_iff. unfold mcu_row, mcu_col. split; apply zrange_in.
    - split; [apply Z.div_pos; lia|]. apply Z.div_lt_upper_bound; fold MH; nia.
    - split; [apply Z.div_pos; lia|]. apply Z.div_lt_upper_bound; fold MW; nia. }
  clear - X Ft C. revert Ft. induction C; intros Ft; constructor; inv Ft; auto. eapply X; eauto.
Qed.

Lemma take_planes_full : forall hs ps, Forall full ps -> post (fun '(qs, _) => Forall full qs) (take_planes ps hs).
Proof.
  induction hs as [|h hs IH]; intros ps F; cbn [take_planes]; [constructor|].
  eapply post_bind; [apply (post_index _ full); auto|]. intros p Fp.
  eapply post_bind; [apply (post_store _ full); auto; constructor|]. intros ps' [F' _].
  eapply post_bind; [apply IH; auto|]. intros [qs r] Fq. constructor; auto.
Qed.

Lemma finish_inv : forall final d, dec_ok d -> pc_ok (PcScan final [] PhRow) d -> post (fun d' => dec_ok d' /\ d_frame d' = d_frame d) (scan_finish d).
Proof.
  intros final d K [fr [done [Hf [E C]]]]. unfold scan_finish. destruct (d_scan d) as [sc|]; [|exact I]. rewrite app_nil_r in E.
  assert (F : Forall full (ss_results (d_ss d))).
  { destruct final; [|rewrite C; constructor]. subst done. eapply covered_full; eauto. apply (ok_frame d K); auto. }
  eapply post_bind; [apply take_planes_full; exact F|]. intros [ps r] Fp. cbn [post]. split; [|reflexivity].
  destruct K as [A1 A2 A3 A4 A5 A6 A7 A8]. constructor; cbn; auto.
Qed.

(** ** Segments *)
Lemma keep_cases : forall A (d : decoder) (r : out A) (k : A -> decoder) (Q : A -> Prop), dec_ok d -> post Q r -> (forall a, Q a -> dec_ok (k a)) ->
  let x := match r with Ok a => (k a, Ok tt) | Fail e => (d, Fail e) | Panic p => (d, Panic p) | UB => (d, UB) end in
  dec_ok (fst x) /\ post (fun _ => True) (snd x).
Proof. intros A d [a|e|[]|] k Q K H X; cbn in *; auto. Qed.

Lemma slots_upd : forall A (l : list (option A)) (P : A -> Prop) k v, (forall t, In (Some t) l -> P t) -> P v ->
  forall t, In (Some t) (upd l k (Some v)) -> P t.
Proof.
  intros A l P k v H V t Hin. assert (F : Forall (fun o => forall t, o = Some t -> P t) (upd l k (Some v))).
  { apply Forall_upd. - apply Forall_forall. intros o Ho t' ->. auto. - intros t' E. inv E. auto. }
  rewrite Forall_forall in F. eapply F; eauto.
Qed.

Lemma table_new_post : forall dbg ls vs, counts_ok ls -> lenZ vs = total_codes ls -> post (fun t => table_new dbg ls vs = Ok t) (table_new dbg ls vs).
Proof.
  intros dbg ls vs C L. destruct (table_new_spec dbg ls vs C L) as [S1 [S2 [S3 S4]]]. pose proof (total_nonneg ls (proj2 C)).
  destruct (Z_le_gt_dec (total_codes ls) 0). { rewrite S3 by lia. exact I. }
  destruct (Z_le_gt_dec (total_codes ls) 256).
  - destruct (Z_le_gt_dec (kraft ls) (2 ^ 16)).
    + destruct S1 as [t [-> _]]; auto; [lia|reflexivity].
    + rewrite S2 by lia. exact I.
  - rewrite S4 by lia. destruct dbg; exact I.
Qed.

Lemma store_huffman_inv : forall dbg d c th ls vs, dec_ok d -> counts_ok ls -> bytes vs -> lenZ vs = total_codes ls -> 0 <= th <= 3 ->
  post dec_ok (store_huffman dbg d c th ls vs).
Proof.
  intros dbg d c th ls vs K C V L T. destruct K as [[L1 [L2 L3]] A2 A3 A4 A5 A6 A7 A8]. unfold store_huffman. destruct c.
  - eapply post_bind; [apply table_new_post; auto|]. intros t E. rewrite store_in by (unfold lenZ; lia). cbn [bind post]. constructor; cbn; auto.
    + unfold four_slots. cbn. rewrite upd_length. auto.
    + apply slots_upd; auto. exists ls, vs. split; auto. eapply table_new_of; [auto|auto|exact E].
  - assert (Q : post (fun t => ac_new dbg ls vs = Ok t) (ac_new dbg ls vs)).
    { unfold ac_new. eapply post_bind; [apply table_new_post; auto|]. intros t E. rewrite E. reflexivity. }
    eapply post_bind; [exact Q|]. intros t E. rewrite store_in by (unfold lenZ; lia). cbn [bind post]. constructor; cbn; auto.
    + unfold four_slots. cbn. rewrite upd_length. auto.
    + apply slots_upd; auto. exists ls, vs. split; auto. eapply ac_new_of; [auto|auto|exact E].
Qed.

Lemma dht_inv : forall dbg fuel d i, dec_ok d -> bytes i -> (length i <= fuel)%nat ->
  dec_ok (fst (seg_dht dbg fuel d i)) /\ d_frame (fst (seg_dht dbg fuel d i)) = d_frame d /\ post (fun _ => True) (snd (seg_dht dbg fuel d i)).
Proof.
  intros dbg. induction fuel as [|fuel IH]; intros d i K B L.
  - destruct i; [|cbn in L; lia]. cbn. auto.
  - destruct i as [|x i]; [cbn; auto|]. rewrite seg_dht_unfold by discriminate.
    pose proof (huffman_table_safe (x :: i)) as HS. destruct (huffman_table (x :: i)) as [[[[[c th] ls] vs] i']|e|p|] eqn:E; try contradiction; [|cbn; auto].
    destruct (huffman_table_inv _ _ _ _ _ _ B E) as [Ei [Ht [C [V Lv]]]].
    pose proof (store_huffman_inv dbg d c th ls vs K C V Lv Ht) as P.
    destruct (store_huffman dbg d c th ls vs) as [d'|e|p|] eqn:Es; try contradiction; [|cbn; auto|cbn; auto].
    assert (Fr : d_frame d' = d_frame d).
    { unfold store_huffman in Es. destruct c; binv Es; binv Es; inv Es; reflexivity. }
    rewrite <- Fr. apply IH; auto.
    + rewrite Ei in B. apply Forall_app in B. apply B.
    + assert (length (x :: i) = length (dht_bytes (mkDht c th ls vs)) + length i')%nat by (rewrite Ei, app_length; reflexivity).
      cbn in *. lia.
Qed.

Lemma sof_post : forall dbg m i, post (fun _ => True) (sof dbg m i).
Proof.
  intros dbg m i. unfold sof. eapply post_bind; [apply post_safe, p_any_safe|]. intros [p i1] _.
  eapply post_bind; [apply post_safe, p_u16_safe|]. intros [l i2] _. eapply post_bind; [apply post_safe, p_u16_safe|]. intros [s i3] _.
  eapply post_bind; [apply post_safe, p_any_safe|]. intros [n i4] _.
  eapply post_bind; [apply post_safe, p_count_safe, sof_component_safe|]. intros [cs i5] _.
  eapply post_bind; [apply post_max|]. intros hm _. eapply post_bind; [apply post_max|]. intros vm _. cbv zeta.
  eapply post_bind; [|intros; exact I]. apply post_mapM. intros c. unfold fill_component, umul16.
  eapply post_bind with (Q := fun _ => True); [destruct (_ <=? _), dbg; exact I|]. intros bw _.
  eapply post_bind with (Q := fun _ => True); [destruct (_ <=? _), dbg; exact I|]. intros bh _. exact I.
Qed.

Lemma payload_inv : forall dbg m d data, dec_ok d -> bytes data ->
  let x := seg_payload dbg m d data in dec_ok (fst x) /\ post (fun _ => True) (snd x).
Proof.
  intros dbg m d data K B. destruct m; cbn [seg_payload]; cbv zeta; try (split; [exact K|exact I]).
  - apply (keep_cases _ d _ _ (fun '(f, _) => frame_good f)); auto.
    + destruct (sof dbg n data) as [[fr r]|e|p|] eqn:E; cbn [post]; auto.
      * destruct (sof_inv _ _ _ _ _ B E) as [p [lines [samples [cs [_ [_ [H1 [H2 [H3 [H4 [H5 [H6 ->]]]]]]]]]]]].
        exists n, p, lines, samples, cs. split; auto. constructor; auto.
      * pose proof (sof_post dbg n data) as P. rewrite E in P. exact P.
      * pose proof (sof_post dbg n data) as P. rewrite E in P. exact P.
    + intros [f r] Hf. destruct K as [A1 A2 A3 A4 A5 A6 A7 A8]. constructor; cbn; auto. intros fr E. inv E. auto.
  - destruct (dht_inv dbg (length data) d data K B (le_n _)) as [H1 [_ H2]]. auto.
  - destruct K as [[L1 [L2 L3]] A2 A3 A4 A5 A6 A7 A8].
    destruct (seg_dqt_any (length data) d data B L3 (le_n _)) as [ts [r [l [Ep [F [[Ll _] [[_ E]|[_ [e [_ E]]]]]]]]]]; rewrite E; cbn [fst snd post];
      (split; [constructor; cbn; auto; unfold four_slots; cbn; auto|exact I]).
  - apply (keep_cases _ d _ _ (fun _ => True)); auto.
    + apply post_safe, p_u16_safe.
    + intros [r i] _. destruct K as [A1 A2 A3 A4 A5 A6 A7 A8]. constructor; cbn; auto.
  - destruct (n =? 14); [|split; [exact K|exact I]]. apply (keep_cases _ d _ _ (fun _ => True)); auto.
    + apply post_safe, app_adobe_safe.
    + intros [r i] _. destruct K as [A1 A2 A3 A4 A5 A6 A7 A8]. constructor; cbn; auto.
Qed.

Lemma set_bits_post : forall dbg js x, post (fun _ => True) (set_bits dbg js x).
Proof. intros dbg. induction js; intros x; cbn [set_bits]; [exact I|]. destruct (64 <=? a), dbg; cbn; auto. Qed.
Lemma mark_post : forall dbg js hs fin, post (fun _ => True) (mark_finished dbg js hs fin).
Proof.
  intros dbg js. induction hs as [|h hs IH]; intros fin; cbn [mark_finished]; [exact I|]. destruct js; [apply IH|].
  eapply post_bind; [apply (post_index _ (fun _ => True)), Forall_forall; auto|]. intros x _.
  eapply post_bind; [apply set_bits_post|]. intros y _.
  eapply post_bind; [apply (post_store _ (fun _ => True)); auto; apply Forall_forall; auto|]. intros fin' _. apply IH.
Qed.
Lemma all_post : forall fin hs, post (fun _ => True) (all_finished fin hs).
Proof.
  intros fin. induction hs as [|h hs IH]; cbn [all_finished]; [exact I|].
  eapply post_bind; [apply (post_index _ (fun _ => True)), Forall_forall; auto|]. intros x _. destruct (_ =? _); [apply IH|exact I].
Qed.
Lemma any_unset_post : forall A (ts : list (option A)) sel, post (fun _ => True) (any_unset ts sel).
Proof.
  intros A ts. induction sel as [|i r IH]; cbn [any_unset]; [exact I|].
  eapply post_bind; [apply (post_index _ (fun _ => True)), Forall_forall; auto|]. intros [x|] _; [apply IH|exact I].
Qed.

Lemma coding_post : forall fr, post (fun _ => True) (coding_process fr).
Proof. intros. unfold coding_process. repeat (match goal with |- context [if ?c then _ else _] => destruct c end; cbn; auto). Qed.

Lemma sos_begin_inv : forall dbg d sc, dec_ok d -> 0 <= s_start sc ->
  let x := sos_begin dbg d sc in dec_ok (fst x) /\ d_frame (fst x) = d_frame d /\ post (fun _ => True) (snd x).
Proof.
  intros dbg d sc K Hs. unfold sos_begin. cbn [d_frame set_scan].
  assert (K1 : dec_ok (set_scan d (Some sc))).
  { destruct K as [A1 A2 A3 A4 A5 A6 A7 A8]. constructor; cbn; auto. intros s E. inv E. auto. }
  destruct (d_frame d) as [fr|] eqn:Ef; [|cbn; auto].
  pose proof (coding_post fr) as P. destruct (coding_process fr) as [cp|e|p|]; try contradiction; [|cbn; auto|cbn; rewrite Ef; auto].
  assert (X : forall o : out (list Z), post (fun _ => True) o ->
    let x := match o with Ok fin => (set_finished (set_scan d (Some sc)) fin, all_finished fin (s_headers sc)) | Fail e => (set_scan d (Some sc), Fail e)
             | Panic p => (set_scan d (Some sc), Panic p) | UB => (set_scan d (Some sc), UB) end in
    dec_ok (fst x) /\ d_frame (fst x) = Some fr /\ post (fun _ => True) (snd x)).
  { intros [fin|e|p|] H; cbn [fst snd]; try contradiction; splits; auto; try (destruct K1 as [A1 A2 A3 A4 A5 A6 A7 A8]; constructor; cbn; auto; fail). apply all_post. }
  destruct cp; try (apply X; cbn [d_finished set_scan]; destruct (s_low sc =? 0); [apply mark_post|exact I]). cbn; auto.
Qed.

Lemma covered_start : forall fr, frame_good fr ->
  covered fr [] (map (fun c => repeat None (Z.to_nat (area (c_block_size c) * 64))) (f_components fr)).
Proof.
  intros fr FG. destruct (frame_fits fr FG) as [Ft [W0 [H0 [_ Ar]]]]. unfold covered.
  set (MH := dim_h (f_mcu fr)) in *. set (MW := dim_w (f_mcu fr)) in *. clearbody MH MW. clear FG.
  induction (f_components fr) as [|c cs IH]; cbn [map]; constructor.
  - inv Ft. inv Ar. split; [|intros; contradiction]. unfold sized, lenZ. rewrite repeat_length, H4.
    rewrite Z2Nat.id; auto. destruct H2. unfold rows_of. rewrite ft_stride. nia.
  - inv Ft. inv Ar. auto.
Qed.

Lemma scan_init_inv : forall final d, dec_ok d ->
  post (fun d' => dec_ok d' /\ d_frame d' = d_frame d /\ exists fr, d_frame d = Some fr /\ pc_ok (PcScan final (mcu_list (f_mcu fr)) PhRow) d') (scan_init final d).
Proof.
  intros final d K. unfold scan_init. destruct (d_frame d) as [fr|] eqn:Ef; [|exact I]. destruct (d_scan d) as [sc|]; [|exact I].
  eapply post_bind with (Q := fun _ => True). { destruct (_ =? _); [apply any_unset_post|exact I]. }
  intros [] _; [exact I|]. eapply post_bind with (Q := fun _ => True). { destruct (_ <? _); [apply any_unset_post|exact I]. }
  intros [] _; [exact I|].
  eapply post_bind with (Q := fun ps => if final then covered fr [] ps else ps = []).
  { destruct final; [|reflexivity]. eapply post_bind; [apply post_assert; discriminate|]. intros _ _. cbn [post]. apply covered_start. apply (ok_frame d K); auto. }
  intros ps C. cbn [post]. splits.
  - destruct K as [A1 A2 A3 A4 A5 A6 A7 A8]. constructor; cbn; auto; [|lia]. repeat constructor; unfold i16; lia.
  - cbn. auto.
  - exists fr. split; auto. exists fr, []. splits; auto.
Qed.

Definition measure (p : pc) (b : biter) : nat :=
  (3 * length (bi_input b) + match p with PcMarker => 0 | PcScan _ _ _ => 1 | PcSegment _ => 2 end)%nat.

Definition step_post (p : pc) (b : biter) (x : decoder * biter * step_res) : Prop :=
  let '(d', b', r) := x in
  dec_ok d' /\ good b' /\ suffix (bi_input b') (bi_input b) /\
  match r with
  | SNext p' => pc_ok p' d' /\ (measure p' b' < measure p b)%nat
  | SStop (RNeed p') => pc_ok p' d'
  | SStop (RImage img) => exists fr, d_frame d' = Some fr /\ frame_good fr /\ bytes img /\ lenZ img = f_lines fr * f_samples fr * lenZ (f_components fr)
  | SStop (RPanic PFuel) => False
  | SStop RUB => False
  | _ => True
  end.

Lemma segment_data_len : forall dbg i data rest, bytes i -> segment_data dbg i = Ok (data, rest) ->
  exists a b pre, i = a :: b :: pre ++ rest /\ (data = pre).
Proof.
  intros dbg i data rest B H. unfold segment_data in H. destruct i as [|a [|b i]]; try discriminate. cbn [p_u16 bind] in H.
  unbytes B. binv H. apply p_take_inv in H.
  - destruct H as [-> L]. exists a, b, data. split; reflexivity.
  - rename a0 into n. clear H. unfold usub in E. destruct (256 * a + b <? 2) eqn:C.
    + destruct dbg; [discriminate|]. assert (n = wrap 16 (256 * a + b - 2)) by congruence. subst n. apply Z.mod_pos_bound. reflexivity.
    + assert (n = 256 * a + b - 2) by congruence. lia.
Qed.

Lemma segment_data_post : forall dbg i, post (fun _ => True) (segment_data dbg i).
Proof.
  intros. unfold segment_data. eapply post_bind; [apply post_safe, p_u16_safe|]. intros [n r] _. eapply post_bind; [apply post_usub|]. intros k _.
  apply post_safe, p_take_safe.
Qed.

Lemma sos_start : forall f i sc r, bytes i -> sos_segment f i = Ok (sc, r) -> 0 <= s_start sc.
Proof.
  intros f i sc r B H. unfold sos_segment in H. binv H. destruct a as [n i1]. destruct i as [|n' i]; [discriminate|]. inv E. unbytes B.
  destruct ((1 <=? n) && (n <=? 4)); [|discriminate]. binv H. destruct a as [hs i2].
  assert (B2 : bytes i2).
  { clear - E B. revert E B. generalize (Z.to_nat n). intros k. generalize (@None Z). revert i1 hs i2. induction k as [|k IH]; intros i1 hs i2 mx E B; cbn [sos_headers] in E.
    - inv E. auto.
    - destruct i1 as [|id i1]; [discriminate|]. cbn [p_any bind] in E. unbytes B. binv E. destruct a as [[dc ac] i3].
      apply split_4_bit_inv in E0; auto. destruct E0 as [_ [_ [_ B3]]]. destruct f as [fr|]; [|discriminate].
      destruct (position id (f_components fr) 0); [|discriminate]. binv E. binv E. destruct a0 as [hs' i4]. inv E. eapply IH; eauto. }
  destruct i2 as [|s i2]; [discriminate|]. cbn [p_any bind] in H. unbytes B2. destruct i2 as [|e i2]; [discriminate|]. cbn [p_any bind] in H.
  binv H. destruct a as [[ah al] i5]. inv H. cbn. unfold is_byte in *. lia.
Qed.

Lemma step_inv : forall dbg rerun rayon p d b, dec_ok d -> good b -> pc_ok p d -> step_post p b (step dbg rerun rayon p d b).
Proof.
  intros dbg rerun rayon p d b K G P. destruct p as [|m|final todo ph]; cbn [step].
  - destruct (parse_marker_total (bi_input b)) as [[m [rest E]]|[E|E]]; rewrite E.
    2,3: unfold step_post; splits; auto using suffix_refl.
    destruct (first_marker_len _ _ _ E) as [S L]. pose proof (good_rest b rest G S) as G'.
    assert (N : forall m, step_post PcMarker b (d, mkBiter rest (bi_bits b) (bi_count b), SNext (PcSegment m))).
    { intros m'. unfold step_post. splits; auto. unfold measure. cbn [bi_input]. lia. }
    destruct m; try apply N.
    pose proof (post_image dbg rayon d (ok_frame d K) (ok_planes d K)) as Q.
    destruct (upsample_image dbg rayon d) as [img|e|q|]; try contradiction; unfold step_post; splits; auto; try (destruct q; auto; fail).
    destruct Q as [fr [Q1 Q2]]. exists fr. splits; auto; try apply Q2. apply (ok_frame d K); auto.
  - destruct (no_segment m) eqn:NS.
    { unfold step_post, measure. splits; auto using suffix_refl. lia. }
    pose proof (segment_data_post dbg (bi_input b)) as SP.
    destruct (segment_data dbg (bi_input b)) as [[data rest]|e|q|] eqn:E; try contradiction.
    2:{ destruct e; unfold step_post; splits; auto using suffix_refl. }
    2:{ unfold step_post; splits; auto using suffix_refl; destruct q; auto. }
    destruct (segment_data_len _ _ _ _ (proj2 G) E) as [x [y [pre [Ei ->]]]].
    assert (S : suffix rest (bi_input b)) by (rewrite Ei; exists (x :: y :: pre); reflexivity).
    assert (Bp : bytes pre).
    { destruct G as [_ B]. rewrite Ei in B. unbytes B. apply Forall_app in B. apply B. }
    pose proof (good_rest b rest G S) as G'. set (b' := mkBiter rest (bi_bits b) (bi_count b)) in *.
    assert (M : forall p', (measure p' b' < measure (PcSegment m) b)%nat).
    { intros p'. unfold measure, b'. cbn [bi_input]. rewrite Ei. cbn [length]. rewrite app_length. destruct p'; lia. }
    assert (X : m <> SOS -> step_post (PcSegment m) b (let '(d', r) := seg_payload dbg m d pre in seg_end m d' b' r)).
    { intros _. destruct (payload_inv dbg m d pre K Bp) as [K1 P1]. destruct (seg_payload dbg m d pre) as [d' r]. cbn [fst snd] in *.
      destruct r as [u|e|q|]; cbn [seg_end]; try contradiction.
      - unfold step_post. splits; auto.
      - destruct e; unfold step_post; splits; auto.
      - unfold step_post; splits; auto. }
    destruct m; try (apply X; discriminate). clear X. unfold do_sos.
    pose proof (sos_segment_safe (d_frame d) pre) as SS. destruct (sos_segment (d_frame d) pre) as [[sc r]|e|q|] eqn:Es; try contradiction.
    2:{ destruct e; unfold step_post; splits; auto. }
    destruct (sos_begin_inv dbg d sc K (sos_start _ _ _ _ Bp Es)) as [K1 [F1 P1]].
    destruct (sos_begin dbg d sc) as [d1 [final|e|q|]]; cbn [fst snd] in *; try contradiction.
    2:{ unfold step_post; splits; auto. }
    2:{ unfold step_post; splits; auto. }
    pose proof (scan_init_inv final d1 K1) as P2. destruct (scan_init final d1) as [d2|e|q|]; try contradiction.
    2:{ unfold step_post; splits; auto. }
    2:{ unfold step_post; splits; auto. }
    destruct P2 as [K2 [F2 [fr [Hf P2]]]]. rewrite F2, Hf. unfold step_post. splits; auto.
  - pose proof (scan_inv dbg rerun final todo ph d b K G P) as SI.
    destruct (scan_loop dbg rerun final todo ph d b) as [[d1 b1] r]. destruct SI as [K1 [G1 [S1 [F1 R1]]]].
    destruct r as [|todo' ph'|e|q|]; try contradiction.
    + pose proof (finish_inv final d1 K1 R1) as Q. destruct (scan_finish d1) as [d2|e|q|]; try contradiction.
      * destruct Q as [K2 F2]. unfold step_post. splits; auto; [exact I|]. apply suffix_length in S1. unfold measure. lia.
      * unfold step_post; splits; auto.
      * unfold step_post; splits; auto.
    + unfold step_post; splits; auto.
    + unfold step_post; splits; auto.
    + unfold step_post; splits; auto.
Qed.

Definition run_post (b : biter) (x : decoder * biter * res) : Prop :=
  let '(d', b', r) := x in
  dec_ok d' /\ good b' /\ suffix (bi_input b') (bi_input b) /\
  match r with
  | RNeed p' => pc_ok p' d'
  | RImage img => exists fr, d_frame d' = Some fr /\ frame_good fr /\ bytes img /\ lenZ img = f_lines fr * f_samples fr * lenZ (f_components fr)
  | RPanic PFuel => False
  | RUB => False
  | _ => True
  end.

Lemma run_inv : forall dbg rerun rayon fuel p d b, dec_ok d -> good b -> pc_ok p d -> (measure p b < fuel)%nat ->
  run_post b (run dbg rerun rayon fuel p d b).
Proof.
  intros dbg rerun rayon. induction fuel as [|fuel IH]; intros p d b K G P L; [lia|]. cbn [run].
  pose proof (step_inv dbg rerun rayon p d b K G P) as S. destruct (step dbg rerun rayon p d b) as [[d' b'] r].
  destruct S as [K1 [G1 [S1 R1]]]. destruct r as [p'|r].
  - destruct R1 as [P1 M1]. specialize (IH p' d' b' K1 G1 P1 ltac:(lia)). destruct (run dbg rerun rayon fuel p' d' b') as [[d2 b2] r2].
    unfold run_post in *. destruct IH as [A [B [C D]]]. splits; auto. eapply suffix_trans; eauto.
  - unfold run_post. splits; auto.
Qed.

Lemma run_fuel_enough : forall p b, (measure p b < run_fuel b)%nat.
Proof. intros p b. unfold measure, run_fuel. destruct p; lia. Qed.
