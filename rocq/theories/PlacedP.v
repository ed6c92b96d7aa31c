(** After a complete scan every sample is written, from the block that contains it (C32). *)
From Verif Require Import Base Tactics SpecBits Biterator Huffman HuffmanP3 Marker Types Idct IdctP Parsers Decode SpecFrame SpecSegments SpecScan SpecPlane ParsersP PlaneP SafeP InvP ScanP RestartP.

Lemma take_nth : forall hs results ps results', take_planes results hs = Ok (ps, results') -> NoDup (map h_index hs) ->
  length ps = length hs /\
  forall j hd, nth_error hs j = Some hd -> 0 <= h_index hd /\ nth_error ps j = nth_error results (Z.to_nat (h_index hd)).
Proof.
  induction hs as [|h hs IH]; intros results ps results' E ND.
  - cbn in E. inv E. split; [reflexivity|]. intros [|j] hd H; discriminate.
  - cbn [take_planes] in E. destruct (index results (h_index h)) as [p| | |] eqn:EI; try discriminate. cbn [bind] in E.
    destruct (store results (h_index h) []) as [r1| | |] eqn:ES; try discriminate. cbn [bind] in E.
    destruct (take_planes r1 hs) as [[ps1 r2]| | |] eqn:ET; try discriminate. cbn [bind] in E. inv E. cbn [map] in ND. inv ND.
    destruct (IH _ _ _ ET H2) as [L N]. split; [cbn; lia|].
    apply index_Ok in EI. destruct EI as [I0 I2].
    intros [|j] hd E; cbn [nth_error] in *.
    + inv E. split; [exact I0|]. symmetry. exact I2.
    + destruct (N j hd E) as [N0 N1]. split; [exact N0|]. rewrite N1.
      apply store_Ok in ES. destruct ES as [_ ES]. rewrite ES. apply nth_error_upd_neq.
      intros Q. apply H1. apply Z2Nat.inj in Q; auto. rewrite Q. apply in_map_iff. exists hd. split; auto. eapply nth_error_In; eauto.
Qed.

Lemma before_blocks : forall m pr lines samples cs k, header_ok lines samples cs ->
  first_block (f_components (frame_of m pr lines samples cs)) k = blocks_before cs k.
Proof.
  intros m pr lines samples cs k [_ _ _ _ _ X]. unfold frame_of. cbn [f_components]. unfold first_block, blocks_before. revert k X.
  generalize (mcus samples (largest (map cs_h cs))), (mcus lines (largest (map cs_v cs))), (largest (map cs_h cs)), (largest (map cs_v cs)). intros a b hm vm.
  induction cs as [|c cs IH]; intros [|k] X; cbn [map firstn total_blocks fold_right]; auto. inv X. destruct H1. fold (total_blocks (firstn k (map (fun c => mkComponent (cs_id c) (cs_h c) (cs_v c) (cs_tq c) (cs_h c * cs_v c) (8 * (a * cs_h c)) (mkDims (8 * cs_h c) (8 * cs_v c)) (64 * (cs_h c * cs_v c) * a) (mkDims (a * cs_h c) (b * cs_v c)) (mkDims (extent samples (cs_h c) hm) (extent lines (cs_v c) vm))) cs))).
  rewrite IH by auto. unfold blocks_in. cbn [c_h c_v]. rewrite (Z.mul_comm (cs_h c)), Z2Nat.inj_mul by lia. reflexivity.
Qed.

Lemma covered_sized : forall fr done ps, covered fr done ps -> Forall2 (sized (dim_h (f_mcu fr))) (f_components fr) ps.
Proof. intros fr done ps C. unfold covered in C. induction C; constructor; auto. apply H. Qed.

Lemma scan_placed : forall dbg rayon d0 m pr lines samples cs sc d b d' b',
  header_ok lines samples cs -> let fr := frame_of m pr lines samples cs in
  d_frame d0 = Some fr -> d_scan d0 = Some sc -> NoDup (map h_index (s_headers sc)) -> scan_init true d0 = Ok d ->
  step dbg false rayon (PcScan true (mcu_list (f_mcu fr)) PhRow) d b = (d', b', SNext PcMarker) ->
  let mw := mcus samples (largest (map cs_h cs)) in
  let mh := mcus lines (largest (map cs_v cs)) in
  exists log d1, mcus_read dbg (mcu_list (f_mcu fr)) d b log d1 b' /\ length (d_planes d') = length (s_headers sc) /\
    forall j hd c, nth_error (s_headers sc) j = Some hd -> nth_error cs (Z.to_nat (h_index hd)) = Some c ->
      exists p, nth_error (d_planes d') j = Some p /\ lenZ p = 8 * (mh * cs_v c) * (8 * (mw * cs_h c)) /\
        forall r q, 0 <= r < 8 * (mh * cs_v c) -> 0 <= q < 8 * (mw * cs_h c) ->
          exists qt, index (d_qt d0) (cs_tq c) = Ok (Some qt) /\
          sample_at p (8 * (mw * cs_h c)) r q =
            Some (in_block (block_samples (containing_block log mw (blocks_before cs (Z.to_nat (h_index hd))) (cs_h c) (cs_v c) r q) qt) r q).
Proof.
  intros dbg rayon d0 m pr lines samples cs sc d b d' b' HO fr Fr Sc ND EI ST mw mh. cbn [step] in ST.
  destruct (scan_loop dbg false true (mcu_list (f_mcu fr)) PhRow d b) as [[d1 b1] sr] eqn:EL. destruct sr; try discriminate.
  destruct (scan_finish d1) as [d2| | |] eqn:EF; try discriminate. inv ST.
  apply scan_loop_reads in EL. destruct EL as [log EL]. exists log, d1. split; [exact EL|].
  assert (FG : frame_good fr) by (exists m, pr, lines, samples, cs; auto). destruct (frame_fits fr FG) as [Ft [W0 [H0 _]]].
  assert (Md : dim_w (f_mcu fr) = mw /\ dim_h (f_mcu fr) = mh) by (split; reflexivity). destruct Md as [Mw Mh]. rewrite Mw, Mh in Ft. rewrite Mw in W0. rewrite Mh in H0.
  assert (ID : exists s, d = set_ss d0 s /\ Forall2 (sized mh) (f_components fr) (ss_results s)).
  { pose proof (covered_start fr FG) as C. unfold scan_init in EI. rewrite Fr, Sc in EI.
    destruct (if s_start sc =? 0 then _ else _) as [u| | |]; try discriminate. cbn [bind] in EI. destruct u; [discriminate|].
    destruct (if 1 <? s_end sc then _ else _) as [u| | |]; try discriminate. cbn [bind] in EI. destruct u; [discriminate|].
    destruct (assert_ (lenZ (f_components fr) <=? 4) PCapacity) as [u| | |]; try discriminate. cbn [bind] in EI. inv EI.
    eexists. split; [reflexivity|]. cbn [ss_results]. rewrite <- Mh. eapply covered_sized; eauto. }
  destruct ID as [s [-> Sz]].
  assert (Rg : forall y x, In (y, x) (mcu_list (f_mcu fr)) -> 0 <= x < mw /\ 0 <= y < mh).
  { intros y x I. unfold mcu_list in I. apply in_prod_iff in I. rewrite Mw, Mh in I. destruct I as [I1 I2]. apply zrange_in in I1. apply zrange_in in I2. lia. }
  destruct (reads_painted dbg mw mh fr Ft _ _ _ _ _ _ EL Fr Rg (mcu_nodup _) Sz) as [[s1 E1] [Sz1 P1]].
  unfold scan_finish in EF. rewrite E1 in EF at 1. cbn [set_ss d_scan] in EF. rewrite Sc in EF.
  destruct (take_planes (ss_results (d_ss d1)) (s_headers sc)) as [[ps r1]| | |] eqn:ET; try discriminate. cbn [bind] in EF. inv EF. cbn [set_planes d_planes].
  destruct (take_nth _ _ _ _ ET ND) as [Lp Np]. split; [exact Lp|].
  intros j hd c Ej Ec. destruct (Np j hd Ej) as [K0 Ep].
  set (k := Z.to_nat (h_index hd)) in *.
  assert (Ecc : exists c', nth_error (f_components fr) k = Some c' /\ c_h c' = cs_h c /\ c_v c' = cs_v c /\ c_tq c' = cs_tq c /\ c_line_stride c' = 8 * (mw * cs_h c)).
  { unfold fr, frame_of. cbn [f_components]. rewrite nth_error_map, Ec. eexists. split; [reflexivity|]. cbn. auto. }
  destruct Ecc as [c' [Ec' [Eh [Ev [Eq Es]]]]].
  assert (A2 : forall X (R : component -> X -> Prop) l (xs : list X), Forall2 R l xs -> nth_error l k = Some c' -> exists x, nth_error xs k = Some x /\ R c' x).
  { clearbody k. clear. intros X R l xs F. revert k. induction F; intros [|k] E; cbn [nth_error] in *; try discriminate; [inv E; eauto|apply IHF; exact E]. }
  destruct (A2 _ _ _ _ Sz1 Ec') as [p [E2 S2]]. destruct (A2 _ _ _ _ Sz Ec') as [p0 [E3 S3]].
  exists p. split; [congruence|]. unfold sized, rows_of in S2. rewrite Es, Ev in S2. split; [exact S2|].
  intros r q Hr Hq. destruct (P1 k c' p0 p Ec' E3 E2 r q ltac:(lia) ltac:(rewrite Es; exact Hq)) as [P _].
  assert (Hp : 1 <= cs_h c /\ 1 <= cs_v c).
  { destruct HO as [_ _ _ _ _ X]. rewrite Forall_forall in X. apply nth_error_In in Ec. destruct (X c Ec). lia. }
  assert (My : 0 <= mcu_row (cs_v c) r < mh) by (unfold mcu_row; split; [apply Z.div_pos; lia|apply Z.div_lt_upper_bound; lia]).
  assert (Mx : 0 <= mcu_col (cs_h c) q < mw) by (unfold mcu_col; split; [apply Z.div_pos; lia|apply Z.div_lt_upper_bound; lia]).
  rewrite Eh, Ev in P. pose proof (mcu_nth (f_mcu fr) (mcu_row (cs_v c) r) (mcu_col (cs_h c) q)) as N. rewrite Mw, Mh in N. specialize (P _ (N My Mx)).
  destruct P as [qt [Q1 Q2]]. exists qt. rewrite Eq in Q1. split; [exact Q1|]. rewrite Es in Q2. rewrite Q2. unfold containing_block.
  unfold fr. rewrite before_blocks by exact HO. reflexivity.
Qed.

Lemma scan_placed_parsed :
  forall dbg rayon d0 m pr lines samples cs extra rest fr sc d b d' b',
    header_ok lines samples cs -> sof dbg m (sof_bytes pr lines samples cs ++ extra) = Ok (fr, rest) ->
    d_frame d0 = Some fr -> d_scan d0 = Some sc -> NoDup (map h_index (s_headers sc)) -> scan_init true d0 = Ok d ->
    step dbg false rayon (PcScan true (mcu_list (f_mcu fr)) PhRow) d b = (d', b', SNext PcMarker) ->
    let mw := mcus samples (largest (map cs_h cs)) in
    let mh := mcus lines (largest (map cs_v cs)) in
    exists log d1, mcus_read dbg (mcu_list (f_mcu fr)) d b log d1 b' /\ length (d_planes d') = length (s_headers sc) /\
      forall j hd c, nth_error (s_headers sc) j = Some hd -> nth_error cs (Z.to_nat (h_index hd)) = Some c ->
        exists p, nth_error (d_planes d') j = Some p /\ lenZ p = 8 * (mh * cs_v c) * (8 * (mw * cs_h c)) /\
          forall r q, 0 <= r < 8 * (mh * cs_v c) -> 0 <= q < 8 * (mw * cs_h c) ->
            exists qt, index (d_qt d0) (cs_tq c) = Ok (Some qt) /\
              sample_at p (8 * (mw * cs_h c)) r q =
                Some (in_block (block_samples (containing_block log mw (blocks_before cs (Z.to_nat (h_index hd))) (cs_h c) (cs_v c) r q) qt) r q).
Proof.
  intros dbg rayon d0 m pr lines samples cs extra rest fr sc d b d' b' HO Sf.
  assert (E : fr = frame_of m pr lines samples cs).
  { pose proof HO as [H1 H2 H3 H4 H5 H6]. rewrite sof_ok in Sf by auto. congruence. }
  subst fr. intros. eapply scan_placed; eauto.
Qed.
