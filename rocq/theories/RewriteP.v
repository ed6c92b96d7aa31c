(** What the plain reading of C63 finds can be encoded again (C99). *)
From Verif Require Import Base Tactics SpecBits SpecHuffman SpecBlock BitsP SpecTables SpecFrame SpecSegments SpecScan SpecFile SpecAnswer SpecLimits SpecCode SpecEncoder Huffman Types Decode BlockP ParsersP FileP CodeP CodeP3 CodeP4 DefineP EncoderP TrailingP.

Definition ac_good (l : list Z) : Prop := Forall (fun v => -32767 <= v <= 32767) l.
Definition q_good (q : qblock) : Prop := length (q_ac q) = 63%nat /\ ac_good (q_ac q).
Lemma extend_good : forall z n bits v rest, 1 <= n <= 15 -> next_value z n bits = Some (v, rest) -> -32767 <= v <= 32767.
Proof.
  intros z n bits v rest Hn H. unfold next_value, get in H. destruct (z || _); [|discriminate]. injection H as <- _.
  assert (L : length (firstn (Z.to_nat n) (bits ++ repeat false (Z.to_nat n))) = Z.to_nat n) by (rewrite firstn_length, app_length, repeat_length; lia).
  pose proof (of_bits_bound (firstn (Z.to_nat n) (bits ++ repeat false (Z.to_nat n)))) as B. rewrite L, Z2Nat.id in B by lia.
  assert (P : 2 ^ n <= 2 ^ 15) by (apply Z.pow_le_mono_r; lia). change (2 ^ 15) with 32768 in P. unfold EXTEND. destruct (_ <? _); lia.
Qed.
Lemma zeros_good : forall n, ac_good (repeat 0 n).
Proof. intros n. apply Forall_forall. intros v I. apply repeat_spec in I. lia. Qed.
Lemma firstn_good : forall n l, ac_good l -> ac_good (firstn n l).
Proof. intros n l H. unfold ac_good in *. rewrite <- (firstn_skipn n l) in H. apply Forall_app in H. apply H. Qed.
Lemma cut_good : forall n k l o vs run rest, (length l = k)%nat -> ac_good l -> cut n l o = Some (vs, run, rest) ->
  (forall vs' run' rest', o = Some (vs', run', rest') -> length vs' = (n - k)%nat /\ ac_good vs') -> length vs = n /\ ac_good vs.
Proof.
  intros n k l o vs run rest L G H IH. destruct o as [[[vs' run'] rest']|]; [|discriminate]. cbn [cut] in H. injection H as <- _ _. destruct (IH _ _ _ eq_refl) as [L' G'].
  split; [rewrite firstn_length, app_length; lia|]. apply firstn_good. apply Forall_app. split; assumption.
Qed.
Lemma ac_read : forall z t fuel n bits vs run rest, ref_ac z t fuel n bits = Some (vs, run, rest) -> length vs = n /\ ac_good vs.
Proof.
  intros z t fuel. induction fuel as [|fuel IH]; intros n bits vs run rest H; [discriminate|]. cbn [ref_ac] in H. destruct (n =? 0)%nat eqn:N; [injection H as <- _ _; apply Nat.eqb_eq in N; subst n; split; [reflexivity|constructor]|].
  destruct (next_symbol z _ _ bits) as [[sym b1]|]; [|discriminate]. cbv zeta in H. destruct (sym mod 16 =? 0) eqn:S.
  - destruct (sym / 16 =? 15); [exact (cut_good n 16 _ _ _ _ _ (repeat_length 0 16) (zeros_good 16) H (fun vs' run' rest' E => IH _ _ _ _ _ E))|].
    destruct (get z _ b1) as [[x b2]|]; [|discriminate]. injection H as <- _ _. split; [apply repeat_length|apply zeros_good].
  - destruct (next_value z (sym mod 16) b1) as [[v b2]|] eqn:V; [|discriminate]. pose proof (Z.mod_pos_bound sym 16 ltac:(lia)) as M.
    refine (cut_good n (Z.to_nat (sym / 16) + 1) _ _ _ _ _ _ _ H (fun vs' run' rest' E => IH _ _ _ _ _ E)); [rewrite app_length, repeat_length; reflexivity|].
    apply Forall_app. split; [apply zeros_good|]. constructor; [|constructor]. apply (extend_good z (sym mod 16) b1 v b2); [lia|exact V].
Qed.
Lemma block_read : forall z t run pred bits q run' rest, ref_block z t run pred bits = Some (q, run', rest) -> q_good q.
Proof.
  intros z t run pred bits q run' rest H. unfold ref_block in H. destruct (ref_diff z t bits) as [[diff b1]|]; [|discriminate]. cbv zeta in H. destruct (0 <? run).
  - injection H as <- _ _. split; [reflexivity|exact (zeros_good 63)].
  - destruct (ref_ac z t 64 63 b1) as [[[ac r] b2]|] eqn:A; [|discriminate]. injection H as <- _ _. exact (ac_read _ _ _ _ _ _ _ _ A).
Qed.
Lemma blocks_read : forall z t n run pred bits qs run' pred' rest, ref_blocks z t n run pred bits = Some (qs, run', pred', rest) -> length qs = n /\ Forall q_good qs.
Proof.
  intros z t n. induction n as [|n IH]; intros run pred bits qs run' pred' rest H; cbn [ref_blocks] in H; [injection H as <- _ _ _; split; [reflexivity|constructor]|].
  destruct (ref_block z t run pred bits) as [[[q r] b1]|] eqn:Q; [|discriminate]. destruct (ref_blocks z t n r (q_dc q) b1) as [[[[qs' r'] p'] b2]|] eqn:R; [|discriminate].
  injection H as <- _ _ _. destruct (IH _ _ _ _ _ _ _ R) as [L G]. split; [cbn [length]; congruence|]. constructor; [exact (block_read _ _ _ _ _ _ _ _ Q)|exact G].
Qed.
Definition mcu_good (cs : list comp_spec) (m : mcu) : Prop := mcu_shape cs m /\ Forall (Forall q_good) m.
Lemma mcu_read : forall z cs ts run ps bits m run' ps' rest, Forall factors_ok cs -> length ts = length cs -> length ps = length cs ->
  ref_mcu z cs ts run ps bits = Some (m, run', ps', rest) -> mcu_good cs m /\ length ps' = length cs.
Proof.
  intros z cs. induction cs as [|c cs IH]; intros [|t ts] run [|p ps] bits m run' ps' rest F Lt Lp H; try discriminate; cbn [ref_mcu] in H.
  - injection H as <- _ <- _. split; [split; constructor|reflexivity].
  - destruct (ref_blocks z t _ run p bits) as [[[[qs r] p'] b1]|] eqn:Q; [|discriminate]. destruct (ref_mcu z cs ts r ps b1) as [[[[m' r'] ps''] b2]|] eqn:R; [|discriminate].
    injection H as <- _ <- _. apply Forall_cons_iff in F. destruct F as [Fc F]. destruct (IH ts r ps b1 m' r' ps'' b2 F ltac:(cbn in Lt; lia) ltac:(cbn in Lp; lia) R) as [[S G] L]. destruct (blocks_read _ _ _ _ _ _ _ _ _ _ Q) as [Lq Gq].
    split; [|cbn [length]; congruence]. split; constructor; auto. unfold lenZ. rewrite Lq. destruct Fc. rewrite Z2Nat.id by nia. reflexivity.
Qed.
Lemma mcus_read : forall z cs ts n run ps bits ms, Forall factors_ok cs -> length ts = length cs -> length ps = length cs ->
  ref_mcus z cs ts n run ps bits = Some ms -> length ms = n /\ Forall (mcu_good cs) ms.
Proof.
  intros z cs ts n. induction n as [|n IH]; intros run ps bits ms F Lt Lp H; cbn [ref_mcus] in H; [injection H as <-; split; [reflexivity|constructor]|].
  destruct (ref_mcu z cs ts run ps bits) as [[[[m r] ps'] b1]|] eqn:M; [|discriminate]. destruct (ref_mcus z cs ts n r ps' b1) as [ms'|] eqn:R; [|discriminate]. injection H as <-.
  destruct (mcu_read _ _ _ _ _ _ _ _ _ _ F Lt Lp M) as [G L]. destruct (IH r ps' b1 ms' F Lt L R) as [L' G']. split; [cbn [length]; congruence|constructor; assumption].
Qed.
Lemma scan_read : forall cs ts r more n N ds ms, Forall factors_ok cs -> length ts = length cs -> 0 <= N -> 0 <= r ->
  ref_scan cs ts r n N ds more = Some ms -> lenZ ms = N /\ Forall (mcu_good cs) ms.
Proof.
  intros cs ts r more. induction more as [|[m e] more IH]; intros n N ds ms F Lt HN Hr H; cbn [ref_scan] in H; destruct ((r =? 0) || (N <=? r)) eqn:K.
  1, 3: unfold ref_interval in H; apply mcus_read in H; [|exact F|exact Lt|rewrite map_length; exact Lt]; destruct H as [L G]; split; [unfold lenZ; lia|exact G].
  - destruct (ref_interval _ _ _ _); discriminate.
  - destruct (ref_interval cs ts (Z.to_nat r) ds) as [ms1|] eqn:I; [|discriminate]. destruct (m =? n); [|discriminate]. destruct (ref_scan cs ts r _ (N - r) e more) as [ms2|] eqn:R; [|discriminate]. injection H as <-.
    unfold ref_interval in I. apply mcus_read in I; [|exact F|exact Lt|rewrite map_length; exact Lt]. destruct I as [L1 G1]. destruct (IH _ (N - r) e ms2 F Lt ltac:(lia) Hr R) as [L2 G2].
    split; [unfold lenZ in *; rewrite app_length; lia|apply Forall_app; split; assumption].
Qed.

(** ** The image *)
Definition rewritten (segs post : list (nat * hseg)) (h : frame_header) (qs : list (list Z)) (ms : list mcu) (restart : Z) : image :=
  mkImage (fh_lines h) (fh_samples h) (map (fun c => (cs_h c, cs_v c)) (fh_comps h)) qs ms (last_transform (segs ++ post)) restart.
Lemma codings_lengths : forall l cs ss ts qs, comp_codings l cs ss ts qs -> length ts = length cs /\ length qs = length cs.
Proof. intros l cs ss ts qs H. induction H as [|c cs s ss t ts q qs C H [IH1 IH2]]; [auto|]. cbn [length]. lia. Qed.
Lemma codings_quant : forall l cs ss ts qs, Forall (fun s => hseg_ok (snd s)) l -> comp_codings l cs ss ts qs -> Forall (fun q => length q = 64%nat /\ Forall (fun v => 0 <= v < 65536) q) qs.
Proof.
  intros l cs ss ts qs F H.
  assert (D : Forall dqt_ok (dqts l)).
  { apply Forall_forall. intros t I. unfold dqts in I. apply in_flat_map in I. destruct I as [s [Is It]]. rewrite Forall_forall in F. specialize (F s Is). destruct (snd s); try contradiction.
    destruct F as [F _]. rewrite Forall_forall in F. apply F, It. }
  rewrite Forall_forall in D. induction H as [|c cs s ss t ts q qs C H IH]; constructor; auto.
  destruct C as [_ _ _ _ _ _ [e [E ->]]]. apply entry_in in E. destruct (D e (proj1 E)) as [_ [_ [L V]]]. split; [exact L|]. eapply Forall_impl; [|exact V]. intros v Hv. cbv beta in Hv. destruct (tq_prec e =? 0); lia.
Qed.
Lemma transform_range : forall l, Forall (fun s => hseg_ok (snd s)) l -> match last_transform l with Some t => 0 <= t <= 2 | None => True end.
Proof.
  intros l F. assert (D : Forall (fun t => 0 <= t <= 2) (adobes l)).
  { apply Forall_forall. intros t I. unfold adobes in I. apply in_flat_map in I. destruct I as [s [Is It]]. rewrite Forall_forall in F. specialize (F s Is). destruct (snd s); try contradiction.
    destruct It as [<-|[]]. destruct F as [[_ [_ [_ F]]] _]. exact F. }
  unfold last_transform. induction D as [|a r Ha D IH]; [exact I|]. destruct r; [exact Ha|exact IH].
Qed.
Lemma ten_blocks : forall cs, Forall factors_ok cs -> fold_right (fun f n => fst f * snd f + n) 0 (map (fun c => (cs_h c, cs_v c)) cs) = Z.of_nat (blocks_before cs (length cs)).
Proof.
  intros cs F. unfold blocks_before. rewrite firstn_all. induction F as [|c cs [Fh Fv] F IH]; [reflexivity|]. cbn [map fold_right fst snd]. rewrite IH, Nat2Z.inj_add, Z2Nat.id by nia. reflexivity.
Qed.
Lemma rewritten_ok : forall segs post h ss ts qs ms restart, header_for segs h ss ts qs -> post_ok post -> 0 <= restart < 65536 ->
  lenZ ms = mcus (fh_lines h) (largest (map cs_v (fh_comps h))) * mcus (fh_samples h) (largest (map cs_h (fh_comps h))) -> Forall (mcu_good (fh_comps h)) ms ->
  Forall (Forall (Forall (fun q => -1024 <= q_dc q <= 1023))) ms -> image_ok (rewritten segs post h qs ms restart).
Proof.
  intros segs post h ss ts qs ms restart HF PO Hr Lm G DC. destruct HF as [F Sf ND L4 Ten CC]. 
  assert (HO : header_ok (fh_lines h) (fh_samples h) (fh_comps h)) by (apply (sof_ok segs h F); rewrite Sf; left; reflexivity). destruct HO as [H1 H2 H3 H4 H5 H6].
  destruct (codings_lengths _ _ _ _ _ CC) as [Lt Lq]. constructor; cbn [rewritten im_lines im_samples im_factors im_quant im_mcus im_transform im_restart].
  - exact H1.
  - exact H2.
  - unfold lenZ in *. rewrite map_length. destruct (fh_comps h); [congruence|cbn [length] in *; lia].
  - apply Forall_map. exact H6.
  - rewrite (ten_blocks _ H6). lia.
  - rewrite map_length. exact Lq.
  - exact (codings_quant _ _ _ _ _ F CC).
  - eapply Forall_impl; [|exact G]. intros m [S _]. unfold mcu_shape in S. clear - S. induction S; constructor; auto.
  - clear - G DC. induction G as [|m ms [_ Gm] G IH]; [constructor|]. apply Forall_cons_iff in DC. destruct DC as [Dm DC]. constructor; [|exact (IH DC)]. clear - Gm Dm.
    induction Gm as [|b m Gb Gm IH]; [constructor|]. apply Forall_cons_iff in Dm. destruct Dm as [Db Dm]. constructor; [|exact (IH Dm)]. clear - Gb Db.
    induction Gb as [|q b [Q1 Q2] Gb IH]; [constructor|]. apply Forall_cons_iff in Db. destruct Db as [Dq Db]. constructor; [|exact (IH Db)]. split; [exact Dq|split; [exact Q1|exact Q2]].
  - rewrite !map_map. exact Lm.
  - apply transform_range. apply Forall_app. split; [exact F|exact (proj1 PO)].
  - exact Hr.
Qed.

Lemma rewritten_factors : forall cs i, map (fun c => (cs_h c, cs_v c)) (enc_comps i (map (fun c => (cs_h c, cs_v c)) cs)) = map (fun c => (cs_h c, cs_v c)) cs.
Proof. induction cs as [|c cs IH]; intros i; [reflexivity|]. cbn [map enc_comps cs_h cs_v]. rewrite IH. reflexivity. Qed.
Lemma rewritten_same : forall dbg rayon segs h fill1 fill2 ss ts qs ds more post fill3 ms restart,
  header_for segs h ss ts qs -> bytes ds -> more_ok more -> post_ok post -> 0 < fh_lines h -> 0 < fh_samples h -> 0 <= restart < 65536 ->
  let file := file_bytes segs fill1 fill2 (mkSpS ss 0 63 0 0) (scan_bytes ds more) post fill3 in bytes file ->
  ref_scan (fh_comps h) ts (last (dris segs) 0) 0 (mcus (fh_lines h) (largest (map cs_v (fh_comps h))) * mcus (fh_samples h) (largest (map cs_h (fh_comps h)))) ds more = Some ms ->
  Forall (Forall (Forall (fun q => -1024 <= q_dc q <= 1023))) ms ->
  let im := mkImage (fh_lines h) (fh_samples h) (map (fun c => (cs_h c, cs_v c)) (fh_comps h)) qs ms (last_transform (segs ++ post)) restart in
  image_ok im /\ decode_fresh dbg rayon (encode im) = decode_fresh dbg rayon file.
Proof.
  intros dbg rayon segs h fill1 fill2 ss ts qs ds more post fill3 ms restart HF B1 M1 PO P1 P2 Hr file B R DC im.
  assert (HO : header_ok (fh_lines h) (fh_samples h) (fh_comps h)) by (apply (sof_ok segs h (hf_segs _ _ _ _ _ HF)); rewrite (hf_frame _ _ _ _ _ HF); left; reflexivity).
  assert (NN : 0 <= mcus (fh_lines h) (largest (map cs_v (fh_comps h))) * mcus (fh_samples h) (largest (map cs_h (fh_comps h)))).
  { destruct (Z.le_gt_cases 0 (mcus (fh_lines h) (largest (map cs_v (fh_comps h))) * mcus (fh_samples h) (largest (map cs_h (fh_comps h))))) as [X|X]; [exact X|exfalso].
    assert (K : forall a b, 0 < a -> 0 <= mcus a (largest b)).
    { intros a b Ha. assert (Lb : 0 <= largest b) by (unfold largest; clear; induction b; cbn [fold_right]; lia). unfold mcus, ceil_div. destruct (Z.eq_dec (largest b) 0) as [E|E]; [rewrite E, Z.mul_0_r, Zdiv_0_r; lia|apply Z.div_pos; lia]. }
    pose proof (K _ (map cs_v (fh_comps h)) P1). pose proof (K _ (map cs_h (fh_comps h)) P2). nia. }
  destruct (codings_lengths _ _ _ _ _ (hf_codings _ _ _ _ _ HF)) as [Lt _]. pose proof (header_interval_range _ (hf_segs _ _ _ _ _ HF)) as R0.
  destruct (scan_read _ _ _ _ _ _ _ _ (ho_factors _ _ _ HO) Lt NN R0 R) as [Lm G].
  pose proof (rewritten_ok segs post h ss ts qs ms restart HF PO Hr Lm G DC) as OK. change (image_ok im) in OK. split; [exact OK|].
  pose proof (enc_encodes im OK) as En. pose proof (enc_bytes im OK) as Be.
  assert (HF' : header_for (enc_segs im) (enc_header im) (enc_ss im) (repeat enc_ts (length (im_factors im))) qs) by (destruct En; constructor; assumption). destruct En as [F' Sf' _ _ _ CC' Sh' Lm' SD'].
  pose proof (header_codes _ _ _ _ _ F' CC') as OK'. pose proof (header_interval_range _ F') as R0'.
  destruct (scan_reads (fh_comps (enc_header im)) _ _ 0 ms (enc_data im) OK' SD' Sh' R0' ltac:(lia)) as [ds' [more' [E' [B2 [M2 R2]]]]].
  unfold encode in *. rewrite E' in *.
  assert (Fa : map (fun c => (cs_h c, cs_v c)) (fh_comps (enc_header im)) = map (fun c => (cs_h c, cs_v c)) (fh_comps h)).
  { exact (rewritten_factors (fh_comps h) 0). }
  refine (code_same dbg rayon segs h fill1 fill2 ss ts ds more post fill3 (enc_segs im) (enc_header im) 0 0 (enc_ss im) _ ds' more' [] 0 qs ms HF B1 M1 PO HF' B2 M2 (conj (Forall_nil _) eq_refl) eq_refl eq_refl P1 P2 Fa _ R _ B Be).
  - rewrite app_nil_r. unfold last_transform at 1. unfold enc_segs, adobes. cbn [im_transform im]. rewrite flat_map_app. cbn [flat_map snd app]. destruct (last_transform (segs ++ post)); reflexivity.
  - change (lenZ ms) with (lenZ (im_mcus im)) in R2. rewrite <- Lm. exact R2.
Qed.
Lemma rewritten_image : forall dbg rayon segs h fill1 fill2 ss ts qs ds more post fill3 img,
  header_for segs h ss ts qs -> bytes ds -> more_ok more -> post_ok post -> 0 < fh_lines h -> 0 < fh_samples h -> Forall clean_end (ds :: map snd more) ->
  let file := file_bytes segs fill1 fill2 (mkSpS ss 0 63 0 0) (scan_bytes ds more) post fill3 in bytes file ->
  decode_fresh dbg rayon file = Ok img ->
  exists ms, ref_scan (fh_comps h) ts (last (dris segs) 0) 0 (mcus (fh_lines h) (largest (map cs_v (fh_comps h))) * mcus (fh_samples h) (largest (map cs_h (fh_comps h)))) ds more = Some ms /\
    (Forall (Forall (Forall (fun q => -1024 <= q_dc q <= 1023))) ms -> forall restart, 0 <= restart < 65536 ->
     let im := mkImage (fh_lines h) (fh_samples h) (map (fun c => (cs_h c, cs_v c)) (fh_comps h)) qs ms (last_transform (segs ++ post)) restart in
     image_ok im /\ decode_fresh dbg rayon (encode im) = Ok img).
Proof.
  intros dbg rayon segs h fill1 fill2 ss ts qs ds more post fill3 img HF B1 M1 PO P1 P2 C file B D. pose proof (code_file dbg rayon segs h fill1 fill2 ss ts qs ds more post fill3 HF B1 M1 PO P1 P2 B) as A. cbv zeta in A.
  destruct (ref_scan (fh_comps h) ts (last (dris segs) 0) 0 _ ds more) as [ms|] eqn:R.
  - exists ms. split; [reflexivity|]. intros DC restart Hr im. destruct (rewritten_same dbg rayon segs h fill1 fill2 ss ts qs ds more post fill3 ms restart HF B1 M1 PO P1 P2 Hr B R DC) as [OK E].
    split; [exact OK|]. rewrite <- D. exact E.
  - destruct (A C) as [e E]. fold file in E. congruence.
Qed.
