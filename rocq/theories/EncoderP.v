(** The encoder writes files of SpecFile.v (C70). *)
From Verif Require Import Base Tactics SpecBits SpecMarker SpecHuffman SpecBlock SpecTables SpecFrame SpecSegments SpecScan SpecPlane SpecUpsample SpecImage SpecColor SpecFile SpecAnswer SpecEncoder Huffman.
From Verif Require Import BitsP BlockP ImageP DamageP.

Local Ltac byte_list := repeat first [apply Forall_nil | apply Forall_cons]; unfold is_byte; try lia.

(** ** Symbols *)
Lemma position_nth : forall s vs, In s vs -> nth_error vs (position s vs) = Some s.
Proof. intros s vs. induction vs as [|v vs IH]; [intros []|]. intros I. cbn [position]. destruct (Z.eqb_spec v s) as [->|N]; [reflexivity|]. cbn [nth_error]. apply IH. destruct I; [congruence|assumption]. Qed.
Lemma symbols_coded : forall t syms, length (canonical (th_counts t)) = length (th_values t) -> Forall (fun s => In (fst s) (th_values t)) syms ->
  coded (th_counts t) (th_values t) syms (flat_map (enc_symbol t) syms).
Proof.
  intros t syms L F. induction F as [|[s extra] syms I F IH]; [constructor|]. cbn [flat_map]. cbn [fst] in I. unfold enc_symbol at 1. cbn [fst snd]. rewrite <- app_assoc.
  pose proof (position_nth s _ I) as P. apply (coded_cons _ _ (position s (th_values t))); [exact P| |exact IH].
  apply nth_error_nth'. rewrite L. apply nth_error_Some. congruence.
Qed.
Lemma dc_codes : length (canonical (th_counts enc_dc)) = length (th_values enc_dc).
Proof. vm_compute. reflexivity. Qed.
Lemma ac_codes : length (canonical (th_counts enc_ac)) = length (th_values enc_ac).
Proof. vm_compute. reflexivity. Qed.
Lemma in_zrange : forall n k, 0 <= k < n -> In k (zrange n).
Proof. intros n k H. unfold zrange. apply in_map_iff. exists (Z.to_nat k). split; [lia|]. apply in_seq. lia. Qed.
Lemma category_le : forall v n, 0 <= n -> Z.abs v < 2 ^ n -> category v <= n.
Proof. intros v n Hn H. unfold category. destruct (Z.eqb_spec v 0); [lia|]. assert (Z.log2 (Z.abs v) < n) by (apply Z.log2_lt_pow2; lia). lia. Qed.
Lemma ac_known : forall l run, 0 <= run -> Forall (fun v => -32767 <= v <= 32767) l -> Forall (fun s : symbol => In (fst s) enc_acs) (ac_symbols run l).
Proof.
  induction l as [|v l IH]; intros run Hr F; cbn [ac_symbols].
  - destruct (run =? 0); repeat constructor.
  - inversion F as [|? ? Hv Fl]; subst. destruct (Z.eqb_spec v 0) as [->|Nv]; [apply IH; [lia|exact Fl]|]. apply Forall_app. split.
    + apply Forall_forall. intros s I. apply repeat_spec in I. subst s. right. left. reflexivity.
    + constructor; [|apply IH; [lia|exact Fl]]. cbn [fst]. right. right. apply in_flat_map. exists (run mod 16). pose proof (Z.mod_pos_bound run 16 ltac:(lia)). split; [apply in_zrange; lia|].
      apply in_map_iff. exists (category v - 1). pose proof (category_bounds v Nv) as [B _]. pose proof (category_le v 15 ltac:(lia) ltac:(lia)). split; [lia|apply in_zrange; lia].
Qed.

(** ** Blocks *)
Lemma int16_small : forall x, -32768 <= x < 32768 -> int16 x = x.
Proof. intros x H. unfold int16. rewrite Z.mod_small by lia. lia. Qed.
Lemma comp_coded : forall qs pred b p, Forall q_ok qs -> -1024 <= pred <= 1023 -> enc_comp pred qs = (b, p) -> comp_bits enc_ts pred qs b p /\ -1024 <= p <= 1023.
Proof.
  induction qs as [|q qs IH]; intros pred b p F Hp E; cbn [enc_comp] in E.
  - injection E as <- <-. split; [constructor|exact Hp].
  - inversion F as [|? ? [Hd [Ha Hv]] Fq]; subst. destruct (enc_comp (q_dc q) qs) as [b' p'] eqn:E'. injection E as <- <-. destruct (IH (q_dc q) b' p' Fq Hd E') as [C R]. split; [|exact R].
    assert (K : Forall (fun v => category v <= 15) (q_ac q)) by (revert Hv; apply Forall_impl; intros v V; apply category_le; lia).
    apply (cb_cons _ _ _ _ (q_dc q - pred)); [rewrite int16_small by lia; lia| | |exact C].
    + split; [cbn [b_diff]; apply category_le; lia|]. split; [exact Ha|exact K].
    + unfold enc_block. exists (enc_symbol enc_dc (dc_symbol (q_dc q - pred))), (flat_map (enc_symbol enc_ac) (ac_symbols 0 (q_ac q))). split; [reflexivity|]. cbn [b_diff b_ac]. split.
      * pose proof (symbols_coded enc_dc [dc_symbol (q_dc q - pred)] dc_codes) as H. cbn [flat_map] in H. rewrite app_nil_r in H. apply H. constructor; [|constructor].
        unfold dc_symbol. cbn [fst]. apply in_zrange. pose proof (category_nonneg (q_dc q - pred)). pose proof (category_le (q_dc q - pred) 11 ltac:(lia) ltac:(lia)). lia.
      * apply (symbols_coded enc_ac _ ac_codes). apply ac_known; [lia|exact Hv].
Qed.
Lemma mcu_coded : forall m preds b ps, length m = length preds -> Forall (Forall q_ok) m -> Forall (fun p => -1024 <= p <= 1023) preds -> enc_mcu preds m = (b, ps) ->
  mcu_bits (repeat enc_ts (length m)) preds m b ps /\ length ps = length m /\ Forall (fun p => -1024 <= p <= 1023) ps.
Proof.
  induction m as [|qs m IH]; intros [|p preds] b ps L F R E; try discriminate L; cbn [enc_mcu] in E.
  - injection E as <- <-. split; [constructor|]. split; [reflexivity|constructor].
  - inversion F as [|? ? Fq Fm]; inversion R as [|? ? Rp Rr]; subst. destruct (enc_comp p qs) as [b1 p'] eqn:E1. destruct (enc_mcu preds m) as [b2 ps'] eqn:E2. injection E as <- <-.
    destruct (comp_coded _ _ _ _ Fq Rp E1) as [C Rc]. destruct (IH preds b2 ps' ltac:(cbn in L; lia) Fm Rr E2) as [M [Lp Rm]].
    split; [cbn [length repeat]; constructor; assumption|]. split; [cbn [length]; lia|constructor; assumption].
Qed.
Lemma mcus_coded : forall n ms preds, Forall (fun m => length m = n) ms -> Forall (Forall (Forall q_ok)) ms -> length preds = n -> Forall (fun p => -1024 <= p <= 1023) preds ->
  mcus_bits (repeat enc_ts n) preds ms (enc_mcus preds ms).
Proof.
  intros n ms. induction ms as [|m ms IH]; intros preds L F Lp R; cbn [enc_mcus]; [constructor|]. inversion L as [|? ? Lm Lr]; inversion F as [|? ? Fm Fr]; subst.
  destruct (enc_mcu preds m) as [b ps] eqn:E. destruct (mcu_coded m preds b ps ltac:(lia) Fm R E) as [M [L2 R2]].
  rewrite Lm in M. apply (msb_cons _ _ _ _ _ _ ps); [exact M|]. apply IH; auto. lia.
Qed.

(** ** Bytes *)
Lemma bits_of_byte : forall bs, length bs = 8%nat -> to_bits 8 (of_bits bs) = bs.
Proof.
  intros bs L. destruct bs as [|b0 [|b1 [|b2 [|b3 [|b4 [|b5 [|b6 [|b7 [|]]]]]]]]]; try discriminate L. destruct b0, b1, b2, b3, b4, b5, b6, b7; reflexivity.
Qed.
Lemma packed : forall n bs, (length bs < n)%nat -> bytes (pack bs) /\ exists pad, bits_of (pack bs) = bs ++ pad /\ (length pad < 8)%nat.
Proof.
  induction n as [|n IH]; intros bs L; [lia|].
  assert (Byte : forall l, length l = 8%nat -> is_byte (of_bits l)) by (intros l H; pose proof (of_bits_bound l) as B; rewrite H in B; exact B).
  assert (Short : forall b r, (length (b :: r) < 8)%nat -> pack (b :: r) = [of_bits ((b :: r) ++ repeat true (8 - length (b :: r)))] ->
    bytes (pack (b :: r)) /\ exists pad, bits_of (pack (b :: r)) = (b :: r) ++ pad /\ (length pad < 8)%nat).
  { intros b r Hl ->. assert (H8 : length ((b :: r) ++ repeat true (8 - length (b :: r))) = 8%nat) by (rewrite app_length, repeat_length; lia).
    split; [constructor; [apply Byte; exact H8|constructor]|]. exists (repeat true (8 - length (b :: r))). split; [|rewrite repeat_length; cbn [length]; lia].
    unfold bits_of. cbn [flat_map]. rewrite app_nil_r. apply bits_of_byte. exact H8. }
  destruct bs as [|b0 [|b1 [|b2 [|b3 [|b4 [|b5 [|b6 [|b7 r]]]]]]]].
  - split; [constructor|]. exists []. split; [reflexivity|cbn; lia].
  - apply Short; [cbn; lia|reflexivity].
  - apply Short; [cbn; lia|reflexivity].
  - apply Short; [cbn; lia|reflexivity].
  - apply Short; [cbn; lia|reflexivity].
  - apply Short; [cbn; lia|reflexivity].
  - apply Short; [cbn; lia|reflexivity].
  - apply Short; [cbn; lia|reflexivity].
  - destruct (IH r ltac:(cbn [length] in L; lia)) as [B [pad [E P]]]. cbn [pack]. split; [constructor; [apply Byte; reflexivity|exact B]|].
    exists pad. split; [|exact P]. unfold bits_of in *. cbn [flat_map]. rewrite E, bits_of_byte by reflexivity. reflexivity.
Qed.
Lemma interval_coded : forall n ms, Forall (fun m => length m = n) ms -> Forall (Forall (Forall q_ok)) ms -> interval_data (repeat enc_ts n) ms (enc_interval n ms).
Proof.
  intros n ms L F. unfold enc_interval. set (bits := enc_mcus (repeat 0 n) ms). destruct (packed (S (length bits)) bits ltac:(lia)) as [B P].
  exists (pack bits), bits. split; [exact B|]. split; [reflexivity|]. split; [left; exact P|].
  replace (map (fun _ : tables => 0) (repeat enc_ts n)) with (repeat 0 n) by (clear; induction n as [|n IH]; [reflexivity|cbn [repeat map]; rewrite <- IH; reflexivity]).
  apply mcus_coded; auto; [apply repeat_length|]. apply Forall_forall. intros p I. apply repeat_spec in I. lia.
Qed.
Lemma scan_coded : forall fuel n r k (ms : list mcu), Forall (fun m : mcu => length m = n) ms -> Forall (Forall (Forall q_ok)) ms -> 0 <= r -> (length ms < fuel)%nat ->
  scan_data (repeat enc_ts n) r k ms (enc_scan fuel n r k ms).
Proof.
  induction fuel as [|fuel IH]; intros n r k ms L F Hr Hf; [lia|]. cbn [enc_scan]. destruct (Z.eqb_spec r 0) as [R0|R0]; cbn [orb].
  { apply sd_last; [left; exact R0|apply interval_coded; assumption]. }
  change (@lenZ (list (list qblock)) ms) with (@lenZ mcu ms). destruct (lenZ ms <=? r) eqn:El; [apply Z.leb_le in El; apply sd_last; [right; exact El|apply interval_coded; assumption]|]. apply Z.leb_gt in El. rename El into Hl.
  rewrite <- (firstn_skipn (Z.to_nat r) ms) in L, F. apply Forall_app in L. apply Forall_app in F. destruct L as [L1 L2]. destruct F as [F1 F2].
  rewrite <- (firstn_skipn (Z.to_nat r) ms) at 1. unfold lenZ in Hl. apply sd_more.
  - lia.
  - unfold lenZ. rewrite firstn_length. lia.
  - intros E. apply (f_equal (@length _)) in E. rewrite skipn_length in E. cbn [length] in E. lia.
  - apply interval_coded; assumption.
  - apply IH; auto. rewrite skipn_length. lia.
Qed.

Lemma scan_bytes_ok : forall fuel n r k ms, 0 <= k < 8 -> bytes (enc_scan fuel n r k ms).
Proof.
  assert (I : forall n ms, bytes (enc_interval n ms)).
  { intros n ms. unfold enc_interval. apply stuffed_bytes. apply (packed (S (length (enc_mcus (repeat 0 n) ms)))). lia. }
  induction fuel as [|fuel IH]; intros n r k ms Hk; [constructor|]. cbn [enc_scan]. destruct ((r =? 0) || (lenZ ms <=? r)); [apply I|].
  apply Forall_app. split; [apply I|]. cbn [app]. constructor; [unfold is_byte; lia|]. constructor; [unfold is_byte; lia|]. apply IH. apply Z.mod_pos_bound. lia.
Qed.

(** ** The file *)
Lemma be16_bytes : forall n, 0 <= n < 65536 -> bytes (be16 n).
Proof. intros n H. unfold be16. constructor; [|constructor; [|constructor]]; unfold is_byte; [split; [apply Z.div_pos; lia|apply Z.div_lt_upper_bound; lia]|apply Z.mod_pos_bound; lia]. Qed.
Lemma segment_ok : forall p, bytes p -> lenZ p + 2 < 65536 -> bytes (segment p).
Proof. intros p B L. apply Forall_app. split; [apply be16_bytes; unfold lenZ in *; lia|exact B]. Qed.
Lemma marker_ok : forall fill code, is_byte code -> bytes (marker_bytes fill code).
Proof. intros fill code B. apply Forall_app. split; [apply Forall_forall; intros x I; apply repeat_spec in I; subst x; unfold is_byte; lia|constructor; [exact B|constructor]]. Qed.
Lemma flat_bytes : forall {A} (f : A -> list Z) (P : A -> Prop) l, (forall x, P x -> bytes (f x)) -> Forall P l -> bytes (flat_map f l).
Proof. intros A f P l H F. induction F as [|x l Hx F IH]; [constructor|]. cbn [flat_map]. apply Forall_app. split; [apply H, Hx|exact IH]. Qed.
Lemma header_bytes : forall s, hseg_ok s -> match s with HSof h => is_byte (fh_precision h) | _ => True end -> bytes (hseg_payload s).
Proof.
  intros [ts|ts|n|h|n p|v fl t|p] [H _] Pr; cbn [hseg_payload].
  - apply (flat_bytes _ dqt_ok); [|exact H]. intros t [[P1 P2] [[D1 D2] [_ V]]]. unfold dqt_bytes. constructor; [unfold nibbles, is_byte; lia|].
    destruct (tq_prec t =? 0); [exact V|]. apply (flat_bytes _ (fun v => 0 <= v < 65536)); [intros v; apply be16_bytes|exact V].
  - apply (flat_bytes _ dht_ok); [|exact H]. intros t [[D1 D2] [C [V _]]]. unfold dht_bytes. constructor; [unfold nibbles, is_byte; destruct (th_class t); cbn [class_code]; lia|].
    apply Forall_app. split; [|exact V]. destruct C as [_ C]. revert C. apply Forall_impl. intros x X. exact X.
  - apply be16_bytes, H.
  - destruct H as [_ [L S N W R F]]. unfold sof_bytes. apply Forall_app. split; [constructor; [exact Pr|constructor]|]. apply Forall_app. split; [apply be16_bytes, L|].
    apply Forall_app. split; [apply be16_bytes, S|]. apply Forall_app. split; [constructor; [unfold is_byte, lenZ in *; lia|constructor]|].
    apply (flat_bytes _ comp_range); [|exact R]. intros c [B1 [B2 [B3 B4]]]. unfold nibble, comp_bytes in *. constructor; [exact B1|]. constructor; [unfold nibbles, is_byte; lia|]. constructor; [exact B4|constructor].
  - apply H.
  - destruct H as [V [_ [B T]]]. unfold adobe_bytes. apply Forall_app. split; [byte_list|]. apply Forall_app. split; [apply be16_bytes; lia|]. apply Forall_app. split; [exact B|]. constructor; [unfold is_byte; lia|constructor].
  - apply H.
Qed.
Lemma header_bytes' : forall s, hseg_ok (snd s) -> match snd s with HSof h => is_byte (fh_precision h) | _ => True end -> bytes (hseg_bytes s).
Proof.
  intros [f s] H Pr. cbn [snd] in *. unfold hseg_bytes. cbn [fst snd]. apply Forall_app. split; [|apply segment_ok; [apply header_bytes; assumption|apply H]].
  apply marker_ok. destruct s as [ts|ts|n|h|n p|v fl t|p], H as [H _]; cbn [hseg_code]; unfold is_byte; lia.
Qed.

Lemma enc_tables_ok : hseg_ok (HDht [enc_dc; enc_ac]).
Proof.
  split; [|vm_compute; reflexivity]. repeat apply Forall_cons; [| |apply Forall_nil]; repeat split; try (vm_compute; congruence); try (vm_compute; reflexivity).
  - let l := eval vm_compute in (th_counts enc_dc) in change (bytes l); byte_list.
  - let l := eval vm_compute in (th_values enc_dc) in change (bytes l); byte_list.
  - let l := eval vm_compute in (th_counts enc_ac) in change (bytes l); byte_list.
  - let l := eval vm_compute in (th_values enc_ac) in change (bytes l); byte_list.
Qed.
Lemma dqts_ok : forall qs i, 0 <= i -> i + lenZ qs <= 4 -> Forall (fun q => length q = 64%nat /\ Forall (fun v => 0 <= v < 65536) q) qs ->
  Forall dqt_ok (enc_dqts i qs) /\ lenZ (flat_map dqt_bytes (enc_dqts i qs)) = 129 * lenZ qs.
Proof.
  induction qs as [|q qs IH]; intros i H0 H4 F; cbn [enc_dqts flat_map]; [split; [constructor|reflexivity]|]. inversion F as [|? ? [L V] Fq]; subst.
  unfold lenZ in *. cbn [length] in *. destruct (IH (i + 1) ltac:(lia) ltac:(lia) Fq) as [D E]. split.
  - constructor; [|exact D]. split; [cbn; lia|]. split; [cbn [tq_dest]; lia|]. split; [exact L|exact V].
  - rewrite app_length. unfold dqt_bytes at 1. cbn [tq_prec tq_values tq_dest Z.eqb length].
    assert (B : forall l, length (flat_map be16 l) = (2 * length l)%nat) by (induction l as [|x l IHl]; [reflexivity|cbn [flat_map]; rewrite app_length, IHl; cbn; lia]). rewrite B. lia.
Qed.
Lemma comps_range : forall fs i, 0 <= i -> i + lenZ fs <= 4 -> Forall (fun f => 1 <= fst f <= 4 /\ 1 <= snd f <= 4) fs ->
  Forall comp_range (enc_comps i fs) /\ Forall factors_ok (enc_comps i fs) /\ length (enc_comps i fs) = length fs /\
  map cs_h (enc_comps i fs) = map fst fs /\ map cs_v (enc_comps i fs) = map snd fs /\
  lenZ (flat_map comp_bytes (enc_comps i fs)) = 3 * lenZ fs /\ Forall (fun c => i < cs_id c) (enc_comps i fs) /\ NoDup (map cs_id (enc_comps i fs)).
Proof.
  induction fs as [|[h v] fs IH]; intros i H0 H4 F; cbn [enc_comps flat_map map]; [repeat split; constructor|]. inversion F as [|? ? [Fh Fv] Ff]; subst. cbn [fst snd] in Fh, Fv.
  unfold lenZ in *. cbn [length] in *. destruct (IH (i + 1) ltac:(lia) ltac:(lia) Ff) as [R [A [L [Eh [Ev [B [I N]]]]]]]. repeat split.
  - constructor; [|exact R]. unfold comp_range, is_byte, nibble. cbn [cs_id cs_h cs_v cs_tq]. lia.
  - constructor; [|exact A]. unfold factors_ok. cbn [cs_h cs_v]. lia.
  - lia.
  - rewrite Eh. reflexivity.
  - rewrite Ev. reflexivity.
  - rewrite app_length. cbn [comp_bytes length]. lia.
  - constructor; [cbn [cs_id]; lia|]. revert I. apply Forall_impl. intros c. lia.
  - constructor; [|exact N]. cbn [cs_id]. intros Hin. apply in_map_iff in Hin. destruct Hin as [c [Ec Ic]]. apply (proj1 (Forall_forall _ _) I) in Ic. lia.
Qed.
Lemma blocks_ten : forall fs i, Forall (fun f => 1 <= fst f <= 4 /\ 1 <= snd f <= 4) fs ->
  Z.of_nat (fold_right (fun c n => (Z.to_nat (cs_h c * cs_v c) + n)%nat) 0%nat (enc_comps i fs)) = fold_right (fun f n => fst f * snd f + n) 0 fs.
Proof.
  induction fs as [|[h v] fs IH]; intros i F; [reflexivity|]. inversion F as [|? ? [Fh Fv] Ff]; subst. cbn [fst snd] in Fh, Fv. cbn [enc_comps fold_right cs_h cs_v fst snd]. rewrite Nat2Z.inj_add, (IH _ Ff), Z2Nat.id by nia. reflexivity.
Qed.
Lemma shapes : forall fs i m, Forall2 (fun f (qs : list qblock) => lenZ qs = fst f * snd f) fs m -> mcu_shape (enc_comps i fs) m.
Proof. intros fs i m F. revert i. induction F as [|[h v] qs fs m E F IH]; intros i; [constructor|]. cbn [enc_comps]. constructor; [exact E|apply IH]. Qed.

Section Enc.
  Variable im : image.
  Hypothesis OK : image_ok im.
  Let cs := enc_comps 0 (im_factors im).
  Let n := length (im_factors im).
  Let R := comps_range (im_factors im) 0 ltac:(lia) ltac:(destruct OK as [? ? ? ? ? ? ? ? ? ? ? ?]; lia) (io_factors _ OK).

  Lemma enc_segs_ok : Forall (fun s => hseg_ok (snd s)) (enc_segs im).
  Proof using OK R.
    destruct R as [Rr [Ra [L [Eh [Ev [B [_ _]]]]]]]. clear R. destruct OK as [O1 O2 O3 O4 O5 O6 O7 O8 O9 O10 O11 O12]. unfold enc_segs.
    assert (Lq : lenZ (im_quant im) = lenZ (im_factors im)) by (unfold lenZ; rewrite O6; reflexivity).
    apply Forall_app. split; [|destruct (im_transform im) as [t|]; constructor; [|constructor]].
    - constructor; [|constructor; [|constructor; [exact enc_tables_ok|constructor; [|constructor]]]]; cbn [snd].
      + destruct (dqts_ok (im_quant im) 0 ltac:(lia) ltac:(lia) O7) as [D E]. split; [exact D|]. cbn [hseg_payload]. lia.
      + assert (Lc : lenZ (enc_comps 0 (im_factors im)) = lenZ (im_factors im)) by (unfold lenZ; rewrite L; reflexivity). split.
        * cbn [fh_marker enc_header fh_lines fh_samples fh_comps]. split; [lia|]. split; auto; [|lia]. intros E. rewrite E in Lc. unfold lenZ in Lc, O3. cbn [length] in Lc. lia.
        * cbn [hseg_payload enc_header fh_precision fh_lines fh_samples fh_comps]. unfold sof_bytes, lenZ in *. rewrite !app_length. cbn [length be16]. lia.
      + split; [exact O12|]. cbn. lia.
    - cbn [snd]. split; [|cbn; lia]. split; [lia|]. split; [reflexivity|]. split; [byte_list|exact O11].
  Qed.
  Lemma enc_codings : comp_codings (enc_segs im) cs (enc_ss im) (repeat enc_ts n) (im_quant im).
  Proof using OK.
    clear R. destruct OK as [_ _ O3 _ _ O6 _ _ _ _ _ _]. unfold cs, n, enc_ss. unfold lenZ in O3.
    assert (D : dhts (enc_segs im) = [enc_dc; enc_ac]) by (unfold enc_segs; destruct (im_transform im); reflexivity).
    assert (Q : dqts (enc_segs im) = enc_dqts 0 (im_quant im)) by (unfold enc_segs, dqts; rewrite flat_map_app; destruct (im_transform im); cbn [flat_map snd]; rewrite !app_nil_r; reflexivity).
    assert (C : forall c q, 0 <= cs_tq c <= 3 -> last_entry (fun t => tq_dest t =? cs_tq c) (enc_dqts 0 (im_quant im)) = Some (mkDqt 1 (cs_tq c) q) ->
      comp_coding (enc_segs im) c (mkSC (cs_id c) 0 0) enc_ts q).
    { intros c q Ht El. split; cbn [sc_id sc_dc sc_ac]; try lia; try rewrite D; try rewrite Q.
      - exists enc_dc. repeat split.
      - exists enc_ac. repeat split.
      - eexists. split; [exact El|reflexivity]. }
    destruct (im_factors im) as [|[h0 v0] [|[h1 v1] [|[h2 v2] [|[h3 v3] [|]]]]]; cbn [length] in O3; try lia;
      destruct (im_quant im) as [|q0 [|q1 [|q2 [|q3 [|]]]]]; try discriminate O6; cbn [enc_comps map repeat length];
      repeat (apply ccs_cons; [apply C; [cbn [cs_tq]; lia|reflexivity]|]); apply ccs_nil.
  Qed.
  Lemma enc_encodes : encodes (enc_segs im) (enc_header im) (enc_ss im) (repeat enc_ts n) (im_quant im) (im_mcus im) (enc_data im).
  Proof using OK R.
    pose proof enc_segs_ok as So. pose proof enc_codings as Co. destruct R as [Rr [Ra [L [Eh [Ev [B [_ N]]]]]]]. fold cs in L, Eh, Ev, N. clear R. destruct OK as [O1 O2 O3 O4 O5 O6 O7 O8 O9 O10 O11 O12].
    split; cbn [enc_header fh_comps fh_lines fh_samples]; fold cs.
    - exact So.
    - unfold enc_segs. destruct (im_transform im); reflexivity.
    - exact N.
    - unfold lenZ in *. rewrite L. lia.
    - unfold blocks_before. rewrite firstn_all. pose proof (blocks_ten (im_factors im) 0 O4) as T. fold cs in T. lia.
    - exact Co.
    - revert O8. apply Forall_impl. intros m. apply shapes.
    - rewrite Eh, Ev. exact O10.
    - replace (last (dris (enc_segs im)) 0) with (im_restart im) by (unfold enc_segs; destruct (im_transform im); reflexivity).
      apply scan_coded; [|exact O9|lia|lia]. revert O8. apply Forall_impl. intros m F. unfold n. symmetry. apply (Forall2_length _ _ _ _ _ F).
  Qed.
  Lemma enc_bytes : bytes (encode im).
  Proof using OK R.
    pose proof enc_segs_ok as So. destruct R as [Rr [Ra [L _]]]. fold cs in L, Rr. clear R. destruct OK as [O1 O2 O3 O4 O5 O6 O7 O8 O9 O10 O11 O12].
    unfold encode, file_bytes. apply Forall_app. split; [apply marker_ok; unfold is_byte; lia|]. apply Forall_app. split.
    - apply (flat_bytes _ (fun s => hseg_ok (snd s) /\ match snd s with HSof h => is_byte (fh_precision h) | _ => True end)); [intros s [H1 H2]; apply header_bytes'; assumption|].
      apply Forall_forall. intros s I. split; [apply (proj1 (Forall_forall _ _) So s I)|]. apply in_app_iff in I. destruct I as [I|I].
      + cbn in I. destruct I as [<-|[<-|[<-|[<-|[]]]]]; cbn [snd]; auto. unfold is_byte. cbn. lia.
      + destruct (im_transform im); cbn in I; [|contradiction]. destruct I as [<-|[]]. exact Logic.I.
    - apply Forall_app. split; [apply marker_ok; unfold is_byte; lia|].
      assert (Ls : length (enc_ss im) = length (im_factors im)) by (unfold enc_ss; rewrite map_length; exact L).
      assert (Bs : forall l, lenZ (flat_map scan_comp_bytes l) = 2 * lenZ l) by (induction l as [|x l IH]; [reflexivity|cbn [flat_map]; unfold lenZ in *; rewrite app_length; cbn [scan_comp_bytes length]; lia]).
      apply Forall_app. split.
      { apply segment_ok.
        - unfold sos_bytes. cbn [sp_comps sp_start sp_end sp_high sp_low]. constructor; [unfold is_byte, lenZ in *; lia|]. apply Forall_app. split.
          + unfold enc_ss. fold cs. clear -Rr. induction Rr as [|c l [H _] F IH]; [constructor|]. cbn [map flat_map scan_comp_bytes sc_id sc_dc sc_ac app]. constructor; [exact H|]. constructor; [unfold nibbles, is_byte; lia|exact IH].
          + unfold nibbles. byte_list.
        - unfold sos_bytes, lenZ in *. cbn [sp_comps length]. rewrite app_length. specialize (Bs (enc_ss im)). cbn [length]. lia. }
      apply Forall_app. split; [apply scan_bytes_ok; lia|]. cbn [flat_map app]. apply marker_ok. unfold is_byte. lia.
  Qed.
End Enc.
