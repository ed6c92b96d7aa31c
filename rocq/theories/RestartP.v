(** Restart intervals (C22): the counter and the marker number as functions of the position. *)
From Verif Require Import Base Tactics SpecBits Biterator Huffman HuffmanP3 Marker SpecMarker MarkerP Types Parsers Decode SpecScan SegmentsP InvP ScanP.

(** ** Raster order *)
Lemma prod_nth : forall A B (l : list A) (l' : list B) i j a b, nth_error l i = Some a -> nth_error l' j = Some b ->
  nth_error (list_prod l l') (i * length l' + j) = Some (a, b).
Proof.
  induction l as [|h l IH]; intros l' i j a b Ha Hb; [destruct i; discriminate|]. cbn [list_prod].
  assert (Lj : (j < length l')%nat) by (apply nth_error_Some; congruence).
  destruct i as [|i]; cbn [nth_error] in Ha.
  - inv Ha. cbn [Nat.mul Nat.add]. rewrite nth_error_app1 by (rewrite map_length; exact Lj). rewrite nth_error_map, Hb. reflexivity.
  - rewrite nth_error_app2 by (rewrite map_length; cbn; lia). rewrite map_length.
    replace (S i * length l' + j - length l')%nat with (i * length l' + j)%nat by (cbn; lia). apply IH; auto.
Qed.
Lemma zrange_nth_error : forall n i, 0 <= i < n -> nth_error (zrange n) (Z.to_nat i) = Some i.
Proof.
  intros n i H. unfold zrange. rewrite nth_error_map.
  assert (E : nth_error (seq 0 (Z.to_nat n)) (Z.to_nat i) = Some (Z.to_nat i)).
  { rewrite (nth_error_nth' _ 0%nat) by (rewrite seq_length; lia). f_equal. rewrite seq_nth by lia. lia. }
  rewrite E. cbn. f_equal. lia.
Qed.
Lemma mcu_nth : forall mcu y x, 0 <= y < dim_h mcu -> 0 <= x < dim_w mcu ->
  nth_error (mcu_list mcu) (Z.to_nat (y * dim_w mcu + x)) = Some (y, x).
Proof.
  intros mcu y x Hy Hx. unfold mcu_list.
  replace (Z.to_nat (y * dim_w mcu + x)) with (Z.to_nat y * length (zrange (dim_w mcu)) + Z.to_nat x)%nat.
  - apply prod_nth; apply zrange_nth_error; auto.
  - rewrite zrange_length, Z2Nat.inj_add, Z2Nat.inj_mul; try lia. apply Z.mul_nonneg_nonneg; lia.
Qed.
Lemma mcu_length : forall mcu, 0 <= dim_h mcu -> 0 <= dim_w mcu -> lenZ (mcu_list mcu) = dim_h mcu * dim_w mcu.
Proof. intros. unfold mcu_list, lenZ. rewrite prod_length, !zrange_length, Nat2Z.inj_mul, !Z2Nat.id by lia. reflexivity. Qed.
Lemma zrange_nodup : forall n, NoDup (zrange n).
Proof. intros n. unfold zrange. apply FinFun.Injective_map_NoDup; [intros a b; lia|apply seq_NoDup]. Qed.
Lemma prod_nodup : forall A B (l : list A) (l' : list B), NoDup l -> NoDup l' -> NoDup (list_prod l l').
Proof.
  induction l as [|a l IH]; intros l' H H'; cbn [list_prod]; [constructor|]. inv H.
  assert (M : NoDup (map (fun y => (a, y)) l')) by (apply FinFun.Injective_map_NoDup; [intros u v E; congruence|exact H']).
  assert (D : forall p, In p (map (fun y => (a, y)) l') -> ~ In p (list_prod l l')).
  { intros [u v] I1 I2. apply in_map_iff in I1. destruct I1 as [w [E _]]. inv E. apply in_prod_iff in I2. tauto. }
  specialize (IH l' H3 H'). clear - M D IH. induction (map (fun y => (a, y)) l') as [|p q IHq]; cbn [app]; [exact IH|].
  inv M. constructor.
  - rewrite in_app_iff. intros [I|I]; [contradiction|]. apply (D p); [left; reflexivity|exact I].
  - apply IHq; auto. intros p0 I. apply D. right. exact I.
Qed.
Lemma mcu_nodup : forall mcu, NoDup (mcu_list mcu).
Proof. intros. apply prod_nodup; apply zrange_nodup. Qed.

(** The position of an MCU in the list. *)
Lemma mcu_position : forall mcu done y x rest, mcu_list mcu = done ++ (y, x) :: rest -> lenZ done = y * dim_w mcu + x.
Proof.
  intros mcu done y x rest E. destruct (mcu_in _ _ _ _ _ E) as [Hx Hy]. pose proof (mcu_nth mcu y x Hy Hx) as N.
  assert (N' : nth_error (mcu_list mcu) (length done) = Some (y, x)) by (rewrite E, nth_error_app2, Nat.sub_diag by lia; reflexivity).
  pose proof (mcu_nodup mcu) as ND. rewrite NoDup_nth_error in ND.
  assert (L : (length done < length (mcu_list mcu))%nat) by (apply nth_error_Some; congruence).
  specialize (ND _ (Z.to_nat (y * dim_w mcu + x)) L). rewrite N, N' in ND. specialize (ND eq_refl). unfold lenZ. rewrite ND.
  apply Z2Nat.id. apply Z.add_nonneg_nonneg; [apply Z.mul_nonneg_nonneg|]; lia.
Qed.
Lemma mcu_last : forall mcu done y x rest, mcu_list mcu = done ++ (y, x) :: rest ->
  (x =? dim_w mcu - 1) && (y =? dim_h mcu - 1) = match rest with [] => true | _ => false end.
Proof.
  intros mcu done y x rest E. destruct (mcu_in _ _ _ _ _ E) as [Hx Hy]. pose proof (mcu_position _ _ _ _ _ E) as P.
  pose proof (mcu_length mcu ltac:(lia) ltac:(lia)) as L. rewrite E in L. unfold lenZ in *. rewrite app_length in L. cbn [length] in L.
  set (W := dim_w mcu) in *. set (H := dim_h mcu) in *. destruct rest as [|m rest]; cbn [length] in L.
  - assert (A : y * W + x + 1 = H * W) by lia. assert (y = H - 1) by (destruct (Z.lt_ge_cases y (H - 1)); [assert ((y + 1) * W <= (H - 1) * W) by (apply Z.mul_le_mono_nonneg_r; lia); lia|lia]).
    subst y. assert (x = W - 1) by lia. subst x. rewrite !Z.eqb_refl. reflexivity.
  - destruct (Z.eqb_spec x (W - 1)); [|reflexivity]. destruct (Z.eqb_spec y (H - 1)); [|reflexivity]. exfalso. subst x y. lia.
Qed.

(** ** One MCU *)
Definition lowered (d : decoder) : decoder := set_ss d (set_left (d_ss d) (ss_left (d_ss d) - 1)).
Lemma after_spec : forall dbg d b fr done y x rest, d_frame d = Some fr -> mcu_list (f_mcu fr) = done ++ (y, x) :: rest ->
  (0 < d_restart d -> 1 <= ss_left (d_ss d)) ->
  after_mcu dbg x y d b =
    if 0 <? d_restart d then
      if (ss_left (d_ss d) =? 1) && match rest with [] => false | _ => true end then restart_marker (lowered d) b else Ok (lowered d, b)
    else Ok (d, b).
Proof.
  intros dbg d b fr done y x rest Fr E Hl. destruct (mcu_in _ _ _ _ _ E) as [Hx Hy]. unfold after_mcu, restart_check.
  destruct (0 <? d_restart d) eqn:R; [|reflexivity]. rewrite Fr, usub_ok by lia. cbn [bind].
  pose proof (mcu_last _ _ _ _ _ E) as La. specialize (Hl ltac:(lia)).
  assert (IL : (if x =? dim_w (f_mcu fr) - 1 then let* ly := usub dbg 16 (dim_h (f_mcu fr)) 1 in Ok (y =? ly) else Ok false) =
               Ok (match rest with [] => true | _ => false end)).
  { destruct (x =? dim_w (f_mcu fr) - 1); cbn [andb] in La; [|rewrite <- La; reflexivity]. rewrite usub_ok by lia. cbn [bind]. rewrite La. reflexivity. }
  rewrite IL. cbn [bind]. rewrite usub_ok by exact Hl. cbn [bind].
  replace (ss_left (d_ss d) - 1 =? 0) with (ss_left (d_ss d) =? 1) by lia. destruct rest; reflexivity.
Qed.

(** ** Counting *)
Definition counters (r i : Z) (d : decoder) : Prop := 0 < r -> ss_left (d_ss d) = r - i mod r /\ ss_rst (d_ss d) = (i / r) mod 8.

Lemma next_mod : forall r i, 0 < r -> 0 <= i ->
  (i mod r = r - 1 -> (i + 1) mod r = 0 /\ (i + 1) / r = i / r + 1) /\
  (i mod r <> r - 1 -> (i + 1) mod r = i mod r + 1 /\ (i + 1) / r = i / r).
Proof.
  intros r i Hr Hi. pose proof (Z.div_mod i r ltac:(lia)) as D. pose proof (Z.mod_pos_bound i r Hr) as B. split; intros H.
  - assert (E : i + 1 = (i / r + 1) * r) by lia. rewrite E, Z.mod_mul, Z.div_mul by lia. auto.
  - assert (E : i + 1 = (i mod r + 1) + (i / r) * r) by lia. rewrite E, Z.mod_add, Z.div_add by lia.
    rewrite (Z.mod_small (i mod r + 1)), (Z.div_small (i mod r + 1)) by lia. auto.
Qed.

(** The state between the [i]-th MCU and the next one. *)
Definition same_counts (d d' : decoder) : Prop := ss_left (d_ss d') = ss_left (d_ss d) /\ ss_rst (d_ss d') = ss_rst (d_ss d).
Lemma row_counts : forall dbg d b d1 b1, decode_row dbg d b = Ok (d1, b1) -> (exists s, d1 = set_ss d s) /\ same_counts d d1.
Proof. intros dbg d b d1 b1 E. apply row_set in E. destruct E as [c [p [e E]]]. cbv zeta in E. destruct E as [-> _]. split; [eexists; reflexivity|]. split; reflexivity. Qed.
Lemma dequantize_counts : forall dbg x y d d1, dequantize dbg x y d = Ok d1 -> exists ps, d1 = set_ss d (set_results (d_ss d) ps).
Proof.
  intros dbg x y d d1 E. unfold dequantize in E. destruct (d_frame d); [|discriminate]. destruct (coding_process f); try discriminate. cbn [bind] in E.
  destruct (match a with Progressive => Panic PUnimplemented | _ => Ok tt end); try discriminate. cbn [bind] in E.
  destruct (dequantize_comps dbg (d_qt d) x y (f_components f) (ss_results (d_ss d)) (ss_coefs (d_ss d))) as [ps| | |]; try discriminate. inv E. exists ps. reflexivity.
Qed.

Lemma after_counts : forall dbg d b fr done y x rest d1 b1, d_frame d = Some fr -> mcu_list (f_mcu fr) = done ++ (y, x) :: rest -> rest <> [] ->
  counters (d_restart d) (lenZ done) d -> after_mcu dbg x y d b = Ok (d1, b1) -> counters (d_restart d1) (lenZ done + 1) d1.
Proof.
  intros dbg d b fr done y x rest d1 b1 Fr E NR C A Hr. destruct (after_set _ _ _ _ _ _ _ A) as [s [-> _]]. cbn [set_ss d_restart d_ss] in *.
  destruct (C Hr) as [CL CR]. assert (Hi : 0 <= lenZ done) by (unfold lenZ; lia). pose proof (Z.mod_pos_bound (lenZ done) (d_restart d) Hr) as B.
  rewrite (after_spec dbg d b fr done y x rest Fr E) in A by (intros _; lia). replace (0 <? d_restart d) with true in A by lia.
  destruct (next_mod (d_restart d) (lenZ done) Hr Hi) as [N1 N2].
  assert (RE : match rest with [] => false | _ => true end = true) by (destruct rest; [congruence|reflexivity]). rewrite RE, andb_true_r in A.
  destruct (Z.eqb_spec (ss_left (d_ss d)) 1) as [L|L].
  - destruct (N1 ltac:(lia)) as [M1 M2]. unfold restart_marker in A. destruct (parse_marker (bi_input b)) as [[m r]| | |]; try discriminate. cbn [bind] in A.
    unfold handle_restart in A. destruct m; try discriminate. destruct (_ =? _); [|discriminate]. inv A. cbn [set_ss lowered d_restart d_ss ss_left ss_rst set_left].
    split; [lia|]. rewrite M2, CR. clear. rewrite Zplus_mod_idemp_l. reflexivity.
  - destruct (N2 ltac:(lia)) as [M1 M2]. inv A. cbn [set_ss lowered d_restart d_ss ss_left ss_rst set_left]. split; [lia|]. rewrite M2. exact CR.
Qed.

Lemma reads_counts : forall dbg fr done d b log d1 b1, mcus_read dbg done d b log d1 b1 ->
  forall pre m rest, d_frame d = Some fr -> mcu_list (f_mcu fr) = pre ++ done ++ m :: rest ->
  counters (d_restart d) (lenZ pre) d ->
  counters (d_restart d1) (lenZ (pre ++ done)) d1 /\ (exists s, d1 = set_ss d s).
Proof.
  intros dbg fr. induction 1 as [d b|y x todo d b d1 b1 d2 b2 d3 log d' b' ER EA EQ HR IH]; intros pre m rest Fr E C.
  - rewrite app_nil_r. split; [exact C|]. exists (d_ss d). destruct d; reflexivity.
  - apply row_counts in ER. destruct ER as [[s1 ->] [S1 S2]]. cbn [set_ss d_ss] in S1, S2.
    assert (C1 : counters (d_restart (set_ss d s1)) (lenZ pre) (set_ss d s1)) by (intros H; destruct (C H); cbn [set_ss d_ss d_restart] in *; rewrite S1, S2; auto).
    assert (NR : todo ++ m :: rest <> []) by (destruct todo; discriminate).
    assert (E' : mcu_list (f_mcu fr) = pre ++ (y, x) :: (todo ++ m :: rest)) by exact E.
    pose proof (after_counts dbg (set_ss d s1) b1 fr pre y x _ d2 b2 Fr E' NR C1 EA) as C2.
    apply after_set in EA. destruct EA as [s2 [-> _]]. apply dequantize_counts in EQ. destruct EQ as [ps ->].
    specialize (IH (pre ++ [(y, x)]) m rest Fr). rewrite <- !app_assoc in IH. cbn [app] in IH. specialize (IH E).
    assert (L : lenZ (pre ++ [(y, x)]) = lenZ pre + 1) by (unfold lenZ; rewrite app_length; cbn; lia). rewrite L in IH.
    destruct IH as [I1 [s I2]]; [exact C2|]. split; [exact I1|]. exists s. rewrite I2. reflexivity.
Qed.

Lemma init_counts : forall final d0 d, scan_init final d0 = Ok d -> 0 <= d_restart d0 ->
  counters (d_restart d) 0 d /\ ss_preds (d_ss d) = [0; 0; 0; 0] /\ ss_eob (d_ss d) = 0 /\ exists s, d = set_ss d0 s.
Proof.
  intros final d0 d E H. unfold scan_init in E. destruct (d_frame d0); [|discriminate]. destruct (d_scan d0); [|discriminate].
  destruct (if s_start s =? 0 then _ else _) as [u| | |]; try discriminate. cbn [bind] in E. destruct u; [discriminate|].
  destruct (if 1 <? s_end s then _ else _) as [u| | |]; try discriminate. cbn [bind] in E. destruct u; [discriminate|].
  destruct (if final then _ else Ok []) as [res| | |]; try discriminate. cbn [bind] in E. inv E. cbn [set_ss d_ss d_restart ss_preds ss_eob].
  split; [|split; [reflexivity|split; [reflexivity|eexists; reflexivity]]]. intros Hr. cbn [set_ss d_ss d_restart ss_left ss_rst]. rewrite Z.mod_0_l, Z.div_0_l by lia. split; [lia|reflexivity].
Qed.

(** ** Failures after an MCU end the scan *)
Lemma reads_then : forall dbg todo d b log d1 b1 rest, mcus_read dbg todo d b log d1 b1 ->
  scan_loop dbg false true (todo ++ rest) PhRow d b = scan_loop dbg false true rest PhRow d1 b1.
Proof.
  intros dbg todo d b log d1 b1 rest H. induction H as [d b|y x todo d b d1 b1 d2 b2 d3 log d' b' ER EA EQ HR IH]; [reflexivity|].
  cbn [app scan_loop]. rewrite ER. unfold after_mcu in EA. destruct (restart_check dbg x y d1) as [[need d4]| | |]; try discriminate. cbn [bind] in EA.
  rewrite EA, EQ. exact IH.
Qed.

(** C22. *)
Lemma restart_intervals : forall dbg d0 d fr b pre y x rest log d1 b1 d2 b2,
  scan_init true d0 = Ok d -> 0 <= d_restart d0 -> d_frame d0 = Some fr -> mcu_list (f_mcu fr) = pre ++ (y, x) :: rest ->
  mcus_read dbg pre d b log d1 b1 -> decode_row dbg d1 b1 = Ok (d2, b2) ->
  let r := d_restart d0 in
  let i := lenZ pre in
  if restart_due r (lenZ (mcu_list (f_mcu fr))) i then
    (forall rest', first_marker (bi_input b2) (0xD0 + (i / r) mod 8) rest' ->
       exists s, after_mcu dbg x y d2 b2 = Ok (set_ss d2 s, mkBiter rest' 0 0) /\ ss_preds s = [0; 0; 0; 0] /\ ss_eob s = 0) /\
    (forall c rest', first_marker (bi_input b2) c rest' -> c <> 0xD0 + (i / r) mod 8 ->
       exists d' b' e, scan_loop dbg false true (mcu_list (f_mcu fr)) PhRow d b = (d', b', ScFail e)) /\
    (without_marker (bi_input b2) -> exists d' b', scan_loop dbg false true (mcu_list (f_mcu fr)) PhRow d b = (d', b', ScNeed ((y, x) :: rest) PhRestart))
  else
    exists s, after_mcu dbg x y d2 b2 = Ok (set_ss d2 s, b2) /\ ss_preds s = ss_preds (d_ss d2) /\ ss_eob s = ss_eob (d_ss d2).
Proof.
  intros dbg d0 d fr b pre y x rest log d1 b1 d2 b2 EI HR0 Fr0 E M ER r i.
  destruct (init_counts _ _ _ EI HR0) as [C0 [_ [_ [s0 Ed]]]].
  assert (Fr : d_frame d = Some fr) by (rewrite Ed; exact Fr0).
  assert (R0 : d_restart d = r) by (rewrite Ed; reflexivity).
  destruct (reads_counts dbg fr pre d b log d1 b1 M [] (y, x) rest Fr E C0) as [C1 [s1 E1]]. cbn [app] in C1.
  destruct (row_counts _ _ _ _ _ ER) as [[s2 E2] [S1 S2]].
  assert (Fr2 : d_frame d2 = Some fr) by (rewrite E2, E1; exact Fr).
  assert (R2 : d_restart d2 = r) by (rewrite E2, E1; exact R0). assert (R1 : d_restart d1 = r) by (rewrite E1; exact R0).
  assert (C2 : counters r i d2) by (intros H; rewrite R1 in C1; destruct (C1 H); rewrite S1, S2; auto).
  assert (Hi : 0 <= i) by (unfold i, lenZ; lia).
  assert (Pos : 0 < d_restart d2 -> 1 <= ss_left (d_ss d2)).
  { intros H. rewrite R2 in H. destruct (C2 H) as [-> _]. pose proof (Z.mod_pos_bound i r H). lia. }
  pose proof (after_spec dbg d2 b2 fr pre y x rest Fr2 E Pos) as A.
  assert (Len : lenZ (mcu_list (f_mcu fr)) = i + 1 + lenZ rest) by (rewrite E; unfold i, lenZ; rewrite app_length; cbn; lia).
  unfold restart_due. rewrite Len.
  assert (LR : (i + 1 <? i + 1 + lenZ rest) = match rest with [] => false | _ => true end).
  { destruct rest; unfold lenZ; cbn [length]; lia. }
  rewrite LR. rewrite R2 in A.
  destruct (Z.ltb_spec 0 r) as [Hr|Hr]; cbn [andb].
  - destruct (next_mod r i Hr Hi) as [N1 N2]. destruct (C2 Hr) as [CL CR].
    assert (DE : ((i + 1) mod r =? 0) = (ss_left (d_ss d2) =? 1)).
    { rewrite CL. pose proof (Z.mod_pos_bound i r Hr). destruct (Z.eqb_spec (i mod r) (r - 1)) as [Q|Q]; [destruct (N1 Q) as [-> _]|destruct (N2 Q) as [-> _]]; lia. }
    rewrite DE. destruct ((ss_left (d_ss d2) =? 1) && match rest with [] => false | _ => true end).
    + assert (SL : forall e, after_mcu dbg x y d2 b2 = Fail e ->
                 scan_loop dbg false true (mcu_list (f_mcu fr)) PhRow d b = (match e with EEof => (lowered d2, b2, ScNeed ((y, x) :: rest) PhRestart) | e => (lowered d2, b2, ScFail e) end)).
      { intros e F. rewrite E. rewrite (reads_then dbg pre d b log d1 b1 _ M). cbn [scan_loop]. rewrite ER. rewrite A in F.
        assert (RC : restart_check dbg x y d2 = Ok (true, lowered d2)).
        { unfold after_mcu in A. destruct (restart_check dbg x y d2) as [[need d5]|e5| |] eqn:EC; cbn [bind] in A; try (rewrite <- A in F; discriminate).
          - unfold restart_check in EC. replace (0 <? d_restart d2) with true in EC by (rewrite R2; lia). rewrite Fr2 in EC.
            destruct (usub dbg 16 (dim_w (f_mcu fr)) 1); try discriminate. cbn [bind] in EC.
            destruct (if x =? a then let* ly := usub dbg 16 (dim_h (f_mcu fr)) 1 in Ok (y =? ly) else Ok false) as [il| | |]; try discriminate. cbn [bind] in EC.
            rewrite usub_ok in EC by (apply Pos; rewrite R2; exact Hr). cbn [bind] in EC.
            destruct need; [inv EC; reflexivity|]. rewrite <- A in F. discriminate.
          - exfalso. clear - EC. unfold restart_check in EC. destruct (0 <? d_restart d2); [|discriminate]. destruct (d_frame d2); [|discriminate].
            unfold usub in EC. destruct (dim_w (f_mcu f) <? 1), dbg; cbn [bind] in EC; try discriminate;
            destruct (_ =? _); cbn [bind] in EC; try discriminate; try (destruct (dim_h (f_mcu f) <? 1); cbn [bind] in EC; try discriminate);
            destruct (ss_left (d_ss d2) <? 1); cbn [bind] in EC; discriminate. }
        rewrite RC. rewrite F. destruct e; reflexivity. }
      split; [|split].
      * intros rest' FM. assert (PM : parse_marker (bi_input b2) = Ok (RST ((i / r) mod 8), rest')).
        { apply parse_marker_ok. exists (0xD0 + (i / r) mod 8). split; [|exact FM]. apply code_RST. pose proof (Z.mod_pos_bound (i / r) 8). lia. }
        rewrite A. unfold restart_marker. rewrite PM. cbn [bind]. unfold handle_restart. cbn [lowered set_ss d_ss set_left ss_rst]. rewrite CR, Z.eqb_refl.
        eexists. split; [reflexivity|]. split; reflexivity.
      * intros c rest' FM NC.
        assert (F : exists e, after_mcu dbg x y d2 b2 = Fail e /\ e <> EEof).
        { rewrite A. unfold restart_marker. rewrite (parse_first _ _ _ FM). destruct (marker_of_byte c) as [m|] eqn:PM; [|exists EMarker; split; [reflexivity|discriminate]].
          cbn [bind]. unfold handle_restart. cbn [lowered set_ss d_ss set_left ss_rst]. destruct m; try (eexists; split; [reflexivity|discriminate]).
          destruct (Z.eqb_spec n (ss_rst (d_ss d2))) as [Q|Q]; [exfalso|eexists; split; [reflexivity|discriminate]].
          apply marker_of_byte_code in PM. inversion PM; subst. apply NC. rewrite CR. reflexivity. }
        destruct F as [e [F NE]]. specialize (SL e F). destruct e; try congruence; do 3 eexists; exact SL.
      * intros W. apply parse_marker_eof in W. assert (F : after_mcu dbg x y d2 b2 = Fail EEof) by (rewrite A; unfold restart_marker; rewrite W; reflexivity).
        specialize (SL EEof F). do 2 eexists. exact SL.
    + exists (set_left (d_ss d2) (ss_left (d_ss d2) - 1)). rewrite A. split; [reflexivity|]. split; reflexivity.
  - exists (d_ss d2). rewrite A. destruct d2; auto.
Qed.
