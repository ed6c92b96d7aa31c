(** The reference of C63 reads what an encoder writes according to SpecScan.v. *)
From Verif Require Import Base Tactics SpecBits SpecHuffman SpecBlock BitsP HuffmanP2 SpecSegments SpecScan SpecCode BlockP CodeP.

Section Z.
Variable z : bool.

Lemma get_len : forall n bits x r, get z n bits = Some (x, r) -> length x = n.
Proof. intros n bits x r H. apply get_split in H. apply H. Qed.
Lemma firstn_more : forall a n (bits : list bool), (a <= n)%nat -> firstn a (bits ++ repeat false n) = firstn a (bits ++ repeat false a).
Proof.
  intros a n bits L. rewrite !firstn_app. f_equal. rewrite !firstn_falses by lia. reflexivity.
Qed.
Lemma skip_skip : forall a b (l : list bool), skipn b (skipn a l) = skipn (a + b) l.
Proof. induction a as [|a IH]; intros b [|x l]; cbn [skipn Nat.add]; try reflexivity; [apply skipn_nil|apply IH]. Qed.
Lemma get_app : forall a b bits r, get z (length (a ++ b)) bits = Some (a ++ b, r) ->
  exists r1, get z (length a) bits = Some (a, r1) /\ get z (length b) r1 = Some (b, r).
Proof.
  intros a b bits r H. unfold get in *. rewrite app_length in H. exists (skipn (length a) bits).
  destruct (z || (length a + length b <=? length bits)%nat) eqn:E; [|discriminate].
  assert (E1 : z || (length a <=? length bits)%nat = true).
  { destruct z; [reflexivity|]. cbn [orb] in *. apply Nat.leb_le in E. apply Nat.leb_le. lia. }
  assert (E2 : z || (length b <=? length (skipn (length a) bits))%nat = true).
  { destruct z; [reflexivity|]. cbn [orb] in *. apply Nat.leb_le in E. apply Nat.leb_le. rewrite skipn_length. lia. }
  rewrite E1, E2. assert (F : firstn (length a + length b) (bits ++ repeat false (length a + length b)) = a ++ b) by congruence.
  assert (R : skipn (length a + length b) bits = r) by congruence.
  assert (Fa : firstn (length a) (bits ++ repeat false (length a)) = a).
  { apply (f_equal (firstn (length a))) in F. rewrite firstn_firstn, Nat.min_l in F by lia. rewrite firstn_more in F by lia. rewrite F, firstn_app, Nat.sub_diag, firstn_all. cbn [firstn]. apply app_nil_r. }
  assert (Fb : firstn (length b) (skipn (length a) bits ++ repeat false (length b)) = b).
  { apply (f_equal (skipn (length a))) in F. rewrite skipn_app, skipn_all, Nat.sub_diag in F. cbn [skipn app] in F. etransitivity; [|exact F].
    rewrite skipn_firstn_comm. replace (length a + length b - length a)%nat with (length b) by lia.
    rewrite skipn_app. rewrite !firstn_app. f_equal.
    rewrite skipn_length. set (s := (length b - (length bits - length a))%nat).
    assert (Sk : forall x y, skipn x (repeat false y) = repeat false (y - x)).
    { induction x; intros [|y]; cbn [skipn repeat]; try reflexivity. rewrite IHx. reflexivity. }
    rewrite Sk. rewrite !firstn_falses by (unfold s; lia). reflexivity. }
  rewrite Fa, Fb. split; [reflexivity|]. f_equal. f_equal. rewrite <- R. apply skip_skip.
Qed.

Lemma get_prefix : forall c d bits r r', get z (length c) bits = Some (c, r) -> get z (length d) bits = Some (d, r') -> prefix c d \/ prefix d c.
Proof.
  intros c d bits r r' Hc Hd. unfold get in *. destruct (z || (length c <=? _)%nat); [|discriminate]. destruct (z || (length d <=? _)%nat); [|discriminate].
  assert (C : firstn (length c) (bits ++ repeat false (length c)) = c) by congruence. assert (D : firstn (length d) (bits ++ repeat false (length d)) = d) by congruence.
  destruct (Nat.le_ge_cases (length c) (length d)) as [L|L].
  - left. apply prefix_iff_firstn. rewrite <- C at 2. rewrite <- D. rewrite firstn_firstn, Nat.min_l by lia. apply firstn_more. lia.
  - right. apply prefix_iff_firstn. rewrite <- D at 2. rewrite <- C. rewrite firstn_firstn, Nat.min_l by lia. apply firstn_more. lia.
Qed.

Lemma next_symbol_code : forall counts values k s c bits rest, counts_ok counts -> kraft counts <= 2 ^ 16 ->
  nth_error values k = Some s -> nth_error (canonical counts) k = Some c -> get z (length c) bits = Some (c, rest) ->
  next_symbol z counts values bits = Some (s, rest).
Proof.
  intros counts values k s c bits rest CO K Ev Ec G. unfold next_symbol.
  assert (St : starts_with z c bits = true) by (unfold starts_with; rewrite G; destruct (list_eq_dec Bool.bool_dec c c); congruence).
  destruct (find _ _) as [[c' s']|] eqn:F.
  - apply find_some in F. destruct F as [Hin St']. cbn [fst] in St'. destruct (in_combine_nth _ _ _ _ _ _ Hin) as [k' [K1 K2]].
    unfold starts_with in St'. destruct (get z (length c') bits) as [[x r']|] eqn:G'; [|discriminate]. destruct (list_eq_dec Bool.bool_dec x c') as [->|]; [|discriminate].
    assert (k' = k) by (destruct (get_prefix _ _ _ _ _ G G') as [P|P]; [symmetry|]; eapply canonical_prefix_free; eauto). subst k'.
    assert (c' = c) by congruence. assert (s' = s) by congruence. subst c' s'. unfold get in G. destruct (z || _); [|discriminate]. congruence.
  - exfalso. assert (Hin : In (c, s) (combine (canonical counts) values)).
    { clear - Ev Ec. revert values k Ev Ec. induction (canonical counts) as [|x l IH]; intros [|y m] [|k] Ev Ec; cbn in *; try discriminate; [left; congruence|right; eauto]. }
    pose proof (find_none _ _ F _ Hin) as X. cbn [fst] in X. congruence.
Qed.

Lemma cat_pos : forall v, v <> 0 -> 1 <= category v.
Proof. intros v H. unfold category. destruct (Z.eqb_spec v 0); [lia|]. pose proof (Z.log2_nonneg (Z.abs v)). lia. Qed.
Lemma cat_zero : forall v, category v = 0 -> v = 0.
Proof. intros v H. destruct (Z.eq_dec v 0) as [E|E]; [exact E|]. pose proof (cat_pos v E). lia. Qed.
Lemma mag_len : forall v, length (magnitude v) = Z.to_nat (category v).
Proof. intros v. unfold magnitude. apply to_bits_length. Qed.
Lemma next_value_mag : forall v bits rest, v <> 0 -> get z (length (magnitude v)) bits = Some (magnitude v, rest) -> next_value z (category v) bits = Some (v, rest).
Proof. intros v bits rest H G. unfold next_value. rewrite mag_len in G. rewrite G, magnitude_extend by exact H. reflexivity. Qed.

(** ** Blocks *)
Lemma coded_split : forall counts values s e syms bs, coded counts values ((s, e) :: syms) bs ->
  exists k c bs', nth_error values k = Some s /\ nth_error (canonical counts) k = Some c /\ coded counts values syms bs' /\ bs = c ++ e ++ bs'.
Proof. intros counts values s e syms bs H. inversion H; subst. eauto 8. Qed.

Section T.
Variable t : tables.
Hypothesis OK : codes_ok t.

Lemma ref_diff_reads : forall diff bd bits rest, category diff <= 11 -> coded (dc_counts t) (dc_values t) [dc_symbol diff] bd ->
  get z (length bd) bits = Some (bd, rest) -> ref_diff z t bits = Some (diff, rest).
Proof.
  intros diff bd bits rest Hc C G. destruct OK as [[CO K] _]. apply coded_split in C. destruct C as [k [c [bs' [Ev [Ec [C ->]]]]]]. inversion C; subst. rewrite app_nil_r in G.
  destruct (get_app _ _ _ _ G) as [r1 [G1 G2]]. unfold ref_diff. rewrite (next_symbol_code _ _ _ _ _ _ _ CO K Ev Ec G1).
  destruct (Z.eqb_spec (category diff) 0) as [E|E].
  - apply cat_zero in E. subst diff. cbn in G2. unfold get in G2. destruct (z || _); [|discriminate]. cbn [skipn] in G2. congruence.
  - replace (11 <? category diff) with false by lia. apply next_value_mag; [|exact G2]. intros ->. apply E. reflexivity.
Qed.

Lemma ref_ac_reads : forall l run ba bits rest fuel n, 0 <= run -> Forall (fun v => category v <= 15) l ->
  coded (ac_counts t) (ac_values t) (ac_symbols run l) ba -> get z (length ba) bits = Some (ba, rest) ->
  n = (Z.to_nat run + length l)%nat -> (n < fuel)%nat -> ref_ac z t fuel n bits = Some (repeat 0 (Z.to_nat run) ++ l, 0, rest).
Proof.
  destruct OK as [_ [CO K]]. intros l. induction l as [|v l IH]; intros run ba bits rest fuel n Hr F C G En Hf.
  - cbn [ac_symbols] in C. destruct fuel as [|fuel]; [lia|]. cbn [ref_ac]. destruct (Z.eqb_spec run 0) as [->|Nr].
    + inversion C; subst. cbn. unfold get in G. destruct (z || _); [|discriminate]. cbn [skipn length] in G. congruence.
    + cbn [length] in En. replace (n =? 0)%nat with false by (symmetry; apply Nat.eqb_neq; lia).
      apply coded_split in C. destruct C as [k [c [bs' [Ev [Ec [C ->]]]]]]. inversion C; subst bs'. cbn [app] in G. rewrite app_nil_r in G.
      rewrite (next_symbol_code _ _ _ _ _ _ _ CO K Ev Ec G). change (0 mod 16 =? 0) with true. change (0 / 16 =? 15) with false. cbn [Z.to_nat]. change (Z.to_nat (0 / 16)) with 0%nat.
      unfold get. replace (z || (0 <=? length rest)%nat) with true by (destruct z; reflexivity). cbn [firstn skipn of_bits]. rewrite app_nil_r. rewrite En, Nat.add_0_r. reflexivity.
  - inversion F as [|? ? F1 F2]; subst. cbn [ac_symbols] in C. destruct (Z.eqb_spec v 0) as [->|Nv].
    + cbn [length] in *. rewrite (IH (run + 1) ba bits rest fuel (Z.to_nat run + S (length l))%nat ltac:(lia) F2 C G ltac:(lia)) by lia. replace (Z.to_nat (run + 1)) with (Z.to_nat run + 1)%nat by lia.
      rewrite repeat_app, <- app_assoc. reflexivity.
    + set (e := (16 * (run mod 16) + category v, magnitude v)) in *.
      assert (Ez : forall j run' ba' bits' fuel', run' = 16 * Z.of_nat j + run mod 16 -> coded (ac_counts t) (ac_values t) (repeat (240, []) j ++ e :: ac_symbols 0 l) ba' ->
        get z (length ba') bits' = Some (ba', rest) -> (Z.to_nat run' + length (v :: l) < fuel')%nat -> ref_ac z t fuel' (Z.to_nat run' + length (v :: l)) bits' = Some (repeat 0 (Z.to_nat run') ++ v :: l, 0, rest)).
      { pose proof (Z.mod_pos_bound run 16 ltac:(lia)) as MB. pose proof (cat_pos v Nv) as CP. induction j as [|j IHj]; intros run' ba' bits' fuel' Er C' G' Hf'.
        - cbn [repeat app] in C'. unfold e in C'. apply coded_split in C'. destruct C' as [k [c [bs' [Ev [Ec [C' ->]]]]]]. destruct (get_app _ _ _ _ G') as [r1 [G1 G2]]. destruct (get_app _ _ _ _ G2) as [r2 [G3 G4]].
          destruct fuel' as [|fuel']; [lia|]. cbn [ref_ac]. cbn [length] in *. replace (Z.to_nat run' + S (length l) =? 0)%nat with false by (symmetry; apply Nat.eqb_neq; lia).
          rewrite (next_symbol_code _ _ _ _ _ _ _ CO K Ev Ec G1). replace ((16 * (run mod 16) + category v) / 16) with (run mod 16) by (rewrite Z.mul_comm, Z.div_add_l, Z.div_small by lia; lia).
          replace ((16 * (run mod 16) + category v) mod 16) with (category v) by (rewrite Z.add_comm, Z.mul_comm, Z_mod_plus_full, Z.mod_small by lia; reflexivity).
          replace (category v =? 0) with false by lia. rewrite (next_value_mag _ _ _ Nv G3).
          assert (Er' : run mod 16 = run') by lia. rewrite Er' in *.
          replace (Z.to_nat run' + S (length l) - (Z.to_nat run' + 1))%nat with (length l) by lia.
          rewrite (IH 0 bs' r2 rest fuel' (length l) ltac:(lia) F2 C' G4 eq_refl) by (cbn; lia). cbn [cut Z.to_nat repeat app].
          rewrite <- app_assoc. cbn [app]. rewrite firstn_all2 by (rewrite app_length, repeat_length; cbn [length]; lia). reflexivity.
        - cbn [repeat app] in C'. apply coded_split in C'. destruct C' as [k [c [bs' [Ev [Ec [C' ->]]]]]]. cbn [app] in G'. destruct (get_app _ _ _ _ G') as [r1 [G1 G2]].
          destruct fuel' as [|fuel']; [lia|]. cbn [ref_ac]. replace (Z.to_nat run' + length (v :: l) =? 0)%nat with false by (symmetry; apply Nat.eqb_neq; cbn [length]; lia).
          rewrite (next_symbol_code _ _ _ _ _ _ _ CO K Ev Ec G1). change (240 mod 16 =? 0) with true. change (240 / 16 =? 15) with true. cbv iota.
          replace (Z.to_nat run' + length (v :: l) - 16)%nat with (Z.to_nat (run' - 16) + length (v :: l))%nat by lia.
          rewrite (IHj (run' - 16) bs' r1 fuel') by (auto; lia). cbn [cut]. rewrite firstn_all2 by (rewrite !app_length, !repeat_length; cbn [length]; lia).
          rewrite app_assoc, <- repeat_app. replace (16 + Z.to_nat (run' - 16))%nat with (Z.to_nat run') by lia. reflexivity. }
      apply (Ez (Z.to_nat (run / 16)) run ba bits fuel); auto. pose proof (Z.div_pos run 16 Hr ltac:(lia)). rewrite Z2Nat.id by lia. apply Z.div_mod. lia.
Qed.

Lemma ref_block_reads : forall pred diff q bk bits rest, q_dc q = int16 (pred + diff) -> block_ok (mkBlock diff (q_ac q)) -> block_bits t (mkBlock diff (q_ac q)) bk ->
  get z (length bk) bits = Some (bk, rest) -> ref_block z t 0 pred bits = Some (q, 0, rest).
Proof.
  intros pred diff q bk bits rest Ed [B1 [B2 B3]] [bd [ba [-> [C1 C2]]]] G. cbn [b_diff b_ac] in *. destruct (get_app _ _ _ _ G) as [r1 [G1 G2]].
  unfold ref_block. rewrite (ref_diff_reads _ _ _ _ B1 C1 G1). cbn [Z.ltb Z.compare]. 
  rewrite (ref_ac_reads (q_ac q) 0 ba r1 rest 64 63 ltac:(lia) B3 C2 G2) by (cbn; lia). cbn [Z.to_nat repeat app]. rewrite <- Ed. destruct q; reflexivity.
Qed.

Lemma ref_blocks_reads : forall pred qs bs pred', comp_bits t pred qs bs pred' -> forall bits rest, get z (length bs) bits = Some (bs, rest) ->
  ref_blocks z t (length qs) 0 pred bits = Some (qs, 0, pred', rest).
Proof.
  intros pred qs bs pred' H. induction H as [pred|pred q qs diff bk bs pred' Ed BO BB H IH]; intros bits rest G.
  - cbn. unfold get in G. destruct (z || _); [|discriminate]. cbn [skipn length] in G. congruence.
  - destruct (get_app _ _ _ _ G) as [r1 [G1 G2]]. cbn [length ref_blocks]. rewrite (ref_block_reads _ _ _ _ _ _ Ed BO BB G1), (IH _ _ G2). reflexivity.
Qed.
End T.

Lemma ref_mcu_reads : forall ts ps m bs ps', mcu_bits ts ps m bs ps' -> Forall codes_ok ts -> forall cs, mcu_shape cs m -> forall bits rest,
  get z (length bs) bits = Some (bs, rest) -> ref_mcu z cs ts 0 ps bits = Some (m, 0, ps', rest).
Proof.
  intros ts ps m bs ps' H. induction H as [|t ts p ps qs m b1 b2 p' ps' Hc H IH]; intros OK cs Sh bits rest G.
  - inversion Sh; subst. cbn. unfold get in G. destruct (z || _); [|discriminate]. cbn [skipn length] in G. assert (bits = rest) by congruence. subst. reflexivity.
  - inversion Sh as [|c ? cs' ? L Sh']; subst. inversion OK; subst. destruct (get_app _ _ _ _ G) as [r1 [G1 G2]]. cbn [ref_mcu].
    replace (Z.to_nat (cs_h c * cs_v c)) with (length qs) by (unfold lenZ in L; lia).
    rewrite (ref_blocks_reads t ltac:(assumption) _ _ _ _ Hc _ _ G1), (IH ltac:(assumption) cs' Sh' _ _ G2). reflexivity.
Qed.

Lemma ref_mcus_reads : forall ts ps ms bs, mcus_bits ts ps ms bs -> Forall codes_ok ts -> forall cs, Forall (mcu_shape cs) ms -> forall bits rest,
  get z (length bs) bits = Some (bs, rest) -> ref_mcus z cs ts (length ms) 0 ps bits = Some ms.
Proof.
  intros ts ps ms bs H. induction H as [ps|ps m ms b1 b2 ps' Hm H IH]; intros OK cs Sh bits rest G; [reflexivity|].
  inversion Sh; subst. destruct (get_app _ _ _ _ G) as [r1 [G1 G2]]. cbn [length ref_mcus].
  rewrite (ref_mcu_reads _ _ _ _ _ Hm OK cs ltac:(assumption) _ _ G1), (IH OK cs ltac:(assumption) _ _ G2). reflexivity.
Qed.
End Z.

(** ** Scans *)
Lemma carries_get : forall ds bits, carries ds bits -> exists rest, get (ends_clean ds) (length bits) (bits_of ds) = Some (bits, rest).
Proof.
  intros ds bits [[pad [E _]]|[C [n ->]]]; unfold get.
  - rewrite E. exists pad. rewrite app_length. replace (length bits <=? length bits + length pad)%nat with true by (symmetry; apply Nat.leb_le; lia). rewrite orb_true_r.
    rewrite <- app_assoc, firstn_app, Nat.sub_diag, firstn_all, skipn_app, Nat.sub_diag, skipn_all. cbn [firstn skipn app]. rewrite app_nil_r. reflexivity.
  - exists []. assert (Z : ends_clean ds = true).
    { unfold ends_clean. apply forallb_forall. intros x Hx. unfold clean_end in C. rewrite Forall_forall in C. specialize (C x Hx). apply Bool.negb_true_iff. apply Z.eqb_neq. exact C. }
    rewrite Z. cbn [orb]. rewrite app_length, repeat_length. rewrite skipn_all2 by lia. f_equal. f_equal.
    rewrite firstn_app, firstn_all2 by lia. f_equal. replace (length (bits_of ds) + n - length (bits_of ds))%nat with n by lia. apply firstn_falses. lia.
Qed.

Lemma scan_reads : forall cs ts r n ms data, Forall codes_ok ts -> scan_data ts r n ms data -> Forall (mcu_shape cs) ms -> 0 <= r -> 0 <= n <= 7 ->
  exists ds more, data = scan_bytes ds more /\ bytes ds /\ more_ok more /\ ref_scan cs ts r n (lenZ ms) ds more = Some ms.
Proof.
  intros cs ts r n ms data OK H. induction H as [n ms data Hr [ds [bits [B [-> [Ca M]]]]]|n ms data rest data' Hr Hl Ne [ds [bits [B [-> [Ca M]]]]] Sd IH]; intros Sh R0 Hn.
  - exists ds, []. unfold scan_bytes. cbn [flat_map]. rewrite app_nil_r. split; [reflexivity|]. split; [exact B|]. split; [constructor|]. cbn [ref_scan].
    replace ((r =? 0) || (lenZ ms <=? r)) with true by lia. unfold ref_interval. replace (Z.to_nat (lenZ ms)) with (length ms) by (unfold lenZ; lia).
    destruct (carries_get _ _ Ca) as [rest G]. exact (ref_mcus_reads _ _ _ _ _ M OK cs Sh _ _ G).
  - apply Forall_app in Sh. destruct Sh as [Sh1 Sh2]. destruct (IH Sh2 R0 ltac:(pose proof (Z.mod_pos_bound (n + 1) 8); lia)) as [ds' [more [-> [B' [MO R]]]]].
    exists ds, ((n, ds') :: more). split; [unfold scan_bytes; cbn [flat_map]; unfold rst_bytes at 2; cbn [fst snd]; rewrite <- !app_assoc; reflexivity|]. split; [exact B|].
    split; [constructor; [split; [exact Hn|exact B']|exact MO]|]. cbn [ref_scan].
    assert (L : lenZ (ms ++ rest) = r + lenZ rest) by (unfold lenZ in *; rewrite app_length; lia). assert (P : 0 < lenZ rest) by (unfold lenZ; destruct rest; [congruence|cbn [length]; lia]).
    rewrite L. replace ((r =? 0) || (r + lenZ rest <=? r)) with false by lia. unfold ref_interval. replace (Z.to_nat r) with (length ms) by (unfold lenZ in Hl; lia).
    destruct (carries_get _ _ Ca) as [rest' G]. rewrite (ref_mcus_reads _ _ _ _ _ M OK cs Sh1 _ _ G). rewrite Z.eqb_refl.
    replace (r + lenZ rest - r) with (lenZ rest) by lia. rewrite R. reflexivity.
Qed.
