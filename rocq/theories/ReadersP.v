(** Proofs for the bit-reader properties. *)
From Verif Require Import Base Tactics Biterator SpecBits SpecReader Readers BitsP.

Lemma biter_new_holds : forall ds tail, bytes ds -> holds_at tail (biter_new (stuff ds ++ tail)) (bits_of ds).
Proof.
  intros. split.
  - split; simpl; lia.
  - exists ds. split; auto. split; auto. exists 0%nat. split; [left; reflexivity|]. exists []. cbn. rewrite !app_nil_r. reflexivity.
Qed.
Lemma biter_new_zeros : forall ds tail n, bytes ds -> clean_end ds -> holds_at tail (biter_new (stuff ds ++ tail)) (bits_of ds ++ repeat false n).
Proof.
  intros. split.
  - split; simpl; lia.
  - exists ds. split; auto. split; auto. exists n. split; [right; assumption|]. exists []. cbn. rewrite !app_nil_r. reflexivity.
Qed.
(** Bytes that carry some bits, before a marker. *)
Lemma carries_holds : forall ds bits tail, bytes ds -> carries ds bits -> exists more, holds_at tail (biter_new (stuff ds ++ tail)) (bits ++ more).
Proof.
  intros ds bits tail B [[pad [E _]]|[C [n ->]]].
  - exists pad. rewrite <- E. apply biter_new_holds. exact B.
  - exists []. rewrite app_nil_r. apply biter_new_zeros; assumption.
Qed.

Lemma read_groups_holds : forall dbg tail ns b bs,
  marker_tail tail -> holds_at tail b bs -> Forall (fun n => 1 <= n <= 16)%nat ns ->
  (total ns <= length bs)%nat ->
  exists b', read_groups dbg b ns = Ok (Some (map of_bits (groups ns bs)), b') /\
    holds_at tail b' (skipn (total ns) bs).
Proof.
  intros dbg tail. induction ns as [|n ns IH]; intros b bs Hm H F L.
  - exists b. split; auto.
  - inv F. cbn [total fold_right] in L. fold (total ns) in L.
    assert (Ln : length (firstn n bs) = n) by (apply firstn_length_le; lia).
    destruct (next_bits_holds dbg tail b (firstn n bs) (skipn n bs) Hm) as [b1 [E1 H1]].
    + rewrite firstn_skipn. auto.
    + lia.
    + rewrite Ln in E1. cbn [read_groups]. rewrite E1. cbn [bind].
      destruct (IH b1 (skipn n bs) Hm H1 H3) as [b' [E2 H']].
      * rewrite skipn_length. lia.
      * rewrite E2. cbn [bind groups map]. exists b'. split; auto.
        cbn [total fold_right]. fold (total ns).
        assert (SS : forall A k m (l : list A), skipn (k + m) l = skipn m (skipn k l)).
        { induction k; intros; auto. destruct l; cbn [Nat.add skipn]; auto. destruct m; auto. }
        rewrite SS. exact H'.
Qed.

Lemma bit_reader_order : forall dbg ds tail ns,
  bytes ds -> marker_tail tail -> Forall (fun n => 1 <= n <= 16)%nat ns ->
  (total ns <= 8 * length ds)%nat ->
  exists b', read_groups dbg (biter_new (stuff ds ++ tail)) ns
             = Ok (Some (map of_bits (groups ns (bits_of ds))), b').
Proof.
  intros. destruct (read_groups_holds dbg tail ns (biter_new (stuff ds ++ tail)) (bits_of ds)) as [b' [E _]]; auto.
  - apply biter_new_holds; auto.
  - rewrite bits_of_length. auto.
  - eauto.
Qed.

(** ** Position *)
(** Any number of reads of any sizes stays before the marker. *)
Definition inside (ds : list Z) (tail : list Z) (b : biter) : Prop :=
  wf b /\ exists d r, bytes d /\ bi_input b = stuff d ++ tail /\ stuff ds = r ++ stuff d.

Lemma fill_bits_inside : forall ds tail b, marker_tail tail -> inside ds tail b ->
  exists b', fill_bits b = (true, b') /\ inside ds tail b' /\ 57 <= bi_count b'.
Proof.
  intros ds tail b Hm [[Hc Hb] [d [r [Hd [Hi Hr]]]]].
  unfold fill_bits. rewrite Hi.
  destruct (fill_loop_marker d tail [] 0 (bi_count b) (bi_bits b) (bi_count b))
    as [b' [F [W [C [M D]]]]]; auto; try lia.
  cbn [app] in F. exists b'. split; [exact F|]. split; [|auto]. split; auto.
  destruct D as [[ds1 [ds2 [D1 [D2 D3]]]]|[z [D2 [D3 D4]]]].
  - exists ds2, (r ++ stuff ds1). split; [|split; auto].
    + subst d. apply Forall_app in Hd. tauto.
    + rewrite Hr, D1, stuff_app, app_assoc. reflexivity.
  - cbn [app Nat.add] in D3. rewrite skipn_app in D3.
    replace (length d - length (stuff d))%nat with 0%nat in D3 by (pose proof (stuff_length d); lia).
    destruct (stuff_suffix d (length d) (stuff_length d)) as [d' [S1 S2]].
    exists d', (r ++ firstn (length d) (stuff d)). split; auto. split.
    + rewrite D3, S1. reflexivity.
    + rewrite <- S1, <- app_assoc, firstn_skipn. exact Hr.
Qed.

Lemma next_bits_inside : forall dbg ds tail b n, marker_tail tail -> inside ds tail b -> 1 <= n <= 16 ->
  exists v b', next_bits dbg b n = Ok (Some v, b') /\ inside ds tail b'.
Proof.
  intros dbg ds tail b n Hm H L. unfold next_bits.
  assert (X : exists b1, (if bi_count b <? n then fill_bits b else (true, b)) = (true, b1) /\
    inside ds tail b1 /\ n <= bi_count b1).
  { destruct (bi_count b <? n) eqn:E.
    - destruct (fill_bits_inside ds tail b Hm H) as [b' [F [H' C]]]. exists b'. split; auto. split; auto. lia.
    - exists b. split; auto. split; auto. lia. }
  destruct X as [b1 [-> [H1 C1]]]. destruct H1 as [W1 [d [r [Hd [Hi Hr]]]]].
  destruct (consume_bits_spec dbg b1 n W1) as [b' [E [W' [C [I [B P]]]]]]; [lia|].
  unfold peek_bits. rewrite peek_raw_spec by (auto; lia). cbn [bind]. rewrite E. cbn [bind].
  do 2 eexists. split; [reflexivity|]. split; auto. exists d, r. rewrite I. auto.
Qed.

Lemma read_groups_inside : forall dbg ds tail ns b,
  marker_tail tail -> inside ds tail b -> Forall (fun n => 1 <= n <= 16)%nat ns ->
  exists vs b', read_groups dbg b ns = Ok (Some vs, b') /\ inside ds tail b'.
Proof.
  intros dbg ds tail. induction ns as [|n ns IH]; intros b Hm H F.
  - exists [], b. auto.
  - inv F. destruct (next_bits_inside dbg ds tail b (Z.of_nat n) Hm H) as [v [b1 [E1 H1]]]; [lia|].
    cbn [read_groups]. rewrite E1. cbn [bind].
    destruct (IH b1 Hm H1 H3) as [vs [b' [E2 H']]]. rewrite E2. cbn [bind]. eauto.
Qed.

Lemma reader_before_marker : forall dbg ds tail ns,
  bytes ds -> marker_tail tail -> Forall (fun n => 1 <= n <= 16)%nat ns ->
  exists vs b' read left, read_groups dbg (biter_new (stuff ds ++ tail)) ns = Ok (Some vs, b') /\
    stuff ds = read ++ left /\ bi_input b' = left ++ tail.
Proof.
  intros dbg ds tail ns Hds Hm F.
  destruct (read_groups_inside dbg ds tail ns (biter_new (stuff ds ++ tail)) Hm) as [vs [b' [E [W [d [r [Hd [Hi Hr]]]]]]]]; auto.
  - split; [split; simpl; lia|]. exists ds, []. auto.
  - exists vs, b', r, (stuff d). auto.
Qed.

(** Zero bits after data with a clean end. *)
Definition no255 (ds : list Z) : Prop := Forall (fun d => d <> 255) ds.

Lemma stuff_no255 : forall ds, no255 ds -> stuff ds = ds.
Proof.
  induction ds as [|d ds IH]; intros H; auto. inv H.
  change (stuff (d :: ds)) with ((if d =? 255 then [255; 0] else [d]) ++ stuff ds).
  replace (d =? 255) with false by lia. rewrite IH; auto.
Qed.

Lemma reader_zeros : forall dbg ds tail ns,
  bytes ds -> clean_end ds -> marker_tail tail -> Forall (fun n => 1 <= n <= 16)%nat ns ->
  exists b', read_groups dbg (biter_new (stuff ds ++ tail)) ns =
    Ok (Some (map of_bits (groups ns (bits_of ds ++ repeat false (total ns)))), b').
Proof.
  intros dbg ds tail ns B C Hm F.
  destruct (read_groups_holds dbg tail ns _ _ Hm (biter_new_zeros ds tail (total ns) B C) F) as [b' [E _]]; [rewrite app_length, repeat_length; lia|].
  exists b'. exact E.
Qed.

Lemma refill_at_marker : forall b ds tail,
  0 <= bi_count b -> 0 <= bi_bits b < 2 ^ 64 ->
  bytes ds -> Forall (fun d => d <> 255) ds -> marker_tail tail ->
  bi_input b = ds ++ tail -> bi_count b + 8 * lenZ ds <= 56 ->
  exists b', fill_bits b = (true, b') /\ bi_input b' = tail.
Proof.
  intros b ds tail Hc Hb Hd Hn Hm Hi Hl. unfold lenZ in Hl.
  unfold fill_bits. rewrite Hi, <- (stuff_no255 ds) by auto.
  destruct (fill_loop_marker ds tail [] 0 (bi_count b) (bi_bits b) (bi_count b))
    as [b' [F [W [C [M D]]]]]; auto; try lia.
  cbn [app] in F. exists b'. split; [exact F|].
  fold (pending b) in D.
  destruct D as [[ds1 [ds2 [D1 [D2 D3]]]]|[z [D2 [D3 D4]]]].
  - exfalso. apply (f_equal (@length bool)) in D2. rewrite app_length, !pending_length, bits_of_length in D2.
    apply (f_equal (@length Z)) in D1. rewrite app_length in D1. lia.
  - cbn [app Nat.add] in D3. rewrite stuff_no255 in D3 by auto. rewrite skipn_app in D3.
    rewrite skipn_all, Nat.sub_diag in D3. exact D3.
Qed.

Lemma refill_at_marker_exact : forall b ds tail,
  0 <= bi_count b -> 0 <= bi_bits b < 2 ^ 64 ->
  bytes ds -> marker_tail tail ->
  bi_input b = stuff ds ++ tail -> bi_count b + 8 * lenZ ds <= 56 ->
  exists b' z, fill_bits b = (true, b') /\ bi_input b' = skipn (length ds) (stuff ds ++ tail) /\
    pending b' = pending b ++ bits_of ds ++ repeat false z.
Proof.
  intros b ds tail Hc Hb Hd Hm Hi Hl. unfold lenZ in Hl.
  unfold fill_bits. rewrite Hi.
  destruct (fill_loop_marker ds tail [] 0 (bi_count b) (bi_bits b) (bi_count b))
    as [b' [F [W [C [M D]]]]]; auto; try lia.
  cbn [app] in F. exists b'.
  fold (pending b) in D.
  destruct D as [[ds1 [ds2 [D1 [D2 D3]]]]|[z [D2 [D3 D4]]]].
  - exfalso. apply (f_equal (@length bool)) in D2. rewrite app_length, !pending_length, bits_of_length in D2.
    apply (f_equal (@length Z)) in D1. rewrite app_length in D1. lia.
  - exists z. split; [exact F|]. split; [exact D3|exact D2].
Qed.

Lemma stuff_count : forall ds, length (stuff ds) = (length ds + count_occ Z.eq_dec ds 255%Z)%nat.
Proof.
  induction ds as [|d ds IH]; auto.
  change (stuff (d :: ds)) with ((if d =? 255 then [255; 0] else [d]) ++ stuff ds).
  rewrite app_length, IH. cbn [count_occ length].
  destruct (Z.eq_dec d 255); destruct (d =? 255) eqn:E; cbn [length]; lia.
Qed.

Lemma refill_distance : forall b ds tail,
  0 <= bi_count b -> 0 <= bi_bits b < 2 ^ 64 ->
  bytes ds -> marker_tail tail ->
  bi_input b = stuff ds ++ tail -> bi_count b + 8 * lenZ ds <= 56 ->
  exists b' before again z, fill_bits b = (true, b') /\
    stuff ds = before ++ again /\ length again = count_occ Z.eq_dec ds 255 /\
    bi_input b' = again ++ tail /\
    to_bits (Z.to_nat (bi_count b')) (bi_bits b') =
      to_bits (Z.to_nat (bi_count b)) (bi_bits b) ++ bits_of ds ++ repeat false z.
Proof.
  intros b ds tail Hc Hb Hd Hm Hi Hl.
  destruct (refill_at_marker_exact b ds tail Hc Hb Hd Hm Hi Hl) as [b' [z [F [I P]]]].
  exists b', (firstn (length ds) (stuff ds)), (skipn (length ds) (stuff ds)), z.
  split; [exact F|]. split; [symmetry; apply firstn_skipn|].
  split; [rewrite skipn_length, stuff_count; lia|].
  split; [|exact P].
  rewrite I, skipn_app. pose proof (stuff_length ds).
  replace (length ds - length (stuff ds))%nat with 0%nat by lia. reflexivity.
Qed.

(** ** EXTEND *)
Lemma extend_ok : forall n v, 1 <= n <= 15 -> 0 <= v < 2 ^ n -> extend v n = EXTEND v n.
Proof.
  intros n v Hn Hv. unfold extend, EXTEND.
  assert (P : 2 ^ n = 2 * 2 ^ (n - 1)) by (rewrite <- Z.pow_succ_r by lia; f_equal; lia).
  assert (P15 : 2 ^ n <= 2 ^ 15) by (apply Z.pow_le_mono_r; lia).
  change (2 ^ 15) with 32768 in P15.
  rewrite Z.shiftl_1_l. rewrite Z.shiftr_div_pow2 by lia. change (2 ^ 31) with 2147483648.
  destruct (v <? 2 ^ (n - 1)) eqn:E.
  - replace ((v - 2 ^ (n - 1)) / 2147483648) with (-1) by lia.
    change (wrap 32 (-1)) with (Z.ones 32).
    rewrite Z.land_comm, Z.land_ones by lia. unfold wrap.
    rewrite Z.mod_mod by lia. rewrite Z.add_mod_idemp_l by lia.
    rewrite Z.shiftl_mul_pow2 by lia.
    replace ((2 ^ 32 - 1) * 2 ^ n + 1) with ((2 ^ 32 - 2 ^ n + 1) + (2 ^ n - 1) * 2 ^ 32) by ring.
    rewrite Z.mod_add by lia. change (2 ^ 32) with 4294967296. rewrite Z.mod_small by lia.
    assert (W : w32 (4294967296 - 2 ^ n + 1) = 1 - 2 ^ n).
    { unfold w32, swrap. change (2 ^ (32 - 1)) with 2147483648. change (2 ^ 32) with 4294967296.
      replace (4294967296 - 2 ^ n + 1 + 2147483648) with ((1 - 2 ^ n + 2147483648) + 1 * 4294967296) by ring.
      rewrite Z.mod_add by lia. rewrite Z.mod_small by lia. ring. }
    rewrite W. rewrite w32_id by lia. rewrite w16_id by lia. lia.
  - replace ((v - 2 ^ (n - 1)) / 2147483648) with 0 by lia.
    change (wrap 32 0) with 0. rewrite Z.land_0_l. change (w32 0) with 0.
    rewrite Z.add_0_r, w32_id by lia. rewrite w16_id by lia. reflexivity.
Qed.

Lemma receive_extend_ok : forall dbg tail b v bs,
  marker_tail tail -> holds_at tail b (v ++ bs) -> (1 <= length v <= 15)%nat ->
  exists b', receive_extend dbg b (Z.of_nat (length v)) =
    Ok (Some (EXTEND (of_bits v) (Z.of_nat (length v))), b') /\ holds_at tail b' bs.
Proof.
  intros. destruct (next_bits_holds dbg tail b v bs) as [b' [E H']]; auto; try lia.
  unfold receive_extend. rewrite E. cbn [bind]. rewrite extend_ok.
  - eauto.
  - lia.
  - apply of_bits_bound.
Qed.
