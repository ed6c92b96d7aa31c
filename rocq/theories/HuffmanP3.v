(** Proofs about Huffman tables, continued: totality and the combined AC lookup. *)
From Verif Require Import Base Tactics Biterator SpecBits SpecReader Readers BitsP ReadersP Huffman SpecHuffman HuffmanP HuffmanP2.

(** ** Refilling from arbitrary bytes *)
Definition suffix {A} (s l : list A) : Prop := exists p, l = p ++ s.
Lemma suffix_refl : forall A (l : list A), suffix l l.
Proof. intros. exists []. reflexivity. Qed.
Lemma suffix_trans : forall A (a b c : list A), suffix a b -> suffix b c -> suffix a c.
Proof. intros A a b c [p ->] [q ->]. exists (q ++ p). rewrite app_assoc. reflexivity. Qed.
Lemma suffix_nil : forall A (l : list A), suffix [] l.
Proof. intros. exists l. rewrite app_nil_r. reflexivity. Qed.
Lemma suffix_cons : forall A (x : A) s l, suffix s l -> suffix s (x :: l).
Proof. intros A x s l [p ->]. exists (x :: p). reflexivity. Qed.
Lemma suffix_skipn : forall A n (l : list A), suffix (skipn n l) l.
Proof. intros. exists (firstn n l). symmetry. apply firstn_skipn. Qed.
Lemma suffix_Forall : forall A (P : A -> Prop) s l, suffix s l -> Forall P l -> Forall P s.
Proof. intros A P s l [p ->] F. apply Forall_app in F. tauto. Qed.
Lemma suffix_length : forall A (s l : list A), suffix s l -> (length s <= length l)%nat.
Proof. intros A s l [p ->]. rewrite app_length. lia. Qed.

Lemma clear_low_byte_range : forall bits, 0 <= bits < 2 ^ 64 -> 0 <= clear_low_byte bits < 2 ^ 64.
Proof.
  intros. rewrite clear_low_byte_spec by auto. pose proof (Z.mod_pos_bound bits 256 ltac:(lia)).
  pose proof (Z.mod_le bits 256 ltac:(lia) ltac:(lia)). lia.
Qed.

Lemma pad_zeros_range : forall fuel bits count b' c', 0 <= bits < 2 ^ 64 -> 0 <= count <= 64 ->
  57 <= count + 8 * Z.of_nat fuel -> pad_zeros fuel bits count = (b', c') ->
  0 <= b' < 2 ^ 64 /\ 57 <= c' <= 64.
Proof.
  induction fuel; intros bits count b' c' Hb Hc Hf E; cbn [pad_zeros] in E.
  - inv E. lia.
  - destruct (count <=? 56) eqn:L.
    + apply IHfuel in E; try lia. apply Z.mod_pos_bound. reflexivity.
    + inv E. lia.
Qed.

Lemma fill_loop_any : forall cpi cpc input bits count ok b',
  bytes input -> 0 <= bits < 2 ^ 64 -> 0 <= count <= 64 -> suffix input cpi ->
  fill_loop cpi cpc input bits count = (ok, b') ->
  reader_ok b' /\ suffix (bi_input b') cpi /\ (ok = true -> 57 <= bi_count b').
Proof.
  intros cpi cpc input. induction input as [input IH] using (well_founded_induction (Wf_nat.well_founded_ltof _ (@length Z))).
  intros bits count ok b' By Hb Hc Sf E. unfold Wf_nat.ltof in IH.
  destruct input as [|x rest]; cbn [fill_loop] in E.
  - destruct (count <=? 56) eqn:L; inv E; unfold reader_ok; cbn [bi_input bi_bits bi_count];
      repeat split; try lia; try discriminate; auto using suffix_nil.
  - destruct (count <=? 56) eqn:L.
    2:{ inv E; unfold reader_ok; cbn [bi_input bi_bits bi_count]. repeat split; try lia; auto. }
    inversion By as [|? ? Bx Br]; subst. unfold is_byte in Bx.
    pose proof (push_byte_range bits x Bx) as Pr.
    destruct (x =? 255) eqn:X.
    + destruct rest as [|x2 rest2].
      { inv E; unfold reader_ok; cbn [bi_input bi_bits bi_count].
        repeat split; try lia; try discriminate; auto using suffix_nil. }
      inversion Br as [|? ? Bx2 Br2]; subst.
      destruct (x2 =? 0) eqn:X2.
      * eapply IH; try exact E; auto; try lia.
        -- cbn [length]. lia.
        -- eapply suffix_trans; [|exact Sf]. do 2 apply suffix_cons. apply suffix_refl.
      * destruct (skip_bytes (reskip cpc (count + 8)) cpi) as [input'|] eqn:Sk.
        -- destruct (pad_zeros 8 (clear_low_byte (push_byte bits x)) (count + 8)) as [bb cc] eqn:P.
           inv E. apply pad_zeros_range in P; try lia.
           2:{ apply clear_low_byte_range. auto. }
           unfold reader_ok; cbn [bi_input bi_bits bi_count].
           repeat split; try lia.
           destruct (Nat.le_gt_cases (reskip cpc (count + 8)) (length cpi)) as [G|G].
           ++ rewrite skip_bytes_spec in Sk by auto. inv Sk. apply suffix_skipn.
           ++ rewrite skip_bytes_none in Sk by auto. discriminate.
        -- inv E; unfold reader_ok; cbn [bi_input bi_bits bi_count].
           repeat split; try lia; try discriminate; auto using suffix_nil.
    + eapply IH; try exact E; auto; try lia.
      eapply suffix_trans; [|exact Sf]. apply suffix_cons. apply suffix_refl.
Qed.

(** Every refill, whatever the bytes. *)
Definition good (b : biter) : Prop := reader_ok b /\ bytes (bi_input b).

Lemma fill_bits_any : forall b ok b', good b -> fill_bits b = (ok, b') ->
  good b' /\ suffix (bi_input b') (bi_input b) /\ (ok = true -> 57 <= bi_count b').
Proof.
  intros b ok b' [Hb By] E. destruct Hb as [H1 H2]. unfold fill_bits in E.
  apply fill_loop_any in E; auto using suffix_refl. destruct E as [W [S C]].
  repeat split; auto; try apply W. eapply suffix_Forall; eauto.
Qed.

Lemma ensure16_any : forall b ok b', good b -> ensure16 b = (ok, b') ->
  good b' /\ suffix (bi_input b') (bi_input b) /\ (ok = true -> 16 <= bi_count b').
Proof.
  intros b ok b' G E. unfold ensure16 in E. destruct (bi_count b <? 16) eqn:C.
  - apply fill_bits_any in E; auto. destruct E as [G' [S L]]. repeat split; try apply G'; auto. intros; apply L in H; lia.
  - inv E. repeat split; try apply G; auto using suffix_refl. lia.
Qed.

Lemma consume_any : forall dbg b n, good b -> 0 <= n <= bi_count b ->
  exists b', consume_bits dbg b n = Ok b' /\ good b' /\ bi_input b' = bi_input b /\ bi_count b' = bi_count b - n /\ bi_bits b' = bi_bits b /\ pending b' = skipn (Z.to_nat n) (pending b).
Proof.
  intros dbg b n [Hb By] Hn. unfold consume_bits, debug_assert, assert_, usub.
  replace (n <=? bi_count b) with true by lia. replace (bi_count b <? n) with false by lia.
  destruct Hb as [H1 H2].
  exists (mkBiter (bi_input b) (bi_bits b) (bi_count b - n)). split; [destruct dbg; reflexivity|].
  cbn [bi_input bi_bits bi_count]. repeat split; cbn [bi_input bi_bits bi_count]; auto; try lia.
  destruct (consume_bits_spec dbg b n) as [b' [E [_ P]]]; [split; auto|lia|].
  unfold consume_bits, debug_assert, assert_, usub in E.
  replace (n <=? bi_count b) with true in E by lia. replace (bi_count b <? n) with false in E by lia.
  destruct dbg; cbn [bind] in E; inv E; apply P.
Qed.

Lemma next_bits_any : forall dbg b n, good b -> 1 <= n <= 16 ->
  exists r b', next_bits dbg b n = Ok (r, b') /\ good b' /\ suffix (bi_input b') (bi_input b) /\
    match r with Some v => 0 <= v < 2 ^ n | None => True end.
Proof.
  intros dbg b n G Hn. unfold next_bits.
  destruct (if bi_count b <? n then fill_bits b else (true, b)) as [ok b1] eqn:E.
  assert (G1 : good b1 /\ suffix (bi_input b1) (bi_input b) /\ (ok = true -> n <= bi_count b1)).
  { destruct (bi_count b <? n) eqn:C.
    - apply fill_bits_any in E; auto. destruct E as [G' [S L]]. repeat split; try apply G'; auto. intros; apply L in H; lia.
    - inv E. repeat split; try apply G; auto using suffix_refl. lia. }
  destruct G1 as [G1 [S1 L1]]. destruct ok.
  - specialize (L1 eq_refl). unfold peek_bits. rewrite peek_raw_spec by (try apply G1; lia). cbn [bind].
    destruct (consume_any dbg b1 n G1) as [b2 [E2 [G2 [I2 _]]]]; [lia|]. rewrite E2. cbn [bind].
    exists (Some (wrap 16 (of_bits (firstn (Z.to_nat n) (pending b1))))), b2. split; auto. split; auto. rewrite I2. split; auto.
    pose proof (of_bits_bound (firstn (Z.to_nat n) (pending b1))) as B.
    rewrite firstn_length_le in B by (rewrite pending_length; lia).
    replace (Z.of_nat (Z.to_nat n)) with n in B by lia.
    pose proof (Z.pow_le_mono_r 2 n 16 ltac:(lia) ltac:(lia)).
    unfold wrap. rewrite Z.mod_small; lia.
  - exists None, b1. repeat split; auto; apply G1.
Qed.

(** Decoding a symbol in any state: never a panic, and the value comes from the table. *)
Lemma table_decode_any : forall dbg counts values t b,
  table_of counts values t -> good b ->
  exists r b', table_decode dbg t b = Ok (r, b') /\ good b' /\ suffix (bi_input b') (bi_input b) /\
    match r with Some v => In v values | None => True end.
Proof.
  intros dbg counts values t b T G. unfold table_decode.
  destruct (ensure16 b) as [ok b1] eqn:E. apply ensure16_any in E; auto. destruct E as [G1 [S1 C1]].
  destruct ok.
  - specialize (C1 eq_refl). unfold LUT_BITS. rewrite peek8 by (try apply G1; auto). cbn [bind].
    rewrite (decode_inner_spec dbg counts values) by (auto; apply G1).
    destruct (find_seg 0 0 (code_lengths counts) (window b1)) as [[k s]|] eqn:F.
    + destruct (find_seg_spec _ _ _ _ _ _ F) as [K N].
      pose proof (code_lens_le16 counts (to_counts _ _ _ T)) as L.
      assert (1 <= s <= 16) by (rewrite Forall_forall in L; apply L; eapply nth_error_In; eauto).
      destruct (consume_any dbg b1 s G1) as [b2 [E2 [G2 [I2 _]]]]; [lia|]. rewrite E2. cbn [bind].
      eexists _, b2. split; [reflexivity|]. split; auto. rewrite I2. split; auto.
      apply nth_In.
      assert (Z.to_nat (k - 0) < length (code_lengths counts))%nat by (apply nth_error_Some; congruence).
      pose proof (to_len _ _ _ T) as Lv. unfold code_lengths in H0.
      pose proof (lengths_from_length counts 1 (proj2 (to_counts _ _ _ T))) as Lc.
      rewrite <- Lc in Lv. unfold lenZ in Lv. rewrite Z.sub_0_r in H0. lia.
    + exists None, b1. repeat split; auto; apply G1.
  - exists None, b1. repeat split; auto; apply G1.
Qed.

(** No code: no symbol. *)
Lemma table_decode_none : forall dbg counts values t tail b bs,
  table_of counts values t -> marker_tail tail -> holds_at tail b bs -> length bs = 16%nat ->
  (forall c, In c (canonical counts) -> ~ prefix c bs) ->
  exists b', table_decode dbg t b = Ok (None, b') /\ holds_at tail b' bs.
Proof.
  intros dbg counts values t tail b bs T Hm H L N.
  destruct (ensure16_holds tail b _ Hm H) as [b1 [E [H1 C1]]].
  unfold table_decode. rewrite E. pose proof H1 as [W1 D1]. unfold LUT_BITS.
  rewrite peek8 by auto. cbn [bind].
  destruct (decode_inner_total dbg counts values t b1 T W1 C1) as [[k [c [b' [Nk [P [_ [_ Lc]]]]]]]|[_ D]].
  - exfalso. apply (N c); [eapply nth_error_In; eauto|].
    destruct (consume_holds dbg tail b1 bs []) as [b2 [_ [_ [_ F]]]].
    { rewrite app_nil_r. auto. }
    { lia. }
    rewrite L in F. rewrite <- F. apply prefix_iff_firstn. apply prefix_iff_firstn in P.
    rewrite firstn_firstn. replace (Nat.min (length c) 16) with (length c) by lia. auto.
  - rewrite D. eauto.
Qed.

Lemma skipn_skipn : forall A n m (l : list A), skipn n (skipn m l) = skipn (n + m) l.
Proof.
  intros A n m. induction m; intros l; [rewrite Nat.add_0_r; reflexivity|].
  destruct l; [rewrite !skipn_nil; reflexivity|]. cbn [skipn]. rewrite IHm.
  replace (n + S m)%nat with (S (n + m)) by lia. reflexivity.
Qed.

(** ** The combined AC lookup *)
Lemma ac_entries_nth : forall lut i k, (k < length lut)%nat ->
  nth k (ac_entries i lut) (0, 0) = ac_entry (i + Z.of_nat k) (nth k lut (0, 0)).
Proof.
  induction lut; intros i k H; cbn [length] in H; [lia|]. cbn [ac_entries].
  destruct k; cbn [nth].
  - rewrite Z.add_0_r. reflexivity.
  - rewrite IHlut by lia. f_equal. lia.
Qed.
Lemma ac_entries_length : forall lut i, length (ac_entries i lut) = length lut.
Proof. induction lut; intros; cbn [ac_entries length]; auto. Qed.

(** The magnitude bits inside the 8-bit window. *)
Lemma window_mag : forall b size mag, reader_ok b -> 16 <= bi_count b -> 1 <= size -> 1 <= mag -> size + mag <= 8 ->
  Z.shiftr (Z.land (Z.shiftl (window b / 256) size) (2 ^ LUT_BITS - 1)) (LUT_BITS - mag)
  = of_bits (firstn (Z.to_nat mag) (skipn (Z.to_nat size) (pending b))).
Proof.
  intros b size mag Hb H16 Hs Hm Hsm. unfold LUT_BITS.
  set (p := pending b).
  assert (Lp : (16 <= length p)%nat) by (unfold p; rewrite pending_length; lia).
  set (x := firstn (Z.to_nat size) p). set (m := firstn (Z.to_nat mag) (skipn (Z.to_nat size) p)).
  set (y := firstn (Z.to_nat (8 - size - mag)) (skipn (Z.to_nat mag) (skipn (Z.to_nat size) p))).
  set (z := firstn 8 (skipn 8 p)).
  assert (Lx : length x = Z.to_nat size) by (apply firstn_length_le; lia).
  assert (Lm : length m = Z.to_nat mag) by (apply firstn_length_le; rewrite skipn_length; lia).
  assert (Ly : length y = Z.to_nat (8 - size - mag)) by (apply firstn_length_le; rewrite !skipn_length; lia).
  assert (Lz : length z = 8%nat) by (apply firstn_length_le; rewrite skipn_length; lia).
  assert (E : firstn 16 p = x ++ m ++ y ++ z).
  { assert (Ep : p = x ++ m ++ y ++ skipn 8 p).
    { rewrite <- (firstn_skipn (Z.to_nat size) p) at 1. f_equal.
      rewrite <- (firstn_skipn (Z.to_nat mag) (skipn (Z.to_nat size) p)) at 1. f_equal.
      rewrite <- (firstn_skipn (Z.to_nat (8 - size - mag)) (skipn (Z.to_nat mag) (skipn (Z.to_nat size) p))) at 1.
      f_equal. rewrite !skipn_skipn. f_equal. lia. }
    rewrite Ep at 1. rewrite !firstn_app, Lx, Lm, Ly.
    rewrite !firstn_all2 by lia. replace (16 - Z.to_nat size - Z.to_nat mag - Z.to_nat (8 - size - mag))%nat with 8%nat by lia.
    reflexivity. }
  unfold window. fold p. rewrite E, !of_bits_app, !app_length, Lm, Ly, Lz.
  pose proof (of_bits_bound x) as Bx. pose proof (of_bits_bound m) as Bm.
  pose proof (of_bits_bound y) as By. pose proof (of_bits_bound z) as Bz.
  rewrite Lx in Bx. rewrite Lm in Bm. rewrite Ly in By. rewrite Lz in Bz.
  set (X := of_bits x) in *. set (M := of_bits m) in *. set (Y := of_bits y) in *. set (Z0 := of_bits z) in *.
  clearbody X M Y Z0.
  replace (Z.of_nat (Z.to_nat mag + (Z.to_nat (8 - size - mag) + 8))) with (8 - size + 8) by lia.
  replace (Z.of_nat (Z.to_nat (8 - size - mag) + 8)) with (8 - size - mag + 8) by lia.
  replace (Z.of_nat (Z.to_nat mag)) with mag in * by lia.
  replace (Z.of_nat (Z.to_nat size)) with size in * by lia.
  replace (Z.of_nat (Z.to_nat (8 - size - mag))) with (8 - size - mag) in * by lia.
  change (Z.of_nat 8) with 8 in *.
  rewrite !Z.pow_add_r by lia. change (2 ^ 8) with 256 in *.
  assert (P : 2 ^ (8 - size) = 2 ^ mag * 2 ^ (8 - size - mag)) by (rewrite <- Z.pow_add_r by lia; f_equal; lia).
  assert (P8 : 2 ^ size * 2 ^ (8 - size) = 256) by (rewrite <- Z.pow_add_r by lia; replace (size + (8 - size)) with 8 by lia; reflexivity).
  assert (P8' : 2 ^ (8 - mag) = 2 ^ size * 2 ^ (8 - size - mag)) by (rewrite <- Z.pow_add_r by lia; f_equal; lia).
  assert (Ps : 0 < 2 ^ size) by (apply Z.pow_pos_nonneg; lia).
  assert (Pm : 0 < 2 ^ mag) by (apply Z.pow_pos_nonneg; lia).
  assert (Pr : 0 < 2 ^ (8 - size - mag)) by (apply Z.pow_pos_nonneg; lia).
  replace (256 - 1) with (Z.ones 8) by reflexivity.
  rewrite Z.land_ones, Z.shiftl_mul_pow2, Z.shiftr_div_pow2 by lia. change (2 ^ 8) with 256.
  rewrite P8'.
  set (A := 2 ^ size) in *. set (R := 2 ^ (8 - size - mag)) in *. set (G := 2 ^ mag) in *. rewrite P in *.
  clearbody A R G. clear P P8' E Lx Lm Ly Lz Lp.
  assert (E1 : (X * (G * R * 256) + (M * (R * 256) + (Y * 256 + Z0))) / 256 = X * (G * R) + M * R + Y).
  { symmetry. apply Z.div_unique with Z0; lia. }
  rewrite E1.
  assert (E2 : ((X * (G * R) + M * R + Y) * A) mod 256 = M * (A * R) + Y * A).
  { assert (B1 : 0 <= M * R + Y) by nia. assert (B2 : M * R + Y + 1 <= G * R) by nia.
    assert (B3 : (M * R + Y + 1) * A <= G * R * A) by (apply Z.mul_le_mono_nonneg_r; lia).
    symmetry. apply Z.mod_unique with X; [left; split; nia|].
    replace (X * (G * R)) with (X * G * R) by ring. rewrite <- P8. ring. }
  rewrite E2. symmetry. apply Z.div_unique with (Y * A); [left; split; nia|ring].
Qed.

Lemma lor_run : forall run n, 0 <= run < 16 -> 0 <= n < 16 ->
  Z.lor (wrap 8 (Z.shiftl run 4)) n = run * 16 + n.
Proof.
  intros. rewrite Z.shiftl_mul_pow2 by lia. change (2 ^ 4) with 16. unfold wrap. rewrite Z.mod_small by (change (2 ^ 8) with 256; lia).
  assert (L : Z.land (run * 16) n = 0).
  { apply Z.bits_inj'. intros k Hk. rewrite Z.land_spec, Z.bits_0.
    destruct (Z_lt_ge_dec k 4).
    - change 16 with (2 ^ 4). rewrite Z.mul_pow2_bits_low by lia. reflexivity.
    - replace (Z.testbit n k) with false; [apply andb_false_r|]. symmetry.
      rewrite <- (Z.mod_small n (2 ^ 4)) by (change (2 ^ 4) with 16; lia). apply Z.mod_pow2_bits_high. lia. }
  pose proof (Z.add_nocarry_lxor _ _ L) as Q. rewrite Q. symmetry. apply Z.lxor_lor. exact L.
Qed.

Lemma fast_ac_equals_slow : forall dbg counts values t b,
  table_of counts values (ac_table_base t) -> bytes values -> ac_lut t = ac_entries 0 (t_lut (ac_table_base t)) ->
  good b ->
  match decode_fast_ac dbg t b with
  | Ok (AFast v run, b') => exists byte b1,
      table_decode dbg (ac_table_base t) b = Ok (Some byte, b1) /\
      run = byte / 16 /\ 1 <= byte mod 16 <= 7 /\ 
      receive_extend dbg b1 (byte mod 16) = Ok (Some v, b')
  | Ok (ANormal byte, b') => table_decode dbg (ac_table_base t) b = Ok (Some byte, b')
  | Ok (AErr, b') => table_decode dbg (ac_table_base t) b = Ok (None, b')
  | _ => False
  end.
Proof.
  intros dbg counts values t b T Bv El G.
  unfold decode_fast_ac, table_decode.
  destruct (ensure16 b) as [ok b1] eqn:E. apply ensure16_any in E; auto. destruct E as [G1 [S1 C1]].
  destruct ok; [|reflexivity]. specialize (C1 eq_refl). unfold LUT_BITS.
  rewrite peek8 by (auto; apply G1). cbn [bind]. rewrite El.
  pose proof (window_bound b1 C1) as Hw. change (2 ^ 16) with 65536 in Hw.
  assert (Hi : 0 <= window b1 / 256 < 256) by lia.
  assert (Ll := to_lutlen _ _ _ T).
  rewrite (index_nth _ _ _ (0, 0)) by (unfold lenZ; rewrite ac_entries_length, Ll; lia).
  rewrite ac_entries_nth by (rewrite Ll; lia). cbn [bind].
  replace (0 + Z.of_nat (Z.to_nat (window b1 / 256))) with (window b1 / 256) by lia.
  pose proof (to_lut _ _ _ T (Z.to_nat (window b1 / 256)) ltac:(lia)) as Lu.
  assert (Slow : forall v s, nth (Z.to_nat (window b1 / 256)) (t_lut (ac_table_base t)) (0, 0) = (v, s) -> 0 < s ->
     decode_inner dbg (ac_table_base t) b1 (window b1 / 256) = (let* b' := consume_bits dbg b1 s in Ok (Some v, b'))).
  { intros v s N Hs. unfold decode_inner. rewrite (index_nth _ _ _ (0, 0)) by (unfold lenZ; rewrite Ll; lia).
    rewrite N. cbn [bind]. replace (0 <? s) with true by lia. reflexivity. }
  assert (Tot : exists r b', decode_inner dbg (ac_table_base t) b1 (window b1 / 256) = Ok (r, b')).
  { destruct (decode_inner_total dbg counts values _ b1 T (proj1 G1) C1) as [[k [c [b' [_ [_ [D _]]]]]]|[_ D]]; eauto. }
  destruct (nth (Z.to_nat (window b1 / 256)) (t_lut (ac_table_base t)) (0, 0)) as [v s] eqn:N.
  assert (Bvs : 0 <= v < 256 /\ (s = 0 -> v = 0) /\ 0 <= s).
  { destruct (find_seg 0 0 (short_lens counts) (256 * Z.of_nat (Z.to_nat (window b1 / 256)))) as [[k s']|] eqn:F;
      cbn [slot] in Lu; inversion Lu; subst; [|repeat split; lia].
    destruct (find_seg_spec _ _ _ _ _ _ F) as [K Nk].
    assert (1 <= s').
    { apply nth_error_In in Nk.
      assert (Hok : lens_ok 1 (short_lens counts)).
      { apply lengths_from_ok. pose proof (firstn_le_length 8 counts). lia. }
      pose proof (lens_ok_Forall _ _ Hok) as Fl. rewrite Forall_forall in Fl. apply Fl in Nk. lia. }
    split; [|split; lia].
    apply (Forall_nth_d _ is_byte); auto. unfold is_byte. lia. }
  destruct Bvs as [Bv1 [Bv2 Bv3]].
  unfold ac_entry.
  replace (Z.shiftr v 4) with (v / 16) by (rewrite Z.shiftr_div_pow2 by lia; reflexivity).
  replace (Z.land v 15) with (v mod 16) by (change 15 with (Z.ones 4); rewrite Z.land_ones by lia; reflexivity).
  assert (Run : 0 <= v / 16 < 16) by lia.
  destruct ((0 <? v mod 16) && (s + v mod 16 <=? LUT_BITS)) eqn:C; unfold LUT_BITS in *.
  - assert (Hs : 1 <= s) by (destruct (Z.eq_dec s 0) as [Z0|Z0]; [rewrite (Bv2 Z0) in C; cbn in C; discriminate|lia]).
    rewrite lor_run by lia.
    replace (v / 16 * 16 + (s + v mod 16) =? 0) with false by lia. cbn [negb].
    replace (Z.shiftr (v / 16 * 16 + (s + v mod 16)) 4) with (v / 16)
      by (rewrite Z.shiftr_div_pow2 by lia; change (2 ^ 4) with 16; lia).
    replace (Z.land (v / 16 * 16 + (s + v mod 16)) 15) with (s + v mod 16).
    2:{ replace 15 with (Z.ones 4) by reflexivity. rewrite Z.land_ones by lia. change (2 ^ 4) with 16. lia. }
    destruct (consume_any dbg b1 (s + v mod 16) G1) as [b2 [E2 [G2 [I2 [Cn2 [Bt2 P2]]]]]]; [lia|].
    rewrite E2. cbn [bind].
    destruct (consume_any dbg b1 s G1) as [b3 [E3 [G3 [I3 [Cn3 [Bt3 P3]]]]]]; [lia|].
    exists v, b3. rewrite (Slow v s) by (auto; lia). rewrite E3. cbn [bind]. split; auto. split; auto.
    split; [lia|].
    unfold receive_extend, next_bits. replace (bi_count b3 <? v mod 16) with false by lia.
    unfold peek_bits. rewrite peek_raw_spec by (try apply G3; lia). cbn [bind].
    destruct (consume_any dbg b3 (v mod 16) G3) as [b4 [E4 [G4 [I4 [Cn4 [Bt4 P4]]]]]]; [lia|].
    rewrite E4. cbn [bind]. rewrite P3.
    rewrite <- window_mag by (try apply G1; lia). unfold LUT_BITS.
    replace b4 with b2; auto.
    destruct b2 as [x2 y2 z2], b4 as [x4 y4 z4]. cbn in I2, I4, Cn2, Cn4, Bt2, Bt4. f_equal; try congruence. lia.
  - change (0 =? 0) with true. cbn [negb].
    destruct Tot as [r [b' D]]. rewrite D. cbn [bind]. destruct r; reflexivity.
Qed.

Lemma holds_good : forall tail b bs, bytes tail -> holds_at tail b bs -> good b.
Proof.
  intros tail b bs Ht [W [ds [Bd [E _]]]]. split; auto. rewrite E. apply Forall_app. split; auto.
  clear - Bd. unfold stuff. apply Forall_forall. intros x I. apply in_flat_map in I. destruct I as [d [Id I]].
  unfold bytes in Bd. rewrite Forall_forall in Bd. apply Bd in Id. unfold is_byte in *.
  destruct (d =? 255) eqn:E; cbn in I; [destruct I as [<-|[<-|[]]]|destruct I as [<-|[]]]; lia.
Qed.

Lemma fast_ac_value : forall dbg counts values t tail b bs k c mag byte,
  table_of counts values (ac_table_base t) -> bytes values -> ac_lut t = ac_entries 0 (t_lut (ac_table_base t)) ->
  marker_tail tail -> bytes tail ->
  nth_error (canonical counts) k = Some c -> nth k values 0 = byte ->
  Z.of_nat (length mag) = byte mod 16 -> holds_at tail b (c ++ mag ++ bs) ->
  exists b',
    (1 <= byte mod 16 /\ decode_fast_ac dbg t b = Ok (AFast (EXTEND (of_bits mag) (byte mod 16)) (byte / 16), b') /\ holds_at tail b' bs) \/
    (decode_fast_ac dbg t b = Ok (ANormal byte, b') /\ holds_at tail b' (mag ++ bs)).
Proof.
  intros dbg counts values t tail b bs k c mag byte T Bv El Hm Ht N Nv Lm H.
  pose proof (fast_ac_equals_slow dbg counts values t b T Bv El (holds_good _ _ _ Ht H)) as F.
  destruct (table_decode_code dbg counts values (ac_table_base t) tail b (mag ++ bs) k c T Hm N H) as [b1 [D H1]].
  rewrite Nv in D.
  destruct (decode_fast_ac dbg t b) as [[r b']| | |] eqn:E; try contradiction.
  exists b'. destruct r.
  - left. destruct F as [y [b2 [D' [Er [Hy R]]]]]. rewrite D in D'. inv D'.
    destruct (receive_extend_ok dbg tail b2 mag bs) as [b3 [R' H3]]; auto; try lia.
    rewrite Lm in R'. rewrite R in R'. inv R'. split; [lia|auto].
  - right. rewrite D in F. inv F. auto.
  - rewrite D in F. discriminate.
Qed.

(** Stated about tables as built. *)
Lemma ac_new_of : forall dbg counts values t, counts_ok counts -> lenZ values = total_codes counts ->
  ac_new dbg counts values = Ok t ->
  table_of counts values (ac_table_base t) /\ ac_lut t = ac_entries 0 (t_lut (ac_table_base t)).
Proof.
  intros dbg counts values t C L E. unfold ac_new in E.
  destruct (table_new dbg counts values) eqn:E'; cbn [bind] in E; try discriminate. inv E. cbn [ac_table_base ac_lut].
  split; auto. eapply table_new_of; eauto.
Qed.

Lemma accept_iff : forall dbg counts values, counts_ok counts -> lenZ values = total_codes counts ->
  ((exists t, table_new dbg counts values = Ok t) <-> 1 <= total_codes counts <= 256 /\ kraft counts <= 2 ^ 16).
Proof.
  intros dbg counts values C L. split.
  - intros [t E]. apply table_new_of in E; auto. split; [apply (to_total _ _ _ E)|apply (to_kraft _ _ _ E)].
  - intros [T K]. destruct (table_new_spec dbg counts values C L) as [S _]. destruct S as [t [E _]]; auto. eauto.
Qed.

Lemma reject_error : forall dbg counts values, counts_ok counts -> lenZ values = total_codes counts ->
  1 <= total_codes counts ->
  (total_codes counts <= 256 \/ dbg = false) ->
  ~ (total_codes counts <= 256 /\ kraft counts <= 2 ^ 16) ->
  exists e, table_new dbg counts values = Fail e.
Proof.
  intros dbg counts values C L H1 H2 N.
  destruct (table_new_spec dbg counts values C L) as [_ [S2 [_ S4]]].
  destruct (Z_lt_ge_dec 256 (total_codes counts)).
  - destruct H2 as [H2| ->]; [lia|]. rewrite S4 by lia. eauto.
  - rewrite S2; eauto; lia.
Qed.

Lemma prefix_free_built : forall dbg counts values t i j ci cj,
  counts_ok counts -> lenZ values = total_codes counts -> table_new dbg counts values = Ok t ->
  nth_error (canonical counts) i = Some ci -> nth_error (canonical counts) j = Some cj -> i <> j -> ~ prefix ci cj.
Proof.
  intros dbg counts values t i j ci cj C L E Ni Nj Hij P. apply Hij.
  apply table_new_of in E; auto. eapply canonical_prefix_free; eauto. apply (to_kraft _ _ _ E).
Qed.

Lemma canonical_lengths : forall counts, counts_ok counts -> 
  map (fun c => Z.of_nat (length c)) (canonical counts) = code_lengths counts.
Proof.
  intros counts C. rewrite canonical_segs by auto. rewrite map_map.
  assert (F := code_lens_le16 counts C).
  generalize 0. induction (code_lengths counts); intros z0; cbn [segs map]; auto.
  inv F. rewrite IHl by auto. f_equal. unfold seg_code. cbn [fst snd]. rewrite to_bits_length. lia.
Qed.

Lemma decode_symbol : forall dbg counts values t tail b bs k c v,
  counts_ok counts -> lenZ values = total_codes counts -> table_new dbg counts values = Ok t -> marker_tail tail ->
  nth_error (canonical counts) k = Some c -> nth_error values k = Some v -> holds_at tail b (c ++ bs) ->
  exists b', table_decode dbg t b = Ok (Some v, b') /\ holds_at tail b' bs.
Proof.
  intros dbg counts values t tail b bs k c v C L E Hm N Nv H. apply table_new_of in E; auto.
  destruct (table_decode_code dbg counts values t tail b bs k c E Hm N H) as [b' [D H']].
  exists b'. rewrite (nth_error_nth values k 0 Nv) in D. auto.
Qed.

Lemma decode_no_symbol : forall dbg counts values t tail b bs,
  counts_ok counts -> lenZ values = total_codes counts -> table_new dbg counts values = Ok t -> marker_tail tail ->
  length bs = 16%nat -> holds_at tail b bs ->
  (forall c, In c (canonical counts) -> ~ prefix c bs) ->
  exists b', table_decode dbg t b = Ok (None, b') /\ holds_at tail b' bs.
Proof.
  intros dbg counts values t tail b bs C L E Hm L16 H N. apply table_new_of in E; auto.
  eapply table_decode_none; eauto.
Qed.

Lemma decode_total : forall dbg counts values t b,
  counts_ok counts -> lenZ values = total_codes counts -> table_new dbg counts values = Ok t ->
  reader_ok b -> bytes (bi_input b) ->
  exists r b', table_decode dbg t b = Ok (r, b') /\ (forall v, r = Some v -> In v values).
Proof.
  intros dbg counts values t b C L E Hb By. apply table_new_of in E; auto.
  destruct (table_decode_any dbg counts values t b E (conj Hb By)) as [r [b' [D [_ [_ V]]]]].
  exists r, b'. split; auto. intros v ->. auto.
Qed.

Lemma fast_slow_built : forall dbg counts values t b,
  counts_ok counts -> lenZ values = total_codes counts -> bytes values -> ac_new dbg counts values = Ok t ->
  reader_ok b -> bytes (bi_input b) ->
  match decode_fast_ac dbg t b with
  | Ok (AFast v run, b') => exists byte b1,
      table_decode dbg (ac_table_base t) b = Ok (Some byte, b1) /\
      run = byte / 16 /\ 1 <= byte mod 16 <= 7 /\
      receive_extend dbg b1 (byte mod 16) = Ok (Some v, b')
  | Ok (ANormal byte, b') => table_decode dbg (ac_table_base t) b = Ok (Some byte, b')
  | Ok (AErr, b') => table_decode dbg (ac_table_base t) b = Ok (None, b')
  | _ => False
  end.
Proof.
  intros dbg counts values t b C L Bv E Hb By. destruct (ac_new_of _ _ _ _ C L E) as [T El].
  eapply fast_ac_equals_slow; eauto. split; auto.
Qed.

Lemma fast_value_built : forall dbg counts values t tail b bs k c mag byte,
  counts_ok counts -> lenZ values = total_codes counts -> bytes values -> ac_new dbg counts values = Ok t ->
  marker_tail tail -> bytes tail ->
  nth_error (canonical counts) k = Some c -> nth_error values k = Some byte ->
  Z.of_nat (length mag) = byte mod 16 -> holds_at tail b (c ++ mag ++ bs) ->
  exists b',
    (decode_fast_ac dbg t b = Ok (AFast (EXTEND (of_bits mag) (byte mod 16)) (byte / 16), b') /\ holds_at tail b' bs) \/
    (decode_fast_ac dbg t b = Ok (ANormal byte, b') /\ holds_at tail b' (mag ++ bs)).
Proof.
  intros dbg counts values t tail b bs k c mag byte C L Bv E Hm Ht N Nv Lm H.
  destruct (ac_new_of _ _ _ _ C L E) as [T El].
  destruct (fast_ac_value dbg counts values t tail b bs k c mag byte) as [b' [[_ F]|F]]; eauto.
  apply nth_error_nth. auto.
Qed.
