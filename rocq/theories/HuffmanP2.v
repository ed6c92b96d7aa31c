(** Proofs about Huffman tables, continued: whole tables and decoding. *)
From Verif Require Import Base Tactics Biterator SpecBits SpecReader Readers BitsP ReadersP Huffman SpecHuffman HuffmanP.

(** ** What an accepted table contains *)
Definition short_lens (counts : list Z) : list Z := lengths_from 1 (firstn 8 counts).
Definition long_lens (counts : list Z) : list Z := lengths_from 9 (skipn 8 counts).

Lemma lengths_from_app : forall a b l, lengths_from l (a ++ b) = lengths_from l a ++ lengths_from (l + lenZ a) b.
Proof.
  induction a; intros; cbn [app lengths_from].
  - unfold lenZ. cbn. rewrite Z.add_0_r. reflexivity.
  - rewrite IHa, lenZ_cons, <- app_assoc. do 3 f_equal. lia.
Qed.

Lemma lens_split : forall counts, length counts = 16%nat -> code_lengths counts = short_lens counts ++ long_lens counts.
Proof.
  intros. unfold code_lengths. rewrite <- (firstn_skipn 8 counts) at 1.
  rewrite lengths_from_app. unfold lenZ. rewrite firstn_length_le by lia. reflexivity.
Qed.

Lemma kraft_sumW : forall counts, kraft counts = sumW (code_lengths counts).
Proof. reflexivity. Qed.

Record table_of (counts values : list Z) (t : base_table) : Prop := mkTableOf {
  to_counts : counts_ok counts;
  to_len : lenZ values = total_codes counts;
  to_total : 1 <= total_codes counts <= 256;
  to_kraft : kraft counts <= 2 ^ 16;
  to_values : t_values t = pad_to 256 0 values;
  to_off : t_val_offset t = map fst (off_spec 1 0 0 counts);
  to_max : t_max_code t = map snd (off_spec 1 0 0 counts);
  to_lutlen : length (t_lut t) = 256%nat;
  to_lut : forall x, (x < 256)%nat ->
    nth x (t_lut t) (0, 0) = slot values (find_seg 0 0 (short_lens counts) (256 * Z.of_nat x)) (0, 0);
}.

Lemma pad_to_length : forall A n (d : A) xs, length (pad_to n d xs) = n.
Proof. intros. unfold pad_to. rewrite firstn_length, app_length, repeat_length. lia. Qed.

Lemma pad_to_nth : forall A n (d : A) xs i, (i < n)%nat -> nth i (pad_to n d xs) d = nth i xs d.
Proof.
  intros. unfold pad_to.
  assert (L : length (firstn n (xs ++ repeat d n)) = n) by (rewrite firstn_length, app_length, repeat_length; lia).
  transitivity (nth i (xs ++ repeat d n) d).
  - rewrite <- (firstn_skipn n (xs ++ repeat d n)) at 2. rewrite app_nth1 by lia. reflexivity.
  - destruct (Nat.lt_ge_cases i (length xs)).
    + rewrite app_nth1 by lia. reflexivity.
    + rewrite app_nth2 by lia. rewrite nth_repeat. symmetry. apply nth_overflow. lia.
Qed.

Lemma pad_to_nth_error : forall A n (d : A) xs i x, (i < n)%nat -> nth_error xs i = Some x ->
  nth_error (pad_to n d xs) i = Some x.
Proof.
  intros. rewrite (nth_error_nth' _ d) by (rewrite pad_to_length; lia).
  rewrite pad_to_nth by lia. f_equal. apply nth_error_nth. auto.
Qed.

Lemma lens_short_le8 : forall counts, Forall (fun l => l <= 8) (short_lens counts).
Proof.
  intros. unfold short_lens.
  assert (G : forall cs l, l + Z.of_nat (length cs) <= 9 -> Forall (fun x => x <= 8) (lengths_from l cs)).
  { induction cs; intros; cbn [lengths_from]; [constructor|]. cbn [length] in H.
    apply Forall_app. split; [|apply IHcs; lia]. apply Forall_forall. intros x Hx.
    apply repeat_spec in Hx. lia. }
  apply G. pose proof (firstn_le_length 8 counts). lia.
Qed.

Lemma lens_long_gt8 : forall counts, Forall (fun l => 8 < l) (long_lens counts).
Proof.
  intros. unfold long_lens. generalize (skipn 8 counts). 
  assert (G : forall cs l, 9 <= l -> Forall (fun x => 8 < x) (lengths_from l cs)).
  { induction cs; intros; cbn [lengths_from]; [constructor|].
    apply Forall_app. split; [|apply IHcs; lia]. apply Forall_forall. intros x Hx.
    apply repeat_spec in Hx. lia. }
  intros. apply G. lia.
Qed.

(** ** Acceptance *)
Lemma table_new_spec : forall dbg counts values, counts_ok counts -> lenZ values = total_codes counts ->
  (1 <= total_codes counts <= 256 -> kraft counts <= 2 ^ 16 ->
     exists t, table_new dbg counts values = Ok t /\ table_of counts values t) /\
  (1 <= total_codes counts <= 256 -> 2 ^ 16 < kraft counts -> table_new dbg counts values = Fail EHuffCode) /\
  (total_codes counts = 0 -> table_new dbg counts values = Panic PIndex) /\
  (256 < total_codes counts -> table_new dbg counts values = if dbg then Panic PAssert else Fail EHuffsize).
Proof.
  intros dbg counts values [L16 B] Hv.
  unfold table_new. rewrite huffsize_spec by auto. rewrite Hv.
  assert (D : total_codes counts <= 256 -> debug_assert dbg (total_codes counts <=? 256) = Ok tt).
  { intros. unfold debug_assert, assert_. replace (total_codes counts <=? 256) with true by lia. destruct dbg; reflexivity. }
  assert (Ll : lenZ (code_lengths counts) = total_codes counts) by (apply lengths_from_length; auto).
  assert (Hok : lens_ok 1 (code_lengths counts)) by (apply lengths_from_ok; lia).
  assert (A : 1 <= total_codes counts <= 256 ->
     exists l0 r, code_lengths counts = l0 :: r /\ index (code_lengths counts) 0 = Ok l0 /\
       assign_codes (code_lengths counts) 0 l0 =
         if kraft counts <=? 2 ^ 16 then Ok (codes_al 0 (code_lengths counts)) else Fail EHuffCode).
  { intros. destruct (code_lengths counts) as [|l0 r] eqn:E; [cbn in Ll; lia|].
    exists l0, r. split; auto. split; auto. inversion Hok as [|? ? ? Hb Hr]; subst.
    rewrite assign_codes_spec.
    - rewrite Z.mul_0_l, Z.add_0_l. rewrite kraft_sumW, E. reflexivity.
    - constructor; [lia|auto].
    - lia.
    - split; [lia|]. apply Z.pow_nonneg. lia. }
  split; [|split; [|split]].
  - intros T K. rewrite D by lia. cbn [bind].
    replace (total_codes counts <=? 256) with true by lia. cbn [bind].
    destruct (A T) as [l0 [r [E [I S]]]]. rewrite I. cbn [bind]. rewrite S.
    replace (kraft counts <=? 2 ^ 16) with true by lia. cbn [bind].
    unfold assert_. cbn [bind].
    assert (HI : forall i c, nth_error (codes_al 0 (code_lengths counts)) i = Some c ->
       index (pad_to 256 0 (codes_al 0 (code_lengths counts))) (0 + Z.of_nat i) = Ok c).
    { intros i c N. apply index_Ok. split; [lia|]. replace (Z.to_nat (0 + Z.of_nat i)) with i by lia.
      apply pad_to_nth_error; auto.
      assert (i < length (codes_al 0 (code_lengths counts)))%nat by (apply nth_error_Some; congruence).
      rewrite codes_al_length in H. unfold lenZ in Ll. lia. }
    assert (Al0 : forall l, aligned 0 l) by (intros; exists 0; lia).
    rewrite (offsets_spec counts 1 0 0); auto; try lia. cbn [bind].
    rewrite lens_split in Hok by auto.
    destruct (build_lut_short (short_lens counts) (long_lens counts) 0 0
               (pad_to 256 0 (codes_al 0 (code_lengths counts))) values (repeat (0, 0) 256))
      as [lut [Bl [Lb N]]]; auto; try lia.
    + apply lengths_from_ok. pose proof (firstn_le_length 8 counts). lia.
    + apply lens_short_le8.
    + apply lens_long_gt8.
    + rewrite kraft_sumW, lens_split, sumW_app in K by auto. pose proof (sumW_nonneg (long_lens counts)). lia.
    + rewrite lens_split, lenZ_app in Ll by auto. pose proof (lenZ_nonneg _ (long_lens counts)). lia.
    + intros j c H. apply HI. rewrite lens_split by auto. rewrite codes_al_app.
      rewrite nth_error_app1; auto. apply nth_error_Some. congruence.
    + rewrite <- lens_split in Bl by auto. rewrite Bl. cbn [bind].
      eexists. split; [reflexivity|].
      constructor; auto. split; auto.
      intros x Hx. cbn [t_lut]. rewrite N by auto. rewrite nth_repeat. reflexivity.
  - intros T K. rewrite D by lia. cbn [bind].
    replace (total_codes counts <=? 256) with true by lia. cbn [bind].
    destruct (A T) as [l0 [r [E [I S]]]]. rewrite I. cbn [bind]. rewrite S.
    replace (kraft counts <=? 2 ^ 16) with false by lia. reflexivity.
  - intros T. rewrite D by lia. cbn [bind].
    replace (total_codes counts <=? 256) with true by lia. cbn [bind].
    destruct (code_lengths counts); [reflexivity|]. rewrite lenZ_cons in Ll.
    pose proof (lenZ_nonneg _ l). lia.
  - intros T. unfold debug_assert, assert_. replace (total_codes counts <=? 256) with false by lia.
    destruct dbg; reflexivity.
Qed.

Lemma table_new_of : forall dbg counts values t, counts_ok counts -> lenZ values = total_codes counts ->
  table_new dbg counts values = Ok t -> table_of counts values t.
Proof.
  intros dbg counts values t H Hv E.
  destruct (table_new_spec dbg counts values H Hv) as [S1 [S2 [S3 S4]]].
  pose proof (total_nonneg counts (proj2 H)).
  destruct (Z.eq_dec (total_codes counts) 0) as [Z|NZ]; [rewrite S3 in E; auto; discriminate|].
  destruct (Z_lt_ge_dec 256 (total_codes counts)) as [G|G].
  { rewrite S4 in E; auto. destruct dbg; discriminate. }
  destruct (Z_lt_ge_dec (2 ^ 16) (kraft counts)) as [K|K].
  { rewrite S2 in E; auto; try lia. discriminate. }
  destruct S1 as [t' [E' T]]; try lia. rewrite E' in E. inv E. exact T.
Qed.

(** ** Searching *)
Lemma search_spec : forall dbg t b w values counts l a p pre,
  reader_ok b -> 16 <= bi_count b ->
  Forall is_byte counts -> 9 <= l -> l + Z.of_nat (length counts) = 17 -> aligned a l -> 0 <= a <= w -> 0 <= p ->
  0 <= w < 2 ^ 16 ->
  length pre = Z.to_nat (l - 1) ->
  t_max_code t = map snd (pre ++ off_spec l a p counts) ->
  t_val_offset t = map fst (pre ++ off_spec l a p counts) ->
  t_values t = pad_to 256 0 values -> p + total_codes counts <= 256 ->
  search_code dbg t b w (length counts) (l - 1) =
    match find_seg p a (lengths_from l counts) w with
    | Some (k, s) => let* b' := consume_bits dbg b s in Ok (Some (nth (Z.to_nat k) values 0), b')
    | None => Ok (None, b)
    end.
Proof.
  intros dbg t b w values counts. induction counts as [|n r IH];
    intros l a p pre Hb H16 F Hl H17 Al Ha Hp Hw Hpre Hmax Hoff Hval Htot.
  - reflexivity.
  - cbn [length search_code] in *. inversion F as [|? ? Fn Fr]; subst. unfold is_byte in Fn.
    assert (PW : 0 < W l) by (apply W_pos; lia).
    pose proof (total_nonneg r Fr) as Tr.
    assert (Htot' : total_codes (n :: r) = n + total_codes r) by reflexivity.
    assert (Ix : forall (f : Z * Z -> Z), index (map f (pre ++ off_spec l a p (n :: r))) (l - 1) =
       Ok (f (if n =? 0 then (0, -1) else (p - a / W l, a / W l + n - 1)))).
    { intros f. apply index_Ok. split; [lia|].
      rewrite map_app, nth_error_app2 by (rewrite map_length; lia).
      rewrite map_length, Hpre, Nat.sub_diag. reflexivity. }
    rewrite Hmax, Hoff, !Ix. cbn [bind].
    rewrite Z.shiftr_div_pow2 by lia. replace (15 - (l - 1)) with (16 - l) by lia. fold (W l).
    cbn [lengths_from]. rewrite find_seg_app, find_seg_repeat by lia.
    replace (Z.of_nat (Z.to_nat n)) with n by lia.
    assert (Ea : a / W l * W l = a) by (apply aligned_div; auto; lia).
    destruct (w <? a + n * W l) eqn:E.
    + assert (n <> 0) by nia.
      replace (n =? 0) with false by lia. cbn [snd fst].
      assert (w / W l <= a / W l + n - 1).
      { assert (w / W l < a / W l + n); [|lia]. apply Z.div_lt_upper_bound; nia. }
      replace (w / W l <=? a / W l + n - 1) with true by lia.
      replace (l - 1 + 1) with l by lia.
      assert (Q : w / W l + (p - a / W l) = p + (w - a) / W l).
      { replace (w - a) with (w + (- (a / W l)) * W l) by nia. rewrite Z.div_add by lia. lia. }
      assert (R : 0 <= (w - a) / W l < n).
      { split; [apply Z.div_pos; lia|]. apply Z.div_lt_upper_bound; nia. }
      destruct (consume_bits dbg b l); cbn [bind]; auto.
      rewrite Q, Hval.
      rewrite (index_nth _ _ _ 0) by (unfold lenZ; rewrite pad_to_length; lia).
      cbn [bind]. rewrite pad_to_nth by lia. reflexivity.
    + replace (w / W l <=? snd (if n =? 0 then (0, -1) else (p - a / W l, a / W l + n - 1))) with false.
      2:{ symmetry. apply Z.leb_gt. destruct (n =? 0) eqn:En; cbn [snd].
          - assert (0 <= w / W l) by (apply Z.div_pos; lia). lia.
          - assert (a / W l + n <= w / W l); [|lia]. apply Z.div_le_lower_bound; nia. }
      replace (l - 1 + 1) with (l + 1 - 1) by lia.
      rewrite sumW_repeat. replace (Z.of_nat (Z.to_nat n)) with n by lia.
      assert (Lr : lenZ (repeat l (Z.to_nat n)) = n) by (unfold lenZ; rewrite repeat_length; lia).
      rewrite Lr.
      destruct r as [|n' r']; [reflexivity|].
      cbn [length] in H17.
      apply (IH (l + 1) (a + n * W l) (p + n) (pre ++ [if n =? 0 then (0, -1) else (p - a / W l, a / W l + n - 1)])); auto; try lia.
      * cbn [length]. lia.
      * apply aligned_next; auto. lia.
      * rewrite app_length. cbn [length]. lia.
      * rewrite Hmax, <- app_assoc. reflexivity.
      * rewrite Hoff, <- app_assoc. reflexivity.
Qed.

Lemma off_spec_app : forall c1 c2 l a p, Forall is_byte c1 ->
  off_spec l a p (c1 ++ c2) = off_spec l a p c1 ++
    off_spec (l + lenZ c1) (a + sumW (lengths_from l c1)) (p + lenZ (lengths_from l c1)) c2.
Proof.
  induction c1; intros c2 l a0 p F; cbn [app off_spec lengths_from].
  - unfold lenZ, sumW. cbn. rewrite !Z.add_0_r. reflexivity.
  - inv F. unfold is_byte in H1. rewrite IHc1 by auto. rewrite lenZ_cons, sumW_app, lenZ_app, sumW_repeat.
    assert (Lr : lenZ (repeat l (Z.to_nat a)) = a) by (unfold lenZ; rewrite repeat_length; lia).
    rewrite Lr. replace (Z.of_nat (Z.to_nat a)) with a by lia.
    rewrite !Z.add_assoc. reflexivity.
Qed.

(** Short codes are decided by the high byte of the window. *)
Lemma find_seg_byte : forall ls k a w, lens_ok 1 ls -> Forall (fun l => l <= 8) ls -> aligned a 8 ->
  0 <= w -> find_seg k a ls (256 * (w / 256)) = find_seg k a ls w.
Proof.
  induction ls as [|l r IH]; intros k a w Hok F Al Hw; cbn [find_seg]; auto.
  inversion Hok as [|? ? ? Hb Hr]; subst. inversion F as [|? ? Fl Fr]; subst.
  destruct Al as [q Hq]. assert (E8 : W 8 = 256) by reflexivity. rewrite E8 in Hq.
  assert (EW : exists j, W l = j * 256).
  { exists (2 ^ (8 - l)). unfold W. change 256 with (2 ^ 8). rewrite <- Z.pow_add_r by lia. f_equal. lia. }
  destruct EW as [j Ej].
  rewrite IH; auto.
  - replace ((a <=? 256 * (w / 256)) && (256 * (w / 256) <? a + W l)) with ((a <=? w) && (w <? a + W l)); auto.
    rewrite Ej, Hq. lia.
  - eapply lens_ok_weaken; [|exact Hr]. lia.
  - exists (q + j). rewrite E8. lia.
Qed.

(** The decoding step for any window of sixteen bits. *)
Definition window (b : biter) : Z := of_bits (firstn 16 (pending b)).

Lemma window_bound : forall b, 16 <= bi_count b -> 0 <= window b < 2 ^ 16.
Proof.
  intros. unfold window. pose proof (of_bits_bound (firstn 16 (pending b))).
  rewrite firstn_length_le in H0; [exact H0|]. rewrite pending_length. lia.
Qed.

Lemma peek16 : forall dbg b, reader_ok b -> 16 <= bi_count b -> peek_bits dbg b 16 = Ok (window b).
Proof.
  intros. unfold peek_bits. rewrite peek_raw_spec by (auto; lia). cbn [bind].
  rewrite wrap_id; auto. apply window_bound. auto.
Qed.

Lemma peek8 : forall dbg b, reader_ok b -> 16 <= bi_count b -> peek_bits_u8 dbg b 8 = Ok (window b / 256).
Proof.
  intros dbg b Hb H. unfold peek_bits_u8, debug_assert, assert_.
  assert (X : (if dbg then if 8 <=? 8 then Ok tt else Panic PAssert else Ok tt) = Ok tt) by (destruct dbg; reflexivity).
  rewrite X. cbn [bind]. rewrite peek_raw_spec by (auto; lia). cbn [bind].
  assert (E : window b = of_bits (firstn 8 (pending b)) * 256 + of_bits (firstn 8 (skipn 8 (pending b)))).
  { unfold window. 
    assert (E : firstn 16 (pending b) = firstn 8 (pending b) ++ firstn 8 (skipn 8 (pending b))).
    { rewrite <- (firstn_skipn 8 (pending b)) at 1. rewrite firstn_app, firstn_firstn.
      rewrite firstn_length_le by (rewrite pending_length; lia). reflexivity. }
    rewrite E, of_bits_app. rewrite firstn_length_le by (rewrite skipn_length, pending_length; lia).
    reflexivity. }
  pose proof (of_bits_bound (firstn 8 (pending b))) as B1.
  pose proof (of_bits_bound (firstn 8 (skipn 8 (pending b)))) as B2.
  rewrite firstn_length_le in B1 by (rewrite pending_length; lia).
  rewrite firstn_length_le in B2 by (rewrite skipn_length, pending_length; lia).
  change (2 ^ Z.of_nat 8) with 256 in *.
  rewrite wrap_id by (change (2 ^ 8) with 256; exact B1). f_equal. change (Z.to_nat 8) with 8%nat. lia.
Qed.

Lemma decode_inner_spec : forall dbg counts values t b,
  table_of counts values t -> reader_ok b -> 16 <= bi_count b ->
  decode_inner dbg t b (window b / 256) =
    match find_seg 0 0 (code_lengths counts) (window b) with
    | Some (k, s) => let* b' := consume_bits dbg b s in Ok (Some (nth (Z.to_nat k) values 0), b')
    | None => Ok (None, b)
    end.
Proof.
  intros dbg counts values t b T Hb H16. pose proof (window_bound b H16) as Hw.
  destruct (to_counts _ _ _ T) as [L16 B].
  unfold decode_inner. change (2 ^ 16) with 65536 in Hw.
  rewrite (index_nth _ _ _ (0, 0)) by (unfold lenZ; rewrite (to_lutlen _ _ _ T); lia).
  rewrite (to_lut _ _ _ T) by lia. replace (256 * Z.of_nat (Z.to_nat (window b / 256))) with (256 * (window b / 256)) by lia.
  assert (Hok : lens_ok 1 (short_lens counts)).
  { apply lengths_from_ok. pose proof (firstn_le_length 8 counts). lia. }
  rewrite find_seg_byte; auto; try lia.
  2:{ apply lens_short_le8. }
  2:{ exists 0. lia. }
  rewrite lens_split, find_seg_app by auto.
  destruct (find_seg 0 0 (short_lens counts) (window b)) as [[k s]|] eqn:E.
  - cbn [slot bind]. destruct (find_seg_spec _ _ _ _ _ _ E) as [K N].
    assert (1 <= s).
    { apply nth_error_In in N. pose proof (lens_ok_Forall _ _ Hok) as F. rewrite Forall_forall in F. apply F in N. lia. }
    replace (0 <? s) with true by lia. destruct (consume_bits dbg b s); reflexivity.
  - cbn [slot bind]. change (0 <? 0) with false. cbn iota. rewrite peek16 by auto. cbn [bind].
    apply find_seg_none in E; [|lia].
    assert (Bs : Forall is_byte (firstn 8 counts) /\ Forall is_byte (skipn 8 counts)).
    { apply Forall_app. rewrite firstn_skipn. auto. }
    assert (L8 : length (firstn 8 counts) = 8%nat) by (rewrite firstn_length_le; lia).
    assert (L8' : length (skipn 8 counts) = 8%nat) by (rewrite skipn_length; lia).
    assert (Tt : total_codes counts = lenZ (short_lens counts) + total_codes (skipn 8 counts)).
    { rewrite <- (lengths_from_length counts 1) by auto. fold (code_lengths counts).
      rewrite lens_split, lenZ_app by auto. f_equal. apply lengths_from_length. tauto. }
    pose proof (to_total _ _ _ T).
    replace (search_code dbg t b (window b) 8 LUT_BITS) with
      (search_code dbg t b (window b) (length (skipn 8 counts)) (9 - 1)) by (rewrite L8'; reflexivity).
    apply (search_spec dbg t b (window b) values (skipn 8 counts) 9 (0 + sumW (short_lens counts)) (0 + lenZ (short_lens counts)) (off_spec 1 0 0 (firstn 8 counts))); auto; try tauto; try lia.
    + clear - L8 Bs. rewrite Z.add_0_l. unfold short_lens.
      assert (G : forall cs l, l + Z.of_nat (length cs) <= 9 -> aligned (sumW (lengths_from l cs)) 9).
      { induction cs; intros; cbn [lengths_from]; [exists 0; reflexivity|]. cbn [length] in H.
        rewrite sumW_app, sumW_repeat. destruct (IHcs (l + 1)) as [q ->]; [lia|].
        destruct (W_div l 9) as [j [_ ->]]; [lia|]. exists (Z.of_nat (Z.to_nat a) * j + q). ring. }
      apply G. lia.
    + pose proof (sumW_nonneg (short_lens counts)). lia.
    + pose proof (lenZ_nonneg _ (short_lens counts)). lia.
    + rewrite off_spec_length, L8. reflexivity.
    + rewrite (to_max _ _ _ T). f_equal. rewrite <- (firstn_skipn 8 counts) at 1.
      rewrite off_spec_app by tauto. unfold lenZ at 1. rewrite L8. reflexivity.
    + rewrite (to_off _ _ _ T). f_equal. rewrite <- (firstn_skipn 8 counts) at 1.
      rewrite off_spec_app by tauto. unfold lenZ at 1. rewrite L8. reflexivity.
    + exact (to_values _ _ _ T).
Qed.

(** ** Canonical codes *)
Fixpoint segs (a : Z) (ls : list Z) : list (Z * Z) :=
  match ls with [] => [] | l :: r => (a, l) :: segs (a + W l) r end.
Definition seg_code (s : Z * Z) : list bool := to_bits (Z.to_nat (snd s)) (fst s / W (snd s)).

Lemma segs_app : forall ls ls' a, segs a (ls ++ ls') = segs a ls ++ segs (a + sumW ls) ls'.
Proof.
  induction ls; intros; cbn [app segs].
  - unfold sumW. cbn. rewrite Z.add_0_r. reflexivity.
  - rewrite IHls, sumW_cons, Z.add_assoc. reflexivity.
Qed.

Lemma segs_length : forall ls a, length (segs a ls) = length ls.
Proof. induction ls; intros; cbn [segs length]; auto. Qed.

Lemma list_ext : forall A (l l' : list A), (forall i, nth_error l i = nth_error l' i) -> l = l'.
Proof.
  induction l; intros [|x l'] H; auto.
  - specialize (H 0%nat). discriminate.
  - specialize (H 0%nat). discriminate.
  - pose proof (H 0%nat) as H0. cbn in H0. inv H0. f_equal. apply IHl. intros i. exact (H (S i)).
Qed.

Lemma segs_repeat : forall n l a, l <= 16 -> aligned a l ->
  map seg_code (segs a (repeat l n)) = map (fun j => to_bits (Z.to_nat l) (a / W l + j)) (zrange (Z.of_nat n)).
Proof.
  intros n l a Hl Al. apply list_ext. intros i.
  rewrite !nth_error_map. unfold zrange. rewrite Nat2Z.id. rewrite nth_error_map.
  destruct (Nat.lt_ge_cases i n) as [Hi|Hi].
  - rewrite (nth_error_nth' (seq 0 n) 0%nat) by (rewrite seq_length; lia). rewrite seq_nth by lia.
    cbn [option_map Nat.add].
    assert (G : forall n a i, (i < n)%nat -> nth_error (segs a (repeat l n)) i = Some (a + Z.of_nat i * W l, l)).
    { clear. induction n; intros; [lia|]. cbn [repeat segs]. destruct i; cbn [nth_error].
      - do 2 f_equal. lia.
      - rewrite IHn by lia. do 2 f_equal. lia. }
    rewrite G by lia. cbn [option_map]. unfold seg_code. cbn [fst snd].
    pose proof (W_pos l Hl). rewrite Z.div_add by lia. reflexivity.
  - replace (nth_error (segs a (repeat l n)) i) with (@None (Z * Z)).
    2:{ symmetry. apply nth_error_None. rewrite segs_length, repeat_length. lia. }
    replace (nth_error (seq 0 n) i) with (@None nat).
    2:{ symmetry. apply nth_error_None. rewrite seq_length. lia. }
    reflexivity.
Qed.

Lemma codes_from_segs : forall counts l a, Forall is_byte counts -> 1 <= l -> l + Z.of_nat (length counts) <= 17 ->
  aligned a l ->
  codes_from (Z.to_nat l) (a / W l) counts = map seg_code (segs a (lengths_from l counts)).
Proof.
  induction counts as [|n r IH]; intros l a F Hl H17 Al; cbn [codes_from lengths_from]; auto.
  inv F. unfold is_byte in H1. cbn [length] in H17. rewrite segs_app, map_app, segs_repeat by (auto; lia).
  replace (Z.of_nat (Z.to_nat n)) with n by lia. f_equal.
  rewrite sumW_repeat. replace (Z.of_nat (Z.to_nat n)) with n by lia.
  destruct r as [|n' r']; [reflexivity|]. cbn [length] in H17.
  rewrite <- IH; auto; try (cbn [length]; lia).
  - f_equal; [lia|].
    assert (EW : W l = 2 * W (l + 1)).
    { unfold W. rewrite <- Z.pow_succ_r by lia. f_equal. lia. }
    pose proof (W_pos (l + 1) ltac:(lia)).
    pose proof (aligned_div a l ltac:(lia) Al) as E.
    set (q := a / W l) in *. rewrite <- E, EW.
    replace (q * (2 * W (l + 1)) + n * (2 * W (l + 1))) with (2 * (q + n) * W (l + 1)) by ring.
    rewrite Z.div_mul by lia. reflexivity.
  - apply aligned_next; auto. lia.
Qed.

Lemma canonical_segs : forall counts, counts_ok counts ->
  canonical counts = map seg_code (segs 0 (code_lengths counts)).
Proof.
  intros counts [L B]. unfold canonical, code_lengths. rewrite <- codes_from_segs; auto; try lia.
  exists 0. lia.
Qed.

(** A code is a prefix of a window exactly when the window lies in its segment. *)
Lemma prefix_iff_firstn : forall A (p l : list A), prefix p l <-> firstn (length p) l = p.
Proof.
  intros. split.
  - intros [r ->]. rewrite firstn_app, firstn_all, Nat.sub_diag, firstn_O, app_nil_r. reflexivity.
  - intros E. exists (skipn (length p) l). rewrite <- E at 1. symmetry. apply firstn_skipn.
Qed.

Lemma to_bits_eq_iff : forall n x y, 0 <= x < 2 ^ Z.of_nat n -> 0 <= y < 2 ^ Z.of_nat n ->
  (to_bits n x = to_bits n y <-> x = y).
Proof.
  intros. split; [|congruence]. intros E. apply (f_equal of_bits) in E. rewrite !of_to_bits in E.
  rewrite !Z.mod_small in E by lia. exact E.
Qed.

Lemma seg_prefix : forall a l w, 1 <= l <= 16 -> aligned a l -> 0 <= a -> a + W l <= 2 ^ 16 -> 0 <= w < 2 ^ 16 ->
  (prefix (seg_code (a, l)) (to_bits 16 w) <-> a <= w < a + W l).
Proof.
  intros a l w Hl Al Ha Hs Hw. unfold seg_code. cbn [fst snd].
  pose proof (W_pos l ltac:(lia)) as PW.
  rewrite prefix_iff_firstn, to_bits_length.
  replace 16%nat with (Z.to_nat l + (16 - Z.to_nat l))%nat by lia.
  rewrite to_bits_split, firstn_app, to_bits_length, Nat.sub_diag, firstn_O, app_nil_r.
  rewrite firstn_all2 by (rewrite to_bits_length; lia).
  rewrite Z.shiftr_div_pow2 by lia.
  replace (2 ^ Z.of_nat (16 - Z.to_nat l)) with (W l) by (unfold W; f_equal; lia).
  assert (E16 : 2 ^ 16 = 2 ^ l * W l) by (unfold W; rewrite <- Z.pow_add_r by lia; f_equal; lia).
  rewrite to_bits_eq_iff.
  - pose proof (aligned_div a l ltac:(lia) Al) as E.
    pose proof (Z.div_mod w (W l) ltac:(lia)). pose proof (Z.mod_pos_bound w (W l) PW).
    split; intros H1.
    + nia.
    + assert (w / W l = a / W l); auto. symmetry. apply Z.div_unique with (w - a); nia.
  - replace (Z.of_nat (Z.to_nat l)) with l by lia. split; [apply Z.div_pos; lia|].
    apply Z.div_lt_upper_bound; lia.
  - replace (Z.of_nat (Z.to_nat l)) with l by lia. split; [apply Z.div_pos; lia|].
    apply Z.div_lt_upper_bound; lia.
Qed.

Lemma segs_nth : forall ls a k s, nth_error (segs a ls) k = Some s ->
  s = (a + sumW (firstn k ls), nth k ls 0) /\ (k < length ls)%nat.
Proof.
  induction ls; intros a0 k s H; cbn [segs] in H; [destruct k; discriminate|].
  destruct k; cbn [nth_error firstn nth length] in *.
  - inv H. split; [|lia]. f_equal. unfold sumW. cbn. lia.
  - apply IHls in H. destruct H as [-> H]. split; [|lia]. f_equal. rewrite sumW_cons. lia.
Qed.

(** Bounds of the k-th segment. *)
Lemma seg_bounds : forall counts k s, counts_ok counts -> kraft counts <= 2 ^ 16 ->
  nth_error (segs 0 (code_lengths counts)) k = Some s ->
  1 <= snd s <= 16 /\ aligned (fst s) (snd s) /\ 0 <= fst s /\ fst s + W (snd s) <= 2 ^ 16.
Proof.
  intros counts k s [L B] K H. apply segs_nth in H. destruct H as [-> Hk]. cbn [fst snd].
  assert (Hok : lens_ok 1 (code_lengths counts)) by (apply lengths_from_ok; lia).
  pose proof (lens_ok_Forall _ _ Hok) as F.
  rewrite kraft_sumW in K.
  set (ls := code_lengths counts) in *. clearbody ls.
  assert (N : nth_error ls k = Some (nth k ls 0)) by (apply nth_error_nth'; auto).
  split; [rewrite Forall_forall in F; apply F; eapply nth_error_In; eauto|].
  split.
  - rewrite Z.add_0_l. clear - Hok Hk. revert k Hk.
    assert (G : forall ls lo a k, lens_ok lo ls -> (k < length ls)%nat -> (forall l, lo <= l <= 16 -> aligned a l) ->
       aligned (a + sumW (firstn k ls)) (nth k ls 0)).
    { clear. induction ls; intros lo b k Hok Hk Hal; cbn [length] in Hk; [lia|].
      inversion Hok as [|? ? ? Hb Hr]; subst. destruct k; cbn [firstn nth].
      - unfold sumW. cbn. rewrite Z.add_0_r. apply Hal. lia.
      - rewrite sumW_cons, Z.add_assoc. apply (IHls a); auto; [lia|].
        intros l Hl. apply aligned_le with a; [lia|]. replace (b + W a) with (b + 1 * W a) by lia.
        apply aligned_add. apply Hal. lia. }
    intros k Hk. pose proof (G ls 1 0 k Hok Hk) as G'. rewrite Z.add_0_l in G'. apply G'.
    intros. exists 0. lia.
  - split; [apply sumW_nonneg|].
    assert (E : ls = firstn k ls ++ nth k ls 0 :: skipn (S k) ls).
    { clear - Hk. revert k Hk. induction ls; intros; cbn [length] in *; [lia|]. destruct k; cbn; auto. f_equal. apply IHls. lia. }
    rewrite E in K. rewrite sumW_app, sumW_cons in K. pose proof (sumW_nonneg (skipn (S k) ls)). lia.
Qed.

Lemma find_seg_iff : forall ls k a w j l, Forall (fun l => l <= 16) ls ->
  (find_seg k a ls w = Some (j, l) <->
   exists s, k <= j /\ nth_error (segs a ls) (Z.to_nat (j - k)) = Some s /\ snd s = l /\ fst s <= w < fst s + W l).
Proof.
  induction ls as [|x r IH]; intros k a w j l F; cbn [find_seg segs].
  - split; [discriminate|]. intros [s [_ [H _]]]. destruct (Z.to_nat (j - k)); discriminate.
  - inv F. pose proof (W_pos x H1).
    destruct ((a <=? w) && (w <? a + W x)) eqn:E.
    + split.
      * intros Hs. inv Hs. exists (a, l). replace (Z.to_nat (j - j)) with 0%nat by lia.
        cbn [nth_error fst snd]. repeat split; auto; lia.
      * intros [s [Hj [N [Es Hw]]]]. destruct (Z.to_nat (j - k)) eqn:Ek; cbn [nth_error] in N.
        -- inv N. cbn [snd]. f_equal. f_equal. lia.
        -- apply segs_nth in N. destruct N as [-> N]. cbn [fst] in Hw.
           pose proof (sumW_nonneg (firstn n r)). lia.
    + rewrite IH by auto. split.
      * intros [s [Hj [N [Es Hw]]]]. exists s. replace (Z.to_nat (j - k)) with (S (Z.to_nat (j - (k + 1)))) by lia.
        cbn [nth_error]. repeat split; auto; lia.
      * intros [s [Hj [N [Es Hw]]]]. destruct (Z.to_nat (j - k)) eqn:Ek; cbn [nth_error] in N.
        -- inv N. cbn [fst snd] in *. lia.
        -- exists s. replace (Z.to_nat (j - (k + 1))) with n by lia. repeat split; auto; lia.
Qed.

Lemma code_lens_le16 : forall counts, counts_ok counts -> Forall (fun l => 1 <= l <= 16) (code_lengths counts).
Proof. intros counts [L B]. apply lens_ok_Forall. apply lengths_from_ok. lia. Qed.

Lemma find_seg_code : forall counts w k l, counts_ok counts -> kraft counts <= 2 ^ 16 -> 0 <= w < 2 ^ 16 ->
  (find_seg 0 0 (code_lengths counts) w = Some (k, l) <->
   0 <= k /\ exists c, nth_error (canonical counts) (Z.to_nat k) = Some c /\ length c = Z.to_nat l /\ 1 <= l <= 16 /\
     prefix c (to_bits 16 w)).
Proof.
  intros counts w k l C K Hw.
  assert (F := code_lens_le16 counts C).
  rewrite find_seg_iff by (eapply Forall_impl; [|exact F]; cbn; lia).
  rewrite Z.sub_0_r, canonical_segs by auto. rewrite nth_error_map. split.
  - intros [s [Hk [N [Es Hs]]]]. split; auto. rewrite N. cbn [option_map].
    destruct (seg_bounds _ _ _ C K N) as [B1 [B2 [B3 B4]]]. destruct s as [a l']. cbn [fst snd] in *. subst l'.
    exists (seg_code (a, l)). split; auto. split; [unfold seg_code; cbn [fst snd]; apply to_bits_length|].
    split; auto. apply seg_prefix; auto.
  - intros [Hk [c [N [Lc [Hl P]]]]].
    destruct (nth_error (segs 0 (code_lengths counts)) (Z.to_nat k)) as [[a l']|] eqn:N'; [|discriminate].
    cbn [option_map] in N. inv N.
    destruct (seg_bounds _ _ _ C K N') as [B1 [B2 [B3 B4]]]. cbn [fst snd] in *.
    assert (l' = l).
    { unfold seg_code in Lc. cbn [fst snd] in Lc. rewrite to_bits_length in Lc. lia. }
    subst l'. exists (a, l). cbn [fst snd]. repeat split; auto; apply seg_prefix in P; auto; lia.
Qed.

(** ** The properties *)
Lemma window_bits : forall b, 16 <= bi_count b -> to_bits 16 (window b) = firstn 16 (pending b).
Proof.
  intros. unfold window.
  assert (L : length (firstn 16 (pending b)) = 16%nat) by (rewrite firstn_length_le; [reflexivity|rewrite pending_length; lia]).
  rewrite <- L at 1. apply to_of_bits.
Qed.

(** ensure16 *)
Lemma ensure16_holds : forall tail b bs, marker_tail tail -> holds_at tail b bs ->
  exists b', ensure16 b = (true, b') /\ holds_at tail b' bs /\ 16 <= bi_count b'.
Proof.
  intros tail b bs Hm H. unfold ensure16. destruct (bi_count b <? 16) eqn:E.
  - destruct (fill_bits_holds tail b bs Hm H) as [b' [F [H' [C _]]]]. exists b'. split; auto. split; auto. lia.
  - exists b. split; auto. split; auto. lia.
Qed.

Lemma table_decode_code : forall dbg counts values t tail b bs k c,
  table_of counts values t -> marker_tail tail ->
  nth_error (canonical counts) k = Some c -> holds_at tail b (c ++ bs) ->
  exists b', table_decode dbg t b = Ok (Some (nth k values 0), b') /\ holds_at tail b' bs.
Proof.
  intros dbg counts values t tail b bs k c T Hm N H.
  destruct (ensure16_holds tail b _ Hm H) as [b1 [E [H1 C1]]].
  unfold table_decode. rewrite E. destruct H1 as [W1 D1]. unfold LUT_BITS.
  rewrite peek8 by auto. cbn [bind]. rewrite (decode_inner_spec dbg counts values) by auto.
  assert (C := to_counts _ _ _ T). assert (K := to_kraft _ _ _ T).
  pose proof (window_bound b1 C1) as Hw.
  assert (Lc : 1 <= Z.of_nat (length c) <= 16).
  { rewrite canonical_segs, nth_error_map in N by auto.
    destruct (nth_error (segs 0 (code_lengths counts)) k) as [[a l]|] eqn:N'; [|discriminate]. inv N.
    destruct (seg_bounds _ _ _ C K N') as [B1 _]. unfold seg_code. cbn [fst snd] in *. rewrite to_bits_length. lia. }
  destruct (consume_holds dbg tail b1 c bs) as [b' [E' [H' [C' F']]]].
  { split; auto. }
  { lia. }
  assert (FS : find_seg 0 0 (code_lengths counts) (window b1) = Some (Z.of_nat k, Z.of_nat (length c))).
  { apply find_seg_code; auto. split; [lia|]. exists c. rewrite !Nat2Z.id. repeat split; auto; try lia.
    rewrite window_bits by auto. apply prefix_iff_firstn. rewrite firstn_firstn.
    replace (Nat.min (length c) 16) with (length c) by lia. exact F'. }
  rewrite FS. rewrite E'. cbn [bind]. rewrite Nat2Z.id. eauto.
Qed.

(** Decoding never panics and consumes a code or fails, for every state with buffered bits. *)
Lemma decode_inner_total : forall dbg counts values t b,
  table_of counts values t -> reader_ok b -> 16 <= bi_count b ->
  (exists k c b', nth_error (canonical counts) k = Some c /\ prefix c (pending b) /\
     decode_inner dbg t b (window b / 256) = Ok (Some (nth k values 0), b') /\
     consume_bits dbg b (Z.of_nat (length c)) = Ok b' /\ (1 <= length c <= 16)%nat) \/
  ((forall c, In c (canonical counts) -> ~ prefix c (pending b)) /\
   decode_inner dbg t b (window b / 256) = Ok (None, b)).
Proof.
  intros dbg counts values t b T Hb H16.
  rewrite (decode_inner_spec dbg counts values) by auto.
  assert (C := to_counts _ _ _ T). assert (K := to_kraft _ _ _ T).
  pose proof (window_bound b H16) as Hw.
  destruct (find_seg 0 0 (code_lengths counts) (window b)) as [[k l]|] eqn:E.
  - left. apply find_seg_code in E; auto. destruct E as [Hk [c [N [Lc [Hl P]]]]].
    destruct (consume_bits_spec dbg b l Hb) as [b' [E' _]]; [lia|].
    exists (Z.to_nat k), c, b'. split; auto. rewrite window_bits in P by auto. split.
    + destruct P as [r P]. exists (r ++ skipn 16 (pending b)). rewrite app_assoc, <- P. symmetry. apply firstn_skipn.
    + rewrite E'. cbn [bind]. replace (Z.of_nat (length c)) with l by lia. repeat split; auto; lia.
  - right. split; auto. intros c I P. apply In_nth_error in I. destruct I as [k N].
    assert (Lc : 1 <= Z.of_nat (length c) <= 16).
    { rewrite canonical_segs, nth_error_map in N by auto.
      destruct (nth_error (segs 0 (code_lengths counts)) k) as [[a l]|] eqn:N'; [|discriminate]. inv N.
      destruct (seg_bounds _ _ _ C K N') as [B1 _]. unfold seg_code. cbn [fst snd] in *. rewrite to_bits_length. lia. }
    assert (FS : find_seg 0 0 (code_lengths counts) (window b) = Some (Z.of_nat k, Z.of_nat (length c))).
    { apply find_seg_code; auto. split; [lia|]. exists c. rewrite !Nat2Z.id. repeat split; auto; try lia.
      rewrite window_bits by auto. apply prefix_iff_firstn. rewrite firstn_firstn.
      replace (Nat.min (length c) 16) with (length c) by lia. apply prefix_iff_firstn. exact P. }
    congruence.
Qed.

(** Canonical codes are prefix-free. *)
Lemma canonical_prefix_free : forall counts i j ci cj, counts_ok counts -> kraft counts <= 2 ^ 16 ->
  nth_error (canonical counts) i = Some ci -> nth_error (canonical counts) j = Some cj ->
  prefix ci cj -> i = j.
Proof.
  intros counts i j ci cj C K Ni Nj P.
  rewrite canonical_segs, nth_error_map in Nj by auto.
  destruct (nth_error (segs 0 (code_lengths counts)) j) as [[a l]|] eqn:N'; [|discriminate]. inv Nj.
  destruct (seg_bounds _ _ _ C K N') as [B1 [B2 [B3 B4]]]. cbn [fst snd] in *.
  pose proof (W_pos l ltac:(lia)) as PW.
  assert (Pj : prefix (seg_code (a, l)) (to_bits 16 a)) by (apply seg_prefix; auto; lia).
  assert (Lc : forall k c, nth_error (canonical counts) k = Some c -> 1 <= Z.of_nat (length c) <= 16).
  { intros k c N. rewrite canonical_segs, nth_error_map in N by auto.
    destruct (nth_error (segs 0 (code_lengths counts)) k) as [[a' l']|] eqn:N''; [|discriminate]. inv N.
    destruct (seg_bounds _ _ _ C K N'') as [B1' _]. unfold seg_code. cbn [fst snd] in *. rewrite to_bits_length. lia. }
  assert (Fi : find_seg 0 0 (code_lengths counts) a = Some (Z.of_nat i, Z.of_nat (length ci))).
  { apply find_seg_code; auto; [lia|]. split; [lia|]. exists ci. rewrite !Nat2Z.id. pose proof (Lc _ _ Ni).
    repeat split; auto; try lia. destruct P as [r P], Pj as [r' Pj]. exists (r ++ r'). rewrite Pj, P, app_assoc. reflexivity. }
  assert (Fj : find_seg 0 0 (code_lengths counts) a = Some (Z.of_nat j, l)).
  { apply find_seg_code; auto; [lia|]. split; [lia|]. exists (seg_code (a, l)). rewrite !Nat2Z.id.
    rewrite canonical_segs, nth_error_map, N' by auto. cbn [option_map].
    repeat split; auto; try lia. unfold seg_code. cbn [fst snd]. rewrite to_bits_length. reflexivity. }
  rewrite Fi in Fj. inv Fj. lia.
Qed.
