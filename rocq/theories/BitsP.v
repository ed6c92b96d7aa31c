(** Proofs about the bit reader. *)
From Verif Require Import Base Tactics Biterator SpecBits SpecReader.

(** ** Lists of bits *)
Lemma to_bits_length : forall n x, length (to_bits n x) = n.
Proof. induction n; simpl; intros; auto. Qed.

Lemma to_bits_ext : forall n x y,
  (forall i, 0 <= i < Z.of_nat n -> Z.testbit x i = Z.testbit y i) -> to_bits n x = to_bits n y.
Proof.
  induction n; simpl; intros; auto. f_equal.
  - apply H. lia.
  - apply IHn. intros. apply H. lia.
Qed.

Lemma to_bits_zero : forall n, to_bits n 0 = repeat false n.
Proof. induction n; simpl; auto. rewrite Z.bits_0, IHn. reflexivity. Qed.

(** Splitting off the high bits. *)
Lemma to_bits_split : forall n k x,
  to_bits (n + k) x = to_bits n (Z.shiftr x (Z.of_nat k)) ++ to_bits k x.
Proof.
  induction n; simpl; intros; auto. rewrite IHn. f_equal.
  rewrite Z.shiftr_spec by lia. f_equal. lia.
Qed.

Lemma of_bits_fold : forall bs a,
  fold_left (fun a b => 2 * a + Z.b2z b) bs a = a * 2 ^ Z.of_nat (length bs) + of_bits bs.
Proof.
  induction bs; intros.
  - cbn [fold_left length of_bits]. unfold of_bits. simpl. lia.
  - cbn [fold_left length]. unfold of_bits. cbn [fold_left]. rewrite !IHbs.
    rewrite Nat2Z.inj_succ, Z.pow_succ_r by lia. lia.
Qed.

Lemma of_bits_app : forall a b, of_bits (a ++ b) = of_bits a * 2 ^ Z.of_nat (length b) + of_bits b.
Proof. intros. unfold of_bits at 1. rewrite fold_left_app. apply of_bits_fold. Qed.

Lemma of_bits_cons : forall x b, of_bits (x :: b) = Z.b2z x * 2 ^ Z.of_nat (length b) + of_bits b.
Proof. intros. change (x :: b) with ([x] ++ b). rewrite of_bits_app. f_equal. Qed.

Lemma of_bits_bound : forall bs, 0 <= of_bits bs < 2 ^ Z.of_nat (length bs).
Proof.
  induction bs as [|x bs IH].
  - cbn. lia.
  - rewrite of_bits_cons. cbn [length]. rewrite Nat2Z.inj_succ, Z.pow_succ_r by lia.
    destruct x; cbn [Z.b2z]; lia.
Qed.

Lemma of_to_bits : forall n x, of_bits (to_bits n x) = x mod 2 ^ Z.of_nat n.
Proof.
  induction n; intros.
  - cbn. rewrite Z.mod_1_r. reflexivity.
  - cbn [to_bits]. rewrite of_bits_cons, to_bits_length, IHn.
    rewrite Nat2Z.inj_succ, Z.pow_succ_r by lia.
    rewrite (Z.mul_comm 2), Z.rem_mul_r by lia.
    rewrite Z.testbit_spec' by lia. lia.
Qed.


Lemma to_bits_add_high : forall n x k, to_bits n (x + k * 2 ^ Z.of_nat n) = to_bits n x.
Proof.
  intros. apply to_bits_ext. intros i Hi.
  rewrite <- (Z.mod_pow2_bits_low (x + k * 2 ^ Z.of_nat n) (Z.of_nat n)) by lia.
  rewrite <- (Z.mod_pow2_bits_low x (Z.of_nat n)) by lia.
  rewrite Z.mod_add by lia. reflexivity.
Qed.

Lemma to_of_bits : forall bs, to_bits (length bs) (of_bits bs) = bs.
Proof.
  induction bs as [|x bs IH]; auto.
  cbn [length to_bits]. rewrite of_bits_cons. f_equal.
  - pose proof (of_bits_bound bs).
    assert (E : (Z.b2z x * 2 ^ Z.of_nat (length bs) + of_bits bs) / 2 ^ Z.of_nat (length bs) = Z.b2z x).
    { rewrite Z.add_comm, Z.div_add by lia. rewrite Z.div_small by lia. lia. }
    apply Bool.eq_true_iff_eq. rewrite Z.testbit_true by lia. rewrite E.
    destruct x; cbn; split; intros; auto; discriminate.
  - rewrite Z.add_comm, to_bits_add_high. exact IH.
Qed.

Lemma of_bits_inj : forall a b, length a = length b -> of_bits a = of_bits b -> a = b.
Proof. intros a b L E. rewrite <- (to_of_bits a), <- (to_of_bits b), L, E. reflexivity. Qed.

Lemma bits_of_app : forall a b, bits_of (a ++ b) = bits_of a ++ bits_of b.
Proof. intros. apply flat_map_app. Qed.

Lemma bits_of_length : forall ds, length (bits_of ds) = (8 * length ds)%nat.
Proof. unfold bits_of. induction ds; auto. cbn [flat_map length]. rewrite app_length, to_bits_length, IHds. lia. Qed.

Lemma stuff_app : forall a b, stuff (a ++ b) = stuff a ++ stuff b.
Proof. intros. apply flat_map_app. Qed.

(** A raw suffix of stuffed data is stuffed data again. *)
Lemma stuff_suffix : forall ds n, (n <= length (stuff ds))%nat ->
  exists ds', skipn n (stuff ds) = stuff ds' /\ (bytes ds -> bytes ds').
Proof.
  induction ds as [|d ds IH]; intros n H.
  - exists []. split; auto. destruct n; auto.
  - destruct n; [exists (d :: ds); auto|].
    change (stuff (d :: ds)) with ((if d =? 255 then [255; 0] else [d]) ++ stuff ds) in *.
    destruct (d =? 255) eqn:E; cbn [app length] in *.
    + destruct n.
      * exists (0 :: ds). split; auto. intros B. inv B. constructor; auto. unfold is_byte. lia.
      * destruct (IH n) as [ds' [E1 E2]]; [lia|]. exists ds'. split; auto.
        intros B. inv B. auto.
    + destruct (IH n) as [ds' [E1 E2]]; [lia|]. exists ds'. split; auto.
      intros B. inv B. auto.
Qed.

(** ** Reader states *)
Notation wf := reader_ok (only parsing).

Lemma pending_length : forall b, length (pending b) = Z.to_nat (bi_count b).
Proof. intros. apply to_bits_length. Qed.

Lemma push_byte_spec : forall bits x, 0 <= x < 256 ->
  push_byte bits x = (bits * 256) mod 2 ^ 64 + x.
Proof.
  intros. unfold push_byte, wrap. rewrite Z.shiftl_mul_pow2 by lia. change (2 ^ 8) with 256.
  assert (L : Z.land ((bits * 256) mod 2 ^ 64) x = 0).
  { apply Z.bits_inj'. intros n Hn. rewrite Z.land_spec, Z.bits_0.
    destruct (Z_lt_ge_dec n 8).
    + rewrite Z.mod_pow2_bits_low by lia. change 256 with (2 ^ 8) at 1.
      rewrite Z.mul_pow2_bits_low by lia. reflexivity.
    + replace x with (x mod 2 ^ 8) by (apply Z.mod_small; lia).
      rewrite (Z.mod_pow2_bits_high _ 8) by lia. apply andb_false_r. }
  rewrite (Z.add_nocarry_lxor _ _ L), (Z.lxor_lor _ _ L). reflexivity.
Qed.

Lemma push_byte_range : forall bits x, 0 <= x < 256 -> 0 <= push_byte bits x < 2 ^ 64.
Proof.
  intros. rewrite push_byte_spec by lia.
  pose proof (Z.mod_pos_bound (bits * 256) (2 ^ 64)).
  assert (((bits * 256) mod 2 ^ 64) mod 256 = 0).
  { change (2 ^ 64) with (256 * 2 ^ 56). rewrite (Z.mul_comm 256).
    rewrite (Z.mul_comm bits). rewrite <- (Z.mul_comm 256 (2^56)).
    rewrite Zmult_mod_distr_l. rewrite Z.mul_comm. apply Z.mod_mul. lia. }
  lia.
Qed.

(** Appending a byte to the low [n] bits. *)
Lemma to_bits_shift8 : forall n bits x, (n + 8 <= 64)%nat -> 0 <= x < 256 ->
  to_bits (n + 8) ((bits * 256) mod 2 ^ 64 + x) = to_bits n bits ++ to_bits 8 x.
Proof.
  intros. rewrite to_bits_split. f_equal.
  - apply to_bits_ext. intros i Hi. rewrite Z.shiftr_spec by lia.
    change (Z.of_nat 8) with 8.
    replace (Z.testbit bits i) with (Z.testbit ((bits * 256) mod 2 ^ 64) (i + 8)).
    2:{ rewrite Z.mod_pow2_bits_low by lia. change 256 with (2 ^ 8) at 1.
        rewrite Z.mul_pow2_bits by lia. f_equal. lia. }
    rewrite <- (push_byte_spec bits x) by lia. unfold push_byte. rewrite Z.lor_spec.
    replace (Z.testbit x (i + 8)) with false.
    + rewrite orb_false_r. unfold wrap. rewrite Z.shiftl_mul_pow2 by lia. reflexivity.
    + replace x with (x mod 2 ^ 8) by (apply Z.mod_small; lia).
      rewrite (Z.mod_pow2_bits_high _ 8) by lia. reflexivity.
  - change (2 ^ 64) with (256 * 2 ^ 56). rewrite (Z.mul_comm bits), Zmult_mod_distr_l.
    rewrite Z.add_comm, Z.mul_comm. apply (to_bits_add_high 8).
Qed.

Lemma to_bits_push : forall n bits x, (n + 8 <= 64)%nat -> 0 <= x < 256 ->
  to_bits (n + 8) (push_byte bits x) = to_bits n bits ++ to_bits 8 x.
Proof. intros. rewrite push_byte_spec by lia. apply to_bits_shift8; auto. Qed.

Lemma to_bits_pad1 : forall n bits, (n + 8 <= 64)%nat ->
  to_bits (n + 8) (wrap 64 (Z.shiftl bits 8)) = to_bits n bits ++ repeat false 8.
Proof.
  intros. unfold wrap. rewrite Z.shiftl_mul_pow2 by lia.
  rewrite <- (Z.add_0_r ((bits * 2 ^ 8) mod 2 ^ 64)).
  change (2 ^ 8) with 256. rewrite to_bits_shift8 by lia. rewrite (to_bits_zero 8). reflexivity.
Qed.

Lemma clear_low_byte_spec : forall bits, 0 <= bits < 2 ^ 64 ->
  clear_low_byte bits = bits - bits mod 256.
Proof.
  intros. unfold clear_low_byte.
  change (Z.lxor (2 ^ 64 - 1) 255) with (Z.shiftl (Z.ones 56) 8).
  replace (bits - bits mod 256) with (Z.shiftl (Z.shiftr bits 8) 8).
  2:{ rewrite Z.shiftl_mul_pow2, Z.shiftr_div_pow2 by lia. lia. }
  apply Z.bits_inj'. intros n Hn. rewrite Z.land_spec.
  destruct (Z_lt_ge_dec n 8).
  - rewrite !Z.shiftl_spec_low by lia. apply andb_false_r.
  - rewrite !Z.shiftl_spec_high by lia. rewrite Z.shiftr_spec by lia.
    replace (n - 8 + 8) with n by lia.
    destruct (Z_lt_ge_dec n 64).
    + rewrite Z.ones_spec_low by lia. apply andb_true_r.
    + replace bits with (bits mod 2 ^ 64) by (apply Z.mod_small; lia).
      rewrite (Z.mod_pow2_bits_high _ 64) by lia. reflexivity.
Qed.

Lemma to_bits_clear : forall n bits x, (n + 8 <= 64)%nat -> 0 <= x < 256 ->
  to_bits (n + 8) (clear_low_byte (push_byte bits x)) = to_bits n bits ++ repeat false 8.
Proof.
  intros. pose proof (push_byte_range bits x H0).
  rewrite clear_low_byte_spec by lia. rewrite push_byte_spec by lia.
  assert (M : ((bits * 256) mod 2 ^ 64) mod 256 = 0).
  { change (2 ^ 64) with (256 * 2 ^ 56). rewrite (Z.mul_comm bits), Zmult_mod_distr_l.
    rewrite Z.mul_comm. apply Z.mod_mul. lia. }
  replace ((bits * 256) mod 2 ^ 64 + x - ((bits * 256) mod 2 ^ 64 + x) mod 256)
    with ((bits * 256) mod 2 ^ 64 + 0).
  - rewrite to_bits_shift8 by lia. rewrite (to_bits_zero 8). reflexivity.
  - rewrite Z.add_mod, M by lia. rewrite Z.add_0_l, Z.mod_mod by lia.
    rewrite (Z.mod_small x) by lia. lia.
Qed.

Lemma repeat_plus : forall A (x : A) n m, repeat x n ++ repeat x m = repeat x (n + m).
Proof. intros. symmetry. apply repeat_app. Qed.

Lemma pad_zeros_spec : forall fuel bits count bits' count',
  0 <= count <= 64 -> 0 <= bits < 2 ^ 64 -> 56 - count < 8 * Z.of_nat fuel ->
  pad_zeros fuel bits count = (bits', count') ->
  57 <= count' <= 64 /\ count <= count' /\ (count' - count) mod 8 = 0 /\ 0 <= bits' < 2 ^ 64 /\
  exists k, to_bits (Z.to_nat count') bits' = to_bits (Z.to_nat count) bits ++ repeat false k.
Proof.
  induction fuel; intros bits count bits' count' Hc Hb Hf H; cbn [pad_zeros] in H.
  - inv H. repeat split; try lia. exists 0%nat. rewrite app_nil_r. reflexivity.
  - destruct (count <=? 56) eqn:E.
    + apply IHfuel in H; try lia.
      2:{ unfold wrap. apply Z.mod_pos_bound. lia. }
      destruct H as [H1 [H2 [H5 [H3 [k H4]]]]]. repeat split; try lia.
      exists (8 + k)%nat. rewrite H4.
      replace (Z.to_nat (count + 8)) with (Z.to_nat count + 8)%nat by lia.
      rewrite to_bits_pad1 by lia. rewrite <- app_assoc, repeat_plus. reflexivity.
    + inv H. repeat split; try lia. exists 0%nat. rewrite app_nil_r. reflexivity.
Qed.

Lemma skip_bytes_spec : forall n l, (n <= length l)%nat -> skip_bytes n l = Some (skipn n l).
Proof. induction n; destruct l; simpl; intros; auto; try lia. apply IHn. lia. Qed.

Lemma skip_bytes_none : forall n l, (length l < n)%nat -> skip_bytes n l = None.
Proof. induction n; destruct l; simpl; intros; auto; try lia. apply IHn. lia. Qed.

(** The refill loop on stuffed data followed by a marker.  [done] is the raw input read
    since the checkpoint, [k] the number of data bytes it holds. *)
Lemma fill_loop_marker : forall ds tail done k cp_count bits count,
  bytes ds -> marker_tail tail ->
  0 <= cp_count -> count = cp_count + 8 * Z.of_nat k -> count <= 64 -> 0 <= bits < 2 ^ 64 ->
  (k <= length done)%nat ->
  exists b', fill_loop (done ++ stuff ds ++ tail) cp_count (stuff ds ++ tail) bits count = (true, b') /\
    wf b' /\ 57 <= bi_count b' /\ (bi_count b' - count) mod 8 = 0 /\
    ((exists ds1 ds2, ds = ds1 ++ ds2 /\ pending b' = to_bits (Z.to_nat count) bits ++ bits_of ds1 /\
        bi_input b' = stuff ds2 ++ tail) \/
     (exists z, pending b' = to_bits (Z.to_nat count) bits ++ bits_of ds ++ repeat false z /\
        bi_input b' = skipn (k + length ds) (done ++ stuff ds ++ tail) /\ count + 8 * Z.of_nat (length ds) <= 56)).
Proof.
  induction ds as [|x ds IH]; intros tail done k cp bits count Hds Hm Hcp Hc Hc64 Hb Hk.
  - destruct Hm as [m [r [-> Hm]]]. cbn [stuff flat_map app]. cbn [fill_loop].
    destruct (count <=? 56) eqn:E.
    + change (255 =? 255) with true. cbn iota.
      destruct (m =? 0) eqn:Em; [lia|].
      unfold reskip.
      replace (Z.to_nat ((count + 8 - 8 - cp + 7) / 8)) with k by lia.
      rewrite skip_bytes_spec by (rewrite app_length; lia).
      destruct (pad_zeros 8 (clear_low_byte (push_byte bits 255)) (count + 8)) as [bits' count'] eqn:P.
      assert (Hr : 0 <= push_byte bits 255 < 2 ^ 64) by (apply push_byte_range; lia).
      apply pad_zeros_spec in P; try lia.
      2:{ rewrite clear_low_byte_spec by lia. lia. }
      destruct P as [P1 [P2 [P5 [P3 [z P4]]]]].
      eexists. split; [reflexivity|]. split; [split; simpl; lia|]. split; [simpl; lia|].
      split; [simpl; lia|]. right. exists (8 + z)%nat.
      unfold pending. cbn [bi_count bi_bits bi_input].
      split; [|split].
      * rewrite P4. replace (Z.to_nat (count + 8)) with (Z.to_nat count + 8)%nat by lia.
        rewrite to_bits_clear by lia. rewrite <- app_assoc, repeat_plus. reflexivity.
      * cbn [length]. rewrite Nat.add_0_r. reflexivity.
      * cbn [length]. lia.
    + eexists. split; [reflexivity|]. split; [split; simpl; lia|]. split; [simpl; lia|].
      split; [simpl; lia|]. left. exists [], []. repeat split. unfold pending. cbn [bi_count bi_bits].
      rewrite app_nil_r. reflexivity.
  - inversion Hds as [|? ? Hx Hds']; subst x0 l.
    destruct (count <=? 56) eqn:E.
    + assert (Hr : 0 <= push_byte bits x < 2 ^ 64) by (apply push_byte_range; unfold is_byte in Hx; lia).
      change (stuff (x :: ds)) with ((if x =? 255 then [255; 0] else [x]) ++ stuff ds).
      destruct (x =? 255) eqn:Ex.
      * assert (x = 255) by lia. subst x.
        cbn [app fill_loop]. rewrite E. change (255 =? 255) with true. change (0 =? 0) with true. cbn iota.
        specialize (IH tail (done ++ [255; 0]) (S k) cp (push_byte bits 255) (count + 8) Hds' Hm Hcp).
        rewrite <- app_assoc in IH. cbn [app] in IH.
        destruct IH as [b' [F [W [C [M D]]]]]; try lia.
        { rewrite app_length. simpl. lia. }
        exists b'. split; [exact F|]. split; [exact W|]. split; [exact C|]. split; [lia|].
        replace (Z.to_nat (count + 8)) with (Z.to_nat count + 8)%nat in D by lia.
        rewrite to_bits_push in D by lia.
        destruct D as [[ds1 [ds2 [D1 [D2 D3]]]]|[z [D2 [D3 D4]]]].
        -- left. exists (255 :: ds1), ds2. split; [rewrite D1; reflexivity|]. split; auto.
           rewrite D2, <- app_assoc. reflexivity.
        -- right. exists z. split; [|split].
           ++ rewrite D2, <- !app_assoc. reflexivity.
           ++ rewrite D3. cbn [length]. f_equal. lia.
           ++ cbn [length]. lia.
      * cbn [app fill_loop]. rewrite E, Ex.
        specialize (IH tail (done ++ [x]) (S k) cp (push_byte bits x) (count + 8) Hds' Hm Hcp).
        rewrite <- app_assoc in IH. cbn [app] in IH.
        destruct IH as [b' [F [W [C [M D]]]]]; try lia.
        { rewrite app_length. simpl. lia. }
        exists b'. split; [exact F|]. split; [exact W|]. split; [exact C|]. split; [lia|].
        replace (Z.to_nat (count + 8)) with (Z.to_nat count + 8)%nat in D by lia.
        rewrite to_bits_push in D by (unfold is_byte in Hx; lia).
        destruct D as [[ds1 [ds2 [D1 [D2 D3]]]]|[z [D2 [D3 D4]]]].
        -- left. exists (x :: ds1), ds2. split; [rewrite D1; reflexivity|]. split; auto.
           rewrite D2, <- app_assoc. reflexivity.
        -- right. exists z. split; [|split].
           ++ rewrite D2, <- !app_assoc. reflexivity.
           ++ rewrite D3. cbn [length]. f_equal. lia.
           ++ cbn [length]. lia.
    + assert (S : forall l, fill_loop (done ++ l) cp l bits count = (true, mkBiter l bits count)).
      { intros l. destruct l; cbn [fill_loop]; rewrite E; reflexivity. }
      rewrite S. eexists. split; [reflexivity|]. split; [split; simpl; lia|]. split; [simpl; lia|].
      split; [simpl; lia|]. left. exists [], (x :: ds). repeat split. unfold pending. cbn [bi_count bi_bits].
      rewrite app_nil_r. reflexivity.
Qed.

Lemma stuff_length : forall ds, (length ds <= length (stuff ds))%nat.
Proof.
  induction ds as [|x ds IH]; auto.
  change (stuff (x :: ds)) with ((if x =? 255 then [255; 0] else [x]) ++ stuff ds).
  rewrite app_length. destruct (x =? 255); simpl; lia.
Qed.

Lemma clean_suffix : forall a b, clean_end (a ++ b) -> clean_end b.
Proof.
  intros a b H. unfold clean_end in *. rewrite skipn_app, app_length in H. apply Forall_app in H. destruct H as [_ H].
  rewrite Forall_forall in *. intros x I. apply H.
  destruct (Nat.le_gt_cases (length b) 7) as [L|L].
  - replace (length a + length b - 7 - length a)%nat with 0%nat by lia. replace (length b - 7)%nat with 0%nat in I by lia. exact I.
  - replace (length a + length b - 7 - length a)%nat with (length b - 7)%nat by lia. exact I.
Qed.
Lemma clean_short : forall ds, (length ds <= 7)%nat -> clean_end ds -> Forall (fun d => d <> 255) ds.
Proof. intros ds L H. unfold clean_end in H. replace (length ds - 7)%nat with 0%nat in H by lia. exact H. Qed.
Lemma clean_all : forall ds, Forall (fun d => d <> 255) ds -> clean_end ds.
Proof.
  intros ds H. unfold clean_end. rewrite <- (firstn_skipn (length ds - 7) ds) in H. apply Forall_app in H. apply H.
Qed.
Lemma stuff_plain : forall ds, Forall (fun d => d <> 255) ds -> stuff ds = ds.
Proof.
  induction ds as [|d ds IH]; intros H; auto. inv H.
  change (stuff (d :: ds)) with ((if d =? 255 then [255; 0] else [d]) ++ stuff ds).
  replace (d =? 255) with false by lia. rewrite IH; auto.
Qed.

(** Refilling keeps the stream and stays before the marker. *)
Lemma fill_bits_holds : forall tail b bs,
  marker_tail tail -> holds_at tail b bs ->
  exists b', fill_bits b = (true, b') /\ holds_at tail b' bs /\ 57 <= bi_count b' /\
    prefix (pending b) (pending b') /\ (bi_count b' - bi_count b) mod 8 = 0.
Proof.
  intros tail b bs Hm [[Hc Hb] [ds [Hds [Hi [z0 [Hz Hp]]]]]].
  unfold fill_bits. rewrite Hi.
  destruct (fill_loop_marker ds tail [] 0 (bi_count b) (bi_bits b) (bi_count b))
    as [b' [F [W [C [M D]]]]]; auto; try lia.
  cbn [app] in F. exists b'. split; [exact F|].
  fold (pending b) in D.
  destruct D as [[ds1 [ds2 [D1 [D2 D3]]]]|[z [D2 [D3 D4]]]].
  - split; [|split; [lia|split; auto]].
    + split; auto. exists ds2. split; [subst ds; apply Forall_app in Hds; tauto|].
      split; auto. exists z0. split; [destruct Hz as [Hz|Hz]; [left; exact Hz|right; rewrite D1 in Hz; apply clean_suffix in Hz; exact Hz]|].
      rewrite D2, <- app_assoc. rewrite (app_assoc (bits_of ds1)), <- bits_of_app, <- D1. exact Hp.
    + rewrite D2. eexists. reflexivity.
  - split; [|split; [lia|split; auto]].
    + split; auto. cbn [app] in D3. destruct Hz as [Hz|Hz].
      * subst z0. cbn [repeat] in Hp. rewrite app_nil_r in Hp. rewrite skipn_app in D3.
        replace (0 + length ds - length (stuff ds))%nat with 0%nat in D3
          by (pose proof (stuff_length ds); lia).
        cbn [skipn Nat.add] in D3.
        destruct (stuff_suffix ds (length ds) (stuff_length ds)) as [ds' [S1 S2]].
        exists ds'. split; [auto|]. split; [rewrite D3, S1; reflexivity|].
        exists 0%nat. split; [left; reflexivity|].
        destruct Hp as [r Hp]. rewrite D2.
        exists (r ++ repeat false z ++ bits_of ds').
        cbn [repeat]. rewrite app_nil_r, <- !app_assoc. rewrite (app_assoc (pending b)). rewrite Hp. rewrite <- !app_assoc. reflexivity.
      * rewrite stuff_plain in D3 by (apply clean_short; [lia|exact Hz]).
        cbn [Nat.add] in D3. rewrite skipn_app, skipn_all, Nat.sub_diag in D3. cbn [app skipn] in D3.
        exists []. split; [constructor|]. split; [exact D3|]. exists z0. split; [right; constructor|].
        destruct Hp as [r Hp]. exists (r ++ repeat false z). rewrite D2. cbn [bits_of flat_map app].
        rewrite (app_assoc bs r), <- Hp, <- !app_assoc. do 2 f_equal. rewrite !repeat_plus. f_equal. lia.
    + rewrite D2. eexists. reflexivity.
Qed.

(** Peeking and consuming from the buffer. *)
Lemma pending_firstn : forall b n, wf b -> (n <= Z.to_nat (bi_count b))%nat ->
  firstn n (pending b) = to_bits n (Z.shiftr (bi_bits b) (bi_count b - Z.of_nat n)).
Proof.
  intros b n [W _] H. unfold pending.
  replace (Z.to_nat (bi_count b)) with (n + (Z.to_nat (bi_count b) - n))%nat by lia.
  rewrite to_bits_split, firstn_app, to_bits_length.
  replace (n - n)%nat with 0%nat by lia. rewrite firstn_O, app_nil_r.
  rewrite firstn_all2 by (rewrite to_bits_length; lia).
  f_equal. f_equal. lia.
Qed.

Lemma pending_skipn : forall b n, wf b -> (n <= Z.to_nat (bi_count b))%nat ->
  skipn n (pending b) = to_bits (Z.to_nat (bi_count b) - n) (bi_bits b).
Proof.
  intros b n [W _] H. unfold pending.
  replace (Z.to_nat (bi_count b)) with (n + (Z.to_nat (bi_count b) - n))%nat at 1 by lia.
  rewrite to_bits_split, skipn_app, to_bits_length.
  replace (n - n)%nat with 0%nat by lia. cbn [skipn].
  rewrite skipn_all2 by (rewrite to_bits_length; lia). reflexivity.
Qed.

Lemma peek_raw_spec : forall dbg b n, wf b -> 0 < n <= bi_count b ->
  peek_raw dbg b n = Ok (of_bits (firstn (Z.to_nat n) (pending b))).
Proof.
  intros dbg b n W H. rewrite pending_firstn by (auto; lia). rewrite of_to_bits.
  replace (Z.of_nat (Z.to_nat n)) with n by lia.
  destruct W as [W _].
  unfold peek_raw, debug_assert, usub, assert_.
  replace (n <=? bi_count b) with true by lia.
  replace (bi_count b <? n) with false by lia.
  assert (E : (if dbg then Ok tt else Ok tt) = Ok tt) by (destruct dbg; reflexivity).
  rewrite E. cbn [bind]. replace (64 <=? bi_count b - n) with false by lia. cbn [bind].
  f_equal. rewrite Z.shiftl_1_l.
  replace (2 ^ n - 1) with (Z.ones n) by (rewrite Z.ones_equiv; lia).
  rewrite Z.land_ones by lia. reflexivity.
Qed.

Lemma consume_bits_spec : forall dbg b n, wf b -> 0 <= n <= bi_count b ->
  exists b', consume_bits dbg b n = Ok b' /\ wf b' /\ bi_count b' = bi_count b - n /\
    bi_input b' = bi_input b /\ bi_bits b' = bi_bits b /\
    pending b' = skipn (Z.to_nat n) (pending b).
Proof.
  intros dbg b n W H. unfold consume_bits, debug_assert, assert_, usub.
  replace (n <=? bi_count b) with true by lia.
  replace (bi_count b <? n) with false by lia.
  assert (E : (if dbg then Ok tt else Ok tt) = Ok tt) by (destruct dbg; reflexivity).
  rewrite E. cbn [bind]. eexists. split; [reflexivity|].
  rewrite pending_skipn by (auto; lia). destruct W as [W1 W2].
  repeat split; simpl; try lia. unfold pending. cbn [bi_count bi_bits]. f_equal. lia.
Qed.

Lemma prefix_app_skip : forall A (v bs l : list A),
  prefix (v ++ bs) l -> prefix bs (skipn (length v) l).
Proof. intros A v bs l [r ->]. exists r. rewrite <- app_assoc, skipn_app, skipn_all. rewrite Nat.sub_diag. reflexivity. Qed.

Lemma prefix_app_first : forall A (v bs l : list A),
  prefix (v ++ bs) l -> firstn (length v) l = v.
Proof. intros A v bs l [r ->]. rewrite <- app_assoc, firstn_app, firstn_all, Nat.sub_diag, firstn_O, app_nil_r. reflexivity. Qed.

(** Consuming the first [length v] bits of the stream, all of them buffered. *)
Lemma consume_holds : forall dbg tail b v bs,
  holds_at tail b (v ++ bs) -> (length v <= Z.to_nat (bi_count b))%nat ->
  exists b', consume_bits dbg b (Z.of_nat (length v)) = Ok b' /\ holds_at tail b' bs /\
    bi_count b' = bi_count b - Z.of_nat (length v) /\ firstn (length v) (pending b) = v.
Proof.
  intros dbg tail b v bs [W [ds [Hds [Hi [z [Hz Hp]]]]]] L.
  destruct (consume_bits_spec dbg b (Z.of_nat (length v)) W) as [b' [E [W' [C [I [B P]]]]]].
  { destruct W as [W _]. lia. }
  exists b'. split; auto. rewrite Nat2Z.id in P.
  assert (PL := pending_length b).
  split; [|split; auto].
  - split; auto. exists ds. split; auto. split; [congruence|]. exists z. split; [exact Hz|].
    rewrite P. apply prefix_app_skip in Hp. rewrite skipn_app in Hp.
    replace (length v - length (pending b))%nat with 0%nat in Hp by lia. exact Hp.
  - apply prefix_app_first in Hp. rewrite firstn_app in Hp.
    replace (length v - length (pending b))%nat with 0%nat in Hp by lia.
    rewrite firstn_O, app_nil_r in Hp. exact Hp.
Qed.

Lemma next_bits_holds : forall dbg tail b v bs,
  marker_tail tail -> holds_at tail b (v ++ bs) -> (0 < length v <= 16)%nat ->
  exists b', next_bits dbg b (Z.of_nat (length v)) = Ok (Some (of_bits v), b') /\
    holds_at tail b' bs.
Proof.
  intros dbg tail b v bs Hm H L. unfold next_bits.
  assert (X : exists b1, (if bi_count b <? Z.of_nat (length v) then fill_bits b else (true, b)) = (true, b1) /\
    holds_at tail b1 (v ++ bs) /\ Z.of_nat (length v) <= bi_count b1).
  { destruct (bi_count b <? Z.of_nat (length v)) eqn:E.
    - destruct (fill_bits_holds tail b _ Hm H) as [b' [F [H' [C _]]]]. exists b'. split; auto. split; auto. lia.
    - exists b. split; auto. split; auto. lia. }
  destruct X as [b1 [-> [H1 C1]]].
  destruct (consume_holds dbg tail b1 v bs H1) as [b' [E [H' [C' F]]]]; [lia|].
  unfold peek_bits. rewrite peek_raw_spec.
  2:{ destruct H1; auto. }
  2:{ lia. }
  cbn [bind]. rewrite E. cbn [bind]. exists b'. split; auto.
  rewrite Nat2Z.id, F. rewrite wrap_id; auto.
  pose proof (of_bits_bound v). split; [lia|].
  apply Z.lt_le_trans with (2 ^ Z.of_nat (length v)); [lia|]. apply Z.pow_le_mono_r; lia.
Qed.
