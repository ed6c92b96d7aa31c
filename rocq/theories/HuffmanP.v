(** Proofs about Huffman tables. *)
From Verif Require Import Base Tactics Biterator SpecBits SpecReader Readers BitsP ReadersP Huffman SpecHuffman.

(** ** Left-aligned codes *)
Definition W (l : Z) : Z := 2 ^ (16 - l).
Definition sumW (ls : list Z) : Z := fold_right Z.add 0 (map W ls).

Lemma sumW_cons : forall l r, sumW (l :: r) = W l + sumW r. Proof. reflexivity. Qed.
Lemma sumW_app : forall a b, sumW (a ++ b) = sumW a + sumW b.
Proof. induction a; intros; cbn [app]; auto. rewrite !sumW_cons, IHa. lia. Qed.
Lemma sumW_repeat : forall n l, sumW (repeat l n) = Z.of_nat n * W l.
Proof. induction n; intros; cbn [repeat]; auto. rewrite sumW_cons, IHn. lia. Qed.
Lemma W_pos : forall l, l <= 16 -> 0 < W l.
Proof. intros. unfold W. apply Z.pow_pos_nonneg; lia. Qed.
Lemma sumW_nonneg : forall ls, 0 <= sumW ls.
Proof.
  induction ls; [reflexivity|]. rewrite sumW_cons. unfold W.
  pose proof (Z.pow_nonneg 2 (16 - a)). lia.
Qed.

Lemma W_div : forall l l', l <= l' <= 16 -> exists k, 0 < k /\ W l = k * W l'.
Proof.
  intros. exists (2 ^ (l' - l)). split.
  - apply Z.pow_pos_nonneg; lia.
  - unfold W. rewrite <- Z.pow_add_r by lia. f_equal. lia.
Qed.

(** Lengths in non-decreasing order from [lo] on, at most 16. *)
Inductive lens_ok : Z -> list Z -> Prop :=
| lo_nil : forall lo, lens_ok lo []
| lo_cons : forall lo l r, lo <= l <= 16 -> lens_ok l r -> lens_ok lo (l :: r).

Lemma lens_ok_weaken : forall lo lo' ls, lo' <= lo -> lens_ok lo ls -> lens_ok lo' ls.
Proof. intros. inv H0; constructor; auto. lia. Qed.

Lemma lens_ok_repeat : forall n l r, l <= 16 -> lens_ok l r -> lens_ok l (repeat l n ++ r).
Proof. induction n; intros; cbn [repeat app]; auto. constructor; [lia|]. apply IHn; auto. Qed.

Lemma lengths_from_ok : forall counts l, l + Z.of_nat (length counts) <= 17 ->
  lens_ok l (lengths_from l counts).
Proof.
  induction counts; intros; cbn [lengths_from]; [constructor|].
  cbn [length] in H.
  apply lens_ok_repeat; [lia|]. apply lens_ok_weaken with (l + 1); [lia|]. apply IHcounts. lia.
Qed.

Lemma lens_ok_Forall : forall lo ls, lens_ok lo ls -> Forall (fun l => lo <= l <= 16) ls.
Proof.
  induction 1; constructor; auto.
  eapply Forall_impl; [|exact IHlens_ok]. cbn. intros. lia.
Qed.

(** Aligned: [a] is a multiple of the width of every length from [l] on. *)
Definition aligned (a l : Z) : Prop := exists k, a = k * W l.

Lemma aligned_le : forall a l l', l <= l' <= 16 -> aligned a l -> aligned a l'.
Proof.
  intros a l l' H [k ->]. destruct (W_div l l' H) as [j [Hj ->]]. exists (k * j). ring.
Qed.
Lemma aligned_add : forall a l n, aligned a l -> aligned (a + n * W l) l.
Proof. intros a l n [k ->]. exists (k + n). ring. Qed.
Lemma aligned_div : forall a l, l <= 16 -> aligned a l -> a / W l * W l = a.
Proof. intros a l H [k ->]. pose proof (W_pos l H). rewrite Z.div_mul by lia. reflexivity. Qed.

(** ** Code assignment *)
Fixpoint codes_al (a : Z) (ls : list Z) : list Z :=
  match ls with
  | [] => []
  | l :: r => a / W l :: codes_al (a + W l) r
  end.

Lemma codes_al_length : forall ls a, length (codes_al a ls) = length ls.
Proof. induction ls; intros; cbn [codes_al length]; auto. Qed.

Lemma codes_al_app : forall a ls ls', codes_al a (ls ++ ls') = codes_al a ls ++ codes_al (a + sumW ls) ls'.
Proof.
  intros a ls. revert a. induction ls; intros; cbn [app codes_al].
  - unfold sumW. simpl. rewrite Z.add_0_r. reflexivity.
  - rewrite IHls, sumW_cons, Z.add_assoc. reflexivity.
Qed.

Lemma shift_code_spec : forall n code, 0 <= code -> code * 2 ^ Z.of_nat n < 2 ^ 32 ->
  shift_code n code = code * 2 ^ Z.of_nat n.
Proof.
  induction n; intros code H0 H; cbn [shift_code].
  - rewrite Z.mul_1_r. reflexivity.
  - rewrite Nat2Z.inj_succ, Z.pow_succ_r in * by lia.
    pose proof (Z.pow_pos_nonneg 2 (Z.of_nat n)).
    assert (code * 2 < 2 ^ 32) by nia.
    rewrite Z.shiftl_mul_pow2 by lia. change (2 ^ 1) with 2. rewrite wrap_id by lia.
    rewrite IHn by nia. ring.
Qed.

Lemma assign_codes_spec : forall ls code cs,
  lens_ok cs ls -> 0 <= cs <= 16 -> 0 <= code <= 2 ^ cs ->
  assign_codes ls code cs =
    if code * W cs + sumW ls <=? 2 ^ 16 then Ok (codes_al (code * W cs) ls) else Fail EHuffCode.
Proof.
  induction ls as [|l r IH]; intros code cs Hl Hcs Hc; cbn [assign_codes codes_al].
  - assert (code * W cs <= 2 ^ 16).
    { unfold W. replace (2 ^ 16) with (2 ^ cs * 2 ^ (16 - cs)).
      - pose proof (Z.pow_pos_nonneg 2 (16 - cs)). nia.
      - rewrite <- Z.pow_add_r by lia. f_equal. lia. }
    unfold sumW. cbn [map fold_right].
    replace (code * W cs + 0 <=? 2 ^ 16) with true by lia. reflexivity.
  - inversion Hl as [|? ? ? Hb Hr]; subst.
    assert (E16 : 2 ^ 16 = 2 ^ l * W l) by (unfold W; rewrite <- Z.pow_add_r by lia; f_equal; lia).
    assert (Ecs : 2 ^ l = 2 ^ cs * 2 ^ (l - cs)) by (rewrite <- Z.pow_add_r by lia; f_equal; lia).
    assert (EW : W cs = 2 ^ (l - cs) * W l) by (unfold W; rewrite <- Z.pow_add_r by lia; f_equal; lia).
    assert (Pd : 0 < 2 ^ (l - cs)) by (apply Z.pow_pos_nonneg; lia).
    assert (PW : 0 < W l) by (apply W_pos; lia).
    assert (P16 : 2 ^ l <= 2 ^ 16) by (apply Z.pow_le_mono_r; lia).
    assert (L : code * 2 ^ (l - cs) <= 2 ^ l) by (rewrite Ecs; nia).
    rewrite shift_code_spec.
    2:{ lia. }
    2:{ replace (Z.of_nat (Z.to_nat (l - cs))) with (l - cs) by lia.
        change (2 ^ 32) with (2 ^ 16 * 2 ^ 16). change (2 ^ 16) with 65536 in *. lia. }
    replace (Z.of_nat (Z.to_nat (l - cs))) with (l - cs) by lia.
    replace (Z.max cs l) with l by lia.
    set (c := code * 2 ^ (l - cs)) in *.
    assert (Ec : code * W cs = c * W l) by (unfold c; rewrite EW; ring).
    rewrite Ec, sumW_cons.
    destruct (2 ^ l <=? c) eqn:E.
    + assert (c = 2 ^ l) by lia.
      pose proof (sumW_nonneg r).
      replace (c * W l + (W l + sumW r) <=? 2 ^ 16) with false; [reflexivity|].
      symmetry. apply Z.leb_gt. rewrite E16. subst c. rewrite H. lia.
    + rewrite IH; auto; try lia.
      replace ((c + 1) * W l) with (c * W l + W l) by ring.
      replace (c * W l + W l + sumW r) with (c * W l + (W l + sumW r)) by ring.
      destruct (c * W l + (W l + sumW r) <=? 2 ^ 16); [|reflexivity].
      cbn [bind]. rewrite wrap_id by (unfold c in *; lia). rewrite Z.div_mul by lia. reflexivity.
Qed.

(** ** Lengths *)
Lemma total_nonneg : forall counts, Forall is_byte counts -> 0 <= total_codes counts.
Proof. unfold total_codes. induction 1; cbn [fold_right]; unfold is_byte in *; lia. Qed.

Lemma huffsize_from_spec : forall counts l acc, Forall is_byte counts -> lenZ acc <= 256 ->
  huffsize_from l counts acc =
    if lenZ acc + total_codes counts <=? 256 then Ok (acc ++ lengths_from (l + 1) counts)
    else Fail EHuffsize.
Proof.
  induction counts as [|n r IH]; intros l acc H Ha; cbn [huffsize_from lengths_from].
  - unfold total_codes. cbn [fold_right]. rewrite Z.add_0_r, app_nil_r.
    replace (lenZ acc <=? 256) with true by lia. reflexivity.
  - inv H. unfold is_byte in H2. pose proof (total_nonneg r H3) as T.
    unfold total_codes. cbn [fold_right]. fold (total_codes r).
    destruct (256 <? lenZ acc + n) eqn:E.
    + replace (lenZ acc + (n + total_codes r) <=? 256) with false by lia. reflexivity.
    + assert (La : lenZ (acc ++ repeat (l + 1) (Z.to_nat n)) = lenZ acc + n).
      { rewrite lenZ_app. unfold lenZ at 2. rewrite repeat_length. lia. }
      rewrite IH by (auto; lia). rewrite La, Z.add_assoc, <- app_assoc. reflexivity.
Qed.

Lemma huffsize_spec : forall counts, Forall is_byte counts ->
  huffsize counts = if total_codes counts <=? 256 then Ok (code_lengths counts) else Fail EHuffsize.
Proof.
  intros. unfold huffsize. rewrite huffsize_from_spec; auto.
  unfold lenZ. cbn. lia.
Qed.

Lemma lengths_from_length : forall counts l, Forall is_byte counts ->
  lenZ (lengths_from l counts) = total_codes counts.
Proof.
  induction counts; intros l H; auto. inv H. cbn [lengths_from]. rewrite lenZ_app, IHcounts by auto.
  unfold lenZ. rewrite repeat_length. unfold total_codes. cbn [fold_right]. unfold is_byte in H2. lia.
Qed.

(** ** Searching the segment of a window *)
Fixpoint find_seg (k a : Z) (ls : list Z) (w : Z) : option (Z * Z) :=
  match ls with
  | [] => None
  | l :: r => if (a <=? w) && (w <? a + W l) then Some (k, l) else find_seg (k + 1) (a + W l) r w
  end.

Lemma find_seg_low : forall ls k a w, w < a -> find_seg k a ls w = None.
Proof.
  induction ls; intros; cbn [find_seg]; auto.
  replace (a0 <=? w) with false by lia. cbn [andb]. apply IHls.
  unfold W. pose proof (Z.pow_nonneg 2 (16 - a)). lia.
Qed.

Lemma find_seg_app : forall ls ls' k a w,
  find_seg k a (ls ++ ls') w =
    match find_seg k a ls w with
    | Some x => Some x
    | None => find_seg (k + lenZ ls) (a + sumW ls) ls' w
    end.
Proof.
  induction ls; intros; cbn [app find_seg].
  - unfold lenZ, sumW. cbn. rewrite !Z.add_0_r. reflexivity.
  - rewrite lenZ_cons, sumW_cons.
    destruct ((a0 <=? w) && (w <? a0 + W a)); auto.
    rewrite IHls. rewrite !Z.add_assoc. reflexivity.
Qed.

Lemma find_seg_none : forall ls k a w, a <= w -> find_seg k a ls w = None -> a + sumW ls <= w.
Proof.
  induction ls; intros k a0 w Ha; cbn [find_seg].
  - unfold sumW. cbn. lia.
  - intros H. rewrite sumW_cons. destruct ((a0 <=? w) && (w <? a0 + W a)) eqn:E; [discriminate|].
    apply IHls in H; lia.
Qed.

Lemma find_seg_high : forall ls k a w, Forall (fun l => l <= 16) ls -> a + sumW ls <= w -> find_seg k a ls w = None.
Proof.
  induction ls; intros k a0 w F H; cbn [find_seg]; auto. inv F. rewrite sumW_cons in H.
  pose proof (sumW_nonneg ls).
  replace ((a0 <=? w) && (w <? a0 + W a)) with false by lia. apply IHls; auto. lia.
Qed.

(** A run of equal lengths. *)
Lemma find_seg_repeat : forall n k a l w, l <= 16 -> a <= w ->
  find_seg k a (repeat l n) w =
    if w <? a + Z.of_nat n * W l then Some (k + (w - a) / W l, l) else None.
Proof.
  induction n; intros k a l w Hl Ha; cbn [repeat find_seg].
  - replace (w <? a + Z.of_nat 0 * W l) with false by lia. reflexivity.
  - pose proof (W_pos l Hl).
    replace (a <=? w) with true by lia. cbn [andb].
    destruct (w <? a + W l) eqn:E.
    + replace (w <? a + Z.of_nat (S n) * W l) with true by nia.
      rewrite Z.div_small by lia. rewrite Z.add_0_r. reflexivity.
    + rewrite IHn by lia.
      replace (a + W l + Z.of_nat n * W l) with (a + Z.of_nat (S n) * W l) by lia.
      destruct (w <? a + Z.of_nat (S n) * W l); auto.
      do 2 f_equal. replace (w - a) with ((w - (a + W l)) + 1 * W l) by lia.
      rewrite Z.div_add by lia. lia.
Qed.

Lemma find_seg_spec : forall ls k a w j l, find_seg k a ls w = Some (j, l) ->
  k <= j < k + lenZ ls /\ nth_error ls (Z.to_nat (j - k)) = Some l.
Proof.
  induction ls as [|x r IH]; intros k a w j l H; cbn [find_seg] in H; [discriminate|].
  rewrite lenZ_cons. destruct ((a <=? w) && (w <? a + W x)).
  - inv H. pose proof (lenZ_nonneg _ r). split; [lia|].
    replace (Z.to_nat (j - j)) with 0%nat by lia. reflexivity.
  - apply IH in H. destruct H as [H1 H2]. split; [lia|].
    replace (Z.to_nat (j - k)) with (S (Z.to_nat (j - (k + 1)))) by lia. exact H2.
Qed.

(** ** The per-length arrays *)
Fixpoint off_spec (l a p : Z) (counts : list Z) : list (Z * Z) :=
  match counts with
  | [] => []
  | n :: r => (if n =? 0 then (0, -1) else (p - a / W l, a / W l + n - 1))
              :: off_spec (l + 1) (a + n * W l) (p + n) r
  end.

Lemma off_spec_length : forall counts l a p, length (off_spec l a p counts) = length counts.
Proof. induction counts; intros; cbn [off_spec length]; auto. Qed.

Lemma codes_al_repeat : forall n l a i, l <= 16 -> (i < n)%nat -> aligned a l ->
  nth_error (codes_al a (repeat l n)) i = Some (a / W l + Z.of_nat i).
Proof.
  induction n; intros l a i Hl Hi Ha; [lia|]. cbn [repeat codes_al]. destruct i; cbn [nth_error].
  - f_equal. lia.
  - rewrite IHn; try lia.
    + f_equal. pose proof (W_pos l Hl). replace (a + W l) with (a + 1 * W l) by lia.
      rewrite Z.div_add by lia. lia.
    + replace (a + W l) with (a + 1 * W l) by lia. apply aligned_add. auto.
Qed.

Lemma aligned_next : forall a l n, l < 16 -> aligned a l -> aligned (a + n * W l) (l + 1).
Proof. intros. apply aligned_le with l; [lia|]. apply aligned_add. auto. Qed.

Lemma offsets_spec : forall counts l a p hc,
  Forall is_byte counts -> 1 <= l -> l + Z.of_nat (length counts) <= 17 -> 0 <= p -> aligned a l ->
  (forall i c, nth_error (codes_al a (lengths_from l counts)) i = Some c ->
     index hc (p + Z.of_nat i) = Ok c) ->
  offsets counts hc p = Ok (map fst (off_spec l a p counts), map snd (off_spec l a p counts)).
Proof.
  induction counts as [|n r IH]; intros l a p hc F Hl H17 Hp Ha Hc; cbn [offsets off_spec map]; auto.
  inv F. unfold is_byte in H1. cbn [length] in H17.
  assert (Hnext : aligned (a + n * W l) (l + 1) \/ r = []).
  { destruct r; [auto|left]. cbn [length] in H17. apply aligned_next; auto. lia. }
  assert (Ha' : r <> [] -> aligned (a + n * W l) (l + 1)) by tauto.
  assert (Hc' : forall i c, nth_error (codes_al (a + n * W l) (lengths_from (l + 1) r)) i = Some c ->
     index hc (p + n + Z.of_nat i) = Ok c).
  { intros i c N. specialize (Hc (Z.to_nat n + i)%nat c). cbn [lengths_from] in Hc.
    rewrite codes_al_app, sumW_repeat in Hc.
    rewrite nth_error_app2 in Hc by (rewrite codes_al_length, repeat_length; lia).
    rewrite codes_al_length, repeat_length in Hc.
    replace (Z.to_nat n + i - Z.to_nat n)%nat with i in Hc by lia.
    replace (Z.of_nat (Z.to_nat n)) with n in Hc by lia.
    replace (p + n + Z.of_nat i) with (p + Z.of_nat (Z.to_nat n + i)) by lia. auto. }
  assert (R : offsets r hc (p + n) = Ok (map fst (off_spec (l + 1) (a + n * W l) (p + n) r), map snd (off_spec (l + 1) (a + n * W l) (p + n) r))).
  { destruct r as [|n' r']; [reflexivity|]. apply IH; auto; try lia. apply Ha'. discriminate. }
  assert (Hrep : forall i, (i < Z.to_nat n)%nat -> index hc (p + Z.of_nat i) = Ok (a / W l + Z.of_nat i)).
  { intros i Hi. apply Hc. cbn [lengths_from]. rewrite codes_al_app.
    rewrite nth_error_app1 by (rewrite codes_al_length, repeat_length; lia).
    apply codes_al_repeat; auto. lia. }
  destruct (n =? 0) eqn:E.
  - assert (n = 0) by lia. subst n. rewrite Z.add_0_r in R. 
    replace (p + 0) with p by lia. rewrite R. reflexivity.
  - pose proof (Hrep 0%nat) as H0. cbn [Z.of_nat] in H0. rewrite !Z.add_0_r in H0. rewrite H0 by lia.
    cbn [bind]. pose proof (Hrep (Z.to_nat (n - 1))) as H1'.
    replace (p + Z.of_nat (Z.to_nat (n - 1))) with (p + n - 1) in H1' by lia.
    rewrite H1' by lia. cbn [bind]. rewrite R. cbn [bind fst snd].
    do 3 f_equal. lia.
Qed.

(** ** The lookup table *)
Lemma fill_slots_spec : forall A (xs : list A) start n v d, 0 <= start -> 0 <= n -> start + n <= lenZ xs ->
  exists ys, fill_slots xs start n v = Ok ys /\ length ys = length xs /\
    forall x, (x < length xs)%nat ->
      nth x ys d = if (start <=? Z.of_nat x) && (Z.of_nat x <? start + n) then v else nth x xs d.
Proof.
  intros A xs start n v d H0 Hn H. unfold fill_slots.
  replace ((0 <=? start) && (start + n <=? lenZ xs)) with true by lia.
  eexists. split; [reflexivity|]. unfold lenZ in H.
  assert (L1 : length (firstn (Z.to_nat start) xs) = Z.to_nat start) by (apply firstn_length_le; lia).
  split.
  - rewrite !app_length, L1, repeat_length, skipn_length. lia.
  - intros x Hx. destruct (Z_lt_ge_dec (Z.of_nat x) start).
    + rewrite app_nth1 by lia. replace (start <=? Z.of_nat x) with false by lia. cbn [andb].
      rewrite <- (firstn_skipn (Z.to_nat start) xs) at 2. rewrite app_nth1 by lia. reflexivity.
    + rewrite app_nth2 by lia. rewrite L1. replace (start <=? Z.of_nat x) with true by lia. cbn [andb].
      destruct (Z.of_nat x <? start + n) eqn:E.
      * rewrite app_nth1 by (rewrite repeat_length; lia).
        rewrite nth_indep with (d' := v) by (rewrite repeat_length; lia). apply nth_repeat.
      * rewrite app_nth2 by (rewrite repeat_length; lia). rewrite repeat_length.
        rewrite <- (firstn_skipn (Z.to_nat (start + n)) xs) at 2.
        rewrite app_nth2 by (rewrite firstn_length_le; lia). rewrite firstn_length_le by lia. f_equal. lia.
Qed.

Definition slot (values : list Z) (f : option (Z * Z)) (d : Z * Z) : Z * Z :=
  match f with Some (k, l) => (nth (Z.to_nat k) values 0, l) | None => d end.

Definition short (ls : list Z) : list Z := filter (fun l => l <=? 8) ls.

Lemma build_lut_long : forall ls i hc values lut, Forall (fun l => 8 < l) ls ->
  build_lut i ls hc values lut = Ok lut.
Proof.
  induction ls; intros; auto. inv H. cbn [build_lut]. unfold LUT_BITS.
  replace (a <=? 8) with false by lia. apply IHls. auto.
Qed.

Lemma build_lut_short : forall ls rest i a hc values lut,
  lens_ok 1 ls -> Forall (fun l => l <= 8) ls -> Forall (fun l => 8 < l) rest ->
  aligned a 8 -> (forall l r, ls = l :: r -> aligned a l) -> 0 <= a -> a + sumW ls <= 2 ^ 16 -> 0 <= i ->
  i + lenZ ls <= lenZ values -> length lut = 256%nat ->
  (forall j c, nth_error (codes_al a ls) j = Some c -> index hc (i + Z.of_nat j) = Ok c) ->
  exists lut', build_lut i (ls ++ rest) hc values lut = Ok lut' /\ length lut' = 256%nat /\
    forall x, (x < 256)%nat ->
      nth x lut' (0, 0) = slot values (find_seg i a ls (256 * Z.of_nat x)) (nth x lut (0, 0)).
Proof.
  induction ls as [|l r IH]; intros rest i a hc values lut Hok Hs Hrest H8 Hal Ha Hsum Hi Hv Hlut Hc.
  - cbn [app]. rewrite build_lut_long by auto. exists lut. repeat split; auto.
  - inv Hs. inversion Hok as [|? ? ? Hb Hr]; subst. rewrite sumW_cons in Hsum. rewrite lenZ_cons in Hv.
    pose proof (sumW_nonneg r). pose proof (lenZ_nonneg _ r).
    assert (Al : aligned a l) by (eapply Hal; eauto).
    assert (PW : 0 < W l) by (apply W_pos; lia).
    assert (EW : W l = 2 ^ (8 - l) * 256).
    { unfold W. change 256 with (2 ^ 8). rewrite <- Z.pow_add_r by lia. f_equal. lia. }
    assert (P8 : 0 < 2 ^ (8 - l)) by (apply Z.pow_pos_nonneg; lia).
    cbn [app build_lut]. unfold LUT_BITS. replace (l <=? 8) with true by lia.
    pose proof (Hc 0%nat _ eq_refl) as HI. cbn [Z.of_nat] in HI. rewrite Z.add_0_r in HI. rewrite HI.
    cbn [bind]. rewrite Z.shiftl_mul_pow2 by lia.
    assert (Ea : a / W l * 2 ^ (8 - l) * 256 = a).
    { rewrite <- Z.mul_assoc, <- EW. apply aligned_div; auto. lia. }
    change (2 ^ 16) with 65536 in *.
    rewrite wrap_id by (change (2 ^ 16) with 65536; nia).
    rewrite (index_nth _ _ _ 0) by lia. cbn [bind].
    remember (a / W l * 2 ^ (8 - l)) as start eqn:Estart. clear Estart.
    destruct (fill_slots_spec _ lut start (2 ^ (8 - l)) (nth (Z.to_nat i) values 0, l) (0, 0))
      as [lut1 [F1 [L1 N1]]]; try nia.
    { unfold lenZ. rewrite Hlut. nia. }
    rewrite F1. cbn [bind].
    destruct (IH rest (i + 1) (a + W l) hc values lut1) as [lut' [B [L N]]]; auto; try lia.
    + eapply lens_ok_weaken; [|exact Hr]. lia.
    + apply aligned_le with l; [lia|]. replace (a + W l) with (a + 1 * W l) by lia. apply aligned_add. auto.
    + intros l' r' ->. inversion Hr as [|? ? ? Hb' Hr']. apply aligned_le with l; [lia|].
      replace (a + W l) with (a + 1 * W l) by lia. apply aligned_add. auto.
    + intros j c N. replace (i + 1 + Z.of_nat j) with (i + Z.of_nat (S j)) by lia. apply Hc. exact N.
    + exists lut'. split; auto. split; auto. intros x Hx. rewrite N by auto. cbn [find_seg].
      destruct ((a <=? 256 * Z.of_nat x) && (256 * Z.of_nat x <? a + W l)) eqn:E.
      * rewrite find_seg_low by lia. cbn [slot]. rewrite N1 by lia.
        replace ((start <=? Z.of_nat x) && (Z.of_nat x <? start + 2 ^ (8 - l))) with true by nia. reflexivity.
      * destruct (find_seg (i + 1) (a + W l) r (256 * Z.of_nat x)) as [[k l']|]; cbn [slot]; auto.
        rewrite N1 by lia.
        replace ((start <=? Z.of_nat x) && (Z.of_nat x <? start + 2 ^ (8 - l))) with false; auto.
        symmetry. apply andb_false_iff.
        destruct (Z_lt_ge_dec (256 * Z.of_nat x) a); [left; nia|right].
        assert (a + W l <= 256 * Z.of_nat x) by lia. apply Z.ltb_ge. nia.
Qed.
