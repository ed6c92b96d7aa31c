(** Placement of the blocks of an MCU in the component planes. *)
From Verif Require Import Base Tactics SpecBits SpecPlane Idct IdctP Types Decode.

Lemma put_row_length : forall p off row, (off + length row <= length p)%nat -> length (put_row p off row) = length p.
Proof. intros. unfold put_row. rewrite !app_length, firstn_length, map_length, skipn_length. lia. Qed.

Lemma put_row_nth : forall p off row i, (off + length row <= length p)%nat ->
  nth i (put_row p off row) None =
  if (off <=? i)%nat && (i <? off + length row)%nat then Some (nth (i - off) row 0) else nth i p None.
Proof.
  intros p off row i H. unfold put_row.
  assert (F : length (firstn off p) = off) by (rewrite firstn_length; lia).
  destruct (Nat.leb_spec off i).
  - rewrite app_nth2 by lia. rewrite F. destruct (Nat.ltb_spec i (off + length row)); cbn [andb].
    + rewrite app_nth1 by (rewrite map_length; lia). rewrite (nth_indep _ None (Some 0)) by (rewrite map_length; lia). apply map_nth.
    + rewrite app_nth2 by (rewrite map_length; lia). rewrite map_length.
      assert (K : forall n (l : plane) j, nth j (skipn n l) None = nth (n + j) l None).
      { induction n; intros [|x l] j; cbn [skipn Nat.add]; auto; [destruct j; reflexivity|]. cbn [nth]. apply IHn. }
      rewrite K. f_equal. lia.
  - cbn [andb]. rewrite app_nth1 by lia.
    assert (K : forall n (l : plane) j, (j < n)%nat -> nth j (firstn n l) None = nth j l None).
    { induction n; intros [|x l] [|j] Hj; cbn [firstn nth]; auto; try lia. apply IHn. lia. }
    apply K. lia.
Qed.

(** The rows of a block are written at [off], [off + stride], ... *)
Lemma put_rows_ok : forall stride rows p off, 8 <= stride -> 0 <= off -> Forall (fun r => length r = 8%nat) rows ->
  (rows = [] \/ off + (lenZ rows - 1) * stride + 8 <= lenZ p) ->
  exists p', put_rows p off stride rows = Ok p' /\ length p' = length p /\
    forall i, 0 <= i -> nth (Z.to_nat i) p' None =
      let j := i - off in
      if (0 <=? j) && (j / stride <? lenZ rows) && (j mod stride <? 8)
      then Some (nth (Z.to_nat (j mod stride)) (nth (Z.to_nat (j / stride)) rows []) 0)
      else nth (Z.to_nat i) p None.
Proof.
  intros stride rows. induction rows as [|row rows IH]; intros p off Hs Ho L8 Fit; cbn [put_rows].
  - exists p. splits; auto. intros i Hi. cbv zeta. cbn [length lenZ].
    destruct ((0 <=? i - off) && ((i - off) / stride <? lenZ (@nil (list Z))) && ((i - off) mod stride <? 8)) eqn:E; [|reflexivity].
    exfalso. unfold lenZ in E. cbn in E. assert (0 <= (i - off) / stride) by (apply Z.div_pos; lia). lia.
  - inv L8. destruct Fit as [?|Fit]; [discriminate|]. unfold lenZ in Fit. cbn [length] in Fit.
    assert (F2 : off + Z.of_nat (length rows) * stride + 8 <= lenZ p) by (unfold lenZ in *; lia). clear Fit.
    assert (F0 : off + 8 <= lenZ p) by (clear - F2 Hs; assert (0 <= Z.of_nat (length rows) * stride) by (apply Z.mul_nonneg_nonneg; lia); lia).
    destruct (lenZ p - off <=? 0) eqn:E0; [lia|]. destruct (Z.min (lenZ p - off) stride <? 8) eqn:E1; [lia|].
    assert (Lp : (Z.to_nat off + length row <= length p)%nat) by (unfold lenZ in F0; lia).
    destruct (IH (put_row p (Z.to_nat off) row) (off + stride) Hs ltac:(lia) H2) as [p' [E [L N]]].
    { destruct rows as [|r2 rows]; [left; reflexivity|right]. unfold lenZ in *. rewrite put_row_length by exact Lp.
      cbn [length] in F2 |- *. replace (off + stride + (Z.of_nat (S (length rows)) - 1) * stride + 8) with (off + Z.of_nat (S (length rows)) * stride + 8) by lia. exact F2. }
    exists p'. split; [exact E|]. split; [rewrite L; apply put_row_length; exact Lp|].
    intros i Hi. rewrite (N i Hi). cbv zeta.
    rewrite (put_row_nth p (Z.to_nat off) row (Z.to_nat i) Lp). rewrite H1.
    set (j := i - off). replace (i - (off + stride)) with (j + (-1) * stride) by (unfold j; lia).
    assert (LL : lenZ (row :: rows) = lenZ rows + 1) by (rewrite lenZ_cons; lia). rewrite LL. clear LL.
    destruct (Z.ltb_spec j 0) as [Hj|Hj].
    { replace (0 <=? j) with false by lia. replace (0 <=? j + -1 * stride) with false by lia. cbn [andb].
      replace (Z.to_nat off <=? Z.to_nat i)%nat with false by (unfold j in Hj; lia). reflexivity. }
    replace (0 <=? j) with true by lia. cbn [andb].
    rewrite (Z.div_add j (-1) stride), (Z.mod_add j (-1) stride) by lia.
    destruct (Z.ltb_spec j stride) as [Hk|Hk].
    + rewrite (Z.div_small j stride), (Z.mod_small j stride) by lia.
      replace (0 <=? j + -1 * stride) with false by lia. cbn [andb].
      replace (0 <? lenZ rows + 1) with true by (pose proof (lenZ_nonneg _ rows); lia). cbn [andb].
      replace (Z.to_nat 0) with O by reflexivity. cbn [nth].
      destruct (Z.ltb_spec j 8) as [H8|H8].
      * replace ((Z.to_nat off <=? Z.to_nat i)%nat && (Z.to_nat i <? Z.to_nat off + 8)%nat) with true by (unfold j in *; lia).
        f_equal. f_equal. unfold j in *. lia.
      * replace ((Z.to_nat off <=? Z.to_nat i)%nat && (Z.to_nat i <? Z.to_nat off + 8)%nat) with false by (unfold j in *; lia). reflexivity.
    + replace (0 <=? j + -1 * stride) with true by lia. cbn [andb].
      assert (Q : 1 <= j / stride) by (apply Z.div_le_lower_bound; lia).
      replace ((Z.to_nat off <=? Z.to_nat i)%nat && (Z.to_nat i <? Z.to_nat off + 8)%nat) with false by (unfold j in *; lia).
      replace (j / stride + -1 <? lenZ rows) with (j / stride <? lenZ rows + 1) by lia.
      replace (Z.to_nat (j / stride)) with (S (Z.to_nat (j / stride + -1))) by lia. cbn [nth]. reflexivity.
Qed.

Lemma coords : forall stride r c R C, 0 < stride -> 0 <= c < stride -> 0 <= C < stride ->
  let j := r * stride + c - (R * stride + C) in
  (C <= c -> j / stride = r - R /\ j mod stride = c - C) /\
  (c < C -> j / stride = r - R - 1 /\ j mod stride = c - C + stride).
Proof.
  intros stride r c R C Hs Hc HC j. unfold j. split; intros H.
  - replace (r * stride + c - (R * stride + C)) with (c - C + (r - R) * stride) by lia.
    rewrite Z.div_add, Z.mod_add by lia. rewrite Z.div_small, Z.mod_small by lia. lia.
  - replace (r * stride + c - (R * stride + C)) with (c - C + stride + (r - R - 1) * stride) by lia.
    rewrite Z.div_add, Z.mod_add by lia. rewrite Z.div_small, Z.mod_small by lia. lia.
Qed.

(** One block with its top left corner at row [R], column [C]. *)
Lemma idct_at : forall dbg coefs qt stride rows p R C,
  0 <= R -> R + 8 <= rows -> 0 <= C -> C + 8 <= stride -> lenZ p = rows * stride ->
  exists p', idct_block_8x8 dbg coefs qt stride (R * stride + C) p = Ok p' /\ length p' = length p /\
    forall r c, 0 <= r -> 0 <= c < stride ->
      sample_at p' stride r c =
      if (R <=? r) && (r <? R + 8) && (C <=? c) && (c <? C + 8)
      then Some (nth (Z.to_nat (c - C)) (nth (Z.to_nat (r - R)) (block_samples coefs qt) []) 0)
      else sample_at p stride r c.
Proof.
  intros dbg coefs qt stride rows p R C HR HR8 HC HC8 Lp. unfold idct_block_8x8.
  replace (stride =? 0) with false by lia. cbn [negb assert_ bind].
  assert (Ch : 8 <= (lenZ p - (R * stride + C) + stride - 1) / stride).
  { rewrite Lp. replace (rows * stride - (R * stride + C) + stride - 1) with (stride - 1 - C + (rows - R) * stride) by lia.
    rewrite Z.div_add by lia. rewrite Z.div_small by lia. lia. }
  replace (8 <=? (lenZ p - (R * stride + C) + stride - 1) / stride) with true by lia. clear Ch.
  assert (DA : debug_assert dbg true = Ok tt) by (destruct dbg; reflexivity). rewrite DA. cbn [bind].
  rewrite idct_block_total. cbn [bind].
  destruct (block_samples_shape coefs qt) as [Sl Sr].
  assert (S8 : Forall (fun r => length r = 8%nat) (block_samples coefs qt)).
  { eapply Forall_impl; [|exact Sr]. intros a Ha. apply Ha. }
  assert (O0 : 0 <= R * stride + C) by (assert (0 <= R * stride) by (apply Z.mul_nonneg_nonneg; lia); lia).
  destruct (put_rows_ok stride (block_samples coefs qt) p (R * stride + C) ltac:(lia) O0 S8) as [p' [E [L N]]].
  { right. unfold lenZ at 1. rewrite Sl, Lp.
    assert (M : (R + 8) * stride <= rows * stride) by (apply Z.mul_le_mono_nonneg_r; lia). clear - M HC8. lia. }
  exists p'. split; [exact E|]. split; [exact L|].
  intros r c Hr Hc. unfold sample_at.
  assert (I0 : 0 <= r * stride + c) by (assert (0 <= r * stride) by (apply Z.mul_nonneg_nonneg; lia); lia).
  rewrite (N (r * stride + c) I0). cbv zeta. replace (lenZ (block_samples coefs qt)) with 8 by (unfold lenZ; rewrite Sl; reflexivity).
  destruct (coords stride r c R C) as [K1 K2]; try lia. cbv zeta in K1, K2.
  set (j := r * stride + c - (R * stride + C)) in *.
  assert (J0 : (0 <=? j) = (0 <=? j / stride)).
  { destruct (Z.leb_spec 0 j); [assert (0 <= j / stride) by (apply Z.div_pos; lia); lia|].
    assert (j / stride < 0) by (apply Z.div_lt_upper_bound; lia). lia. }
  rewrite J0. destruct (Z.ltb_spec c C) as [Hcc|Hcc].
  - destruct (K2 Hcc) as [Q1 Q2]. rewrite Q1, Q2. clearbody j. clear - Hcc HC8 Hc.
    destruct ((0 <=? r - R - 1) && (r - R - 1 <? 8) && (c - C + stride <? 8)) eqn:E1; destruct ((R <=? r) && (r <? R + 8) && (C <=? c) && (c <? C + 8)) eqn:E2; auto; lia.
  - destruct (K1 Hcc) as [Q1 Q2]. rewrite Q1, Q2. clearbody j. clear - Hcc.
    destruct ((0 <=? r - R) && (r - R <? 8) && (c - C <? 8)) eqn:E1; destruct ((R <=? r) && (r <? R + 8) && (C <=? c) && (c <? C + 8)) eqn:E2; auto; lia.
Qed.

(** The blocks of one block row of the MCU, from column [C] on. *)
Lemma blocks_x : forall dbg c qt rows n k blocks p R C0 (start := R * c_line_stride c + C0),
  0 <= R -> R + 8 <= rows -> 0 <= C0 -> C0 + 8 * (Z.of_nat k + Z.of_nat n) <= c_line_stride c -> lenZ p = rows * c_line_stride c ->
  let r := idct_blocks_x dbg c qt start (map (fun k => k * 8) (map Z.of_nat (seq k n))) blocks p in
  ((length blocks < n)%nat -> r = Panic PMissing) /\
  ((n <= length blocks)%nat -> exists p', r = Ok (skipn n blocks, p') /\ length p' = length p /\
    forall y x, 0 <= y -> 0 <= x < c_line_stride c ->
      sample_at p' (c_line_stride c) y x =
      if (R <=? y) && (y <? R + 8) && (C0 + 8 * Z.of_nat k <=? x) && (x <? C0 + 8 * (Z.of_nat k + Z.of_nat n))
      then Some (nth (Z.to_nat ((x - C0) mod 8)) (nth (Z.to_nat (y - R)) (block_samples (nth (Z.to_nat ((x - C0) / 8) - k) blocks []) qt) []) 0)
      else sample_at p (c_line_stride c) y x).
Proof.
  intros dbg c qt rows n. induction n as [|n IH]; intros k blocks p R C0 start HR HR8 HC HC8 Lp r; unfold r; cbn [seq map idct_blocks_x].
  - split; [lia|]. intros _. exists p. splits; auto. intros y x Hy Hx.
    replace ((R <=? y) && (y <? R + 8) && (C0 + 8 * Z.of_nat k <=? x) && (x <? C0 + 8 * (Z.of_nat k + Z.of_nat 0))) with false by lia. reflexivity.
  - destruct blocks as [|blk blocks]; cbn [length].
    { split; [reflexivity|lia]. }
    set (W := c_line_stride c) in *.
    assert (SL : (R + 8) * W <= rows * W) by (apply Z.mul_le_mono_nonneg_r; lia).
    assert (OE : start + Z.of_nat k * 8 = R * W + (C0 + 8 * Z.of_nat k)) by (unfold start; lia).
    rewrite OE. replace (R * W + (C0 + 8 * Z.of_nat k) <=? lenZ p) with true by (rewrite Lp; clear - SL HC8 HC; lia). cbn [assert_ bind].
    destruct (idct_at dbg blk qt W rows p R (C0 + 8 * Z.of_nat k)) as [p1 [E1 [L1 N1]]]; try lia. rewrite E1. cbn [bind].
    specialize (IH (S k) blocks p1 R C0 HR HR8 HC ltac:(lia)).
    assert (Lp1 : lenZ p1 = rows * W) by (unfold lenZ in *; rewrite L1; exact Lp). specialize (IH Lp1). cbv zeta in IH.
    destruct IH as [IP IO]. split.
    { intros H. apply IP. lia. }
    intros H. destruct (IO ltac:(lia)) as [p' [E' [L' N']]]. exists p'. split; [exact E'|]. split; [lia|].
    intros y x Hy Hx. rewrite (N' y x Hy Hx). rewrite (N1 y x Hy Hx).
    assert (QK : (x - C0) / 8 * 8 <= x - C0 < (x - C0) / 8 * 8 + 8) by (clear; lia).
    set (q := (x - C0) / 8) in *.
    destruct ((R <=? y) && (y <? R + 8)) eqn:EY; cbn [andb]; [|reflexivity].
    destruct (Z.leb_spec (C0 + 8 * Z.of_nat k) x) as [X1|X1]; cbn [andb].
    + destruct (Z.ltb_spec x (C0 + 8 * Z.of_nat k + 8)) as [X2|X2].
      * replace (C0 + 8 * Z.of_nat (S k) <=? x) with false by lia. cbn [andb].
        replace (x <? C0 + 8 * (Z.of_nat k + Z.of_nat (S n))) with true by lia.
        assert (q = Z.of_nat k) by lia.
        replace (Z.to_nat q - k)%nat with O by lia. cbn [nth].
        replace ((x - C0) mod 8) with (x - (C0 + 8 * Z.of_nat k)) by (rewrite Z.mod_eq by lia; fold q; lia). reflexivity.
      * replace (C0 + 8 * Z.of_nat (S k) <=? x) with true by lia. cbn [andb].
        replace (x <? C0 + 8 * (Z.of_nat (S k) + Z.of_nat n)) with (x <? C0 + 8 * (Z.of_nat k + Z.of_nat (S n))) by lia.
        destruct (x <? C0 + 8 * (Z.of_nat k + Z.of_nat (S n))) eqn:X3; [|reflexivity].
        replace (Z.to_nat q - k)%nat with (S (Z.to_nat q - S k)) by lia. cbn [nth]. reflexivity.
    + replace (C0 + 8 * Z.of_nat (S k) <=? x) with false by lia. reflexivity.
Qed.

Lemma step_range_8 : forall h, step_range h 8 = map (fun k => k * 8) (map Z.of_nat (seq 0 (Z.to_nat h))).
Proof. intros. unfold step_range, zrange. reflexivity. Qed.

Lemma nth_skipn_gen : forall A (l : list A) n j d, nth j (skipn n l) d = nth (n + j) l d.
Proof. induction l; intros [|n] j d; cbn [skipn Nat.add]; auto. - destruct j; reflexivity. - cbn [nth]. apply IHl. Qed.

(** The block rows of one component of the MCU. *)
Lemma blocks_y : forall dbg c qt rows n k blocks p R0 C0,
  0 <= R0 -> 0 <= C0 -> 1 <= c_h c -> R0 + 8 * (Z.of_nat k + Z.of_nat n) <= rows -> C0 + 8 * c_h c <= c_line_stride c ->
  lenZ p = rows * c_line_stride c ->
  let r := idct_blocks_y dbg c qt (R0 * c_line_stride c + C0) (map (fun k => k * (c_line_stride c * 8)) (map Z.of_nat (seq k n))) blocks p in
  let h := Z.to_nat (c_h c) in
  ((length blocks < n * h)%nat -> r = Panic PMissing) /\
  ((n * h <= length blocks)%nat -> exists p', r = Ok (skipn (n * h) blocks, p') /\ length p' = length p /\
    forall y x, 0 <= y -> 0 <= x < c_line_stride c ->
      sample_at p' (c_line_stride c) y x =
      if (R0 + 8 * Z.of_nat k <=? y) && (y <? R0 + 8 * (Z.of_nat k + Z.of_nat n)) && (C0 <=? x) && (x <? C0 + 8 * c_h c)
      then Some (nth (Z.to_nat ((x - C0) mod 8)) (nth (Z.to_nat ((y - R0) mod 8))
             (block_samples (nth ((Z.to_nat ((y - R0) / 8) - k) * h + Z.to_nat ((x - C0) / 8)) blocks []) qt) []) 0)
      else sample_at p (c_line_stride c) y x).
Proof.
  intros dbg c qt rows n. induction n as [|n IH]; intros k blocks p R0 C0 HR HC Hh HR8 HC8 Lp r h; unfold r; cbn [seq map idct_blocks_y].
  - split; [lia|]. intros _. exists p. splits; auto. intros y x Hy Hx.
    replace ((R0 + 8 * Z.of_nat k <=? y) && (y <? R0 + 8 * (Z.of_nat k + Z.of_nat 0)) && (C0 <=? x) && (x <? C0 + 8 * c_h c)) with false by lia.
    reflexivity.
  - set (W := c_line_stride c) in *.
    assert (OE : R0 * W + C0 + Z.of_nat k * (W * 8) = (R0 + 8 * Z.of_nat k) * W + C0) by lia. rewrite OE. clear OE.
    assert (SL : (R0 + 8 * Z.of_nat k + 8) * W <= rows * W) by (apply Z.mul_le_mono_nonneg_r; lia).
    replace ((R0 + 8 * Z.of_nat k) * W + C0 <=? lenZ p) with true by (rewrite Lp; clear - SL HC8 HC Hh; lia).
    rewrite step_range_8.
    destruct (blocks_x dbg c qt rows (Z.to_nat (c_h c)) 0 blocks p (R0 + 8 * Z.of_nat k) C0) as [XP XO]; try (fold W; lia). fold W in XP, XO. fold h in XP, XO |- *.
    destruct (Nat.ltb_spec (length blocks) h) as [Hb|Hb].
    { split; [intros _; rewrite (XP Hb); reflexivity|nia]. }
    destruct (XO Hb) as [p1 [E1 [L1 N1]]]. rewrite E1. cbn [bind].
    assert (Lp1 : lenZ p1 = rows * W) by (unfold lenZ in *; rewrite L1; exact Lp).
    specialize (IH (S k) (skipn h blocks) p1 R0 C0 HR HC Hh ltac:(lia) HC8 Lp1). cbv zeta in IH. fold h in IH. fold W in IH.
    rewrite skipn_length in IH. destruct IH as [IP IO]. split.
    { intros H. apply IP. lia. }
    intros H. destruct (IO ltac:(lia)) as [p' [E' [L' N']]]. exists p'. split.
    { rewrite E'. f_equal. f_equal. replace (S n * h)%nat with (n * h + h)%nat by lia.
      clear. revert blocks. generalize (n * h)%nat. intros m. revert h. induction h as [|h IHh]; intros blocks; [cbn; rewrite Nat.add_0_r; reflexivity|].
      destruct blocks; [rewrite !skipn_nil; reflexivity|]. rewrite Nat.add_succ_r. cbn [skipn]. apply IHh. }
    split; [lia|]. intros y x Hy Hx. rewrite (N' y x Hy Hx). rewrite (N1 y x Hy Hx).
    assert (QK : (y - R0) / 8 * 8 <= y - R0 < (y - R0) / 8 * 8 + 8) by (clear; lia).
    assert (QX : (x - C0) / 8 * 8 <= x - C0 < (x - C0) / 8 * 8 + 8) by (clear; lia).
    assert (MY : (y - R0) mod 8 = y - R0 - 8 * ((y - R0) / 8)) by (clear; lia).
    set (q := (y - R0) / 8) in *. set (u := (x - C0) / 8) in *.
    change (Z.of_nat 0) with 0. replace (C0 + 8 * 0) with C0 by lia. replace (0 + Z.of_nat h) with (c_h c) by lia.
    destruct ((C0 <=? x) && (x <? C0 + 8 * c_h c)) eqn:EX.
    2:{ rewrite <- !andb_assoc. rewrite !EX. rewrite !andb_false_r. reflexivity. }
    rewrite <- !andb_assoc. rewrite !EX. rewrite !andb_true_r.
    destruct (Z.leb_spec (R0 + 8 * Z.of_nat k) y) as [Y1|Y1]; cbn [andb].
    + destruct (Z.ltb_spec y (R0 + 8 * Z.of_nat k + 8)) as [Y2|Y2].
      * replace (R0 + 8 * Z.of_nat (S k) <=? y) with false by lia. cbn [andb].
        replace (y <? R0 + 8 * (Z.of_nat k + Z.of_nat (S n))) with true by lia.
        replace (y - (R0 + 8 * Z.of_nat k)) with ((y - R0) mod 8) by lia.
        replace ((Z.to_nat q - k) * h + Z.to_nat u)%nat with (Z.to_nat u - 0)%nat; [reflexivity|].
        replace (Z.to_nat q - k)%nat with O by lia. lia.
      * replace (R0 + 8 * Z.of_nat (S k) <=? y) with true by lia. cbn [andb].
        replace (y <? R0 + 8 * (Z.of_nat (S k) + Z.of_nat n)) with (y <? R0 + 8 * (Z.of_nat k + Z.of_nat (S n))) by lia.
        destruct (y <? R0 + 8 * (Z.of_nat k + Z.of_nat (S n))) eqn:X3; [|reflexivity].
        rewrite nth_skipn_gen. replace (h + ((Z.to_nat q - S k) * h + Z.to_nat u))%nat with ((Z.to_nat q - k) * h + Z.to_nat u)%nat; [reflexivity|].
        replace (Z.to_nat q - k)%nat with (S (Z.to_nat q - S k)) by lia. cbn [Nat.mul]. lia.
    + replace (R0 + 8 * Z.of_nat (S k) <=? y) with false by lia. reflexivity.
Qed.

(** Geometry of a component of a frame of [MW] by [MH] MCUs. *)
Record fits (MW MH : Z) (c : component) : Prop := mkFits {
  ft_h : 1 <= c_h c; ft_v : 1 <= c_v c;
  ft_stride : c_line_stride c = 8 * (MW * c_h c);
  ft_line : c_bytes_per_mcu_line c = 64 * (c_h c * c_v c) * MW;
  ft_mcu : dim_w (c_mcu_sample_size c) = 8 * c_h c;
}.
Definition rows_of (MH : Z) (c : component) : Z := 8 * (MH * c_v c).
Definition sized (MH : Z) (c : component) (p : plane) : Prop := lenZ p = rows_of MH c * c_line_stride c.
Definition blocks_in (c : component) : nat := (Z.to_nat (c_v c) * Z.to_nat (c_h c))%nat.

(** The samples of one component after one MCU. *)
Definition painted (c : component) (qt : list Z) (mx my : Z) (blocks : list (list Z)) (p p' : plane) : Prop :=
  length p' = length p /\
  forall y x, 0 <= y -> 0 <= x < c_line_stride c ->
    sample_at p' (c_line_stride c) y x =
    if (mcu_row (c_v c) y =? my) && (mcu_col (c_h c) x =? mx)
    then Some (in_block (block_samples (nth (Z.to_nat (block_no (c_h c) (c_v c) y x)) blocks []) qt) y x)
    else sample_at p (c_line_stride c) y x.

Lemma div_window : forall a n q, 0 < n -> (a / n =? q) = ((q * n <=? a) && (a <? q * n + n)).
Proof.
  intros a n q Hn. assert (E : n * (a / n) <= a < n * (a / n) + n) by (pose proof (Z.div_mod a n); pose proof (Z.mod_pos_bound a n); lia).
  destruct (Z.eqb_spec (a / n) q) as [N|N]; [subst q|].
  - lia.
  - assert (q < a / n \/ a / n < q) as [H|H] by lia.
    + assert (n * (q + 1) <= n * (a / n)) by (apply Z.mul_le_mono_nonneg_l; lia). lia.
    + assert (n * (a / n + 1) <= n * q) by (apply Z.mul_le_mono_nonneg_l; lia). lia.
Qed.

Lemma window_mod : forall a n m q, 0 < m -> a / (n * m) = q -> 0 < n -> (a - q * (n * m)) = a mod (n * m) /\ (a - q * (n * m)) mod n = a mod n.
Proof.
  intros a n m q Hm E Hn. split.
  - rewrite Z.mod_eq by lia. rewrite E. lia.
  - replace (a - q * (n * m)) with (a + (- (q * m)) * n) by lia. apply Z.mod_add. lia.
Qed.

Lemma mcu_comp : forall dbg MW MH c qt mx my blocks p, fits MW MH c -> 0 <= mx < MW -> 0 <= my < MH -> sized MH c p ->
  let off := my * c_bytes_per_mcu_line c + mx * dim_w (c_mcu_sample_size c) in
  let r := if off <=? lenZ p then idct_blocks_y dbg c qt off (step_range (c_v c) (c_line_stride c * 8)) blocks p
           else let* blocks := skip_blocks (Z.to_nat (c_v c * c_h c)) blocks in Ok (blocks, p) in
  ((length blocks < blocks_in c)%nat -> r = Panic PMissing) /\
  ((blocks_in c <= length blocks)%nat -> exists p', r = Ok (skipn (blocks_in c) blocks, p') /\ painted c qt mx my blocks p p').
Proof.
  intros dbg MW MH c qt mx my blocks p [Hh Hv Fs Fl Fm] Hx Hy Sz off r. unfold sized, rows_of in Sz.
  set (h := c_h c) in *. set (v := c_v c) in *. set (W := c_line_stride c) in *.
  assert (OE : off = (my * (8 * v)) * W + mx * (8 * h)) by (unfold off; rewrite Fl, Fm, Fs; ring).
  assert (W8 : 8 * h <= W) by (rewrite Fs; nia).
  assert (C8 : mx * (8 * h) + 8 * h <= W) by (rewrite Fs; nia).
  assert (R8 : my * (8 * v) + 8 * v <= 8 * (MH * v)) by nia.
  assert (M0 : 0 <= my * (8 * v)) by nia. assert (M1 : 0 <= mx * (8 * h)) by nia.
  assert (SL : (my * (8 * v) + 8 * v) * W <= 8 * (MH * v) * W) by (apply Z.mul_le_mono_nonneg_r; lia).
  assert (SL2 : 1 * W <= 8 * v * W) by (apply Z.mul_le_mono_nonneg_r; lia).
  assert (OL : (off <=? lenZ p) = true) by (rewrite OE, Sz; clear - SL SL2 C8 Hh; lia).
  unfold r. rewrite OL.
  assert (SR : step_range v (W * 8) = map (fun k => k * (W * 8)) (map Z.of_nat (seq 0 (Z.to_nat v)))).
  { unfold step_range. replace (0 <? W * 8) with true by lia. reflexivity. }
  rewrite SR, OE.
  destruct (blocks_y dbg c qt (8 * (MH * v)) (Z.to_nat v) 0 blocks p (my * (8 * v)) (mx * (8 * h))) as [XP XO]; try (fold W h; lia).
  fold W h in XP, XO. split; [exact XP|]. intros H. destruct (XO H) as [p' [E [L N]]]. exists p'. split; [exact E|]. split; [exact L|].
  intros y x Py Px. fold W in Px |- *. rewrite (N y x Py Px). unfold mcu_row, mcu_col, block_no, in_block. fold h v.
  rewrite (div_window y (8 * v) my), (div_window x (8 * h) mx) by lia.
  change (Z.of_nat 0) with 0. replace (my * (8 * v) + 8 * 0) with (my * (8 * v)) by lia.
  replace (my * (8 * v) + 8 * (0 + Z.of_nat (Z.to_nat v))) with (my * (8 * v) + 8 * v) by lia. rewrite <- andb_assoc.
  destruct (((my * (8 * v) <=? y) && (y <? my * (8 * v) + 8 * v)) && ((mx * (8 * h) <=? x) && (x <? mx * (8 * h) + 8 * h))) eqn:B; [|reflexivity].
  apply andb_prop in B. destruct B as [B1 B2]. rewrite <- (div_window y (8 * v) my) in B1 by lia. rewrite <- (div_window x (8 * h) mx) in B2 by lia.
  apply Z.eqb_eq in B1, B2.
  destruct (window_mod y 8 v my ltac:(lia) B1 ltac:(lia)) as [Y1 Y2]. destruct (window_mod x 8 h mx ltac:(lia) B2 ltac:(lia)) as [X1 X2].
  rewrite Y2, X2, Y1, X1.
  assert (A1 : 0 <= y mod (8 * v) / 8) by (clear - Hv; apply Z.div_pos; [apply Z.mod_pos_bound; lia|lia]).
  assert (A2 : 0 <= x mod (8 * h) / 8) by (clear - Hh; apply Z.div_pos; [apply Z.mod_pos_bound; lia|lia]).
  assert (IX : ((Z.to_nat (y mod (8 * v) / 8) - 0) * Z.to_nat h + Z.to_nat (x mod (8 * h) / 8))%nat = Z.to_nat (y mod (8 * v) / 8 * h + x mod (8 * h) / 8)).
  { rewrite Nat.sub_0_r. generalize dependent (y mod (8 * v) / 8). generalize dependent (x mod (8 * h) / 8). intros b A2 a A1. clear - A1 A2 Hh.
    rewrite Z2Nat.inj_add by (try apply Z.mul_nonneg_nonneg; lia). rewrite Z2Nat.inj_mul by lia. reflexivity. }
  rewrite IX. reflexivity.
Qed.

(** All components of the MCU.  [blocks] is cut into the blocks of the components in turn. *)
Inductive mcu_painted (qts : list (option (list Z))) (mx my : Z) : list component -> list (list Z) -> list plane -> list plane -> Prop :=
| mp_nil : forall blocks, mcu_painted qts mx my [] blocks [] []
| mp_cons : forall c cs blocks p p' ps ps' qt,
    index qts (c_tq c) = Ok (Some qt) -> (blocks_in c <= length blocks)%nat -> painted c qt mx my blocks p p' ->
    mcu_painted qts mx my cs (skipn (blocks_in c) blocks) ps ps' ->
    mcu_painted qts mx my (c :: cs) blocks (p :: ps) (p' :: ps').

Definition total_blocks (cs : list component) : nat := fold_right (fun c n => (blocks_in c + n)%nat) O cs.

Lemma mcu_comps : forall dbg MW MH qts mx my cs ps blocks, Forall (fits MW MH) cs -> Forall2 (sized MH) cs ps -> 0 <= mx < MW -> 0 <= my < MH ->
  match dequantize_comps dbg qts mx my cs ps blocks with
  | Ok ps' => mcu_painted qts mx my cs blocks ps ps'
  | Panic _ => ~ ((total_blocks cs <= length blocks)%nat /\ Forall (fun c => exists qt, index qts (c_tq c) = Ok (Some qt)) cs)
  | _ => False
  end.
Proof.
  intros dbg MW MH qts mx my cs. induction cs as [|c cs IH]; intros ps blocks F S Hx Hy; inv S; cbn [dequantize_comps].
  - constructor.
  - inv F. destruct (index qts (c_tq c)) as [o|e|q|] eqn:Q; cbn [bind].
    2:{ unfold index in Q. destruct (c_tq c <? 0), (nth_error qts (Z.to_nat (c_tq c))); discriminate. }
    2:{ intros [_ G]. inv G. destruct H5 as [qt Hq]. congruence. }
    2:{ unfold index in Q. destruct (c_tq c <? 0), (nth_error qts (Z.to_nat (c_tq c))); discriminate. }
    destruct o as [qt|]; cbn [bind].
    2:{ intros [_ G]. inv G. destruct H5 as [qt Hq]. congruence. }
    destruct (mcu_comp dbg MW MH c qt mx my blocks y H2 Hx Hy H1) as [XP XO]. cbv zeta in XP, XO.
    destruct (Nat.ltb_spec (length blocks) (blocks_in c)) as [B|B].
    { rewrite (XP B). cbn [bind]. intros [G _]. cbn [total_blocks fold_right] in G. lia. }
    destruct (XO B) as [p' [E P]]. rewrite E. cbn [bind].
    specialize (IH l' (skipn (blocks_in c) blocks) H4 H3 Hx Hy).
    destruct (dequantize_comps dbg qts mx my cs l' (skipn (blocks_in c) blocks)) as [ps'| | |]; cbn [bind]; try contradiction.
    + econstructor; eauto.
    + intros [G1 G2]. apply IH. inv G2. rewrite skipn_length. cbn [total_blocks fold_right] in G1. fold (total_blocks cs) in G1. split; [lia|auto].
Qed.
