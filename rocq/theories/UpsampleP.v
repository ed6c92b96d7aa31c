(** The rows produced by the upsamplers. *)
From Verif Require Import Base Tactics F32 Idct Color Types Upsampler SpecUpsample RowP.

(** ** Lists *)
Lemma px_skipn : forall p k i, nth i (skipn k p) 0 = nth (k + i) p 0.
Proof. intros p k. revert p. induction k as [|k IH]; intros p i; [reflexivity|]. destruct p as [|x p]; [destruct i; reflexivity|]. cbn [skipn Nat.add nth]. apply IH. Qed.

Lemma skipn_map_some : forall (p : list Z) k, skipn k (map Some p) = map Some (skipn k p).
Proof. intros. apply skipn_map. Qed.

Lemma slice_ok : forall (A : Type) (xs : list A) a b, 0 <= a <= b -> b <= Z.of_nat (length xs) ->
  slice xs a b = Ok (firstn (Z.to_nat (b - a)) (skipn (Z.to_nat a) xs)).
Proof.
  intros A xs a b Ha Hb. unfold slice.
  replace ((0 <=? a) && (a <=? b) && (b <=? Z.of_nat (length xs))) with true by lia. reflexivity.
Qed.

Lemma slice_from_ok : forall (A : Type) (xs : list A) a, 0 <= a <= Z.of_nat (length xs) -> slice_from xs a = Ok (skipn (Z.to_nat a) xs).
Proof.
  intros A xs a Ha. unfold slice_from. rewrite slice_ok by lia. f_equal. apply firstn_all2. rewrite skipn_length. lia.
Qed.

Lemma store_ok : forall (A : Type) (xs : list A) i v, 0 <= i < Z.of_nat (length xs) -> store xs i v = Ok (upd xs (Z.to_nat i) v).
Proof. intros A xs i v H. unfold store. replace ((0 <=? i) && (i <? Z.of_nat (length xs))) with true by lia. reflexivity. Qed.

Lemma rd_ok : forall s i, 0 <= i < Z.of_nat (length s) -> rd (map Some s) i = Ok (nth (Z.to_nat i) s 0).
Proof.
  intros s i H. unfold rd. rewrite (index_nth _ _ _ (Some 0)) by (unfold lenZ; rewrite map_length; lia).
  cbn [bind]. rewrite (map_nth Some). reflexivity.
Qed.

Lemma resize_length : forall buf n, 0 <= n -> length (resize buf n) = Z.to_nat n.
Proof. intros. unfold resize. rewrite app_length, firstn_length, repeat_length. lia. Qed.

Definition ubytes (l : list Z) : Prop := Forall (fun x => 0 <= x <= 255) l.
Lemma byte_nth : forall p i, ubytes p -> 0 <= nth i p 0 <= 255.
Proof. intros. apply Forall_nth_d; auto. lia. Qed.
Lemma bytes_skipn : forall p k, ubytes p -> ubytes (skipn k p).
Proof. intros p k H. apply Forall_forall. intros x Hx. unfold ubytes in H. rewrite Forall_forall in H. apply H. rewrite <- (firstn_skipn k p). apply in_or_app. auto. Qed.
Lemma bytes_firstn : forall p k, ubytes p -> ubytes (firstn k p).
Proof. intros p k H. apply Forall_forall. intros x Hx. unfold ubytes in H. rewrite Forall_forall in H. apply H. rewrite <- (firstn_skipn k p). apply in_or_app. auto. Qed.
Lemma bytes_tl : forall x p, ubytes (x :: p) -> ubytes p.
Proof. intros x p H. inversion H; auto. Qed.

Lemma wrap8_shift : forall x n d, 0 <= n -> d = 2 ^ n -> 0 <= x < 256 * d -> wrap 8 (Z.shiftr x n) = x / d.
Proof.
  intros x n d Hn -> H. assert (0 < 2 ^ n) by (apply Z.pow_pos_nonneg; lia).
  rewrite Z.shiftr_div_pow2 by auto. apply wrap_id. change (2 ^ 8) with 256. split; [apply Z.div_pos; lia|].
  apply Z.div_lt_upper_bound; lia.
Qed.

(** ** Kernels *)
Lemma h1v2_ok : forall outs near far, ubytes near -> ubytes far -> (length outs <= length near)%nat -> (length outs <= length far)%nat ->
  exists line, h1v2_loop outs (map Some near) (map Some far) = Ok line /\ length line = length outs /\
    forall i, (i < length outs)%nat -> nth i line 0 = (3 * nth i near 0 + nth i far 0 + 2) / 4.
Proof.
  induction outs as [|o outs IH]; intros near far Bn Bf Ln Lf.
  - exists []. splits; auto. cbn [length]. lia.
  - destruct near as [|n near]; [cbn in Ln; lia|]. destruct far as [|f far]; [cbn in Lf; lia|].
    cbn [length] in Ln, Lf. destruct (IH near far) as [line [E [L V]]]; try lia; eauto using bytes_tl.
    pose proof (byte_nth _ 0%nat Bn). pose proof (byte_nth _ 0%nat Bf). cbn [nth] in *.
    exists ((3 * n + f + 2) / 4 :: line). splits.
    + cbn [map h1v2_loop read bind]. rewrite E. cbn [bind]. rewrite (wrap8_shift _ 2 4) by lia. reflexivity.
    + cbn [length]. lia.
    + intros [|i] Hi; [reflexivity|]. cbn [nth length] in *. apply V. lia.
Qed.

Definition tval (near far : list Z) (t : Z) (j : nat) : Z :=
  match j with O => t | S j => 3 * nth j near 0 + nth j far 0 end.

Lemma tval_range : forall near far t j, ubytes near -> ubytes far -> 0 <= t <= 1020 -> 0 <= tval near far t j <= 1020.
Proof. intros near far t [|j] Bn Bf Ht; cbn [tval]; auto. pose proof (byte_nth _ j Bn). pose proof (byte_nth _ j Bf). lia. Qed.

Lemma h2v2_ok : forall n outs near far t, ubytes near -> ubytes far -> 0 <= t <= 1020 ->
  (2 * n <= length outs <= 2 * n + 1)%nat -> (n <= length near)%nat -> (n <= length far)%nat ->
  exists line, h2v2_loop outs (map Some near) (map Some far) t = Ok (line, tval near far t n) /\ length line = length outs /\
    forall j, (j < n)%nat ->
      nth (2 * j) line 0 = (3 * tval near far t j + tval near far t (S j) + 8) / 16 /\
      nth (2 * j + 1) line 0 = (3 * tval near far t (S j) + tval near far t j + 8) / 16.
Proof.
  induction n as [|n IH]; intros outs near far t Bn Bf Ht Lo Ln Lf.
  - exists outs. splits; auto; [|intros; lia]. destruct outs as [|o [|o2 outs]]; cbn [length] in Lo; try lia; destruct near, far; reflexivity.
  - destruct outs as [|o [|o2 outs]]; cbn [length] in Lo; try lia.
    destruct near as [|a near]; [cbn in Ln; lia|]. destruct far as [|f far]; [cbn in Lf; lia|]. cbn [length] in Ln, Lf.
    pose proof (byte_nth _ 0%nat Bn). pose proof (byte_nth _ 0%nat Bf). cbn [nth] in *.
    destruct (IH outs near far (3 * a + f)) as [line [E [L V]]]; try lia; eauto using bytes_tl.
    exists ((3 * t + (3 * a + f) + 8) / 16 :: (3 * (3 * a + f) + t + 8) / 16 :: line). splits.
    + cbn [map h2v2_loop read bind]. rewrite E. cbn [bind]. rewrite !(wrap8_shift _ 4 16) by lia.
      do 2 f_equal. destruct n; reflexivity.
    + cbn [length]. lia.
    + intros [|j] Hj; [split; reflexivity|]. destruct (V j) as [V1 V2]; [lia|].
      replace (2 * S j)%nat with (S (S (2 * j))) by lia. replace (S (S (2 * j)) + 1)%nat with (S (S (2 * j + 1))) by lia.
      cbn [nth]. rewrite V1, V2. destruct j; split; reflexivity.
Qed.

Lemma h2v1_ok : forall n outs s, ubytes s -> (2 * n <= length outs <= 2 * n + 1)%nat -> (n + 2 <= length s)%nat ->
  exists line, h2v1_loop outs (map Some s) = Ok line /\ length line = length outs /\
    (forall j, (j < n)%nat ->
      nth (2 * j) line 0 = (3 * nth (j + 1) s 0 + nth j s 0 + 2) / 4 /\
      nth (2 * j + 1) line 0 = (3 * nth (j + 1) s 0 + nth (j + 2) s 0 + 2) / 4).
Proof.
  induction n as [|n IH]; intros outs s Bs Lo Ls.
  - exists outs. splits; auto; [|intros; lia]. destruct outs as [|o [|o2 outs]]; cbn [length] in Lo; try lia; reflexivity.
  - destruct outs as [|o [|o2 outs]]; cbn [length] in Lo; try lia.
    destruct s as [|a [|b [|c s]]]; cbn [length] in Ls; try lia.
    destruct (IH outs (b :: c :: s)) as [line [E [L V]]]; cbn [length]; try lia; eauto using bytes_tl.
    pose proof (byte_nth _ 0%nat Bs). pose proof (byte_nth _ 1%nat Bs). pose proof (byte_nth _ 2%nat Bs). cbn [nth] in *.
    exists ((3 * b + a + 2) / 4 :: (3 * b + c + 2) / 4 :: line). splits.
    + cbn [map] in *. cbn [h2v1_loop read bind]. rewrite E. cbn [bind]. rewrite !(wrap8_shift _ 2 4) by lia. replace (3 * b + 2 + a) with (3 * b + a + 2) by lia. replace (3 * b + 2 + c) with (3 * b + c + 2) by lia. reflexivity.
    + cbn [length]. lia.
    + intros [|j] Hj; [split; reflexivity|]. destruct (V j) as [V1 V2]; [lia|].
      replace (2 * S j)%nat with (S (S (2 * j))) by lia. replace (S (S (2 * j)) + 1)%nat with (S (S (2 * j + 1))) by lia.
      cbn [nth Nat.add]. rewrite V1, V2. split; reflexivity.
Qed.

Lemma nth_skipn_Z : forall (l : list Z) k i, nth i (skipn k l) 0 = nth (k + i) l 0.
Proof. exact px_skipn. Qed.

Lemma generic_ok : forall hf s outs, 0 < hf ->
  exists line, generic_loop hf outs (map Some s) = Ok line /\ length line = length outs /\
    forall i, 0 <= i < lenZ outs ->
      nth (Z.to_nat i) line 0 =
        (if (i <? hf * (lenZ outs / hf)) && (i / hf <? lenZ s) then nth (Z.to_nat (i / hf)) s 0 else nth (Z.to_nat i) outs 0).
Proof.
  intros hf s. induction s as [|v s IH]; intros outs Hf.
  - exists outs. splits; auto. intros i Hi. cbn [map generic_loop]. replace (i / hf <? lenZ (@nil Z)) with false.
    + rewrite andb_false_r. reflexivity.
    + symmetry. apply Z.ltb_ge. unfold lenZ. cbn [length]. apply Z.div_pos; lia.
  - cbn [map generic_loop]. destruct (Z.ltb_spec (lenZ outs) hf) as [L|L].
    + exists outs. splits; auto. intros i Hi. rewrite Z.div_small by lia. replace (i <? hf * 0) with false by lia. reflexivity.
    + destruct (IH (skipn (Z.to_nat hf) outs) Hf) as [line [E [Len V]]]. unfold lenZ in *.
      rewrite skipn_length in *.
      exists (repeat v (Z.to_nat hf) ++ line). splits.
      * cbn [read bind]. rewrite E. reflexivity.
      * rewrite app_length, repeat_length, Len. lia.
      * intros i Hi. assert (D : Z.of_nat (length outs - Z.to_nat hf) = Z.of_nat (length outs) - hf) by lia.
        assert (Q : (Z.of_nat (length outs) - hf) / hf = Z.of_nat (length outs) / hf - 1).
        { replace (Z.of_nat (length outs) - hf) with (Z.of_nat (length outs) + (-1) * hf) by ring. rewrite Z.div_add by lia. lia. }
        destruct (Z_lt_le_dec i hf) as [C|C].
        -- rewrite app_nth1 by (rewrite repeat_length; lia).
           assert (1 <= Z.of_nat (length outs) / hf) by (apply Z.div_le_lower_bound; lia).
           rewrite (Z.div_small i hf) by lia. replace ((i <? _) && (0 <? Z.of_nat (length (v :: s)))) with true.
           ++ cbn [Z.to_nat nth]. rewrite (nth_indep _ 0 v) by (rewrite repeat_length; lia). apply nth_repeat.
           ++ symmetry. apply andb_true_iff. split; [nia|cbn [length]; lia].
        -- rewrite app_nth2, repeat_length by (rewrite repeat_length; lia).
           specialize (V (i - hf) ltac:(lia)). replace (Z.to_nat i - Z.to_nat hf)%nat with (Z.to_nat (i - hf)) by lia.
           rewrite V, D, Q. assert (R : (i - hf) / hf = i / hf - 1).
           { replace (i - hf) with (i + (-1) * hf) by ring. rewrite Z.div_add by lia. lia. }
           assert (1 <= i / hf) by (apply Z.div_le_lower_bound; lia).
           rewrite R. replace (i / hf <? Z.of_nat (length (v :: s))) with (i / hf - 1 <? Z.of_nat (length s)) by (cbn [length]; lia).
           replace (i - hf <? hf * (Z.of_nat (length outs) / hf - 1)) with (i <? hf * (Z.of_nat (length outs) / hf)) by nia.
           clear V. destruct (_ && _).
           ++ replace (Z.to_nat (i / hf)) with (S (Z.to_nat (i / hf - 1))) by lia. reflexivity.
           ++ rewrite nth_skipn_Z. f_equal. lia.
Qed.

(** ** Rows *)
Lemma row_ext : forall l n f, length l = Z.to_nat n -> (forall i, 0 <= i < n -> nth (Z.to_nat i) l 0 = f i) -> l = map f (zrange n).
Proof.
  intros l n f L V. apply nth_ext with (d := 0) (d' := f 0).
  - rewrite map_length, zrange_length. auto.
  - intros i Hi. rewrite map_nth, nth_zrange by lia. rewrite <- V by lia. f_equal. lia.
Qed.

Lemma fits_row : forall p stride w h y, plane_fits p stride w h -> 0 <= y < h ->
  0 <= y * stride /\ y * stride + stride <= Z.of_nat (length p).
Proof. intros p stride w h y (B & W & H & L) Hy. nia. Qed.

Lemma neighbour_range : forall last i, 0 <= i -> i / 2 <= last -> 0 <= neighbour last i <= last.
Proof. intros. unfold neighbour. destruct (Z.even i); lia. Qed.

Lemma h1v1_row : forall p stride w h row width, plane_fits p stride w h -> 0 <= row < h -> 0 <= width <= stride ->
  up_h1v1 (map Some p) stride row width = Ok (map Some (map (px p stride row) (zrange width))).
Proof.
  intros p stride w h row width F R W. destruct (fits_row _ _ _ _ row F R) as [A B]. unfold up_h1v1.
  rewrite slice_ok by (rewrite ?map_length; lia). f_equal. rewrite skipn_map_some, firstn_map. f_equal.
  replace (row * stride + width - row * stride) with width by lia. apply row_ext.
  - rewrite firstn_length, skipn_length. lia.
  - intros i Hi. unfold px. rewrite <- (firstn_skipn (Z.to_nat width) (skipn (Z.to_nat (row * stride)) p)) at 1.
    transitivity (nth (Z.to_nat i) (skipn (Z.to_nat (row * stride)) p) 0).
    + rewrite firstn_skipn. rewrite <- (firstn_skipn (Z.to_nat width) (skipn (Z.to_nat (row * stride)) p)) at 2.
      rewrite app_nth1; auto. rewrite firstn_length, skipn_length. lia.
    + rewrite px_skipn. f_equal. lia.
Qed.

Lemma near_far : forall p stride w h row, plane_fits p stride w h -> 0 <= row < 2 * h ->
  row_near row = row / 2 /\ row_far row (h - 1) = neighbour (h - 1) row /\ 0 <= row / 2 < h /\ 0 <= neighbour (h - 1) row < h.
Proof.
  intros p stride w h row (B & W & H & L) R.
  rewrite near_half, far_neighbour by (change (2 ^ 17) with 131072; lia).
  pose proof (neighbour_range (h - 1) row). lia.
Qed.

Lemma h1v2_row : forall dbg p stride w h row width buf, plane_fits p stride w h -> 0 <= row < 2 * h -> 0 <= width <= stride ->
  up_h1v2 dbg (map Some p) (mkDims w h) stride row width buf = Ok (map (double_height p stride h row) (zrange width)).
Proof.
  intros dbg p stride w h row width buf F R W. destruct (near_far _ _ _ _ _ F R) as (N & Fa & BN & BF).
  destruct (fits_row _ _ _ _ _ F BN) as [A1 A2]. destruct (fits_row _ _ _ _ _ F BF) as [A3 A4].
  unfold up_h1v2. cbn [dim_h]. unfold usub. assert (Hh : 0 < h) by (destruct F as (_ & _ & H & _); lia).
  replace (h <? 1) with false by lia. cbn [bind]. rewrite N, Fa.
  rewrite !slice_from_ok by (rewrite map_length; lia). cbn [bind]. rewrite !skipn_map_some.
  assert (Bp : ubytes p) by apply F.
  destruct (h1v2_ok (resize buf width) (skipn (Z.to_nat (row / 2 * stride)) p) (skipn (Z.to_nat (neighbour (h - 1) row * stride)) p))
    as [line [E [L V]]]; auto using bytes_skipn; rewrite ?skipn_length, ?resize_length by lia; try lia.
  rewrite E. f_equal. rewrite resize_length in * by lia. apply row_ext; auto.
  intros i Hi. rewrite V by lia. rewrite !px_skipn. unfold double_height, px. repeat f_equal; lia.
Qed.

Lemma h2v2_row : forall dbg p stride w h row buf, plane_fits p stride w h -> 0 <= row < 2 * h ->
  up_h2v2 dbg (map Some p) (mkDims w h) stride row buf = Ok (map (double_both p stride w h row) (zrange (w * 2))).
Proof.
  intros dbg p stride w h row buf F R. destruct (near_far _ _ _ _ _ F R) as (N & Fa & BN & BF).
  destruct (fits_row _ _ _ _ _ F BN) as [A1 A2]. destruct (fits_row _ _ _ _ _ F BF) as [A3 A4].
  assert (Bp : ubytes p) by apply F. assert (Hw : 0 < w <= stride) by apply F. assert (Hh : 0 < h) by (destruct F as (_ & _ & H & _); lia).
  unfold up_h2v2. cbn [dim_h dim_w]. unfold usub. 
  replace (h <? 1) with false by lia. cbn [bind]. rewrite N, Fa.
  rewrite !slice_from_ok by (rewrite map_length; lia). cbn [bind]. rewrite !skipn_map_some.
  set (near := skipn (Z.to_nat (row / 2 * stride)) p). set (far := skipn (Z.to_nat (neighbour (h - 1) row * stride)) p).
  assert (Bn : ubytes near) by (apply bytes_skipn; auto). assert (Bf : ubytes far) by (apply bytes_skipn; auto).
  assert (Ln : (Z.to_nat w <= length near)%nat) by (unfold near; rewrite skipn_length; lia).
  assert (Lf : (Z.to_nat w <= length far)%nat) by (unfold far; rewrite skipn_length; lia).
  assert (Pn : forall i, 0 <= i -> px p stride (row / 2) i = nth (Z.to_nat i) near 0).
  { intros i Hi. unfold px, near. rewrite px_skipn. f_equal. lia. }
  assert (Pf : forall i, 0 <= i -> px p stride (neighbour (h - 1) row) i = nth (Z.to_nat i) far 0).
  { intros i Hi. unfold px, far. rewrite px_skipn. f_equal. lia. }
  clearbody near far. rewrite !rd_ok by lia. cbn [bind]. change (Z.to_nat 0) with 0%nat.
  pose proof (byte_nth _ 0%nat Bn) as Bn0. pose proof (byte_nth _ 0%nat Bf) as Bf0.
  destruct (Z.eqb_spec w 1) as [E1|E1].
  - subst w. rewrite (wrap8_shift _ 2 4) by lia. rewrite store_ok by (rewrite resize_length; lia). cbn [bind].
    rewrite store_ok by (rewrite upd_length, resize_length; lia). f_equal. apply row_ext.
    + rewrite !upd_length, resize_length by lia. reflexivity.
    + intros i Hi. change (1 * 2) with 2 in *. change (Z.to_nat 0) with 0%nat. change (Z.to_nat 1) with 1%nat.
      assert (E : double_both p stride 1 h row i = (3 * nth 0 near 0 + nth 0 far 0 + 2) / 4).
      { unfold double_both. rewrite !Pn, !Pf by (unfold neighbour; destruct (Z.even i); lia).
        replace (i / 2) with 0 by lia. replace (neighbour (1 - 1) i) with 0 by (unfold neighbour; destruct (Z.even i); lia).
        change (Z.to_nat 0) with 0%nat. lia. }
      rewrite E. destruct (Z.eq_dec i 0) as [->|Hz].
      * change (Z.to_nat 0) with 0%nat. rewrite nth_upd_neq by lia. rewrite nth_upd_eq by (rewrite resize_length; lia). reflexivity.
      * replace i with 1 by lia. change (Z.to_nat 1) with 1%nat. rewrite nth_upd_eq by (rewrite upd_length, resize_length; lia). reflexivity.
  - rewrite (wrap8_shift _ 2 4) by lia. rewrite store_ok by (rewrite resize_length; lia). cbn [bind].
    rewrite slice_from_ok by (rewrite upd_length, resize_length; lia). cbn [bind].
    rewrite !slice_from_ok by (rewrite map_length; lia). cbn [bind]. change (Z.to_nat 0) with 0%nat. change (Z.to_nat 1) with 1%nat.
    rewrite !skipn_map_some.
    set (t0 := 3 * nth 0 near 0 + nth 0 far 0) in *.
    assert (LR : length (resize buf (w * 2)) = Z.to_nat (w * 2)) by (apply resize_length; lia).
    destruct (resize buf (w * 2)) as [|r0 rs] eqn:ER; [cbn [length] in LR; lia|]. cbn [upd skipn firstn]. cbn [length] in LR.
    destruct (h2v2_ok (Z.to_nat (w - 1)) rs (skipn 1 near) (skipn 1 far) t0) as [line [E [L V]]]; auto using bytes_skipn; rewrite ?skipn_length; try lia.
    change (match near with [] => [] | _ :: l => l end) with (skipn 1 near). change (match far with [] => [] | _ :: l => l end) with (skipn 1 far).
    rewrite E. cbn [bind]. clear ER.
    replace (w * 2 <? 1) with false by lia. cbn [bind].
    assert (TV : forall j, tval (skipn 1 near) (skipn 1 far) t0 j = 3 * nth j near 0 + nth j far 0).
    { intros [|j]; [reflexivity|]. cbn [tval]. rewrite !px_skipn. reflexivity. }
    assert (TR : 0 <= tval (skipn 1 near) (skipn 1 far) t0 (Z.to_nat (w - 1)) <= 1020).
    { rewrite TV. pose proof (byte_nth _ (Z.to_nat (w - 1)) Bn). pose proof (byte_nth _ (Z.to_nat (w - 1)) Bf). lia. }
    rewrite (wrap8_shift _ 2 4) by lia.
    change ([(t0 + 2) / 4] ++ line) with ((t0 + 2) / 4 :: line).
    rewrite store_ok by (cbn [length]; lia). f_equal. apply row_ext.
    + rewrite upd_length. cbn [length]. lia.
    + intros i Hi. destruct (Z.eq_dec i (w * 2 - 1)) as [->|Hz].
      * rewrite nth_upd_eq by (cbn [length]; lia). rewrite TV. unfold double_both.
        replace ((w * 2 - 1) / 2) with (w - 1) by lia.
        replace (neighbour (w - 1) (w * 2 - 1)) with (w - 1).
        2:{ unfold neighbour. replace (Z.even (w * 2 - 1)) with false; [lia|]. rewrite Zeven_mod, Zeq_is_eq_bool_eqb. lia. }
        rewrite !Pn, !Pf by lia. lia.
      * rewrite nth_upd_neq by lia. destruct (Z.eq_dec i 0) as [->|Hz0].
        -- change (Z.to_nat 0) with 0%nat. cbn [nth]. unfold double_both. change (neighbour (w - 1) 0) with 0. change (0 / 2) with 0.
           rewrite !Pn, !Pf by lia. change (Z.to_nat 0) with 0%nat. unfold t0. lia.
        -- destruct (Z.to_nat i) as [|k] eqn:Ek; [lia|]. cbn [nth].
           unfold double_both.
           assert (NB : neighbour (w - 1) i = if i mod 2 =? 0 then Z.max (i / 2 - 1) 0 else Z.min (i / 2 + 1) (w - 1))
             by (unfold neighbour; rewrite Zeven_mod, Zeq_is_eq_bool_eqb; reflexivity).
           rewrite NB. clear NB. destruct (Z.eqb_spec (i mod 2) 0) as [Ev|Od].
           ++ destruct (V (Z.to_nat (i / 2 - 1))) as [_ V2]; [lia|]. rewrite !TV in V2.
              replace (2 * Z.to_nat (i / 2 - 1) + 1)%nat with k in V2 by lia. rewrite V2.
              replace (S (Z.to_nat (i / 2 - 1))) with (Z.to_nat (i / 2)) by lia.
              replace (Z.max (i / 2 - 1) 0) with (i / 2 - 1) by lia. rewrite !Pn, !Pf by lia. f_equal. ring.
           ++ destruct (V (Z.to_nat (i / 2))) as [V1 _]; [lia|]. rewrite !TV in V1.
              replace (2 * Z.to_nat (i / 2))%nat with k in V1 by lia. rewrite V1.
              replace (S (Z.to_nat (i / 2))) with (Z.to_nat (i / 2 + 1)) by lia.
              replace (Z.min (i / 2 + 1) (w - 1)) with (i / 2 + 1) by lia. rewrite !Pn, !Pf by lia. f_equal. ring.
Qed.

Lemma nth_firstn_Z : forall (l : list Z) k i, (i < k)%nat -> nth i (firstn k l) 0 = nth i l 0.
Proof.
  intros l k. revert l. induction k as [|k IH]; intros l i H; [lia|]. destruct l as [|x l]; [destruct i; reflexivity|].
  cbn [firstn]. destruct i as [|i]; cbn [nth]; auto. apply IH. lia.
Qed.

Lemma neighbour_parity : forall last i, neighbour last i = if i mod 2 =? 0 then Z.max (i / 2 - 1) 0 else Z.min (i / 2 + 1) last.
Proof. intros. unfold neighbour. rewrite Zeven_mod, Zeq_is_eq_bool_eqb. reflexivity. Qed.

Lemma h2v1_row : forall dbg p stride w row buf, ubytes p -> 0 < w -> 0 <= row * stride -> row * stride + 2 * w <= lenZ p ->
  up_h2v1 dbg (map Some p) (mkDims w 0) stride row (2 * w) buf = Ok (map (double_width p stride w row) (zrange (2 * w))).
Proof.
  intros dbg p stride w row buf Bp Hw A B. unfold lenZ in B. unfold up_h2v1. cbn [dim_w].
  rewrite slice_ok by (rewrite ?map_length; lia). cbn [bind]. rewrite skipn_map_some, firstn_map.
  replace (row * stride + 2 * w - row * stride) with (2 * w) by lia.
  set (s := firstn (Z.to_nat (2 * w)) (skipn (Z.to_nat (row * stride)) p)).
  assert (Bs : ubytes s) by (apply bytes_firstn, bytes_skipn; auto).
  assert (Ls : length s = Z.to_nat (2 * w)) by (unfold s; rewrite firstn_length, skipn_length; lia).
  assert (Ps : forall i, 0 <= i < 2 * w -> px p stride row i = nth (Z.to_nat i) s 0).
  { intros i Hi. unfold px, s. rewrite nth_firstn_Z by lia. rewrite px_skipn. f_equal. lia. }
  clearbody s.
  assert (LR : length (resize buf (2 * w)) = Z.to_nat (2 * w)) by (apply resize_length; lia).
  destruct (Z.eqb_spec w 1) as [E1|E1].
  - subst w. rewrite rd_ok by lia. cbn [bind]. rewrite store_ok by lia. cbn [bind]. rewrite store_ok by (rewrite upd_length; lia).
    f_equal. apply row_ext; [rewrite !upd_length; auto|]. intros i Hi. change (Z.to_nat 0) with 0%nat. change (Z.to_nat 1) with 1%nat.
    assert (E : double_width p stride 1 row i = nth 0 s 0).
    { unfold double_width. replace (neighbour (1 - 1) i) with 0 by (rewrite neighbour_parity; destruct (i mod 2 =? 0); lia).
      replace (i / 2) with 0 by lia. rewrite !Ps by lia. change (Z.to_nat 0) with 0%nat. lia. }
    rewrite E. destruct (Z.eq_dec i 0) as [->|Hz].
    + change (Z.to_nat 0) with 0%nat. rewrite nth_upd_neq by lia. apply nth_upd_eq. lia.
    + replace (Z.to_nat i) with 1%nat by lia. apply nth_upd_eq. rewrite upd_length. lia.
  - rewrite !rd_ok by lia. cbn [bind]. rewrite store_ok by lia. cbn [bind]. rewrite store_ok by (rewrite upd_length; lia). cbn [bind].
    change (Z.to_nat 0) with 0%nat. change (Z.to_nat 1) with 1%nat.
    rewrite slice_from_ok by (rewrite !upd_length; lia). cbn [bind].
    destruct (resize buf (2 * w)) as [|r0 [|r1 rs]] eqn:ER; [cbn [length] in LR; lia|cbn [length] in LR; lia|]. cbn [upd].
    change (Z.to_nat 2) with 2%nat. cbn [skipn firstn app]. cbn [length] in LR. clear ER.
    destruct (h2v1_ok (Z.to_nat (w - 1)) rs s) as [line [E [L V]]]; auto; try lia. rewrite E. cbn [bind].
    unfold usub. replace (w <? 1) with false by lia. replace (w <? 2) with false by lia. cbn [bind].
    rewrite !rd_ok by lia. cbn [bind].
    pose proof (byte_nth _ 0%nat Bs). pose proof (byte_nth _ 1%nat Bs).
    pose proof (byte_nth _ (Z.to_nat (w - 1)) Bs). pose proof (byte_nth _ (Z.to_nat (w - 2)) Bs).
    rewrite !(wrap8_shift _ 2 4) by lia.
    rewrite store_ok by (cbn [length]; lia). cbn [bind]. rewrite store_ok by (rewrite upd_length; cbn [length]; lia).
    f_equal. apply row_ext; [rewrite !upd_length; cbn [length]; lia|].
    intros i Hi. unfold double_width. rewrite neighbour_parity.
    destruct (Z.eq_dec i (2 * w - 1)) as [->|I1].
    { replace ((w - 1) * 2 + 1) with (2 * w - 1) by lia. rewrite nth_upd_eq by (rewrite upd_length; cbn [length]; lia).
      replace ((2 * w - 1) mod 2 =? 0) with false by lia. replace ((2 * w - 1) / 2) with (w - 1) by lia.
      replace (Z.min (w - 1 + 1) (w - 1)) with (w - 1) by lia. rewrite !Ps by lia. lia. }
    rewrite nth_upd_neq by lia. destruct (Z.eq_dec i (2 * w - 2)) as [->|I2].
    { replace ((w - 1) * 2) with (2 * w - 2) by lia. rewrite nth_upd_eq by (cbn [length]; lia).
      replace ((2 * w - 2) mod 2 =? 0) with true by lia. replace ((2 * w - 2) / 2) with (w - 1) by lia.
      replace (Z.max (w - 1 - 1) 0) with (w - 2) by lia. rewrite !Ps by lia. f_equal. ring. }
    rewrite nth_upd_neq by lia. destruct (Z.to_nat i) as [|[|k]] eqn:Ek; cbn [nth].
    + replace i with 0 by lia. change (0 mod 2 =? 0) with true. cbv iota. change (0 / 2) with 0. change (Z.max (0 - 1) 0) with 0.
      rewrite Ps by lia. change (Z.to_nat 0) with 0%nat. lia.
    + replace i with 1 by lia. change (1 mod 2 =? 0) with false. cbv iota. change (1 / 2) with 0. replace (Z.min (0 + 1) (w - 1)) with 1 by lia.
      rewrite !Ps by lia. change (Z.to_nat 0) with 0%nat. change (Z.to_nat 1) with 1%nat. f_equal. ring.
    + destruct (V (Z.to_nat (i / 2 - 1))) as [V1 V2]; [lia|].
      replace (Z.to_nat (i / 2 - 1) + 1)%nat with (Z.to_nat (i / 2)) in * by lia.
      replace (Z.to_nat (i / 2 - 1) + 2)%nat with (Z.to_nat (i / 2 + 1)) in * by lia.
      destruct (Z.eqb_spec (i mod 2) 0) as [Ev|Od].
      * replace k with (2 * Z.to_nat (i / 2 - 1))%nat by lia. rewrite V1. rewrite !Ps by lia.
        replace (Z.max (i / 2 - 1) 0) with (i / 2 - 1) by lia. reflexivity.
      * replace k with (2 * Z.to_nat (i / 2 - 1) + 1)%nat by lia. rewrite V2. rewrite !Ps by lia.
        replace (Z.min (i / 2 + 1) (w - 1)) with (i / 2 + 1) by lia. reflexivity.
Qed.

(** Widths smaller than twice the component's width: the last stores miss the buffer. *)
Lemma store_out : forall (A : Type) (xs : list A) i v, ~ 0 <= i < Z.of_nat (length xs) -> store xs i v = Panic PIndex.
Proof. intros A xs i v H. unfold store. replace ((0 <=? i) && (i <? Z.of_nat (length xs))) with false by lia. reflexivity. Qed.

Lemma h2v1_narrow : forall dbg p stride w row width buf, ubytes p -> 2 <= w < 2 ^ 16 -> w < width < 2 * w ->
  0 <= row * stride -> row * stride + width <= lenZ p ->
  up_h2v1 dbg (map Some p) (mkDims w 0) stride row width buf = Panic PIndex.
Proof.
  intros dbg p stride w row width buf Bp Hw Hd A B. unfold lenZ in B. unfold up_h2v1. cbn [dim_w].
  rewrite slice_ok by (rewrite ?map_length; lia). cbn [bind]. rewrite skipn_map_some, firstn_map.
  replace (row * stride + width - row * stride) with width by lia.
  set (s := firstn (Z.to_nat width) (skipn (Z.to_nat (row * stride)) p)).
  assert (Bs : ubytes s) by (apply bytes_firstn, bytes_skipn; auto).
  assert (Ls : length s = Z.to_nat width) by (unfold s; rewrite firstn_length, skipn_length; lia).
  clearbody s.
  assert (LR : length (resize buf width) = Z.to_nat width) by (apply resize_length; lia).
  replace (w =? 1) with false by lia.
  rewrite !rd_ok by lia. cbn [bind]. rewrite store_ok by lia. cbn [bind]. rewrite store_ok by (rewrite upd_length; lia). cbn [bind].
  rewrite slice_from_ok by (rewrite !upd_length; lia). cbn [bind].
  change (Z.to_nat 0) with 0%nat. change (Z.to_nat 1) with 1%nat.
  destruct (resize buf width) as [|r0 [|r1 rs]] eqn:ER; [cbn [length] in LR; lia|cbn [length] in LR; lia|]. cbn [upd].
  change (Z.to_nat 2) with 2%nat. cbn [skipn firstn app]. cbn [length] in LR. clear ER.
  destruct (h2v1_ok (length rs / 2) rs s) as [line [E [L V]]]; auto; try lia. rewrite E. cbn [bind].
  unfold usub. replace (w <? 1) with false by lia. replace (w <? 2) with false by lia. cbn [bind].
  rewrite !rd_ok by lia. cbn [bind].
  destruct (Z.lt_ge_cases ((w - 1) * 2) width) as [D|D].
  - rewrite store_ok by (cbn [length]; lia). cbn [bind]. apply store_out. rewrite upd_length. cbn [length]. lia.
  - rewrite store_out by (cbn [length]; lia). reflexivity.
Qed.

Lemma h2v1_past_end : forall dbg p stride w h row width buf, 0 <= row * stride -> lenZ p < row * stride + width ->
  up_h2v1 dbg (map Some p) (mkDims w h) stride row width buf = Panic PIndex.
Proof.
  intros. unfold up_h2v1, slice, lenZ in *. rewrite map_length.
  replace ((0 <=? row * stride) && (row * stride <=? row * stride + width) && (row * stride + width <=? Z.of_nat (length p))) with false by lia.
  reflexivity.
Qed.

(** The generic upsampler repeats samples as long as whole groups fit the row. *)
Lemma generic_row : forall p stride w h hf vf row width buf, plane_fits p stride w h -> 0 < hf -> 0 < vf -> 0 <= row < vf * h ->
  0 <= width -> width <= hf * w ->
  up_generic hf vf (map Some p) (mkDims w h) stride row width buf =
  Ok (map (fun x => if x <? hf * (width / hf) then px p stride (row / vf) (x / hf) else nth (Z.to_nat x) (resize buf width) 0) (zrange width)).
Proof.
  intros p stride w h hf vf row width buf F Hh Hv R W0 W.
  assert (RV : 0 <= row / vf < h) by (split; [apply Z.div_pos; lia | apply Z.div_lt_upper_bound; lia]).
  destruct (fits_row _ _ _ _ _ F RV) as [A B]. assert (Hw : 0 < w <= stride) by apply F.
  unfold up_generic. cbn [dim_w].
  rewrite slice_ok by (rewrite ?map_length; lia). cbn [bind]. rewrite skipn_map_some, firstn_map.
  replace (row / vf * stride + w - row / vf * stride) with w by lia.
  set (s := firstn (Z.to_nat w) (skipn (Z.to_nat (row / vf * stride)) p)).
  assert (Ls : length s = Z.to_nat w) by (unfold s; rewrite firstn_length, skipn_length; lia).
  assert (Ps : forall i, 0 <= i < w -> px p stride (row / vf) i = nth (Z.to_nat i) s 0).
  { intros i Hi. unfold px, s. rewrite nth_firstn_Z by lia. rewrite px_skipn. f_equal. lia. }
  clearbody s. destruct (generic_ok hf s (resize buf width) Hh) as [line [E [L V]]]. rewrite E. f_equal.
  unfold lenZ in *. rewrite resize_length in * by auto. replace (Z.of_nat (Z.to_nat width)) with width in * by lia.
  apply row_ext; auto. intros i Hi. rewrite V by auto.
  assert (0 <= i / hf) by (apply Z.div_pos; lia).
  destruct (Z.ltb_spec i (hf * (width / hf))) as [Hl|Hl]; cbn [andb]; auto.
  assert (i / hf < w).
  { apply Z.div_lt_upper_bound; auto. lia. }
  replace (i / hf <? Z.of_nat (length s)) with true by lia. rewrite Ps by lia. reflexivity.
Qed.

Lemma h2v1_height : forall dbg p stride w h row width buf,
  up_h2v1 dbg p (mkDims w h) stride row width buf = up_h2v1 dbg p (mkDims w 0) stride row width buf.
Proof. reflexivity. Qed.
