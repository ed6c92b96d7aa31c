(** The inverse DCT: constants, shortcuts, flat blocks, totality. *)
From Verif Require Import Base Tactics SpecBits F32 Clamp Idct Color SpecColor SpecIdct ColorP.

Lemma K_values : K_0_5411961 = 2217 /\ K_m1_847759065 = -7567 /\ K_0_765366865 = 3135 /\ K_1_175875602 = 4816 /\
  K_0_298631336 = 1223 /\ K_2_053119869 = 8410 /\ K_3_072711026 = 12586 /\ K_1_501321110 = 6149 /\
  K_m0_899976223 = -3685 /\ K_m2_562915447 = -10497 /\ K_m1_961570560 = -8034 /\ K_m0_390180644 = -1597.
Proof. repeat split; vm_compute; reflexivity. Qed.

(** ** Wrapping arithmetic *)
Lemma w32_congr : forall x, exists k, w32 x = x + k * 2 ^ 32.
Proof. intros. unfold w32, swrap. change (2 ^ (32 - 1)) with 2147483648. change (2 ^ 32) with 4294967296. exists (- ((x + 2147483648) / 4294967296)). lia. Qed.
Lemma w32_eq : forall x y k, x = y + k * 2 ^ 32 -> w32 x = w32 y.
Proof. intros x y k ->. unfold w32, swrap. change (2 ^ (32 - 1)) with 2147483648. change (2 ^ 32) with 4294967296. lia. Qed.
Lemma w32_add_l : forall a b, w32 (w32 a + b) = w32 (a + b).
Proof. intros. destruct (w32_congr a) as [k E]. apply (w32_eq _ _ k). lia. Qed.
Lemma w32_add_r : forall a b, w32 (a + w32 b) = w32 (a + b).
Proof. intros. rewrite Z.add_comm, w32_add_l. f_equal. lia. Qed.
Lemma w32_sub_l : forall a b, w32 (w32 a - b) = w32 (a - b).
Proof. intros. destruct (w32_congr a) as [k E]. apply (w32_eq _ _ k). lia. Qed.
Lemma w32_sub_r : forall a b, w32 (a - w32 b) = w32 (a - b).
Proof. intros. destruct (w32_congr b) as [k E]. apply (w32_eq _ _ (- k)). lia. Qed.
Lemma w32_mul_l : forall a b, w32 (w32 a * b) = w32 (a * b).
Proof. intros. destruct (w32_congr a) as [k E]. apply (w32_eq _ _ (k * b)). rewrite E. ring. Qed.
Lemma w32_w32 : forall a, w32 (w32 a) = w32 a.
Proof. intros. destruct (w32_congr a) as [k E]. apply (w32_eq _ _ k). lia. Qed.
Lemma w32_0 : w32 0 = 0.
Proof. reflexivity. Qed.

(** Equality up to wrap-around. *)
Definition cg (a b : Z) : Prop := exists k, a = b + k * 2 ^ 32.
Lemma cg_refl : forall a, cg a a.
Proof. intros a. exists 0. lia. Qed.
Lemma cg_w32 : forall a b, cg a b -> cg (w32 a) b.
Proof. intros a b [k ->]. destruct (w32_congr (b + k * 2 ^ 32)) as [j ->]. exists (k + j). lia. Qed.
Lemma cg_add : forall a b c d, cg a b -> cg c d -> cg (a + c) (b + d).
Proof. intros a b c d [k ->] [j ->]. exists (k + j). lia. Qed.
Lemma cg_sub : forall a b c d, cg a b -> cg c d -> cg (a - c) (b - d).
Proof. intros a b c d [k ->] [j ->]. exists (k - j). lia. Qed.
Lemma cg_mul : forall a b c d, cg a b -> cg c d -> cg (a * c) (b * d).
Proof. intros a b c d [k ->] [j ->]. exists (b * j + k * d + k * j * 2 ^ 32). ring. Qed.
Lemma w32_by : forall a b c, cg a b -> b = c -> w32 a = w32 c.
Proof. intros a b c [k ->] ->. apply (w32_eq _ _ k). reflexivity. Qed.

Ltac cg_steps := repeat lazymatch goal with
  | |- cg (w32 _) _ => apply cg_w32
  | |- cg (_ + _) _ => apply cg_add
  | |- cg (_ - _) _ => apply cg_sub
  | |- cg (_ * _) _ => apply cg_mul
  | |- cg _ _ => apply cg_refl end.
(** Proves an equality of wrapped values from the equality of the exact values. *)
Ltac exact_values := unfold wadd, wsub, wmul, stbi_fsh, wshl; rewrite ?Z.shiftl_mul_pow2 by lia;
  eapply w32_by; [cg_steps|].

(** ** Only the first input of a kernel is nonzero *)
Lemma cons_eq : forall (A : Type) (a b : A) l m, a = b -> l = m -> a :: l = b :: m.
Proof. intros; subst; auto. Qed.

Lemma kernel8_dc : forall x s, kernel8 [x; 0; 0; 0; 0; 0; 0; 0] s = repeat (w32 (x * 4096 + s)) 8.
Proof.
  intros. unfold kernel8, kernel_x, kernel_t. destruct K_values as (-> & -> & -> & -> & -> & -> & -> & -> & -> & -> & -> & ->).
  cbn [repeat]. repeat (apply cons_eq; [exact_values; change (2 ^ 12) with 4096; ring|]). reflexivity.
Qed.

Lemma dc_column : forall v, - 2 ^ 19 < v < 2 ^ 19 -> wshl v 2 = wshr (w32 (v * 4096 + 512)) 10.
Proof.
  intros v H. change (2 ^ 19) with 524288 in H. unfold wshl, wshr. rewrite Z.shiftl_mul_pow2, Z.shiftr_div_pow2 by lia.
  change (2 ^ 2) with 4. change (2 ^ 10) with 1024.
  rewrite !w32_id by (change (2 ^ 31) with 2147483648; lia). lia.
Qed.

Lemma zero_product : forall q, dequant 0 q = 0.
Proof. reflexivity. Qed.

(** The shortcut for columns. *)
Lemma zero_column : forall coefs quant i,
  let c k := at64 coefs (i + 8 * k) in let q k := at64 quant (i + 8 * k) in
  - 2 ^ 19 < c 0%nat * q 0%nat < 2 ^ 19 -> (forall k, (1 <= k < 8)%nat -> c k = 0) ->
  idct_column coefs quant i = map (fun x => wshr x 10) (kernel8 (map (fun k => dequant (c k) (q k)) (seq 0 8)) 512).
Proof.
  cbv zeta. intros coefs quant i H Z0. cbv beta in H, Z0. unfold idct_column. cbv zeta. cbn [seq map].
  rewrite (Z0 1%nat), (Z0 2%nat), (Z0 3%nat), (Z0 4%nat), (Z0 5%nat), (Z0 6%nat), (Z0 7%nat) by lia.
  cbn [Z.eqb andb]. rewrite !zero_product, kernel8_dc. unfold dequant.
  revert H. generalize (at64 coefs (i + 8 * 0) * at64 quant (i + 8 * 0)). intros v H.
  rewrite (w32_id v) by (change (2 ^ 19) with 524288 in H; change (2 ^ 31) with 2147483648; lia).
  cbn [repeat map]. rewrite <- dc_column by auto. reflexivity.
Qed.

(** The shortcut for rows. *)
Lemma zero_row : forall dbg x, idct_row dbg [x; 0; 0; 0; 0; 0; 0; 0] =
  mapM (fun x => stbi_clamp dbg (wshr x 17)) (kernel8 [x; 0; 0; 0; 0; 0; 0; 0] X_SCALE).
Proof.
  intros dbg x. unfold idct_row. cbn [tl forallb Z.eqb andb hd]. rewrite kernel8_dc.
  replace (wadd (stbi_fsh x) X_SCALE) with (w32 (x * 4096 + X_SCALE)) by (symmetry; exact_values; change (2 ^ 12) with 4096; ring).
  cbn [repeat mapM]. destruct (stbi_clamp dbg (wshr (w32 (x * 4096 + X_SCALE)) 17)); reflexivity.
Qed.

(** ** Totality *)
Lemma kernel8_shape : forall s sc, length s = 8%nat -> length (kernel8 s sc) = 8%nat /\ Forall (fun x => - 2 ^ 31 <= x < 2 ^ 31) (kernel8 s sc).
Proof.
  intros s sc L. destruct s as [|s0 [|s1 [|s2 [|s3 [|s4 [|s5 [|s6 [|s7 [|s8 s]]]]]]]]]; try discriminate.
  unfold kernel8. destruct (kernel_x s0 s2 s4 s6 sc) as [[[x0 x1] x2] x3]. destruct (kernel_t s1 s3 s5 s7) as [[[t0 t1] t2] t3].
  split; [reflexivity|]. repeat constructor; apply w32_range.
Qed.

Lemma idct_column_length : forall coefs quant i, length (idct_column coefs quant i) = 8%nat.
Proof.
  intros. unfold idct_column. destruct (_ && _); [apply repeat_length|]. rewrite map_length.
  apply kernel8_shape. rewrite map_length. reflexivity.
Qed.

Lemma clamp_shifted : forall dbg x, - 2 ^ 31 <= x < 2 ^ 31 ->
  stbi_clamp dbg (wshr x 17) = Ok (sat ((wshr x 17 + 256) mod 1024 - 256)).
Proof.
  intros dbg x H. apply stbi_clamp_any. left. unfold wshr. rewrite Z.shiftr_div_pow2 by lia.
  change (2 ^ 31) with 2147483648 in *. change (2 ^ 17) with 131072. lia.
Qed.

Definition row_samples (row : list Z) : list Z :=
  if forallb (fun x => x =? 0) (tl row)
  then repeat (sat ((wshr (wadd (stbi_fsh (hd 0 row)) X_SCALE) 17 + 256) mod 1024 - 256)) 8
  else map (fun x => sat ((wshr x 17 + 256) mod 1024 - 256)) (kernel8 row X_SCALE).

Lemma idct_row_total : forall dbg row, length row = 8%nat -> idct_row dbg row = Ok (row_samples row).
Proof.
  intros dbg row L. unfold idct_row, row_samples. destruct (forallb _ _).
  - rewrite clamp_shifted by apply w32_range. reflexivity.
  - apply mapM_ok_map. intros x Hx. apply clamp_shifted.
    destruct (kernel8_shape row X_SCALE L) as [_ F]. rewrite Forall_forall in F. auto.
Qed.

Lemma row_samples_shape : forall row, length row = 8%nat -> length (row_samples row) = 8%nat /\ bytes (row_samples row).
Proof.
  intros row L. unfold row_samples. destruct (forallb _ _).
  - rewrite repeat_length. split; auto. apply Forall_forall. intros x Hx. apply repeat_spec in Hx. subst. apply sat_byte.
  - rewrite map_length. split; [apply kernel8_shape; auto|]. apply Forall_forall. intros x Hx. apply in_map_iff in Hx.
    destruct Hx as [y [<- _]]. apply sat_byte.
Qed.

(** The samples of a block, as a function. *)
Definition block_samples (coefs quant : list Z) : list (list Z) :=
  map (fun r => row_samples (idct_temp_row (map (idct_column coefs quant) (seq 0 8)) r)) (seq 0 8).

Lemma temp_row_length : forall coefs quant r, length (idct_temp_row (map (idct_column coefs quant) (seq 0 8)) r) = 8%nat.
Proof. intros. unfold idct_temp_row. rewrite !map_length, seq_length. reflexivity. Qed.

Lemma idct_block_total : forall dbg coefs quant, idct_block_rows dbg coefs quant = Ok (block_samples coefs quant).
Proof. intros. unfold idct_block_rows, block_samples. apply mapM_ok_map. intros r _. apply idct_row_total, temp_row_length. Qed.

Lemma block_samples_shape : forall coefs quant, length (block_samples coefs quant) = 8%nat /\
  Forall (fun r => length r = 8%nat /\ bytes r) (block_samples coefs quant).
Proof.
  intros. unfold block_samples. split; [rewrite map_length, seq_length; auto|].
  apply Forall_forall. intros x Hx. apply in_map_iff in Hx. destruct Hx as [r [<- _]]. apply row_samples_shape, temp_row_length.
Qed.

(** ** Flat blocks *)

Lemma flat_rows : forall coefs quant r, flat coefs -> (r < 8)%nat ->
  idct_temp_row (map (idct_column coefs quant) (seq 0 8)) r =
    [wshl (dequant (nth 0 coefs 0) (nth 0 quant 0)) 2; 0; 0; 0; 0; 0; 0; 0].
Proof.
  intros coefs quant r D Hr. unfold idct_temp_row. rewrite map_map.
  assert (C : forall i, (i < 8)%nat -> idct_column coefs quant i =
    repeat (if (i =? 0)%nat then wshl (dequant (nth 0 coefs 0) (nth 0 quant 0)) 2 else 0) 8).
  { intros i Hi. unfold idct_column, at64. rewrite (D (i + 8 * 1)%nat), (D (i + 8 * 2)%nat), (D (i + 8 * 3)%nat), (D (i + 8 * 4)%nat),
      (D (i + 8 * 5)%nat), (D (i + 8 * 6)%nat), (D (i + 8 * 7)%nat) by lia. cbn [Z.eqb andb]. f_equal.
    destruct i as [|i]; [reflexivity|]. cbn [Nat.eqb]. rewrite D by lia. reflexivity. }
  cbn [seq map]. rewrite !C by lia. cbn [Nat.eqb]. rewrite !nth_repeat.
  destruct r as [|[|[|[|[|[|[|[|r]]]]]]]]; try lia; reflexivity.
Qed.

Lemma flat_value : forall v, - 2 ^ 16 < v < 2 ^ 16 ->
  wshr (wadd (stbi_fsh (wshl v 2)) X_SCALE) 17 = (v + 4) / 8 + 128.
Proof.
  intros v H. replace (wadd (stbi_fsh (wshl v 2)) X_SCALE) with (w32 (v * 16384 + X_SCALE))
    by (symmetry; exact_values; change (2 ^ 12) with 4096; change (2 ^ 2) with 4; ring).
  unfold wshr, X_SCALE. change (2 ^ 17) with 131072.
  change (2 ^ 16) with 65536 in *. rewrite w32_id by (change (2 ^ 31) with 2147483648; lia).
  rewrite Z.shiftr_div_pow2 by lia. change (2 ^ 17) with 131072. lia.
Qed.

Lemma flat_block : forall dbg coefs quant, flat coefs ->
  exists s, idct_block_rows dbg coefs quant = Ok (repeat (repeat s 8) 8) /\
    let v := nth 0 coefs 0 * nth 0 quant 0 in
    (-256 <= (v + 4) / 8 + 128 <= 767 -> s = sat ((v + 4) / 8 + 128)).
Proof.
  intros dbg coefs quant D. set (v := nth 0 coefs 0 * nth 0 quant 0).
  exists (sat ((wshr (wadd (stbi_fsh (wshl (w32 v) 2)) X_SCALE) 17 + 256) mod 1024 - 256)). split.
  - rewrite idct_block_total. f_equal. unfold block_samples.
    assert (E : forall r, (r < 8)%nat -> row_samples (idct_temp_row (map (idct_column coefs quant) (seq 0 8)) r) =
      repeat (sat ((wshr (wadd (stbi_fsh (wshl (w32 v) 2)) X_SCALE) 17 + 256) mod 1024 - 256)) 8).
    { intros r Hr. rewrite flat_rows by auto. reflexivity. }
    transitivity (map (fun _ => repeat (sat ((wshr (wadd (stbi_fsh (wshl (w32 v) 2)) X_SCALE) 17 + 256) mod 1024 - 256)) 8) (seq 0 8)).
    + apply map_ext_in. intros r Hr. apply in_seq in Hr. apply E. lia.
    + reflexivity.
  - cbn zeta. intros H. rewrite w32_id by (change (2 ^ 31) with 2147483648; lia).
    rewrite flat_value by (change (2 ^ 16) with 65536; lia). f_equal. rewrite Z.mod_small by lia. lia.
Qed.

Lemma flat_wrapped : forall v, wrap10 (wshr (wadd (stbi_fsh (wshl (w32 v) 2)) X_SCALE) 17) = wrap10 ((v + 4) / 8 + 128).
Proof.
  intros v. replace (wadd (stbi_fsh (wshl (w32 v) 2)) X_SCALE) with (w32 (v * 16384 + X_SCALE))
    by (symmetry; exact_values; change (2 ^ 12) with 4096; change (2 ^ 2) with 4; ring).
  destruct (w32_congr (v * 16384 + X_SCALE)) as [k ->]. unfold wshr, X_SCALE, wrap10.
  rewrite Z.shiftr_div_pow2 by lia. change (2 ^ 17) with 131072. change (2 ^ 32) with (32768 * 131072).
  replace (v * 16384 + (65536 + 128 * 131072) + k * (32768 * 131072)) with ((v + 4) * 16384 + (128 + k * 32768) * 131072) by ring.
  rewrite Z.div_add by lia. change 131072 with (8 * 16384) at 1. rewrite Z.div_mul_cancel_r by lia.
  replace ((v + 4) / 8 + (128 + k * 32768) + 256) with ((v + 4) / 8 + 128 + 256 + (k * 32) * 1024) by ring.
  rewrite Z.mod_add by lia. reflexivity.
Qed.
Lemma flat_block_exact : forall dbg coefs quant, flat coefs ->
  idct_block_rows dbg coefs quant = Ok (repeat (repeat (sat (wrap10 ((nth 0 coefs 0 * nth 0 quant 0 + 4) / 8 + 128))) 8) 8).
Proof.
  intros dbg coefs quant D. rewrite <- flat_wrapped, idct_block_total. f_equal. unfold block_samples.
  transitivity (map (fun _ => repeat (sat (wrap10 (wshr (wadd (stbi_fsh (wshl (w32 (nth 0 coefs 0 * nth 0 quant 0)) 2)) X_SCALE) 17))) 8) (seq 0 8)).
  - apply map_ext_in. intros r Hr. apply in_seq in Hr. rewrite flat_rows by (auto; lia). unfold wrap10. reflexivity.
  - reflexivity.
Qed.

(** ** The shortcuts do not matter *)
Lemma full_column_eq : forall coefs quant i, moderate coefs quant -> idct_column coefs quant i = full_column coefs quant i.
Proof.
  intros coefs quant i M.
  assert (E : map (fun k => dequant (at64 coefs (i + 8 * k)) (at64 quant (i + 8 * k))) (seq 0 8) =
    map (fun k => nth (i + 8 * k) coefs 0 * nth (i + 8 * k) quant 0) (seq 0 8)).
  { apply map_ext. intros k. unfold dequant, at64. specialize (M (i + 8 * k)%nat). change (2 ^ 19) with 524288 in M.
    apply w32_id. change (2 ^ 31) with 2147483648. lia. }
  unfold full_column. rewrite <- E.
  destruct (forallb (fun k => at64 coefs (i + 8 * k) =? 0) (seq 1 7)) eqn:Z.
  - rewrite forallb_forall in Z. apply zero_column.
    + apply M.
    + intros k Hk. assert (Hin : In k (seq 1 7)) by (apply in_seq; lia). apply Z in Hin. lia.
  - unfold idct_column. cbn [seq forallb] in Z. rewrite andb_true_r, !andb_assoc in Z. cbv zeta. rewrite Z. reflexivity.
Qed.

Lemma row_full : forall row, length row = 8%nat -> row_samples row =
  map (fun x => sat ((wshr x 17 + 256) mod 1024 - 256)) (kernel8 row X_SCALE).
Proof.
  intros row L. unfold row_samples. destruct (forallb _ _) eqn:Z; auto.
  rewrite forallb_forall in Z.
  destruct row as [|s0 [|s1 [|s2 [|s3 [|s4 [|s5 [|s6 [|s7 [|s8 row]]]]]]]]]; try discriminate.
  cbn [tl hd] in *.
  assert (s1 = 0 /\ s2 = 0 /\ s3 = 0 /\ s4 = 0 /\ s5 = 0 /\ s6 = 0 /\ s7 = 0) as (-> & -> & -> & -> & -> & -> & ->).
  { splits; apply Z.eqb_eq, Z; cbn [In]; tauto. }
  rewrite kernel8_dc.
  replace (wadd (stbi_fsh s0) X_SCALE) with (w32 (s0 * 4096 + X_SCALE)) by (symmetry; exact_values; change (2 ^ 12) with 4096; ring).
  reflexivity.
Qed.

Lemma temp_full : forall coefs quant r, moderate coefs quant ->
  idct_temp_row (map (idct_column coefs quant) (seq 0 8)) r = full_temp coefs quant r.
Proof.
  intros. unfold idct_temp_row, full_temp. rewrite map_map. apply map_ext. intros i. rewrite full_column_eq; auto.
Qed.

Lemma block_full : forall coefs quant, moderate coefs quant ->
  block_samples coefs quant = map (map (fun v => sat ((v + 256) mod 1024 - 256))) (full_values coefs quant).
Proof.
  intros coefs quant M. unfold block_samples, full_values. rewrite map_map. apply map_ext. intros r.
  rewrite row_full, temp_full, map_map by (auto using temp_row_length). reflexivity.
Qed.

Lemma full_values_range : forall coefs quant row v, In row (full_values coefs quant) -> In v row -> -16384 <= v < 16384.
Proof.
  intros coefs quant row v Hr Hv. unfold full_values in Hr. apply in_map_iff in Hr. destruct Hr as [r [<- _]].
  apply in_map_iff in Hv. destruct Hv as [x [<- Hx]].
  assert (L : length (full_temp coefs quant r) = 8%nat) by (unfold full_temp; rewrite map_length, seq_length; auto).
  destruct (kernel8_shape _ (65536 + Z.shiftl 128 17) L) as [_ F]. rewrite Forall_forall in F. specialize (F _ Hx).
  rewrite Z.shiftr_div_pow2 by lia. change (2 ^ 31) with 2147483648 in *. change (2 ^ 17) with 131072. lia.
Qed.

Lemma block_clamped : forall dbg coefs quant, moderate coefs quant ->
  idct_block_rows dbg coefs quant = mapM (mapM (stbi_clamp dbg)) (full_values coefs quant).
Proof.
  intros dbg coefs quant M. rewrite idct_block_total, block_full by auto. symmetry. apply mapM_ok_map.
  intros row Hr. apply mapM_ok_map. intros v Hv. apply stbi_clamp_any. left.
  pose proof (full_values_range _ _ _ _ Hr Hv). change (2 ^ 31) with 2147483648. lia.
Qed.

Lemma block_wrapped : forall dbg coefs quant, moderate coefs quant ->
  idct_block_rows dbg coefs quant = Ok (map (map (fun v => sat (wrap10 v))) (full_values coefs quant)).
Proof. intros dbg coefs quant M. rewrite idct_block_total, block_full by auto. reflexivity. Qed.

Lemma block_saturated : forall dbg coefs quant, moderate coefs quant ->
  (forall row v, In row (full_values coefs quant) -> In v row -> -256 <= v <= 767) ->
  idct_block_rows dbg coefs quant = Ok (map (map sat) (full_values coefs quant)).
Proof.
  intros dbg coefs quant M R. rewrite idct_block_total, block_full by auto. f_equal.
  apply map_ext_in. intros row Hr. apply map_ext_in. intros v Hv. specialize (R _ _ Hr Hv).
  f_equal. rewrite Z.mod_small; lia.
Qed.

Lemma idct_always : forall coefs quant, exists rows,
  (forall dbg, idct_block_rows dbg coefs quant = Ok rows) /\
  length rows = 8%nat /\ Forall (fun r => length r = 8%nat /\ Forall (fun x => 0 <= x <= 255) r) rows.
Proof. intros. exists (block_samples coefs quant). destruct (block_samples_shape coefs quant) as [A B]. splits; auto.
  - intros. apply idct_block_total.
  - eapply Forall_impl; [|apply B]. intros r [L F]. split; auto. eapply Forall_impl; [|apply F]. cbv beta. unfold is_byte. intros; lia. Qed.

Lemma shortcut_differs : exists coefs quant,
  length coefs = 64%nat /\ Forall (fun c => -32768 <= c <= 32767) coefs /\
  length quant = 64%nat /\ Forall (fun q => 0 <= q <= 65535) quant /\
  idct_block_rows true coefs quant <> mapM (mapM (Clamp.stbi_clamp true)) (full_values coefs quant).
Proof.
  exists (0 :: 33 :: repeat 0 62), (repeat 16384 64). splits; auto.
  - constructor; [lia|]. constructor; [lia|]. apply Forall_forall. intros x H. apply repeat_spec in H. lia.
  - apply Forall_forall. intros x H. apply repeat_spec in H. lia.
  - vm_compute. discriminate.
Qed.

Lemma moderate_at : forall coefs quant, (forall c, In c coefs -> -2047 <= c <= 2047) -> (forall q, In q quant -> 0 <= q <= 255) -> moderate coefs quant.
Proof.
  intros coefs quant C Q k. change (2 ^ 19) with 524288.
  assert (-2047 <= nth k coefs 0 <= 2047).
  { destruct (nth_in_or_default k coefs 0) as [H | ->]; auto. lia. }
  assert (0 <= nth k quant 0 <= 255).
  { destruct (nth_in_or_default k quant 0) as [H0 | ->]; auto. lia. }
  nia.
Qed.

Lemma moderate_case : moderate (2047 :: -2047 :: repeat 1 62) (repeat 255 64).
Proof.
  apply moderate_at; intros x H.
  - destruct H as [<- | [<- | H]]; [lia|lia|]. apply repeat_spec in H. lia.
  - apply repeat_spec in H. lia.
Qed.

Lemma wraps_to_black : exists coefs quant, moderate coefs quant /\
  full_values coefs quant = repeat (repeat 1024 8) 8 /\
  idct_block_rows true coefs quant = Ok (repeat (repeat 0 8) 8).
Proof.
  exists (1024 :: repeat 0 63), (repeat 7 64). splits; try (vm_compute; reflexivity).
  apply moderate_at; intros x H; [destruct H as [<- | H]; [lia|]|]; apply repeat_spec in H; lia.
Qed.

Lemma saturated_case : moderate (100 :: 37 :: -50 :: repeat 3 61) (repeat 5 64) /\
  (forall row v, In row (full_values (100 :: 37 :: -50 :: repeat 3 61) (repeat 5 64)) -> In v row -> -256 <= v <= 767) /\
  In 255 (concat (map (map sat) (full_values (100 :: 37 :: -50 :: repeat 3 61) (repeat 5 64)))).
Proof.
  splits.
  - apply moderate_at; intros x H; [destruct H as [<- | [<- | [<- | H]]]; try lia|]; apply repeat_spec in H; lia.
  - assert (B : forallb (forallb (fun v => (-256 <=? v) && (v <=? 767))) (full_values (100 :: 37 :: -50 :: repeat 3 61) (repeat 5 64)) = true)
      by (vm_compute; reflexivity).
    intros row v Hr Hv. rewrite forallb_forall in B. specialize (B _ Hr). rewrite forallb_forall in B. specialize (B _ Hv). lia.
  - assert (B : existsb (Z.eqb 255) (concat (map (map sat) (full_values (100 :: 37 :: -50 :: repeat 3 61) (repeat 5 64)))) = true)
      by (vm_compute; reflexivity).
    apply existsb_exists in B. destruct B as [x [H E]]. apply Z.eqb_eq in E. subst. auto.
Qed.
