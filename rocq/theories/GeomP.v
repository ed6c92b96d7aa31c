(** Exactness of the frame geometry computed in f32 (C27). *)
From Coq Require Import Floats.SpecFloat.
From Verif Require Import Base F32 Tactics F32P Types Parsers SpecFrame.

Lemma ceil_div_neg : forall a b, 0 < b -> - (- a / b) = ceil_div a b.
Proof.
  intros a b Hb. unfold ceil_div. apply ceil_unique; auto.
  pose proof (Z.div_mod (a + b - 1) b ltac:(lia)). pose proof (Z.mod_pos_bound (a + b - 1) b Hb). nia.
Qed.

Lemma ceil_div_bounds : forall a b, 0 < b -> (ceil_div a b - 1) * b < a <= ceil_div a b * b.
Proof. intros. rewrite <- ceil_div_neg by auto. apply ceil_spec. auto. Qed.

Lemma ceil_div_le : forall a b c, 0 < b -> a <= c * b -> ceil_div a b <= c.
Proof.
  intros a b c Hb H. pose proof (ceil_div_bounds a b Hb) as [L _].
  destruct (Z_le_gt_dec (ceil_div a b) c); auto. exfalso. nia.
Qed.

Lemma ceil_div_nonneg : forall a b, 0 < b -> 0 <= a -> 0 <= ceil_div a b.
Proof. intros. unfold ceil_div. apply Z.div_pos; lia. Qed.

Lemma ceil_u16 : forall x z, f32_ceil x = Some z -> 0 <= z <= 65535 -> f32_ceil_u16 x = z.
Proof. intros x z E H. unfold f32_ceil_u16. rewrite E. cbn [f32_sat]. lia. Qed.

Lemma mcu_count_eq : forall len f, 0 <= len < 65536 -> 1 <= f <= 4 -> mcu_count len f = mcus len f.
Proof.
  intros len f Hl Hf. unfold mcus.
  assert (B : 0 <= ceil_div len (8 * f) <= 65535).
  { split; [apply ceil_div_nonneg; lia|]. apply ceil_div_le; nia. }
  unfold mcu_count. apply ceil_u16; auto.
  destruct (of_Z_exact len ltac:(lia)) as [Cl Sl].
  destruct (of_Z_exact f ltac:(lia)) as [Cf Sf]. destruct (of_Z_exact 8 ltac:(lia)) as [C8 S8].
  destruct (mul_exact (f32_of_Z f) (f32_of_Z 8) (8 * f) 200) as [Cm Sm]; auto; try lia.
  destruct (Z.eq_dec len 0) as [->|Hz].
  - destruct (canon_zero _ Cl) as [s ->]; [rewrite Sl; ring|].
    destruct (pos_finite _ Cm) as [m [e [-> _]]]; [rewrite Sm; lia|]. unfold f32_div. cbn [SFdiv f32_ceil].
    unfold ceil_div. rewrite Z.div_small by lia. reflexivity.
  - rewrite (div_ceil _ _ len (8 * f)) by (auto; lia). f_equal. apply ceil_div_neg. lia.
Qed.

Lemma comp_len_exact : forall len f fm q k, 0 <= len < 65536 -> 1 <= fm <= 4 -> 1 <= f <= fm ->
  canon (f32_div (f32_of_Z f) (f32_of_Z fm)) -> sval (f32_div (f32_of_Z f) (f32_of_Z fm)) = q * 2 ^ k ->
  198 <= k <= 200 -> 0 <= q <= 3 -> q * 2 ^ k * fm = f * 2 ^ 200 ->
  f32_ceil (f32_mul (f32_of_Z len) (f32_div (f32_of_Z f) (f32_of_Z fm))) = Some (ceil_div (len * f) fm).
Proof.
  intros len f fm q k Hl Hfm Hf Cy Sy Hk Hq E.
  destruct (of_Z_exact len ltac:(lia)) as [Cl Sl].
  assert (P : 0 < 2 ^ k) by (apply Z.pow_pos_nonneg; lia).
  assert (N : 0 <= sval (f32_div (f32_of_Z f) (f32_of_Z fm))) by (rewrite Sy; nia).
  destruct (mul_exact (f32_of_Z len) _ (len * q) k Cl Cy) as [C S]; try lia; try nia.
  { rewrite Sl, Sy, Z.pow_add_r by lia. ring. }
  rewrite (ceil_sval _ C), S. f_equal. rewrite scaled_ceil by lia.
  rewrite <- ceil_div_neg by lia. rewrite (pow_split k 200) in E by lia.
  assert (P2 : 0 < 2 ^ (200 - k)) by (apply Z.pow_pos_nonneg; lia). set (H := 2 ^ (200 - k)) in *.
  assert (EQ : q * fm = f * H) by nia.
  rewrite <- (Z.div_mul_cancel_r (- (len * q)) H fm) by lia.
  rewrite <- (Z.div_mul_cancel_r (- (len * f)) fm H) by lia.
  rewrite (Z.mul_comm fm H). f_equal. f_equal. nia.
Qed.

Lemma comp_len_third : forall len f, 0 <= len < 65536 -> 1 <= f <= 2 ->
  canon (f32_div (f32_of_Z f) (f32_of_Z 3)) -> 3 * sval (f32_div (f32_of_Z f) (f32_of_Z 3)) = f * (2 ^ 200 + 2 ^ 175) ->
  f32_ceil (f32_mul (f32_of_Z len) (f32_div (f32_of_Z f) (f32_of_Z 3))) = Some (ceil_div (len * f) 3).
Proof.
  intros len f Hl Hf Cy Sy. destruct (of_Z_exact len ltac:(lia)) as [Cl Sl].
  set (y := f32_div (f32_of_Z f) (f32_of_Z 3)) in *.
  destruct (Z.eq_dec len 0) as [->|Hz].
  - destruct (canon_zero _ Cl) as [s ->]; [rewrite Sl; ring|].
    destruct (pos_finite _ Cy) as [m [e [-> _]]]; [lia|]. reflexivity.
  - destruct (mul_near (f32_of_Z len) y Cl Cy) as [C [M [u [Hu [HM [E N]]]]]]; [lia|lia|].
    rewrite (ceil_sval _ C). f_equal. rewrite <- ceil_div_neg by lia. apply third_ceil; [nia|].
    exists M, u. splits; auto; try lia.
Qed.

Lemma comp_len_eq : forall len f fm, 0 <= len < 65536 -> 1 <= f <= fm -> fm <= 4 -> comp_len len f fm = extent len f fm.
Proof.
  intros len f fm Hl Hf Hfm. unfold extent.
  assert (B : 0 <= ceil_div (len * f) fm <= 65535).
  { split; [apply ceil_div_nonneg; nia|]. apply ceil_div_le; [lia|]. nia. }
  unfold comp_len. apply ceil_u16; auto.
  assert (F : f = 1 \/ f = 2 \/ f = 3 \/ f = 4) by lia.
  assert (G : fm = 1 \/ fm = 2 \/ fm = 3 \/ fm = 4) by lia.
  destruct F as [-> | [-> | [-> | ->]]]; destruct G as [-> | [-> | [-> | ->]]]; try lia.
  - apply (comp_len_exact len 1 1 1 200); auto; try lia; try (vm_compute; auto; intuition discriminate).
  - apply (comp_len_exact len 1 2 1 199); auto; try lia; try (vm_compute; auto; intuition discriminate).
  - apply comp_len_third; auto; try lia; try (vm_compute; auto; intuition discriminate).
  - apply (comp_len_exact len 1 4 1 198); auto; try lia; try (vm_compute; auto; intuition discriminate).
  - apply (comp_len_exact len 2 2 1 200); auto; try lia; try (vm_compute; auto; intuition discriminate).
  - apply comp_len_third; auto; try lia; try (vm_compute; auto; intuition discriminate).
  - apply (comp_len_exact len 2 4 1 199); auto; try lia; try (vm_compute; auto; intuition discriminate).
  - apply (comp_len_exact len 3 3 1 200); auto; try lia; try (vm_compute; auto; intuition discriminate).
  - apply (comp_len_exact len 3 4 3 198); auto; try lia; try (vm_compute; auto; intuition discriminate).
  - apply (comp_len_exact len 4 4 1 200); auto; try lia; try (vm_compute; auto; intuition discriminate).
Qed.
