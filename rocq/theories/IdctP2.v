(** The inverse DCT as an integer matrix product; no overflow. *)
From Verif Require Import Base Tactics SpecBits F32 Clamp Idct Color SpecColor SpecIdct ColorP IdctP.

Lemma mx_bound : forall x u, - 5683 <= mx x u <= 5683.
Proof.
  intros x u. unfold mx, M8.
  do 8 (destruct x as [|x]; [do 8 (destruct u as [|u]; [cbn [nth]; lia|]); destruct u; cbn [nth]; lia|]).
  destruct x, u; cbn [nth]; lia.
Qed.

Lemma kernel8_linear : forall s sc, length s = 8%nat ->
  kernel8 s sc = map (fun x => w32 (sc + sum8 (fun u => mx x u * nth u s 0))) (seq 0 8).
Proof.
  intros s sc L. destruct s as [|s0 [|s1 [|s2 [|s3 [|s4 [|s5 [|s6 [|s7 [|s8 s]]]]]]]]]; try discriminate.
  unfold kernel8, kernel_x, kernel_t. destruct K_values as (-> & -> & -> & -> & -> & -> & -> & -> & -> & -> & -> & ->).
  cbn [seq map nth]. unfold sum8, mx, M8. cbn [nth].
  repeat (apply cons_eq; [exact_values; change (2 ^ 12) with 4096; ring|]). reflexivity.
Qed.

Lemma sum8_ext : forall f g, (forall u, (u < 8)%nat -> f u = g u) -> sum8 f = sum8 g.
Proof. intros f g E. unfold sum8. rewrite !E by lia. reflexivity. Qed.
Lemma sum8_abs : forall f, Z.abs (sum8 f) <= sum8 (fun u => Z.abs (f u)).
Proof. intros. unfold sum8. lia. Qed.
Lemma sum8_le : forall f g, (forall u, (u < 8)%nat -> f u <= g u) -> sum8 f <= sum8 g.
Proof. intros f g E. unfold sum8. pose proof (E 0%nat). pose proof (E 1%nat). pose proof (E 2%nat). pose proof (E 3%nat).
  pose proof (E 4%nat). pose proof (E 5%nat). pose proof (E 6%nat). pose proof (E 7%nat). lia. Qed.
Lemma sum8_scale : forall k f, sum8 (fun u => k * f u) = k * sum8 f.
Proof. intros. unfold sum8. ring. Qed.
Lemma sum8_term : forall f u, (forall u, 0 <= f u) -> (u < 8)%nat -> f u <= sum8 f.
Proof. intros f u P H. unfold sum8. pose proof (P 0%nat). pose proof (P 1%nat). pose proof (P 2%nat). pose proof (P 3%nat).
  pose proof (P 4%nat). pose proof (P 5%nat). pose proof (P 6%nat). pose proof (P 7%nat).
  destruct u as [|[|[|[|[|[|[|[|u]]]]]]]]; lia. Qed.

Lemma dot_bound : forall x f, Z.abs (sum8 (fun u => mx x u * f u)) <= 5683 * sum8 (fun u => Z.abs (f u)).
Proof.
  intros x f. etransitivity; [apply sum8_abs|]. rewrite <- sum8_scale. apply sum8_le. intros u _.
  rewrite Z.abs_mul. apply Z.mul_le_mono_nonneg_r; [lia|]. pose proof (mx_bound x u). lia.
Qed.

(** The dequantised coefficient of vertical frequency [v] and horizontal frequency [u]. *)
Definition deq (coefs quant : list Z) (v u : nat) : Z := nth (u + 8 * v) coefs 0 * nth (u + 8 * v) quant 0.
Definition total (coefs quant : list Z) : Z := sum8 (fun u => sum8 (fun v => Z.abs (deq coefs quant v u))).

(** The two passes in exact integers. *)
Definition pass1 (coefs quant : list Z) (y u : nat) : Z := (512 + sum8 (fun v => mx y v * deq coefs quant v u)) / 1024.
Definition pass2 (coefs quant : list Z) (y x : nat) : Z := (65536 + 128 * 131072 + sum8 (fun u => mx x u * pass1 coefs quant y u)) / 131072.

Lemma nth_map_seq : forall (A : Type) (f : nat -> A) n k d, (k < n)%nat -> nth k (map f (seq 0 n)) d = f k.
Proof. intros. rewrite (nth_indep _ d (f 0%nat)) by (rewrite map_length, seq_length; auto). rewrite map_nth, seq_nth by auto. reflexivity. Qed.

Lemma column_total : forall coefs quant u, (u < 8)%nat ->
  sum8 (fun v => Z.abs (deq coefs quant v u)) <= total coefs quant.
Proof.
  intros coefs quant u H. unfold total. apply (sum8_term (fun u => sum8 (fun v => Z.abs (deq coefs quant v u)))); auto.
  intros. unfold sum8. lia.
Qed.

Lemma full_column_exact : forall coefs quant y u, total coefs quant <= 65536 -> (y < 8)%nat -> (u < 8)%nat ->
  nth y (full_column coefs quant u) 0 = pass1 coefs quant y u.
Proof.
  intros coefs quant y u T Hy Hu. unfold full_column.
  rewrite kernel8_linear by (rewrite map_length, seq_length; auto). rewrite map_map, nth_map_seq by auto.
  unfold pass1. rewrite Z.shiftr_div_pow2 by lia. change (2 ^ 10) with 1024. f_equal.
  rewrite (sum8_ext _ (fun v => mx y v * deq coefs quant v u)).
  - apply w32_id. pose proof (dot_bound y (fun v => deq coefs quant v u)) as D. cbv beta in D. pose proof (column_total coefs quant u Hu).
    change (2 ^ 31) with 2147483648. lia.
  - intros v Hv. rewrite nth_map_seq by auto. reflexivity.
Qed.

Lemma pass1_bound : forall coefs quant y u,
  1024 * Z.abs (pass1 coefs quant y u) <= 5683 * sum8 (fun v => Z.abs (deq coefs quant v u)) + 512.
Proof.
  intros. unfold pass1. pose proof (dot_bound y (fun v => deq coefs quant v u)). cbv beta in H.
  set (a := sum8 (fun v => mx y v * deq coefs quant v u)) in *.
  set (b := sum8 (fun v => Z.abs (deq coefs quant v u))) in *. lia.
Qed.

Lemma full_values_exact : forall coefs quant, total coefs quant <= 65536 ->
  full_values coefs quant = map (fun y => map (pass2 coefs quant y) (seq 0 8)) (seq 0 8).
Proof.
  intros coefs quant T. unfold full_values. apply map_ext_in. intros y Hy. apply in_seq in Hy.
  rewrite kernel8_linear by (unfold full_temp; rewrite map_length, seq_length; auto). rewrite map_map.
  apply map_ext_in. intros x Hx. apply in_seq in Hx. unfold pass2.
  rewrite Z.shiftr_div_pow2 by lia. change (2 ^ 17) with 131072. change (Z.shiftl 128 17) with (128 * 131072).
  f_equal. rewrite (sum8_ext _ (fun u => mx x u * pass1 coefs quant y u)).
  - apply w32_id. pose proof (dot_bound x (fun u => pass1 coefs quant y u)) as D. cbv beta in D.
    assert (B : sum8 (fun u => 1024 * Z.abs (pass1 coefs quant y u)) <= 5683 * total coefs quant + 4096).
    { etransitivity; [apply sum8_le; intros u _; apply pass1_bound|]. unfold total. rewrite <- sum8_scale.
      unfold sum8 at 1 3. lia. }
    rewrite sum8_scale in B. change (2 ^ 31) with 2147483648. lia.
  - intros u Hu. unfold full_temp. rewrite nth_map_seq by auto. f_equal. apply full_column_exact; auto; lia.
Qed.
