(** Distance between the fixed-point inverse DCT and the real one. *)
From Coq Require Import Reals Lra.
From Verif Require Import Base Tactics SpecBits F32 Clamp Idct Color SpecColor SpecIdct ColorP IdctP IdctP2 SpecDct.
Open Scope R_scope.

(** ** Enclosures of the cosines *)
Definition ck (k : nat) : R := cos (INR k * PI / 16).

Lemma ck_add : forall a b, (b <= a)%nat -> ck (a + b) = 2 * ck a * ck b - ck (a - b).
Proof.
  intros a b H. unfold ck. rewrite plus_INR, minus_INR by auto.
  replace ((INR a + INR b) * PI / 16) with (INR a * PI / 16 + INR b * PI / 16) by field.
  replace ((INR a - INR b) * PI / 16) with (INR a * PI / 16 - INR b * PI / 16) by field.
  rewrite cos_plus, cos_minus. ring.
Qed.

Lemma ck_0 : ck 0 = 1.
Proof. unfold ck. replace (INR 0 * PI / 16) with 0 by (cbn [INR]; field). apply cos_0. Qed.
Lemma ck_8 : ck 8 = 0.
Proof. unfold ck. replace (INR 8 * PI / 16) with (PI / 2) by (cbn [INR]; field). apply cos_PI2. Qed.
Lemma ck_16 : ck 16 = -1.
Proof. unfold ck. replace (INR 16 * PI / 16) with PI by (cbn [INR]; field). apply cos_PI. Qed.
Lemma ck_mirror : forall k, (k <= 16)%nat -> ck (16 + k) = ck (16 - k).
Proof.
  intros k H. unfold ck. rewrite plus_INR, minus_INR by auto.
  replace ((INR 16 + INR k) * PI / 16) with (INR k * PI / 16 + PI) by (cbn [INR]; field).
  replace ((INR 16 - INR k) * PI / 16) with (PI - INR k * PI / 16) by (cbn [INR]; field).
  rewrite neg_cos, <- Rtrigo_facts.cos_pi_minus. reflexivity.
Qed.
Lemma ck_flip : forall k, (k <= 16)%nat -> ck (16 - k) = - ck k.
Proof.
  intros k H. unfold ck. rewrite minus_INR by auto.
  replace ((INR 16 - INR k) * PI / 16) with (PI - INR k * PI / 16) by (cbn [INR]; field).
  apply Rtrigo_facts.cos_pi_minus.
Qed.
Lemma ck_period : forall k, ck (k + 32) = ck k.
Proof.
  intros k. unfold ck. rewrite plus_INR. replace ((INR k + INR 32) * PI / 16) with (INR k * PI / 16 + 2 * INR 1 * PI) by (cbn [INR]; field).
  apply cos_period.
Qed.
Lemma ck_pos : forall k, (k < 8)%nat -> 0 < ck k.
Proof.
  intros k H. unfold ck. pose proof PI_RGT_0 as P. assert (0 <= INR k) by apply pos_INR.
  assert (INR k <= 7) by (replace 7 with (INR 7) by (cbn [INR]; ring); apply le_INR; lia).
  apply cos_gt_0; nra.
Qed.

Lemma sqrt2_bounds : 1414213562 / 1000000000 <= sqrt 2 <= 1414213563 / 1000000000.
Proof.
  assert (0 <= sqrt 2) by apply sqrt_pos. assert (sqrt 2 * sqrt 2 = 2) by (apply sqrt_sqrt; lra). split; nra.
Qed.

(** [sq]: from an enclosure of the square of a positive number to one of the number. *)
Lemma sq : forall x lo hi, 0 < x -> 0 <= lo -> 0 <= hi -> lo * lo <= x * x -> x * x <= hi * hi -> lo <= x <= hi.
Proof. intros. split; nra. Qed.

Lemma ck_4 : sqrt 2 * ck 4 = 1.
Proof.
  assert (E : ck 4 * ck 4 = / 2).
  { pose proof (ck_add 4 4 ltac:(lia)) as H. cbn [Nat.add Nat.sub] in H. rewrite ck_8, ck_0 in H. lra. }
  assert (0 < ck 4) by (apply ck_pos; lia). assert (0 <= sqrt 2) by apply sqrt_pos.
  assert (sqrt 2 * sqrt 2 = 2) by (apply sqrt_sqrt; lra).
  assert (Q : (sqrt 2 * ck 4) * (sqrt 2 * ck 4) = 1) by (replace ((sqrt 2 * ck 4) * (sqrt 2 * ck 4)) with ((sqrt 2 * sqrt 2) * (ck 4 * ck 4)) by ring; rewrite H1, E; lra).
  assert (0 <= sqrt 2 * ck 4) by nra. nra.
Qed.

(** The scaled cosines [sqrt 2 * cos (k pi / 16)]. *)
Definition sk (k : nat) : R := sqrt 2 * ck k.

Lemma sqrt2_sq : sqrt 2 * sqrt 2 = 2.
Proof. apply sqrt_sqrt; lra. Qed.
Lemma sk_pos : forall k, (k < 8)%nat -> 0 < sk k.
Proof. intros. unfold sk. apply Rmult_lt_0_compat; [apply sqrt_lt_R0; lra | apply ck_pos; auto]. Qed.
Lemma sk_sq : forall k, sk k * sk k = 1 + ck (k + k).
Proof.
  intros k. rewrite ck_add by lia. rewrite Nat.sub_diag, ck_0. unfold sk.
  replace (sqrt 2 * ck k * (sqrt 2 * ck k)) with ((sqrt 2 * sqrt 2) * (ck k * ck k)) by ring. rewrite sqrt2_sq. ring.
Qed.

Lemma ck_sk : forall k, 2 * ck k = sqrt 2 * sk k.
Proof. intros. unfold sk. rewrite <- sqrt2_sq at 1. ring. Qed.
Lemma mul_bounds : forall a b al ah bl bh, 0 <= al -> 0 <= bl -> al <= a <= ah -> bl <= b <= bh -> al * bl <= a * b <= ah * bh.
Proof. intros. split; apply Rmult_le_compat; lra. Qed.
Lemma ck4_bounds : 707106781 / 1000000000 <= ck 4 <= 707106782 / 1000000000.
Proof. pose proof ck_4 as E. change (sk 4 = 1) in E. pose proof (ck_sk 4). rewrite E in H. pose proof sqrt2_bounds. lra. Qed.
Lemma sk_2 : 1306562 / 1000000 <= sk 2 <= 1306564 / 1000000.
Proof. pose proof (sk_sq 2) as S. cbn [Nat.add] in S. pose proof ck4_bounds. pose proof (sk_pos 2 ltac:(lia)). apply sq; lra. Qed.
Lemma sk_6 : 541195 / 1000000 <= sk 6 <= 541197 / 1000000.
Proof.
  pose proof (sk_sq 6) as S. cbn [Nat.add] in S. pose proof (ck_flip 4 ltac:(lia)) as F. cbn [Nat.sub] in F. rewrite F in S.
  pose proof ck4_bounds. pose proof (sk_pos 6 ltac:(lia)). apply sq; lra.
Qed.
Lemma ck2_bounds : 923878 / 1000000 <= ck 2 <= 923881 / 1000000.
Proof. assert (P := fun P Q => mul_bounds _ _ _ _ _ _ P Q sqrt2_bounds sk_2). specialize (P ltac:(lra) ltac:(lra)). pose proof (ck_sk 2). lra. Qed.
Lemma ck6_bounds : 382682 / 1000000 <= ck 6 <= 382685 / 1000000.
Proof. assert (P := fun P Q => mul_bounds _ _ _ _ _ _ P Q sqrt2_bounds sk_6). specialize (P ltac:(lra) ltac:(lra)). pose proof (ck_sk 6). lra. Qed.
Lemma sk_1 : 1387038 / 1000000 <= sk 1 <= 1387041 / 1000000.
Proof. pose proof (sk_sq 1) as S. cbn [Nat.add] in S. pose proof ck2_bounds. pose proof (sk_pos 1 ltac:(lia)). apply sq; lra. Qed.
Lemma sk_3 : 1175874 / 1000000 <= sk 3 <= 1175878 / 1000000.
Proof. pose proof (sk_sq 3) as S. cbn [Nat.add] in S. pose proof ck6_bounds. pose proof (sk_pos 3 ltac:(lia)). apply sq; lra. Qed.
Lemma sk_5 : 785692 / 1000000 <= sk 5 <= 785698 / 1000000.
Proof.
  pose proof (sk_sq 5) as S. cbn [Nat.add] in S. pose proof (ck_flip 6 ltac:(lia)) as F. cbn [Nat.sub] in F. rewrite F in S.
  pose proof ck6_bounds. pose proof (sk_pos 5 ltac:(lia)). apply sq; lra.
Qed.
Lemma sk_7 : 275896 / 1000000 <= sk 7 <= 275903 / 1000000.
Proof.
  pose proof (sk_sq 7) as S. cbn [Nat.add] in S. pose proof (ck_flip 2 ltac:(lia)) as F. cbn [Nat.sub] in F. rewrite F in S.
  pose proof ck2_bounds. pose proof (sk_pos 7 ltac:(lia)). apply sq; lra.
Qed.

(** Reduction of the angle. *)
Lemma ck_mod : forall n, ck n = ck (n mod 32).
Proof.
  intros n. rewrite (Nat.div_mod n 32) at 1 by lia. generalize (n / 32)%nat (n mod 32)%nat. intros q r.
  induction q as [|q IH]; [f_equal; lia|]. rewrite <- IH, <- (ck_period (32 * q + r)). f_equal. lia.
Qed.
Lemma ck_reduce : forall n, ck n =
  (let m := (n mod 32)%nat in let k := (if m <=? 16 then m else 32 - m)%nat in
   if (k <=? 8)%nat then ck k else - ck (16 - k)).
Proof.
  intros n. rewrite ck_mod. cbv zeta. pose proof (Nat.mod_upper_bound n 32 ltac:(lia)) as U. revert U.
  generalize (n mod 32)%nat. intros m U. destruct (Nat.leb_spec m 16) as [H|H].
  - destruct (Nat.leb_spec m 8); auto. rewrite ck_flip by lia. ring.
  - replace (ck m) with (ck (32 - m)).
    + destruct (Nat.leb_spec (32 - m) 8); auto. rewrite (ck_flip (32 - m)) by lia. ring.
    + pose proof (ck_mirror (m - 16) ltac:(lia)) as E. replace (16 + (m - 16))%nat with m in E by lia.
      replace (16 - (m - 16))%nat with (32 - m)%nat in E by lia. auto.
Qed.

(** The exact transform matrix. *)
Definition ex (x u : nat) : R := match u with O => 1 | _ => sk ((2 * x + 1) * u) end.

Lemma ex_cos : forall x u, ex x u = sqrt 2 * (dct_norm u * cos ((2 * INR x + 1) * INR u * PI / 16)).
Proof.
  intros x u. unfold ex, dct_norm. destruct u as [|u].
  - replace ((2 * INR x + 1) * INR 0 * PI / 16) with 0 by (cbn [INR]; field). rewrite cos_0. field.
    pose proof sqrt2_bounds. lra.
  - unfold sk, ck. rewrite mult_INR, plus_INR, mult_INR. replace (INR 2) with 2 by (cbn [INR]; ring). replace (INR 1) with 1 by reflexivity. ring.
Qed.

Lemma matrix_close : forall x u, (x < 8)%nat -> (u < 8)%nat ->
  Rabs (IZR (mx x u) - 4096 * ex x u) <= 194 / 100 /\ Rabs (ex x u) <= 13871 / 10000.
Proof.
  pose proof sk_1; pose proof sk_2; pose proof sk_3; pose proof sk_5; pose proof sk_6; pose proof sk_7.
  pose proof ck_4 as E4. change (sk 4 = 1) in E4.
  assert (B : forall n, sk n = (let m := (n mod 32)%nat in let k := (if m <=? 16 then m else 32 - m)%nat in
     if (k <=? 8)%nat then sk k else - sk (16 - k))).
  { intros n. unfold sk. rewrite ck_reduce. cbv zeta. destruct (_ <=? 8)%nat; ring. }
  intros x u Hx Hu.
  do 8 (destruct x as [|x]; [do 8 (destruct u as [|u];
    [unfold ex, mx, M8; cbn [nth]; try rewrite B; cbn [Nat.mul Nat.add Nat.sub Nat.modulo Nat.divmod snd Nat.leb];
     split; apply Rabs_le; lra|]); lia|]); lia.
Qed.

(** ** Sums *)
Lemma rsum8_IZR : forall f, IZR (sum8 f) = rsum8 (fun u => IZR (f u)).
Proof. intros. unfold sum8, rsum8. rewrite !plus_IZR. reflexivity. Qed.
Lemma rsum8_ext : forall f g, (forall u, (u < 8)%nat -> f u = g u) -> rsum8 f = rsum8 g.
Proof. intros f g E. unfold rsum8. rewrite !E by lia. reflexivity. Qed.
Lemma rsum8_le : forall f g, (forall u, (u < 8)%nat -> f u <= g u) -> rsum8 f <= rsum8 g.
Proof. intros f g E. unfold rsum8. pose proof (E 0%nat ltac:(lia)). pose proof (E 1%nat ltac:(lia)). pose proof (E 2%nat ltac:(lia)). pose proof (E 3%nat ltac:(lia)).
  pose proof (E 4%nat ltac:(lia)). pose proof (E 5%nat ltac:(lia)). pose proof (E 6%nat ltac:(lia)). pose proof (E 7%nat ltac:(lia)). lra. Qed.
Lemma rsum8_plus : forall f g, rsum8 (fun u => f u + g u) = rsum8 f + rsum8 g.
Proof. intros. unfold rsum8. ring. Qed.
Lemma rsum8_minus : forall f g, rsum8 (fun u => f u - g u) = rsum8 f - rsum8 g.
Proof. intros. unfold rsum8. ring. Qed.
Lemma rsum8_scale : forall k f, rsum8 (fun u => k * f u) = k * rsum8 f.
Proof. intros. unfold rsum8. ring. Qed.
Lemma rsum8_abs : forall f, Rabs (rsum8 f) <= rsum8 (fun u => Rabs (f u)).
Proof.
  intros. unfold rsum8. repeat (eapply Rle_trans; [apply Rabs_triang|]; apply Rplus_le_compat_r). lra.
Qed.

(** ** The two passes in the reals *)
Definition fr (coefs quant : list Z) (v u : nat) : R := IZR (deq coefs quant v u).


Lemma pass1_near : forall coefs quant y u, exists e, Rabs e <= / 2 /\
  IZR (pass1 coefs quant y u) = rsum8 (fun v => IZR (mx y v) * fr coefs quant v u) / 1024 + e.
Proof.
  intros. exists (IZR (pass1 coefs quant y u) - rsum8 (fun v => IZR (mx y v) * fr coefs quant v u) / 1024). split; [|ring].
  unfold fr. rewrite (rsum8_ext _ (fun v => IZR (mx y v * deq coefs quant v u))) by (intros; rewrite mult_IZR; reflexivity).
  rewrite <- rsum8_IZR. unfold pass1. set (s := sum8 _).
  assert (L : (1024 * ((512 + s) / 1024) <= 512 + s < 1024 * ((512 + s) / 1024) + 1024)%Z) by lia.
  set (p := ((512 + s) / 1024)%Z) in *. destruct L as [L1 L2]. apply IZR_le in L1. apply IZR_lt in L2.
  rewrite plus_IZR, mult_IZR in *. rewrite plus_IZR in *. rewrite ?mult_IZR in *.
  apply Rabs_le. lra.
Qed.

Lemma pass2_near : forall coefs quant y x, exists e, Rabs e <= / 2 /\
  IZR (pass2 coefs quant y x) = 128 + rsum8 (fun u => IZR (mx x u) * IZR (pass1 coefs quant y u)) / 131072 + e.
Proof.
  intros. exists (IZR (pass2 coefs quant y x) - (128 + rsum8 (fun u => IZR (mx x u) * IZR (pass1 coefs quant y u)) / 131072)). split; [|ring].
  rewrite (rsum8_ext _ (fun u => IZR (mx x u * pass1 coefs quant y u))) by (intros; rewrite mult_IZR; reflexivity).
  rewrite <- rsum8_IZR. unfold pass2. set (s := sum8 _).
  assert (L : (131072 * ((65536 + 128 * 131072 + s) / 131072) <= 16842752 + s < 131072 * ((65536 + 128 * 131072 + s) / 131072) + 131072)%Z) by lia.
  set (p := ((65536 + 128 * 131072 + s) / 131072)%Z) in *. destruct L as [L1 L2]. apply IZR_le in L1. apply IZR_lt in L2.
  rewrite plus_IZR, mult_IZR in *. rewrite plus_IZR in *. rewrite ?mult_IZR in *.
  apply Rabs_le. lra.
Qed.

Lemma idct_real_ex : forall F y x, idct_real F y x = / 8 * rsum8 (fun u => rsum8 (fun v => ex x u * ex y v * F v u)).
Proof.
  intros. unfold idct_real. replace (/ 4) with (/ 8 * 2) by lra. rewrite Rmult_assoc. f_equal.
  rewrite <- rsum8_scale. apply rsum8_ext. intros u _. rewrite <- rsum8_scale. apply rsum8_ext. intros v _.
  rewrite !ex_cos. generalize (cos ((2 * INR x + 1) * INR u * PI / 16)) (cos ((2 * INR y + 1) * INR v * PI / 16)). intros c d.
  transitivity ((sqrt 2 * sqrt 2) * (dct_norm u * dct_norm v * F v u * c * d)); [rewrite sqrt2_sq|]; ring.
Qed.

Lemma coef_close : forall x u y v, (x < 8)%nat -> (u < 8)%nat -> (y < 8)%nat -> (v < 8)%nat ->
  Rabs (IZR (mx x u) * IZR (mx y v) / 134217728 - ex x u * ex y v / 8) <= / 6000.
Proof.
  intros x u y v Hx Hu Hy Hv. destruct (matrix_close x u Hx Hu) as [A B]. destruct (matrix_close y v Hy Hv) as [C D].
  set (e := IZR (mx x u) - 4096 * ex x u) in *. set (f := IZR (mx y v) - 4096 * ex y v) in *.
  replace (IZR (mx x u)) with (4096 * ex x u + e) by (unfold e; ring).
  replace (IZR (mx y v)) with (4096 * ex y v + f) by (unfold f; ring). clearbody e f.
  set (a := ex x u) in *. set (b := ex y v) in *. clearbody a b.
  replace ((4096 * a + e) * (4096 * b + f) / 134217728 - a * b / 8) with ((a * f + e * b) / 32768 + e * f / 134217728) by field.
  assert (M : forall p q P Q, Rabs p <= P -> Rabs q <= Q -> Rabs (p * q) <= P * Q).
  { intros. rewrite Rabs_mult. apply Rmult_le_compat; auto using Rabs_pos. }
  pose proof (M _ _ _ _ B C) as M1. pose proof (M _ _ _ _ A D) as M2. pose proof (M _ _ _ _ A C) as M3.
  assert (U : forall p P, Rabs p <= P -> - P <= p <= P).
  { intros p P HP. unfold Rabs in HP. destruct (Rcase_abs p); lra. }
  apply U in M1. apply U in M2. apply U in M3. apply Rabs_le. lra.
Qed.

Lemma mx_row_sum : forall x, (x < 8)%nat -> rsum8 (fun u => Rabs (IZR (mx x u))) <= 30610.
Proof.
  intros x H. rewrite (rsum8_ext _ (fun u => IZR (Z.abs (mx x u)))) by (intros; rewrite abs_IZR; reflexivity).
  rewrite <- rsum8_IZR. apply IZR_le. do 8 (destruct x as [|x]; [vm_compute; discriminate|]). lia.
Qed.

Lemma idct_near : forall coefs quant y x, (y < 8)%nat -> (x < 8)%nat ->
  Rabs (IZR (pass2 coefs quant y x) - (128 + idct_real (fr coefs quant) y x)) <= 5 / 8 + magnitude (fr coefs quant) / 6000.
Proof.
  intros coefs quant y x Hy Hx. destruct (pass2_near coefs quant y x) as [e [He E]].
  set (d := fun u => IZR (pass1 coefs quant y u) - rsum8 (fun v => IZR (mx y v) * fr coefs quant v u) / 1024).
  assert (Hd : forall u, Rabs (d u) <= / 2).
  { intros u. destruct (pass1_near coefs quant y u) as [f [Hf F]]. unfold d. rewrite F.
    match goal with |- Rabs ?t <= _ => replace t with f by ring end. auto. }
  assert (P : rsum8 (fun u => IZR (mx x u) * IZR (pass1 coefs quant y u)) / 131072 =
    rsum8 (fun u => rsum8 (fun v => IZR (mx x u) * IZR (mx y v) / 134217728 * fr coefs quant v u)) + rsum8 (fun u => IZR (mx x u) * d u) / 131072).
  { rewrite (rsum8_ext _ (fun u => 131072 * rsum8 (fun v => IZR (mx x u) * IZR (mx y v) / 134217728 * fr coefs quant v u) + IZR (mx x u) * d u)).
    - rewrite rsum8_plus, rsum8_scale. field.
    - intros u _. unfold d, rsum8. field. }
  rewrite E, P, idct_real_ex.
  assert (Q : / 8 * rsum8 (fun u => rsum8 (fun v => ex x u * ex y v * fr coefs quant v u)) =
    rsum8 (fun u => rsum8 (fun v => ex x u * ex y v / 8 * fr coefs quant v u))).
  { rewrite <- rsum8_scale. apply rsum8_ext. intros u _. rewrite <- rsum8_scale. apply rsum8_ext. intros v _. field. }
  rewrite Q.
  match goal with |- Rabs (128 + (?a + ?b) + e - (128 + ?c)) <= _ => replace (128 + (a + b) + e - (128 + c)) with ((a - c) + b + e) by ring;
    assert (A : Rabs (a - c) <= magnitude (fr coefs quant) / 6000); [|assert (B : Rabs b <= 30610 / 262144)] end.
  - rewrite <- rsum8_minus. eapply Rle_trans; [apply rsum8_abs|]. unfold magnitude, Rdiv. rewrite Rmult_comm.
    rewrite <- rsum8_scale. apply rsum8_le. intros u Hu. rewrite <- rsum8_minus. eapply Rle_trans; [apply rsum8_abs|].
    rewrite <- rsum8_scale. apply rsum8_le. intros v Hv. rewrite <- Rmult_minus_distr_r, Rabs_mult.
    apply Rmult_le_compat_r; [apply Rabs_pos|]. apply coef_close; auto.
  - unfold Rdiv. rewrite Rabs_mult. rewrite (Rabs_right (/ 131072)) by lra.
    assert (B : Rabs (rsum8 (fun u => IZR (mx x u) * d u)) <= / 2 * 30610).
    { eapply Rle_trans; [apply rsum8_abs|]. eapply Rle_trans; [|apply Rmult_le_compat_l; [lra|apply (mx_row_sum x Hx)]].
      rewrite <- rsum8_scale. apply rsum8_le. intros u _. rewrite Rabs_mult, Rmult_comm. apply Rmult_le_compat_r; [apply Rabs_pos | apply Hd]. }
    lra.
  - eapply Rle_trans; [apply Rabs_triang|]. eapply Rle_trans; [apply Rplus_le_compat_r, Rabs_triang|]. lra.
Qed.

(** ** Samples *)
Lemma magnitude_total : forall coefs quant, magnitude (dequantised coefs quant) = IZR (total coefs quant).
Proof.
  intros. unfold magnitude, total. rewrite rsum8_IZR. apply rsum8_ext. intros u _. rewrite rsum8_IZR. apply rsum8_ext. intros v _.
  unfold dequantised, deq. rewrite abs_IZR. reflexivity.
Qed.

Lemma total_moderate : forall coefs quant, length coefs = 64%nat -> (total coefs quant <= 65536)%Z -> moderate coefs quant.
Proof.
  intros coefs quant L T k. change (2 ^ 19)%Z with 524288%Z. destruct (Nat.lt_ge_cases k 64) as [H|H].
  - assert (D : (nth k coefs 0%Z * nth k quant 0%Z = deq coefs quant (k / 8) (k mod 8))%Z).
    { unfold deq. replace (k mod 8 + 8 * (k / 8))%nat with k; auto. rewrite (Nat.div_mod k 8) at 1 by lia. lia. }
    pose proof (column_total coefs quant (k mod 8) (Nat.mod_upper_bound k 8 ltac:(lia))) as C.
    pose proof (sum8_term (fun v => Z.abs (deq coefs quant v (k mod 8))) (k / 8)) as S. cbv beta in S.
    specialize (S ltac:(intros; lia) ltac:(apply Nat.div_lt_upper_bound; lia)). rewrite D.
    generalize dependent (deq coefs quant (k / 8) (k mod 8)). intros z _ S. lia.
  - rewrite (nth_overflow coefs) by lia. lia.
Qed.

Lemma sat_level : forall v, IZR (sat v) = Rmax 0 (Rmin 255 (IZR v)).
Proof.
  intros v. unfold sat, Rmax, Rmin.
  destruct (Rle_dec 255 (IZR v)) as [H|H]; [|apply Rnot_le_lt in H]; destruct (Rle_dec _ _) as [G|G]; try apply Rnot_le_lt in G.
  all: try lra.
  - apply le_IZR in H. f_equal. lia.
  - apply lt_IZR in H. apply (le_IZR 0) in G. f_equal. lia.
  - apply lt_IZR in H. apply (lt_IZR _ 0) in G. f_equal. lia.
Qed.

Lemma limit_near : forall a b t, Rabs (a - b) <= t -> Rabs (Rmax 0 (Rmin 255 a) - Rmax 0 (Rmin 255 b)) <= t.
Proof.
  intros a b t H. assert (U : - t <= a - b <= t) by (unfold Rabs in H; destruct (Rcase_abs (a - b)); lra).
  apply Rabs_le. unfold Rmax, Rmin. repeat destruct (Rle_dec _ _); lra.
Qed.

Lemma sample_near : forall dbg coefs quant, length coefs = 64%nat ->
  let F := dequantised coefs quant in
  magnitude F <= 65536 ->
  (forall y x, (y < 8)%nat -> (x < 8)%nat -> -240 <= 128 + idct_real F y x <= 750) ->
  exists rows, idct_block_rows dbg coefs quant = Ok rows /\
    forall y x, (y < 8)%nat -> (x < 8)%nat ->
      Rabs (IZR (nth x (nth y rows []) 0%Z) - level (idct_real F y x)) <= 5 / 8 + magnitude F / 6000.
Proof.
  cbv zeta. intros dbg coefs quant L M R. change (dequantised coefs quant) with (fr coefs quant) in *.
  assert (T : (total coefs quant <= 65536)%Z).
  { apply le_IZR. rewrite <- magnitude_total. auto. }
  pose proof (full_values_exact _ _ T) as E.
  exists (map (map sat) (full_values coefs quant)). split.
  - apply block_saturated; [apply total_moderate; auto|]. rewrite E. intros row v Hr Hv.
    apply in_map_iff in Hr. destruct Hr as [y [<- Hy]]. apply in_map_iff in Hv. destruct Hv as [x [<- Hx]].
    apply in_seq in Hy, Hx. pose proof (idct_near coefs quant y x ltac:(lia) ltac:(lia)) as N.
    specialize (R y x ltac:(lia) ltac:(lia)).
    set (v := pass2 coefs quant y x) in *. unfold Rabs in N.
    assert (-256 <= IZR v <= 767) as [G1 G2] by (destruct (Rcase_abs _); lra).
    apply (le_IZR (-256)) in G1. apply (le_IZR _ 767) in G2. lia.
  - intros y x Hy Hx. rewrite E.
    assert (N : nth x (nth y (map (map sat) (map (fun y => map (pass2 coefs quant y) (seq 0 8)) (seq 0 8))) []) 0%Z = sat (pass2 coefs quant y x)).
    { rewrite map_map, nth_map_seq by auto. rewrite map_map, nth_map_seq by auto. reflexivity. }
    rewrite N, sat_level. unfold level. apply limit_near. rewrite (Rplus_comm _ 128). apply idct_near; auto.
Qed.

Lemma idct_real_bound : forall F y x, (y < 8)%nat -> (x < 8)%nat -> Rabs (idct_real F y x) <= / 4 * magnitude F.
Proof.
  intros F y x Hy Hx. rewrite idct_real_ex, Rabs_mult, (Rabs_right (/ 8)) by lra.
  assert (S : Rabs (rsum8 (fun u => rsum8 (fun v => ex x u * ex y v * F v u))) <= 2 * magnitude F); [|lra].
  eapply Rle_trans; [apply rsum8_abs|]. unfold magnitude. rewrite <- rsum8_scale. apply rsum8_le. intros u Hu.
  eapply Rle_trans; [apply rsum8_abs|]. rewrite <- rsum8_scale. apply rsum8_le. intros v Hv.
  rewrite Rabs_mult. apply Rmult_le_compat_r; [apply Rabs_pos|]. rewrite Rabs_mult.
  destruct (matrix_close x u Hx Hu) as [_ A]. destruct (matrix_close y v Hy Hv) as [_ B].
  eapply Rle_trans; [apply Rmult_le_compat; [apply Rabs_pos|apply Rabs_pos|apply A|apply B]|]. lra.
Qed.

Lemma sample_within_one : forall dbg coefs quant, length coefs = 64%nat ->
  let F := dequantised coefs quant in
  magnitude F <= 1472 ->
  exists rows, idct_block_rows dbg coefs quant = Ok rows /\
    forall y x, (y < 8)%nat -> (x < 8)%nat -> Rabs (IZR (nth x (nth y rows []) 0%Z) - level (idct_real F y x)) < 1.
Proof.
  cbv zeta. intros dbg coefs quant L M. destruct (sample_near dbg coefs quant L) as [rows [E N]]; [lra| |].
  - intros y x Hy Hx. pose proof (idct_real_bound (dequantised coefs quant) y x Hy Hx) as B.
    assert (- 368 <= idct_real (dequantised coefs quant) y x <= 368) by (unfold Rabs in B; destruct (Rcase_abs _); lra). lra.
  - exists rows. split; auto. intros y x Hy Hx. specialize (N y x Hy Hx). lra.
Qed.

Lemma no_overflow : forall coefs quant, (total coefs quant <= 65536)%Z ->
  full_values coefs quant = map (fun y => map (pass2 coefs quant y) (seq 0 8)) (seq 0 8).
Proof. exact full_values_exact. Qed.

Lemma no_wrap : forall coefs quant, magnitude (dequantised coefs quant) <= 65536 ->
  full_values coefs quant =
    map (fun y => map (fun x =>
      ((65536 + 128 * 131072 + sum8 (fun u => mx x u *
        ((512 + sum8 (fun v => mx y v * (nth (u + 8 * v) coefs 0 * nth (u + 8 * v) quant 0))) / 1024))) / 131072)%Z) (seq 0 8)) (seq 0 8).
Proof.
  intros coefs quant M. assert (T : (total coefs quant <= 65536)%Z) by (apply le_IZR; rewrite <- magnitude_total; auto).
  rewrite (no_overflow _ _ T). unfold pass2, pass1, deq. reflexivity.
Qed.

Lemma magnitude_case : length (20 :: -30 :: 7 :: repeat 1 61)%Z = 64%nat /\
  magnitude (dequantised (20 :: -30 :: 7 :: repeat 1 61)%Z (repeat 11%Z 64)) <= 1472.
Proof. split; [reflexivity|]. rewrite magnitude_total. apply IZR_le. vm_compute. discriminate. Qed.
