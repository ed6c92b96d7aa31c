(** The forward transform and quantisation (C72). *)
From Coq Require Import Reals Lra.
From Verif Require Import Base Tactics SpecBlock SpecScan SpecDct SpecExact SpecFdct Idct IdctReal.
Open Scope R_scope.

(** ** The transform matrix is orthogonal *)
Lemma ck_product : forall a b, (b <= a)%nat -> 2 * ck a * ck b = ck (a + b) + ck (a - b).
Proof. intros a b H. rewrite ck_add by exact H. ring. Qed.
Lemma sk_product : forall a b, (b <= a)%nat -> sk a * sk b = ck (a + b) + ck (a - b).
Proof. intros a b H. rewrite <- ck_product by exact H. unfold sk. pose proof sqrt2_sq as E. replace (sqrt 2 * ck a * (sqrt 2 * ck b)) with (sqrt 2 * sqrt 2 * ck a * ck b) by ring. rewrite E. reflexivity. Qed.
Lemma ex_product : forall x z u, (z <= x)%nat -> ex x u * ex z u = match u with O => 1 | _ => ck (2 * (x + z + 1) * u) + ck (2 * (x - z) * u) end.
Proof.
  intros x z u H. destruct u as [|u]; [unfold ex; ring|]. unfold ex. rewrite sk_product by nia. f_equal; f_equal; nia.
Qed.
Lemma ex_orthogonal' : forall x z, (z <= x)%nat -> (x < 8)%nat -> rsum8 (fun u => ex x u * ex z u) = if (x =? z)%nat then 8 else 0.
Proof.
  intros x z H Hx. unfold rsum8. rewrite !ex_product by exact H. pose proof ck_0 as C0. pose proof ck_8 as C8.
  do 8 (destruct x as [|x]; [do 8 (destruct z as [|z]; [try lia;
     cbv beta iota; repeat match goal with |- context [ck ?n] => lazymatch n with
       | O => fail | _ => let m := eval vm_compute in n in lazymatch m with n => fail | _ => change (ck n) with (ck m) end end end;
     rewrite !ck_reduce; cbn [Nat.mul Nat.add Nat.sub Nat.modulo Nat.divmod snd Nat.leb Nat.eqb]; lra|]); lia|]); lia.
Qed.
Lemma ex_orthogonal : forall x z, (x < 8)%nat -> (z < 8)%nat -> rsum8 (fun u => ex x u * ex z u) = if (x =? z)%nat then 8 else 0.
Proof.
  intros x z Hx Hz. destruct (Nat.le_gt_cases z x) as [H|H]; [apply ex_orthogonal'; assumption|].
  rewrite (rsum8_ext _ (fun u => ex z u * ex x u)) by (intros; ring). rewrite ex_orthogonal' by lia. rewrite Nat.eqb_sym. reflexivity.
Qed.

(** ** Sums over blocks *)
Definition rsum64 (f : nat -> nat -> R) : R := rsum8 (fun u => rsum8 (fun v => f v u)).
Lemma rsum8_swap : forall f : nat -> nat -> R, rsum8 (fun a => rsum8 (fun b => f a b)) = rsum8 (fun b => rsum8 (fun a => f a b)).
Proof. intros f. unfold rsum8. ring. Qed.
Lemma rsum64_ext : forall f g, (forall v u, (v < 8)%nat -> (u < 8)%nat -> f v u = g v u) -> rsum64 f = rsum64 g.
Proof. intros f g E. apply rsum8_ext. intros u Hu. apply rsum8_ext. intros v Hv. apply E; assumption. Qed.
Lemma rsum64_le : forall f g, (forall v u, (v < 8)%nat -> (u < 8)%nat -> f v u <= g v u) -> rsum64 f <= rsum64 g.
Proof. intros f g E. apply rsum8_le. intros u Hu. apply rsum8_le. intros v Hv. apply E; assumption. Qed.
Lemma rsum64_plus : forall f g, rsum64 (fun v u => f v u + g v u) = rsum64 f + rsum64 g.
Proof. intros f g. unfold rsum64. rewrite <- rsum8_plus. apply rsum8_ext. intros u _. apply rsum8_plus. Qed.
Lemma rsum64_scale : forall k f, rsum64 (fun v u => k * f v u) = k * rsum64 f.
Proof. intros k f. unfold rsum64. rewrite <- rsum8_scale. apply rsum8_ext. intros u _. apply rsum8_scale. Qed.
Lemma rsum64_term : forall f v u, (forall v u, (v < 8)%nat -> (u < 8)%nat -> 0 <= f v u) -> (v < 8)%nat -> (u < 8)%nat -> f v u <= rsum64 f.
Proof.
  assert (T : forall f u, (forall u, (u < 8)%nat -> 0 <= f u) -> (u < 8)%nat -> f u <= rsum8 f).
  { intros f u P H. unfold rsum8. pose proof (P 0%nat ltac:(lia)). pose proof (P 1%nat ltac:(lia)). pose proof (P 2%nat ltac:(lia)). pose proof (P 3%nat ltac:(lia)).
    pose proof (P 4%nat ltac:(lia)). pose proof (P 5%nat ltac:(lia)). pose proof (P 6%nat ltac:(lia)). pose proof (P 7%nat ltac:(lia)).
    do 8 (destruct u as [|u]; [lra|]). lia. }
  intros f v u P Hv Hu. unfold rsum64. apply (Rle_trans _ (rsum8 (fun v => f v u))); [apply (T (fun v => f v u)); auto|].
  apply (T (fun u => rsum8 (fun v => f v u))); [|exact Hu]. intros u' Hu'. apply (Rle_trans _ (f 0%nat u')); [apply P; lia|]. apply (T (fun v => f v u')); [auto|lia].
Qed.
Lemma rsum64_const : forall c, rsum64 (fun _ _ => c) = 64 * c.
Proof. intros c. unfold rsum64, rsum8. ring. Qed.
(** Cauchy and Schwarz, against weights of norm one. *)
Lemma schwarz : forall G w, rsum64 (fun v u => w v u * w v u) = 1 -> rsum64 (fun v u => w v u * G v u) ^ 2 <= rsum64 (fun v u => G v u ^ 2).
Proof.
  intros G w W. set (t := rsum64 (fun v u => w v u * G v u)).
  assert (P : 0 <= rsum64 (fun v u => (G v u - t * w v u) ^ 2)).
  { apply (Rle_trans _ (rsum64 (fun _ _ => 0))); [rewrite rsum64_const; lra|]. apply rsum64_le. intros. apply pow2_ge_0. }
  rewrite (rsum64_ext _ (fun v u => (G v u ^ 2 + (-2 * t) * (w v u * G v u)) + (t * t) * (w v u * w v u))) in P by (intros; ring).
  rewrite rsum64_plus, rsum64_plus, rsum64_scale, rsum64_scale, W in P. fold t in P. nra.
Qed.
Lemma square_le : forall a b, 0 <= b -> a ^ 2 <= b ^ 2 -> Rabs a <= b.
Proof. intros a b Hb H. apply Rabs_le. split; nra. Qed.

(** ** Inverse and forward transform *)
Lemma idct_weights : forall F y x, idct_real F y x = rsum64 (fun v u => (/ 8 * (ex x u * ex y v)) * F v u).
Proof. intros F y x. rewrite idct_real_ex. unfold rsum64. rewrite <- rsum8_scale. apply rsum8_ext. intros u _. rewrite <- rsum8_scale. apply rsum8_ext. intros v _. ring. Qed.
Lemma weights_one : forall y x, (y < 8)%nat -> (x < 8)%nat -> rsum64 (fun v u => (/ 8 * (ex x u * ex y v)) * (/ 8 * (ex x u * ex y v))) = 1.
Proof.
  intros y x Hy Hx. rewrite (rsum64_ext _ (fun v u => / 64 * ((ex x u * ex x u) * (ex y v * ex y v)))) by (intros; field).
  rewrite rsum64_scale. unfold rsum64. rewrite (rsum8_ext _ (fun u => 8 * (ex x u * ex x u))).
  - rewrite rsum8_scale, ex_orthogonal, Nat.eqb_refl by assumption. lra.
  - intros u _. rewrite rsum8_scale, ex_orthogonal, Nat.eqb_refl by assumption. ring.
Qed.
Lemma idct_energy : forall F y x, (y < 8)%nat -> (x < 8)%nat -> idct_real F y x ^ 2 <= rsum64 (fun v u => F v u ^ 2).
Proof. intros F y x Hy Hx. rewrite idct_weights. apply schwarz, weights_one; assumption. Qed.
Lemma fdct_ex : forall f v u, fdct_real f v u = rsum64 (fun y x => (/ 8 * (ex x u * ex y v)) * f y x).
Proof.
  intros f v u. unfold fdct_real, rsum64. rewrite <- rsum8_scale. apply rsum8_ext. intros x _. rewrite <- rsum8_scale. apply rsum8_ext. intros y _.
  rewrite !ex_cos. pose proof sqrt2_sq as E.
  set (a := dct_norm u). set (b := dct_norm v). set (c := cos _). set (d := cos _).
  replace (/ 8 * (sqrt 2 * (a * c) * (sqrt 2 * (b * d))) * f y x) with ((sqrt 2 * sqrt 2) * / 8 * (a * b * c * d * f y x)) by ring. rewrite E. field.
Qed.
Lemma delta8 : forall g x, (x < 8)%nat -> rsum8 (fun z => g z * (if (x =? z)%nat then 8 else 0)) = 8 * g x.
Proof. intros g x H. unfold rsum8. do 8 (destruct x as [|x]; [cbn [Nat.eqb]; ring|]). lia. Qed.
Lemma transform_inverse : forall f y x, (y < 8)%nat -> (x < 8)%nat -> idct_real (fdct_real f) y x = f y x.
Proof.
  intros f y x Hy Hx. rewrite idct_weights.
  (* sum over u and v of the weights times the sum over the samples *)
  rewrite (rsum64_ext _ (fun v u => / 64 * (ex x u * rsum8 (fun a => ex a u * (ex y v * rsum8 (fun b => ex b v * f b a)))))).
  2: { intros v u _ _. rewrite fdct_ex. unfold rsum64. rewrite <- !rsum8_scale. apply rsum8_ext. intros a _. rewrite <- !rsum8_scale. apply rsum8_ext. intros b _. field. }
  rewrite rsum64_scale. unfold rsum64.
  rewrite (rsum8_ext _ (fun u => rsum8 (fun a => (8 * f y a) * (ex x u * ex a u)))).
  2: { intros u _. rewrite (rsum8_ext _ (fun v => rsum8 (fun a => (ex x u * ex a u) * rsum8 (fun b => (ex y v * ex b v) * f b a)))).
       2: { intros v _. rewrite <- rsum8_scale. apply rsum8_ext. intros a _. rewrite <- !rsum8_scale. apply rsum8_ext. intros b _. ring. }
       rewrite rsum8_swap. apply rsum8_ext. intros a _. rewrite rsum8_scale.
       rewrite rsum8_swap. rewrite (rsum8_ext _ (fun b => f b a * (if (y =? b)%nat then 8 else 0))).
       2: { intros b Hb. rewrite <- (ex_orthogonal y b) by assumption. rewrite <- rsum8_scale. apply rsum8_ext. intros v _. ring. }
       rewrite (delta8 (fun b => f b a)) by exact Hy. ring. }
  rewrite rsum8_swap. rewrite (rsum8_ext _ (fun a => (8 * f y a) * (if (x =? a)%nat then 8 else 0))).
  2: { intros a Ha. rewrite rsum8_scale, ex_orthogonal by assumption. reflexivity. }
  rewrite (delta8 (fun a => 8 * f y a)) by exact Hx. field.
Qed.
Lemma fdct_energy : forall f, rsum64 (fun v u => fdct_real f v u ^ 2) = rsum64 (fun y x => f y x ^ 2).
Proof.
  intros f. set (F := fdct_real f).
  rewrite (rsum64_ext (fun v u => F v u ^ 2) (fun v u => rsum64 (fun y x => f y x * ((/ 8 * (ex x u * ex y v)) * F v u)))).
  2: { intros v u _ _. cbn [pow]. rewrite Rmult_1_r. unfold F at 1. rewrite fdct_ex. rewrite Rmult_comm, <- rsum64_scale. apply rsum64_ext. intros y x _ _. ring. }
  assert (Swap : forall g : nat -> nat -> nat -> nat -> R, rsum64 (fun v u => rsum64 (fun y x => g v u y x)) = rsum64 (fun y x => rsum64 (fun v u => g v u y x))).
  { intros g. unfold rsum64.
    rewrite (rsum8_ext _ (fun u => rsum8 (fun x => rsum8 (fun v => rsum8 (fun y => g v u y x))))) by (intros u _; apply rsum8_swap).
    rewrite rsum8_swap. apply rsum8_ext. intros x _.
    rewrite (rsum8_ext _ (fun u => rsum8 (fun y => rsum8 (fun v => g v u y x)))) by (intros u _; apply rsum8_swap). apply rsum8_swap. }
  rewrite Swap. apply rsum64_ext. intros y x Hy Hx. rewrite rsum64_scale, <- idct_weights. unfold F. rewrite transform_inverse by assumption. ring.
Qed.
Lemma magnitude_energy : forall F, magnitude F ^ 2 <= 64 * rsum64 (fun v u => F v u ^ 2).
Proof.
  intros F. assert (W : rsum64 (fun _ _ => / 8 * / 8) = 1) by (rewrite rsum64_const; lra).
  pose proof (schwarz (fun v u => Rabs (F v u)) (fun _ _ => / 8) W) as S. rewrite (rsum64_scale (/ 8)) in S.
  rewrite (rsum64_ext (fun v u => Rabs (F v u) ^ 2) (fun v u => F v u ^ 2)) in S by (intros; apply pow2_abs).
  change (rsum64 (fun v u => Rabs (F v u))) with (magnitude F) in S. nra.
Qed.
