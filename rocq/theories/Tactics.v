(** Proof automation and list/integer lemmas (no model content). *)
From Coq Require Export ZifyBool ZifyNat ZifyN.
From Verif Require Import Base.
Ltac Zify.zify_post_hook ::= Z.div_mod_to_equations.

Ltac inv H := inversion H; subst; clear H.

(** Destructs the innermost match / if / let in a hypothesis or the goal. *)
Ltac dmatch_in H :=
  match type of H with
  | context [match ?x with _ => _ end] =>
      lazymatch x with
      | context [match _ with _ => _ end] => fail
      | _ => let E := fresh "E" in destruct x eqn:E
      end
  end.
Ltac dmatch :=
  match goal with
  | |- context [match ?x with _ => _ end] =>
      lazymatch x with
      | context [match _ with _ => _ end] => fail
      | _ => let E := fresh "E" in destruct x eqn:E
      end
  end.

Lemma bind_ok : forall A B (x : out A) (f : A -> out B) b,
  bind x f = Ok b -> exists a, x = Ok a /\ f a = Ok b.
Proof. intros A B [a| | |] f b H; simpl in H; try discriminate. eauto. Qed.

(** Turns [bind x f = Ok r] hypotheses into their parts. *)
Ltac binv H :=
  let a := fresh "a" in let E := fresh "E" in
  apply bind_ok in H; destruct H as [a [E H]].

Lemma lenZ_nonneg : forall A (xs : list A), 0 <= lenZ xs.
Proof. intros. unfold lenZ. lia. Qed.

Lemma lenZ_app : forall A (xs ys : list A), lenZ (xs ++ ys) = lenZ xs + lenZ ys.
Proof. intros. unfold lenZ. rewrite app_length. lia. Qed.

Lemma lenZ_cons : forall A (x : A) xs, lenZ (x :: xs) = 1 + lenZ xs.
Proof. intros. unfold lenZ. cbn [length]. lia. Qed.

Lemma index_Ok : forall A (xs : list A) i x,
  index xs i = Ok x <-> 0 <= i /\ nth_error xs (Z.to_nat i) = Some x.
Proof.
  intros. unfold index. destruct (i <? 0) eqn:E.
  - split; [discriminate|]. intros [H _]. lia.
  - destruct (nth_error xs (Z.to_nat i)) eqn:F; split; intros H.
    + inv H. split; [lia|reflexivity].
    + destruct H as [_ H]. inv H. reflexivity.
    + discriminate.
    + destruct H as [_ H]. discriminate.
Qed.

Lemma index_nth : forall A (xs : list A) i d,
  0 <= i < lenZ xs -> index xs i = Ok (nth (Z.to_nat i) xs d).
Proof.
  intros. apply index_Ok. split; [lia|]. apply nth_error_nth'. unfold lenZ in H. lia.
Qed.

Lemma upd_length : forall A (xs : list A) i v, length (upd xs i v) = length xs.
Proof. induction xs; destruct i; simpl; intros; auto. Qed.

Lemma nth_upd_eq : forall A (xs : list A) i v d, (i < length xs)%nat -> nth i (upd xs i v) d = v.
Proof. induction xs; destruct i; simpl; intros; try lia; auto. apply IHxs. lia. Qed.

Lemma nth_upd_neq : forall A (xs : list A) i j v d, i <> j -> nth j (upd xs i v) d = nth j xs d.
Proof. induction xs; destruct i, j; simpl; intros; auto; try lia. Qed.

Lemma nth_error_upd_eq : forall A (xs : list A) i v,
  (i < length xs)%nat -> nth_error (upd xs i v) i = Some v.
Proof. induction xs; destruct i; simpl; intros; try lia; auto. apply IHxs. lia. Qed.

Lemma nth_error_upd_neq : forall A (xs : list A) i j v,
  i <> j -> nth_error (upd xs i v) j = nth_error xs j.
Proof. induction xs; destruct i, j; simpl; intros; auto; try lia. Qed.

Lemma Forall_upd : forall A (P : A -> Prop) xs i v, Forall P xs -> P v -> Forall P (upd xs i v).
Proof.
  induction xs; destruct i; simpl; intros; auto.
  - inv H. constructor; auto.
  - inv H. constructor; auto.
Qed.

Lemma store_Ok : forall A (xs : list A) i v ys,
  store xs i v = Ok ys <-> 0 <= i < lenZ xs /\ ys = upd xs (Z.to_nat i) v.
Proof.
  intros. unfold store, lenZ.
  destruct ((0 <=? i) && (i <? Z.of_nat (length xs))) eqn:E; split; intros H.
  - inv H. split; [lia|reflexivity].
  - destruct H; subst; reflexivity.
  - discriminate.
  - lia.
Qed.

Lemma mapM_length : forall A B (f : A -> out B) xs ys, mapM f xs = Ok ys -> length ys = length xs.
Proof.
  induction xs; simpl; intros ys H.
  - inv H. reflexivity.
  - binv H. binv H. inv H. simpl. f_equal. auto.
Qed.

Lemma mapM_nth : forall A B (f : A -> out B) xs ys i x,
  mapM f xs = Ok ys -> nth_error xs i = Some x ->
  exists y, nth_error ys i = Some y /\ f x = Ok y.
Proof.
  induction xs; simpl; intros ys i x H N.
  - destruct i; discriminate.
  - binv H. binv H. inv H. destruct i; simpl in *.
    + inv N. eauto.
    + eauto.
Qed.

Lemma mapM_ok_map : forall A B (f : A -> out B) (g : A -> B) xs,
  (forall x, In x xs -> f x = Ok (g x)) -> mapM f xs = Ok (map g xs).
Proof.
  induction xs; simpl; intros H; auto.
  rewrite (H a) by auto. simpl. rewrite IHxs by auto. reflexivity.
Qed.

Lemma Forall_nth_d : forall A (P : A -> Prop) xs i d, Forall P xs -> P d -> P (nth i xs d).
Proof. induction xs; destruct i; simpl; intros; auto; inv H; auto. Qed.

(** Finite sweeps. *)
Lemma zrange_in : forall n x, In x (zrange n) <-> 0 <= x < n.
Proof.
  intros. unfold zrange. rewrite in_map_iff. split.
  - intros [k [E H]]. apply in_seq in H. lia.
  - intros H. exists (Z.to_nat x). split; [lia|]. apply in_seq. lia.
Qed.

Lemma zrange_length : forall n, length (zrange n) = Z.to_nat n.
Proof. intros. unfold zrange. rewrite map_length, seq_length. reflexivity. Qed.

Lemma nth_zrange : forall n i d, (i < Z.to_nat n)%nat -> nth i (zrange n) d = Z.of_nat i.
Proof.
  intros. unfold zrange. rewrite nth_indep with (d' := Z.of_nat 0).
  - rewrite map_nth, seq_nth by lia. lia.
  - rewrite map_length, seq_length. lia.
Qed.

Lemma zsweep : forall (P : Z -> bool) n,
  forallb P (zrange n) = true -> forall x, 0 <= x < n -> P x = true.
Proof. intros P n H x Hx. rewrite forallb_forall in H. apply H, zrange_in, Hx. Qed.

(** Wrap-around. *)
Lemma w32_id : forall x, - 2 ^ 31 <= x < 2 ^ 31 -> w32 x = x.
Proof. intros. unfold w32, swrap. change (2 ^ (32 - 1)) with (2 ^ 31).
  rewrite Z.mod_small; lia. Qed.
Lemma w16_id : forall x, - 2 ^ 15 <= x < 2 ^ 15 -> w16 x = x.
Proof. intros. unfold w16, swrap. change (2 ^ (16 - 1)) with (2 ^ 15).
  rewrite Z.mod_small; lia. Qed.
Lemma w32_range : forall x, - 2 ^ 31 <= w32 x < 2 ^ 31.
Proof. intros. unfold w32, swrap. change (2 ^ (32 - 1)) with (2 ^ 31).
  pose proof (Z.mod_pos_bound (x + 2 ^ 31) (2 ^ 32)). lia. Qed.
Lemma w16_range : forall x, - 2 ^ 15 <= w16 x < 2 ^ 15.
Proof. intros. unfold w16, swrap. change (2 ^ (16 - 1)) with (2 ^ 15).
  pose proof (Z.mod_pos_bound (x + 2 ^ 15) (2 ^ 16)). lia. Qed.
Lemma w16_congr : forall x, exists k, w16 x = x + k * 2 ^ 16.
Proof. intros. unfold w16, swrap. change (2 ^ (16 - 1)) with (2 ^ 15).
  exists (- ((x + 2 ^ 15) / 2 ^ 16)). pose proof (Z.div_mod (x + 2 ^ 15) (2 ^ 16)). lia. Qed.
Lemma w16_eq : forall x y k, x = y + k * 2 ^ 16 -> w16 x = w16 y.
Proof.
  intros. subst. unfold w16, swrap. change (2 ^ (16 - 1)) with (2 ^ 15).
  replace (y + k * 2 ^ 16 + 2 ^ 15) with (y + 2 ^ 15 + k * 2 ^ 16) by lia.
  rewrite Z.mod_add by lia. reflexivity.
Qed.
Lemma wrap_id : forall n x, 0 <= x < 2 ^ n -> wrap n x = x.
Proof. intros. unfold wrap. apply Z.mod_small. lia. Qed.

(** Splits syntactic conjunctions only. *)
Ltac splits := repeat match goal with |- _ /\ _ => split end.
