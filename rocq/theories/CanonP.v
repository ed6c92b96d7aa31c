(** Consecutive canonical codes (C15). *)
From Verif Require Import Base Tactics Biterator SpecBits SpecReader Huffman SpecHuffman BitsP HuffmanP HuffmanP2 HuffmanP3.

Lemma segs_next : forall ls a k x l y m,
  nth_error (segs a ls) k = Some (x, l) -> nth_error (segs a ls) (S k) = Some (y, m) -> y = x + W l.
Proof.
  induction ls as [|h r IH]; intros a k x l y m N N'; [destruct k; discriminate|].
  cbn [segs] in *. destruct k.
  - cbn [nth_error] in *. inv N. destruct r; [discriminate|]. cbn [segs nth_error] in N'. inv N'. reflexivity.
  - cbn [nth_error] in N, N'. eapply IH; eauto.
Qed.

Lemma segs_lens : forall ls a k x l, nth_error (segs a ls) k = Some (x, l) -> nth_error ls k = Some l.
Proof.
  induction ls as [|h r IH]; intros a k x l N; [destruct k; discriminate|].
  destruct k; cbn [segs nth_error] in *; [inv N; reflexivity | eapply IH; eauto].
Qed.

Lemma lens_mono : forall ls lo k l m, lens_ok lo ls -> nth_error ls k = Some l -> nth_error ls (S k) = Some m -> l <= m.
Proof.
  induction ls as [|h r IH]; intros lo k l m O N N'; [destruct k; discriminate|]. inv O.
  destruct k; cbn [nth_error] in N, N'.
  - inv N. destruct r; [discriminate|]. inv N'. match goal with H : lens_ok _ (_ :: _) |- _ => inv H end. lia.
  - eapply IH; eauto.
Qed.

Lemma seg_value : forall x l, 1 <= l <= 16 -> 0 <= x < 2 ^ 16 -> of_bits (seg_code (x, l)) = x / W l.
Proof.
  intros x l Hl Hx. unfold seg_code. cbn [fst snd]. rewrite of_to_bits, Z2Nat.id by lia.
  apply Z.mod_small. pose proof (W_pos l ltac:(lia)). split; [apply Z.div_pos; lia|].
  apply Z.div_lt_upper_bound; [lia|]. unfold W. rewrite <- Z.pow_add_r by lia. replace (16 - l + l) with 16 by lia. lia.
Qed.

Lemma codes_consecutive : forall dbg counts values t,
  counts_ok counts -> lenZ values = total_codes counts -> table_new dbg counts values = Ok t ->
  length (canonical counts) = length values /\
  (forall c, nth_error (canonical counts) 0 = Some c -> of_bits c = 0) /\
  (forall k c c', nth_error (canonical counts) k = Some c -> nth_error (canonical counts) (S k) = Some c' ->
     (length c <= length c')%nat /\
     of_bits c' = (of_bits c + 1) * 2 ^ (Z.of_nat (length c') - Z.of_nat (length c))).
Proof.
  intros dbg counts values t C L E. apply table_new_of in E; auto. assert (K := to_kraft _ _ _ E).
  assert (Ok1 : lens_ok 1 (code_lengths counts)) by (destruct C; apply lengths_from_ok; lia).
  rewrite canonical_segs by auto. split; [|split].
  - rewrite map_length, segs_length. unfold lenZ in L. destruct C as [_ B].
    pose proof (lengths_from_length counts 1 B) as G. unfold code_lengths, lenZ in *. lia.
  - intros c N. rewrite nth_error_map in N. destruct (nth_error (segs 0 (code_lengths counts)) 0) as [[x l]|] eqn:N0; [|discriminate].
    cbn [option_map] in N. inv N. destruct (seg_bounds _ _ _ C K N0) as (B1 & B2 & B3 & B4). cbn [fst snd] in *.
    pose proof (W_pos l ltac:(lia)).
    rewrite seg_value by lia. destruct (code_lengths counts); [discriminate|]. cbn [segs nth_error] in N0. inv N0. apply Z.div_0_l. lia.
  - intros k c c' N N'. rewrite nth_error_map in N, N'.
    destruct (nth_error (segs 0 (code_lengths counts)) k) as [[x l]|] eqn:Nk; [|discriminate].
    destruct (nth_error (segs 0 (code_lengths counts)) (S k)) as [[y m]|] eqn:Nk'; [|discriminate].
    cbn [option_map] in N, N'. inv N. inv N'.
    destruct (seg_bounds _ _ _ C K Nk) as (B1 & B2 & B3 & B4). destruct (seg_bounds _ _ _ C K Nk') as (D1 & D2 & D3 & D4). cbn [fst snd] in *.
    pose proof (segs_next _ _ _ _ _ _ _ Nk Nk') as ->.
    pose proof (lens_mono _ _ _ _ _ Ok1 (segs_lens _ _ _ _ _ Nk) (segs_lens _ _ _ _ _ Nk')) as M.
    pose proof (W_pos l ltac:(lia)). pose proof (W_pos m ltac:(lia)).
    rewrite !seg_value by lia. unfold seg_code. cbn [fst snd]. rewrite !to_bits_length, !Z2Nat.id by lia. split; [lia|].
    destruct B2 as [q ->]. rewrite Z.div_mul by lia.
    assert (EW : W l = 2 ^ (m - l) * W m) by (unfold W; rewrite <- Z.pow_add_r by lia; f_equal; lia).
    rewrite EW. replace (q * (2 ^ (m - l) * W m) + 2 ^ (m - l) * W m) with ((q + 1) * 2 ^ (m - l) * W m) by ring.
    rewrite Z.div_mul by lia. reflexivity.
Qed.
