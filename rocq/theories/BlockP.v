(** Proofs about block decoding. *)
From Coq Require Import Permutation.
From Verif Require Import Base Tactics Biterator SpecBits SpecReader Readers BitsP ReadersP Huffman SpecHuffman
  HuffmanP HuffmanP2 HuffmanP3 Types Parsers Decode SpecBlock SpecTables.

(** ** Zigzag order *)
Lemma natural_table : map (fun k => Z.of_nat (natural k)) (seq 0 64) = UNZIGZAG.
Proof. vm_compute. reflexivity. Qed.

Lemma unzz_index : forall k, (k < 64)%nat -> index UNZIGZAG (Z.of_nat k) = Ok (Z.of_nat (natural k)).
Proof.
  intros k H. rewrite <- natural_table. apply index_Ok. split; [lia|]. rewrite Nat2Z.id.
  rewrite nth_error_map. rewrite (nth_error_nth' _ 0%nat) by (rewrite seq_length; lia).
  rewrite seq_nth by lia. reflexivity.
Qed.

Lemma natural_sweep : forallb (fun k => (natural k <? 64)%nat) (seq 0 64) = true.
Proof. vm_compute. reflexivity. Qed.
Lemma natural_lt : forall k, (k < 64)%nat -> (natural k < 64)%nat.
Proof.
  intros k H. pose proof natural_sweep as S. rewrite forallb_forall in S.
  apply Nat.ltb_lt. apply S. apply in_seq. lia.
Qed.

(** The inverse traversal. *)
Definition unnatural (n : nat) : nat :=
  match find (fun k => Nat.eqb (natural k) n) (seq 0 64) with Some k => k | None => 0%nat end.
Lemma unnatural_sweep : forallb (fun k => Nat.eqb (unnatural (natural k)) k) (seq 0 64) = true.
Proof. vm_compute. reflexivity. Qed.
Lemma unnatural_natural : forall k, (k < 64)%nat -> unnatural (natural k) = k.
Proof.
  intros k H. pose proof unnatural_sweep as S. rewrite forallb_forall in S.
  apply Nat.eqb_eq. apply S. apply in_seq. lia.
Qed.
Lemma natural_unnatural_sweep : forallb (fun n => Nat.eqb (natural (unnatural n)) n && (unnatural n <? 64)%nat) (seq 0 64) = true.
Proof. vm_compute. reflexivity. Qed.
Lemma natural_unnatural : forall n, (n < 64)%nat -> natural (unnatural n) = n /\ (unnatural n < 64)%nat.
Proof.
  intros k H. pose proof natural_unnatural_sweep as S. rewrite forallb_forall in S.
  specialize (S k). rewrite in_seq in S. apply andb_true_iff in S; [|lia].
  rewrite Nat.eqb_eq, Nat.ltb_lt in S. exact S.
Qed.
Lemma natural_inj : forall i j, (i < 64)%nat -> (j < 64)%nat -> natural i = natural j -> i = j.
Proof. intros i j Hi Hj E. rewrite <- (unnatural_natural i), <- (unnatural_natural j) by auto. congruence. Qed.

Lemma unzigzag_spec : forall coefs k v, (k < 64)%nat -> length coefs = 64%nat ->
  unzigzag coefs (Z.of_nat k) v = Ok (upd coefs (natural k) v).
Proof.
  intros coefs k v Hk Hl. unfold unzigzag. rewrite unzz_index by auto. cbn [bind].
  unfold store_unchecked. pose proof (natural_lt k Hk).
  replace ((0 <=? Z.of_nat (natural k)) && (Z.of_nat (natural k) <? Z.of_nat (length coefs))) with true by lia.
  rewrite Nat2Z.id. reflexivity.
Qed.

(** ** Magnitudes *)
Lemma category_bounds : forall v, v <> 0 -> 1 <= category v /\ 2 ^ (category v - 1) <= Z.abs v < 2 ^ category v.
Proof.
  intros v Hv. unfold category. replace (v =? 0) with false by lia.
  pose proof (Z.log2_nonneg (Z.abs v)).
  pose proof (Z.log2_spec (Z.abs v) ltac:(lia)).
  replace (Z.log2 (Z.abs v) + 1 - 1) with (Z.log2 (Z.abs v)) by lia.
  replace (Z.succ (Z.log2 (Z.abs v))) with (Z.log2 (Z.abs v) + 1) in H0 by lia. lia.
Qed.

Lemma category_nonneg : forall v, 0 <= category v.
Proof. intros v. destruct (Z.eq_dec v 0) as [->|H]; [reflexivity|]. pose proof (category_bounds v H). lia. Qed.

Lemma magnitude_length : forall v, Z.of_nat (length (magnitude v)) = category v.
Proof. intros. unfold magnitude. rewrite to_bits_length. pose proof (category_nonneg v). lia. Qed.

Lemma magnitude_extend : forall v, v <> 0 -> EXTEND (of_bits (magnitude v)) (category v) = v.
Proof.
  intros v Hv. destruct (category_bounds v Hv) as [C1 C2]. unfold magnitude. rewrite of_to_bits.
  replace (Z.of_nat (Z.to_nat (category v))) with (category v) by lia.
  set (n := category v) in *. assert (P : 2 ^ n = 2 * 2 ^ (n - 1)) by (rewrite <- Z.pow_succ_r by lia; f_equal; lia).
  unfold EXTEND. destruct (v <? 0) eqn:S.
  - replace ((v - 1) mod 2 ^ n) with (v - 1 + 2 ^ n).
    2:{ apply Z.mod_unique with (-1); [left; lia|ring]. }
    replace (v - 1 + 2 ^ n <? 2 ^ (n - 1)) with true by lia. lia.
  - rewrite Z.mod_small by lia. replace (v <? 2 ^ (n - 1)) with false by lia. reflexivity.
Qed.

Lemma category_15 : forall v, category v <= 15 -> - 32768 < v < 32768.
Proof.
  intros v H. destruct (Z.eq_dec v 0) as [->|Hv]; [lia|].
  destruct (category_bounds v Hv) as [C1 C2].
  pose proof (Z.pow_le_mono_r 2 (category v) 15 ltac:(lia) H). change (2 ^ 15) with 32768 in H0. lia.
Qed.

Lemma shl16_0 : forall v, -32768 <= v < 32768 -> shl16 v 0 = v.
Proof. intros. unfold shl16. rewrite Z.shiftl_0_r. apply w16_id. lia. Qed.

Lemma w16_int16 : forall x, w16 x = int16 x.
Proof. reflexivity. Qed.

(** ** DC *)
Lemma decode_dc_coded : forall dbg sc t counts values tail b bs bd coefs pred diff,
  table_of counts values t -> marker_tail tail -> s_start sc = 0 -> length coefs = 64%nat ->
  category diff <= 11 -> coded counts values [dc_symbol diff] bd -> holds_at tail b (bd ++ bs) ->
  exists b', decode_dc dbg sc t coefs b pred =
     Ok (upd coefs 0 (shl16 (w16 (pred + diff)) (s_low sc)), b', w16 (pred + diff)) /\ holds_at tail b' bs.
Proof.
  intros dbg sc t counts values tail b bs bd coefs pred diff T Hm Hs Hl Hc C H.
  unfold decode_dc. rewrite Hs. cbn [Z.eqb].
  inversion C as [|k s extra c rest bs' Nv Nc Cr]; subst. inversion Cr; subst. rewrite app_nil_r in *.
  rewrite <- !app_assoc in H.
  destruct (table_decode_code dbg counts values t tail b _ k c T Hm Nc H) as [b1 [D1 H1]].
  rewrite D1. cbn [or_fail bind]. rewrite (nth_error_nth values k 0 Nv).
  assert (St : forall v, store coefs 0 v = Ok (upd coefs 0 v)).
  { intros. apply store_Ok. unfold lenZ. rewrite Hl. split; [lia|reflexivity]. }
  destruct (category diff =? 0) eqn:Z0.
  - assert (diff = 0).
    { destruct (Z.eq_dec diff 0); auto. pose proof (category_bounds diff n). lia. }
    subst diff. cbn [bind]. rewrite St. cbn [bind]. eauto.
  - replace (11 <? category diff) with false by lia.
    pose proof (magnitude_length diff) as Lm. pose proof (category_nonneg diff).
    destruct (receive_extend_ok dbg tail b1 (magnitude diff) bs Hm H1) as [b2 [R H2]]; [lia|].
    rewrite Lm in R. rewrite R. cbn [or_fail bind]. rewrite St. cbn [bind].
    rewrite magnitude_extend; [eauto|]. intros ->. cbn in Z0. discriminate.
Qed.

(** ** AC *)
Lemma coded_app : forall counts values s1 s2 bs, coded counts values (s1 ++ s2) bs ->
  exists b1 b2, bs = b1 ++ b2 /\ coded counts values s1 b1 /\ coded counts values s2 b2.
Proof.
  induction s1 as [|x s1 IH]; intros s2 bs C; cbn [app] in C.
  - exists [], bs. repeat split; auto. constructor.
  - inversion C as [|k s extra c rest bs' Nv Nc Cr]; subst. apply IH in Cr. destruct Cr as [b1 [b2 [-> [C1 C2]]]].
    exists (c ++ extra ++ b1), b2. rewrite <- !app_assoc. repeat split; auto. econstructor; eauto.
Qed.

Section AC.
Variables (dbg : bool) (t : ac_table) (counts values tail : list Z).
Hypothesis T : table_of counts values (ac_table_base t).
Hypothesis Bv : bytes values.
Hypothesis El : ac_lut t = ac_entries 0 (t_lut (ac_table_base t)).
Hypothesis Hm : marker_tail tail.
Hypothesis Ht : bytes tail.

(** One symbol without extra bits. *)
Lemma fast_plain : forall k s c b bs, nth_error values k = Some s -> nth_error (canonical counts) k = Some c ->
  s mod 16 = 0 -> holds_at tail b (c ++ bs) ->
  exists b', decode_fast_ac dbg t b = Ok (ANormal s, b') /\ holds_at tail b' bs.
Proof.
  intros k s c b bs Nv Nc Hs H.
  destruct (fast_ac_value dbg counts values t tail b bs k c [] s T Bv El Hm Ht Nc (nth_error_nth _ _ 0 Nv) ltac:(rewrite Hs; reflexivity) H)
    as [b' [[F _]|F]]; [lia|]. eauto.
Qed.

(** The ZRL symbols. *)
Lemma ac_loop_zrl : forall q fuel coefs b bs i bz, coded counts values (repeat (240, []) q) bz ->
  holds_at tail b (bz ++ bs) -> i + 16 * Z.of_nat q <= 63 -> 0 <= i -> (q <= fuel)%nat ->
  exists b', ac_loop dbg fuel t 0 63 coefs b 0 i = ac_loop dbg (fuel - q) t 0 63 coefs b' 0 (i + 16 * Z.of_nat q) /\
    holds_at tail b' bs.
Proof.
  induction q; intros fuel coefs b bs i bz C H Hi Hi0 Hf.
  - inversion C; subst. exists b. rewrite Nat.sub_0_r, Z.add_0_r. split; auto.
  - cbn [repeat] in C. inversion C as [|k s extra c rest bs' Nv Nc Cr]; subst.
    rewrite <- !app_assoc in H. cbn [app] in H.
    destruct (fast_plain k 240 c b _ Nv Nc eq_refl H) as [b1 [D1 H1]].
    destruct fuel as [|fuel]; [lia|]. cbn [ac_loop]. rewrite D1. cbn [bind].
    change (Z.land 240 15 =? 0) with true. change (Z.shiftr 240 4 =? 15) with true. cbn iota.
    replace (i + 16 <=? 63) with true by lia.
    destruct (IHq fuel coefs b1 bs (i + 16) bs' Cr H1) as [b2 [E2 H2]]; try lia.
    exists b2. rewrite E2. split; auto. cbn [Nat.sub]. f_equal. lia.
Qed.

Lemma ac_loop_coded : forall l run fuel coefs b bs i ba,
  coded counts values (ac_symbols run l) ba -> holds_at tail b (ba ++ bs) ->
  Forall (fun v => category v <= 15) l ->
  0 <= run -> 1 <= i <= 63 -> i + run + lenZ l = 64 -> 64 - i <= Z.of_nat fuel ->
  length coefs = 64%nat -> (forall k, i <= Z.of_nat k < 64 -> nth (natural k) coefs 0 = 0) ->
  exists coefs' b', ac_loop dbg fuel t 0 63 coefs b 0 i = Ok (coefs', b', 0) /\ holds_at tail b' bs /\
    length coefs' = 64%nat /\
    forall k, (k < 64)%nat -> nth (natural k) coefs' 0 =
      if i + run <=? Z.of_nat k then nth (k - Z.to_nat (i + run)) l 0 else nth (natural k) coefs 0.
Proof.
  induction l as [|v l IH]; intros run fuel coefs b bs i ba C H F Hr Hi Hl Hf Hc Hz.
  - (* EOB *)
    cbn [ac_symbols] in C. change (lenZ (@nil Z)) with 0 in Hl.
    replace (run =? 0) with false in C by lia.
    inversion C as [|k s extra c rest bs' Nv Nc Cr]; subst. inversion Cr; subst. rewrite !app_nil_r in *. 
    destruct (fast_plain k 0 c b _ Nv Nc eq_refl H) as [b1 [D1 H1]].
    destruct fuel as [|fuel]; [lia|]. cbn [ac_loop]. rewrite D1. cbn [bind].
    change (Z.land 0 15 =? 0) with true. change (Z.shiftr 0 4 =? 15) with false. change (0 <? Z.shiftr 0 4) with false. cbn iota.
    exists coefs, b1. split; [reflexivity|]. split; auto. split; auto.
    intros k' Hk'. replace (i + run <=? Z.of_nat k') with false by lia. reflexivity.
  - inversion F as [|? ? Fv Fl]; subst. rewrite lenZ_cons in Hl. pose proof (lenZ_nonneg _ l) as Ln.
    cbn [ac_symbols] in C. destruct (v =? 0) eqn:V0.
    + destruct (IH (run + 1) fuel coefs b bs i ba C H Fl) as [coefs' [b' [E [H' [L' N']]]]]; auto; try lia.
      exists coefs', b'. splits; auto. intros k Hk. rewrite N' by auto.
      destruct (i + (run + 1) <=? Z.of_nat k) eqn:E1.
      * replace (i + run <=? Z.of_nat k) with true by lia.
        replace (k - Z.to_nat (i + run))%nat with (S (k - Z.to_nat (i + (run + 1)))) by lia. reflexivity.
      * destruct (i + run <=? Z.of_nat k) eqn:E2; auto.
        replace (k - Z.to_nat (i + run))%nat with 0%nat by lia. cbn [nth]. rewrite Hz by lia. lia.
    + apply coded_app in C. destruct C as [bz [br [-> [Cz Cr]]]].
      inversion Cr as [|k s extra c rest bs' Nv Nc Cr']; subst.
      rewrite <- app_assoc in H. rewrite <- !app_assoc in H.
      assert (Hq : run = 16 * (run / 16) + run mod 16) by lia.
      destruct (ac_loop_zrl (Z.to_nat (run / 16)) fuel coefs b _ i bz Cz H) as [b1 [E1 H1]]; try lia.
      rewrite E1. set (i1 := i + 16 * Z.of_nat (Z.to_nat (run / 16))) in *.
      assert (Ei : i1 + run mod 16 = i + run) by lia.
      assert (Hcat := category_nonneg v).
      assert (v <> 0) by lia. pose proof (category_bounds v H0) as [C1 C2].
      set (byte := 16 * (run mod 16) + category v) in *.
      assert (Bm : byte mod 16 = category v) by lia.
      assert (Bd : byte / 16 = run mod 16) by lia.
      assert (Lm := magnitude_length v).
      destruct (fast_ac_value dbg counts values t tail b1 (bs' ++ bs) k c (magnitude v) byte T Bv El Hm Ht Nc (nth_error_nth _ _ 0 Nv) ltac:(lia) H1)
        as [b2 D].
      destruct (fuel - Z.to_nat (run / 16))%nat as [|f] eqn:Ef; [lia|].
      assert (Put : exists b3, holds_at tail b3 (bs' ++ bs) /\
         ac_loop dbg (S f) t 0 63 coefs b1 0 i1 =
         (if i + run <=? 63 then
            let* coefs := unzigzag coefs (i + run) (shl16 v 0) in
            if i + run + 1 <=? 63 then ac_loop dbg f t 0 63 coefs b3 0 (i + run + 1) else Ok (coefs, b3, 0)
          else Ok (coefs, b3, 0))).
      { destruct D as [[_ [D Hd]]|[D Hd]].
        - exists b2. split; auto. cbn [ac_loop]. rewrite D. cbn [bind].
          rewrite Bm, Bd, Ei, magnitude_extend by auto. reflexivity.
        - destruct (receive_extend_ok dbg tail b2 (magnitude v) (bs' ++ bs) Hm Hd) as [b3 [R H3]]; [lia|].
          exists b3. split; auto. cbn [ac_loop]. rewrite D. cbn [bind].
          replace (Z.shiftr byte 4) with (run mod 16) by (rewrite Z.shiftr_div_pow2 by lia; change (2 ^ 4) with 16; lia).
          replace (Z.land byte 15) with (category v) by (change 15 with (Z.ones 4); rewrite Z.land_ones by lia; change (2 ^ 4) with 16; lia).
          replace (category v =? 0) with false by lia.
          rewrite Lm in R. rewrite R. cbn [or_fail bind]. rewrite Ei, magnitude_extend by auto. reflexivity. }
      destruct Put as [b3 [H3 P]]. rewrite P. replace (i + run <=? 63) with true by lia.
      assert (Uz : forall x, unzigzag coefs (i + run) x = Ok (upd coefs (natural (Z.to_nat (i + run))) x)).
      { intros x. replace (i + run) with (Z.of_nat (Z.to_nat (i + run))) at 1 by lia. apply unzigzag_spec; auto. lia. }
      rewrite Uz. cbn [bind].
      rewrite shl16_0 by (pose proof (category_15 v Fv); lia).
      set (p := Z.to_nat (i + run)) in *.
      assert (Lu : length (upd coefs (natural p) v) = 64%nat) by (rewrite upd_length; auto).
      destruct (i + run + 1 <=? 63) eqn:El'.
      * destruct (IH 0 f (upd coefs (natural p) v) b3 bs (i + run + 1) bs' Cr' H3 Fl) as [coefs' [b' [E [H' [L' N']]]]]; auto; try lia.
        { intros k' Hk'. rewrite nth_upd_neq; [apply Hz; lia|].
          intros E. apply natural_inj in E; lia. }
        exists coefs', b'. splits; auto. intros k' Hk'. rewrite N' by auto. rewrite Z.add_0_r.
        destruct (i + run + 1 <=? Z.of_nat k') eqn:G1.
        -- replace (i + run <=? Z.of_nat k') with true by lia.
           replace (k' - p)%nat with (S (k' - Z.to_nat (i + run + 1))) by lia. reflexivity.
        -- destruct (i + run <=? Z.of_nat k') eqn:G2.
           ++ replace k' with p by lia. rewrite nth_upd_eq by (rewrite Hc; apply natural_lt; lia).
              replace (p - p)%nat with 0%nat by lia. reflexivity.
           ++ rewrite nth_upd_neq; auto. intros E'. apply natural_inj in E'; lia.
      * (* last coefficient *)
        assert (l = []) by (destruct l; auto; rewrite lenZ_cons in *; pose proof (lenZ_nonneg _ l); lia). subst l.
        cbn [ac_symbols] in Cr'. change (0 =? 0) with true in Cr'. cbn iota in Cr'. inversion Cr'; subst. cbn [app] in H3.
        exists (upd coefs (natural p) v), b3. splits; auto.
        intros k' Hk'. destruct (i + run <=? Z.of_nat k') eqn:G2.
        -- replace k' with p by lia. rewrite nth_upd_eq by (rewrite Hc; apply natural_lt; lia).
           replace (p - p)%nat with 0%nat by lia. reflexivity.
        -- rewrite nth_upd_neq; auto. intros E'. apply natural_inj in E'; lia.
Qed.
End AC.

(** ** Blocks *)
Lemma natural_0 : natural 0 = 0%nat.
Proof. reflexivity. Qed.

Lemma nth_zero_block : forall n, nth n zero_block 0 = 0.
Proof. intros. unfold zero_block. apply nth_repeat. Qed.

Lemma decode_block_coded : forall dbg ts dct act sc tail b bs k bk pred,
  built dbg ts dct act -> marker_tail tail -> bytes tail ->
  s_start sc = 0 -> 63 <= s_end sc -> s_low sc = 0 ->
  block_ok k -> block_bits ts k bk -> holds_at tail b (bk ++ bs) ->
  exists blk b',
    decode_block dbg sc dct act zero_block b 0 pred = Ok (blk, b', 0, int16 (pred + b_diff k)) /\
    block_values blk (int16 (pred + b_diff k)) (b_ac k) /\ holds_at tail b' bs.
Proof.
  intros dbg ts dct act sc tail b bs k bk pred [B1 B2 B2b B3 B4 B5 B6 B7] Hm Ht Hs He Hlow [K1 [K2 K3]] [bd [ba [-> [Cd Ca]]]] H.
  rewrite <- app_assoc in H.
  pose proof (table_new_of _ _ _ _ B1 B2 B3) as Td.
  destruct (ac_new_of _ _ _ _ B4 B5 B7) as [Ta El].
  destruct (decode_dc_coded dbg sc dct _ _ tail b (ba ++ bs) bd zero_block pred (b_diff k) Td Hm Hs eq_refl K1 Cd H)
    as [b1 [D1 H1]].
  unfold decode_block. rewrite D1. cbn [bind]. rewrite Hs, Hlow.
  replace (Z.max 0 1) with 1 by lia. replace (Z.min (s_end sc) 63) with 63 by lia. cbn [Z.leb Z.ltb andb Z.compare Pos.compare Pos.compare_cont].
  set (dc := w16 (pred + b_diff k)).
  assert (Hdc : -32768 <= dc < 32768) by (unfold dc; pose proof (w16_range (pred + b_diff k)); lia).
  rewrite shl16_0 by auto.
  assert (Lu : length (upd zero_block 0 dc) = 64%nat) by (rewrite upd_length; reflexivity).
  destruct (ac_loop_coded dbg act _ _ tail Ta B6 El Hm Ht (b_ac k) 0 64 (upd zero_block 0 dc) b1 bs 1 ba Ca H1 K3)
    as [coefs [b2 [E2 [H2 [L2 N2]]]]]; try lia; auto.
  { unfold lenZ. lia. }
  { intros j Hj. rewrite nth_upd_neq; [apply nth_zero_block|].
    intros E. change 0%nat with (natural 0) in E. apply natural_inj in E; lia. }
  rewrite E2. cbn [bind]. exists coefs, b2. split; [reflexivity|]. split; auto.
  split; auto. intros j Hj. rewrite N2 by auto. rewrite Z.add_0_r.
  destruct (1 <=? Z.of_nat j) eqn:J.
  - destruct j; [lia|]. cbn [nth]. f_equal. lia.
  - assert (j = 0)%nat by lia. subst j. rewrite natural_0. rewrite nth_upd_eq by (cbn; lia). reflexivity.
Qed.

(** Sequences of blocks of one component. *)
Lemma int16_int16 : forall a b, int16 (int16 a + b) = int16 (a + b).
Proof.
  intros. unfold int16. f_equal.
  replace ((a + 32768) mod 65536 - 32768 + b + 32768) with ((a + 32768) mod 65536 + b) by ring.
  rewrite Z.add_mod_idemp_l by lia. f_equal. ring.
Qed.

Lemma decode_blocks_coded : forall dbg ts dct act sc tail, built dbg ts dct act -> marker_tail tail -> bytes tail ->
  s_start sc = 0 -> 63 <= s_end sc -> s_low sc = 0 ->
  forall ks b bs bk pred, Forall block_ok ks -> blocks_bits ts ks bk -> holds_at tail b (bk ++ bs) ->
  exists blks b',
    decode_blocks dbg sc dct act (length ks) b 0 pred =
      Ok (blks, b', 0, match ks with [] => pred | _ => int16 (pred + sum_diffs ks) end) /\
    blocks_values blks pred ks /\ holds_at tail b' bs.
Proof.
  intros dbg ts dct act sc tail B Hm Ht Hs He Hl.
  induction ks as [|k ks IH]; intros b bs bk pred F C H.
  - inversion C; subst. cbn [length decode_blocks]. exists [], b. splits; auto. constructor.
  - inversion C as [|k' ks' bk' bs' Ck Cr]; subst. inversion F as [|? ? Fk Fr]; subst.
    rewrite <- app_assoc in H.
    destruct (decode_block_coded dbg ts dct act sc tail b _ k bk' pred B Hm Ht Hs He Hl Fk Ck H) as [blk [b1 [E1 [V1 H1]]]].
    destruct (IH b1 bs bs' (int16 (pred + b_diff k)) Fr Cr H1) as [blks [b2 [E2 [V2 H2]]]].
    cbn [length decode_blocks]. rewrite E1. cbn [bind]. rewrite E2. cbn [bind].
    exists (blk :: blks), b2. splits; auto; [|constructor; auto].
    do 2 f_equal. unfold sum_diffs. cbn [map fold_right]. fold (sum_diffs ks).
    destruct ks as [|k2 ks2]; [unfold sum_diffs; cbn; rewrite Z.add_0_r; reflexivity|].
    rewrite int16_int16. f_equal. ring.
Qed.

(** ** Any bits: safety and the band *)
Definition i16 (x : Z) : Prop := -32768 <= x < 32768.
Lemma w16_i16 : forall x, i16 (w16 x).
Proof. intros. unfold i16. pose proof (w16_range x). lia. Qed.
Lemma shl16_i16 : forall x n, i16 (shl16 x n).
Proof. intros. apply w16_i16. Qed.

Definition dc_ok (t : base_table) : Prop := exists counts values, bytes values /\ table_of counts values t.
Definition ac_ok (t : ac_table) : Prop := exists counts values, bytes values /\
  table_of counts values (ac_table_base t) /\ ac_lut t = ac_entries 0 (t_lut (ac_table_base t)).

Lemma receive_extend_any : forall dbg b n, good b -> 1 <= n <= 16 ->
  exists r b', receive_extend dbg b n = Ok (r, b') /\ good b' /\ suffix (bi_input b') (bi_input b).
Proof.
  intros dbg b n G Hn. unfold receive_extend.
  destruct (next_bits_any dbg b n G Hn) as [r [b' [E [G' [S _]]]]]. rewrite E. cbn [bind].
  destruct r; eauto 6.
Qed.

Lemma fast_any : forall dbg t b, ac_ok t -> good b ->
  exists r b', decode_fast_ac dbg t b = Ok (r, b') /\ good b' /\ suffix (bi_input b') (bi_input b) /\
    match r with AFast v run => 0 <= run <= 15 | ANormal byte => 0 <= byte < 256 | AErr => True end.
Proof.
  intros dbg t b [counts [values [Bv [T El]]]] G.
  pose proof (fast_ac_equals_slow dbg counts values t b T Bv El G) as F.
  destruct (table_decode_any dbg counts values _ b T G) as [r [b1 [D [G1 [S1 V1]]]]].
  destruct (decode_fast_ac dbg t b) as [[[v run|byte|] b']| | |] eqn:E; try contradiction.
  - destruct F as [byte [b2 [D' [-> [Hb R]]]]]. rewrite D in D'. inv D'.
    unfold bytes in Bv. rewrite Forall_forall in Bv. apply Bv in V1. unfold is_byte in V1.
    destruct (receive_extend_any dbg b2 (byte mod 16) G1) as [r' [b3 [R' [G3 S3]]]]; [lia|].
    rewrite R in R'. inv R'. exists (AFast v (byte / 16)), b3. splits; auto; try lia. eapply suffix_trans; eauto.
  - rewrite D in F. inv F. unfold bytes in Bv. rewrite Forall_forall in Bv. apply Bv in V1.
    exists (ANormal byte), b'. splits; auto; apply V1.
  - rewrite D in F. inv F. exists AErr, b'. splits; auto.
Qed.

(** What holds after decoding (part of) a block into [coefs]: lengths, ranges, and nothing
    outside the zigzag positions [lo..hi] has changed. *)
Record band (lo hi : Z) (coefs coefs' : list Z) : Prop := mkBand {
  bd_len : length coefs' = 64%nat;
  bd_rng : Forall i16 coefs';
  bd_out : forall k, (k < 64)%nat -> (Z.of_nat k < lo \/ hi < Z.of_nat k) -> nth (natural k) coefs' 0 = nth (natural k) coefs 0;
}.

Lemma band_refl : forall lo hi c, length c = 64%nat -> Forall i16 c -> band lo hi c c.
Proof. intros. constructor; auto. Qed.
Lemma band_trans : forall lo hi lo' hi' a b c, lo <= lo' -> hi' <= hi -> band lo hi a b -> band lo' hi' b c -> band lo hi a c.
Proof.
  intros lo hi lo' hi' a b c H1 H2 [L1 R1 O1] [L2 R2 O2]. constructor; auto.
  intros k Hk H. rewrite O2 by (auto; lia). apply O1; auto.
Qed.
Lemma band_put : forall lo hi c p v, length c = 64%nat -> Forall i16 c -> i16 v -> (p < 64)%nat -> lo <= Z.of_nat p <= hi ->
  band lo hi c (upd c (natural p) v).
Proof.
  intros. constructor.
  - rewrite upd_length. auto.
  - apply Forall_upd; auto.
  - intros k Hk Ho. apply nth_upd_neq. intros E. apply natural_inj in E; auto. lia.
Qed.

Lemma or_fail_some : forall A e (v : A) b, or_fail e (Ok (Some v, b)) = Ok (v, b).
Proof. reflexivity. Qed.

Lemma ac_loop_safe : forall dbg t low last, ac_ok t -> last <= 63 ->
  forall fuel coefs b eob i, length coefs = 64%nat -> Forall i16 coefs -> good b -> 0 <= eob < 2 ^ 15 ->
  1 <= i <= last -> 64 - i <= Z.of_nat fuel ->
  match ac_loop dbg fuel t low last coefs b eob i with
  | Ok (coefs', b', eob') => band i last coefs coefs' /\ good b' /\ suffix (bi_input b') (bi_input b) /\ 0 <= eob' < 2 ^ 15
  | Fail _ => True
  | _ => False
  end.
Proof.
  intros dbg t low last T Hlast. induction fuel as [|fuel IH]; intros coefs b eob i Hc Hr G He Hi Hf; [lia|].
  cbn [ac_loop].
  destruct (fast_any dbg t b T G) as [r [b1 [D [G1 [S1 V1]]]]]. rewrite D. cbn [bind].
  assert (Put : forall value run b2, good b2 -> suffix (bi_input b2) (bi_input b) -> 0 <= run ->
    match (if i + run <=? last then
          let* coefs := unzigzag coefs (i + run) (shl16 value low) in
          if i + run + 1 <=? last then ac_loop dbg fuel t low last coefs b2 eob (i + run + 1)
          else Ok (coefs, b2, eob)
        else Ok (coefs, b2, eob)) with
    | Ok (coefs', b', eob') => band i last coefs coefs' /\ good b' /\ suffix (bi_input b') (bi_input b) /\ 0 <= eob' < 2 ^ 15
    | Fail _ => True
    | _ => False
    end).
  { intros value run b2 G2 S2 Hrun. destruct (i + run <=? last) eqn:L1.
    - assert (Uz : unzigzag coefs (i + run) (shl16 value low) = Ok (upd coefs (natural (Z.to_nat (i + run))) (shl16 value low))).
      { replace (i + run) with (Z.of_nat (Z.to_nat (i + run))) at 1 by lia. apply unzigzag_spec; auto. lia. }
      rewrite Uz. cbn [bind].
      assert (Bp : band i last coefs (upd coefs (natural (Z.to_nat (i + run))) (shl16 value low))).
      { apply band_put; auto; try lia. apply shl16_i16. }
      destruct (i + run + 1 <=? last) eqn:L2.
      + specialize (IH (upd coefs (natural (Z.to_nat (i + run))) (shl16 value low)) b2 eob (i + run + 1) (bd_len _ _ _ _ Bp) (bd_rng _ _ _ _ Bp) G2 He ltac:(lia) ltac:(lia)).
        destruct (ac_loop dbg fuel t low last _ b2 eob (i + run + 1)) as [[[c' b'] e']| | |]; auto.
        destruct IH as [B' [G' [S' E']]]. splits; auto; try lia.
        * eapply band_trans; try exact Bp; try exact B'; lia.
        * eapply suffix_trans; eauto.
      + splits; auto; lia.
    - splits; auto; try lia. apply band_refl; auto. }
  destruct r as [v run|byte|].
  - apply Put; auto. lia.
  - assert (Hr4 : Z.shiftr byte 4 = byte / 16) by (rewrite Z.shiftr_div_pow2 by lia; reflexivity).
    assert (Hl4 : Z.land byte 15 = byte mod 16) by (change 15 with (Z.ones 4); rewrite Z.land_ones by lia; reflexivity).
    rewrite Hr4, Hl4.
    destruct (byte mod 16 =? 0) eqn:S0.
    + destruct (byte / 16 =? 15) eqn:R15.
      * destruct (i + 16 <=? last) eqn:L.
        -- specialize (IH coefs b1 eob (i + 16) Hc Hr G1 He ltac:(lia) ltac:(lia)).
           destruct (ac_loop dbg fuel t low last coefs b1 eob (i + 16)) as [[[c' b'] e']| | |]; auto.
           destruct IH as [B' [G' [S' E']]]. splits; auto; try lia.
           ++ eapply band_trans; [| |apply (band_refl i last); auto|exact B']; lia.
           ++ eapply suffix_trans; eauto.
        -- splits; auto; try lia. apply band_refl; auto.
      * assert (P : 1 <= 2 ^ (byte / 16) <= 2 ^ 14).
        { split; [|apply Z.pow_le_mono_r; lia]. change 1 with (2 ^ 0). apply Z.pow_le_mono_r; lia. }
        destruct (0 <? byte / 16) eqn:R0.
        -- destruct (next_bits_any dbg b1 (byte / 16) G1) as [v [b2 [N [G2 [S2 V2]]]]]; [lia|]. rewrite N.
           destruct v as [v|]; cbn [or_fail bind]; auto. change (2 ^ 14) with 16384 in P. change (2 ^ 15) with 32768.
           splits; auto; try lia. { apply band_refl; auto. } eapply suffix_trans; eauto.
        -- change (2 ^ 14) with 16384 in P. change (2 ^ 15) with 32768.
           splits; auto; try lia. apply band_refl; auto.
    + destruct (receive_extend_any dbg b1 (byte mod 16) G1) as [v [b2 [R [G2 S2]]]]; [lia|]. rewrite R.
      destruct v as [v|]; cbn [or_fail bind]; auto.
      apply Put; auto; try lia. eapply suffix_trans; eauto.
  - exact I.
Qed.

Lemma decode_dc_safe : forall dbg sc t coefs b pred, dc_ok t -> length coefs = 64%nat -> Forall i16 coefs -> good b -> i16 pred ->
  match decode_dc dbg sc t coefs b pred with
  | Ok (coefs', b', pred') => band (s_start sc) 0 coefs coefs' /\ good b' /\ suffix (bi_input b') (bi_input b) /\ i16 pred'
  | Fail _ => True
  | _ => False
  end.
Proof.
  intros dbg sc t coefs b pred [counts [values [Bv T]]] Hc Hr G Hp. unfold decode_dc.
  destruct (s_start sc =? 0) eqn:S0; [|splits; auto using suffix_refl; apply band_refl; auto].
  destruct (table_decode_any dbg counts values _ b T G) as [r [b1 [D [G1 [S1 V1]]]]]. rewrite D.
  destruct r as [v|]; cbn [or_fail bind]; auto.
  unfold bytes in Bv. rewrite Forall_forall in Bv. apply Bv in V1. unfold is_byte in V1.
  assert (Fin : forall diff b2, good b2 -> suffix (bi_input b2) (bi_input b) ->
    match (let* coefs0 := store coefs 0 (shl16 (w16 (pred + diff)) (s_low sc)) in Ok (coefs0, b2, w16 (pred + diff))) with
    | Ok (coefs', b', pred') => band (s_start sc) 0 coefs coefs' /\ good b' /\ suffix (bi_input b') (bi_input b) /\ i16 pred'
    | Fail _ => True
    | _ => False
    end).
  { intros diff b2 G2 S2.
    assert (St : forall v, store coefs 0 v = Ok (upd coefs 0 v)).
    { intros. apply store_Ok. unfold lenZ. rewrite Hc. split; [lia|reflexivity]. }
    rewrite St. cbn [bind]. splits; auto using w16_i16.
    change 0%nat with (natural 0). apply band_put; auto using shl16_i16; lia. }
  destruct (v =? 0) eqn:V0; [apply Fin; auto|].
  destruct (11 <? v) eqn:V11; cbn [bind]; auto.
  destruct (receive_extend_any dbg b1 v G1) as [d [b2 [R [G2 S2]]]]; [lia|]. rewrite R.
  destruct d as [d|]; cbn [or_fail bind]; auto. apply Fin; auto. eapply suffix_trans; eauto.
Qed.

Lemma decode_block_safe : forall dbg sc dct act coefs b eob pred, dc_ok dct -> ac_ok act ->
  0 <= s_start sc -> length coefs = 64%nat -> Forall i16 coefs -> good b -> 0 <= eob < 2 ^ 15 -> i16 pred ->
  match decode_block dbg sc dct act coefs b eob pred with
  | Ok (coefs', b', eob', pred') =>
      band (s_start sc) (Z.max 0 (s_end sc)) coefs coefs' /\ good b' /\ suffix (bi_input b') (bi_input b) /\
      0 <= eob' < 2 ^ 15 /\ i16 pred'
  | Fail _ => True
  | _ => False
  end.
Proof.
  intros dbg sc dct act coefs b eob pred Td Ta Hs Hc Hr G He Hp. unfold decode_block.
  pose proof (decode_dc_safe dbg sc dct coefs b pred Td Hc Hr G Hp) as D.
  destruct (decode_dc dbg sc dct coefs b pred) as [[[c1 b1] p1]| | |]; try contradiction; cbn [bind]; auto.
  destruct D as [B1 [G1 [S1 P1]]].
  assert (B1' : band (s_start sc) (Z.max 0 (s_end sc)) coefs c1).
  { destruct B1. constructor; auto. intros. apply bd_out0; auto. lia. }
  destruct ((Z.max (s_start sc) 1 <=? Z.min (s_end sc) 63) && (0 <? eob)) eqn:E1.
  { splits; auto; lia. }
  destruct (Z.max (s_start sc) 1 <? Z.min (s_end sc) 63) eqn:E2.
  2:{ splits; auto; lia. }
  pose proof (ac_loop_safe dbg act (s_low sc) (Z.min (s_end sc) 63) Ta ltac:(lia) 64 c1 b1 eob (Z.max (s_start sc) 1)
    (bd_len _ _ _ _ B1) (bd_rng _ _ _ _ B1) G1 He ltac:(lia) ltac:(lia)) as A.
  destruct (ac_loop dbg 64 act (s_low sc) (Z.min (s_end sc) 63) c1 b1 eob (Z.max (s_start sc) 1)) as [[[c2 b2] e2]| | |];
    try contradiction; cbn [bind]; auto.
  destruct A as [B2 [G2 [S2 E2']]]. splits; auto; try lia.
  - eapply band_trans; [| |exact B1'|exact B2]; lia.
  - eapply suffix_trans; eauto.
Qed.

Lemma built_ok : forall dbg ts dct act, built dbg ts dct act -> dc_ok dct /\ ac_ok act.
Proof.
  intros dbg ts dct act [B1 B2 B2b B3 B4 B5 B6 B7]. split.
  - exists (dc_counts ts), (dc_values ts). split; auto. eapply table_new_of; eauto.
  - exists (ac_counts ts), (ac_values ts). split; auto. eapply ac_new_of; eauto.
Qed.

Lemma int16_id : forall x, -32768 <= x < 32768 -> int16 x = x.
Proof. intros. unfold int16. rewrite Z.mod_small; lia. Qed.

Lemma block_inverts : forall dbg ts dct act sc tail b bs dc ac pred bk,
  built dbg ts dct act -> marker_tail tail -> bytes tail ->
  s_start sc = 0 -> 63 <= s_end sc -> s_low sc = 0 ->
  -32768 <= dc < 32768 -> block_ok (mkBlock (dc - pred) ac) ->
  block_bits ts (mkBlock (dc - pred) ac) bk -> holds_at tail b (bk ++ bs) ->
  exists blk b', decode_block dbg sc dct act zero_block b 0 pred = Ok (blk, b', 0, dc) /\
    block_values blk dc ac /\ holds_at tail b' bs.
Proof.
  intros dbg ts dct act sc tail b bs dc ac pred bk B Hm Ht Hs He Hl Hdc K C H.
  destruct (decode_block_coded dbg ts dct act sc tail b bs _ bk pred B Hm Ht Hs He Hl K C H) as [blk [b' [E [V H']]]].
  cbn [b_diff b_ac] in *. replace (pred + (dc - pred)) with dc in * by ring. rewrite int16_id in * by auto. eauto.
Qed.

Lemma block_band : forall dbg ts dct act sc b eob pred coefs b' eob' pred',
  built dbg ts dct act -> 0 <= s_start sc -> 0 <= s_end sc ->
  reader_ok b -> bytes (bi_input b) -> 0 <= eob < 2 ^ 15 -> -32768 <= pred < 32768 ->
  decode_block dbg sc dct act zero_block b eob pred = Ok (coefs, b', eob', pred') ->
  length coefs = 64%nat /\
  forall k, (k < 64)%nat -> (Z.of_nat k < s_start sc \/ s_end sc < Z.of_nat k) -> nth (natural k) coefs 0 = 0.
Proof.
  intros dbg ts dct act sc b eob pred coefs b' eob' pred' B Hs He Hb Hi Heob Hp E.
  destruct (built_ok _ _ _ _ B) as [Td Ta].
  assert (Z0 : Forall i16 zero_block).
  { apply Forall_forall. intros x Hx. apply repeat_spec in Hx. subst. unfold i16. lia. }
  pose proof (decode_block_safe dbg sc dct act zero_block b eob pred Td Ta Hs eq_refl Z0 (conj Hb Hi) Heob Hp) as S.
  rewrite E in S. destruct S as [[L R O] _]. split; auto. intros k Hk Ho. rewrite O by (auto; lia). apply nth_zero_block.
Qed.

Lemma block_total : forall dbg ts dct act sc b eob pred,
  built dbg ts dct act -> 0 <= s_start sc ->
  reader_ok b -> bytes (bi_input b) -> 0 <= eob < 2 ^ 15 -> -32768 <= pred < 32768 ->
  (exists r, decode_block dbg sc dct act zero_block b eob pred = Ok r) \/
  (exists e, decode_block dbg sc dct act zero_block b eob pred = Fail e).
Proof.
  intros dbg ts dct act sc b eob pred B Hs Hb Hi Heob Hp.
  destruct (built_ok _ _ _ _ B) as [Td Ta].
  assert (Z0 : Forall i16 zero_block).
  { apply Forall_forall. intros x Hx. apply repeat_spec in Hx. subst. unfold i16. lia. }
  pose proof (decode_block_safe dbg sc dct act zero_block b eob pred Td Ta Hs eq_refl Z0 (conj Hb Hi) Heob Hp) as S.
  destruct (decode_block dbg sc dct act zero_block b eob pred); try contradiction; eauto.
Qed.

Lemma blocks_values_nth : forall blks pred ks, blocks_values blks pred ks ->
  length blks = length ks /\
  forall i blk k, nth_error blks i = Some blk -> nth_error ks i = Some k ->
    block_values blk (int16 (pred + sum_diffs (firstn (S i) ks))) (b_ac k).
Proof.
  induction 1 as [|blk blks pred k ks V Vs [L IH]].
  - split; auto. intros [|i]; discriminate.
  - split; [cbn [length]; congruence|]. intros [|i] blk' k' N1 N2; cbn [nth_error] in *.
    + inv N1. inv N2. unfold sum_diffs. cbn [firstn map fold_right]. rewrite Z.add_0_r. exact V.
    + specialize (IH i blk' k' N1 N2). cbn [firstn]. unfold sum_diffs in *. cbn [map fold_right].
      rewrite int16_int16 in IH. rewrite Z.add_assoc. exact IH.
Qed.

Lemma dc_running_sum : forall dbg ts dct act sc tail ks b bs bk pred,
  built dbg ts dct act -> marker_tail tail -> bytes tail ->
  s_start sc = 0 -> 63 <= s_end sc -> s_low sc = 0 -> -32768 <= pred < 32768 ->
  Forall block_ok ks -> blocks_bits ts ks bk -> holds_at tail b (bk ++ bs) ->
  exists blks b',
    decode_blocks dbg sc dct act (length ks) b 0 pred = Ok (blks, b', 0, int16 (pred + sum_diffs ks)) /\
    length blks = length ks /\
    (forall i blk k, nth_error blks i = Some blk -> nth_error ks i = Some k ->
       block_values blk (int16 (pred + sum_diffs (firstn (S i) ks))) (b_ac k)) /\
    holds_at tail b' bs.
Proof.
  intros dbg ts dct act sc tail ks b bs bk pred B Hm Ht Hs He Hl Hp F C H.
  destruct (decode_blocks_coded dbg ts dct act sc tail B Hm Ht Hs He Hl ks b bs bk pred F C H) as [blks [b' [E [V H']]]].
  destruct (blocks_values_nth _ _ _ V) as [L N]. exists blks, b'. splits; auto.
  rewrite E. do 2 f_equal. destruct ks; auto. unfold sum_diffs. cbn. rewrite Z.add_0_r, int16_id by auto. reflexivity.
Qed.

Lemma zigzag_writes : forall coefs k v, (k < 64)%nat -> length coefs = 64%nat ->
  exists coefs', unzigzag coefs (Z.of_nat k) v = Ok coefs' /\ length coefs' = 64%nat /\
    nth (natural k) coefs' 0 = v /\ forall j, j <> natural k -> nth j coefs' 0 = nth j coefs 0.
Proof.
  intros coefs k v Hk Hl. rewrite unzigzag_spec by auto. eexists. split; [reflexivity|].
  rewrite upd_length. splits; auto.
  - apply nth_upd_eq. rewrite Hl. apply natural_lt. auto.
  - intros. apply nth_upd_neq. congruence.
Qed.

Lemma zigzag_permutation : Permutation (map natural (seq 0 64)) (seq 0 64).
Proof.
  apply NoDup_Permutation_bis.
  - assert (I : forall n a, (a + n <= 64)%nat -> NoDup (map natural (seq a n))).
    { induction n as [|n IH]; intros a Ha; cbn [seq map]; constructor.
      - intros Hx. apply in_map_iff in Hx. destruct Hx as [k [E Hk]]. apply in_seq in Hk.
        apply natural_inj in E; lia.
      - apply IH. lia. }
    apply I. lia.
  - rewrite map_length. lia.
  - intros x Hx. apply in_map_iff in Hx. destruct Hx as [k [<- Hk]]. apply in_seq in Hk.
    apply in_seq. pose proof (natural_lt k). lia.
Qed.
