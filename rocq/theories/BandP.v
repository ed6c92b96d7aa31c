(** Proofs about the decoding of bands of coefficients and runs of ended blocks. *)
From Verif Require Import Base Tactics Biterator SpecBits SpecReader Readers BitsP ReadersP Huffman SpecHuffman
  HuffmanP HuffmanP2 HuffmanP3 Types Parsers Decode SpecBlock SpecTables BlockP SpecBand.

Lemma shl16_scaled : forall v low, 0 <= low -> shl16 v low = scaled low v.
Proof. intros. unfold shl16, scaled. rewrite Z.shiftl_mul_pow2 by auto. apply w16_int16. Qed.

Lemma last_default : forall A (l : list A) a b, l <> [] -> last l a = last l b.
Proof.
  induction l as [|x l IH]; intros a b H; [congruence|].
  destruct l; [reflexivity|]. change (last (a0 :: l) a = last (a0 :: l) b). apply IH. discriminate.
Qed.

Section AC.
Variables (dbg : bool) (t : ac_table) (counts values tail : list Z) (low top : Z).
Hypothesis T : table_of counts values (ac_table_base t).
Hypothesis Bv : bytes values.
Hypothesis El : ac_lut t = ac_entries 0 (t_lut (ac_table_base t)).
Hypothesis Hm : marker_tail tail.
Hypothesis Ht : bytes tail.
Hypothesis Hlow : 0 <= low.
Hypothesis Htop : top <= 63.

(** The ZRL symbols. *)
Lemma band_zrl : forall q fuel coefs b bs i bz, coded counts values (repeat (240, []) q) bz ->
  holds_at tail b (bz ++ bs) -> i + 16 * Z.of_nat q <= top -> 0 <= i -> (q <= fuel)%nat ->
  exists b', ac_loop dbg fuel t low top coefs b 0 i = ac_loop dbg (fuel - q) t low top coefs b' 0 (i + 16 * Z.of_nat q) /\
    holds_at tail b' bs.
Proof.
  induction q; intros fuel coefs b bs i bz C H Hi Hi0 Hf.
  - inversion C; subst. exists b. rewrite Nat.sub_0_r, Z.add_0_r. split; auto.
  - cbn [repeat] in C. inversion C as [|k s extra c rest bs' Nv Nc Cr]; subst.
    rewrite <- !app_assoc in H. cbn [app] in H.
    destruct (fast_plain dbg t counts values tail T Bv El Hm Ht k 240 c b _ Nv Nc eq_refl H) as [b1 [D1 H1]].
    destruct fuel as [|fuel]; [lia|]. cbn [ac_loop]. rewrite D1. cbn [bind].
    change (Z.land 240 15 =? 0) with true. change (Z.shiftr 240 4 =? 15) with true. cbn iota.
    replace (i + 16 <=? top) with true by lia.
    destruct (IHq fuel coefs b1 bs (i + 16) bs' Cr H1) as [b2 [E2 H2]]; try lia.
    exists b2. rewrite E2. split; auto. cbn [Nat.sub]. f_equal. lia.
Qed.


Variables (n : nat) (ext : Z).
Hypothesis Hn : (n <= 14)%nat.
Hypothesis Hext : 0 <= ext < 2 ^ Z.of_nat n.

Lemma band_loop : forall l run fuel coefs b bs i ba,
  coded counts values (band_symbols (eobn n ext) run l) ba -> holds_at tail b (ba ++ bs) ->
  Forall (fun v => category v <= 15) l ->
  0 <= run -> 1 <= i <= top -> i + run + lenZ l = top + 1 -> 64 - i <= Z.of_nat fuel ->
  length coefs = 64%nat -> (forall k, i <= Z.of_nat k <= top -> nth (natural k) coefs 0 = 0) ->
  exists coefs' b', ac_loop dbg fuel t low top coefs b 0 i =
      Ok (coefs', b', if last l (if run =? 0 then 1 else 0) =? 0 then 2 ^ Z.of_nat n + ext - 1 else 0) /\
    holds_at tail b' bs /\ length coefs' = 64%nat /\
    forall k, (k < 64)%nat -> nth (natural k) coefs' 0 =
      if (i + run <=? Z.of_nat k) && (Z.of_nat k <=? top) then scaled low (nth (k - Z.to_nat (i + run)) l 0)
      else nth (natural k) coefs 0.
Proof.
  induction l as [|v l IH]; intros run fuel coefs b bs i ba C H F Hr Hi Hl Hf Hc Hz.
  - (* EOBn *)
    cbn [band_symbols] in C. change (lenZ (@nil Z)) with 0 in Hl.
    replace (run =? 0) with false in * by lia. cbn [last Z.eqb].
    inversion C as [|k s extra c rest bs' Nv Nc Cr]; subst. inversion Cr; subst. rewrite !app_nil_r in *.
    rewrite <- app_assoc in H.
    destruct (fast_plain dbg t counts values tail T Bv El Hm Ht k (16 * Z.of_nat n) c b _ Nv Nc ltac:(lia) H) as [b1 [D1 H1]].
    destruct fuel as [|fuel]; [lia|]. cbn [ac_loop]. rewrite D1. cbn [bind].
    replace (Z.land (16 * Z.of_nat n) 15) with 0 by (change 15 with (Z.ones 4); rewrite Z.land_ones by lia; change (2 ^ 4) with 16; lia).
    replace (Z.shiftr (16 * Z.of_nat n) 4) with (Z.of_nat n) by (rewrite Z.shiftr_div_pow2 by lia; change (2 ^ 4) with 16; lia).
    change (0 =? 0) with true. replace (Z.of_nat n =? 15) with false by lia. cbn iota. cbv zeta.
    assert (R : exists b2, (if 0 <? Z.of_nat n then
        let* (v, b) := or_fail EOutOfBits (next_bits dbg b1 (Z.of_nat n)) in Ok (coefs, b, 2 ^ Z.of_nat n - 1 + v)
        else Ok (coefs, b1, 2 ^ Z.of_nat n - 1)) = Ok (coefs, b2, 2 ^ Z.of_nat n + ext - 1) /\ holds_at tail b2 bs).
    { destruct (0 <? Z.of_nat n) eqn:Pn.
      - pose proof (to_bits_length n ext) as Ln.
        destruct (next_bits_holds dbg tail b1 (to_bits n ext) bs Hm H1) as [b2 [N2 H2]]; [lia|].
        rewrite Ln in N2. rewrite N2. cbn [or_fail bind]. exists b2. split; auto.
        rewrite of_to_bits. rewrite Z.mod_small by lia. do 2 f_equal. lia.
      - assert (N0 : n = 0%nat) by lia. assert (P0 : 2 ^ Z.of_nat n = 1) by (rewrite N0; reflexivity).
        exists b1. rewrite P0 in *. split; [do 2 f_equal; lia|]. rewrite N0 in H1. exact H1. }
    destruct R as [b2 [R H2]]. rewrite R.
    exists coefs, b2. split; [reflexivity|]. split; auto. split; auto.
    intros k' Hk'. replace ((i + run <=? Z.of_nat k') && (Z.of_nat k' <=? top)) with false by lia. reflexivity.
  - inversion F as [|? ? Fv Fl]; subst. rewrite lenZ_cons in Hl. pose proof (lenZ_nonneg _ l) as Ln.
    cbn [band_symbols] in C. destruct (v =? 0) eqn:V0.
    + destruct (IH (run + 1) fuel coefs b bs i ba C H Fl) as [coefs' [b' [E [H' [L' N']]]]]; auto; try lia.
      exists coefs', b'. split; [|split; [auto|split; [auto|]]].
      { rewrite E. replace (run + 1 =? 0) with false by lia.
        assert (v = 0) by lia. subst v. destruct l as [|v' l]; [reflexivity|].
        rewrite (last_default _ (0 :: v' :: l) (if run =? 0 then 1 else 0) 0) by discriminate. reflexivity. }
      intros k Hk. rewrite N' by auto.
      destruct ((i + (run + 1) <=? Z.of_nat k) && (Z.of_nat k <=? top)) eqn:E1.
      * replace ((i + run <=? Z.of_nat k) && (Z.of_nat k <=? top)) with true by lia.
        replace (k - Z.to_nat (i + run))%nat with (S (k - Z.to_nat (i + (run + 1)))) by lia. reflexivity.
      * destruct ((i + run <=? Z.of_nat k) && (Z.of_nat k <=? top)) eqn:E2; auto.
        replace (k - Z.to_nat (i + run))%nat with 0%nat by lia. cbn [nth]. rewrite Hz by lia.
        replace v with 0 by lia. reflexivity.
    + apply coded_app in C. destruct C as [bz [br [-> [Cz Cr]]]].
      inversion Cr as [|k s extra c rest bs' Nv Nc Cr']; subst.
      rewrite <- app_assoc in H. rewrite <- !app_assoc in H.
      assert (Hq : run = 16 * (run / 16) + run mod 16) by lia.
      destruct (band_zrl (Z.to_nat (run / 16)) fuel coefs b _ i bz Cz H) as [b1 [E1 H1]]; try lia.
      rewrite E1. set (i1 := i + 16 * Z.of_nat (Z.to_nat (run / 16))) in *.
      assert (Ei : i1 + run mod 16 = i + run) by lia.
      assert (Hcat := category_nonneg v).
      assert (Vn : v <> 0) by lia. pose proof (category_bounds v Vn) as [C1 C2].
      set (byte := 16 * (run mod 16) + category v) in *.
      assert (Bm : byte mod 16 = category v) by lia.
      assert (Bd : byte / 16 = run mod 16) by lia.
      assert (Lm := magnitude_length v).
      destruct (fast_ac_value dbg counts values t tail b1 (bs' ++ bs) k c (magnitude v) byte T Bv El Hm Ht Nc (nth_error_nth _ _ 0 Nv) ltac:(lia) H1)
        as [b2 D].
      destruct (fuel - Z.to_nat (run / 16))%nat as [|f] eqn:Ef; [lia|].
      assert (Put : exists b3, holds_at tail b3 (bs' ++ bs) /\
         ac_loop dbg (S f) t low top coefs b1 0 i1 =
         (if i + run <=? top then
            let* coefs := unzigzag coefs (i + run) (shl16 v low) in
            if i + run + 1 <=? top then ac_loop dbg f t low top coefs b3 0 (i + run + 1) else Ok (coefs, b3, 0)
          else Ok (coefs, b3, 0))).
      { destruct D as [[_ [D Hd]]|[D Hd]].
        - exists b2. split; auto. cbn [ac_loop]. rewrite D. cbn [bind].
          rewrite Bm, Bd, Ei, magnitude_extend by auto. reflexivity.
        - destruct (receive_extend_ok dbg tail b2 (magnitude v) (bs' ++ bs) Hm Hd) as [b3 [R H3]]; [lia|].
          exists b3. split; auto. cbn [ac_loop]. rewrite D. cbn [bind].
          replace (Z.shiftr byte 4) with (run mod 16) by (rewrite Z.shiftr_div_pow2 by lia; change (2 ^ 4) with 16; lia).
          replace (Z.land byte 15) with (category v) by (change 15 with (Z.ones 4); rewrite Z.land_ones by lia; change (2 ^ 4) with 16; lia).
          replace (category v =? 0) with false by lia.
          rewrite Lm in R. rewrite R. cbn [or_fail bind]. rewrite Ei, magnitude_extend by auto. reflexivity. }
      destruct Put as [b3 [H3 P]]. rewrite P. replace (i + run <=? top) with true by lia.
      assert (Uz : forall x, unzigzag coefs (i + run) x = Ok (upd coefs (natural (Z.to_nat (i + run))) x)).
      { intros x. replace (i + run) with (Z.of_nat (Z.to_nat (i + run))) at 1 by lia. apply unzigzag_spec; auto. lia. }
      rewrite Uz. cbn [bind].
      rewrite shl16_scaled by auto.
      set (p := Z.to_nat (i + run)) in *.
      assert (Lu : length (upd coefs (natural p) (scaled low v)) = 64%nat) by (rewrite upd_length; auto).
      destruct (i + run + 1 <=? top) eqn:El'.
      * destruct (IH 0 f (upd coefs (natural p) (scaled low v)) b3 bs (i + run + 1) bs' Cr' H3 Fl) as [coefs' [b' [E [H' [L' N']]]]]; auto; try lia.
        { intros k' Hk'. rewrite nth_upd_neq; [apply Hz; lia|].
          intros E. apply natural_inj in E; lia. }
        exists coefs', b'. split; [|split; [auto|split; [auto|]]].
        { rewrite E. change (0 =? 0) with true. cbv iota. destruct l as [|v' l]; [change (lenZ (@nil Z)) with 0 in *; lia|].
          rewrite (last_default _ (v :: v' :: l) (if run =? 0 then 1 else 0) 1) by discriminate. reflexivity. }
        intros k' Hk'. rewrite N' by auto. rewrite Z.add_0_r.
        destruct ((i + run + 1 <=? Z.of_nat k') && (Z.of_nat k' <=? top)) eqn:G1.
        -- replace ((i + run <=? Z.of_nat k') && (Z.of_nat k' <=? top)) with true by lia.
           replace (k' - p)%nat with (S (k' - Z.to_nat (i + run + 1))) by lia. reflexivity.
        -- destruct ((i + run <=? Z.of_nat k') && (Z.of_nat k' <=? top)) eqn:G2.
           ++ replace k' with p by lia. rewrite nth_upd_eq by (rewrite Hc; apply natural_lt; lia).
              replace (p - p)%nat with 0%nat by lia. reflexivity.
           ++ rewrite nth_upd_neq; auto. intros E'. apply natural_inj in E'; lia.
      * (* last coefficient *)
        assert (l = []) by (destruct l; auto; rewrite lenZ_cons in *; pose proof (lenZ_nonneg _ l); lia). subst l.
        cbn [band_symbols] in Cr'. change (0 =? 0) with true in Cr'. cbn iota in Cr'. inversion Cr'; subst. cbn [app] in H3.
        exists (upd coefs (natural p) (scaled low v)), b3. cbn [last]. rewrite V0. splits; auto.
        intros k' Hk'. destruct ((i + run <=? Z.of_nat k') && (Z.of_nat k' <=? top)) eqn:G2.
        -- replace k' with p by lia. rewrite nth_upd_eq by (rewrite Hc; apply natural_lt; lia).
           replace (p - p)%nat with 0%nat by lia. reflexivity.
        -- rewrite nth_upd_neq; auto. intros E'. apply natural_inj in E'; lia.
Qed.
End AC.

(** The trailing symbol does not matter when the last coefficient is not zero. *)
Lemma band_symbols_last : forall l e e' run, l <> [] -> last l 0 <> 0 -> band_symbols e run l = band_symbols e' run l.
Proof.
  induction l as [|v l IH]; intros e e' run Hn Hl; [congruence|].
  destruct l as [|v' l].
  - cbn [last] in Hl. cbn [band_symbols]. replace (v =? 0) with false by lia. reflexivity.
  - change (last (v' :: l) 0 <> 0) in Hl. cbn [band_symbols] in IH |- *.
    destruct (v =? 0).
    + apply (IH e e' (run + 1)); auto. discriminate.
    + do 2 f_equal. apply (IH e e' 0); auto. discriminate.
Qed.

Definition scan_band (sc : scan) (w : band_of) : Prop :=
  lo w = s_start sc /\ hi w = Z.min (s_end sc) 63 /\ 0 <= lo w /\ band_first w < hi w.

(** The DC part, whatever the band. *)
Lemma band_dc : forall dbg ts dct act sc w tail b bs bd pred diff,
  built dbg ts dct act -> marker_tail tail -> scan_band sc w -> 0 <= s_low sc ->
  category diff <= 11 -> dc_bits w ts diff bd -> holds_at tail b (bd ++ bs) ->
  let dc := if lo w =? 0 then int16 (pred + diff) else pred in
  exists b', decode_dc dbg sc dct zero_block b pred =
    Ok (upd zero_block 0 (if lo w =? 0 then scaled (s_low sc) dc else 0), b', dc) /\ holds_at tail b' bs.
Proof.
  intros dbg ts dct act sc w tail b bs bd pred diff [B1 B2 B2b B3 B4 B5 B6 B7] Hm [W1 _] Hlow Hc D H dc.
  unfold dc_bits in D. destruct (lo w =? 0) eqn:E.
  - pose proof (table_new_of _ _ _ _ B1 B2 B3) as Td.
    destruct (decode_dc_coded dbg sc dct _ _ tail b bs bd zero_block pred diff Td Hm ltac:(lia) eq_refl Hc D H) as [b1 [D1 H1]].
    exists b1. rewrite D1. rewrite shl16_scaled by auto. split; auto.
  - subst bd. exists b. unfold decode_dc. replace (s_start sc =? 0) with false by lia. split; auto.
Qed.

Section Blocks.
Variables (dbg : bool) (ts : tables) (dct : base_table) (act : ac_table) (sc : scan) (w : band_of) (tail : list Z).
Hypothesis B : built dbg ts dct act.
Hypothesis Hm : marker_tail tail.
Hypothesis Ht : bytes tail.
Hypothesis W : scan_band sc w.
Hypothesis Hlow : 0 <= s_low sc.

Definition value_at (pred : Z) (k : block) (blk : list Z) : Prop :=
  let dc := if lo w =? 0 then int16 (pred + b_diff k) else pred in
  length blk = 64%nat /\
  (forall j, (j < 64)%nat -> nth (natural j) blk 0 =
       if Z.of_nat j =? 0 then (if lo w =? 0 then scaled (s_low sc) dc else 0)
       else if (band_first w <=? Z.of_nat j) && (Z.of_nat j <=? hi w)
            then scaled (s_low sc) (nth (j - Z.to_nat (band_first w)) (b_ac k) 0)
            else 0).

Lemma zero_upd : forall x j, (j < 64)%nat -> nth (natural j) (upd zero_block 0 x) 0 = if Z.of_nat j =? 0 then x else 0.
Proof.
  intros x j Hj. destruct (Z.of_nat j =? 0) eqn:E.
  - assert (j = 0)%nat by lia. subst j. rewrite natural_0, nth_upd_eq by (cbn; lia). auto.
  - rewrite nth_upd_neq; [apply nth_zero_block|]. intros E'. change 0%nat with (natural 0) in E'. apply natural_inj in E'; lia.
Qed.

Lemma nth_zeros : forall l j, Forall (fun v => v = 0) l -> nth j l 0 = 0.
Proof. induction l; intros [|j] F; auto; inversion F; subst; auto. cbn [nth]. auto. Qed.

Lemma band_covered_block : forall k b bs bd pred eob, band_block_ok w k -> 0 < eob ->
  Forall (fun v => v = 0) (b_ac k) -> dc_bits w ts (b_diff k) bd -> holds_at tail b (bd ++ bs) ->
  exists blk b', decode_block dbg sc dct act zero_block b eob pred =
      Ok (blk, b', eob - 1, if lo w =? 0 then int16 (pred + b_diff k) else pred) /\
    value_at pred k blk /\ holds_at tail b' bs.
Proof.
  intros k b bs bd pred eob [K1 [K2 K3]] He Z D H.
  destruct (band_dc dbg ts dct act sc w tail b bs bd pred (b_diff k) B Hm W Hlow K1 D H) as [b1 [D1 H1]].
  destruct W as [W1 [W2 [W3 W4]]]. unfold band_first in W4.
  unfold decode_block. rewrite D1. cbn [bind]. cbv zeta. rewrite <- W2, <- W1.
  replace ((Z.max (lo w) 1 <=? hi w) && (0 <? eob)) with true by lia.
  eexists _, b1. split; [reflexivity|]. split; auto. split; [rewrite upd_length; reflexivity|].
  intros j Hj. rewrite zero_upd by auto. destruct (Z.of_nat j =? 0); auto.
  rewrite nth_zeros by auto. destruct (_ && _); reflexivity.
Qed.

Lemma band_read_block : forall n ext k b bs bd ba pred, (n <= 14)%nat -> 0 <= ext < 2 ^ Z.of_nat n ->
  band_block_ok w k -> dc_bits w ts (b_diff k) bd ->
  coded (ac_counts ts) (ac_values ts) (band_symbols (eobn n ext) 0 (b_ac k)) ba ->
  holds_at tail b (bd ++ ba ++ bs) ->
  exists blk b', decode_block dbg sc dct act zero_block b 0 pred =
      Ok (blk, b', if last (b_ac k) 1 =? 0 then 2 ^ Z.of_nat n + ext - 1 else 0,
          if lo w =? 0 then int16 (pred + b_diff k) else pred) /\
    value_at pred k blk /\ holds_at tail b' bs.
Proof.
  intros n ext k b bs bd ba pred Hn Hext [K1 [K2 K3]] D C H.
  destruct (band_dc dbg ts dct act sc w tail b (ba ++ bs) bd pred (b_diff k) B Hm W Hlow K1 D H) as [b1 [D1 H1]].
  destruct W as [W1 [W2 [W3 W4]]]. unfold band_size, band_first in *.
  destruct B as [B1 B2 B2b B3 B4 B5 B6 B7]. destruct (ac_new_of _ _ _ _ B4 B5 B7) as [Ta El].
  unfold decode_block. rewrite D1. cbn [bind]. cbv zeta. rewrite <- W2, <- W1.
  change (0 <? 0) with false. rewrite andb_false_r. replace (Z.max (lo w) 1 <? hi w) with true by lia.
  set (x := if lo w =? 0 then scaled _ _ else 0).
  destruct (band_loop dbg act (ac_counts ts) (ac_values ts) tail (s_low sc) (hi w) Ta B6 El Hm Ht Hlow ltac:(lia) n ext Hn Hext
    (b_ac k) 0 64 (upd zero_block 0 x) b1 bs (Z.max (lo w) 1) ba C H1 K3) as [coefs [b2 [E2 [H2 [L2 N2]]]]]; try lia.
  { rewrite upd_length. reflexivity. }
  { intros j Hj. rewrite zero_upd by lia. replace (Z.of_nat j =? 0) with false by lia. reflexivity. }
  rewrite E2. cbn [bind]. exists coefs, b2. split; [reflexivity|]. split; auto. split; auto.
  intros j Hj. rewrite N2 by auto. rewrite Z.add_0_r, zero_upd by auto. unfold band_first.
  destruct (Z.of_nat j =? 0) eqn:J.
  - replace ((Z.max (lo w) 1 <=? Z.of_nat j) && (Z.of_nat j <=? hi w)) with false by lia. reflexivity.
  - reflexivity.
Qed.

Lemma band_decodes : forall eob ks bk eob', band_bits w ts eob ks bk eob' -> forall b bs pred,
  Forall (band_block_ok w) ks -> holds_at tail b (bk ++ bs) ->
  exists blks b' pred', decode_blocks dbg sc dct act (length ks) b eob pred = Ok (blks, b', eob', pred') /\
    pred' = (if lo w =? 0 then match ks with [] => pred | _ => int16 (pred + sum_diffs ks) end else pred) /\
    band_values w (s_low sc) blks pred ks /\ holds_at tail b' bs.
Proof.
  assert (Next : forall k ks b bs blk b1 e0 e1 eob' pred,
    decode_block dbg sc dct act zero_block b e0 pred = Ok (blk, b1, e1, if lo w =? 0 then int16 (pred + b_diff k) else pred) ->
    value_at pred k blk ->
    (exists blks b' pred', decode_blocks dbg sc dct act (length ks) b1 e1 (if lo w =? 0 then int16 (pred + b_diff k) else pred) = Ok (blks, b', eob', pred') /\
      pred' = (if lo w =? 0 then match ks with [] => (if lo w =? 0 then int16 (pred + b_diff k) else pred)
         | _ => int16 ((if lo w =? 0 then int16 (pred + b_diff k) else pred) + sum_diffs ks) end else (if lo w =? 0 then int16 (pred + b_diff k) else pred)) /\
      band_values w (s_low sc) blks (if lo w =? 0 then int16 (pred + b_diff k) else pred) ks /\ holds_at tail b' bs) ->
    exists blks b' pred', decode_blocks dbg sc dct act (length (k :: ks)) b e0 pred = Ok (blks, b', eob', pred') /\
      pred' = (if lo w =? 0 then int16 (pred + sum_diffs (k :: ks)) else pred) /\
      band_values w (s_low sc) blks pred (k :: ks) /\ holds_at tail b' bs).
  { intros k ks b bs blk b1 e0 e1 eob' pred E [V1 V2] [blks [b' [pred' [D [P [V H]]]]]].
    exists (blk :: blks), b', pred'. cbn [length decode_blocks]. rewrite E. cbn [bind]. rewrite D. cbn [bind].
    splits; auto; [|constructor; auto].
    rewrite P. unfold sum_diffs. cbn [map fold_right]. fold (sum_diffs ks). destruct (lo w =? 0); auto.
    destruct ks as [|k2 ks2]; [unfold sum_diffs; cbn; rewrite Z.add_0_r; reflexivity|].
    rewrite int16_int16. f_equal. ring. }
  induction 1 as [run|run k ks bd bs0 run' Hr Z D C IH|k ks bd ba bs0 run' L D C Cr IH|k ks bd ba bs0 run' n v L Hn Hv D C Cr IH];
    intros b bs pred F H.
  - exists [], b, pred. cbn [length decode_blocks]. splits; auto; [destruct (lo w =? 0); auto|constructor].
  - inversion F as [|? ? Fk Fr]; subst. rewrite <- app_assoc in H.
    destruct (band_covered_block k b (bs0 ++ bs) bd pred run Fk Hr Z D H) as [blk [b1 [E1 [V1 H1]]]].
    exact (Next _ _ _ _ _ _ _ _ _ _ E1 V1 (IH b1 bs _ Fr H1)).
  - inversion F as [|? ? Fk Fr]; subst. rewrite <- !app_assoc in H.
    assert (Ne : b_ac k <> []). { intros Eq. rewrite Eq in L. cbn in L. congruence. }
    rewrite (band_symbols_last (b_ac k) (0, []) (eobn 0 0)) in C by auto.
    destruct (band_read_block 0 0 k b (bs0 ++ bs) bd ba pred ltac:(lia) ltac:(cbn; lia) Fk D C H) as [blk [b1 [E1 [V1 H1]]]].
    replace (last (b_ac k) 1 =? 0) with false in E1 by (rewrite (last_default _ (b_ac k) 1 0) by auto; lia).
    exact (Next _ _ _ _ _ _ _ _ _ _ E1 V1 (IH b1 bs _ Fr H1)).
  - inversion F as [|? ? Fk Fr]; subst. rewrite <- !app_assoc in H.
    destruct (band_read_block n v k b (bs0 ++ bs) bd ba pred Hn Hv Fk D C H) as [blk [b1 [E1 [V1 H1]]]].
    assert (Ne : b_ac k <> []).
    { intros Eq. destruct Fk as [_ [K2 _]]. rewrite Eq in K2. change (lenZ (@nil Z)) with 0 in K2.
      destruct W as [_ [_ [_ W4]]]. unfold band_size in K2. lia. }
    rewrite (last_default _ (b_ac k) 1 0) in E1 by auto. rewrite L in E1. cbn [Z.eqb] in E1.
    exact (Next _ _ _ _ _ _ _ _ _ _ E1 V1 (IH b1 bs _ Fr H1)).
Qed.
End Blocks.

(** A band of a single coefficient is not read. *)
Lemma single_ignored : forall dbg sc dct act b pred,
  1 <= s_start sc <= 63 -> s_end sc = s_start sc ->
  decode_block dbg sc dct act zero_block b 0 pred = Ok (zero_block, b, 0, pred).
Proof.
  intros dbg sc dct act b pred Hs He. unfold decode_block, decode_dc.
  replace (s_start sc =? 0) with false by lia. cbn [bind]. cbv zeta. rewrite He.
  replace (Z.max (s_start sc) 1) with (s_start sc) by lia. replace (Z.min (s_start sc) 63) with (s_start sc) by lia.
  change (0 <? 0) with false. rewrite andb_false_r, Z.ltb_irrefl. reflexivity.
Qed.

Lemma band_inverts :
  forall (dbg : bool) (ts : tables) (dct : base_table) (act : ac_table) (sc : scan) (w : band_of) (tail : list Z)
         (ks : list block) (b : biter) (bs bk : list bool) (pred run run' : Z),
    built dbg ts dct act -> marker_tail tail -> bytes tail ->
    lo w = s_start sc /\ hi w = Z.min (s_end sc) 63 /\ 0 <= lo w /\ band_first w < hi w -> 0 <= s_low sc -> -32768 <= pred < 32768 ->
    Forall (band_block_ok w) ks -> band_bits w ts run ks bk run' -> holds_at tail b (bk ++ bs) ->
    exists blks b' pred',
      decode_blocks dbg sc dct act (length ks) b run pred = Ok (blks, b', run', pred') /\
      (lo w = 0 -> pred' = int16 (pred + sum_diffs ks)) /\ (lo w <> 0 -> pred' = pred) /\
      band_values w (s_low sc) blks pred ks /\ holds_at tail b' bs.
Proof.
  intros dbg ts dct act sc w tail ks b bs bk pred run run' B Hm Ht W Hl Hp F C H.
  destruct (band_decodes dbg ts dct act sc w tail B Hm Ht W Hl run ks bk run' C b bs pred F H) as [blks [b' [p [E [P [V R]]]]]].
  exists blks, b', p. splits; auto.
  - intros L0. rewrite P, L0. cbn [Z.eqb]. destruct ks; auto. unfold sum_diffs. cbn. rewrite Z.add_0_r, int16_id; auto.
  - intros L0. rewrite P. replace (lo w =? 0) with false by lia. reflexivity.
Qed.

Definition single_tables : tables :=
  mkTables ([1; 1; 1] ++ repeat 0 13) [0; 2; 3] ([0; 3; 1; 1] ++ repeat 0 12) [1; 16; 0; 18; 33].
Lemma single_refuted :
  exists (ts : tables) (dct : base_table) (act : ac_table) (sc : scan) (w : band_of) (ks : list block) (b : biter)
         (bk : list bool),
    built true ts dct act /\
    lo w = s_start sc /\ hi w = s_end sc /\ 1 <= lo w /\ band_size w = 1 /\
    Forall (band_block_ok w) ks /\ band_bits w ts 0 ks bk 0 /\ holds_at [255; 217] b bk /\
    forall blks b' run' pred', decode_blocks true sc dct act (length ks) b 0 0 = Ok (blks, b', run', pred') ->
      ~ band_values w (s_low sc) blks 0 ks.
Proof.
  destruct (table_new true (dc_counts single_tables) (dc_values single_tables)) as [dct| | |] eqn:Ed; [|vm_compute in Ed; discriminate..].
  destruct (ac_new true (ac_counts single_tables) (ac_values single_tables)) as [act| | |] eqn:Ea; [|vm_compute in Ea; discriminate..].
  exists single_tables, dct, act, (mkScan [] 5 5 0 0), (mkBand 5 5), [mkBlock 0 [1]], (mkBiter [255; 217] 8 6), [false; false; true].
  split; [|split; [|split; [|split; [|split; [|split; [|split; [|split]]]]]]]; try reflexivity.
  - constructor; [split; [reflexivity|]; repeat constructor; unfold is_byte; lia|reflexivity|
      repeat constructor; unfold is_byte; lia|exact Ed|
      split; [reflexivity|]; repeat constructor; unfold is_byte; lia|reflexivity|
      repeat constructor; unfold is_byte; lia|exact Ea].
  - cbn; lia.
  - repeat constructor; cbn; lia.
  - apply (band_full _ _ _ _ [] [false; false; true] [] 0); [cbn; lia|reflexivity| |constructor].
    change (band_symbols (0, []) 0 (b_ac (mkBlock 0 [1]))) with [(1, [true])].
    apply (coded_cons _ _ 0%nat 1 [true] [false; false] [] []); [reflexivity|reflexivity|constructor].
  - split; [split; cbn; lia|]. exists []. split; [constructor|]. split; [reflexivity|].
    exists 0%nat. split; [left; reflexivity|]. exists [false; false; false]. reflexivity.
  - intros blks b' run' pred' E V. cbn [length decode_blocks] in E.
    rewrite single_ignored in E by (cbn; lia). cbn [bind] in E. inversion E; subst.
    inversion V as [|? ? ? ? ? dc Hl Hv]; subst. specialize (Hv 5%nat ltac:(lia)). vm_compute in Hv. discriminate Hv.
Qed.
