(** Bits that are no code inside a block (C17). *)
From Verif Require Import Base Tactics SpecBits SpecReader SpecHuffman SpecBlock BitsP HuffmanP2 SpecTables SpecSegments SpecScan SpecCode Biterator Huffman Types Decode BlockP HuffmanP3 CodeP CodeP2 CodeP3 CodeP4.

Lemma no_code : forall counts values bits, (forall c, In c (canonical counts) -> ~ prefix c (bits ++ repeat false 16)) -> counts_ok counts ->
  next_symbol true counts values bits = None.
Proof.
  intros counts values bits H CO. destruct (next_symbol true counts values bits) as [[s rest]|] eqn:E; [|reflexivity]. exfalso.
  destruct (symbol_found _ _ _ _ _ _ E) as (k & c & Ec & _ & G). apply nth_error_In in Ec. apply (H c Ec). unfold get in G. cbn [orb] in G.
  assert (F : firstn (length c) (bits ++ repeat false (length c)) = c) by congruence.
  assert (L : (length c <= 16)%nat).
  { pose proof (canonical_lengths counts CO) as CL. pose proof (in_map (fun c => Z.of_nat (length c)) _ _ Ec) as I. rewrite CL in I.
    pose proof (code_lens_le16 counts CO) as F16. rewrite Forall_forall in F16. specialize (F16 _ I). cbv beta in F16. lia. }
  apply prefix_iff_firstn. rewrite firstn_more by exact L. exact F.
Qed.
Section T.
Variable t : tables.
Hypothesis OK : codes_ok t.
Lemma ref_ac_stuck : forall l run ba bits rest fuel n, 0 <= run -> Forall (fun v => category v <= 15) l -> last l 1 <> 0 -> (l = [] -> run = 0) ->
  coded (ac_counts t) (ac_values t) (ac_symbols run l) ba -> get true (length ba) bits = Some (ba, rest) -> next_symbol true (ac_counts t) (ac_values t) rest = None ->
  (Z.to_nat run + length l < n)%nat -> ref_ac true t fuel n bits = None.
Proof using OK.
  destruct OK as [_ [CO K]]. intros l. induction l as [|v l IH]; intros run ba bits rest fuel n Hr F La Rn C G Ns Hn.
  - rewrite (Rn eq_refl) in *. cbn [ac_symbols] in C. change (0 =? 0) with true in C. inversion C; subst. unfold get in G. cbn [orb length skipn] in G. assert (bits = rest) by congruence. subst bits.
    destruct fuel as [|fuel]; [reflexivity|]. cbn [ref_ac]. replace (n =? 0)%nat with false by (symmetry; apply Nat.eqb_neq; lia). rewrite Ns. reflexivity.
  - inversion F as [|? ? F1 F2]; subst. cbn [ac_symbols] in C. destruct (Z.eqb_spec v 0) as [->|Nv].
    + cbn [length] in *. destruct l as [|w l]; [contradiction La; reflexivity|]. apply (IH (run + 1) ba bits rest fuel n ltac:(lia) F2 La ltac:(discriminate) C G Ns). lia.
    + assert (La' : last l 1 <> 0) by (destruct l; [discriminate|exact La]). set (e := (16 * (run mod 16) + category v, magnitude v)) in *.
      assert (Ez : forall j run' ba' bits' fuel' n', run' = 16 * Z.of_nat j + run mod 16 -> coded (ac_counts t) (ac_values t) (repeat (240, []) j ++ e :: ac_symbols 0 l) ba' ->
        get true (length ba') bits' = Some (ba', rest) -> (Z.to_nat run' + length (v :: l) < n')%nat -> ref_ac true t fuel' n' bits' = None).
      { pose proof (Z.mod_pos_bound run 16 ltac:(lia)) as MB. pose proof (cat_pos v Nv) as CP. induction j as [|j IHj]; intros run' ba' bits' fuel' n' Er C' G' Hf'.
        - cbn [repeat app] in C'. unfold e in C'. apply coded_split in C'. destruct C' as [k [c [bs' [Ev [Ec [C' ->]]]]]]. destruct (get_app _ _ _ _ _ G') as [r1 [G1 G2]]. destruct (get_app _ _ _ _ _ G2) as [r2 [G3 G4]].
          destruct fuel' as [|fuel']; [reflexivity|]. cbn [ref_ac]. cbn [length] in *. replace (n' =? 0)%nat with false by (symmetry; apply Nat.eqb_neq; lia).
          rewrite (next_symbol_code _ _ _ _ _ _ _ _ CO K Ev Ec G1). replace ((16 * (run mod 16) + category v) / 16) with (run mod 16) by (rewrite Z.mul_comm, Z.div_add_l, Z.div_small by lia; lia).
          replace ((16 * (run mod 16) + category v) mod 16) with (category v) by (rewrite Z.add_comm, Z.mul_comm, Z_mod_plus_full, Z.mod_small by lia; reflexivity).
          replace (category v =? 0) with false by lia. rewrite (next_value_mag _ _ _ _ Nv G3).
          rewrite (IH 0 bs' r2 rest fuel' _ ltac:(lia) F2 La' ltac:(reflexivity) C' G4 Ns) by (cbn [Z.to_nat]; lia). reflexivity.
        - cbn [repeat app] in C'. apply coded_split in C'. destruct C' as [k [c [bs' [Ev [Ec [C' ->]]]]]]. cbn [app] in G'. destruct (get_app _ _ _ _ _ G') as [r1 [G1 G2]].
          destruct fuel' as [|fuel']; [reflexivity|]. cbn [ref_ac]. replace (n' =? 0)%nat with false by (symmetry; apply Nat.eqb_neq; lia).
          rewrite (next_symbol_code _ _ _ _ _ _ _ _ CO K Ev Ec G1). change (240 mod 16 =? 0) with true. change (240 / 16 =? 15) with true. cbv iota.
          rewrite (IHj (run' - 16) bs' r1 fuel' (n' - 16)%nat) by (auto; lia). reflexivity. }
      apply (Ez (Z.to_nat (run / 16)) run ba bits fuel n); auto. pose proof (Z.div_pos run 16 Hr ltac:(lia)). rewrite Z2Nat.id by lia. apply Z.div_mod. lia.
Qed.
End T.

Lemma built_codes : forall dbg ts dct act, built dbg ts dct act -> codes_ok ts.
Proof.
  intros dbg ts dct act [C1 V1 _ D C2 V2 _ A]. split; (split; [assumption|]).
  - exact (proj2 (proj1 (accept_iff dbg _ _ C1 V1) (ex_intro _ _ D))).
  - unfold ac_new in A. destruct (table_new dbg (ac_counts ts) (ac_values ts)) as [t|?|?|] eqn:E; try discriminate A. exact (proj2 (proj1 (accept_iff dbg _ _ C2 V2) (ex_intro _ _ E))).
Qed.
Lemma no_dc_code : forall dbg ts dct act sc ds tail run pred,
  built dbg ts dct act -> s_start sc = 0 -> 63 <= s_end sc -> s_low sc = 0 -> bytes ds -> clean_end ds -> marker_tail tail -> bytes tail -> 0 <= run ->
  (forall c, In c (canonical (dc_counts ts)) -> ~ prefix c (bits_of ds ++ repeat false 16)) ->
  exists e, decode_block dbg sc dct act zero_block (biter_new (stuff ds ++ tail)) run pred = Fail e.
Proof.
  intros dbg ts dct act sc ds tail run pred Bu S0 S1 S2 B CE MT BT Hr N. pose proof (block_code dbg ts dct act sc ds tail run pred Bu S0 S1 S2 B MT BT Hr) as R.
  rewrite (proj2 (clean_ends ds) CE) in R. unfold ref_block, ref_diff in R. rewrite (no_code _ (dc_values ts) _ N (bu_dcc _ _ _ _ Bu)) in R. exact (R CE).
Qed.
Lemma no_ac_code : forall dbg ts dct act sc ds tail pred diff l bd ba rest,
  built dbg ts dct act -> s_start sc = 0 -> 63 <= s_end sc -> s_low sc = 0 -> bytes ds -> clean_end ds -> marker_tail tail -> bytes tail ->
  category diff <= 11 -> coded (dc_counts ts) (dc_values ts) [dc_symbol diff] bd ->
  (length l < 63)%nat -> last l 1 <> 0 -> Forall (fun v => category v <= 15) l -> coded (ac_counts ts) (ac_values ts) (ac_symbols 0 l) ba ->
  bits_of ds = bd ++ ba ++ rest -> (forall c, In c (canonical (ac_counts ts)) -> ~ prefix c (rest ++ repeat false 16)) ->
  exists e, decode_block dbg sc dct act zero_block (biter_new (stuff ds ++ tail)) 0 pred = Fail e.
Proof.
  intros dbg ts dct act sc ds tail pred diff l bd ba rest Bu S0 S1 S2 B CE MT BT Cd Cb Ll La Fl Cl Eb N.
  pose proof (block_code dbg ts dct act sc ds tail 0 pred Bu S0 S1 S2 B MT BT ltac:(lia)) as R. rewrite (proj2 (clean_ends ds) CE) in R. pose proof (built_codes _ _ _ _ Bu) as OK.
  assert (G : forall a b, get true (length a) (a ++ b) = Some (a, b)).
  { intros a b. unfold get. cbn [orb]. rewrite <- app_assoc, firstn_app, Nat.sub_diag, firstn_all. cbn [firstn]. rewrite app_nil_r, skipn_app, skipn_all, Nat.sub_diag. reflexivity. }
  assert (St : ref_block true ts 0 pred (bits_of ds) = None).
  { unfold ref_block. rewrite (ref_diff_reads true ts OK diff bd (bits_of ds) (ba ++ rest) Cd Cb) by (rewrite Eb; apply G).
    rewrite (ref_ac_stuck ts OK l 0 ba (ba ++ rest) rest 64 63); [reflexivity|lia|exact Fl|exact La|reflexivity|exact Cl|apply G|apply (no_code _ _ _ N (bu_acc _ _ _ _ Bu))|exact Ll]. }
  rewrite St in R. exact (R CE).
Qed.
