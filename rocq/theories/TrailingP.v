(** Scan data with further bytes behind what is coded (C97). *)
From Verif Require Import Base Tactics SpecBits SpecHuffman SpecBlock BitsP HuffmanP2 SpecTables SpecFrame SpecSegments SpecScan SpecFile SpecAnswer SpecLimits SpecCode SpecTrailing Huffman Types Decode BlockP ParsersP FileP CodeP CodeP3 CodeP4 DefineP.

Lemma longer_get : forall z ds bits, prefix bits (bits_of ds) -> exists rest, get z (length bits) (bits_of ds) = Some (bits, rest).
Proof.
  intros z ds bits [pad E]. unfold get. rewrite E. exists pad. rewrite app_length. replace (length bits <=? length bits + length pad)%nat with true by (symmetry; apply Nat.leb_le; lia). rewrite orb_true_r.
  rewrite <- app_assoc, firstn_app, Nat.sub_diag, firstn_all, skipn_app, Nat.sub_diag, skipn_all. cbn [firstn skipn app]. rewrite app_nil_r. reflexivity.
Qed.
Lemma longer_reads : forall cs ts r n ms data, Forall codes_ok ts -> scan_longer ts r n ms data -> Forall (mcu_shape cs) ms -> 0 <= r -> 0 <= n <= 7 ->
  exists ds more, data = scan_bytes ds more /\ bytes ds /\ more_ok more /\ ref_scan cs ts r n (lenZ ms) ds more = Some ms.
Proof.
  intros cs ts r n ms data OK H. induction H as [n ms data extra Hr [ds [bits [B [-> [Ca M]]]]] Ex|n ms data rest data' Hr Hl Ne [ds [bits [B [-> [Ca M]]]]] Sd IH]; intros Sh R0 Hn.
  - exists ds, extra. split; [reflexivity|]. split; [exact B|]. split; [exact Ex|].
    assert (E : (r =? 0) || (lenZ ms <=? r) = true) by lia. destruct (longer_get (ends_clean ds) ds bits Ca) as [rest G]. pose proof (ref_mcus_reads _ _ _ _ _ M OK cs Sh _ _ G) as Q.
    destruct extra; cbn [ref_scan]; rewrite E; unfold ref_interval; replace (Z.to_nat (lenZ ms)) with (length ms) by (unfold lenZ; lia); exact Q.
  - apply Forall_app in Sh. destruct Sh as [Sh1 Sh2]. destruct (IH Sh2 R0 ltac:(pose proof (Z.mod_pos_bound (n + 1) 8); lia)) as [ds' [more [-> [B' [MO R]]]]].
    exists ds, ((n, ds') :: more). split; [unfold scan_bytes; cbn [flat_map]; unfold rst_bytes at 2; cbn [fst snd]; rewrite <- !app_assoc; reflexivity|]. split; [exact B|].
    split; [constructor; [split; [exact Hn|exact B']|exact MO]|]. cbn [ref_scan].
    assert (L : lenZ (ms ++ rest) = r + lenZ rest) by (unfold lenZ in *; rewrite app_length; lia). assert (P : 0 < lenZ rest) by (unfold lenZ; destruct rest; [congruence|cbn [length]; lia]).
    rewrite L. replace ((r =? 0) || (r + lenZ rest <=? r)) with false by lia. unfold ref_interval. replace (Z.to_nat r) with (length ms) by (unfold lenZ in Hl; lia).
    destruct (longer_get (ends_clean ds) ds bits Ca) as [rest' G]. rewrite (ref_mcus_reads _ _ _ _ _ M OK cs Sh1 _ _ G). rewrite Z.eqb_refl.
    replace (r + lenZ rest - r) with (lenZ rest) by lia. rewrite R. reflexivity.
Qed.

(** ** The tables of a header *)
Lemma header_codes : forall segs cs ss ts qs, Forall (fun s => hseg_ok (snd s)) segs -> comp_codings segs cs ss ts qs -> Forall codes_ok ts.
Proof.
  intros segs cs ss ts qs F H.
  assert (D : Forall dht_ok (dhts segs)).
  { apply Forall_forall. intros t I. unfold dhts in I. apply in_flat_map in I. destruct I as [s [Is It]]. rewrite Forall_forall in F. specialize (F s Is). destruct (snd s); try contradiction.
    destruct F as [F _]. rewrite Forall_forall in F. apply F, It. }
  rewrite Forall_forall in D. induction H as [|c cs s ss t ts q qs C H IH]; constructor; auto.
  destruct C as [_ _ _ _ [e [E [Y1 _]]] [e' [E' [Y2 _]]] _]. apply entry_in in E. apply entry_in in E'. destruct (D e (proj1 E)) as [_ [X1 [_ [_ [_ X2]]]]]. destruct (D e' (proj1 E')) as [_ [X3 [_ [_ [_ X4]]]]].
  unfold codes_ok. rewrite Y1, Y2. auto.
Qed.
Lemma header_interval_range : forall segs, Forall (fun s => hseg_ok (snd s)) segs -> 0 <= last (dris segs) 0.
Proof.
  intros segs F. assert (D : Forall (fun n => 0 <= n) (dris segs)).
  { apply Forall_forall. intros t I. unfold dris in I. apply in_flat_map in I. destruct I as [s [Is It]]. rewrite Forall_forall in F. specialize (F s Is). destruct (snd s); try contradiction.
    destruct It as [<-|[]]. destruct F as [F _]. cbn in F. lia. }
  induction D as [|a l Ha D IH]; [cbn; lia|]. destruct l; [exact Ha|exact IH].
Qed.

Lemma trailing_same : forall dbg rayon segs h fill1 fill2 ss ts qs ms data data' post fill3,
  encodes segs h ss ts qs ms data -> scan_longer ts (last (dris segs) 0) 0 ms data' -> post_ok post -> 0 < fh_lines h -> 0 < fh_samples h ->
  let file := fun data => file_bytes segs fill1 fill2 (mkSpS ss 0 63 0 0) data post fill3 in
  bytes (file data) -> bytes (file data') -> decode_fresh dbg rayon (file data') = decode_fresh dbg rayon (file data).
Proof.
  intros dbg rayon segs h fill1 fill2 ss ts qs ms data data' post fill3 En Sl PO P1 P2 file B B'. unfold file in *. clear file.
  assert (HF : header_for segs h ss ts qs) by (destruct En; constructor; assumption). destruct En as [F Sf ND L4 Few CC Sh Lm SD].
  pose proof (header_codes _ _ _ _ _ F CC) as OK. pose proof (header_interval_range _ F) as R0.
  destruct (scan_reads (fh_comps h) ts _ 0 ms data OK SD Sh R0 ltac:(lia)) as [ds [more [-> [B1 [M1 R1]]]]].
  destruct (longer_reads (fh_comps h) ts _ 0 ms data' OK Sl Sh R0 ltac:(lia)) as [ds' [more' [-> [B2 [M2 R2]]]]]. rewrite Lm in R1, R2.
  exact (code_same dbg rayon segs h fill1 fill2 ss ts ds more post fill3 segs h fill1 fill2 ss ts ds' more' post fill3 qs ms HF B1 M1 PO HF B2 M2 PO eq_refl eq_refl P1 P2 eq_refl eq_refl R1 R2 B B').
Qed.
