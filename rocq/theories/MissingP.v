(** Zero bytes at the ends of restart intervals (C98). *)
From Verif Require Import Base Tactics SpecBits SpecHuffman SpecBlock BitsP SpecTables SpecFrame SpecSegments SpecScan SpecFile SpecAnswer SpecLimits SpecCode SpecMissing Huffman Types Decode BlockP ParsersP FileP CodeP CodeP3 CodeP4.

(** ** Bits with zeros behind them *)
Definition same_bits (b b' : list bool) : Prop := forall i, nth i b false = nth i b' false.
Definition same_read {A} (o o' : option (A * list bool)) : Prop :=
  match o, o' with
  | Some (a, r), Some (a', r') => a = a' /\ same_bits r r'
  | None, None => True
  | _, _ => False
  end.
Lemma nth_skip : forall n (b : list bool) i, nth i (skipn n b) false = nth (n + i) b false.
Proof. induction n as [|n IH]; intros [|x b] i; cbn [skipn Nat.add]; try reflexivity; [destruct i; reflexivity|apply IH]. Qed.
Lemma same_skip : forall n b b', same_bits b b' -> same_bits (skipn n b) (skipn n b').
Proof. intros n b b' H i. rewrite !nth_skip. apply H. Qed.
Lemma same_take : forall n b b', same_bits b b' -> firstn n (b ++ repeat false n) = firstn n (b' ++ repeat false n).
Proof.
  induction n as [|n IH]; intros b b' H; [reflexivity|].
  assert (S : forall c : list bool, firstn (S n) (c ++ repeat false (S n)) = nth 0 c false :: firstn n (skipn 1 c ++ repeat false n)).
  { intros [|x c]; cbn [app repeat firstn nth skipn]; [reflexivity|f_equal]. change (false :: repeat false n) with (repeat false (S n)). rewrite !firstn_app. f_equal.
    replace (S n) with (n + 1)%nat by lia. rewrite repeat_app, firstn_app, repeat_length. replace (n - length c - n)%nat with 0%nat by lia. apply app_nil_r. }
  rewrite !S. rewrite (H 0%nat). f_equal. apply IH, same_skip, H.
Qed.
Lemma same_get : forall n b b', same_bits b b' -> same_read (get true n b) (get true n b').
Proof. intros n b b' H. unfold get. cbn [orb same_read]. split; [apply same_take|apply same_skip]; exact H. Qed.
Lemma same_starts : forall c b b', same_bits b b' -> starts_with true c b = starts_with true c b'.
Proof. intros c b b' H. unfold starts_with, get. cbn [orb]. rewrite (same_take _ _ _ H). reflexivity. Qed.
Lemma same_symbol : forall counts values b b', same_bits b b' -> same_read (next_symbol true counts values b) (next_symbol true counts values b').
Proof.
  intros counts values b b' H. unfold next_symbol.
  replace (find (fun e => starts_with true (fst e) b') (combine (canonical counts) values)) with (find (fun e => starts_with true (fst e) b) (combine (canonical counts) values)).
  - destruct (find _ _) as [[c s]|]; cbn [same_read]; [|exact I]. split; [reflexivity|apply same_skip, H].
  - induction (combine (canonical counts) values) as [|e l IH]; [reflexivity|]. cbn [find]. rewrite (same_starts (fst e) b b' H), IH. reflexivity.
Qed.
Ltac both H := match type of H with same_read ?a ?b => destruct a as [[? ?]|]; destruct b as [[? ?]|]; cbn [same_read] in H; try contradiction; try exact I; try (destruct H as [<- H]) end.
Lemma same_value : forall n b b', same_bits b b' -> same_read (next_value true n b) (next_value true n b').
Proof. intros n b b' H. unfold next_value. pose proof (same_get (Z.to_nat n) b b' H) as G. both G. split; [reflexivity|exact G]. Qed.
Lemma same_diff : forall t b b', same_bits b b' -> same_read (ref_diff true t b) (ref_diff true t b').
Proof.
  intros t b b' H. unfold ref_diff. pose proof (same_symbol (dc_counts t) (dc_values t) b b' H) as G. both G.
  destruct (_ =? 0); [split; [reflexivity|exact G]|]. destruct (11 <? _); [exact I|]. apply same_value, G.
Qed.
Lemma same_cut : forall n l o o', same_read o o' -> same_read (cut n l o) (cut n l o').
Proof. intros n l o o' H. both H. match goal with p : (list Z * Z)%type |- _ => destruct p end. cbn [cut same_read]. split; [reflexivity|exact H]. Qed.
Lemma same_ac : forall t fuel n b b', same_bits b b' -> same_read (ref_ac true t fuel n b) (ref_ac true t fuel n b').
Proof.
  intros t fuel. induction fuel as [|fuel IH]; intros n b b' H; [exact I|]. cbn [ref_ac]. destruct (n =? 0)%nat; [split; [reflexivity|exact H]|].
  pose proof (same_symbol (ac_counts t) (ac_values t) b b' H) as G. both G. cbv zeta. destruct (_ =? 0).
  - destruct (_ =? 15); [apply same_cut, IH, G|]. match goal with |- context [get true ?k l] => pose proof (same_get k _ _ G) as K end. both K. split; [reflexivity|exact K].
  - match goal with |- context [next_value true ?k l] => pose proof (same_value k _ _ G) as K end. both K. apply same_cut, IH, K.
Qed.
Lemma same_block : forall t run pred b b', same_bits b b' -> same_read (ref_block true t run pred b) (ref_block true t run pred b').
Proof.
  intros t run pred b b' H. unfold ref_block. pose proof (same_diff t b b' H) as G. both G. cbv zeta. destruct (0 <? run); [split; [reflexivity|exact G]|].
  pose proof (same_ac t 64 63 _ _ G) as K. both K. match goal with p : (list Z * Z)%type |- _ => destruct p end. split; [reflexivity|exact K].
Qed.
Lemma same_blocks : forall t n run pred b b', same_bits b b' -> same_read (ref_blocks true t n run pred b) (ref_blocks true t n run pred b').
Proof.
  intros t n. induction n as [|n IH]; intros run pred b b' H; cbn [ref_blocks]; [split; [reflexivity|exact H]|].
  pose proof (same_block t run pred b b' H) as G. both G. match goal with p : (qblock * Z)%type |- _ => destruct p as [q r] end.
  pose proof (IH r (q_dc q) _ _ G) as K. both K. match goal with p : (list qblock * Z * Z)%type |- _ => destruct p as [[? ?] ?] end. split; [reflexivity|exact K].
Qed.
Lemma same_mcu : forall cs ts run ps b b', same_bits b b' -> same_read (ref_mcu true cs ts run ps b) (ref_mcu true cs ts run ps b').
Proof.
  intros cs. induction cs as [|c cs IH]; intros ts run ps b b' H; [split; [reflexivity|exact H]|]. destruct ts as [|t ts]; [split; [reflexivity|exact H]|]. destruct ps as [|p ps]; [split; [reflexivity|exact H]|].
  cbn [ref_mcu]. pose proof (same_blocks t (Z.to_nat (cs_h c * cs_v c)) run p b b' H) as G. both G. match goal with p : (list qblock * Z * Z)%type |- _ => destruct p as [[? r] ?] end.
  pose proof (IH ts r ps _ _ G) as K. both K. match goal with p : (mcu * Z * list Z)%type |- _ => destruct p as [[? ?] ?] end. split; [reflexivity|exact K].
Qed.
Lemma same_mcus : forall cs ts n run ps b b', same_bits b b' -> ref_mcus true cs ts n run ps b = ref_mcus true cs ts n run ps b'.
Proof.
  intros cs ts n. induction n as [|n IH]; intros run ps b b' H; [reflexivity|]. cbn [ref_mcus]. pose proof (same_mcu cs ts run ps b b' H) as G.
  destruct (ref_mcu true cs ts run ps b) as [[[[m r] ps1] rest]|], (ref_mcu true cs ts run ps b') as [[[[m' r'] ps'] rest']|]; try contradiction; [|reflexivity].
  destruct G as [E G]. injection E as <- <- <-. rewrite (IH r ps1 _ _ G). reflexivity.
Qed.

(** ** Intervals and scans *)
Lemma nth_zeros : forall k i, nth i (repeat false k) false = false.
Proof. induction k as [|k IH]; intros [|i]; cbn [repeat nth]; auto. Qed.
Lemma behind_bits : forall ds ds', zeros_behind ds ds' -> same_bits (bits_of ds) (bits_of ds').
Proof.
  intros ds ds' [k ->] i. rewrite bits_of_app. assert (Z : bits_of (repeat 0 k) = repeat false (8 * k)).
  { induction k as [|k IH]; [reflexivity|]. replace (8 * S k)%nat with (8 + 8 * k)%nat by lia. rewrite repeat_app, <- IH. reflexivity. }
  rewrite Z. destruct (Nat.lt_ge_cases i (length (bits_of ds))) as [L|L]; [rewrite app_nth1 by exact L; reflexivity|].
  rewrite app_nth2 by exact L. rewrite nth_zeros. apply nth_overflow, L.
Qed.
Lemma clean_is : forall ds, clean_end ds -> ends_clean ds = true.
Proof. intros ds H. unfold ends_clean. apply forallb_forall. intros d I. unfold clean_end in H. rewrite Forall_forall in H. specialize (H d I). lia. Qed.
Lemma skip_skip : forall b (l : list Z) a, skipn a (skipn b l) = skipn (a + b) l.
Proof. induction b as [|b IH]; intros l a; [rewrite Nat.add_0_r; reflexivity|]. rewrite Nat.add_succ_r. destruct l as [|x l]; cbn [skipn]; [destruct a; reflexivity|apply IH]. Qed.
Lemma clean_behind : forall ds ds', zeros_behind ds ds' -> clean_end ds -> clean_end ds'.
Proof.
  intros ds ds' [k ->] H. unfold clean_end in *. rewrite app_length, repeat_length, skipn_app. apply Forall_app. split.
  - replace (length ds + k - 7)%nat with ((length ds + k - 7 - (length ds - 7)) + (length ds - 7))%nat by lia. rewrite <- skip_skip.
    rewrite <- (firstn_skipn (length ds + k - 7 - (length ds - 7)) (skipn (length ds - 7) ds)) in H. apply Forall_app in H. apply H.
  - apply Forall_forall. intros d I. assert (J : In d (repeat 0 k)) by (rewrite <- (firstn_skipn (length ds + k - 7 - length ds) (repeat 0 k)); apply in_or_app; right; exact I).
    apply repeat_spec in J. lia.
Qed.
Lemma behind_interval : forall cs ts n ds ds', zeros_behind ds ds' -> clean_end ds -> ref_interval cs ts n ds = ref_interval cs ts n ds'.
Proof.
  intros cs ts n ds ds' H C. unfold ref_interval. rewrite (clean_is _ C), (clean_is _ (clean_behind _ _ H C)). apply same_mcus, behind_bits, H.
Qed.
Lemma between_scan : forall cs ts r more more', zeros_between more more' -> forall n N ds ds', zeros_behind ds ds' -> Forall clean_end (ds :: map snd more) ->
  ref_scan cs ts r n N ds more = ref_scan cs ts r n N ds' more'.
Proof.
  intros cs ts r more more' H. induction H as [|[m e] [m' e'] more more' [Hm He] H IH]; intros n N ds ds' Hd C; apply Forall_cons_iff in C; destruct C as [C0 C].
  - cbn [ref_scan]. rewrite <- !(behind_interval cs ts _ ds ds' Hd C0). reflexivity.
  - cbn [fst snd] in Hm, He. subst m'. cbn [ref_scan]. rewrite <- !(behind_interval cs ts _ ds ds' Hd C0). cbn [map snd] in C. rewrite (IH ((n + 1) mod 8) (N - r) e e' He C). reflexivity.
Qed.
Lemma between_clean : forall more more', zeros_between more more' -> Forall clean_end (map snd more) -> Forall clean_end (map snd more').
Proof.
  intros more more' H. induction H as [|p p' more more' [_ Hp] H IH]; intros C; [constructor|]. cbn [map] in *. apply Forall_cons_iff in C. destruct C as [C0 C].
  constructor; [exact (clean_behind _ _ Hp C0)|exact (IH C)].
Qed.

Lemma missing_same : forall dbg rayon segs h fill1 fill2 ss ts qs ds more ds' more' post fill3,
  header_for segs h ss ts qs -> bytes ds -> more_ok more -> post_ok post -> 0 < fh_lines h -> 0 < fh_samples h ->
  Forall clean_end (ds :: map snd more) -> zeros_behind ds ds' -> zeros_between more more' ->
  let file := fun data => file_bytes segs fill1 fill2 (mkSpS ss 0 63 0 0) data post fill3 in
  bytes (file (scan_bytes ds more)) -> bytes (file (scan_bytes ds' more')) ->
  same_or_errors (decode_fresh dbg rayon (file (scan_bytes ds more))) (decode_fresh dbg rayon (file (scan_bytes ds' more'))).
Proof.
  intros dbg rayon segs h fill1 fill2 ss ts qs ds more ds' more' post fill3 HF B1 M1 PO P1 P2 C Zd Zm file B B'. unfold file in *. clear file.
  assert (B2 : bytes ds') by (destruct Zd as [k ->]; apply Forall_app; split; [exact B1|apply Forall_forall; intros d I; apply repeat_spec in I; subst d; split; [apply Z.le_refl|reflexivity]]).
  assert (M2 : more_ok more').
  { clear - M1 Zm. unfold more_ok in *. induction Zm as [|p p' more more' [E [k Zp]] H IH]; [constructor|]. apply Forall_cons_iff in M1. destruct M1 as [[R0 Bp] M1]. constructor; [|exact (IH M1)].
    rewrite <- E, Zp. split; [exact R0|]. apply Forall_app. split; [exact Bp|]. apply Forall_forall. intros d I. apply repeat_spec in I. subst d. split; [apply Z.le_refl|reflexivity]. }
  pose proof (fun n N => between_scan (fh_comps h) ts (last (dris segs) 0) more more' Zm n N ds ds' Zd C) as E.
  pose proof (code_file dbg rayon segs h fill1 fill2 ss ts qs ds more post fill3 HF B1 M1 PO P1 P2 B) as A. pose proof (code_file dbg rayon segs h fill1 fill2 ss ts qs ds' more' post fill3 HF B2 M2 PO P1 P2 B') as A'.
  cbv zeta in A, A'. rewrite <- E in A'.
  destruct (ref_scan (fh_comps h) ts (last (dris segs) 0) 0 _ ds more) as [ms|] eqn:R.
  - left. symmetry. pose proof R as R'. rewrite E in R'.
    exact (code_same dbg rayon segs h fill1 fill2 ss ts ds more post fill3 segs h fill1 fill2 ss ts ds' more' post fill3 qs ms HF B1 M1 PO HF B2 M2 PO eq_refl eq_refl P1 P2 eq_refl eq_refl R R' B B').
  - right. split; [exact (A C)|]. apply A'. apply Forall_cons_iff in C. destruct C as [C0 C]. constructor; [exact (clean_behind _ _ Zd C0)|exact (between_clean _ _ Zm C)].
Qed.
