(** The reading of entropy-coded data refines the reference (C63): codes, numbers, blocks. *)
From Verif Require Import Base Tactics SpecBits SpecReader SpecHuffman SpecBlock SpecTables Biterator BitsP Readers ReadersP Huffman HuffmanP HuffmanP2 HuffmanP3 Types Idct Parsers Decode SpecSegments SpecScan SpecCode BlockP.

(** ** Bits *)
Lemma firstn_falses : forall a n, (a <= n)%nat -> firstn a (repeat false n) = repeat false a.
Proof. induction a; intros [|n] L; cbn [firstn repeat]; try reflexivity; try lia. f_equal. apply IHa. lia. Qed.
Lemma get_split : forall z k bits x rest, get z k bits = Some (x, rest) ->
  length x = k /\ forall n, bits ++ repeat false (n + (k - length bits)) = x ++ rest ++ repeat false n.
Proof.
  intros z k bits x rest H. unfold get in H. destruct (z || (k <=? length bits)%nat); [|discriminate]. inv H. split.
  - rewrite firstn_length, app_length, repeat_length. lia.
  - intros n. destruct (Nat.le_ge_cases k (length bits)) as [L|L].
    + replace (k - length bits)%nat with 0%nat by lia. rewrite Nat.add_0_r. rewrite firstn_app. replace (k - length bits)%nat with 0%nat by lia.
      cbn [firstn]. rewrite app_nil_r, app_assoc, firstn_skipn. reflexivity.
    + rewrite skipn_all2 by lia. cbn [app]. rewrite firstn_app, firstn_all2 by lia. rewrite firstn_falses by lia.
      rewrite <- app_assoc, <- repeat_app. f_equal. f_equal. lia.
Qed.
Lemma get_inside : forall k bits x rest, get false k bits = Some (x, rest) -> (k - length bits = 0)%nat.
Proof. intros k bits x rest H. unfold get in H. cbn [orb] in H. destruct (Nat.leb_spec k (length bits)); [lia|discriminate]. Qed.
Lemma get_zeros : forall k bits, get true k bits <> None.
Proof. intros. unfold get. cbn [orb]. discriminate. Qed.

(** The reader delivers [bits], then zeros if [z]. *)
Definition stands (z : bool) (tail : list Z) (b : biter) (bits : list bool) : Prop :=
  forall n, n = 0%nat \/ z = true -> holds_at tail b (bits ++ repeat false n).

Lemma stands_get : forall z tail b k bits x rest, stands z tail b bits -> get z k bits = Some (x, rest) ->
  forall n, n = 0%nat \/ z = true -> holds_at tail b (x ++ rest ++ repeat false n).
Proof.
  intros z tail b k bits x rest S G n Hn. destruct (get_split _ _ _ _ _ G) as [_ E]. rewrite <- E. apply S.
  destruct z; [right; reflexivity|left]. rewrite (get_inside _ _ _ _ G). destruct Hn; [lia|discriminate].
Qed.

Lemma stands_good : forall z tail b bits, bytes tail -> stands z tail b bits -> good b.
Proof. intros z tail b bits B S. apply (holds_good tail b (bits ++ repeat false 0) B). apply S. auto. Qed.

Lemma stands_number : forall dbg z tail b k bits x rest, marker_tail tail -> stands z tail b bits -> get z k bits = Some (x, rest) -> (0 < k <= 16)%nat ->
  exists b', next_bits dbg b (Z.of_nat k) = Ok (Some (of_bits x), b') /\ stands z tail b' rest.
Proof.
  intros dbg z tail b k bits x rest MT S G K. destruct (get_split _ _ _ _ _ G) as [L _]. subst k.
  destruct (next_bits_holds dbg tail b x _ MT (stands_get _ _ _ _ _ _ _ S G 0%nat ltac:(auto)) K) as [b' [E _]].
  exists b'. split; [exact E|]. intros n Hn. destruct (next_bits_holds dbg tail b x _ MT (stands_get _ _ _ _ _ _ _ S G n Hn) K) as [b2 [E2 H2]].
  rewrite E in E2. inv E2. exact H2.
Qed.
Lemma stands_value : forall dbg z tail b s bits v rest, marker_tail tail -> stands z tail b bits -> next_value z s bits = Some (v, rest) -> 1 <= s <= 15 ->
  exists b', receive_extend dbg b s = Ok (Some v, b') /\ stands z tail b' rest.
Proof.
  intros dbg z tail b s bits v rest MT S G K. unfold next_value in G. destruct (get z (Z.to_nat s) bits) as [[x rest']|] eqn:E; [|discriminate]. inv G.
  destruct (get_split _ _ _ _ _ E) as [L _].
  destruct (receive_extend_ok dbg tail b x _ MT (stands_get _ _ _ _ _ _ _ S E 0%nat ltac:(auto)) ltac:(lia)) as [b' [E1 _]].
  rewrite L, Z2Nat.id in E1 by lia. exists b'. split; [exact E1|]. intros n Hn.
  destruct (receive_extend_ok dbg tail b x _ MT (stands_get _ _ _ _ _ _ _ S E n Hn) ltac:(lia)) as [b2 [E2 H2]].
  rewrite L, Z2Nat.id in E2 by lia. rewrite E1 in E2. inv E2. exact H2.
Qed.
Lemma value_zeros : forall s bits, next_value true s bits <> None.
Proof. intros s bits H. unfold next_value in H. destruct (get true (Z.to_nat s) bits) as [[x r]|] eqn:E; [discriminate|]. apply (get_zeros _ _ E). Qed.
Lemma value_range : forall z s bits v rest, next_value z s bits = Some (v, rest) -> 1 <= s <= 15 -> -32768 <= v < 32768.
Proof.
  intros z s bits v rest H Hs. unfold next_value in H. destruct (get z (Z.to_nat s) bits) as [[x r]|] eqn:E; [|discriminate]. inv H.
  destruct (get_split _ _ _ _ _ E) as [L _]. pose proof (of_bits_bound x) as B. rewrite L, Z2Nat.id in B by lia.
  pose proof (Z.pow_le_mono_r 2 s 15 ltac:(lia) ltac:(lia)) as P. change (2 ^ 15) with 32768 in P. unfold EXTEND. destruct (of_bits x <? 2 ^ (s - 1)); lia.
Qed.

(** ** Codes *)
Lemma in_combine_nth : forall A B (l : list A) (m : list B) a b, In (a, b) (combine l m) ->
  exists k, nth_error l k = Some a /\ nth_error m k = Some b.
Proof.
  induction l as [|x l IH]; intros [|y m] a b H; cbn [combine] in H; try contradiction. destruct H as [E|H].
  - inv E. exists 0%nat. auto.
  - destruct (IH m a b H) as [k K]. exists (S k). exact K.
Qed.
Lemma in_combine_l : forall A B (l : list A) (m : list B) a, length l = length m -> In a l -> exists b, In (a, b) (combine l m).
Proof.
  induction l as [|x l IH]; intros [|y m] a L H; try discriminate; try contradiction. destruct H as [->|H].
  - exists y. left. reflexivity.
  - destruct (IH m a ltac:(cbn in L; lia) H) as [b Hb]. exists b. right. exact Hb.
Qed.

Lemma canonical_values : forall counts values t, table_of counts values t -> length (canonical counts) = length values.
Proof.
  intros counts values t T. pose proof (to_counts _ _ _ T) as C. pose proof (to_len _ _ _ T) as L. pose proof (canonical_lengths counts C) as E.
  apply (f_equal (@length Z)) in E. rewrite map_length in E. destruct C as [_ B]. pose proof (lengths_from_length counts 1 B) as K. unfold lenZ, code_lengths in *. lia.
Qed.

Lemma symbol_found : forall z counts values bits s rest, next_symbol z counts values bits = Some (s, rest) ->
  exists k c, nth_error (canonical counts) k = Some c /\ nth_error values k = Some s /\ get z (length c) bits = Some (c, rest).
Proof.
  intros z counts values bits s rest H. unfold next_symbol in H.
  destruct (find _ _) as [[c s']|] eqn:F; [|discriminate]. inv H. apply find_some in F. destruct F as [Hin St]. cbn [fst] in St.
  destruct (in_combine_nth _ _ _ _ _ _ Hin) as [k [K1 K2]]. exists k, c. split; [exact K1|]. split; [exact K2|].
  unfold starts_with in St. destruct (get z (length c) bits) as [[x r]|] eqn:G; [|discriminate].
  destruct (list_eq_dec Bool.bool_dec x c) as [->|]; [|discriminate]. unfold get in G |- *. destruct (z || _); [|discriminate]. congruence.
Qed.
Lemma symbol_missing : forall counts values t bits, table_of counts values t -> next_symbol true counts values bits = None ->
  forall c, In c (canonical counts) -> ~ prefix c (firstn 16 (bits ++ repeat false 16)).
Proof.
  intros counts values t bits T H c Hin P. unfold next_symbol in H. destruct (find _ _) as [[c' s']|] eqn:F; [discriminate|].
  destruct (in_combine_l _ _ _ _ c (canonical_values _ _ _ T) Hin) as [s Hs].
  pose proof (find_none _ _ F _ Hs) as X. cbn [fst] in X. unfold starts_with, get in X. cbn [orb] in X.
  destruct (list_eq_dec Bool.bool_dec (firstn (length c) (bits ++ repeat false (length c))) c) as [|NE]; [discriminate|]. apply NE.
  assert (L16 : (length c <= 16)%nat).
  { destruct P as [r P]. apply (f_equal (@length bool)) in P. rewrite firstn_length, !app_length, repeat_length in P. lia. }
  apply prefix_iff_firstn in P. rewrite firstn_firstn in P. replace (Nat.min (length c) 16) with (length c) in P by lia.
  transitivity (firstn (length c) (bits ++ repeat false 16)); [|exact P]. rewrite !firstn_app. f_equal. rewrite !firstn_falses by lia. reflexivity.
Qed.

Section Reads.
Variables (dbg z : bool) (tail : list Z).
Hypothesis MT : marker_tail tail.
Hypothesis BT : bytes tail.

Lemma stands_symbol : forall counts values t b bits, table_of counts values t -> stands z tail b bits ->
  match next_symbol z counts values bits with
  | Some (s, rest) => In s values /\ exists b', table_decode dbg t b = Ok (Some s, b') /\ stands z tail b' rest
  | None => z = true -> exists b', table_decode dbg t b = Ok (None, b')
  end.
Proof.
  intros counts values t b bits T S. destruct (next_symbol z counts values bits) as [[s rest]|] eqn:E.
  - destruct (symbol_found _ _ _ _ _ _ E) as [k [c [K1 [K2 G]]]]. split; [eapply nth_error_In; eauto|].
    destruct (table_decode_code dbg counts values t tail b _ k c T MT K1 (stands_get _ _ _ _ _ _ _ S G 0%nat ltac:(auto))) as [b' [D _]].
    rewrite (nth_error_nth values k 0 K2) in D. exists b'. split; [exact D|]. intros n Hn.
    destruct (table_decode_code dbg counts values t tail b _ k c T MT K1 (stands_get _ _ _ _ _ _ _ S G n Hn)) as [b2 [D2 H2]].
    rewrite (nth_error_nth values k 0 K2), D in D2. inv D2. exact H2.
  - intros ->. 
    assert (H : holds_at tail b (firstn 16 (bits ++ repeat false 16))).
    { destruct (S 16%nat ltac:(auto)) as [R [ds [Bd [Ei [n [Hn P]]]]]]. split; [exact R|]. exists ds. split; [exact Bd|]. split; [exact Ei|]. exists n. split; [exact Hn|].
      destruct P as [more P]. rewrite P. exists (skipn 16 (bits ++ repeat false 16) ++ more). rewrite app_assoc, firstn_skipn. reflexivity. }
    destruct (table_decode_none dbg counts values t tail b _ T MT H) as [b' [D _]].
    + rewrite firstn_length, app_length, repeat_length. lia.
    + exact (symbol_missing _ _ _ _ T E).
    + exists b'. exact D.
Qed.

(** The symbols of AC coefficients, with their extra bits if the fast table has them. *)
Lemma stands_fast : forall counts values t b bits, table_of counts values (ac_table_base t) -> bytes values -> ac_lut t = ac_entries 0 (t_lut (ac_table_base t)) ->
  stands z tail b bits ->
  match next_symbol z counts values bits with
  | Some (s, rest) => is_byte s /\ exists b',
      (1 <= s mod 16 /\ exists v rest', next_value z (s mod 16) rest = Some (v, rest') /\ decode_fast_ac dbg t b = Ok (AFast v (s / 16), b') /\ stands z tail b' rest') \/
      (1 <= s mod 16 /\ z = false /\ next_value z (s mod 16) rest = None) \/
      (decode_fast_ac dbg t b = Ok (ANormal s, b') /\ stands z tail b' rest)
  | None => z = true -> exists b', decode_fast_ac dbg t b = Ok (AErr, b')
  end.
Proof.
  intros counts values t b bits T Bv El S. pose proof (stands_symbol counts values _ b bits T S) as D.
  pose proof (fast_ac_equals_slow dbg counts values t b T Bv El (stands_good _ _ _ _ BT S)) as F.
  destruct (next_symbol z counts values bits) as [[s rest]|] eqn:E.
  - destruct D as [Hin [b1 [D S1]]]. assert (Bs : is_byte s) by (unfold bytes in Bv; rewrite Forall_forall in Bv; auto). split; [exact Bs|].
    destruct (decode_fast_ac dbg t b) as [[r b']| | |] eqn:Df; try contradiction. exists b'. destruct r as [v run|byte|].
    + destruct F as [y [b2 [D' [Er [Hy R]]]]]. rewrite D in D'. inv D'.
      destruct (next_value z (y mod 16) rest) as [[v' rest']|] eqn:V.
      * left. split; [lia|]. destruct (stands_value dbg z tail b2 (y mod 16) rest v' rest' MT S1 V ltac:(lia)) as [b3 [R3 S3]]. rewrite R in R3. inv R3. eauto.
      * right. left. split; [lia|]. split; [|reflexivity]. destruct z; [|reflexivity]. exfalso. apply (value_zeros _ _ V).
    + right. right. rewrite D in F. inv F. auto.
    + rewrite D in F. discriminate.
  - intros Z. destruct (D Z) as [b1 D1]. destruct (decode_fast_ac dbg t b) as [[r b']| | |] eqn:Df; try contradiction. exists b'. destruct r as [v run|byte|].
    + destruct F as [y [b2 [D' _]]]. rewrite D1 in D'. discriminate.
    + rewrite D1 in F. discriminate.
    + reflexivity.
Qed.

(** ** AC coefficients *)
Lemma cut_nth : forall n (l vs : list Z) j, length vs = (n - length l)%nat -> (j < n)%nat ->
  nth j (firstn n (l ++ vs)) 0 = if (j <? length l)%nat then nth j l 0 else nth (j - length l) vs 0.
Proof.
  intros n l vs j L Hj.
  assert (E : nth j (firstn n (l ++ vs)) 0 = nth j (l ++ vs) 0).
  { rewrite <- (firstn_skipn n (l ++ vs)) at 2. rewrite app_nth1; [reflexivity|]. rewrite firstn_length, app_length. lia. }
  rewrite E. destruct (Nat.ltb_spec j (length l)); [rewrite app_nth1 by auto|rewrite app_nth2 by auto]; reflexivity.
Qed.

Lemma ac_loop_ref : forall ts act, table_of (ac_counts ts) (ac_values ts) (ac_table_base act) -> bytes (ac_values ts) ->
  ac_lut act = ac_entries 0 (t_lut (ac_table_base act)) ->
  forall f1 f2 n coefs b bits i, stands z tail b bits -> 1 <= i <= 63 -> Z.of_nat n = 64 - i -> (n <= f1)%nat -> (n < f2)%nat ->
  length coefs = 64%nat -> (forall k, i <= Z.of_nat k < 64 -> nth (natural k) coefs 0 = 0) ->
  match ref_ac z ts f2 n bits with
  | Some (vs, run, rest) => exists coefs' b', ac_loop dbg f1 act 0 63 coefs b 0 i = Ok (coefs', b', run) /\ stands z tail b' rest /\
      length coefs' = 64%nat /\ length vs = n /\ 0 <= run /\
      forall k, (k < 64)%nat -> nth (natural k) coefs' 0 = if i <=? Z.of_nat k then nth (k - Z.to_nat i) vs 0 else nth (natural k) coefs 0
  | None => z = true -> exists e, ac_loop dbg f1 act 0 63 coefs b 0 i = Fail e
  end.
Proof.
  intros ts act T Bv El. induction f1 as [|f1 IH]; intros f2 n coefs b bits i S Hi Hn F1 F2 Lc Hz; [lia|].
  destruct f2 as [|f2]; [lia|]. cbn [ref_ac]. replace (n =? 0)%nat with false by (symmetry; apply Nat.eqb_neq; lia).
  pose proof (stands_fast _ _ act b bits T Bv El S) as D. destruct (next_symbol z (ac_counts ts) (ac_values ts) bits) as [[s rest]|] eqn:E.
  2:{ intros Z. destruct (D Z) as [b' Df]. exists EEof. cbn [ac_loop]. rewrite Df. reflexivity. }
  destruct D as [Bs [b1 D]]. unfold is_byte in Bs. cbv zeta. set (r := s / 16) in *. set (m := s mod 16) in *.
  assert (Hr : 0 <= r <= 15) by (unfold r; lia). assert (Hm : 0 <= m <= 15) by (unfold m; lia).
  assert (Sr : Z.shiftr s 4 = r) by (unfold r; rewrite Z.shiftr_div_pow2 by lia; reflexivity).
  assert (Sm : Z.land s 15 = m) by (unfold m; change 15 with (Z.ones 4); rewrite Z.land_ones by lia; reflexivity).
  destruct (Z.eqb_spec m 0) as [M0|M0].
  - destruct D as [[X _]|[[X _]|[Df S1]]]; [lia|lia|].
    destruct (Z.eqb_spec r 15) as [R15|R15].
    + (* sixteen zeros *)
      assert (Step : ac_loop dbg (Datatypes.S f1) act 0 63 coefs b 0 i = if i + 16 <=? 63 then ac_loop dbg f1 act 0 63 coefs b1 0 (i + 16) else Ok (coefs, b1, 0)).
      { cbn [ac_loop]. rewrite Df. cbn [bind]. rewrite Sr, Sm, M0, R15. reflexivity. }
      rewrite Step. clear Step. destruct (Z.leb_spec (i + 16) 63) as [Q|Q].
      * specialize (IH f2 (n - 16)%nat coefs b1 rest (i + 16) S1 ltac:(lia) ltac:(lia) ltac:(lia) ltac:(lia) Lc ltac:(intros; apply Hz; lia)).
        destruct (ref_ac z ts f2 (n - 16) rest) as [[[vs run] rest']|]; cbn [cut]; [|exact IH].
        destruct IH as [coefs' [b' [A1 [A2 [A3 [A4 [A6 A5]]]]]]]. exists coefs', b'. split; [exact A1|]. split; [exact A2|]. split; [exact A3|]. split.
        { rewrite firstn_length, app_length, repeat_length. lia. }
        split; [exact A6|]. intros k Hk. rewrite A5 by auto. destruct (Z.leb_spec i (Z.of_nat k)) as [G|G]; destruct (Z.leb_spec (i + 16) (Z.of_nat k)) as [G'|G']; try lia; try reflexivity;
          rewrite cut_nth by (rewrite ?repeat_length; lia); rewrite repeat_length.
        -- replace (_ <? 16)%nat with false by (symmetry; apply Nat.ltb_ge; lia). f_equal. lia.
        -- replace (_ <? 16)%nat with true by (symmetry; apply Nat.ltb_lt; lia). rewrite nth_repeat. apply Hz. lia.
      * destruct f2 as [|f2]; [lia|]. replace (n - 16)%nat with 0%nat by lia. cbn [ref_ac Nat.eqb cut]. exists coefs, b1. split; [reflexivity|]. split; [exact S1|]. split; [exact Lc|]. split.
        { rewrite firstn_length, app_length, repeat_length. cbn [length]. lia. }
        split; [lia|]. intros k Hk. destruct (Z.leb_spec i (Z.of_nat k)) as [G|G]; [|reflexivity].
        rewrite cut_nth by (rewrite ?repeat_length; cbn [length]; lia). rewrite repeat_length. replace (_ <? 16)%nat with true by (symmetry; apply Nat.ltb_lt; lia). rewrite nth_repeat. apply Hz. lia.
    + (* the block ends *)
      assert (Fin : forall j, (j < 64)%nat -> nth (natural j) coefs 0 = if i <=? Z.of_nat j then nth (j - Z.to_nat i) (repeat 0 n) 0 else nth (natural j) coefs 0).
      { intros j Hj. destruct (Z.leb_spec i (Z.of_nat j)) as [G|G]; [|reflexivity]. rewrite nth_repeat. apply Hz. lia. }
      destruct (get z (Z.to_nat r) rest) as [[x rest']|] eqn:G.
      * destruct (Z.eq_dec r 0) as [R0|R0].
        -- unfold get in G. rewrite R0 in G. rewrite orb_true_r in G. cbn [Z.to_nat firstn skipn] in G. inv G.
           exists coefs, b1. split; [cbn [ac_loop]; rewrite Df; cbn [bind]; rewrite Sr, Sm, M0, R0; reflexivity|]. split; [exact S1|]. split; [exact Lc|]. split; [apply repeat_length|split; [cbn; lia|exact Fin]].
        -- destruct (stands_number dbg z tail b1 (Z.to_nat r) rest x rest' MT S1 G ltac:(lia)) as [b2 [N S2]]. rewrite Z2Nat.id in N by lia.
           exists coefs, b2. split; [|split; [exact S2|split; [exact Lc|split; [apply repeat_length|split; [pose proof (of_bits_bound x); pose proof (Z.pow_pos_nonneg 2 r ltac:(lia) ltac:(lia)); lia|exact Fin]]]]].
           cbn [ac_loop]. rewrite Df. cbn [bind]. rewrite Sr, Sm, M0. change (0 =? 0) with true. cbn iota. replace (r =? 15) with false by lia. replace (0 <? r) with true by lia.
           rewrite N. reflexivity.
      * intros ->. exfalso. exact (get_zeros _ _ G).
  - (* a value *)
    assert (P : match next_value z m rest with
                | Some (v, rest') => exists b2, stands z tail b2 rest' /\
                    ac_loop dbg (Datatypes.S f1) act 0 63 coefs b 0 i =
                    (if i + r <=? 63 then
                       let* coefs := unzigzag coefs (i + r) (shl16 v 0) in
                       if i + r + 1 <=? 63 then ac_loop dbg f1 act 0 63 coefs b2 0 (i + r + 1) else Ok (coefs, b2, 0)
                     else Ok (coefs, b2, 0))
                | None => z = false
                end).
    { destruct D as [[_ [v [rest' [V [Df S2]]]]]|[[_ [Z0 V]]|[Df S1]]].
      - rewrite V. exists b1. split; [exact S2|]. cbn [ac_loop]. rewrite Df. reflexivity.
      - rewrite V. exact Z0.
      - destruct (next_value z m rest) as [[v rest']|] eqn:V; [|destruct z; [exfalso; exact (value_zeros _ _ V)|reflexivity]].
        destruct (stands_value dbg z tail b1 m rest v rest' MT S1 V ltac:(lia)) as [b2 [R S2]]. exists b2. split; [exact S2|].
        cbn [ac_loop]. rewrite Df. cbn [bind]. rewrite Sr, Sm. replace (m =? 0) with false by lia. rewrite R. reflexivity. }
    destruct (next_value z m rest) as [[v rest']|] eqn:V; [|intros Z; congruence].
    destruct P as [b2 [S2 Step]]. rewrite Step. clear Step. pose proof (value_range _ _ _ _ _ V ltac:(lia)) as Vr. rewrite shl16_0 by exact Vr.
    set (l := repeat 0 (Z.to_nat r) ++ [v]). assert (Ll : length l = (Z.to_nat r + 1)%nat) by (unfold l; rewrite app_length, repeat_length; reflexivity).
    assert (Nl : forall j, nth j l 0 = if (j =? Z.to_nat r)%nat then v else 0).
    { intros j. unfold l. destruct (Nat.eqb_spec j (Z.to_nat r)) as [->|NE].
      - rewrite app_nth2; rewrite repeat_length; [|lia]. rewrite Nat.sub_diag. reflexivity.
      - destruct (Nat.lt_ge_cases j (Z.to_nat r)); [rewrite app_nth1 by (rewrite repeat_length; lia); apply nth_repeat|]. apply nth_overflow. rewrite app_length, repeat_length. cbn [length]. lia. }
    rewrite <- Ll. destruct (Z.leb_spec (i + r) 63) as [Q|Q].
    + assert (Uz : unzigzag coefs (i + r) v = Ok (upd coefs (natural (Z.to_nat (i + r))) v)).
      { replace (i + r) with (Z.of_nat (Z.to_nat (i + r))) at 1 by lia. apply unzigzag_spec; auto. lia. }
      rewrite Uz. cbn [bind]. set (p := Z.to_nat (i + r)) in *.
      assert (Lu : length (upd coefs (natural p) v) = 64%nat) by (rewrite upd_length; exact Lc).
      assert (Up : forall j, (j < 64)%nat -> nth (natural j) (upd coefs (natural p) v) 0 = if (j =? p)%nat then v else nth (natural j) coefs 0).
      { intros j Hj. destruct (Nat.eqb_spec j p) as [->|NE]; [apply nth_upd_eq; rewrite Lc; apply natural_lt; lia|].
        apply nth_upd_neq. intros X. apply natural_inj in X; lia. }
      destruct (Z.leb_spec (i + r + 1) 63) as [Q1|Q1].
      * specialize (IH f2 (n - length l)%nat (upd coefs (natural p) v) b2 rest' (i + r + 1) S2 ltac:(lia) ltac:(lia) ltac:(lia) ltac:(lia) Lu
          ltac:(intros j Hj; rewrite Up by lia; replace (j =? p)%nat with false by (symmetry; apply Nat.eqb_neq; lia); apply Hz; lia)).
        destruct (ref_ac z ts f2 (n - length l) rest') as [[[vs run] rest2]|]; cbn [cut]; [|exact IH].
        destruct IH as [coefs' [b' [A1 [A2 [A3 [A4 [A6 A5]]]]]]]. exists coefs', b'. split; [exact A1|]. split; [exact A2|]. split; [exact A3|]. split.
        { rewrite firstn_length, app_length. lia. }
        split; [exact A6|]. intros k Hk. rewrite A5 by auto. destruct (Z.leb_spec i (Z.of_nat k)) as [G|G]; destruct (Z.leb_spec (i + r + 1) (Z.of_nat k)) as [G'|G']; try lia.
        -- rewrite cut_nth by lia. replace (_ <? length l)%nat with false by (symmetry; apply Nat.ltb_ge; lia). f_equal. lia.
        -- rewrite cut_nth by lia. replace (_ <? length l)%nat with true by (symmetry; apply Nat.ltb_lt; lia). rewrite Nl, Up by auto.
           destruct (Nat.eqb_spec k p); destruct (Nat.eqb_spec (k - Z.to_nat i) (Z.to_nat r)); try lia; apply Hz; lia.
        -- rewrite Up by auto. replace (k =? p)%nat with false by (symmetry; apply Nat.eqb_neq; lia). reflexivity.
      * destruct f2 as [|f2]; [lia|]. replace (n - length l)%nat with 0%nat by lia. cbn [ref_ac Nat.eqb cut]. exists (upd coefs (natural p) v), b2. split; [reflexivity|]. split; [exact S2|]. split; [exact Lu|]. split.
        { rewrite firstn_length, app_length. cbn [length]. lia. }
        split; [lia|]. intros k Hk. rewrite Up by auto. destruct (Z.leb_spec i (Z.of_nat k)) as [G|G].
        -- rewrite cut_nth by (cbn [length]; lia). replace (_ <? length l)%nat with true by (symmetry; apply Nat.ltb_lt; lia). rewrite Nl.
           destruct (Nat.eqb_spec k p); destruct (Nat.eqb_spec (k - Z.to_nat i) (Z.to_nat r)); try lia; apply Hz; lia.
        -- replace (k =? p)%nat with false by (symmetry; apply Nat.eqb_neq; lia). reflexivity.
    + destruct f2 as [|f2]; [lia|]. replace (n - length l)%nat with 0%nat by lia. cbn [ref_ac Nat.eqb cut]. exists coefs, b2. split; [reflexivity|]. split; [exact S2|]. split; [exact Lc|]. split.
      { rewrite firstn_length, app_length. cbn [length]. lia. }
      split; [lia|]. intros k Hk. destruct (Z.leb_spec i (Z.of_nat k)) as [G|G]; [|reflexivity].
      rewrite cut_nth by (cbn [length]; lia). replace (_ <? length l)%nat with true by (symmetry; apply Nat.ltb_lt; lia). rewrite Nl.
      destruct (Nat.eqb_spec (k - Z.to_nat i) (Z.to_nat r)); try lia; apply Hz; lia.
Qed.

(** ** Blocks *)
Lemma decode_dc_ref : forall ts sc dct b bits pred, table_of (dc_counts ts) (dc_values ts) dct -> bytes (dc_values ts) -> s_start sc = 0 -> s_low sc = 0 -> stands z tail b bits ->
  match ref_diff z ts bits with
  | Some (diff, rest) => exists b', decode_dc dbg sc dct zero_block b pred = Ok (upd zero_block 0 (int16 (pred + diff)), b', int16 (pred + diff)) /\ stands z tail b' rest
  | None => z = true -> exists e, decode_dc dbg sc dct zero_block b pred = Fail e
  end.
Proof.
  intros ts sc dct b bits pred T Bv S0 Sl S. unfold ref_diff, decode_dc. rewrite S0. cbn [Z.eqb]. pose proof (stands_symbol _ _ dct b bits T S) as D.
  destruct (next_symbol z (dc_counts ts) (dc_values ts) bits) as [[s rest]|] eqn:E.
  2:{ intros Z. destruct (D Z) as [b' Dt]. rewrite Dt. exists EEof. reflexivity. }
  destruct D as [Hin [b1 [Dt S1]]]. rewrite Dt. cbn [or_fail bind].
  assert (Bs : is_byte s) by (unfold bytes in Bv; rewrite Forall_forall in Bv; auto). unfold is_byte in Bs.
  assert (St : forall x b2 pr, (let* coefs := store zero_block 0 (shl16 (w16 (pred + x)) (s_low sc)) in Ok (coefs, b2 : biter, pr : Z)) = Ok (upd zero_block 0 (int16 (pred + x)), b2, pr)).
  { intros x b2 pr. rewrite Sl. rewrite shl16_0 by (pose proof (w16_range (pred + x)); lia). reflexivity. }
  destruct (Z.eqb_spec s 0) as [Z0|Z0].
  - exists b1. split; [cbn [bind]; apply St|exact S1].
  - destruct (Z.ltb_spec 11 s) as [Q|Q]; [intros _; exists EDcCategory; reflexivity|].
    destruct (next_value z s rest) as [[v rest']|] eqn:V; [|intros ->; exfalso; exact (value_zeros _ _ V)].
    destruct (stands_value dbg z tail b1 s rest v rest' MT S1 V ltac:(lia)) as [b2 [R S2]]. exists b2. split; [|exact S2]. rewrite R. cbn [or_fail bind]. apply St.
Qed.

Lemma block_ref : forall ts dct act sc b bits run pred, built dbg ts dct act -> s_start sc = 0 -> 63 <= s_end sc -> s_low sc = 0 -> 0 <= run -> stands z tail b bits ->
  match ref_block z ts run pred bits with
  | Some (q, run', rest) => 0 <= run' /\ exists blk b', decode_block dbg sc dct act zero_block b run pred = Ok (blk, b', run', q_dc q) /\ q_values blk q /\ stands z tail b' rest
  | None => z = true -> exists e, decode_block dbg sc dct act zero_block b run pred = Fail e
  end.
Proof.
  intros ts dct act sc b bits run pred [B1 B2 B2b B3 B4 B5 B6 B7] Hs He Hlow Hrun S.
  pose proof (table_new_of _ _ _ _ B1 B2 B3) as Td. destruct (ac_new_of _ _ _ _ B4 B5 B7) as [Ta El].
  pose proof (decode_dc_ref ts sc dct b bits pred Td B2b Hs Hlow S) as D. unfold ref_block, decode_block.
  destruct (ref_diff z ts bits) as [[diff rest]|]; [|intros Z; destruct (D Z) as [e Df]; exists e; rewrite Df; reflexivity].
  destruct D as [b1 [Df S1]]. rewrite Df. cbn [bind]. rewrite Hs, Hlow. replace (Z.max 0 1) with 1 by lia. replace (Z.min (s_end sc) 63) with 63 by lia.
  change (1 <=? 63) with true. change (1 <? 63) with true. cbn [andb]. set (dc := int16 (pred + diff)) in *.
  assert (Lu : length (upd zero_block 0 dc) = 64%nat) by (rewrite upd_length; reflexivity).
  assert (Uz : forall j, 1 <= Z.of_nat j < 64 -> nth (natural j) (upd zero_block 0 dc) 0 = 0).
  { intros j Hj. rewrite nth_upd_neq; [apply nth_zero_block|]. intros X. change 0%nat with (natural 0) in X. apply natural_inj in X; lia. }
  assert (U0 : nth (natural 0) (upd zero_block 0 dc) 0 = dc) by (rewrite natural_0; apply nth_upd_eq; cbn; lia).
  destruct (Z.ltb_spec 0 run) as [Q|Q].
  - split; [lia|]. exists (upd zero_block 0 dc), b1. cbn [q_dc]. split; [reflexivity|]. split; [|exact S1]. split; [exact Lu|]. cbn [q_dc q_ac]. intros [|j] Hj; [exact U0|].
    cbn [nth]. rewrite nth_repeat. apply Uz. lia.
  - assert (R0 : run = 0) by lia. subst run.
    pose proof (ac_loop_ref ts act Ta B6 El 64 64 63 (upd zero_block 0 dc) b1 rest 1 S1 ltac:(lia) ltac:(lia) ltac:(lia) ltac:(lia) Lu Uz) as A.
    destruct (ref_ac z ts 64 63 rest) as [[[vs run] rest']|]; [|intros Z; destruct (A Z) as [e Ae]; exists e; rewrite Ae; reflexivity].
    destruct A as [coefs [b2 [A1 [A2 [A3 [A4 [A5 A6]]]]]]]. split; [exact A5|]. exists coefs, b2. rewrite A1. cbn [bind q_dc]. split; [reflexivity|]. split; [|exact A2].
    split; [exact A3|]. cbn [q_dc q_ac]. intros [|j] Hj; rewrite A6 by auto.
    + exact U0.
    + replace (1 <=? Z.of_nat (Datatypes.S j)) with true by lia. cbn [nth]. f_equal. lia.
Qed.
End Reads.
