(** How much a streaming decoder keeps (C79). *)
From Verif Require Import SpecColor Base Tactics SpecBits SpecReader SpecHuffman SpecBlock SpecTables Biterator BitsP Readers ReadersP Huffman HuffmanP2 HuffmanP3  Marker SpecMarker MarkerP Types Idct IdctP Color Upsampler Parsers Decode SpecFrame SpecSegments SpecScan SpecPlane SpecUpsample SpecImage SpecFile SpecLimits BlockP PlaneP SegmentsP SafeP InvP ScanP RestartP PlacedP EncodeP SpecGlobal GlobalP ExtP SpecStream StreamP StreamP2 RowP UpsampleP ImageP ParsersP FileP CorruptP SpecCode CodeP3 ReuseP TraceP SpecPieces PiecesP SpecWait DamageP2 WaitP WaitP2.

(** ** One refill uses at most sixteen bytes *)
Lemma fill_loop_room : forall n cpi cpc input bits count, (length input <= length cpi)%nat ->
  count - cpc <= 8 * Z.of_nat (length cpi - length input) -> 57 - count <= 8 * Z.of_nat n -> 0 <= count -> (2 * n <= length input)%nat ->
  exists b', fill_loop cpi cpc input bits count = (true, b') /\ (length input <= length (bi_input b') + 2 * n)%nat /\ 0 <= bi_count b'.
Proof.
  induction n as [|n IH]; intros cpi cpc input bits count Li C Cn C0 L.
  - destruct input as [|x input]; cbn [fill_loop]; replace (count <=? 56) with false by lia; eexists; (split; [reflexivity|]); cbn [bi_input bi_count]; lia.
  - destruct input as [|x [|y input]]; cbn [length] in L; try lia.
    cbn [fill_loop]. destruct (count <=? 56) eqn:CC; [|eexists; split; [reflexivity|]; cbn [bi_input bi_count length]; lia].
    destruct (x =? 255).
    + destruct (y =? 0).
      * cbn [length] in *. destruct (IH cpi cpc input (push_byte bits x) (count + 8)) as [b' [E [E1 E2]]]; try lia. exists b'. split; [exact E|]. lia.
      * assert (R : (reskip cpc (count + 8) <= length cpi - length (x :: y :: input))%nat) by (unfold reskip; clear - C; lia).
        rewrite skip_bytes_spec by lia.
        assert (Pz : forall f b0 c0, 0 <= c0 -> 0 <= snd (pad_zeros f b0 c0)) by (induction f as [|f IHf]; intros b0 c0 H; cbn [pad_zeros]; [exact H|]; destruct (c0 <=? 56); [apply IHf; lia|exact H]).
        pose proof (Pz 8%nat (clear_low_byte (push_byte bits x)) (count + 8) ltac:(lia)) as P8.
        destruct (pad_zeros 8 (clear_low_byte (push_byte bits x)) (count + 8)) as [bb cc]. eexists. split; [reflexivity|]. cbn [bi_input bi_count snd] in *. rewrite skipn_length. lia.
    + cbn [length] in *. destruct (IH cpi cpc (y :: input) (push_byte bits x) (count + 8)) as [b' [E [E1 E2]]]; cbn [length]; try lia. exists b'. split; [exact E|]. cbn [length] in E1. lia.
Qed.
(** At least [m] bytes of input. *)
Definition room (m : nat) (b : biter) : Prop := (m <= length (bi_input b))%nat /\ 0 <= bi_count b.
Lemma fill_room : forall m b, room (m + 16) b -> exists b', fill_bits b = (true, b') /\ room m b'.
Proof.
  intros m b [L C]. unfold fill_bits.
  destruct (fill_loop_room 8 (bi_input b) (bi_count b) (bi_input b) (bi_bits b) (bi_count b)) as [b' [E [E1 E2]]]; try lia. exists b'. split; [exact E|]. split; [lia|exact E2].
Qed.
Lemma room_less : forall m n b, (m <= n)%nat -> room n b -> room m b.
Proof. intros m n b L [H C]. split; [lia|exact C]. Qed.
Lemma consume_room : forall dbg b n b' m, room m b -> consume_bits dbg b n = Ok b' -> room m b'.
Proof.
  intros dbg b n b' m [L C] E. unfold consume_bits in E. binv E. binv E. inv E. split; [exact L|]. cbn [bi_count].
  unfold usub in E1. destruct (bi_count b <? n) eqn:Q; [destruct dbg; inv E1; unfold wrap; apply Z.mod_pos_bound; lia|inv E1; lia].
Qed.

(** ** Reading with enough input does not depend on what follows *)
Section Room.
  Variable s : list Z.
  (** [y] is the outcome [x] with [s] appended, and [m] bytes are left. *)
  Definition ux {A} (m : nat) (pr : A -> biter) (ex : A -> A) (x y : out A) : Prop :=
    y = bind x (fun a => Ok (ex a)) /\ forall a, x = Ok a -> room m (pr a).
  Lemma ux_bind : forall A B m m' pr (ex : A -> A) pr' (ex' : B -> B) x y k k',
    ux m pr ex x y -> (forall a, x = Ok a -> room m (pr a) -> ux m' pr' ex' (k a) (k' (ex a))) -> ux m' pr' ex' (bind x k) (bind y k').
  Proof.
    intros A B m m' pr ex pr' ex' x y k k' [-> R] K. destruct x as [a|e|p|]; cbn [bind]; try (split; [reflexivity|discriminate]). apply K; auto.
  Qed.
  Lemma ux_keep : forall A B m' pr' (ex' : B -> B) (x : out A) k k', (forall a, x = Ok a -> ux m' pr' ex' (k a) (k' a)) -> ux m' pr' ex' (bind x k) (bind x k').
  Proof. intros A B m' pr' ex' x k k' K. destruct x as [a|e|p|]; cbn [bind]; try (split; [reflexivity|discriminate]). apply K. reflexivity. Qed.
  Lemma ux_ok : forall A m pr (ex : A -> A) a, room m (pr a) -> ux m pr ex (Ok a) (Ok (ex a)).
  Proof. intros A m pr ex a R. split; [reflexivity|]. intros a' E. inv E. exact R. Qed.
  Lemma ux_bad : forall A m pr (ex : A -> A) x, (forall a, x <> Ok a) -> ux m pr ex x x.
  Proof. intros A m pr ex [a|e|p|] H; [congruence| | |]; (split; [reflexivity|discriminate]). Qed.
  Definition p2 {A} : A * biter -> biter := snd.
  Notation u2 m := (ux m p2 (fb s)).
  Definition p3 {A C} : A * biter * C -> biter := fun '(_, b, _) => b.
  Definition p4 {A C D} : A * biter * C * D -> biter := fun '(_, b, _, _) => b.

  Lemma ux_consume : forall A m m' (pr : A -> biter) ex dbg b n k k', room m b -> (forall b', room m b' -> ux m' pr ex (k b') (k' (ext s b'))) ->
    ux m' pr ex (bind (consume_bits dbg b n) k) (bind (consume_bits dbg (ext s b) n) k').
  Proof.
    intros A m m' pr ex dbg b n k k' R K. rewrite consume_ext. destruct (consume_bits dbg b n) as [b'|e|p|] eqn:E; cbn [bind]; try (split; [reflexivity|discriminate]).
    apply K. eapply consume_room; eauto.
  Qed.
  Lemma ensure_ux : forall m b, room (m + 16) b -> exists b', ensure16 b = (true, b') /\ ensure16 (ext s b) = (true, ext s b') /\ room m b'.
  Proof.
    intros m b H. unfold ensure16. cbn [bi_count ext]. destruct (bi_count b <? 16); [|exists b; splits; auto; apply (room_less m (m + 16)); [lia|exact H]].
    destruct (fill_room m b H) as [b' [F R]]. exists b'. splits; auto. apply fill_bits_ext. exact F.
  Qed.
  Lemma next_ux : forall dbg m b n, room (m + 16) b -> u2 m (next_bits dbg b n) (next_bits dbg (ext s b) n).
  Proof.
    intros dbg m b n H. unfold next_bits. cbn [bi_count ext].
    assert (R : forall b1, room m b1 -> u2 m (let* v := peek_bits dbg b1 n in let* b := consume_bits dbg b1 n in Ok (Some v, b))
       (let* v := peek_bits dbg (ext s b1) n in let* b := consume_bits dbg (ext s b1) n in Ok (Some v, b))).
    { intros b1 H1. rewrite peek_ext. apply ux_keep. intros v _. apply (ux_consume _ m); [exact H1|]. intros b' H2. exact (ux_ok _ m p2 (fb s) (Some v, b') H2). }
    destruct (bi_count b <? n); [|apply R; apply (room_less m (m + 16)); [lia|exact H]]. destruct (fill_room m b H) as [b' [F F']]. rewrite F, (fill_bits_ext s b b' F). apply R. exact F'.
  Qed.
  Lemma extend_ux : forall dbg m b n, room (m + 16) b -> u2 m (receive_extend dbg b n) (receive_extend dbg (ext s b) n).
  Proof.
    intros dbg m b n H. unfold receive_extend. eapply ux_bind; [apply next_ux; exact H|]. intros [[v|] b1] _ R; [exact (ux_ok _ m p2 (fb s) (Some (extend v n), b1) R)|exact (ux_ok _ m p2 (fb s) (None, b1) R)].
  Qed.
  Lemma search_ux : forall dbg m t bits n b i, room m b -> u2 m (search_code dbg t b bits n i) (search_code dbg t (ext s b) bits n i).
  Proof.
    intros dbg m t bits. induction n as [|n IH]; intros b i H; cbn [search_code]; [exact (ux_ok _ m p2 (fb s) (None, b) H)|].
    apply ux_keep. intros mc _. destruct (Z.shiftr bits (15 - i) <=? mc); [|apply IH; exact H]. apply (ux_consume _ m); [exact H|]. intros b' H'. apply ux_keep. intros vo _. apply ux_keep. intros v _. exact (ux_ok _ m p2 (fb s) (Some v, b') H').
  Qed.
  Lemma inner_ux : forall dbg m t b k, room m b -> u2 m (decode_inner dbg t b k) (decode_inner dbg t (ext s b) k).
  Proof.
    intros dbg m t b k H. unfold decode_inner. apply ux_keep. intros [value size] _. destruct (0 <? size).
    - apply (ux_consume _ m); [exact H|]. intros b' H'. exact (ux_ok _ m p2 (fb s) (Some value, b') H').
    - rewrite peek_ext. apply ux_keep. intros bits _. apply search_ux. exact H.
  Qed.
  Lemma table_ux : forall dbg m t b, room (m + 16) b -> u2 m (table_decode dbg t b) (table_decode dbg t (ext s b)).
  Proof.
    intros dbg m t b H. unfold table_decode. destruct (ensure_ux m b H) as [b' [-> [-> R]]]. rewrite peek_u8_ext. apply ux_keep. intros k _. apply inner_ux. exact R.
  Qed.
  Lemma fast_ux : forall dbg m t b, room (m + 16) b -> u2 m (decode_fast_ac dbg t b) (decode_fast_ac dbg t (ext s b)).
  Proof.
    intros dbg m t b H. unfold decode_fast_ac. destruct (ensure_ux m b H) as [b' [-> [-> R]]]. rewrite peek_u8_ext. apply ux_keep. intros k _. apply ux_keep. intros [value rs] _.
    destruct (negb (rs =? 0)).
    - cbv zeta. apply (ux_consume _ m); [exact R|]. intros b2 H2. exact (ux_ok _ m p2 (fb s) (AFast value (Z.shiftr rs 4), b2) H2).
    - eapply ux_bind; [apply inner_ux; exact R|]. intros [[v|] b2] _ H2; [exact (ux_ok _ m p2 (fb s) (ANormal v, b2) H2)|exact (ux_ok _ m p2 (fb s) (AErr, b2) H2)].
  Qed.
  Lemma ux_or_fail : forall A m e (x y : bitres A), u2 m x y -> u2 m (or_fail e x) (or_fail e y).
  Proof.
    intros A m e x y [-> R]. unfold or_fail. destruct x as [[[v|] b]|e'|p|]; cbn [bind fb]; try (split; [reflexivity|discriminate]).
    apply ux_ok. exact (R _ eq_refl).
  Qed.
  Lemma dc_ux : forall dbg m sc t coefs b pred, room (m + 32) b -> ux m p3 (f3 s) (decode_dc dbg sc t coefs b pred) (decode_dc dbg sc t coefs (ext s b) pred).
  Proof.
    intros dbg m sc t coefs b pred H. unfold decode_dc. destruct (s_start sc =? 0); [|exact (ux_ok _ m p3 (f3 s) (coefs, b, pred) (room_less m (m + 32) b ltac:(lia) H))].
    eapply ux_bind; [apply ux_or_fail, (table_ux dbg (m + 16)); replace (m + 16 + 16)%nat with (m + 32)%nat by lia; exact H|]. intros [value b1] _ H1. cbn [fb]. change (p2 (value, b1)) with b1 in H1.
    eapply (ux_bind _ _ m m p2 (fb s)).
    - destruct (value =? 0); [exact (ux_ok _ m p2 (fb s) (0, b1) (room_less m (m + 16) b1 ltac:(lia) H1))|]. destruct (11 <? value); [apply ux_bad; discriminate|]. apply ux_or_fail, extend_ux. exact H1.
    - intros [diff b2] _ H2. cbn [fb]. cbv zeta. apply ux_keep. intros c _. exact (ux_ok _ m p3 (f3 s) (c, b2, w16 (pred + diff)) H2).
  Qed.
  Lemma ac_ux : forall dbg m t low last fuel coefs b eob i, room (m + 32 * fuel) b -> ux m p3 (f3 s) (ac_loop dbg fuel t low last coefs b eob i) (ac_loop dbg fuel t low last coefs (ext s b) eob i).
  Proof.
    intros dbg m t low last. induction fuel as [|fuel IH]; intros coefs b eob i H; [apply ux_bad; discriminate|]. cbn [ac_loop]. cbv zeta.
    assert (Done : forall (c : list Z) b2 (e : Z), room (m + 32 * fuel) b2 -> ux m p3 (f3 s) (Ok (c, b2, e)) (Ok (c, ext s b2, e))).
    { intros c b2 e H2. exact (ux_ok _ m p3 (f3 s) (c, b2, e) (room_less m (m + 32 * fuel) b2 ltac:(lia) H2)). }
    assert (Put : forall value run b2, room (m + 32 * fuel) b2 ->
      ux m p3 (f3 s) (if i + run <=? last then let* coefs0 := unzigzag coefs (i + run) (shl16 value low) in
         if i + run + 1 <=? last then ac_loop dbg fuel t low last coefs0 b2 eob (i + run + 1) else Ok (coefs0, b2, eob) else Ok (coefs, b2, eob))
      (if i + run <=? last then let* coefs0 := unzigzag coefs (i + run) (shl16 value low) in
         if i + run + 1 <=? last then ac_loop dbg fuel t low last coefs0 (ext s b2) eob (i + run + 1) else Ok (coefs0, ext s b2, eob) else Ok (coefs, ext s b2, eob))).
    { intros value run b2 H2. destruct (i + run <=? last); [|apply Done; exact H2]. apply ux_keep. intros c _. destruct (i + run + 1 <=? last); [apply IH; exact H2|apply Done; exact H2]. }
    eapply ux_bind; [apply (fast_ux dbg (m + 32 * fuel + 16)); replace (m + 32 * fuel + 16 + 16)%nat with (m + 32 * Datatypes.S fuel)%nat by lia; exact H|]. intros [r b1] _ H1. cbn [fb]. change (p2 (r, b1)) with b1 in H1.
    pose proof (room_less (m + 32 * fuel) (m + 32 * fuel + 16) b1 ltac:(lia) H1) as H1'.
    destruct r as [value run|byte|]; [apply Put; exact H1'| |apply ux_bad; discriminate].
    destruct (Z.land byte 15 =? 0).
    - destruct (Z.shiftr byte 4 =? 15); [destruct (i + 16 <=? last); [apply IH; exact H1'|apply Done; exact H1']|].
      destruct (0 <? Z.shiftr byte 4); [|apply Done; exact H1']. eapply ux_bind; [apply ux_or_fail, (next_ux dbg (m + 32 * fuel)); exact H1|]. intros [v b2] _ H2. cbn [fb]. apply Done. exact H2.
    - eapply ux_bind; [apply ux_or_fail, (extend_ux dbg (m + 32 * fuel)); exact H1|]. intros [v b2] _ H2. cbn [fb]. apply Put. exact H2.
  Qed.
  Definition BLK : nat := 32 + 32 * 64.
  Lemma block_ux : forall dbg m sc dct act coefs b eob pred, room (m + BLK) b -> ux m p4 (f4 s) (decode_block dbg sc dct act coefs b eob pred) (decode_block dbg sc dct act coefs (ext s b) eob pred).
  Proof.
    intros dbg m sc dct act coefs b eob pred H. unfold decode_block.
    eapply ux_bind; [apply (dc_ux dbg (m + 32 * 64)); replace (m + 32 * 64 + 32)%nat with (m + BLK)%nat by (unfold BLK; clear; lia); exact H|]. intros [[c1 b1] p1] _ H1. cbn [f3]. change (p3 (c1, b1, p1)) with b1 in H1.
    pose proof (room_less m (m + 32 * 64) b1 ltac:(clear; lia) H1) as H1'.
    destruct (_ && _); [exact (ux_ok _ m p4 (f4 s) (c1, b1, eob - 1, p1) H1')|]. destruct (_ <? _); [|exact (ux_ok _ m p4 (f4 s) (c1, b1, eob, p1) H1')].
    eapply ux_bind; [apply ac_ux; exact H1|]. intros [[c2 b2] e2] _ H2. exact (ux_ok _ m p4 (f4 s) (c2, b2, e2, p1) H2).
  Qed.
  Lemma blocks_ux : forall dbg sc dct act n m b eob pred, room (m + n * BLK) b -> ux m p4 (f4 s) (decode_blocks dbg sc dct act n b eob pred) (decode_blocks dbg sc dct act n (ext s b) eob pred).
  Proof.
    intros dbg sc dct act. induction n as [|n IH]; intros m b eob pred H; cbn [decode_blocks].
    { exact (ux_ok _ m p4 (f4 s) ([], b, eob, pred) (room_less m (m + _) b ltac:(apply Nat.le_add_r) H)). }
    eapply ux_bind; [apply (block_ux dbg (m + n * BLK)); replace (m + n * BLK + BLK)%nat with (m + Datatypes.S n * BLK)%nat by lia; exact H|]. intros [[[c1 b1] e1] p1] _ H1. cbn [f4].
    eapply ux_bind; [apply IH; exact H1|]. intros [[[c2 b2] e2] p2'] _ H2. exact (ux_ok _ m p4 (f4 s) (c1 :: c2, b2, e2, p2') H2).
  Qed.
  Definition p4b {A C D} : A * C * biter * D -> biter := fun '(_, _, b, _) => b.
  Lemma comps_ux : forall dbg d sc cs hs ps avail m b eob, room (m + avail * BLK) b ->
    ux m p4b (fun '(x, y, b, e) => (x, y, ext s b, e)) (decode_comps dbg d sc cs hs ps avail b eob) (decode_comps dbg d sc cs hs ps avail (ext s b) eob).
  Proof.
    intros dbg d sc. induction cs as [|c cs IH]; intros hs ps avail m b eob H; cbn [decode_comps].
    { exact (ux_ok _ m p4b (fun '(x, y, b, e) => (x, y, ext s b, e)) ([], ps, b, eob) (room_less m (m + _) b ltac:(apply Nat.le_add_r) H)). }
    destruct hs as [|h hs]; [exact (ux_ok _ m p4b (fun '(x, y, b, e) => (x, y, ext s b, e)) ([], ps, b, eob) (room_less m (m + _) b ltac:(apply Nat.le_add_r) H))|].
    destruct ps as [|p ps]; [exact (ux_ok _ m p4b (fun '(x, y, b, e) => (x, y, ext s b, e)) ([], [], b, eob) (room_less m (m + _) b ltac:(apply Nat.le_add_r) H))|].
    do 4 (apply ux_keep; intros ? _). cbv zeta. set (n := Nat.min (Z.to_nat (c_blocks_per_mcu c)) avail).
    assert (N : (n <= avail)%nat) by (unfold n; lia). clearbody n.
    eapply ux_bind; [apply (blocks_ux dbg sc _ _ n (m + (avail - n) * BLK)); replace (m + (avail - n) * BLK + n * BLK)%nat with (m + avail * BLK)%nat by nia; exact H|]. intros [[[c1 b1] e1] p1] _ H1. cbn [f4].
    eapply ux_bind; [apply IH; exact H1|]. intros [[[c2 b2] e2] p2'] _ H2. exact (ux_ok _ m p4b (fun '(x, y, b, e) => (x, y, ext s b, e)) (c1 ++ c2, p1 :: b2, e2, p2') H2).
  Qed.
  Lemma row_ux : forall dbg d b, room (MAX_BLOCKS * BLK) b -> ux 0 p2 (fb s) (decode_row dbg d b) (decode_row dbg d (ext s b)).
  Proof.
    intros dbg d b H. unfold decode_row. destruct (d_scan d); [|apply ux_bad; discriminate]. destruct (d_frame d); [|apply ux_bad; discriminate]. cbv zeta.
    eapply ux_bind; [apply (comps_ux dbg d _ _ _ _ _ 0); exact H|]. intros [[[c2 b2] e2] p2'] _ H2. apply ux_ok. exact H2.
  Qed.
End Room.

(** ** A waiting step *)
Lemma scan_need_suffix : forall dbg rerun final todo ph d b d' b' todo' ph', scan_loop dbg rerun final todo ph d b = (d', b', ScNeed todo' ph') -> (length todo' <= length todo)%nat.
Proof.
  intros dbg rerun final. induction todo as [|[y x] rest IH]; intros ph d b d' b' todo' ph' E; [discriminate E|]. cbn [scan_loop] in E.
  destruct (match ph with PhRow => decode_row dbg d b | PhRestart => Ok (d, b) end) as [[d1 b1]|e|p|]; [|destruct e; inv E; auto|inv E|inv E].
  destruct (if (match ph with PhRow => true | PhRestart => rerun end) then restart_check dbg x y d1 else Ok (true, d1)) as [[need d2]|e|p|]; [|inv E|inv E|inv E].
  destruct (if need then restart_marker d2 b1 else Ok (d2, b1)) as [[d3 b3]|e|p|]; [|destruct e; inv E; auto|inv E|inv E].
  destruct (if final then dequantize dbg x y d3 else Ok d3) as [d4|e|p|]; [|inv E|inv E|inv E].
  apply IH in E. cbn [length]. lia.
Qed.
Lemma restart_marker_eof : forall d b, restart_marker d b = Fail EEof -> without_marker (bi_input b).
Proof.
  intros d b E. unfold restart_marker in E. destruct (parse_marker (bi_input b)) as [[m rest]|e|p|] eqn:Q; cbn [bind] in E.
  - destruct m; try discriminate E. unfold handle_restart in E. destruct (_ =? _); discriminate E.
  - inv E. apply parse_marker_eof. exact Q.
  - discriminate E.
  - discriminate E.
Qed.
(** A scan that waits where it already waited: the MCU asks for more, or no marker is there. *)
Lemma scan_waits : forall dbg rerun final todo ph d b, scan_loop dbg rerun final todo ph d b = (d, b, ScNeed todo ph) ->
  (ph = PhRow /\ todo <> [] /\ decode_row dbg d b = Fail EEof) \/ without_marker (bi_input b).
Proof.
  intros dbg rerun final todo ph d b E. destruct todo as [|[y x] rest]; [discriminate E|]. cbn [scan_loop] in E.
  destruct ph.
  - destruct (decode_row dbg d b) as [[d1 b1]|e|p|] eqn:R; [|destruct e; try discriminate E; left; splits; auto; discriminate|discriminate E|discriminate E].
    destruct (restart_check dbg x y d1) as [[need d2]|e|p|]; [|inv E|inv E|inv E].
    destruct (if need then restart_marker d2 b1 else Ok (d2, b1)) as [[d3 b3]|e|p|]; [|destruct e; inv E|inv E|inv E].
    destruct (if final then dequantize dbg x y d3 else Ok d3) as [d4|e|p|]; [|inv E|inv E|inv E].
    apply scan_need_suffix in E. cbn [length] in E. lia.
  - right. destruct (if rerun then restart_check dbg x y d else Ok (true, d)) as [[need d2]|e|p|]; [|inv E|inv E|inv E].
    destruct (if need then restart_marker d2 b else Ok (d2, b)) as [[d3 b3]|e|p|] eqn:M; [| |inv E|inv E].
    + destruct (if final then dequantize dbg x y d3 else Ok d3) as [d4|e|p|]; [|inv E|inv E|inv E].
      apply scan_need_suffix in E. cbn [length] in E. lia.
    + destruct e; try discriminate E. destruct need; [|discriminate M]. apply restart_marker_eof in M. exact M.
Qed.

Lemma step_need : forall dbg rerun rayon p d b d' b' p', dec_ok d -> good b -> pc_ok p d ->
  step dbg rerun rayon p d b = (d', b', SStop (RNeed p')) -> (measure p' b' <= measure p b)%nat.
Proof.
  intros dbg rerun rayon p d b d' b' p' K G P E. pose proof (step_inv dbg rerun rayon p d b K G P) as I. rewrite E in I. destruct I as [_ [_ [[pre Sf] _]]].
  destruct p as [|m|final todo ph]; cbn [step] in E.
  - destruct (parse_marker (bi_input b)) as [[m rest]|e|q|]; [|destruct e; inv E; auto|inv E|inv E].
    destruct m; try discriminate E. destruct (upsample_image dbg rayon d); inv E.
  - destruct (no_segment m); [discriminate E|]. destruct (segment_data dbg (bi_input b)) as [[data rest]|e|q|] eqn:S; [|destruct e; inv E; auto|inv E|inv E].
    destruct (segment_data_len dbg (bi_input b) data rest (proj2 G) S) as [a [c [pre' [Ei _]]]].
    assert (X : p' = PcSegment m /\ bi_input b' = rest).
    { destruct m; try (destruct (seg_payload _ _ _ _) as [d1 [u|e|q|]]; cbn [seg_end] in E; [inv E|destruct e; inv E; auto|inv E|inv E]).
      unfold do_sos in E. destruct (sos_segment (d_frame d) data) as [[sc r]|e|q|]; [|destruct e; inv E; auto|inv E|inv E].
      destruct (sos_begin dbg d sc) as [d1 [final|e|q|]]; try discriminate E. destruct (scan_init final d1); discriminate E. }
    destruct X as [-> Er]. unfold measure. rewrite Er, Ei. cbn [length]. rewrite app_length. lia.
  - destruct (scan_loop dbg rerun final todo ph d b) as [[d1 b1] [|todo' ph'|e|q|]]; try discriminate E; [destruct (scan_finish d1); discriminate E|].
    inv E. unfold measure. rewrite Sf, app_length. lia.
Qed.
Lemma run_need : forall dbg rerun rayon fuel p d b d' b' p', dec_ok d -> good b -> pc_ok p d ->
  run dbg rerun rayon fuel p d b = (d', b', RNeed p') -> (measure p' b' <= measure p b)%nat.
Proof.
  intros dbg rerun rayon. induction fuel as [|fuel IH]; intros p d b d' b' p' K G P E; [discriminate E|]. cbn [run] in E.
  pose proof (step_inv dbg rerun rayon p d b K G P) as I. destruct (step dbg rerun rayon p d b) as [[d1 b1] [p1|r]] eqn:S.
  - destruct I as [K1 [G1 [_ [P1 M]]]]. apply IH in E; auto. lia.
  - injection E as -> -> ->. apply (step_need dbg rerun rayon p d b d' b' p' K G P S).
Qed.
(** A run that waits where it started has waited in its first step. *)
Lemma run_waits : forall dbg rerun rayon fuel p d b, dec_ok d -> good b -> pc_ok p d ->
  run dbg rerun rayon fuel p d b = (d, b, RNeed p) -> step dbg rerun rayon p d b = (d, b, SStop (RNeed p)).
Proof.
  intros dbg rerun rayon fuel p d b K G P E. destruct fuel as [|fuel]; [discriminate E|]. cbn [run] in E.
  pose proof (step_inv dbg rerun rayon p d b K G P) as I. destruct (step dbg rerun rayon p d b) as [[d1 b1] [p1|r]] eqn:S.
  - destruct I as [K1 [G1 [_ [P1 M]]]]. apply run_need in E; auto. lia.
  - injection E as -> -> ->. reflexivity.
Qed.

Lemma segment_data_short : forall dbg i, bytes i -> segment_data dbg i = Fail EEof -> lenZ i <= 65536.
Proof.
  intros dbg i B E. unfold segment_data in E. destruct i as [|a [|c i]]; [cbn; lia|cbn; lia|]. cbn [p_u16 bind] in E. unbytes B.
  assert (U : forall n, usub dbg 16 (256 * a + c) 2 = Ok n -> n < 65536).
  { intros n U. unfold is_byte in *. unfold usub in U. destruct (256 * a + c <? 2) eqn:C; [destruct dbg; [discriminate|]; inv U; apply Z.mod_pos_bound; reflexivity|assert (n = 256 * a + c - 2) by congruence; lia]. }
  destruct (usub dbg 16 (256 * a + c) 2) as [n|e|p|] eqn:Us; cbn [bind] in E.
  - specialize (U n eq_refl). unfold p_take in E. destruct (n <=? lenZ i) eqn:Q; [discriminate E|]. unfold lenZ in *. cbn [length]. lia.
  - unfold usub in Us. destruct (_ <? _); [destruct dbg|]; discriminate.
  - discriminate.
  - discriminate.
Qed.

(** ** What a waiting decoder with many bytes waits for *)
Lemma step_stuck : forall dbg rerun rayon p d b, good b -> step dbg rerun rayon p d b = (d, b, SStop (RNeed p)) ->
  lenZ (bi_input b) <= 65536 \/ without_marker (bi_input b) \/ forall s, step dbg rerun rayon p d (ext s b) = (d, ext s b, SStop (RNeed p)).
Proof.
  intros dbg rerun rayon p d b G E. destruct p as [|m|final todo ph]; cbn [step] in E.
  - right. left. apply parse_marker_eof. destruct (parse_marker (bi_input b)) as [[m rest]|e|q|]; [|destruct e; inv E; auto|inv E|inv E].
    destruct m; try discriminate E. destruct (upsample_image dbg rayon d); inv E.
  - left. destruct (no_segment m); [discriminate E|]. destruct (segment_data dbg (bi_input b)) as [[data rest]|e|q|] eqn:S; [|destruct e; inv E; exact (segment_data_short dbg _ (proj2 G) S)|inv E|inv E].
    exfalso. destruct (segment_data_len dbg (bi_input b) data rest (proj2 G) S) as [a [c [pre' [Ei _]]]].
    assert (X : bi_input b = rest).
    { destruct m; try (destruct (seg_payload _ _ _ _) as [d1 [u|e|q|]]; cbn [seg_end] in E; [inv E|destruct e; inv E|inv E|inv E]; match goal with H : mkBiter _ _ _ = b |- _ => rewrite <- H; reflexivity end).
      unfold do_sos in E. destruct (sos_segment (d_frame d) data) as [[sc r]|e|q|]; [|destruct e; inv E; match goal with H : mkBiter _ _ _ = b |- _ => rewrite <- H; reflexivity end|inv E|inv E].
      destruct (sos_begin dbg d sc) as [d1 [final|e|q|]]; try discriminate E. destruct (scan_init final d1); discriminate E. }
    apply (f_equal (@length Z)) in Ei. rewrite X in Ei. cbn [length] in Ei. rewrite app_length in Ei. lia.
  - destruct (Z_le_gt_dec (lenZ (bi_input b)) 65536) as [L|L]; [left; exact L|right].
    destruct (scan_loop dbg rerun final todo ph d b) as [[d1 b1] [|todo' ph'|e|q|]] eqn:Sl; try discriminate E; [destruct (scan_finish d1); discriminate E|].
    injection E as -> -> -> ->. destruct (scan_waits _ _ _ _ _ _ _ Sl) as [[-> [Nt R]]|W]; [right|left; exact W].
    intros s. cbn [step]. destruct todo as [|[y x] rest]; [congruence|]. cbn [scan_loop].
    assert (Rm : room (MAX_BLOCKS * BLK) b) by (split; [unfold lenZ in L; unfold MAX_BLOCKS, BLK; clear - L; lia|destruct G as [[C0 _] _]; clear - C0; lia]).
    destruct (row_ux s dbg d b Rm) as [Ux _]. rewrite R in Ux. cbn [bind] in Ux. rewrite Ux. reflexivity.
Qed.

Lemma decode_stuck : forall dbg rerun rayon k buf, codec_ok k buf -> codec_decode dbg rerun rayon k buf = (k, buf, Ok None) ->
  lenZ buf <= 65536 \/ without_marker buf \/ forall s, codec_decode dbg rerun rayon k (buf ++ s) = (k, buf ++ s, Ok None).
Proof.
  intros dbg rerun rayon k buf OK E. destruct buf as [|x buf]; [left; cbn; lia|]. set (bf := x :: buf) in *.
  destruct k as [d p bits count]. unfold codec_decode in E. change (match bf with [] => _ | _ :: _ => ?y end) with y in E.
  destruct OK as [K [P G]]. cbn [k_dec k_pc k_bits k_count] in *.
  set (b0 := mkBiter bf bits count) in *.
  destruct (run dbg rerun rayon (run_fuel b0) p d b0) as [[d1 b1] r] eqn:R.
  assert (X : d1 = d /\ b1 = b0 /\ r = RNeed p).
  { destruct b1 as [i1 bt1 c1]. destruct r; cbn [bi_input bi_bits bi_count] in E; try discriminate E. injection E as -> -> -> -> ->. splits; reflexivity. }
  destruct X as [-> [-> ->]]. apply run_waits in R; auto. destruct (step_stuck dbg rerun rayon p d b0 G R) as [L|[L|L]]; [left; exact L|right; left; exact L|right; right].
  intros s. specialize (L s). unfold codec_decode. cbn [app bf k_dec k_pc k_bits k_count].
  change (mkBiter (x :: buf ++ s) bits count) with (ext s b0). set (b2 := ext s b0) in *.
  assert (Rr : run dbg rerun rayon (run_fuel b2) p d b2 = (d, b2, RNeed p)) by (unfold run_fuel; rewrite Nat.add_comm; cbn [run Nat.add]; rewrite L; reflexivity).
  rewrite Rr. reflexivity.
Qed.

(** ** Feeding *)
Lemma feed_ok : forall dbg rerun rayon chunks k buf k' buf', codec_ok k buf -> Forall bytes chunks ->
  codec_feed dbg rerun rayon k buf chunks = (k', buf', Ok None) -> codec_ok k' buf'.
Proof.
  intros dbg rerun rayon. induction chunks as [|c chunks IH]; intros k buf k' buf' OK By E; [inv E; exact OK|]. cbn [codec_feed] in E.
  inversion By as [|? ? Bc Bs]; subst. pose proof (codec_step_ok dbg rerun rayon k (buf ++ c) (codec_ok_more _ _ _ OK Bc)) as X.
  destruct (codec_decode dbg rerun rayon k (buf ++ c)) as [[k1 buf1] [[img|]|e|p|]]; try discriminate E. apply (IH k1 buf1); [apply X|exact Bs|exact E].
Qed.
Lemma stuck : forall dbg rerun rayon done k buf, Forall bytes done ->
  codec_feed dbg rerun rayon codec_new [] done = (k, buf, Ok None) -> codec_decode dbg rerun rayon k buf = (k, buf, Ok None) ->
  65536 < lenZ buf -> ~ without_marker buf -> forall more, codec_feed dbg rerun rayon k buf more = (k, buf ++ concat more, Ok None).
Proof.
  intros dbg rerun rayon done k buf By E I L W more.
  destruct (decode_stuck dbg rerun rayon k buf (feed_ok _ _ _ _ _ _ _ _ start_ok By E) I) as [X|[X|X]]; [lia|contradiction|].
  assert (G : forall more pre, codec_feed dbg rerun rayon k (buf ++ pre) more = (k, buf ++ pre ++ concat more, Ok None)).
  { clear more. induction more as [|c more IH]; intros pre; cbn [codec_feed concat]; [rewrite app_nil_r; reflexivity|]. rewrite <- app_assoc, X, IH, <- !app_assoc. reflexivity. }
  specialize (G more []). rewrite app_nil_r in G. exact G.
Qed.

(** Every call of an input that is answered in the end waits in its last step. *)
Lemma feed_settled : forall dbg rerun rayon W more, ~ is_need (snd W) -> forall chunks k buf k' buf',
  codec_ok k buf -> Forall bytes chunks -> waiting dbg rerun rayon k buf ->
  runs_to dbg rerun rayon (conf k (buf ++ concat chunks ++ more)) W ->
  uncut dbg rerun rayon (k_pc k) (k_dec k) (mkBiter (buf ++ concat chunks ++ more) (k_bits k) (k_count k)) ->
  (forall q e c, from dbg rerun rayon (conf k (buf ++ concat chunks ++ more)) (q, e, c) -> ~ has_eob_runs e) ->
  codec_feed dbg rerun rayon k buf chunks = (k', buf', Ok None) ->
  codec_ok k' buf' /\ waiting dbg rerun rayon k' buf' /\ runs_to dbg rerun rayon (conf k' (buf' ++ more)) W.
Proof.
  intros dbg rerun rayon W more NW. induction chunks as [|c chunks IH]; intros k buf k' buf' OK By WT RW U NE E.
  - inv E. splits; assumption.
  - cbn [concat] in RW, U, NE. inversion By as [|? ? Bc Bs]; subst. rewrite <- app_assoc in RW, U, NE. rewrite app_assoc in RW, U, NE.
    pose proof (codec_ok_more _ _ c OK Bc) as OK1. cbn [codec_feed] in E. destruct (buf ++ c) as [|x buf1] eqn:EB.
    + destruct (app_eq_nil _ _ EB) as [-> ->]. exact (IH k [] k' buf' OK Bs WT RW U NE E).
    + destruct (codec_call dbg rerun rayon k x buf1 OK1) as [d1 [b1 [r1 [_ [E1 [N CD]]]]]]. rewrite CD in E.
      destruct (call_ext (concat chunks ++ more) dbg rerun rayon W NW _ _ _ _ _ _ _ E1 N RW U) as [[H1 [q [e [c0 [H2 H3]]]]]|[[p' [H1 [H2 [H3 [H4 H5]]]]]|[H1 H2]]].
      * exfalso. exact (NE _ _ _ H2 H3).
      * subst r1. cbn [answer] in E, CD. set (k1 := mkCodec d1 p' (bi_bits b1) (bi_count b1)) in *.
        assert (OK2 : codec_ok k1 (bi_input b1)) by (pose proof (codec_step_ok dbg rerun rayon k (x :: buf1) OK1) as S; rewrite CD in S; apply S).
        assert (WT2 : waiting dbg rerun rayon k1 (bi_input b1)) by (unfold waiting; destruct b1; exact H4).
        assert (NE2 : forall q e c, from dbg rerun rayon (conf k1 (bi_input b1 ++ concat chunks ++ more)) (q, e, c) -> ~ has_eob_runs e).
        { intros q e c0 F HE. destruct (H5 q e c0 F) as [q0 [e0 [c1 [F0 K]]]]. apply (NE _ _ _ F0). eapply has_eob_kin; eauto. }
        exact (IH k1 (bi_input b1) k' buf' OK2 Bs WT2 H2 H3 NE2 E).
      * exfalso. destruct r1; cbn [answer] in E; try discriminate E. apply H1. exact I.
Qed.
Lemma bounded : forall dbg rerun rayon chunks done rest k buf, Forall bytes chunks ->
  no_eob_runs dbg rayon (concat chunks) -> rerun = false \/ no_restarts dbg rayon (concat chunks) ->
  snd (codec_decode dbg rerun rayon codec_new (concat chunks)) <> Ok None ->
  chunks = done ++ rest -> codec_feed dbg rerun rayon codec_new [] done = (k, buf, Ok None) ->
  lenZ buf <= 65536 \/ without_marker buf.
Proof.
  intros dbg rerun rayon chunks done rest k buf By NE NR A Ec E.
  assert (X : exists W, ~ is_need (snd W) /\ runs_to dbg rerun rayon (PcMarker, decoder_default, biter_new (concat chunks)) W).
  { pose proof (codec_ok_more codec_new [] (concat chunks) start_ok (bytes_concat _ By)) as OK. cbn [app] in OK. destruct (concat chunks) as [|x l]; [exfalso; apply A; reflexivity|].
    destruct (codec_call dbg rerun rayon codec_new x l OK) as [d [b [r [R [_ [_ CD]]]]]]. exists (d, b, r). split; [|exact R]. rewrite CD in A. cbn [snd] in A. intros H. apply A. destruct r; first [contradiction|reflexivity]. }
  destruct X as [W [NW RW]]. subst chunks. rewrite concat_app in RW, NE, NR. apply Forall_app in By. destruct By as [By1 By2].
  destruct (feed_settled dbg rerun rayon W (concat rest) NW done codec_new [] k buf start_ok By1 (start_waiting _ _ _)) as [OK [WT R2]].
  - exact RW.
  - apply uncut_start. exact NR.
  - apply no_eob_start. exact NE.
  - exact E.
  - destruct OK as [K [P G]]. destruct (step_stuck dbg rerun rayon _ _ _ G WT) as [L|[L|L]]; [left; exact L|right; exact L|exfalso].
    pose proof (runs_stop _ _ _ _ _ _ _ _ _ _ (L (concat rest)) R2) as H. rewrite H in NW. apply NW. exact I.
Qed.
Lemma bounded_files : forall dbg rerun rayon segs h fill1 fill2 ss ts qs data post fill3 s chunks done rest k buf,
  header_for segs h ss ts qs -> rst_only data -> post_ok post ->
  sequential_tables (segs ++ post) -> rerun = false \/ no_intervals (segs ++ post) ->
  let file := file_bytes segs fill1 fill2 (mkSpS ss 0 63 0 0) data post fill3 in
  decode_fresh dbg rayon file <> Fail EEof ->
  Forall bytes chunks -> concat chunks = file ++ s -> chunks = done ++ rest ->
  codec_feed dbg rerun rayon codec_new [] done = (k, buf, Ok None) ->
  lenZ buf <= 65536 \/ without_marker buf.
Proof.
  intros dbg rerun rayon segs h fill1 fill2 ss ts qs data post fill3 s chunks done rest k buf HF RO PO Sq Ni file NE By EC Ed E.
  pose proof (bytes_concat _ By) as B.
  destruct (any_data_calm dbg rerun rayon segs h fill1 fill2 ss ts qs data post fill3 s [concat chunks] HF RO PO Sq Ni ltac:(repeat constructor; exact B) ltac:(cbn [concat]; rewrite app_nil_r; exact EC)) as [[H _]|[_ [Gv PS]]]; [contradiction|].
  fold file in PS, Gv. rewrite <- EC in PS. apply (bounded dbg rerun rayon chunks done rest k buf By); [| | |exact Ed|exact E].
  - intros d0 Pd. apply tables_ok_sound. exact (proj1 (PS d0 Pd)).
  - destruct rerun eqn:Rr; [right|left; reflexivity]. intros d0 Pd. destruct (PS d0 Pd) as [_ [X|X]]; [discriminate|exact X].
  - destruct Gv as [dn [c [rs [k0 [buf0 [k1 [b1 [H1 [H2 [H3 _]]]]]]]]]]. destruct dn as [|x dn]; [|destruct dn; discriminate H1].
    injection H1 as <- <-. cbn [codec_feed] in H2. injection H2 as <- <-. cbn [app] in H3. rewrite H3. cbn [snd]. destruct (decode_fresh dbg rayon file); discriminate.
Qed.

(** ** Bytes in which no marker comes *)
Lemma junk_kept : forall dbg rerun rayon js, Forall (Forall (fun x => 0 <= x < 255)) js ->
  codec_feed dbg rerun rayon codec_new [] ([255; 216] :: js) = (codec_new, concat js, Ok None).
Proof.
  intros dbg rerun rayon js F. cbn [codec_feed app].
  assert (E : codec_decode dbg rerun rayon codec_new [255; 216] = (codec_new, [], Ok None)) by reflexivity. rewrite E. clear E.
  assert (G : forall js pre, Forall (fun x => 0 <= x < 255) pre -> Forall (Forall (fun x => 0 <= x < 255)) js -> codec_feed dbg rerun rayon codec_new pre js = (codec_new, pre ++ concat js, Ok None)).
  { clear js F. induction js as [|c js IH]; intros pre Fp F; cbn [codec_feed concat]; [rewrite app_nil_r; reflexivity|]. inversion F as [|? ? Fc Fs]; subst.
    assert (Fpc : Forall (fun x => 0 <= x < 255) (pre ++ c)) by (apply Forall_app; split; assumption).
    assert (NM : without_marker (pre ++ c)).
    { exists (pre ++ c), 0%nat. split; [|unfold FF; cbn; rewrite app_nil_r; reflexivity]. clear - Fpc. induction Fpc as [|x l H _ IH]; [constructor|]. apply nm_byte; [lia|exact IH]. }
    assert (E : codec_decode dbg rerun rayon codec_new (pre ++ c) = (codec_new, pre ++ c, Ok None)).
    { apply parse_marker_eof in NM. destruct (pre ++ c) as [|x l] eqn:Q; [reflexivity|]. unfold codec_decode, codec_new. cbn [k_bits k_count k_pc k_dec]. set (b := mkBiter (x :: l) 0 0).
      assert (R : run dbg rerun rayon (run_fuel b) PcMarker decoder_default b = (decoder_default, b, RNeed PcMarker)).
      { unfold run_fuel. rewrite Nat.add_comm. cbn [run Nat.add step]. change (bi_input b) with (x :: l). rewrite NM. reflexivity. }
      rewrite R. reflexivity. }
    rewrite E, (IH (pre ++ c) Fpc Fs), app_assoc. reflexivity. }
  apply (G js []); [constructor|exact F].
Qed.
