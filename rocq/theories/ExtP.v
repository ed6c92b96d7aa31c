(** What happens to a parse when bytes are appended to its input. *)
From Verif Require Import Base Tactics Biterator Huffman Marker Types Parsers Decode.

(** [ext s b]: the reader [b] with [s] appended to the bytes it has not consumed. *)
Definition ext (s : list Z) (b : biter) : biter := mkBiter (bi_input b ++ s) (bi_bits b) (bi_count b).

(** [er f x y]: [x] ran out of input, or [y] is [x] with its result mapped by [f]. *)
Definition er {A} (f : A -> A) (x y : out A) : Prop :=
  match x with
  | Ok a => y = Ok (f a)
  | Fail EEof | Fail EOutOfBits => True
  | Fail e => y = Fail e
  | Panic p => y = Panic p
  | UB => y = UB
  end.
(** The same for bit-level reads, where [None] means that the read failed. *)
Definition eb {A} (s : list Z) (x y : bitres A) : Prop :=
  match x with
  | Ok (Some v, b) => y = Ok (Some v, ext s b)
  | Ok (None, _) => True
  | _ => y = x
  end.

Lemma er_bind : forall A B (f : A -> A) (g : B -> B) x y k k',
  er f x y -> (forall a, x = Ok a -> er g (k a) (k' (f a))) -> er g (bind x k) (bind y k').
Proof.
  intros A B f g x y k k' E K. unfold er in E. destruct x as [a|e|p|].
  - rewrite E. apply K. reflexivity.
  - destruct e; try (rewrite E); cbn; auto.
  - rewrite E. reflexivity.
  - rewrite E. reflexivity.
Qed.
Lemma er_same : forall A (x : out A), er (fun a => a) x x.
Proof. intros A [a|[]|p|]; cbn; auto. Qed.
Lemma er_same_bind : forall A B (g : B -> B) (x : out A) k k',
  (forall a, x = Ok a -> er g (k a) (k' a)) -> er g (bind x k) (bind x k').
Proof. intros. eapply er_bind with (f := fun a => a); [apply er_same|auto]. Qed.
Lemma eb_same_bind : forall A B s (x : out A) (k k' : A -> bitres B),
  (forall e, x <> Fail e) -> (forall a, x = Ok a -> eb s (k a) (k' a)) -> eb s (bind x k) (bind x k').
Proof. intros A B s [a|e|p|] k k' N K; cbn; auto. Qed.
Lemma eb_bind : forall A B s (x y : bitres A) (k k' : option A * biter -> bitres B),
  eb s x y -> (forall v b, x = Ok (Some v, b) -> eb s (k (Some v, b)) (k' (Some v, ext s b))) ->
  (forall b, match k (None, b) with Ok (None, _) => True | _ => False end) -> eb s (bind x k) (bind y k').
Proof.
  intros A B s x y k k' E K N. unfold eb in E. destruct x as [[[v|] b]|e|p|].
  - rewrite E. apply K. reflexivity.
  - cbn [bind]. specialize (N b). unfold eb. destruct (k (None, b)) as [[[w|] b']|e|p|]; auto; contradiction.
  - rewrite E. cbn. auto.
  - rewrite E. cbn. auto.
  - rewrite E. cbn. auto.
Qed.
Lemma er_or_fail : forall A s e (x y : bitres A), e = EEof \/ e = EOutOfBits -> eb s x y ->
  er (fun '(v, b) => (v, ext s b)) (or_fail e x) (or_fail e y).
Proof.
  intros A s e x y He E. unfold or_fail, eb in *. destruct x as [[[v|] b]|e'|p|]; cbn [bind].
  - rewrite E. cbn. reflexivity.
  - destruct He; subst; cbn; auto.
  - rewrite E. destruct e'; cbn; auto.
  - rewrite E. cbn. auto.
  - rewrite E. cbn. auto.
Qed.

(** ** Bits *)
Lemma skip_bytes_ext : forall n i i' s, skip_bytes n i = Some i' -> skip_bytes n (i ++ s) = Some (i' ++ s).
Proof.
  induction n as [|n IH]; intros i i' s E; cbn [skip_bytes] in *; [congruence|].
  destruct i as [|x i]; [discriminate|]. cbn [app]. apply IH. exact E.
Qed.
Lemma fill_loop_ext : forall s cpi cpc input bits count b', fill_loop cpi cpc input bits count = (true, b') ->
  fill_loop (cpi ++ s) cpc (input ++ s) bits count = (true, ext s b').
Proof.
  intros s cpi cpc input. induction input as [input IH] using (well_founded_induction (Wf_nat.well_founded_ltof _ (@length Z))).
  unfold Wf_nat.ltof in IH. intros bits count b' E. destruct input as [|x rest].
  - cbn [fill_loop] in E. destruct (count <=? 56) eqn:L; [discriminate|]. inv E. cbn [app].
    destruct s as [|y s]; cbn [fill_loop]; rewrite L; reflexivity.
  - cbn [app fill_loop] in *. destruct (count <=? 56) eqn:L; [|inv E; reflexivity].
    destruct (x =? 255) eqn:X.
    + destruct rest as [|y rest]; [discriminate|]. cbn [app]. destruct (y =? 0) eqn:Y.
      * apply IH; [cbn [length]; lia|exact E].
      * destruct (skip_bytes (reskip cpc (count + 8)) cpi) as [i'|] eqn:K; [|discriminate].
        rewrite (skip_bytes_ext _ _ _ s K). destruct (pad_zeros 8 (clear_low_byte (push_byte bits x)) (count + 8)). inv E. reflexivity.
    + apply IH; [cbn [length]; lia|exact E].
Qed.
Lemma fill_bits_ext : forall s b b', fill_bits b = (true, b') -> fill_bits (ext s b) = (true, ext s b').
Proof. intros s b b' E. unfold fill_bits in *. apply fill_loop_ext. exact E. Qed.

Lemma consume_ext : forall s dbg b n, consume_bits dbg (ext s b) n = (let* b' := consume_bits dbg b n in Ok (ext s b')).
Proof. intros. unfold consume_bits. cbn [bi_count bi_input bi_bits ext]. destruct (debug_assert dbg (n <=? bi_count b)); cbn; auto. destruct (usub dbg 8 (bi_count b) n); reflexivity. Qed.
Lemma peek_ext : forall s dbg b n, peek_bits dbg (ext s b) n = peek_bits dbg b n.
Proof. reflexivity. Qed.
Lemma peek_u8_ext : forall s dbg b n, peek_bits_u8 dbg (ext s b) n = peek_bits_u8 dbg b n.
Proof. reflexivity. Qed.

Lemma assert_no_fail : forall c p e, assert_ c p <> Fail e.
Proof. intros [|] p e; discriminate. Qed.
Lemma usub_no_fail : forall dbg n a b e, usub dbg n a b <> Fail e.
Proof. intros. unfold usub. destruct (a <? b), dbg; discriminate. Qed.
Lemma index_no_fail : forall A (l : list A) i e, index l i <> Fail e.
Proof. intros. unfold index. destruct (i <? 0); [discriminate|]. destruct (nth_error l (Z.to_nat i)); discriminate. Qed.
Lemma bind_no_fail : forall A B (x : out A) (k : A -> out B), (forall e, x <> Fail e) -> (forall a e, k a <> Fail e) -> forall e, bind x k <> Fail e.
Proof. intros A B [a|e|p|] k N K e'; cbn [bind]; [apply K| |discriminate|discriminate]. intros _. exact (N e eq_refl). Qed.
Lemma debug_no_fail : forall dbg c e, debug_assert dbg c <> Fail e.
Proof. intros [|] c e; [apply assert_no_fail|discriminate]. Qed.
Lemma peek_raw_no_fail : forall dbg b n e, peek_raw dbg b n <> Fail e.
Proof.
  intros. unfold peek_raw. apply bind_no_fail; [apply debug_no_fail|]. intros _. apply bind_no_fail; [apply usub_no_fail|].
  intros sh. apply bind_no_fail; [|discriminate]. intros e0. destruct (64 <=? sh), dbg; discriminate.
Qed.
Lemma peek_no_fail : forall dbg b n e, peek_bits dbg b n <> Fail e.
Proof. intros. unfold peek_bits. apply bind_no_fail; [apply peek_raw_no_fail|discriminate]. Qed.
Lemma peek_u8_no_fail : forall dbg b n e, peek_bits_u8 dbg b n <> Fail e.
Proof. intros. unfold peek_bits_u8. apply bind_no_fail; [apply debug_no_fail|]. intros _. apply bind_no_fail; [apply peek_raw_no_fail|discriminate]. Qed.
Lemma consume_no_fail : forall dbg b n e, consume_bits dbg b n <> Fail e.
Proof. intros. unfold consume_bits. apply bind_no_fail; [apply debug_no_fail|]. intros _. apply bind_no_fail; [apply usub_no_fail|discriminate]. Qed.

Lemma eb_consume : forall A s dbg b n (k k' : biter -> bitres A), (forall b', eb s (k b') (k' (ext s b'))) ->
  eb s (bind (consume_bits dbg b n) k) (bind (consume_bits dbg (ext s b) n) k').
Proof.
  intros A s dbg b n k k' K. rewrite consume_ext. pose proof (consume_no_fail dbg b n) as N.
  destruct (consume_bits dbg b n) as [b'|e|p|]; cbn [bind]; auto; try (exfalso; eapply N; reflexivity); cbn; reflexivity.
Qed.

Lemma next_bits_ext : forall s dbg b n, eb s (next_bits dbg b n) (next_bits dbg (ext s b) n).
Proof.
  intros. unfold next_bits. cbn [bi_count ext].
  assert (R : forall b1, eb s (let* v := peek_bits dbg b1 n in let* b := consume_bits dbg b1 n in Ok (Some v, b))
     (let* v := peek_bits dbg (ext s b1) n in let* b := consume_bits dbg (ext s b1) n in Ok (Some v, b))).
  { intros b1. rewrite peek_ext. apply eb_same_bind; [apply peek_no_fail|]. intros v _. apply eb_consume. intros b'. reflexivity. }
  destruct (bi_count b <? n) eqn:L; [|apply R].
  destruct (fill_bits b) as [[|] b1] eqn:F; [|exact I]. fold (ext s b). rewrite (fill_bits_ext s b b1 F). apply R.
Qed.
Lemma receive_extend_ext : forall s dbg b n, eb s (receive_extend dbg b n) (receive_extend dbg (ext s b) n).
Proof.
  intros. unfold receive_extend. eapply eb_bind; [apply next_bits_ext| |]; cbn; auto.
Qed.

(** ** Huffman codes *)
Lemma search_code_ext : forall s dbg t bits n b i, eb s (search_code dbg t b bits n i) (search_code dbg t (ext s b) bits n i).
Proof.
  intros s dbg t bits. induction n as [|n IH]; intros b i; cbn [search_code]; [exact I|].
  apply eb_same_bind; [apply index_no_fail|]. intros mc _. destruct (Z.shiftr bits (15 - i) <=? mc); [|apply IH].
  apply eb_consume. intros b'. apply eb_same_bind; [apply index_no_fail|]. intros vo _. apply eb_same_bind; [apply index_no_fail|].
  intros v _. reflexivity.
Qed.
Lemma decode_inner_ext : forall s dbg t b k, eb s (decode_inner dbg t b k) (decode_inner dbg t (ext s b) k).
Proof.
  intros. unfold decode_inner. apply eb_same_bind; [apply index_no_fail|]. intros [value size] _. destruct (0 <? size).
  - apply eb_consume. intros b'. reflexivity.
  - rewrite peek_ext. apply eb_same_bind; [apply peek_no_fail|]. intros bits _. apply search_code_ext.
Qed.
Lemma ensure16_ext : forall s b b', ensure16 b = (true, b') -> ensure16 (ext s b) = (true, ext s b').
Proof.
  intros s b b' E. unfold ensure16 in *. cbn [bi_count ext]. destruct (bi_count b <? 16); [apply fill_bits_ext; exact E|]. inv E. reflexivity.
Qed.
Lemma table_decode_ext : forall s dbg t b, eb s (table_decode dbg t b) (table_decode dbg t (ext s b)).
Proof.
  intros. unfold table_decode. destruct (ensure16 b) as [[|] b1] eqn:F; [|exact I]. rewrite (ensure16_ext s b b1 F).
  rewrite peek_u8_ext. apply eb_same_bind; [apply peek_u8_no_fail|]. intros k _. apply decode_inner_ext.
Qed.

(** [None] for a failed read. *)
Definition ac_rel (s : list Z) (x y : out (ac_result * biter)) : Prop :=
  match x with
  | Ok (AErr, _) => True
  | Ok (r, b) => y = Ok (r, ext s b)
  | _ => y = x
  end.
Lemma decode_fast_ac_ext : forall s dbg t b, ac_rel s (decode_fast_ac dbg t b) (decode_fast_ac dbg t (ext s b)).
Proof.
  intros. unfold decode_fast_ac. destruct (ensure16 b) as [[|] b1] eqn:F; [|exact I]. rewrite (ensure16_ext s b b1 F).
  rewrite peek_u8_ext. pose proof (peek_u8_no_fail dbg b1 LUT_BITS) as N.
  destruct (peek_bits_u8 dbg b1 LUT_BITS) as [k|e|p|]; cbn [bind ac_rel]; auto.
  destruct (index (ac_lut t) k) as [[value rs]|e|p|]; cbn [bind ac_rel]; auto.
  destruct (negb (rs =? 0)).
  - rewrite consume_ext. pose proof (consume_no_fail dbg b1 (Z.land rs 15)) as M.
    destruct (consume_bits dbg b1 (Z.land rs 15)) as [b'|e|p|]; cbn; auto.
  - pose proof (decode_inner_ext s dbg (ac_table_base t) b1 k) as D. unfold eb in D.
    destruct (decode_inner dbg (ac_table_base t) b1 k) as [[[v|] b']|e|p|]; rewrite ?D; cbn; auto.
Qed.

(** ** Blocks and MCUs *)
Definition f3 {A C} (s : list Z) : A * biter * C -> A * biter * C := fun '(a, b, c) => (a, ext s b, c).
Definition f4 {A C D} (s : list Z) : A * biter * C * D -> A * biter * C * D := fun '(a, b, c, d) => (a, ext s b, c, d).

Lemma decode_dc_ext : forall s dbg sc t coefs b pred,
  er (f3 s) (decode_dc dbg sc t coefs b pred) (decode_dc dbg sc t coefs (ext s b) pred).
Proof.
  intros. unfold decode_dc. destruct (s_start sc =? 0); [|reflexivity].
  eapply er_bind; [apply er_or_fail; [auto|apply table_decode_ext]|]. intros [value b1] _. cbn beta iota.
  eapply er_bind with (f := fun '(v, b) => (v, ext s b)).
  - destruct (value =? 0); [reflexivity|]. destruct (11 <? value); [reflexivity|]. apply er_or_fail; [auto|apply receive_extend_ext].
  - intros [diff b2] _. cbn beta iota zeta. apply er_same_bind. intros c _. reflexivity.
Qed.

Lemma ac_loop_ext : forall s dbg t low last fuel coefs b eob i,
  er (f3 s) (ac_loop dbg fuel t low last coefs b eob i) (ac_loop dbg fuel t low last coefs (ext s b) eob i).
Proof.
  intros s dbg t low last. induction fuel as [|fuel IH]; intros coefs b eob i; [reflexivity|]. cbn [ac_loop]. cbv zeta.
  assert (P : forall value run b1,
    er (f3 s)
      (if i + run <=? last then
         let* coefs0 := unzigzag coefs (i + run) (shl16 value low) in
         if i + run + 1 <=? last then ac_loop dbg fuel t low last coefs0 b1 eob (i + run + 1) else Ok (coefs0, b1, eob)
       else Ok (coefs, b1, eob))
      (if i + run <=? last then
         let* coefs0 := unzigzag coefs (i + run) (shl16 value low) in
         if i + run + 1 <=? last then ac_loop dbg fuel t low last coefs0 (ext s b1) eob (i + run + 1) else Ok (coefs0, ext s b1, eob)
       else Ok (coefs, ext s b1, eob))).
  { intros value run b1. destruct (i + run <=? last); [|reflexivity]. apply er_same_bind. intros c _.
    destruct (i + run + 1 <=? last); [apply IH|reflexivity]. }
  pose proof (decode_fast_ac_ext s dbg t b) as D. unfold ac_rel in D.
  destruct (decode_fast_ac dbg t b) as [[[value run|byte|] b1]|e|p|]; rewrite ?D; cbn [bind]; [| | | | |].
  - apply P.
  - destruct (Z.land byte 15 =? 0).
    + destruct (Z.shiftr byte 4 =? 15).
      * destruct (i + 16 <=? last); [apply IH|reflexivity].
      * destruct (0 <? Z.shiftr byte 4); [|reflexivity].
        eapply er_bind; [apply er_or_fail; [auto|apply next_bits_ext]|]. intros [v b2] _. reflexivity.
    + eapply er_bind; [apply er_or_fail; [auto|apply receive_extend_ext]|]. intros [v b2] _. apply P.
  - exact I.
  - destruct e; cbn; auto.
  - reflexivity.
  - reflexivity.
Qed.

Lemma decode_block_ext : forall s dbg sc dct act coefs b eob pred,
  er (f4 s) (decode_block dbg sc dct act coefs b eob pred) (decode_block dbg sc dct act coefs (ext s b) eob pred).
Proof.
  intros. unfold decode_block. eapply er_bind; [apply decode_dc_ext|]. intros [[c b1] p] _. cbn beta iota zeta delta [f3].
  destruct ((Z.max (s_start sc) 1 <=? Z.min (s_end sc) 63) && (0 <? eob)); [reflexivity|].
  destruct (Z.max (s_start sc) 1 <? Z.min (s_end sc) 63); [|reflexivity].
  eapply er_bind; [apply ac_loop_ext|]. intros [[c2 b2] e2] _. reflexivity.
Qed.
Lemma decode_blocks_ext : forall s dbg sc dct act n b eob pred,
  er (f4 s) (decode_blocks dbg sc dct act n b eob pred) (decode_blocks dbg sc dct act n (ext s b) eob pred).
Proof.
  intros s dbg sc dct act. induction n as [|n IH]; intros b eob pred; [reflexivity|]. cbn [decode_blocks].
  eapply er_bind; [apply decode_block_ext|]. intros [[[c b1] e1] p1] _. cbn beta iota delta [f4].
  eapply er_bind; [apply IH|]. intros [[[cs b2] e2] p2] _. reflexivity.
Qed.
Definition fc {A B C} (s : list Z) : A * B * biter * C -> A * B * biter * C := fun '(x, y, b, e) => (x, y, ext s b, e).
Lemma decode_comps_ext : forall s dbg d sc cs hs ps avail b eob,
  er (fc s) (decode_comps dbg d sc cs hs ps avail b eob) (decode_comps dbg d sc cs hs ps avail (ext s b) eob).
Proof.
  intros s dbg d sc. induction cs as [|c cs IH]; intros hs ps avail b eob; [reflexivity|].
  destruct hs as [|h hs]; [reflexivity|]. destruct ps as [|p ps]; [reflexivity|]. cbn [decode_comps].
  do 4 (apply er_same_bind; intros ? _).
  eapply er_bind; [apply decode_blocks_ext|]. intros [[[blocks b1] e1] p1] _. cbn beta iota delta [f4].
  eapply er_bind; [apply IH|]. intros [[[rest qs] b2] e2] _. reflexivity.
Qed.
Definition fd (s : list Z) : decoder * biter -> decoder * biter := fun '(d, b) => (d, ext s b).
Lemma decode_row_ext : forall s dbg d b, er (fd s) (decode_row dbg d b) (decode_row dbg d (ext s b)).
Proof.
  intros. unfold decode_row. destruct (d_scan d) as [sc|]; [|reflexivity]. destruct (d_frame d) as [fr|]; [|reflexivity]. cbv zeta.
  eapply er_bind; [apply decode_comps_ext|]. intros [[[blocks ps] b1] e1] _. reflexivity.
Qed.

(** ** Markers and segments *)
Definition fr {A} (s : list Z) : A * list Z -> A * list Z := fun '(a, i) => (a, i ++ s).
Lemma marker_ext : forall s i seen, er (fr s) (marker_scan seen i) (marker_scan seen (i ++ s)).
Proof.
  intros s. induction i as [|x i IH]; intros seen; [exact I|]. cbn [marker_scan app]. destruct (x =? 255); [apply IH|].
  destruct seen; [|apply IH]. destruct (x =? 0); [apply IH|]. destruct (marker_of_byte x); reflexivity.
Qed.
Lemma parse_marker_ext : forall s i, er (fr s) (parse_marker i) (parse_marker (i ++ s)).
Proof. intros. apply marker_ext. Qed.
Lemma restart_marker_ext : forall s d b, er (fd s) (restart_marker d b) (restart_marker d (ext s b)).
Proof.
  intros. unfold restart_marker. cbn [bi_input bi_bits bi_count ext]. eapply er_bind; [apply parse_marker_ext|].
  intros [m rest] _. cbn beta iota delta [fr]. unfold handle_restart. destruct m; try reflexivity. destruct (n =? ss_rst (d_ss d)); reflexivity.
Qed.
Lemma segment_data_ext : forall s dbg i, er (fr s) (segment_data dbg i) (segment_data dbg (i ++ s)).
Proof.
  intros. unfold segment_data. eapply er_bind with (f := fr s).
  - unfold p_u16. destruct i as [|a [|b i]]; reflexivity || exact I.
  - intros [len i'] _. cbn beta iota delta [fr]. apply er_same_bind. intros n _. unfold p_take. rewrite lenZ_app.
    destruct (n <=? lenZ i') eqn:L; [|exact I]. pose proof (lenZ_nonneg _ s). replace (n <=? lenZ i' + lenZ s) with true by lia.
    cbn [fr er]. f_equal. assert (N : (Z.to_nat n - length i' = 0)%nat) by (unfold lenZ in L; lia).
    rewrite firstn_app, skipn_app, N. cbn [firstn skipn]. rewrite app_nil_r. reflexivity.
Qed.
