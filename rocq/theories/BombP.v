(** A file of fixed size for an image of every size (C59). *)
From Verif Require Import Base Tactics SpecBits SpecReader SpecMarker SpecHuffman SpecBlock SpecTables SpecFrame SpecSegments SpecScan SpecPlane SpecUpsample SpecImage SpecColor SpecFile SpecAnswer Types Parsers Huffman SpecStream Biterator Marker Idct IdctP Color Samples RestartP PlacedP EncodeP FileP Decode AnswerP3.

(** Tables in which the code 0 stands for a zero DC difference and for end of block. *)
Definition z_dc : dht_spec := mkDht DC 0 (1 :: repeat 0 15) [0].
Definition z_ac : dht_spec := mkDht AC 0 (1 :: repeat 0 15) [0].
Definition z_ts : tables := mkTables (th_counts z_dc) (th_values z_dc) (th_counts z_ac) (th_values z_ac).
Definition z_q : list Z := repeat 1 64.
Definition z_cs : list comp_spec := [mkCS 1 1 1 0; mkCS 2 1 1 0; mkCS 3 1 1 0].
Definition z_ss : list scan_comp := [mkSC 1 0 0; mkSC 2 0 0; mkSC 3 0 0].
Definition z_segs (lines samples : Z) : list (nat * hseg) :=
  [(0%nat, HDqt [mkDqt 0 0 z_q]); (0%nat, HSof (mkFH 0 8 lines samples z_cs)); (0%nat, HDht [z_dc; z_ac])].
(** No scan data at all. *)
Definition z_file (lines samples : Z) : list Z := file_bytes (z_segs lines samples) 0 0 (mkSpS z_ss 0 63 0 0) [] [] 0.
Definition z_block : qblock := mkQ 0 (repeat 0 63).
Definition z_mcu : mcu := [[z_block]; [z_block]; [z_block]].

Lemma z_comp : comp_bits z_ts 0 [z_block] [false; false] 0.
Proof.
  change [false; false] with (([false] ++ [false]) ++ []). apply (cb_cons _ _ _ _ 0 _ [] 0); [reflexivity| | |constructor].
  - split; [cbn; lia|]. split; [reflexivity|]. cbn [b_ac z_block q_ac]. apply Forall_forall. intros v I. apply repeat_spec in I. subst. cbn. lia.
  - exists [false], [false]. split; [reflexivity|]. split.
    + change [false] with ([false] ++ [] ++ []). apply (coded_cons _ _ 0%nat); [reflexivity|reflexivity|constructor].
    + change (ac_symbols 0 (b_ac (mkBlock 0 (q_ac z_block)))) with [(0, @nil bool)]. change [false] with ([false] ++ [] ++ []).
      apply (coded_cons _ _ 0%nat); [reflexivity|reflexivity|constructor].
Qed.
Lemma z_mcus : forall n, mcus_bits [z_ts; z_ts; z_ts] [0; 0; 0] (repeat z_mcu n) (repeat false (6 * n)).
Proof.
  induction n as [|n IH]; [constructor|]. replace (6 * S n)%nat with (6 + 6 * n)%nat by lia. rewrite repeat_app.
  cbn [repeat]. apply (msb_cons _ _ _ _ _ _ [0; 0; 0]); [|exact IH].
  change (false :: false :: false :: false :: false :: [false]) with ([false; false] ++ [false; false] ++ [false; false] ++ []).
  do 3 (apply mb_cons; [apply z_comp|]). constructor.
Qed.

Lemma z_encodes : forall lines samples, 0 < lines < 65536 -> 0 < samples < 65536 ->
  encodes (z_segs lines samples) (mkFH 0 8 lines samples z_cs) z_ss [z_ts; z_ts; z_ts] [z_q; z_q; z_q]
    (repeat z_mcu (Z.to_nat (mcus lines 1 * mcus samples 1))) [].
Proof.
  intros lines samples Hl Hs.
  assert (HO : header_ok lines samples z_cs) by (constructor; try lia; try discriminate; repeat constructor; cbn; lia).
  assert (CC : forall c s, In c z_cs -> sc_id s = cs_id c -> sc_dc s = 0 -> sc_ac s = 0 -> comp_coding (z_segs lines samples) c s z_ts z_q).
  { intros c s I E1 E2 E3. assert (T : cs_tq c = 0) by (destruct I as [<-|[<-|[<-|[]]]]; reflexivity). constructor; rewrite ?E2, ?E3, ?T; auto; try lia.
    - exists z_dc. split; [reflexivity|split; reflexivity].
    - exists z_ac. split; [reflexivity|split; reflexivity].
    - exists (mkDqt 0 0 z_q). split; reflexivity. }
  constructor.
  - repeat first [apply Forall_nil | apply Forall_cons]; cbn [snd]; split; try (cbn; lia).
    + apply Forall_cons; [|apply Forall_nil]. split; [cbn; lia|]. split; [cbn; lia|]. split; [reflexivity|].
      cbn [tq_values z_q]. apply Forall_forall. intros v I. apply repeat_spec in I. subst. cbn. unfold is_byte. lia.
    + split; [cbn; lia|exact HO].
    + assert (B : Forall is_byte (1 :: repeat 0 15)) by (cbn [repeat]; repeat first [apply Forall_nil | apply Forall_cons]; unfold is_byte; lia).
      repeat first [apply Forall_nil | apply Forall_cons]; (split; [cbn; lia|]; split; [split; [reflexivity|exact B]|]; split; [repeat first [apply Forall_nil | apply Forall_cons]; unfold is_byte; lia|]; split; [reflexivity|]; split; [cbn; lia|vm_compute; discriminate]).
  - reflexivity.
  - cbn. repeat constructor; cbn; intuition discriminate.
  - cbn. lia.
  - cbn. lia.
  - do 3 (apply ccs_cons; [apply CC; cbn; tauto|]). apply ccs_nil.
  - apply Forall_forall. intros m I. apply repeat_spec in I. subst m. unfold mcu_shape, z_mcu, z_cs. cbn [fh_comps]. repeat constructor.
  - cbn [fh_lines fh_samples fh_comps]. unfold lenZ. rewrite repeat_length. change (largest (map cs_v z_cs)) with 1. change (largest (map cs_h z_cs)) with 1.
    rewrite Z2Nat.id; [reflexivity|]. unfold mcus, ceil_div. apply Z.mul_nonneg_nonneg; apply Z.div_pos; lia.
  - change (last (dris (z_segs lines samples)) 0) with 0. apply sd_last; [left; reflexivity|].
    eexists [], _. split; [constructor|]. split; [reflexivity|]. split; [right; split; [constructor|eexists; reflexivity]|]. apply z_mcus.
Qed.

Lemma z_len : forall lines samples, length (z_file lines samples) = 146%nat.
Proof. intros. reflexivity. Qed.

Lemma small_file : forall dbg rayon lines samples, 0 < lines < 65536 -> 0 < samples < 65536 ->
  exists input img, bytes input /\ length input = 146%nat /\ decode_fresh dbg rayon input = Ok img /\ lenZ img = 3 * lines * samples.
Proof.
  intros dbg rayon lines samples Hl Hs. pose proof (z_encodes lines samples Hl Hs) as En.
  assert (B : bytes (z_file lines samples)).
  { assert (X : forall n, 0 < n < 65536 -> bytes (be16 n)).
    { intros n Hn. unfold be16. pose proof (Z.mod_pos_bound n 256 ltac:(lia)). assert (0 <= n / 256 < 256) by (split; [apply Z.div_pos; lia|apply Z.div_lt_upper_bound; lia]).
      repeat first [apply Forall_nil | apply Forall_cons]; unfold is_byte; lia. }
    set (ol := be16 lines). set (os := be16 samples).
    assert (E : z_file lines samples = firstn 76 (z_file 1 1) ++ ol ++ os ++ skipn 80 (z_file 1 1)) by reflexivity.
    rewrite E. unfold bytes. rewrite !Forall_app. split; [|split; [apply X; exact Hl|split; [apply X; exact Hs|]]].
    - vm_compute firstn. repeat first [apply Forall_nil | apply Forall_cons]; unfold is_byte; lia.
    - vm_compute skipn. repeat first [apply Forall_nil | apply Forall_cons]; unfold is_byte; lia. }
  destruct (file_ycbcr dbg rayon _ _ 0 0 _ _ _ _ _ [] 0 (mkCS 1 1 1 0) (mkCS 2 1 1 0) (mkCS 3 1 1 0) En eq_refl) as [q0 [q1 [q2 [p0 [p1 [p2 [img [_ [_ [_ [_ [E [L _]]]]]]]]]]]]]; cbn [fh_lines fh_samples fh_comps]; try lia.
  - unfold z_cs. repeat constructor.
  - assert (R : forall n, ratio n 1 1 = 1) by (intros n; unfold ratio; destruct (n =? 1); reflexivity).
    unfold z_cs, width_works, h_ratio, v_ratio. cbn [map largest fold_right cs_h cs_v].
    repeat first [apply Forall_nil | apply Forall_cons]; split; cbn [cs_h cs_v]; change (Z.max 1 (Z.max 1 (Z.max 1 0))) with 1; rewrite !R; lia.
  - split; [constructor|reflexivity].
  - cbn. lia.
  - exact B.
  - exists (z_file lines samples), img. splits; [exact B|apply z_len|exact E|cbn [fh_lines fh_samples] in L; rewrite L; ring].
Qed.
Lemma small_file_factor : forall dbg rayon, exists input img, bytes input /\ decode_fresh dbg rayon input = Ok img /\ lenZ img > 88000000 * lenZ input.
Proof.
  intros dbg rayon. destruct (small_file dbg rayon 65535 65535 ltac:(lia) ltac:(lia)) as [input [img [B [L [E Li]]]]].
  exists input, img. splits; [exact B|exact E|]. unfold lenZ in *. rewrite L, Li. lia.
Qed.
