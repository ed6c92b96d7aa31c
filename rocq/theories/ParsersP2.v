(** Quantisation, Huffman, scan header and application segments. *)
From Coq Require Import Sorted.
From Verif Require Import Base Tactics SpecBits SpecFrame SpecBlock SpecHuffman SpecSegments Huffman HuffmanP HuffmanP2 HuffmanP3
  Marker Color Types Biterator Parsers Decode BlockP ParsersP.

(** ** Quantisation tables *)
Lemma p_any_count : forall vs r, p_count (length vs) p_any (vs ++ r) = Ok (vs, r).
Proof. induction vs as [|v vs IH]; intros r; cbn [length p_count app p_any bind]; auto. rewrite IH. reflexivity. Qed.

Lemma dqt_parse : forall t r, dqt_ok t -> dqt (dqt_bytes t ++ r) = Ok (tq_dest t, tq_values t, r).
Proof.
  intros t r [P [D [L F]]]. unfold dqt, dqt_bytes. cbn [app]. rewrite split_4_bit_nibbles by (unfold nibble; lia). cbn [bind].
  replace (1 <? tq_prec t) with false by lia. replace (tq_dest t <? 4) with true by lia.
  destruct (tq_prec t =? 0); rewrite <- L.
  - rewrite p_any_count. reflexivity.
  - rewrite (p_count_map p_u16 be16 (fun x => x)) by (intros; apply p_u16_be16). rewrite map_id. reflexivity.
Qed.

Lemma p_any_count_inv : forall n i ys r, p_count n p_any i = Ok (ys, r) -> i = ys ++ r /\ length ys = n.
Proof.
  induction n as [|n IH]; intros i ys r H; cbn [p_count] in H.
  - inv H. auto.
  - destruct i as [|x i]; [discriminate|]. cbn [p_any bind] in H. binv H. destruct a as [ys' i2]. inv H.
    apply IH in E. destruct E as [-> <-]. auto.
Qed.

Lemma dqt_inv : forall i tq vs r, bytes i -> dqt i = Ok (tq, vs, r) ->
  exists t, dqt_ok t /\ i = dqt_bytes t ++ r /\ tq = tq_dest t /\ vs = tq_values t.
Proof.
  intros i tq vs r Hb H. unfold dqt in H. binv H. destruct a as [[pq dst] i1].
  apply split_4_bit_inv in E; auto. destruct E as [-> [N1 [N2 B1]]]. unfold nibble in *.
  destruct (1 <? pq) eqn:E1; [discriminate|]. destruct (dst <? 4) eqn:E2; [|discriminate].
  destruct (pq =? 0) eqn:E3.
  - binv H. destruct a as [ys i2]. inv H. apply p_any_count_inv in E. destruct E as [-> L].
    exists (mkDqt pq tq vs). unfold dqt_ok, dqt_bytes. cbn [tq_prec tq_dest tq_values]. rewrite E3.
    apply Forall_app in B1. destruct B1 as [B1 _]. splits; auto; try lia.

  - binv H. destruct a as [ys i2]. inv H.
    destruct (p_count_inv p_u16 be16 (fun x => x) (fun x => 0 <= x < 65536)) with (n := 64%nat) (i := i1) (ys := vs) (r := r) as [xs [L [F [-> ->]]]]; auto.
    { intros i y r0 Hb0 H. destruct i as [|a [|b i]]; try discriminate. inv H. unbytes Hb0.
      exists (256 * a + b). rewrite be16_inv by auto. unfold is_byte in *. splits; auto; lia. }
    rewrite map_id. exists (mkDqt pq tq xs). unfold dqt_ok, dqt_bytes. cbn [tq_prec tq_dest tq_values]. rewrite E3.
    splits; auto; lia.
Qed.

Lemma dqt_safe : forall i, safe (dqt i).
Proof.
  intros i. unfold dqt. apply safe_bind; [apply split_4_bit_safe|]. intros [[pq tq] i1] _.
  destruct (1 <? pq); [exact I|]. destruct (tq <? 4); [|exact I].
  destruct (pq =? 0); (apply safe_bind; [apply p_count_safe; auto using p_any_safe, p_u16_safe|]); intros [? ?] _; exact I.
Qed.

Lemma quant_loop_spec : forall vals j acc, length acc = 64%nat -> (j + length vals <= 64)%nat ->
  exists q, quant_loop (Z.of_nat j) vals acc = Ok q /\ length q = 64%nat /\
    forall k, (k < 64)%nat -> nth (natural k) q 0 =
      if ((j <=? k) && (k <? j + length vals))%nat then nth (k - j) vals 0 else nth (natural k) acc 0.
Proof.
  induction vals as [|v vals IH]; intros j acc La Lj; cbn [quant_loop length] in *.
  - exists acc. splits; auto. intros k Hk. replace ((j <=? k) && (k <? j + 0))%nat with false by lia. reflexivity.
  - rewrite unzigzag_spec by (auto; lia). cbn [bind].
    destruct (IH (S j) (upd acc (natural j) v)) as [q [E [Lq N]]]; [rewrite upd_length; auto|lia|].
    replace (Z.of_nat j + 1) with (Z.of_nat (S j)) by lia. exists q. splits; auto.
    intros k Hk. rewrite N by auto.
    destruct (Nat.eq_dec k j) as [->|Nk].
    + replace ((S j <=? j) && (j <? S j + length vals))%nat with false by lia.
      replace ((j <=? j) && (j <? j + S (length vals)))%nat with true by lia.
      rewrite Nat.sub_diag. rewrite nth_upd_eq by (rewrite La; apply natural_lt; lia). reflexivity.
    + replace ((j <=? k) && (k <? j + S (length vals)))%nat with ((S j <=? k) && (k <? S j + length vals))%nat by lia.
      destruct ((S j <=? k) && (k <? S j + length vals))%nat eqn:E2.
      * replace (k - j)%nat with (S (k - S j))%nat by lia. reflexivity.
      * apply nth_upd_neq. intros E'. apply natural_inj in E'; lia.
Qed.

Lemma quant_new : forall vs, length vs = 64%nat -> exists q, quantization_table_new vs = Ok q /\ natural_order q vs.
Proof.
  intros vs L. destruct (quant_loop_spec vs 0 (repeat 0 64) eq_refl ltac:(lia)) as [q [E [Lq N]]].
  exists q. split; [exact E|]. split; auto. intros k Hk. rewrite N by auto.
  replace ((0 <=? k) && (k <? 0 + length vs))%nat with true by lia. rewrite Nat.sub_0_r. reflexivity.
Qed.

Lemma store_in : forall A (l : list A) k v, 0 <= k < lenZ l -> store l k v = Ok (upd l (Z.to_nat k) v).
Proof. intros. apply store_Ok. split; [auto|reflexivity]. Qed.

Lemma store_quant_ok : forall d t, length (d_qt d) = 4%nat -> dqt_ok t ->
  exists q, store_quant d (tq_dest t) (tq_values t) = Ok (set_qt d (upd (d_qt d) (Z.to_nat (tq_dest t)) (Some q))) /\
    natural_order q (tq_values t).
Proof.
  intros d t L [P [D [Lv F]]]. destruct (quant_new (tq_values t) Lv) as [q [E N]]. exists q. split; auto.
  unfold store_quant. rewrite E. cbn [bind]. rewrite store_in by (unfold lenZ; lia). reflexivity.
Qed.

Lemma quant_slots_nil : forall l, length l = 4%nat -> quant_slots l l [].
Proof. intros l L. split; auto. intros; reflexivity. Qed.
Lemma set_qt_twice : forall d a b, set_qt (set_qt d a) b = set_qt d b.
Proof. reflexivity. Qed.

Lemma seg_dqt_unfold : forall n d i, i <> [] -> seg_dqt (S n) d i =
  match dqt i with
  | Ok (tq, t, i') => match store_quant d tq t with
      | Ok d' => seg_dqt n d' i' | Fail e => (d, Fail e) | Panic p => (d, Panic p) | UB => (d, UB) end
  | Fail e => (d, Fail e) | Panic p => (d, Panic p) | UB => (d, UB) end.
Proof. intros n d [|x i] H; [congruence|reflexivity]. Qed.

Lemma dqt_slots_cons : forall before q t after ts, length before = 4%nat -> dqt_ok t -> natural_order q (tq_values t) ->
  quant_slots (upd before (Z.to_nat (tq_dest t)) (Some q)) after ts -> quant_slots before after (t :: ts).
Proof.
  intros before q t after ts L [_ [D _]] N [La H]. split; auto. intros k Hk. specialize (H k Hk). cbn [last_entry].
  destruct (last_entry _ ts); auto. destruct (tq_dest t =? Z.of_nat k) eqn:E.
  - exists q. split; auto. rewrite H. replace (Z.to_nat (tq_dest t)) with k by lia. apply nth_upd_eq. lia.
  - rewrite H. apply nth_upd_neq. lia.
Qed.

Lemma seg_dqt_ok : forall ts fuel d, length (d_qt d) = 4%nat -> Forall dqt_ok ts ->
  (length (flat_map dqt_bytes ts) <= fuel)%nat ->
  exists l, seg_dqt fuel d (flat_map dqt_bytes ts) = (set_qt d l, Ok tt) /\ quant_slots (d_qt d) l ts.
Proof.
  induction ts as [|t ts IH]; intros fuel d L F Hf.
  - exists (d_qt d). split; [destruct fuel; destruct d; reflexivity|]. apply quant_slots_nil; auto.
  - inv F. cbn [flat_map] in *. destruct fuel as [|fuel]; [cbn in Hf; lia|].
    rewrite seg_dqt_unfold by (cbn; discriminate). rewrite dqt_parse by auto.
    destruct (store_quant_ok d t L H1) as [q [E N]]. rewrite E.
    destruct (IH fuel (set_qt d (upd (d_qt d) (Z.to_nat (tq_dest t)) (Some q)))) as [l [E2 S2]]; auto.
    { cbn [set_qt d_qt]. rewrite upd_length. auto. }
    { rewrite app_length in Hf. cbn [dqt_bytes length] in Hf. lia. }
    rewrite E2. exists l. rewrite set_qt_twice. split; auto. eapply dqt_slots_cons; eauto.
Qed.

(** Every payload: tables as long as they are well formed, then acceptance or an error. *)
Lemma seg_dqt_any : forall fuel d i, bytes i -> length (d_qt d) = 4%nat -> (length i <= fuel)%nat ->
  exists ts rest l, i = flat_map dqt_bytes ts ++ rest /\ Forall dqt_ok ts /\ quant_slots (d_qt d) l ts /\
    ((rest = [] /\ seg_dqt fuel d i = (set_qt d l, Ok tt)) \/
     (rest <> [] /\ exists e, dqt rest = Fail e /\ seg_dqt fuel d i = (set_qt d l, Fail e))).
Proof.
  induction fuel as [|fuel IH]; intros d i Hb L Hf.
  - destruct i; [|cbn in Hf; lia]. exists [], [], (d_qt d). splits; auto. { apply quant_slots_nil; auto. }
    left. destruct d. auto.
  - destruct i as [|x i].
    { exists [], [], (d_qt d). splits; auto. { apply quant_slots_nil; auto. } left. destruct d. auto. }
    set (i0 := x :: i) in *. assert (Ni : i0 <> []) by discriminate. rewrite seg_dqt_unfold by auto.
    pose proof (dqt_safe i0) as S. destruct (dqt i0) as [[[tq vs] i']|e|p|] eqn:E; try contradiction.
    + destruct (dqt_inv _ _ _ _ Hb E) as [t [Ht [Ei [-> ->]]]].
      destruct (store_quant_ok d t L Ht) as [q [Eq N]]. rewrite Eq.
      rewrite Ei in Hb, Hf. apply Forall_app in Hb. destruct Hb as [_ Hb].
      rewrite app_length in Hf. cbn [dqt_bytes length] in Hf.
      destruct (IH (set_qt d (upd (d_qt d) (Z.to_nat (tq_dest t)) (Some q))) i') as [ts [rest [l [Er [Ft [Sl C]]]]]]; auto.
      { cbn [set_qt d_qt]. rewrite upd_length. auto. } { lia. }
      exists (t :: ts), rest, l. cbn [flat_map]. rewrite <- app_assoc, <- Er. rewrite !set_qt_twice in C.
      splits; auto. eapply dqt_slots_cons; eauto.
    + exists [], i0, (d_qt d). splits; auto. { apply quant_slots_nil; auto. } right. split; auto. exists e. split; auto. destruct d; auto.
Qed.

(** The header byte decides between the two errors of the parser. *)
Lemma dqt_reject : forall pq tq r, nibble pq -> nibble tq -> 1 < pq \/ 3 < tq ->
  dqt (nibbles pq tq :: r) = Fail EDqtPrecision \/ dqt (nibbles pq tq :: r) = Fail EDqtDest.
Proof.
  intros pq tq r P T H. unfold dqt. rewrite split_4_bit_nibbles by auto. cbn [bind].
  destruct (1 <? pq) eqn:E; auto. replace (tq <? 4) with false by lia. auto.
Qed.

(** ** Huffman tables *)
Lemma sumZ_total : forall l, sumZ l = total_codes l.
Proof. reflexivity. Qed.

Lemma class_new : forall c, table_class_new (class_code c) = Some c.
Proof. intros []; reflexivity. Qed.

Lemma dht_parse : forall t r, dht_ok t ->
  huffman_table (dht_bytes t ++ r) = Ok (th_class t, th_dest t, th_counts t, th_values t, r).
Proof.
  intros t r [D [[C1 C2] [V [L _]]]]. unfold huffman_table, dht_bytes. cbn [app].
  rewrite split_4_bit_nibbles by (unfold nibble; lia). cbn [bind]. rewrite class_new.
  replace (th_dest t <? 4) with true by lia. rewrite <- app_assoc.
  replace 16 with (lenZ (th_counts t)) by (unfold lenZ; lia). rewrite p_take_app. cbn [bind].
  rewrite sumZ_total, <- L, p_take_app. reflexivity.
Qed.

Lemma huffman_table_inv : forall i c th lengths values r, bytes i -> huffman_table i = Ok (c, th, lengths, values, r) ->
  i = dht_bytes (mkDht c th lengths values) ++ r /\ 0 <= th <= 3 /\ counts_ok lengths /\ bytes values /\
  lenZ values = total_codes lengths.
Proof.
  intros i c th lengths values r Hb H. unfold huffman_table in H. binv H. destruct a as [[tc th'] i1].
  apply split_4_bit_inv in E; auto. destruct E as [-> [N1 [N2 B1]]]. unfold nibble in *.
  destruct (table_class_new tc) as [c'|] eqn:Ec; [|discriminate]. destruct (th' <? 4) eqn:Et; [|discriminate].
  binv H. destruct a as [ls i2]. binv H. destruct a as [vs i3]. inv H.
  apply p_take_inv in E; [|lia]. destruct E as [-> L1]. apply Forall_app in B1. destruct B1 as [Bl B2].
  assert (T : 0 <= sumZ lengths).
  { clear - Bl. induction lengths; cbn; [lia|]. inv Bl. apply IHlengths in H2. unfold is_byte, sumZ in *. lia. }
  apply p_take_inv in E0; auto. destruct E0 as [-> L2]. apply Forall_app in B2. destruct B2 as [Bv B3].
  assert (tc = class_code c).
  { unfold table_class_new in Ec. destruct (tc =? 0) eqn:E0; [inv Ec; cbn; lia|]. destruct (tc =? 1) eqn:E1; [inv Ec; cbn; lia|discriminate]. }
  subst tc. splits; auto; try lia.
  - unfold dht_bytes. cbn [th_class th_dest th_counts th_values app]. rewrite <- app_assoc. reflexivity.
  - split; auto. unfold lenZ in L1. lia.
Qed.

Lemma huffman_table_safe : forall i, safe (huffman_table i).
Proof.
  intros i. unfold huffman_table. apply safe_bind; [apply split_4_bit_safe|]. intros [[tc th] i1] _.
  destruct (table_class_new tc); [|exact I]. destruct (th <? 4); [|exact I].
  apply safe_bind; [apply p_take_safe|]. intros [ls i2] _. apply safe_bind; [apply p_take_safe|]. intros [vs i3] _. exact I.
Qed.

Lemma dc_slots_nil : forall dbg l, length l = 4%nat -> dc_slots dbg l l [].
Proof. intros; split; auto. intros; reflexivity. Qed.
Lemma ac_slots_nil : forall dbg l, length l = 4%nat -> ac_slots dbg l l [].
Proof. intros; split; auto. intros; reflexivity. Qed.

Lemma dc_slots_hit : forall dbg before tab t after ts, length before = 4%nat -> th_class t = DC -> 0 <= th_dest t <= 3 ->
  table_new dbg (th_counts t) (th_values t) = Ok tab ->
  dc_slots dbg (upd before (Z.to_nat (th_dest t)) (Some tab)) after ts -> dc_slots dbg before after (t :: ts).
Proof.
  intros dbg before tab t after ts L C D N [La H]. split; auto. intros k Hk. specialize (H k Hk). cbn [last_entry].
  destruct (last_entry _ ts); auto. unfold is_slot. rewrite C. destruct (th_dest t =? Z.of_nat k) eqn:E.
  - exists tab. split; auto. rewrite H. replace (Z.to_nat (th_dest t)) with k by lia. apply nth_upd_eq. lia.
  - rewrite H. apply nth_upd_neq. lia.
Qed.
Lemma ac_slots_hit : forall dbg before tab t after ts, length before = 4%nat -> th_class t = AC -> 0 <= th_dest t <= 3 ->
  ac_new dbg (th_counts t) (th_values t) = Ok tab ->
  ac_slots dbg (upd before (Z.to_nat (th_dest t)) (Some tab)) after ts -> ac_slots dbg before after (t :: ts).
Proof.
  intros dbg before tab t after ts L C D N [La H]. split; auto. intros k Hk. specialize (H k Hk). cbn [last_entry].
  destruct (last_entry _ ts); auto. unfold is_slot. rewrite C. destruct (th_dest t =? Z.of_nat k) eqn:E.
  - exists tab. split; auto. rewrite H. replace (Z.to_nat (th_dest t)) with k by lia. apply nth_upd_eq. lia.
  - rewrite H. apply nth_upd_neq. lia.
Qed.
Lemma dc_slots_miss : forall dbg before t after ts, th_class t = AC ->
  dc_slots dbg before after ts -> dc_slots dbg before after (t :: ts).
Proof.
  intros dbg before t after ts C [La H]. split; auto. intros k Hk. specialize (H k Hk). cbn [last_entry].
  destruct (last_entry _ ts); auto. unfold is_slot. rewrite C. auto.
Qed.
Lemma ac_slots_miss : forall dbg before t after ts, th_class t = DC ->
  ac_slots dbg before after ts -> ac_slots dbg before after (t :: ts).
Proof.
  intros dbg before t after ts C [La H]. split; auto. intros k Hk. specialize (H k Hk). cbn [last_entry].
  destruct (last_entry _ ts); auto. unfold is_slot. rewrite C. auto.
Qed.

Lemma seg_dht_unfold : forall dbg n d i, i <> [] -> seg_dht dbg (S n) d i =
  match huffman_table i with
  | Ok (c, th, lengths, values, i') => match store_huffman dbg d c th lengths values with
      | Ok d' => seg_dht dbg n d' i' | Fail e => (d, Fail e) | Panic p => (d, Panic p) | UB => (d, UB) end
  | Fail e => (d, Fail e) | Panic p => (d, Panic p) | UB => (d, UB) end.
Proof. intros dbg n d [|x i] H; [congruence|reflexivity]. Qed.

Lemma tables_same : forall d, tables_set d (d_dc d) (d_ac d) = d.
Proof. intros []. reflexivity. Qed.

Lemma table_accepted : forall dbg t, dht_ok t -> exists tab, table_new dbg (th_counts t) (th_values t) = Ok tab.
Proof. intros dbg t [D [C [V [L [T K]]]]]. apply accept_iff; auto. Qed.

Lemma ac_accepted : forall dbg t, dht_ok t -> exists tab, ac_new dbg (th_counts t) (th_values t) = Ok tab.
Proof. intros dbg t H. destruct (table_accepted dbg t H) as [tab E]. unfold ac_new. rewrite E. cbn [bind]. eauto. Qed.

Lemma seg_dht_ok : forall dbg ts fuel d, length (d_dc d) = 4%nat -> length (d_ac d) = 4%nat -> Forall dht_ok ts ->
  (length (flat_map dht_bytes ts) <= fuel)%nat ->
  exists dc ac, seg_dht dbg fuel d (flat_map dht_bytes ts) = (tables_set d dc ac, Ok tt) /\
    dc_slots dbg (d_dc d) dc ts /\ ac_slots dbg (d_ac d) ac ts.
Proof.
  intros dbg. induction ts as [|t ts IH]; intros fuel d L1 L2 F Hf.
  - exists (d_dc d), (d_ac d). splits; auto using dc_slots_nil, ac_slots_nil. rewrite tables_same. destruct fuel; reflexivity.
  - inv F. cbn [flat_map] in *. destruct fuel as [|fuel]; [cbn in Hf; lia|].
    rewrite seg_dht_unfold by (cbn; discriminate). rewrite dht_parse by auto.
    assert (Hf' : (length (flat_map dht_bytes ts) <= fuel)%nat).
    { rewrite app_length in Hf. cbn [dht_bytes length] in Hf. lia. }
    assert (D : 0 <= th_dest t <= 3) by apply H1.
    unfold store_huffman. destruct (th_class t) eqn:C.
    + destruct (table_accepted dbg t H1) as [tab E]. rewrite E. cbn [bind]. rewrite store_in by (unfold lenZ; lia). cbn [bind].
      destruct (IH fuel (set_dc d (upd (d_dc d) (Z.to_nat (th_dest t)) (Some tab)))) as [dc [ac [E2 [S1 S2]]]]; auto.
      { cbn. rewrite upd_length. auto. }
      rewrite E2. exists dc, ac. splits; auto. { eapply dc_slots_hit; eauto. } apply ac_slots_miss; auto.
    + destruct (ac_accepted dbg t H1) as [tab E]. rewrite E. cbn [bind]. rewrite store_in by (unfold lenZ; lia). cbn [bind].
      destruct (IH fuel (set_ac d (upd (d_ac d) (Z.to_nat (th_dest t)) (Some tab)))) as [dc [ac [E2 [S1 S2]]]]; auto.
      { cbn. rewrite upd_length. auto. }
      rewrite E2. exists dc, ac. splits; auto. { apply dc_slots_miss; auto. } eapply ac_slots_hit; eauto.
Qed.

(** ** Scan header *)
Lemma position_spec : forall cs id k0 k, position id cs k0 = Some k <->
  k0 <= k /\ nth_error (map c_id cs) (Z.to_nat (k - k0)) = Some id /\
  forall j, (j < Z.to_nat (k - k0))%nat -> nth_error (map c_id cs) j <> Some id.
Proof.
  induction cs as [|c cs IH]; intros id k0 k; cbn [position map].
  - split; [discriminate|]. intros [_ [H _]]. destruct (Z.to_nat (k - k0)); discriminate.
  - destruct (c_id c =? id) eqn:E.
    + split.
      * intros H. inv H. rewrite Z.sub_diag. cbn. splits; try lia. { f_equal; lia. }
      * intros [H1 [H2 H3]]. destruct (Z.to_nat (k - k0)) as [|n] eqn:En; [f_equal; lia|].
        exfalso. apply (H3 0%nat); [lia|]. cbn. f_equal; lia.
    + rewrite IH. split; intros [H1 [H2 H3]].
      * replace (Z.to_nat (k - k0)) with (S (Z.to_nat (k - (k0 + 1)))) by lia. splits; [lia|exact H2|].
        intros [|j] Hj; cbn [nth_error]; [intros Q; inv Q; lia|]. apply H3. lia.
      * destruct (Z.to_nat (k - k0)) as [|n] eqn:En; [cbn in H2; inv H2; lia|].
        replace (Z.to_nat (k - (k0 + 1))) with n by lia. splits; [lia|exact H2|].
        intros j Hj. apply (H3 (S j)). lia.
Qed.

Lemma position_at : forall fr id k, position id (f_components fr) 0 = Some k <-> component_at fr id k.
Proof. intros. rewrite position_spec, Z.sub_0_r. reflexivity. Qed.

Lemma component_at_range : forall fr id k, component_at fr id k -> 0 <= k < lenZ (f_components fr).
Proof.
  intros fr id k [H [N _]]. split; auto. assert (Z.to_nat k < length (map c_id (f_components fr)))%nat.
  { apply nth_error_Some. congruence. } rewrite map_length in H0. unfold lenZ. lia.
Qed.

Definition above (mx : option Z) (ks : list Z) : Prop :=
  match mx, ks with Some m, k :: _ => m < k | _, _ => True end.

Lemma sos_headers_ok : forall fr cs ks mx r, lenZ (f_components fr) <= 256 -> Forall scan_comp_ok cs ->
  Forall2 (component_at fr) (map sc_id cs) ks -> Sorted Z.lt ks -> above mx ks ->
  sos_headers (Some fr) (length cs) mx (flat_map scan_comp_bytes cs ++ r) = Ok (map header_of (combine cs ks), r).
Proof.
  intros fr. induction cs as [|c cs IH]; intros ks mx r L F A S Ab; inv A.
  - reflexivity.
  - inv F. destruct H2 as [I1 [I2 I3]]. inv S. rename y into k.
    assert (R := component_at_range _ _ _ H1). apply position_at in H1.
    cbn [length sos_headers flat_map scan_comp_bytes app p_any bind]. rewrite split_4_bit_nibbles by auto. cbn [bind].
    rewrite H1. rewrite wrap_id by (change (2 ^ 8) with 256; lia).
    replace (match mx with Some mx0 => if k <? mx0 then Fail ESosOrder else if k =? mx0 then Fail ESosDuplicate else Ok tt | None => Ok tt end)
      with (@Ok unit tt).
    2:{ destruct mx as [m|]; auto. cbn in Ab. replace (k <? m) with false by lia. replace (k =? m) with false by lia. reflexivity. }
    cbn [bind]. rewrite (IH l' (Some k) r); auto.
    destruct l' as [|k' l']; cbn; auto. inv H5. auto.
Qed.

Lemma sos_headers_inv : forall fr n mx i hs r, lenZ (f_components fr) <= 256 -> bytes i ->
  sos_headers (Some fr) n mx i = Ok (hs, r) ->
  exists cs ks, length cs = n /\ Forall scan_comp_ok cs /\ Forall2 (component_at fr) (map sc_id cs) ks /\ Sorted Z.lt ks /\
    above mx ks /\ i = flat_map scan_comp_bytes cs ++ r /\ hs = map header_of (combine cs ks).
Proof.
  intros fr. induction n as [|n IH]; intros mx i hs r L Hb H; cbn [sos_headers] in H.
  - inv H. exists [], []. splits; auto; try constructor. destruct mx; exact I.
  - destruct i as [|id i]; [discriminate|]. cbn [p_any bind] in H. unbytes Hb. binv H. destruct a as [[dc ac] i1].
    apply split_4_bit_inv in E; auto. destruct E as [-> [N1 [N2 B1]]].
    destruct (position id (f_components fr) 0) as [k|] eqn:P; [|discriminate].
    apply position_at in P. assert (R := component_at_range _ _ _ P).
    rewrite wrap_id in H by (change (2 ^ 8) with 256; lia). binv H. binv H. destruct a0 as [hs' i2]. inv H.
    destruct (IH (Some k) i1 hs' r L B1 E0) as [cs [ks [Lc [Fc [F2 [S [A [-> ->]]]]]]]].
    exists (mkSC id dc ac :: cs), (k :: ks). splits.
    + cbn. lia.
    + constructor; auto. unfold scan_comp_ok. cbn. auto.
    + cbn. constructor; auto.
    + constructor; auto. destruct ks; cbn in A; constructor; auto.
    + destruct mx as [m|]; cbn; auto. destruct (k <? m) eqn:E1; [discriminate|]. destruct (k =? m) eqn:E2; [discriminate|]. lia.
    + reflexivity.
    + reflexivity.
Qed.

Lemma sos_headers_safe : forall f n mx i, safe (sos_headers f n mx i).
Proof.
  intros f. induction n as [|n IH]; intros mx i; cbn [sos_headers]; [exact I|].
  apply safe_bind; [apply p_any_safe|]. intros [id i1] _. apply safe_bind; [apply split_4_bit_safe|]. intros [[dc ac] i2] _.
  destruct f as [fr|]; [|exact I]. destruct (position _ _ _); [|exact I].
  apply safe_bind. { destruct mx; [|exact I]. destruct (_ <? _); [exact I|]. destruct (_ =? _); exact I. }
  intros _ _. apply safe_bind; [apply IH|]. intros [hs i3] _. exact I.
Qed.

Lemma sos_segment_safe : forall f i, safe (sos_segment f i).
Proof.
  intros f i. unfold sos_segment. apply safe_bind; [apply p_any_safe|]. intros [n i1] _.
  destruct ((1 <=? n) && (n <=? 4)); [|exact I]. apply safe_bind; [apply sos_headers_safe|]. intros [hs i2] _.
  do 2 (apply safe_bind; [apply p_any_safe|]; intros [? ?] _). apply safe_bind; [apply split_4_bit_safe|]. intros [[? ?] ?] _. exact I.
Qed.

Lemma sos_segment_ok : forall fr s ks r, lenZ (f_components fr) <= 256 -> scan_ok s -> scan_in_frame fr s ks ->
  sos_segment (Some fr) (sos_bytes s ++ r) = Ok (scan_of s ks, r).
Proof.
  intros fr s ks r L [F [B1 [B2 [N1 N2]]]] [Ln [F2 S]]. unfold sos_segment, sos_bytes. cbn [app p_any bind].
  replace ((1 <=? lenZ (sp_comps s)) && (lenZ (sp_comps s) <=? 4)) with true by lia.
  rewrite <- app_assoc. unfold lenZ at 1. rewrite Nat2Z.id.
  rewrite (sos_headers_ok fr (sp_comps s) ks None) by (auto; exact I).
  cbn [bind app p_any]. rewrite split_4_bit_nibbles by auto. reflexivity.
Qed.

Lemma sos_segment_inv : forall fr i sc r, lenZ (f_components fr) <= 256 -> bytes i ->
  sos_segment (Some fr) i = Ok (sc, r) ->
  exists s ks, scan_ok s /\ scan_in_frame fr s ks /\ i = sos_bytes s ++ r /\ sc = scan_of s ks.
Proof.
  intros fr i sc r L Hb H. unfold sos_segment in H. destruct i as [|n i]; [discriminate|]. cbn [p_any bind] in H. unbytes Hb.
  destruct ((1 <=? n) && (n <=? 4)) eqn:En; [|discriminate]. binv H. destruct a as [hs i1].
  destruct (sos_headers_inv fr _ _ _ _ _ L Hb E) as [cs [ks [Lc [Fc [F2 [S [_ [-> ->]]]]]]]].
  apply Forall_app in Hb. destruct Hb as [_ Hb].
  destruct i1 as [|ss i1]; [discriminate|]. cbn [p_any bind] in H. destruct i1 as [|se i1]; [discriminate|]. cbn [p_any bind] in H.
  unbytes Hb. binv H. destruct a as [[ah al] i2]. inv H. apply split_4_bit_inv in E0; auto. destruct E0 as [-> [N1 [N2 _]]].
  exists (mkSpS cs ss se ah al), ks. unfold scan_ok, scan_in_frame, sos_bytes. cbn [sp_comps sp_start sp_end sp_high sp_low].
  splits; auto; try (unfold lenZ; lia).
  cbn [app]. rewrite <- app_assoc. unfold lenZ. rewrite Lc. replace (Z.of_nat (Z.to_nat n)) with n by lia. reflexivity.
Qed.

(** ** APP14 *)
Lemma app_adobe_ok : forall version flags t r, 0 <= version < 256 -> length flags = 4%nat ->
  app_adobe (adobe_bytes version flags t ++ r) =
    match transform_of t with Some a => Ok (a, r) | None => Fail EAdobe end.
Proof.
  intros version flags t r V L. unfold adobe_bytes, be16. replace (version / 256) with 0 by lia.
  destruct flags as [|f0 [|f1 [|f2 [|f3 [|f4 flags]]]]]; try discriminate. clear L.
  unfold app_adobe. unfold p_take at 1.
  replace (6 <=? lenZ _) with true by (rewrite <- !app_assoc; cbn [app]; repeat rewrite lenZ_cons; pose proof (lenZ_nonneg _ r); lia).
  change (Z.to_nat 6) with 6%nat. cbn [app firstn skipn bind].
  destruct (list_eq_dec Z.eq_dec [65; 100; 111; 98; 101; 0] ADOBE) as [_|N]; [|exfalso; apply N; reflexivity].
  unfold p_take. replace (5 <=? lenZ _) with true by (repeat rewrite lenZ_cons; pose proof (lenZ_nonneg _ r); lia).
  change (Z.to_nat 5) with 5%nat. cbn [app firstn skipn bind p_any]. unfold transform_of.
  destruct (t =? 0); auto. destruct (t =? 1); auto. destruct (t =? 2); auto.
Qed.

Lemma app_adobe_safe : forall i, safe (app_adobe i).
Proof.
  intros i. unfold app_adobe. apply safe_bind; [apply p_take_safe|]. intros [tag i1] _.
  destruct (list_eq_dec _ _ _); [|exact I]. apply safe_bind; [apply p_take_safe|]. intros [x i2] _.
  apply safe_bind; [apply p_any_safe|]. intros [t i3] _.
  destruct (t =? 0); [exact I|]. destruct (t =? 1); [exact I|]. destruct (t =? 2); exact I.
Qed.

Lemma app_adobe_inv : forall i a r, bytes i -> app_adobe i = Ok (a, r) ->
  exists version flags t, 0 <= version < 256 /\ length flags = 4%nat /\ i = adobe_bytes version flags t ++ r /\ transform_of t = Some a.
Proof.
  intros i a r Hb H. unfold app_adobe in H. binv H. destruct a0 as [tag i1].
  apply p_take_inv in E; [|lia]. destruct E as [-> Lt].
  destruct (list_eq_dec Z.eq_dec tag ADOBE) as [->|]; [|discriminate].
  binv H. destruct a0 as [x i2]. apply p_take_inv in E; [|lia]. destruct E as [-> Lx]. unfold lenZ in Lx.
  destruct i2 as [|t i2]; [discriminate|]. cbn [p_any bind] in H.
  apply Forall_app in Hb. destruct Hb as [_ Hb]. apply Forall_app in Hb. destruct Hb as [Hx _].
  destruct x as [|v flags]; [cbn in Lx; lia|]. inv Hx. unfold is_byte in *.
  exists v, flags, t. splits; try lia. { cbn in Lx; lia. }
  - unfold adobe_bytes, be16. replace (v / 256) with 0 by lia. rewrite Z.mod_small by lia.
    unfold ADOBE. cbn [app]. rewrite <- app_assoc. cbn [app]. destruct (t =? 0); [inv H; auto|]. destruct (t =? 1); [inv H; auto|]. destruct (t =? 2); [inv H; auto|discriminate].
  - unfold transform_of. destruct (t =? 0); [inv H; auto|]. destruct (t =? 1); [inv H; auto|]. destruct (t =? 2); [inv H; auto|discriminate].
Qed.
