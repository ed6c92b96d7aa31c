(** Segment parsers against the grammar of SpecSegments. *)
From Verif Require Import Base Tactics SpecBits SpecFrame SpecBlock SpecHuffman SpecSegments Huffman HuffmanP HuffmanP2 HuffmanP3
  Color Types Parsers F32P GeomP BlockP.

(** An outcome that is a value or an error. *)
Definition safe {A} (o : out A) : Prop := match o with Ok _ | Fail _ => True | _ => False end.

Lemma safe_bind : forall A B (x : out A) (f : A -> out B),
  safe x -> (forall a, x = Ok a -> safe (f a)) -> safe (bind x f).
Proof. intros A B [a|e|p|] f H H1; cbn in *; auto. Qed.

Ltac unbytes H := repeat (let H1 := fresh "B" in apply Forall_cons_iff in H; destruct H as [H1 H]).
(** ** Primitives *)
Lemma nibbles_split : forall a b, nibble b -> Z.shiftr (nibbles a b) 4 = a /\ Z.land (nibbles a b) 15 = b.
Proof.
  intros a b H. unfold nibbles, nibble in *. rewrite Z.shiftr_div_pow2 by lia.
  change 15 with (Z.ones 4). rewrite Z.land_ones by lia. change (2 ^ 4) with 16. lia.
Qed.

Lemma byte_nibbles : forall x, is_byte x ->
  x = nibbles (Z.shiftr x 4) (Z.land x 15) /\ nibble (Z.shiftr x 4) /\ nibble (Z.land x 15).
Proof.
  intros x H. unfold nibbles, nibble, is_byte in *. rewrite Z.shiftr_div_pow2 by lia.
  change 15 with (Z.ones 4). rewrite Z.land_ones by lia. change (2 ^ 4) with 16. lia.
Qed.

Lemma split_4_bit_nibbles : forall a b r, nibble b -> split_4_bit (nibbles a b :: r) = Ok (a, b, r).
Proof. intros a b r H. unfold split_4_bit. cbn [p_any bind]. destruct (nibbles_split a b H) as [-> ->]. reflexivity. Qed.

Lemma p_u16_be16 : forall n r, p_u16 (be16 n ++ r) = Ok (n, r).
Proof. intros. cbn [be16 app p_u16]. do 2 f_equal. lia. Qed.

Lemma be16_inv : forall a b, is_byte a -> is_byte b -> be16 (256 * a + b) = [a; b].
Proof. intros a b Ha Hb. unfold be16, is_byte in *. repeat f_equal; lia. Qed.

Lemma p_take_app : forall l r, p_take (lenZ l) (l ++ r) = Ok (l, r).
Proof.
  intros. unfold p_take, lenZ. rewrite app_length.
  replace (Z.of_nat (length l) <=? Z.of_nat (length l + length r)) with true by lia.
  rewrite Nat2Z.id, firstn_app, firstn_all, Nat.sub_diag, firstn_O, app_nil_r.
  rewrite skipn_app, skipn_all, Nat.sub_diag. reflexivity.
Qed.

Lemma p_take_inv : forall n i l r, 0 <= n -> p_take n i = Ok (l, r) -> i = l ++ r /\ lenZ l = n.
Proof.
  intros n i l r Hn H. unfold p_take in H. destruct (n <=? lenZ i) eqn:E; [|discriminate]. inv H.
  split; [symmetry; apply firstn_skipn|]. unfold lenZ in *. rewrite firstn_length. lia.
Qed.

Lemma p_take_safe : forall n i, safe (p_take n i).
Proof. intros. unfold p_take. destruct (_ <=? _); exact I. Qed.
Lemma p_any_safe : forall i, safe (p_any i).
Proof. intros [|]; exact I. Qed.
Lemma p_u16_safe : forall i, safe (p_u16 i).
Proof. intros [|a [|b r]]; exact I. Qed.
Lemma split_4_bit_safe : forall i, safe (split_4_bit i).
Proof. intros [|]; exact I. Qed.

Lemma split_4_bit_inv : forall i a b r, bytes i -> split_4_bit i = Ok (a, b, r) ->
  i = nibbles a b :: r /\ nibble a /\ nibble b /\ bytes r.
Proof.
  intros [|x i] a b r H E; [discriminate|]. unfold split_4_bit in E. cbn [p_any bind] in E. inv E. inv H.
  destruct (byte_nibbles x) as [Ex [A B]]; auto. rewrite <- Ex. auto.
Qed.

Section Count.
  Context {A B : Type} (p : list Z -> out (B * list Z)) (f : A -> list Z) (g : A -> B) (P : A -> Prop).

  Lemma p_count_map : forall xs r, (forall x r, In x xs -> p (f x ++ r) = Ok (g x, r)) ->
    p_count (length xs) p (flat_map f xs ++ r) = Ok (map g xs, r).
  Proof.
    induction xs as [|x xs IH]; intros r H; cbn [length p_count flat_map map]; auto.
    rewrite <- app_assoc, H by (left; auto). cbn [bind]. rewrite IH by (intros; apply H; right; auto). reflexivity.
  Qed.

  Lemma p_count_inv : (forall i y r, bytes i -> p i = Ok (y, r) -> exists x, P x /\ i = f x ++ r /\ y = g x) ->
    forall n i ys r, bytes i -> p_count n p i = Ok (ys, r) ->
    exists xs, length xs = n /\ Forall P xs /\ i = flat_map f xs ++ r /\ ys = map g xs.
  Proof.
    intros HP. induction n as [|n IH]; intros i ys r Hb H; cbn [p_count] in H.
    - inv H. exists []. auto.
    - binv H. destruct a as [y i1]. binv H. destruct a as [ys' i2]. inv H.
      destruct (HP _ _ _ Hb E) as [x [Hx [-> ->]]].
      destruct (IH i1 ys' r) as [xs [L [F [-> ->]]]]; auto.
      { apply Forall_app in Hb. tauto. }
      exists (x :: xs). cbn [length flat_map map]. rewrite app_assoc. auto.
  Qed.

  Lemma p_count_safe : (forall i, safe (p i)) -> forall n i, safe (p_count n p i).
  Proof.
    intros HP. induction n as [|n IH]; intros i; cbn [p_count]; [exact I|].
    apply safe_bind; auto. intros [y i1] _. apply safe_bind; auto. intros [ys i2] _. exact I.
  Qed.
End Count.

(** ** Frame header *)
Definition raw_comp (c : comp_spec) : component :=
  mkComponent (cs_id c) (cs_h c) (cs_v c) (cs_tq c) (cs_h c * cs_v c) 0
    (mkDims (cs_h c * 8) (cs_v c * 8)) 0 (mkDims 0 0) (mkDims 0 0).

Lemma check_factor : forall s, 0 <= s -> check_sampling_factor s = Ok tt <-> 1 <= s <= 4.
Proof. intros. unfold check_sampling_factor. destruct ((s =? 0) || (4 <? s)) eqn:E; split; intros; try discriminate; auto; lia. Qed.

Lemma sof_component_ok : forall c r, comp_range c -> factors_ok c ->
  sof_component (comp_bytes c ++ r) = Ok (raw_comp c, r).
Proof.
  intros c r [R1 [R2 [R3 R4]]] [F1 F2]. unfold sof_component, comp_bytes. cbn [app p_any bind].
  rewrite split_4_bit_nibbles by auto. cbn [bind].
  rewrite (proj2 (check_factor (cs_h c) ltac:(lia)) F1), (proj2 (check_factor (cs_v c) ltac:(lia)) F2). reflexivity.
Qed.

Lemma sof_component_inv : forall i y r, bytes i -> sof_component i = Ok (y, r) ->
  exists c, (comp_range c /\ factors_ok c) /\ i = comp_bytes c ++ r /\ y = raw_comp c.
Proof.
  intros i y r Hb H. unfold sof_component in H. destruct i as [|id i]; [discriminate|]. cbn [p_any bind] in H.
  inv Hb. binv H. destruct a as [[h v] i1]. binv H. binv H. binv H. destruct a1 as [tq i2]. inv H.
  apply split_4_bit_inv in E; auto. destruct E as [-> [N1 [N2 B1]]].
  destruct i1 as [|tq' i1]; [discriminate|]. inv E2. inv B1.
  destruct a, a0. apply check_factor in E0; [|unfold nibble in *; lia]. apply check_factor in E1; [|unfold nibble in *; lia].
  exists (mkCS id h v tq). unfold comp_range, factors_ok, comp_bytes, raw_comp. cbn. auto 10.
Qed.

Lemma sof_component_safe : forall i, safe (sof_component i).
Proof.
  intros i. unfold sof_component. apply safe_bind; [apply p_any_safe|]. intros [id i1] _.
  apply safe_bind; [apply split_4_bit_safe|]. intros [[h v] i2] _.
  assert (C : forall s, safe (check_sampling_factor s)) by (intros; unfold check_sampling_factor; destruct (_ || _); exact I).
  apply safe_bind; auto. intros _ _. apply safe_bind; auto. intros _ _. apply safe_bind; [apply p_any_safe|]. intros [tq i3] _. exact I.
Qed.

Lemma fold_max_largest : forall xs x, 0 <= x -> Forall (fun y => 0 <= y) xs -> fold_left Z.max xs x = Z.max x (largest xs).
Proof.
  induction xs as [|y xs IH]; intros x Hx F; cbn [fold_left largest fold_right]; [lia|].
  inv F. rewrite IH by (auto; lia). unfold largest. lia.
Qed.

Lemma max_unwrap_largest : forall xs, xs <> [] -> Forall (fun y => 0 <= y) xs -> max_unwrap xs = Ok (largest xs).
Proof.
  intros [|x xs] H F; [congruence|]. inv F. cbn [max_unwrap]. rewrite fold_max_largest by auto. reflexivity.
Qed.

Lemma largest_ge : forall xs x, In x xs -> x <= largest xs.
Proof. induction xs as [|y xs IH]; intros x H; [contradiction|]. unfold largest in *. cbn [fold_right]. destruct H as [->|H]; [lia|]. specialize (IH x H). lia. Qed.

Lemma largest_le : forall xs b, 0 <= b -> Forall (fun y => y <= b) xs -> largest xs <= b.
Proof. induction xs as [|y xs IH]; intros b Hb F; cbn; [lia|]. inv F. specialize (IH b Hb H2). unfold largest in IH. lia. Qed.

Lemma largest_factors : forall cs (f : comp_spec -> Z), cs <> [] -> (forall c, In c cs -> 1 <= f c <= 4) ->
  1 <= largest (map f cs) <= 4.
Proof.
  intros [|c cs] f N H; [congruence|]. split.
  - assert (f c <= largest (map f (c :: cs))) by (apply largest_ge; left; auto). specialize (H c (or_introl eq_refl)). lia.
  - apply largest_le; [lia|]. apply Forall_forall. intros y Hy. apply in_map_iff in Hy. destruct Hy as [c' [<- Hc]]. specialize (H c' Hc). lia.
Qed.

Lemma mcus_bound : forall len f, 0 <= len < 65536 -> 1 <= f <= 4 -> 0 <= mcus len f /\ mcus len f * f <= 8195.
Proof.
  intros len f Hl Hf. unfold mcus. split; [apply ceil_div_nonneg; lia|].
  pose proof (ceil_div_bounds len (8 * f) ltac:(lia)) as [B _]. nia.
Qed.

Lemma sof_ok : forall dbg m p lines samples cs r,
  0 <= lines < 65536 -> 0 <= samples < 65536 -> lenZ cs < 256 -> cs <> [] ->
  Forall comp_range cs -> Forall factors_ok cs ->
  sof dbg m (sof_bytes p lines samples cs ++ r) = Ok (frame_of m p lines samples cs, r).
Proof.
  intros dbg m p lines samples cs r Hl Hs Hn N R F. unfold sof, sof_bytes.
  cbn [app p_any bind]. rewrite <- !app_assoc, p_u16_be16. cbn [bind]. rewrite p_u16_be16. cbn [bind app p_any].
  unfold lenZ. rewrite Nat2Z.id.
  rewrite (p_count_map sof_component comp_bytes raw_comp).
  2:{ intros c r' Hc. rewrite Forall_forall in R, F. apply sof_component_ok; auto. }
  cbn [bind]. rewrite Forall_forall in R, F.
  assert (H1 : forall c, In c cs -> 1 <= cs_h c <= 4) by (intros; apply F; auto).
  assert (V1 : forall c, In c cs -> 1 <= cs_v c <= 4) by (intros; apply F; auto).
  rewrite !map_map. cbn [raw_comp c_h c_v].
  assert (NM : forall f : comp_spec -> Z, map f cs <> []) by (intros f E; apply map_eq_nil in E; congruence).
  rewrite !max_unwrap_largest; auto.
  2,3: apply Forall_forall; intros y Hy; apply in_map_iff in Hy; destruct Hy as [c [<- Hc]]; specialize (H1 c Hc); specialize (V1 c Hc); lia.
  cbn [bind]. pose proof (largest_factors cs cs_h N H1) as LH. pose proof (largest_factors cs cs_v N V1) as LV.
  unfold frame_of. set (hm := largest (map cs_h cs)) in *. set (vm := largest (map cs_v cs)) in *.
  rewrite !mcu_count_eq by lia.
  pose proof (mcus_bound samples hm Hs LH) as [BW1 BW2]. pose proof (mcus_bound lines vm Hl LV) as [BH1 BH2].
  set (mw := mcus samples hm) in *. set (mh := mcus lines vm) in *.
  assert (HG : forall c, In c cs -> cs_h c <= hm) by (intros; apply largest_ge, in_map; auto).
  assert (VG : forall c, In c cs -> cs_v c <= vm) by (intros; apply largest_ge, in_map; auto).
  rewrite (mapM_ok_map _ _ _ (fun rc => mkComponent (c_id rc) (c_h rc) (c_v rc) (c_tq rc) (c_blocks_per_mcu rc)
            (8 * (mw * c_h rc)) (c_mcu_sample_size rc) (64 * (c_h rc * c_v rc) * mw) (mkDims (mw * c_h rc) (mh * c_v rc))
            (mkDims (extent samples (c_h rc) hm) (extent lines (c_v rc) vm)))).
  - cbn [bind]. unfold frame_of. do 3 f_equal. rewrite map_map. apply map_ext_in. intros c Hc. cbn [raw_comp c_id c_h c_v c_tq c_blocks_per_mcu c_mcu_sample_size]. f_equal; f_equal; try lia.
  - intros rc Hrc. apply in_map_iff in Hrc. destruct Hrc as [c [<- Hc]].
    specialize (H1 c Hc). specialize (V1 c Hc). specialize (HG c Hc). specialize (VG c Hc).
    unfold fill_component. cbn [raw_comp dim_w dim_h c_id c_h c_v c_tq c_blocks_per_mcu c_mcu_sample_size].
    assert (U1 : umul16 dbg mw (cs_h c) = Ok (mw * cs_h c)).
    { unfold umul16. replace (65536 <=? mw * cs_h c) with false by nia. reflexivity. }
    assert (U2 : umul16 dbg mh (cs_v c) = Ok (mh * cs_v c)).
    { unfold umul16. replace (65536 <=? mh * cs_v c) with false by nia. reflexivity. }
    rewrite U1, U2. cbn [bind]. rewrite !comp_len_eq by lia. do 2 f_equal; lia.
Qed.

Lemma sof_inv : forall dbg m i fr r, bytes i -> sof dbg m i = Ok (fr, r) ->
  exists p lines samples cs, i = sof_bytes p lines samples cs ++ r /\ is_byte p /\ 0 <= lines < 65536 /\ 0 <= samples < 65536 /\
    cs <> [] /\ lenZ cs < 256 /\ Forall comp_range cs /\ Forall factors_ok cs /\ fr = frame_of m p lines samples cs.
Proof.
  intros dbg m i fr r Hb H.
  assert (H0 := H). unfold sof in H.
  destruct i as [|p i]; [discriminate|]. cbn [p_any bind] in H.
  destruct i as [|y1 [|y0 i]]; try discriminate. cbn [p_u16 bind] in H.
  destruct i as [|x1 [|x0 i]]; try discriminate. cbn [p_u16 bind] in H.
  destruct i as [|n i]; [discriminate|]. cbn [p_any bind] in H.
  binv H. destruct a as [cs0 i1]. binv H.
  unbytes Hb.
  destruct (p_count_inv sof_component comp_bytes raw_comp (fun c => comp_range c /\ factors_ok c) sof_component_inv _ _ _ _ Hb E)
    as [cs [L [F [-> ->]]]].
  assert (Ncs : cs <> []).
  { intros ->. cbn in E0. discriminate. }
  assert (En : n = lenZ cs) by (unfold lenZ, is_byte in *; lia).
  assert (EI : p :: y1 :: y0 :: x1 :: x0 :: n :: flat_map comp_bytes cs ++ i1 = sof_bytes p (256 * y1 + y0) (256 * x1 + x0) cs ++ i1).
  { unfold sof_bytes. rewrite !be16_inv by auto. rewrite <- En. reflexivity. }
  rewrite EI in H0.
  assert (F1 : Forall comp_range cs) by (eapply Forall_impl; [|exact F]; intros c [? ?]; auto).
  assert (F2 : Forall factors_ok cs) by (eapply Forall_impl; [|exact F]; intros c [? ?]; auto).
  unfold is_byte in *.
  rewrite sof_ok in H0; auto; try lia. inv H0.
  exists p, (256 * y1 + y0), (256 * x1 + x0), cs. splits; auto; lia.
Qed.

(** Without components the largest factor does not exist; otherwise the parser does not panic. *)
Lemma sof_safe : forall dbg m i, bytes i -> nth 5 i 1 <> 0 -> safe (sof dbg m i).
Proof.
  intros dbg m i Hb Hn.
  destruct (sof dbg m i) as [v|e|pn|] eqn:E; try exact I; exfalso; revert E; unfold sof;
  (destruct i as [|p i]; [discriminate|]; cbn [p_any bind];
   destruct i as [|y1 [|y0 i]]; try discriminate; cbn [p_u16 bind];
   destruct i as [|x1 [|x0 i]]; try discriminate; cbn [p_u16 bind];
   destruct i as [|n i]; [discriminate|]; cbn [p_any bind];
   pose proof (p_count_safe sof_component sof_component_safe (Z.to_nat n) i) as S;
   destruct (p_count (Z.to_nat n) sof_component i) as [[cs0 i1]|e'|pn'|] eqn:E1; try contradiction; try discriminate;
   unbytes Hb;
   destruct (p_count_inv sof_component comp_bytes raw_comp (fun c => comp_range c /\ factors_ok c) sof_component_inv _ _ _ _ Hb E1)
     as [cs [L [F [-> ->]]]];
   assert (Ncs : cs <> []) by (intros ->; cbn in L, Hn; unfold is_byte in *; lia);
   assert (En : n = lenZ cs) by (unfold lenZ, is_byte in *; lia);
   assert (F1 : Forall comp_range cs) by (eapply Forall_impl; [|exact F]; intros c [? ?]; auto);
   assert (F2 : Forall factors_ok cs) by (eapply Forall_impl; [|exact F]; intros c [? ?]; auto);
   unfold is_byte in *;
   pose proof (sof_ok dbg m p (256 * y1 + y0) (256 * x1 + x0) cs i1 ltac:(lia) ltac:(lia) ltac:(lia) Ncs F1 F2) as OK;
   unfold sof, sof_bytes in OK; rewrite !be16_inv in OK by (unfold is_byte; lia); cbn [app p_any p_u16 bind] in OK;
   rewrite <- En, E1 in OK; cbn [bind] in OK; cbn [bind]; rewrite OK; discriminate).
Qed.
