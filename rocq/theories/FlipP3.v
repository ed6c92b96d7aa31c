(** Images mirrored left to right (C73). *)
From Verif Require Import Base Tactics SpecBits SpecReader SpecMarker Biterator Huffman Marker Types Parsers Idct Upsampler Decode SpecGlobal SpecStream.
From Verif Require Import SpecHuffman SpecBlock SpecTables SpecFrame SpecSegments SpecScan SpecPlane SpecUpsample SpecImage SpecColor SpecFile SpecAnswer SpecIdct SpecEncoder SpecEdit SpecFlip.
From Verif Require Import ParsersP InvP MarkerP GlobalP StreamP2 FileP ImageP BlockP IdctP IdctP2 AnswerP AnswerP2 AnswerP3 ReuseP PiecesP DamageP2 TransP UpsampleP2 FlatP EditP EditP2 EncoderP MosaicP FlipP.

(** ** One block *)
Definition near (d a b : Z) : Prop := Z.abs (a - b) <= d.
Lemma sat_near : forall a b d, near d a b -> near d (sat a) (sat b).
Proof. unfold near, sat. lia. Qed.

Section Block.
  Variables (a a' q : list Z).
  Hypothesis E : forall u v, (u < 8)%nat -> (v < 8)%nat -> deq a' q v u = sgn u (deq a q v u).
  Lemma sum_sgn : forall u f, sum8 (fun v => sgn u (f v)) = sgn u (sum8 f).
  Proof. intros u f. unfold sgn, sum8. destruct (Nat.odd u); ring. Qed.
  Lemma pass1_mirror : forall y u, (u < 8)%nat -> exists e, 0 <= e <= 1 /\ pass1 a' q y u = sgn u (pass1 a q y u) + e.
  Proof.
    intros y u Hu. unfold pass1.
    replace (sum8 (fun v => mx y v * deq a' q v u)) with (sgn u (sum8 (fun v => mx y v * deq a q v u))).
    - generalize (sum8 (fun v => mx y v * deq a q v u)). intros s. unfold sgn. destruct (Nat.odd u); [|exists 0; lia].
      exists ((512 + - s) / 1024 + (512 + s) / 1024). split; [|ring]. pose proof (Z.div_mod (512 + - s) 1024 ltac:(lia)). pose proof (Z.div_mod (512 + s) 1024 ltac:(lia)).
      pose proof (Z.mod_pos_bound (512 + - s) 1024 ltac:(lia)). pose proof (Z.mod_pos_bound (512 + s) 1024 ltac:(lia)). lia.
    - rewrite <- sum_sgn. apply sum8_ext. intros v Hv. rewrite E by assumption. unfold sgn. destruct (Nat.odd u); ring.
  Qed.
  Lemma even_e : forall y u, (u < 8)%nat -> Nat.odd u = false -> pass1 a' q y u = pass1 a q y u.
  Proof.
    intros y u Hu O. unfold pass1. do 2 f_equal. apply sum8_ext. intros v Hv. rewrite E by assumption. unfold sgn. rewrite O. reflexivity.
  Qed.
  Lemma pass2_mirror : forall y x, (x < 8)%nat -> near 1 (pass2 a' q y x) (pass2 a q y (7 - x)).
  Proof.
    intros y x Hx. unfold pass2.
    destruct (pass1_mirror y 1 ltac:(lia)) as [e1 [H1 E1]]. destruct (pass1_mirror y 3 ltac:(lia)) as [e3 [H3 E3]]. destruct (pass1_mirror y 5 ltac:(lia)) as [e5 [H5 E5]]. destruct (pass1_mirror y 7 ltac:(lia)) as [e7 [H7 E7]].
    pose proof (even_e y 0 ltac:(lia) eq_refl) as E0. pose proof (even_e y 2 ltac:(lia) eq_refl) as E2. pose proof (even_e y 4 ltac:(lia) eq_refl) as E4. pose proof (even_e y 6 ltac:(lia) eq_refl) as E6.
    assert (S : sum8 (fun u => mx x u * pass1 a' q y u) = sum8 (fun u => mx (7 - x) u * pass1 a q y u) + (mx x 1 * e1 + mx x 3 * e3 + mx x 5 * e5 + mx x 7 * e7)).
    { rewrite <- (sum8_ext (fun u => mx x u * sgn u (pass1 a q y u)) (fun u => mx (7 - x) u * pass1 a q y u)) by (intros u _; apply mx_flip; exact Hx).
      unfold sum8. rewrite E0, E1, E2, E3, E4, E5, E6, E7. unfold sgn. cbn [Nat.odd Nat.even negb]. generalize (mx x 0), (mx x 1), (mx x 2), (mx x 3), (mx x 4), (mx x 5), (mx x 6), (mx x 7), (pass1 a q y 0), (pass1 a q y 1), (pass1 a q y 2), (pass1 a q y 3), (pass1 a q y 4), (pass1 a q y 5), (pass1 a q y 6), (pass1 a q y 7). clear. intros. ring. }
    rewrite S. pose proof (mx_bound x 1). pose proof (mx_bound x 3). pose proof (mx_bound x 5). pose proof (mx_bound x 7).
    set (s := sum8 (fun u => mx (7 - x) u * pass1 a q y u)). assert (B : -22732 <= mx x 1 * e1 + mx x 3 * e3 + mx x 5 * e5 + mx x 7 * e7 <= 22732) by nia.
    set (d := mx x 1 * e1 + mx x 3 * e3 + mx x 5 * e5 + mx x 7 * e7) in *. clearbody s d. clear - B. unfold near.
    pose proof (Z.div_mod (65536 + 128 * 131072 + (s + d)) 131072 ltac:(lia)). pose proof (Z.div_mod (65536 + 128 * 131072 + s) 131072 ltac:(lia)).
    pose proof (Z.mod_pos_bound (65536 + 128 * 131072 + (s + d)) 131072 ltac:(lia)). pose proof (Z.mod_pos_bound (65536 + 128 * 131072 + s) 131072 ltac:(lia)). lia.
  Qed.
End Block.
Lemma pass2_range : forall coefs quant y x, total coefs quant <= 1472 -> -255 <= pass2 coefs quant y x <= 766.
Proof.
  intros coefs quant y x T. unfold pass2. pose proof (dot_bound x (fun u => pass1 coefs quant y u)) as D. cbv beta in D.
  assert (B : sum8 (fun u => 1024 * Z.abs (pass1 coefs quant y u)) <= 5683 * total coefs quant + 4096).
  { etransitivity; [apply sum8_le; intros u _; apply pass1_bound|]. unfold total. rewrite <- sum8_scale. unfold sum8 at 1 3. lia. }
  rewrite sum8_scale in B. set (s := sum8 (fun u => mx x u * pass1 coefs quant y u)) in *. set (t := sum8 _) in *. clearbody s t.
  pose proof (Z.div_mod (65536 + 128 * 131072 + s) 131072 ltac:(lia)). pose proof (Z.mod_pos_bound (65536 + 128 * 131072 + s) 131072 ltac:(lia)). lia.
Qed.

Lemma modest_moderate : forall coefs quant, length coefs = 64%nat -> total coefs quant <= 65536 -> moderate coefs quant.
Proof.
  intros coefs quant L T k. change (2 ^ 19) with 524288. destruct (Nat.lt_ge_cases k 64) as [H|H].
  - assert (D : nth k coefs 0 * nth k quant 0 = deq coefs quant (k / 8) (k mod 8)).
    { unfold deq. replace (k mod 8 + 8 * (k / 8))%nat with k; auto. rewrite (Nat.div_mod k 8) at 1 by lia. lia. }
    pose proof (column_total coefs quant (k mod 8) (Nat.mod_upper_bound k 8 ltac:(lia))) as C.
    pose proof (sum8_term (fun v => Z.abs (deq coefs quant v (k mod 8))) (k / 8)) as S. cbv beta in S.
    specialize (S ltac:(intros; lia) ltac:(apply Nat.div_lt_upper_bound; lia)). rewrite D.
    generalize dependent (deq coefs quant (k / 8) (k mod 8)). intros z _ S. lia.
  - rewrite (nth_overflow coefs) by lia. lia.
Qed.

Lemma block_rows_sat : forall dbg coefs quant rows, moderate coefs quant -> total coefs quant <= 65536 ->
  (forall y x, (y < 8)%nat -> (x < 8)%nat -> -256 <= pass2 coefs quant y x <= 767) -> idct_block_rows dbg coefs quant = Ok rows ->
  forall y x, (y < 8)%nat -> (x < 8)%nat -> nth x (nth y rows []) 0 = sat (pass2 coefs quant y x).
Proof.
  intros dbg coefs quant rows M T G D y x Hy Hx. pose proof (full_values_exact coefs quant ltac:(lia)) as F.
  rewrite block_saturated in D; [|exact M|].
  - assert (R : rows = map (map sat) (full_values coefs quant)) by congruence. rewrite R, F. clear R D F. generalize (pass2 coefs quant). intros f.
    rewrite map_map, (nth_map_seq _ (fun y => map sat (map (f y) (seq 0 8))) 8 y) by exact Hy. rewrite map_map, (nth_map_seq _ (fun x => sat (f y x)) 8 x) by exact Hx. reflexivity.
  - intros row v Ir Iv. rewrite F in Ir. apply in_map_iff in Ir. destruct Ir as [y0 [<- Iy]]. apply in_map_iff in Iv. destruct Iv as [x0 [<- Ix]]. apply in_seq in Iy, Ix. apply G; lia.
Qed.

(** The sum over the zigzag order. *)
Lemma zigzag_sum : forall (g : nat -> Z), fold_right Z.add 0 (map (fun i => g (natural i)) (seq 0 64)) = sum8 (fun u => sum8 (fun v => g (u + 8 * v)%nat)).
Proof.
  intros g. rewrite <- (map_map natural g).
  assert (N : map natural (seq 0 64) = ltac:(let l := eval vm_compute in (map natural (seq 0 64)) in exact l)) by (vm_compute; reflexivity). rewrite N. clear N.
  cbn [map fold_right]. unfold sum8. cbn [Nat.add Nat.mul]. lia.
Qed.
Lemma sum_total : forall q b blk qt, block_values blk (q_dc b) (q_ac b) -> natural_order qt q ->
  fold_right Z.add 0 (map (fun i => Z.abs (coef b i * nth i q 0)) (seq 0 64)) = total blk qt.
Proof.
  intros q b blk qt [_ V] [_ N].
  rewrite (map_ext_in _ (fun i => Z.abs (nth (natural i) blk 0 * nth (natural i) qt 0))).
  - rewrite (zigzag_sum (fun n => Z.abs (nth n blk 0 * nth n qt 0))). unfold total. apply sum8_ext. intros u _. apply sum8_ext. intros v _. unfold deq. reflexivity.
  - intros i Hi. apply in_seq in Hi. rewrite V, N by lia. reflexivity.
Qed.
Lemma place_sweep : forallb (fun v => forallb (fun u =>
  match find (fun i => let (r, c) := nth i zigzag (0, 0)%nat in (r =? v)%nat && (c =? u)%nat) (seq 0 64) with Some i => (i =? unnatural (u + 8 * v))%nat | None => false end) (seq 0 8)) (seq 0 8) = true.
Proof. vm_compute. reflexivity. Qed.
Lemma place_found : forall v u, (v < 8)%nat -> (u < 8)%nat ->
  find (fun i => let (r, c) := nth i zigzag (0, 0)%nat in (r =? v)%nat && (c =? u)%nat) (seq 0 64) = Some (unnatural (u + 8 * v)).
Proof.
  intros v u Hv Hu. pose proof place_sweep as S. rewrite forallb_forall in S. specialize (S v). rewrite in_seq in S. specialize (S ltac:(lia)).
  rewrite forallb_forall in S. specialize (S u). rewrite in_seq in S. specialize (S ltac:(lia)). cbv beta in S.
  destruct (find _ _) as [i|]; [|discriminate S]. apply Nat.eqb_eq in S. congruence.
Qed.
Lemma dequantised_deq : forall q b blk qt v u, (v < 8)%nat -> (u < 8)%nat -> block_values blk (q_dc b) (q_ac b) -> natural_order qt q ->
  dequantised_at q b v u = deq blk qt v u.
Proof.
  intros q b blk qt v u Hv Hu [_ V] [_ N]. unfold dequantised_at. rewrite (place_found v u Hv Hu). unfold deq.
  destruct (natural_unnatural (u + 8 * v) ltac:(lia)) as [En L]. rewrite <- En at 3 4. rewrite V, N by exact L. reflexivity.
Qed.
Lemma raw_pass2 : forall q b blk qt y x, block_values blk (q_dc b) (q_ac b) -> natural_order qt q -> raw_sample q b y x = pass2 blk qt y x.
Proof.
  intros q b blk qt y x V N. unfold raw_sample, pass2, pass1. do 2 f_equal. apply sum8_ext. intros u Hu. do 3 f_equal. apply sum8_ext. intros v Hv.
  rewrite (dequantised_deq q b blk qt v u Hv Hu V N). reflexivity.
Qed.
Lemma modest_total : forall q b blk qt, block_values blk (q_dc b) (q_ac b) -> natural_order qt q -> modest q b ->
  total blk qt <= 65536 /\ forall y x, (y < 8)%nat -> (x < 8)%nat -> -255 <= pass2 blk qt y x <= 766.
Proof.
  intros q b blk qt V N [M G]. rewrite (sum_total q b blk qt V N) in M. split; [exact M|]. intros y x Hy Hx. rewrite <- (raw_pass2 q b blk qt y x V N). apply G; assumption.
Qed.
(** The same for values in zigzag order that need not come from a block of the decoder. *)
Lemma dot_total : forall (D : nat -> nat -> Z) y x, sum8 (fun u => sum8 (fun v => Z.abs (D v u))) <= 1472 ->
  -255 <= (65536 + 128 * 131072 + sum8 (fun u => mx x u * ((512 + sum8 (fun v => mx y v * D v u)) / 1024))) / 131072 <= 766.
Proof.
  intros D y x T. pose (p := fun u => (512 + sum8 (fun v => mx y v * D v u)) / 1024). pose proof (dot_bound x p) as B.
  assert (P : forall u, 1024 * Z.abs (p u) <= 5683 * sum8 (fun v => Z.abs (D v u)) + 512).
  { intros u. pose proof (dot_bound y (fun v => D v u)) as Q. cbv beta in Q. unfold p. set (s := sum8 (fun v => mx y v * D v u)) in *. clearbody s.
    pose proof (Z.div_mod (512 + s) 1024 ltac:(lia)). pose proof (Z.mod_pos_bound (512 + s) 1024 ltac:(lia)). lia. }
  assert (S : sum8 (fun u => 1024 * Z.abs (p u)) <= 5683 * sum8 (fun u => sum8 (fun v => Z.abs (D v u))) + 4096).
  { etransitivity; [apply sum8_le; intros u _; apply P|]. rewrite <- sum8_scale. unfold sum8 at 1 3. lia. }
  rewrite sum8_scale in S. change (sum8 (fun u => mx x u * ((512 + sum8 (fun v => mx y v * D v u)) / 1024))) with (sum8 (fun u => mx x u * p u)).
  set (s := sum8 (fun u => mx x u * p u)) in *. set (t := sum8 (fun u => Z.abs (p u))) in *. set (d := sum8 (fun u => sum8 _)) in *. clearbody s t d.
  pose proof (Z.div_mod (65536 + 128 * 131072 + s) 131072 ltac:(lia)). pose proof (Z.mod_pos_bound (65536 + 128 * 131072 + s) 131072 ltac:(lia)). lia.
Qed.
Lemma modest_small : forall q b, fold_right Z.add 0 (map (fun i => Z.abs (coef b i * nth i q 0)) (seq 0 64)) <= 1472 -> modest q b.
Proof.
  intros q b M. split; [lia|]. intros y x Hy Hx. unfold raw_sample. apply dot_total.
  rewrite (sum8_ext _ (fun u => sum8 (fun v => (fun n => Z.abs (coef b (unnatural n) * nth (unnatural n) q 0)) (u + 8 * v)%nat))).
  - rewrite <- (zigzag_sum (fun n => Z.abs (coef b (unnatural n) * nth (unnatural n) q 0))). rewrite (map_ext_in _ (fun i => Z.abs (coef b i * nth i q 0))); [exact M|].
    intros i Hi. apply in_seq in Hi. rewrite unnatural_natural by lia. reflexivity.
  - intros u Hu. apply sum8_ext. intros v Hv. unfold dequantised_at. rewrite (place_found v u Hv Hu). reflexivity.
Qed.
Lemma modest_check : forall q b,
  (fold_right Z.add 0 (map (fun i => Z.abs (coef b i * nth i q 0)) (seq 0 64)) <=? 65536) &&
  forallb (fun y => forallb (fun x => (-255 <=? raw_sample q b y x) && (raw_sample q b y x <=? 766)) (seq 0 8)) (seq 0 8) = true -> modest q b.
Proof.
  intros q b H. apply andb_true_iff in H. destruct H as [H1 H2]. split; [lia|]. intros y x Hy Hx.
  rewrite forallb_forall in H2. specialize (H2 y). rewrite in_seq in H2. specialize (H2 ltac:(lia)). rewrite forallb_forall in H2. specialize (H2 x). rewrite in_seq in H2. specialize (H2 ltac:(lia)). cbv beta in H2. lia.
Qed.
Definition col_of (i : nat) : nat := snd (nth i zigzag (0, 0)%nat).
Lemma col_sweep : forallb (fun i => Nat.eqb (col_of i) (natural i mod 8)) (seq 0 64) = true.
Proof. vm_compute. reflexivity. Qed.
Lemma col_natural : forall i, (i < 64)%nat -> col_of i = (natural i mod 8)%nat.
Proof. intros i H. pose proof col_sweep as S. rewrite forallb_forall in S. specialize (S i). rewrite in_seq in S. apply Nat.eqb_eq, S. lia. Qed.
Lemma block_mirror : forall q b b' blk blk' qt rows rows', mirrored_block b b' -> modest q b -> block_values blk (q_dc b) (q_ac b) -> block_values blk' (q_dc b') (q_ac b') ->
  natural_order qt q -> idct_block_rows true blk qt = Ok rows -> idct_block_rows true blk' qt = Ok rows' ->
  forall y x, (y < 8)%nat -> (x < 8)%nat -> near 1 (nth x (nth y rows' []) 0) (nth (7 - x) (nth y rows []) 0).
Proof.
  intros q b b' blk blk' qt rows rows' U M V V' N D D' y x Hy Hx.
  destruct (modest_total q b blk qt V N M) as [T G].
  assert (E : forall u v, (u < 8)%nat -> (v < 8)%nat -> deq blk' qt v u = sgn u (deq blk qt v u)).
  { intros u v Hu Hv. unfold deq. destruct (natural_unnatural (u + 8 * v) ltac:(lia)) as [En L]. destruct V as [_ V]. destruct V' as [_ V']. rewrite <- En at 1 3. rewrite V, V' by exact L.
    specialize (U _ L). unfold coef in U. rewrite U. fold (col_of (unnatural (u + 8 * v))). rewrite col_natural, En by exact L.
    replace ((u + 8 * v) mod 8)%nat with u by (replace (u + 8 * v)%nat with (u + v * 8)%nat by lia; rewrite Nat.mod_add, Nat.mod_small by lia; lia). unfold sgn. destruct (Nat.odd u); ring. }
  assert (T' : total blk' qt <= 65536).
  { revert T. unfold total. rewrite (sum8_ext (fun u => sum8 (fun v => Z.abs (deq blk' qt v u))) (fun u => sum8 (fun v => Z.abs (deq blk qt v u)))); [auto|]. intros u Hu. apply sum8_ext. intros v Hv. rewrite E by assumption. unfold sgn. destruct (Nat.odd u); lia. }
  assert (G' : forall y x, (y < 8)%nat -> (x < 8)%nat -> -256 <= pass2 blk' qt y x <= 767).
  { intros y0 x0 Hy0 Hx0. pose proof (pass2_mirror blk blk' qt E y0 x0 Hx0) as Nr. pose proof (G y0 (7 - x0)%nat Hy0 ltac:(lia)). unfold near in Nr. lia. }
  rewrite (block_rows_sat true blk' qt rows' (modest_moderate _ _ (proj1 V') T') T' G' D' y x Hy Hx).
  rewrite (block_rows_sat true blk qt rows (modest_moderate _ _ (proj1 V) T) T ltac:(intros y0 x0 Hy0 Hx0; specialize (G y0 x0 Hy0 Hx0); lia) D y (7 - x)%nat Hy ltac:(lia)).
  apply sat_near. apply pass2_mirror; assumption.
Qed.

(** ** Planes *)
Lemma plane_mirror : forall lines samples cs ms ms' k c q p p' y x,
  1 <= cs_v c -> cs_h c = 1 -> largest (map cs_h cs) = 1 -> samples mod 8 = 0 -> 0 < samples -> nth_error cs k = Some c -> header_ok lines samples cs ->
  Forall (mcu_shape cs) ms -> lenZ ms = mcus lines (largest (map cs_v cs)) * mcus samples 1 -> (forall m bs, In m ms -> nth_error m k = Some bs -> Forall (modest q) bs) ->
  plane_from lines samples cs ms k c q p -> plane_from lines samples cs ms' k c q p' ->
  mirrored (samples / 8) (mcus lines (largest (map cs_v cs))) ms ms' ->
  0 <= y < plane_rows lines cs c -> 0 <= x < samples ->
  near 1 (px p' (plane_stride samples cs c) y x) (px p (plane_stride samples cs c) y (samples - 1 - x)).
Proof.
  intros lines samples cs ms ms' k c q p p' y x Hv Hh Hm M8 S0 Ec HO Sh Lm MD [_ P] [_ P'] MI Hy Hx.
  pose proof (Z.div_mod samples 8 ltac:(lia)) as Dl.
  assert (Em : mcus samples 1 = samples / 8) by (unfold mcus, ceil_div; replace (samples + 8 * 1 - 1) with (7 + samples / 8 * 8) by lia; change (8 * 1) with 8; rewrite Z.div_add by lia; change (7 / 8) with 0; lia).
  assert (St : plane_stride samples cs c = samples) by (unfold plane_stride; rewrite Hm, Hh, Em; lia).
  assert (QI : exists m, In m ms /\ In (q_at ms (mcus samples (largest (map cs_h cs))) k (cs_h c) (cs_v c) y (samples - 1 - x)) (nth k m [])).
  { apply (q_at_in lines samples cs ms k c y (samples - 1 - x) HO Sh); [rewrite Hm; exact Lm|exact Ec|exact Hy|rewrite St; lia]. }
  destruct (P y (samples - 1 - x)) as [blk [qt [rows [V [N [D ->]]]]]]; [exact Hy|rewrite St; lia|].
  destruct (P' y x) as [blk' [qt' [rows' [V' [N' [D' ->]]]]]]; [exact Hy|rewrite St; lia|]. clear P P'. cbv zeta in V, V'.
  assert (qt' = qt) by (eapply order_unique; eassumption). subst qt'. rewrite Hm, Em in *. set (W := samples / 8) in *.
  pose proof (Z.div_mod x 8 ltac:(lia)) as Dy. pose proof (Z.mod_pos_bound x 8 ltac:(lia)) as My.
  assert (Eq1 : (samples - 1 - x) / 8 = W - 1 - x / 8) by (symmetry; apply Z.div_unique with (r := 7 - x mod 8); lia).
  assert (Eq2 : (samples - 1 - x) mod 8 = 7 - x mod 8) by (symmetry; apply Z.mod_unique with (q := W - 1 - x / 8); lia).
  set (H := mcus lines (largest (map cs_v cs))) in *.
  assert (Hr : 0 <= mcu_row (cs_v c) y < H) by (unfold mcu_row; unfold plane_rows in Hy; fold H in Hy; split; [apply Z.div_pos; lia|apply Z.div_lt_upper_bound; lia]).
  assert (U : mirrored_block (q_at ms W k (cs_h c) (cs_v c) y (samples - 1 - x)) (q_at ms' W k (cs_h c) (cs_v c) y x)).
  { unfold q_at. rewrite Hh. unfold mcu_col. change (8 * 1) with 8. rewrite Eq1.
    specialize (MI (mcu_row (cs_v c) y) (W - 1 - x / 8) Hr ltac:(lia)). replace (W - 1 - (W - 1 - x / 8)) with (x / 8) in MI by lia.
    unfold block_no. change (8 * 1) with 8. rewrite Eq2. replace ((7 - x mod 8) / 8) with 0 by (symmetry; apply Z.div_small; lia). replace (x mod 8 / 8) with 0 by (symmetry; apply Z.div_small; lia).
    apply rel_nth; [|intros [|i] _; [reflexivity|]; unfold coef; cbn [nth q_dc q_ac]; destruct i; destruct (Nat.odd _); reflexivity]. apply rel_nth; [exact MI|constructor]. }
  assert (Mo : modest q (q_at ms W k (cs_h c) (cs_v c) y (samples - 1 - x))).
  { destruct QI as [m [Im Iq]]. destruct (nth_error m k) as [bs|] eqn:Eb.
    - rewrite (nth_error_nth _ _ _ Eb) in Iq. specialize (MD m bs Im Eb). rewrite Forall_forall in MD. apply MD. exact Iq.
    - apply nth_error_None in Eb. rewrite nth_overflow in Iq by exact Eb. destruct Iq. }
  pose proof (block_mirror q _ _ _ _ _ _ _ U Mo V V' N (D true) (D' true) (Z.to_nat (y mod 8)) (Z.to_nat (x mod 8)) ltac:(pose proof (Z.mod_pos_bound y 8 ltac:(lia)); lia) ltac:(lia)) as R.
  unfold in_block. rewrite Eq2. replace (Z.to_nat (7 - x mod 8)) with (7 - Z.to_nat (x mod 8))%nat by lia. exact R.
Qed.

(** ** Pixels *)
Lemma drawn_mirror : forall rayon lines samples cs c p p' y x,
  header_ok lines samples cs -> In c cs -> ratios_accepted lines samples cs c -> cs_h c = 1 -> largest (map cs_h cs) = 1 -> samples mod 8 = 0 -> 0 < samples ->
  (forall y x, 0 <= y < plane_rows lines cs c -> 0 <= x < samples -> near 1 (px p' (plane_stride samples cs c) y x) (px p (plane_stride samples cs c) y (samples - 1 - x))) ->
  0 <= y < lines -> 0 <= x < samples ->
  near 1 (comp_drawn lines samples cs c p' (shown_row rayon (largest (map cs_v cs)) y) x) (comp_drawn lines samples cs c p (shown_row rayon (largest (map cs_v cs)) y) (samples - 1 - x)).
Proof.
  intros rayon lines samples cs c p p' y x HO I (_ & A2 & _) Hh Hm M8 S0 PX Hy Hx.
  assert (R1 : h_ratio samples cs c = 1) by (unfold h_ratio, ratio; rewrite Hh, Hm; destruct (samples =? 1); reflexivity).
  destruct HO as [_ _ Ne _ _ X]. rewrite Forall_forall in X.
  pose proof (largest_factors cs cs_v Ne (fun c H => proj2 (X c H))) as Hvm.
  assert (Fv : 1 <= cs_v c <= largest (map cs_v cs)) by (destruct (X c I); pose proof (largest_ge (map cs_v cs) (cs_v c) (in_map cs_v cs c I)); lia).
  set (row := shown_row rayon (largest (map cs_v cs)) y).
  assert (Rw : 0 <= row < lines).
  { subst row. unfold shown_row. clear - Hy Hvm. generalize dependent (largest (map cs_v cs)). intros vm Hv. pose proof (Z.mul_div_le y vm ltac:(lia)). pose proof (Z.div_pos y vm ltac:(lia) ltac:(lia)). destruct rayon; [split; [lia|]; apply Z.div_lt_upper_bound; nia|lia]. }
  clearbody row. unfold comp_drawn. cbv zeta. rewrite R1, Hm, Hh. change (1 / 1) with 1. rewrite Z.div_1_r, Z.mul_1_l.
  replace (samples <=? x) with false by lia. replace (samples <=? samples - 1 - x) with false by lia. rewrite !andb_false_r. unfold comp_shown. rewrite R1.
  destruct (covered lines _ _ row Rw Fv A2) as [H3 H4]. pose proof (extent_le lines _ _ ltac:(lia) Fv) as X2.
  fold (v_ratio lines cs c) in H3, H4. set (vr := v_ratio lines cs c) in *. set (h := extent lines (cs_v c) (largest (map cs_v cs))) in *.
  assert (Pr : plane_rows lines cs c = 8 * (mcus lines (largest (map cs_v cs)) * cs_v c)) by reflexivity. rewrite <- Pr in X2. clear Pr.
  set (pr := plane_rows lines cs c) in *. clearbody pr vr h.
  assert (Dr : 0 <= row / vr < pr) by (split; [apply Z.div_pos; lia|]; apply Z.lt_le_trans with h; [apply Z.div_lt_upper_bound; lia|lia]).
  unfold shown. cbn [Z.eqb Pos.eqb andb]. destruct (Z.eqb_spec vr 1) as [->|N1]; cbn [andb].
  - apply PX; [rewrite Z.div_1_r in Dr; exact Dr|exact Hx].
  - destruct (Z.eqb_spec vr 2) as [->|N2].
    + unfold double_height. pose proof (neighbour_bound h row ltac:(lia)) as Nb. assert (Np : 0 <= neighbour (h - 1) row) by (unfold neighbour; destruct (Z.even row); lia).
      pose proof (PX (row / 2) x Dr Hx) as P1. pose proof (PX (neighbour (h - 1) row) x ltac:(lia) Hx) as P2. unfold near in *.
      revert P1 P2. generalize (px p' (plane_stride samples cs c) (row / 2) x), (px p (plane_stride samples cs c) (row / 2) (samples - 1 - x)), (px p' (plane_stride samples cs c) (neighbour (h - 1) row) x), (px p (plane_stride samples cs c) (neighbour (h - 1) row) (samples - 1 - x)). clear. intros a b a2 b2 P1 P2.
      pose proof (Z.div_mod (3 * a + a2 + 2) 4 ltac:(lia)). pose proof (Z.mod_pos_bound (3 * a + a2 + 2) 4 ltac:(lia)). pose proof (Z.div_mod (3 * b + b2 + 2) 4 ltac:(lia)). pose proof (Z.mod_pos_bound (3 * b + b2 + 2) 4 ltac:(lia)). lia.
    + rewrite !Z.div_1_r. apply PX; [exact Dr|exact Hx].
Qed.

Lemma rgb_apart : forall y cb cr y' cb' cr', near 1 y y' -> near 1 cb cb' -> near 1 cr cr' -> Forall2 (near 3) (rgb_fixed y cb cr) (rgb_fixed y' cb' cr').
Proof.
  intros y cb cr y' cb' cr' Hy Hb Hr. unfold rgb_fixed.
  assert (Q : forall a b, near 131072 a b -> near 2 ((a + 32768) / 65536) ((b + 32768) / 65536)).
  { intros a b. unfold near. clear. intros H. pose proof (Z.div_mod (a + 32768) 65536 ltac:(lia)). pose proof (Z.mod_pos_bound (a + 32768) 65536 ltac:(lia)). pose proof (Z.div_mod (b + 32768) 65536 ltac:(lia)). pose proof (Z.mod_pos_bound (b + 32768) 65536 ltac:(lia)). lia. }
  assert (A : forall a b c d, near 1 a b -> near 2 c d -> near 3 (a + c) (b + d)) by (unfold near; clear; lia).
  repeat constructor; apply sat_near; apply A; try assumption; apply Q; unfold near in *; clear - Hb Hr; lia.
Qed.

Lemma same_conditions : forall rayon lines samples cs ps cs' ps' t img o, factors cs' = factors cs ->
  final_answer rayon lines samples cs ps t (Ok img) -> final_answer rayon lines samples cs' ps' t o -> exists img', o = Ok img'.
Proof.
  intros rayon lines samples cs ps cs' ps' t img o Ef FA FA'.
  assert (Lc : length cs = length cs') by (rewrite <- (map_length (fun c => (cs_h c, cs_v c)) cs); change (map (fun c => (cs_h c, cs_v c)) cs) with (factors cs); rewrite <- Ef; unfold factors; apply map_length).
  assert (Eh : map cs_h cs' = map cs_h cs) by (rewrite !factors_h, Ef; reflexivity). assert (Ev : map cs_v cs' = map cs_v cs) by (rewrite !factors_v, Ef; reflexivity).
  apply (answer_image _ _ _ _ _ _ _ FA'). destruct (proj1 (answer_image _ _ _ _ _ _ _ FA) ltac:(eexists; reflexivity)) as [C1 [C2 C3]].
  assert (TR : forall (Q Q' : comp_spec -> Prop), (forall c c', cs_h c = cs_h c' -> cs_v c = cs_v c' -> Q c -> Q' c') -> Forall Q cs -> Forall Q' cs').
  { intros Q Q' QQ F. apply Forall_forall. intros c' Ic. apply In_nth_error in Ic. destruct Ic as [k Ek]. destruct (nth_error cs k) as [c|] eqn:Ec.
    - destruct (factors_nth _ _ _ _ _ (eq_sym Ef) Ec Ek) as [Hh Hv]. apply (QQ c c' Hh Hv). rewrite Forall_forall in F. apply F. exact (nth_error_In _ _ Ec).
    - apply nth_error_None in Ec. assert (k < length cs')%nat by (apply nth_error_Some; congruence). lia. }
  split; [unfold lenZ in *; rewrite <- Lc; exact C1|]. split; [revert C2|revert C3]; apply TR; intros c c' Hh Hv.
  - unfold ratios_accepted, repeated, whole_ratios, h_ratio, v_ratio. rewrite Eh, Ev, <- Hh, <- Hv. auto.
  - unfold doubling_possible, h_ratio, v_ratio, plane_stride, plane_rows. rewrite Eh, Ev, <- Hh, <- Hv. auto.
Qed.

Lemma pixels_near : forall rayon lines samples cs ps cs' ps' t img img' y x x',
  final_answer rayon lines samples cs ps t (Ok img) -> final_answer rayon lines samples cs' ps' t (Ok img') -> length cs = length cs' ->
  0 <= y < lines -> 0 <= x < samples -> 0 <= x' < samples ->
  (Forall (ratios_accepted lines samples cs) cs ->
   forall k c c' p p', nth_error cs k = Some c -> nth_error cs' k = Some c' -> nth_error ps k = Some p -> nth_error ps' k = Some p' ->
     near 1 (comp_drawn lines samples cs' c' p' (shown_row rayon (largest (map cs_v cs')) y) x') (comp_drawn lines samples cs c p (shown_row rayon (largest (map cs_v cs)) y) x)) ->
  Forall2 (near (if lenZ cs =? 4 then 1 else 3)) (pixel (lenZ cs) samples y x' img') (pixel (lenZ cs) samples y x img).
Proof.
  intros rayon lines samples cs ps cs' ps' t img img' y x x' FA FA' L Hy Hx Hx' M.
  destruct cs as [|c0 [|c1 [|c2 [|c3 [|c4 cs]]]]].
  1-3: exfalso; inversion FA; try discriminate; cbn in *; lia.
  - destruct cs' as [|c0' [|c1' [|c2' [|c3' cs']]]]; try discriminate L. change (lenZ [c0; c1; c2]) with 3. change (3 =? 4) with false. cbv iota.
    assert (T : t = Some 0 \/ t <> Some 0) by (destruct t as [t|]; [|right; discriminate]; destruct (Z.eq_dec t 0) as [->|]; [left; reflexivity|right; congruence]). destruct T as [->|T].
    + assert (I1 : img = repeat 0 (Z.to_nat (3 * samples * lines))) by (inversion FA; [reflexivity|congruence|discriminate]).
      assert (I2 : img' = repeat 0 (Z.to_nat (3 * samples * lines))) by (inversion FA'; [reflexivity|congruence|discriminate]).
      rewrite I1, I2, !black_pixel by assumption. repeat constructor; unfold near; lia.
    + destruct (ycbcr_only _ _ _ _ _ _ _ _ _ FA T) as [p0 [p1 [p2 [-> [A [_ R]]]]]]. destruct (ycbcr_only _ _ _ _ _ _ _ _ _ FA' T) as [p0' [p1' [p2' [-> [_ [_ R']]]]]].
      specialize (M A). destruct (R y x Hy Hx) as [-> _]. destruct (R' y x' Hy Hx') as [-> _]. apply rgb_apart.
      * exact (M 0%nat c0 c0' p0 p0' eq_refl eq_refl eq_refl eq_refl).
      * exact (M 1%nat c1 c1' p1 p1' eq_refl eq_refl eq_refl eq_refl).
      * exact (M 2%nat c2 c2' p2 p2' eq_refl eq_refl eq_refl eq_refl).
  - destruct cs' as [|c0' [|c1' [|c2' [|c3' [|c4' cs']]]]]; try discriminate L. change (lenZ [c0; c1; c2; c3]) with 4. change (4 =? 4) with true. cbv iota.
    destruct (cmyk_only _ _ _ _ _ _ _ _ _ _ FA) as [p0 [p1 [p2 [p3 [-> [A [_ R]]]]]]]. destruct (cmyk_only _ _ _ _ _ _ _ _ _ _ FA') as [p0' [p1' [p2' [p3' [-> [_ [_ R']]]]]]].
    specialize (M A). pose proof (R y x Hy Hx) as ->. pose proof (R' y x' Hy Hx') as ->.
    assert (Inv : forall a b, near 1 a b -> near 1 (255 - a) (255 - b)) by (unfold near; clear; lia).
    repeat constructor; apply Inv.
    + exact (M 0%nat c0 c0' p0 p0' eq_refl eq_refl eq_refl eq_refl).
    + exact (M 1%nat c1 c1' p1 p1' eq_refl eq_refl eq_refl eq_refl).
    + exact (M 2%nat c2 c2' p2 p2' eq_refl eq_refl eq_refl eq_refl).
    + exact (M 3%nat c3 c3' p3 p3' eq_refl eq_refl eq_refl eq_refl).
  - exfalso. inversion FA; try discriminate; cbn in *; lia.
Qed.

Lemma mirror_image : forall dbg rayon segs h fill1 fill2 ss ts data post fill3 segs' h' fill1' fill2' ss' ts' data' post' fill3' qs ms ms' img,
  encodes segs h ss ts qs ms data -> encodes segs' h' ss' ts' qs ms' data' -> post_ok post -> post_ok post' ->
  let cs := fh_comps h in let lines := fh_lines h in let samples := fh_samples h in
  fh_lines h' = lines -> fh_samples h' = samples -> 0 < lines -> 0 < samples ->
  map (fun c => (cs_h c, cs_v c)) (fh_comps h') = map (fun c => (cs_h c, cs_v c)) cs ->
  last_transform (segs' ++ post') = last_transform (segs ++ post) ->
  Forall (fun c => cs_h c = 1) cs -> samples mod 8 = 0 -> mirrored (samples / 8) (mcus lines (largest (map cs_v cs))) ms ms' -> all_modest qs ms ->
  let file := file_bytes segs fill1 fill2 (mkSpS ss 0 63 0 0) data post fill3 in
  let file' := file_bytes segs' fill1' fill2' (mkSpS ss' 0 63 0 0) data' post' fill3' in
  bytes file -> bytes file' -> decode_fresh dbg rayon file = Ok img ->
  exists img', decode_fresh dbg rayon file' = Ok img' /\
    forall y x, 0 <= y < lines -> 0 <= x < samples ->
      Forall2 (fun a b => Z.abs (a - b) <= if lenZ cs =? 4 then 1 else 3) (pixel (lenZ cs) samples y x img') (pixel (lenZ cs) samples y (samples - 1 - x) img).
Proof.
  intros dbg rayon segs h fill1 fill2 ss ts data post fill3 segs' h' fill1' fill2' ss' ts' data' post' fill3' qs ms ms' img En En' PO PO' cs lines samples El Es L0 S0 Ef Et H1 M8 MI MD file file' B B' D.
  assert (HO : header_ok lines samples cs) by (apply (sof_ok segs h (en_segs _ _ _ _ _ _ _ En)); rewrite (en_frame _ _ _ _ _ _ _ En); left; reflexivity).
  assert (Hm : largest (map cs_h cs) = 1).
  { assert (N : cs <> []) by (destruct HO; assumption). clear - N H1. destruct cs as [|c cs0]; [congruence|]. inv H1. cbn [map largest fold_right]. rewrite H2. clear - H3. induction H3 as [|a l Ha F IH]; cbn [map fold_right]; [reflexivity|]. rewrite Ha. lia. }
  destruct (file_answer dbg rayon segs h fill1 fill2 ss ts qs ms data post fill3 En L0 S0 PO B) as [ps [Lp [PL FA]]].
  destruct (file_answer dbg rayon segs' h' fill1' fill2' ss' ts' qs ms' data' post' fill3' En' ltac:(lia) ltac:(lia) PO' B') as [ps' [Lp' [PL' FA']]].
  fold file in FA. fold file' in FA'. rewrite D in FA. rewrite Et, El, Es in FA'. rewrite El, Es in PL'.
  fold (factors (fh_comps h')) in Ef. fold (factors cs) in Ef. fold cs lines samples in FA, PL. set (cs' := fh_comps h') in *.
  assert (Lc : length cs = length cs') by (rewrite <- (map_length (fun c => (cs_h c, cs_v c)) cs); change (map (fun c => (cs_h c, cs_v c)) cs) with (factors cs); rewrite <- Ef; unfold factors; apply map_length).
  assert (Eh : map cs_h cs' = map cs_h cs) by (rewrite !factors_h, Ef; reflexivity). assert (Ev : map cs_v cs' = map cs_v cs) by (rewrite !factors_v, Ef; reflexivity).
  destruct (same_conditions _ _ _ _ _ _ _ _ _ _ Ef FA FA') as [img' D']. exists img'. split; [exact D'|]. rewrite D' in FA'. intros y x Hy Hx.
  apply (pixels_near rayon lines samples cs ps cs' ps' _ img img' y (samples - 1 - x) x FA FA' Lc Hy ltac:(lia) Hx).
  intros A k c c' p p' Ec Ec' Ep Ep'.
  destruct (PL k c Ec) as [q [p1 [Eq [E1 Fp]]]]. destruct (PL' k c' Ec') as [q' [p1' [Eq' [E1' Fp']]]]. assert (p1 = p) by congruence. assert (p1' = p') by congruence. assert (q' = q) by congruence. subst p1 p1' q'.
  destruct (factors_nth _ _ _ _ _ (eq_sym Ef) Ec Ec') as [Hh Hv]. apply (plane_factors _ _ cs cs' ms' k c c' q p' (eq_sym Ef) Hh Hv) in Fp'.
  assert (Ic : In c cs) by exact (nth_error_In _ _ Ec).
  assert (Ed : forall row x, comp_drawn lines samples cs' c' p' row x = comp_drawn lines samples cs c p' row x).
  { intros row x1. unfold comp_drawn, comp_shown, h_ratio, v_ratio, plane_stride. rewrite Eh, Ev, Hh, Hv. reflexivity. }
  rewrite Ed, Ev.
  rewrite Forall_forall in H1, A. assert (Fv : 1 <= cs_v c) by (destruct HO as [_ _ _ _ _ X]; rewrite Forall_forall in X; apply (X c Ic)).
  apply drawn_mirror; auto. intros y1 x1 Hy1 Hx1.
  refine (plane_mirror lines samples cs ms ms' k c q p p' y1 x1 Fv (H1 c Ic) Hm M8 S0 Ec HO (en_mcus _ _ _ _ _ _ _ En) _ _ Fp Fp' MI Hy1 Hx1).
  - pose proof (en_count _ _ _ _ _ _ _ En) as C. fold cs lines samples in C. rewrite Hm in C. exact C.
  - intros m bs Im Eb. exact (MD m k q bs Im Eq Eb).
Qed.
