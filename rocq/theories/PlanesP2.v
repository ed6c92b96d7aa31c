(** Subsampled pictures (C72): the encoder. *)
From Coq Require Import Reals Lra.
From Verif Require Import Base Tactics SpecBits SpecMarker SpecHuffman SpecBlock SpecTables SpecFrame SpecUpsample SpecSegments SpecColor SpecIdct SpecImage SpecPlane SpecScan SpecFile SpecAnswer SpecDct SpecExact SpecFdct SpecEncoder SpecPlanes
  Huffman Idct Decode InvP GeomP UpsampleP2 ParsersP FileP IdctReal ExactP EncoderP MosaicP FdctP FdctP2 PictureP PlanesP.
Open Scope R_scope.

(** ** Blocks *)
Lemma divided : forall F s n, (1 <= s)%Z -> - IZR n <= F <= IZR n -> - IZR n <= F / IZR s <= IZR n.
Proof.
  intros F s n Hs [H1 H2]. assert (S : 1 <= IZR s) by (apply IZR_le; exact Hs). assert (0 <= IZR n) by lra.
  split; apply (Rmult_le_reg_r (IZR s)); try lra; unfold Rdiv; rewrite Rmult_assoc, Rinv_l, Rmult_1_r by lra; nra.
Qed.
Lemma nearest_step : forall F s, (1 <= s)%Z -> Rabs (IZR (nearest (F / IZR s)) * IZR s - F) <= IZR s / 2.
Proof.
  intros F s Hs. pose proof (rnd_near (F / IZR s)) as N. change (rnd (F / IZR s)) with (nearest (F / IZR s)) in N.
  assert (S : 1 <= IZR s) by (apply IZR_le; exact Hs).
  set (n := IZR (nearest (F / IZR s))) in *. assert (E : F = F / IZR s * IZR s) by (field; lra). set (r := F / IZR s) in *. clearbody r n. subst F.
  assert (A : - / 2 <= n - r <= / 2) by (unfold Rabs in N; destruct (Rcase_abs _); lra). apply Rabs_le. nra.
Qed.
Lemma levels_split : forall f q, length q = 64%nat ->
  q_dc (quantise f q) :: q_ac (quantise f q) = map (fun s => nearest (fdct_real (fun y x => f y x - 128) (fst (snd s)) (snd (snd s)) / IZR (fst s))) (combine q zigzag).
Proof.
  intros f q L. unfold quantise. cbn [q_dc q_ac]. destruct q as [|s q]; [discriminate L|].
  replace zigzag with ((0, 0)%nat :: tl zigzag) by (vm_compute; reflexivity). reflexivity.
Qed.
Lemma quantise_quantised : forall f q, length q = 64%nat -> Forall (fun s => (1 <= s < 65536)%Z) q -> quantised_block f q (quantise f q).
Proof.
  intros f q L P v u Hv Hu. destruct (zigzag_all v u Hv Hu) as (k & Hk & E). unfold spectrum. rewrite levels_split by exact L.
  rewrite !(at_nth zigzag _ v u k zigzag_nodup E).
  assert (Q : nth_error q k = Some (nth k q 0%Z)) by (apply nth_error_nth'; lia).
  assert (N : nth k (map (fun s => nearest (fdct_real (fun y x => f y x - 128) (fst (snd s)) (snd (snd s)) / IZR (fst s))) (combine q zigzag)) 0%Z =
    nearest (fdct_real (fun y x => f y x - 128) v u / IZR (nth k q 0%Z))).
  { apply nth_error_nth. rewrite nth_error_map.
    assert (C : nth_error (combine q zigzag) k = Some (nth k q 0%Z, (v, u))).
    { clear - Q E. revert k Q E. generalize zigzag. induction q as [|s q IH]; intros z k Q E; [destruct k; discriminate Q|].
      destruct z as [|z0 z]; [destruct k; discriminate E|]. destruct k as [|k]; [cbn in *; congruence|]. cbn [combine nth_error nth] in *. apply IH; assumption. }
    rewrite C. reflexivity. }
  rewrite N, mult_IZR. apply nearest_step. rewrite Forall_forall in P. pose proof (P _ (nth_error_In _ _ Q)). lia.
Qed.
Lemma quantise_ok : forall f q, (forall i j, (i < 8)%nat -> (j < 8)%nat -> 0 <= f i j <= 255) -> length q = 64%nat -> Forall (fun s => (1 <= s < 65536)%Z) q -> q_ok (quantise f q).
Proof.
  intros f q Hf L P. set (s := fun i j => f i j - 128).
  assert (EF : rsum64 (fun v u => fdct_real s v u ^ 2) <= 1024 ^ 2).
  { rewrite fdct_energy. apply (Rle_trans _ (rsum64 (fun _ _ => 16384))); [|rewrite rsum64_const; lra]. apply rsum64_le. intros i j Hi Hj. specialize (Hf i j Hi Hj). unfold s. nra. }
  assert (Each : forall v u, (v < 8)%nat -> (u < 8)%nat -> -1024 <= fdct_real s v u <= 1024).
  { intros v u Hv Hu. assert (A : Rabs (fdct_real s v u) <= 1024); [|unfold Rabs in A; destruct (Rcase_abs _); lra].
    apply square_le; [lra|]. apply (Rle_trans _ (rsum64 (fun v u => fdct_real s v u ^ 2))); [|exact EF].
    apply (rsum64_term (fun v u => fdct_real s v u ^ 2)); [|exact Hv|exact Hu]. intros. apply pow2_ge_0. }
  assert (DC : fdct_real s 0%nat 0%nat <= 1016).
  { rewrite fdct_ex. apply (Rle_trans _ (rsum64 (fun _ _ => / 8 * 127))); [|rewrite rsum64_const; lra]. apply rsum64_le. intros i j Hi Hj. unfold ex. specialize (Hf i j Hi Hj). unfold s. lra. }
  assert (A : Forall (fun p => (fst p < 8)%nat /\ (snd p < 8)%nat) zigzag).
  { assert (G : forallb (fun p => ((fst p <? 8) && (snd p <? 8))%nat) zigzag = true) by (vm_compute; reflexivity). rewrite forallb_forall in G. apply Forall_forall. intros p Ip. specialize (G p Ip). apply andb_prop in G. destruct G as [G1 G2]. apply Nat.ltb_lt in G1. apply Nat.ltb_lt in G2. auto. }
  unfold q_ok, quantise. cbn [q_dc q_ac]. fold s. rewrite Forall_forall in P, A. split; [|split].
  - destruct q as [|t q]; [discriminate L|]. replace zigzag with ((0, 0)%nat :: tl zigzag) by (vm_compute; reflexivity). cbn [combine map hd fst snd].
    pose proof (P t (or_introl eq_refl)) as Pt. apply rnd_range. pose proof (Each 0%nat 0%nat ltac:(lia) ltac:(lia)) as E0.
    pose proof (divided (fdct_real s 0%nat 0%nat) t 1024 ltac:(lia) ltac:(lra)) as D1.
    assert (fdct_real s 0%nat 0%nat / IZR t <= 1016); [|lra].
    assert (T : 1 <= IZR t) by (apply IZR_le; lia). apply (Rmult_le_reg_r (IZR t)); [lra|]. unfold Rdiv. rewrite Rmult_assoc, Rinv_l, Rmult_1_r by lra. nra.
  - assert (G : forall (l : list Z), length (tl l) = pred (length l)) by (intros [|]; reflexivity). rewrite G, map_length, combine_length, L. reflexivity.
  - apply Forall_forall. intros v I. assert (J : In v (map (fun s0 : Z * (nat * nat) => nearest (fdct_real s (fst (snd s0)) (snd (snd s0)) / IZR (fst s0))) (combine q zigzag)))
      by (destruct (map _ _) as [|? ?]; [contradiction|right; exact I]).
    apply in_map_iff in J. destruct J as [[t [a b]] [<- J]]. cbn [fst snd]. pose proof (in_combine_l _ _ _ _ J) as J1. pose proof (in_combine_r _ _ _ _ J) as J2.
    destruct (A _ J2) as [A1 A2]. cbn [fst snd] in A1, A2. pose proof (P t J1). apply rnd_range. pose proof (Each a b A1 A2). pose proof (divided (fdct_real s a b) t 1024 ltac:(lia) ltac:(lra)). lra.
Qed.

(** ** Images *)
Lemma zlen : forall n, length (zrange n) = Z.to_nat n.
Proof. intros n. pose proof (zrange_length n) as H. unfold lenZ in H. lia. Qed.
Lemma enc_nth : forall fs i k c, nth_error (enc_comps i fs) k = Some c -> exists h v, nth_error fs k = Some (h, v) /\ cs_h c = h /\ cs_v c = v.
Proof.
  induction fs as [|[h v] fs IH]; intros i k c E; [destruct k; discriminate E|]. destruct k as [|k]; cbn [enc_comps nth_error] in *; [|exact (IH _ _ _ E)].
  exists h, v. split; [reflexivity|]. assert (c = mkCS (i + 1) h v i) by congruence. subst c. split; reflexivity.
Qed.
Lemma block_position : forall r v, (0 < v)%Z -> (r / (8 * v) * v + r mod (8 * v) / 8 = r / 8)%Z.
Proof.
  intros r v Hv. pose proof (Z.div_mod r (8 * v) ltac:(lia)) as E. set (a := (r / (8 * v))%Z) in *. set (b := (r mod (8 * v))%Z) in *.
  rewrite E. replace (8 * v * a + b)%Z with (b + (a * v) * 8)%Z by ring. rewrite Z.div_add by lia. lia.
Qed.
Section Image.
  Variables (p : nat -> Z -> Z -> R) (lines samples : Z) (factors : list (Z * Z)) (qs : list (list Z)) (transform : option Z) (restart : Z).
  Hypotheses (Hl : (0 < lines < 65536)%Z) (Hs : (0 < samples < 65536)%Z) (Hn : (1 <= lenZ factors <= 4)%Z)
    (Hf : Forall (fun f => 1 <= fst f <= 4 /\ 1 <= snd f <= 4)%Z factors) (Ht : (fold_right (fun f n => fst f * snd f + n) 0 factors <= 10)%Z)
    (Hk : length qs = length factors) (Hq : Forall (fun q => length q = 64%nat /\ Forall (fun s => (1 <= s < 65536)%Z) q) qs)
    (Hp : forall k y x, 0 <= p k y x <= 255) (Hr : match transform with Some t => (0 <= t <= 2)%Z | None => True end) (Hi : (0 <= restart < 65536)%Z).
  Let im := planes_image p lines samples factors qs transform restart.
  Let w := mcus samples (largest (map fst factors)).
  Let hh := mcus lines (largest (map snd factors)).
  Lemma sizes : (0 < w)%Z /\ (0 < hh)%Z.
  Proof using Hl Hs Hn Hf.
    clear Ht Hk Hq Hp Hr Hi im p.
    assert (L : forall g : Z * Z -> Z, (forall f, In f factors -> 1 <= g f)%Z -> (1 <= largest (map g factors))%Z).
    { intros g G. clear - Hn G. unfold lenZ in Hn. destruct factors as [|f l]; [cbn in Hn; lia|]. cbn [map largest fold_right]. pose proof (G f (or_introl eq_refl)). unfold largest. cbn [fold_right]. lia. }
    assert (D : forall a b, (0 < a -> 1 <= b -> 0 < mcus a b)%Z). { intros a b Ha Hb. unfold mcus, ceil_div. apply Z.div_str_pos. lia. }
    rewrite Forall_forall in Hf. split; apply D; try lia; apply L; intros f I; apply Hf; exact I.
  Qed.
  Lemma planes_ok : image_ok im.
  Proof using Hl Hs Hn Hf Ht Hk Hq Hp Hr Hi.
    destruct sizes as [W H]. unfold im, planes_image. fold w hh. split; cbn [im_lines im_samples im_factors im_quant im_mcus im_transform im_restart]; try lia; auto.
    - revert Hq. apply Forall_impl. intros q [L F]. split; [exact L|]. revert F. apply Forall_impl. intros s S. lia.
    - apply Forall_forall. intros m I. apply in_map_iff in I. destruct I as [i [<- _]]. unfold planes_mcu.
      assert (G : forall fs s, Forall (fun f => 1 <= fst f <= 4 /\ 1 <= snd f <= 4)%Z fs -> (forall k, (k < length fs)%nat -> nth (s + k) factors (1, 1)%Z = nth k fs (1, 1)%Z) ->
        Forall2 (fun f (b : list qblock) => lenZ b = (fst f * snd f)%Z) fs (map (fun k => let '(h, v) := nth k factors (1, 1)%Z in
          map (fun b => quantise (fun i0 j => p k (8 * (i / w * v + b / h) + Z.of_nat i0)%Z (8 * (i mod w * h + b mod h) + Z.of_nat j)%Z) (nth k qs [])) (zrange (h * v))) (seq s (length fs)))).
      { induction fs as [|f fs IH]; intros s F E; [constructor|]. cbn [length seq map]. inversion F as [|? ? F1 F2]; subst. constructor.
        - specialize (E 0%nat ltac:(cbn; lia)). rewrite Nat.add_0_r in E. rewrite E. cbn [nth]. destruct f as [h v]. unfold lenZ. rewrite map_length, zlen. cbn [fst snd] in *. nia.
        - apply IH; [exact F2|]. intros k Kk. specialize (E (S k) ltac:(cbn; lia)). cbn [nth] in E. rewrite <- E. f_equal. lia. }
      apply (G factors 0%nat Hf). intros k _. reflexivity.
    - apply Forall_forall. intros m I. apply in_map_iff in I. destruct I as [i [<- _]]. unfold planes_mcu. apply Forall_forall. intros bs I. apply in_map_iff in I. destruct I as [k [<- I]]. apply in_seq in I.
      destruct (nth k factors (1, 1)%Z) as [h v]. apply Forall_forall. intros b I'. apply in_map_iff in I'. destruct I' as [j [<- _]].
      assert (Q : In (nth k qs []) qs) by (apply nth_In; lia). rewrite Forall_forall in Hq. destruct (Hq _ Q) as [Q1 Q2]. apply quantise_ok; auto.
    - unfold lenZ. rewrite map_length, zlen. nia.
  Qed.
  Lemma planes_quantised : quantised_planes p lines samples (fh_comps (enc_header im)) qs (im_mcus im).
  Proof using Hl Hs Hn Hf Hk Hq.
    destruct sizes as [W H]. clear Ht Hp Hr Hi. unfold im, planes_image. fold w hh. unfold enc_header. cbn [im_factors fh_comps im_mcus]. clear im.
    assert (Mh : map cs_h (enc_comps 0 factors) = map fst factors /\ map cs_v (enc_comps 0 factors) = map snd factors).
    { clear. generalize 0%Z. induction factors as [|[h v] l IH]; intros i; [split; reflexivity|]. cbn [enc_comps map]. destruct (IH (i + 1)%Z) as [-> ->]. split; reflexivity. }
    destruct Mh as [Mh Mv]. intros k c q r x Ec Eq R X. unfold plane_rows in R. unfold plane_stride in X. rewrite Mh in X |- *. rewrite Mv in R. fold w in X |- *. fold hh in R.
    destruct (enc_nth _ _ _ _ Ec) as (h & v & Ef & Eh & Ev). rewrite Eh in X |- *. rewrite Ev in R |- *.
    assert (Hv : (1 <= h <= 4 /\ 1 <= v <= 4)%Z) by (rewrite Forall_forall in Hf; exact (Hf _ (nth_error_In _ _ Ef))).
    assert (Q : length q = 64%nat /\ Forall (fun s => (1 <= s < 65536)%Z) q) by (rewrite Forall_forall in Hq; exact (Hq _ (nth_error_In _ _ Eq))).
    set (a := mcu_row v r). set (b := mcu_col h x). set (n := block_no h v r x).
    assert (A : (0 <= a < hh)%Z). { unfold a, mcu_row. split; [apply Z.div_pos; lia|apply Z.div_lt_upper_bound; lia]. }
    assert (B : (0 <= b < w)%Z). { unfold b, mcu_col. split; [apply Z.div_pos; lia|apply Z.div_lt_upper_bound; lia]. }
    assert (Nh : (0 <= x mod (8 * h) / 8 < h)%Z). { pose proof (Z.mod_pos_bound x (8 * h) ltac:(lia)). split; [apply Z.div_pos; lia|apply Z.div_lt_upper_bound; lia]. }
    assert (Nv : (0 <= r mod (8 * v) / 8 < v)%Z). { pose proof (Z.mod_pos_bound r (8 * v) ltac:(lia)). split; [apply Z.div_pos; lia|apply Z.div_lt_upper_bound; lia]. }
    assert (N : (0 <= n < h * v)%Z). { unfold n, block_no. nia. }
    assert (E1 : ((a * w + b) / w = a /\ (a * w + b) mod w = b)%Z). { rewrite Z.add_comm, Z.div_add, Z.mod_add, Z.div_small, Z.mod_small by lia. lia. }
    assert (E2 : (n / h = r mod (8 * v) / 8 /\ n mod h = x mod (8 * h) / 8)%Z).
    { unfold n, block_no. clear - Nh Nv Hv. set (s := (r mod (8 * v) / 8)%Z) in *. set (t := (x mod (8 * h) / 8)%Z) in *. clearbody s t. rewrite Z.add_comm, Z.div_add, Z.mod_add, Z.div_small, Z.mod_small by lia. lia. }
    assert (I1 : (0 <= a * w + b < hh * w)%Z) by nia.
    assert (M : nth_error (map (planes_mcu p factors qs w) (zrange (hh * w))) (Z.to_nat (a * w + b)) = Some (planes_mcu p factors qs w (a * w + b))).
    { rewrite nth_error_map, (nth_error_nth' _ 0%Z) by (rewrite zlen; lia). rewrite zrange_nth by exact I1. reflexivity. }
    assert (Lk : (k < length factors)%nat) by (apply nth_error_Some; congruence).
    assert (M2 : nth_error (planes_mcu p factors qs w (a * w + b)) k = Some (map (fun b0 => quantise (fun i j => p k (8 * (a * v + b0 / h) + Z.of_nat i)%Z (8 * (b * h + b0 mod h) + Z.of_nat j)%Z) q) (zrange (h * v)))).
    { unfold planes_mcu. rewrite nth_error_map, (nth_error_nth' _ 0%nat) by (rewrite seq_length; exact Lk). rewrite seq_nth by exact Lk. cbn [option_map Nat.add].
      rewrite (nth_error_nth _ _ _ Ef), (nth_error_nth _ _ _ Eq). destruct E1 as [-> ->]. reflexivity. }
    assert (M3 : nth_error (map (fun b0 => quantise (fun i j => p k (8 * (a * v + b0 / h) + Z.of_nat i)%Z (8 * (b * h + b0 mod h) + Z.of_nat j)%Z) q) (zrange (h * v))) (Z.to_nat n) =
      Some (quantise (fun i j => p k (8 * (r / 8) + Z.of_nat i)%Z (8 * (x / 8) + Z.of_nat j)%Z) q)).
    { rewrite nth_error_map, (nth_error_nth' _ 0%Z) by (rewrite zlen; lia). rewrite zrange_nth by exact N. cbn [option_map]. destruct E2 as [-> ->].
      unfold a, b, mcu_row, mcu_col. rewrite (block_position r v), (block_position x h) by lia. reflexivity. }
    assert (Z : q_at (map (planes_mcu p factors qs w) (zrange (hh * w))) w k h v r x = quantise (fun i j => p k (8 * (r / 8) + Z.of_nat i)%Z (8 * (x / 8) + Z.of_nat j)%Z) q).
    { transitivity (nth (Z.to_nat n) (nth k (nth (Z.to_nat (a * w + b)) (map (planes_mcu p factors qs w) (zrange (hh * w))) []) []) (mkQ 0 [])); [reflexivity|].
      eapply eq_trans; [|exact (nth_error_nth _ _ (mkQ 0 []) M3)]. f_equal. eapply eq_trans; [|exact (nth_error_nth _ _ [] M2)]. f_equal. exact (nth_error_nth _ _ [] M). }
    rewrite Z. apply quantise_quantised; [exact (proj1 Q)|exact (proj2 Q)].
  Qed.
End Image.

(** ** Files *)
Lemma round_trip : forall dbg rayon p lines samples f0 f1 f2 qs transform restart (e : nat -> R),
  let factors := [f0; f1; f2] in let cs := enc_comps 0 factors in
  (0 < lines < 65536)%Z -> (0 < samples < 65536)%Z -> Forall (fun f => 1 <= fst f <= 4 /\ 1 <= snd f <= 4)%Z factors ->
  (fst f0 * snd f0 + fst f1 * snd f1 + fst f2 * snd f2 <= 10)%Z -> Forall (whole_ratios cs) cs -> Forall (width_works lines samples cs) cs ->
  length qs = 3%nat -> Forall (fun q => length q = 64%nat /\ Forall (fun s => (1 <= s < 65536)%Z) q) qs ->
  (transform = None \/ transform = Some 1 \/ transform = Some 2)%Z -> (0 <= restart < 65536)%Z ->
  (forall k y x, 0 <= p k y x <= 255) -> (forall k, 0 <= e k <= 240) -> (forall k q, nth_error qs k = Some q -> table_energy q <= (2 * e k) ^ 2) ->
  exists img, decode_fresh dbg rayon (encode (planes_image p lines samples factors qs transform restart)) = Ok img /\ (lenZ img = 3 * samples * lines)%Z /\
    forall y x, (0 <= y < lines)%Z -> (0 <= x < samples)%Z ->
      let row := shown_row rayon (largest (map cs_v cs)) y in
      let shows k := comp_picture lines samples cs (nth k cs (mkCS 0 1 1 0)) (p k) row x in
      let d k := off (e k) + interpolation lines samples cs (nth k cs (mkCS 0 1 1 0)) in
      let Y := shows 0%nat in let Cb := shows 1%nat in let Cr := shows 2%nat in
      exists r g b, pixel 3 samples y x img = [r; g; b] /\
        Rabs (IZR r - exact_red Y Cb Cr) <= / 2 + d 0%nat + 1.402 * d 2%nat /\
        Rabs (IZR g - exact_green Y Cb Cr) <= 0.5012 + d 0%nat + 0.34414 * d 1%nat + 0.71414 * d 2%nat /\
        Rabs (IZR b - exact_blue Y Cb Cr) <= / 2 + d 0%nat + 1.772 * d 1%nat.
Proof.
  intros dbg rayon p lines samples f0 f1 f2 qs transform restart e factors cs Hl Hs Hf Ht W WW Hk Hq Tr Hi Hp He Te. set (im := planes_image p lines samples factors qs transform restart).
  assert (Hr : match transform with Some t => (0 <= t <= 2)%Z | None => True end) by (destruct Tr as [->|[->| ->]]; cbn; auto; lia).
  assert (Hn : (1 <= lenZ factors <= 4)%Z) by (unfold factors, lenZ; cbn; lia).
  assert (OK : image_ok im) by (apply planes_ok; auto; unfold factors; cbn [fold_right]; lia).
  assert (QP : quantised_planes p lines samples cs qs (im_mcus im)) by exact (planes_quantised p lines samples factors qs transform restart Hl Hs Hn Hf Hk Hq).
  destruct f0 as [h0 v0], f1 as [h1 v1], f2 as [h2 v2].
  exact (planes_ycbcr dbg rayon (enc_segs im) (enc_header im) 0 0 (enc_ss im) (repeat enc_ts (length (im_factors im))) qs (im_mcus im) (enc_data im) [] 0 p e (enc_encodes im OK)
    (proj1 Hl) (proj1 Hs) W WW (conj (Forall_nil _) eq_refl) He Te Hp QP (enc_bytes im OK) _ _ _ eq_refl
    ltac:(unfold im, enc_segs, planes_image; cbn [im_transform]; destruct Tr as [->|[->| ->]]; cbn; discriminate)).
Qed.
