(** Decoding what a standard encoder has quantised (C72). *)
From Coq Require Import Reals Lra.
From Verif Require Import Base Tactics SpecBits SpecMarker SpecHuffman SpecBlock SpecTables SpecFrame SpecUpsample SpecSegments SpecColor SpecIdct SpecImage SpecPlane SpecScan SpecFile SpecAnswer SpecDct SpecExact SpecFdct
  Huffman Idct Decode FileP IdctReal ExactP EncoderP MosaicP FdctP.
Open Scope R_scope.

Definition off (e : R) : R := 1.9904 + 1.0014 * e.
Lemma block_reproduced : forall f q b blk qt rows r x e, 0 <= e <= 240 -> table_energy q <= (2 * e) ^ 2 ->
  (forall i j, (i < 8)%nat -> (j < 8)%nat -> 0 <= f i j <= 255) -> quantised_block f q b ->
  block_values blk (q_dc b) (q_ac b) -> natural_order qt q -> (forall dbg, idct_block_rows dbg blk qt = Ok rows) ->
  Rabs (IZR (in_block rows r x) - f (Z.to_nat (r mod 8)) (Z.to_nat (x mod 8))) <= off e.
Proof.
  intros f q b blk qt rows r x e He Hq Hf Hb BV NO R. set (s := fun i j => f i j - 128) in *. set (D := fun v u => spectrum b q v u - fdct_real s v u).
  assert (E : forall v u, (v < 8)%nat -> (u < 8)%nat -> dequantised blk qt v u = spectrum b q v u) by (intros v u Hv Hu; apply spectrum_dequantised; auto).
  assert (ED : rsum64 (fun v u => D v u ^ 2) <= e ^ 2).
  { apply (Rle_trans _ (/ 4 * table_energy q)); [|nra]. unfold table_energy. change (rsum8 (fun u => rsum8 (fun v => IZR (at_position zigzag q v u) ^ 2))) with (rsum64 (fun v u => IZR (at_position zigzag q v u) ^ 2)).
    rewrite <- rsum64_scale. apply rsum64_le. intros v u Hv Hu. specialize (Hb v u Hv Hu). fold s in Hb. change (spectrum b q v u - fdct_real s v u) with (D v u) in Hb.
    rewrite <- (pow2_abs (D v u)). pose proof (Rabs_pos (D v u)). nra. }
  assert (ID : forall i j, (i < 8)%nat -> (j < 8)%nat -> Rabs (idct_real D i j) <= e).
  { intros i j Hi Hj. apply square_le; [lra|]. apply (Rle_trans _ _ _ (idct_energy D i j Hi Hj) ED). }
  assert (IS : forall i j, (i < 8)%nat -> (j < 8)%nat -> idct_real (dequantised blk qt) i j = s i j + idct_real D i j).
  { intros i j Hi Hj. rewrite (idct_real_ext _ _ _ _ E), <- (transform_inverse s i j Hi Hj), !idct_weights, <- rsum64_plus. apply rsum64_ext. intros v u _ _. unfold D. ring. }
  assert (EF : rsum64 (fun v u => fdct_real s v u ^ 2) <= 1024 ^ 2).
  { rewrite fdct_energy. apply (Rle_trans _ (rsum64 (fun _ _ => 16384))); [|rewrite rsum64_const; lra]. apply rsum64_le. intros i j Hi Hj. specialize (Hf i j Hi Hj). unfold s. nra. }
  assert (MF : magnitude (fdct_real s) <= 8192).
  { pose proof (magnitude_energy (fdct_real s)) as M. apply (Rle_trans _ (Rabs (magnitude (fdct_real s)))); [apply Rle_abs|]. apply square_le; [lra|]. nra. }
  assert (MD : magnitude D <= 8 * e).
  { pose proof (magnitude_energy D) as M. apply (Rle_trans _ (Rabs (magnitude D))); [apply Rle_abs|]. apply square_le; [lra|]. nra. }
  assert (MS : magnitude (dequantised blk qt) <= 8192 + 8 * e).
  { rewrite (magnitude_ext _ _ E). apply (Rle_trans _ (magnitude (fdct_real s) + magnitude D)); [|lra]. unfold magnitude.
    change (rsum64 (fun v u => Rabs (spectrum b q v u)) <= rsum64 (fun v u => Rabs (fdct_real s v u)) + rsum64 (fun v u => Rabs (D v u))).
    rewrite <- rsum64_plus. apply rsum64_le. intros v u _ _. replace (spectrum b q v u) with (fdct_real s v u + D v u) by (unfold D; ring). apply Rabs_triang. }
  assert (Ab : forall a b, Rabs a <= b -> - b <= a <= b) by (intros a b0; unfold Rabs; destruct (Rcase_abs a); lra).
  destruct (sample_near true blk qt (proj1 BV)) as (rows' & R' & N).
  - lra.
  - intros i j Hi Hj. rewrite IS by assumption. pose proof (Ab _ _ (ID i j Hi Hj)). specialize (Hf i j Hi Hj). unfold s. lra.
  - rewrite R in R'. injection R' as <-. unfold in_block. set (i := Z.to_nat (r mod 8)). set (j := Z.to_nat (x mod 8)).
    assert (Hi : (i < 8)%nat) by (unfold i; pose proof (Z.mod_pos_bound r 8); lia). assert (Hj : (j < 8)%nat) by (unfold j; pose proof (Z.mod_pos_bound x 8); lia).
    specialize (N i j Hi Hj). specialize (Hf i j Hi Hj). rewrite IS in N by assumption.
    assert (L : Rabs (level (s i j + idct_real D i j) - f i j) <= e).
    { replace (f i j) with (level (f i j - 128)) by (unfold level, Rmax, Rmin; repeat destruct (Rle_dec _ _); lra). unfold level. apply limit_near. unfold s. replace (f i j - 128 + idct_real D i j + 128 - (f i j - 128 + 128)) with (idct_real D i j) by ring. apply ID; assumption. }
    apply Ab in N. apply Ab in L. apply Rabs_le. unfold off. lra.
Qed.

Lemma sample_reproduced : forall (p : nat -> Z -> Z -> R) lines samples qs ms k q y x v e, 0 <= e <= 240 -> table_energy q <= (2 * e) ^ 2 ->
  (forall k y x, 0 <= p k y x <= 255) -> quantised_picture p lines samples qs ms -> nth_error qs k = Some q -> (0 <= y < lines)%Z -> (0 <= x < samples)%Z ->
  sample_444 ms samples k q y x v -> Rabs (IZR v - p k y x) <= off e.
Proof.
  intros p lines samples qs ms k q y x v e He Hq Hp QP Eq Hy Hx (blk & qt & rows & V & N & R & ->).
  pose proof (block_reproduced _ q _ blk qt rows y x e He Hq (fun i j _ _ => Hp k (8 * (y / 8) + Z.of_nat i)%Z (8 * (x / 8) + Z.of_nat j)%Z) (QP k q y x Eq Hy Hx) V N R) as B. cbv beta in B.
  rewrite !Z2Nat.id in B by (apply Z.mod_pos_bound; lia). rewrite <- (Z.div_mod y 8), <- (Z.div_mod x 8) in B by lia. exact B.
Qed.

Section File.
  Variables (dbg rayon : bool) (segs : list (nat * hseg)) (h : frame_header) (fill1 fill2 : nat) (ss : list scan_comp) (ts : list tables)
    (qs : list (list Z)) (ms : list mcu) (data : list Z) (post : list (nat * hseg)) (fill3 : nat) (p : nat -> Z -> Z -> R) (e : R).
  Let cs := fh_comps h.
  Let lines := fh_lines h.
  Let samples := fh_samples h.
  Let file := file_bytes segs fill1 fill2 (mkSpS ss 0 63 0 0) data post fill3.
  Hypotheses (En : encodes segs h ss ts qs ms data) (P1 : (0 < lines)%Z) (P2 : (0 < samples)%Z) (FR : full_resolution cs) (PO : post_ok post)
    (He : 0 <= e <= 240) (Hq : Forall (fun q => table_energy q <= (2 * e) ^ 2) qs) (Hp : forall k y x, 0 <= p k y x <= 255)
    (QP : quantised_picture p lines samples qs ms) (B : bytes file).

  Lemma tables_count : length qs = length cs.
  Proof using En. clear - En. destruct En as [_ _ _ _ _ CC _ _ _]. destruct (codings_length _ _ _ _ _ CC) as [_ [_ [Lq _]]]. exact Lq || (symmetry; exact Lq). Qed.
  Lemma table_at : forall k, (k < length cs)%nat -> exists q, nth_error qs k = Some q /\ nth k qs [] = q /\ table_energy q <= (2 * e) ^ 2.
  Proof using En Hq.
    intros k Hk. rewrite <- tables_count in Hk. destruct (nth_error qs k) as [q|] eqn:E; [|apply nth_error_None in E; destruct (Nat.lt_irrefl _ (Nat.lt_le_trans _ _ _ Hk E))]. exists q. split; [reflexivity|]. split; [apply nth_error_nth; exact E|].
    rewrite Forall_forall in Hq. apply Hq, (nth_error_In _ _ E).
  Qed.
  Lemma quantised_cmyk : length cs = 4%nat -> adobes (segs ++ post) <> [] -> last (adobes (segs ++ post)) 1%Z = 0%Z ->
    exists img, decode_fresh dbg rayon file = Ok img /\ lenZ img = (4 * samples * lines)%Z /\
      forall y x, (0 <= y < lines)%Z -> (0 <= x < samples)%Z -> length (pixel 4 samples y x img) = 4%nat /\
        forall k, (k < 4)%nat -> Rabs (IZR (nth k (pixel 4 samples y x img) 0%Z) - (255 - p k y x)) <= off e.
  Proof using En P1 P2 FR PO He Hq Hp QP B.
    intros L4 NA NB. pose proof table_at as TA. destruct cs as [|c0 [|c1 [|c2 [|c3 [|]]]]] eqn:Ec; try discriminate L4.
    destruct (full_cmyk dbg rayon segs h fill1 fill2 ss ts qs ms data post fill3 En P1 P2 PO B ltac:(unfold cs in Ec; rewrite Ec; exact FR) ltac:(unfold cs in Ec; rewrite Ec; discriminate) c0 c1 c2 c3 Ec NA NB) as (img & D & Li & Px).
    exists img. split; [exact D|]. split; [exact Li|]. intros y x Hy Hx. destruct (Px y x Hy Hx) as (vs & Lv & Ep & S). fold samples in Ep. rewrite Ep, map_length. split; [exact Lv|].
    intros k Hk. rewrite (nth_indep _ 0%Z ((fun v => 255 - v)%Z 0%Z)) by (rewrite map_length, Lv; exact Hk). rewrite (map_nth (fun v => 255 - v)%Z), minus_IZR.
    destruct (TA k Hk) as (q & Eq & En' & Te). specialize (S k Hk). rewrite En' in S.
    pose proof (sample_reproduced p lines samples qs ms k q y x _ e He Te Hp QP Eq Hy Hx S) as R.
    replace (255 - IZR (nth k vs 0%Z) - (255 - p k y x)) with (- (IZR (nth k vs 0%Z) - p k y x)) by ring. rewrite Rabs_Ropp. exact R.
  Qed.
  Lemma quantised_ycbcr : length cs = 3%nat -> last (adobes (segs ++ post)) 1%Z <> 0%Z ->
    exists img, decode_fresh dbg rayon file = Ok img /\ lenZ img = (3 * samples * lines)%Z /\
      forall y x, (0 <= y < lines)%Z -> (0 <= x < samples)%Z ->
        let Y := p 0%nat y x in let Cb := p 1%nat y x in let Cr := p 2%nat y x in
        exists r g b, pixel 3 samples y x img = [r; g; b] /\
          Rabs (IZR r - exact_red Y Cb Cr) <= / 2 + off e + 1.402 * off e /\
          Rabs (IZR g - exact_green Y Cb Cr) <= 0.5012 + off e + 0.34414 * off e + 0.71414 * off e /\
          Rabs (IZR b - exact_blue Y Cb Cr) <= / 2 + off e + 1.772 * off e.
  Proof using En P1 P2 FR PO He Hq Hp QP B.
    intros L3 NA. pose proof table_at as TA. destruct cs as [|c0 [|c1 [|c2 [|]]]] eqn:Ec; try discriminate L3.
    destruct (full_ycbcr dbg rayon segs h fill1 fill2 ss ts qs ms data post fill3 En P1 P2 PO B ltac:(unfold cs in Ec; rewrite Ec; exact FR) ltac:(unfold cs in Ec; rewrite Ec; discriminate) c0 c1 c2 Ec NA) as (img & D & Li & Px).
    exists img. split; [exact D|]. split; [exact Li|]. intros y x Hy Hx Y Cb Cr. destruct (Px y x Hy Hx) as (vs & Lv & Rp & S).
    assert (N : forall k, (k < 3)%nat -> Rabs (IZR (nth k vs 0%Z) - p k y x) <= off e).
    { intros k Hk. destruct (TA k Hk) as (q & Eq & En' & Te). specialize (S k Hk). rewrite En' in S. exact (sample_reproduced p lines samples qs ms k q y x _ e He Te Hp QP Eq Hy Hx S). }
    apply (rgb_near _ _ _ _ _ _ _ _ _ _ Rp); apply N; lia.
  Qed.
End File.
