(** Subsampled pictures (C72): decoded samples and pixels. *)
From Coq Require Import Reals Lra.
From Verif Require Import Base Tactics SpecBits SpecMarker SpecHuffman SpecBlock SpecTables SpecFrame SpecUpsample SpecSegments SpecColor SpecIdct SpecImage SpecPlane SpecScan SpecFile SpecAnswer SpecDct SpecExact SpecFdct SpecPlanes
  Huffman Idct Decode GeomP UpsampleP2 ParsersP FileP IdctReal ExactP EncoderP MosaicP FdctP FdctP2.
Open Scope R_scope.

Lemma plane_reproduced : forall (p : nat -> Z -> Z -> R) lines samples cs qs ms k c q e pl, 0 <= e <= 240 -> table_energy q <= (2 * e) ^ 2 ->
  (forall k y x, 0 <= p k y x <= 255) -> quantised_planes p lines samples cs qs ms -> nth_error cs k = Some c -> nth_error qs k = Some q ->
  plane_from lines samples cs ms k c q pl -> forall r x, (0 <= r < plane_rows lines cs c)%Z -> (0 <= x < plane_stride samples cs c)%Z ->
  Rabs (IZR (px pl (plane_stride samples cs c) r x) - p k r x) <= off e.
Proof.
  intros p lines samples cs qs ms k c q e pl He Hq Hp QP Ec Eq [_ P] r x Hr Hx. destruct (P r x Hr Hx) as (blk & qt & rows & V & N & R & ->).
  pose proof (block_reproduced _ q _ blk qt rows r x e He Hq (fun i j _ _ => Hp k (8 * (r / 8) + Z.of_nat i)%Z (8 * (x / 8) + Z.of_nat j)%Z) (QP k c q r x Ec Eq Hr Hx) V N R) as B. cbv beta in B.
  rewrite !Z2Nat.id in B by (apply Z.mod_pos_bound; lia). rewrite <- (Z.div_mod r 8), <- (Z.div_mod x 8) in B by lia. exact B.
Qed.
Lemma comp_picture_near : forall (p : nat -> Z -> Z -> R) rayon lines samples cs qs ms k c q e pl, 0 <= e <= 240 -> table_energy q <= (2 * e) ^ 2 ->
  (forall k y x, 0 <= p k y x <= 255) -> quantised_planes p lines samples cs qs ms -> nth_error cs k = Some c -> nth_error qs k = Some q ->
  header_ok lines samples cs -> whole_ratios cs c -> plane_from lines samples cs ms k c q pl ->
  forall y x, (0 <= y < lines)%Z -> (0 <= x < samples)%Z -> let row := shown_row rayon (largest (map cs_v cs)) y in
  Rabs (IZR (comp_shown lines samples cs c pl row x) - comp_picture lines samples cs c (p k) row x) <= off e + interpolation lines samples cs c.
Proof.
  intros p rayon lines samples cs qs ms k c q e pl He Hq Hp QP Ec Eq HO [W1 W2] P y x Hy Hx row. pose proof (nth_error_In _ _ Ec) as I.
  destruct HO as [_ _ Ne _ _ X]. rewrite Forall_forall in X. pose proof (largest_factors cs cs_h Ne (fun c H => proj1 (X c H))) as Hh.
  pose proof (largest_factors cs cs_v Ne (fun c H => proj2 (X c H))) as Hv.
  assert (Fh : (1 <= cs_h c <= largest (map cs_h cs))%Z) by (destruct (X c I); pose proof (largest_ge (map cs_h cs) (cs_h c) (in_map cs_h cs c I)); lia).
  assert (Fv : (1 <= cs_v c <= largest (map cs_v cs))%Z) by (destruct (X c I); pose proof (largest_ge (map cs_v cs) (cs_v c) (in_map cs_v cs c I)); lia).
  assert (Rw : (0 <= row < lines)%Z).
  { subst row. unfold shown_row. set (vm := largest (map cs_v cs)) in *. pose proof (Z.mul_div_le y vm ltac:(lia)). pose proof (Z.div_pos y vm ltac:(lia) ltac:(lia)).
    destruct rayon; nia. }
  destruct (in_extent samples _ _ x Hx Fh W1) as [H1 H2]. destruct (in_extent lines _ _ row Rw Fv W2) as [H3 H4].
  pose proof (extent_le samples _ _ ltac:(lia) Fh) as X1. pose proof (extent_le lines _ _ ltac:(lia) Fv) as X2.
  apply shown_near; auto; try lia.
  intros r x' Hr Hx'. apply (plane_reproduced p lines samples cs qs ms k c q e pl He Hq Hp QP Ec Eq P); unfold plane_rows, plane_stride; lia.
Qed.

Section File.
  Variables (dbg rayon : bool) (segs : list (nat * hseg)) (h : frame_header) (fill1 fill2 : nat) (ss : list scan_comp) (ts : list tables)
    (qs : list (list Z)) (ms : list mcu) (data : list Z) (post : list (nat * hseg)) (fill3 : nat) (p : nat -> Z -> Z -> R) (e : nat -> R).
  Let cs := fh_comps h.
  Let lines := fh_lines h.
  Let samples := fh_samples h.
  Let file := file_bytes segs fill1 fill2 (mkSpS ss 0 63 0 0) data post fill3.
  Hypotheses (En : encodes segs h ss ts qs ms data) (P1 : (0 < lines)%Z) (P2 : (0 < samples)%Z) (W : Forall (whole_ratios cs) cs) (WW : Forall (width_works lines samples cs) cs) (PO : post_ok post)
    (He : forall k, 0 <= e k <= 240) (Hq : forall k q, nth_error qs k = Some q -> table_energy q <= (2 * e k) ^ 2) (Hp : forall k y x, 0 <= p k y x <= 255)
    (QP : quantised_planes p lines samples cs qs ms) (B : bytes file).

  Lemma each_near : forall k c q pl, nth_error cs k = Some c -> nth_error qs k = Some q -> plane_from lines samples cs ms k c q pl ->
    forall y x, (0 <= y < lines)%Z -> (0 <= x < samples)%Z -> let row := shown_row rayon (largest (map cs_v cs)) y in
    Rabs (IZR (comp_shown lines samples cs c pl row x) - comp_picture lines samples cs c (p k) row x) <= off (e k) + interpolation lines samples cs c.
  Proof using En W He Hq Hp QP.
    intros k c q pl Ec Eq P. apply (comp_picture_near p rayon lines samples cs qs ms k c q (e k) pl (He k) (Hq k q Eq) Hp QP Ec Eq); [| |exact P].
    - apply (sof_ok segs h (en_segs _ _ _ _ _ _ _ En)). rewrite (en_frame _ _ _ _ _ _ _ En). left. reflexivity.
    - pose proof W as W'. rewrite Forall_forall in W'. apply W', (nth_error_In _ _ Ec).
  Qed.
  Lemma planes_ycbcr : forall c0 c1 c2, fh_comps h = [c0; c1; c2] -> (last (adobes (segs ++ post)) 1 <> 0)%Z ->
    exists img, decode_fresh dbg rayon file = Ok img /\ (lenZ img = 3 * samples * lines)%Z /\
      forall y x, (0 <= y < lines)%Z -> (0 <= x < samples)%Z ->
        let row := shown_row rayon (largest (map cs_v cs)) y in
        let Y := comp_picture lines samples cs c0 (p 0%nat) row x in
        let Cb := comp_picture lines samples cs c1 (p 1%nat) row x in
        let Cr := comp_picture lines samples cs c2 (p 2%nat) row x in
        let d0 := off (e 0%nat) + interpolation lines samples cs c0 in
        let d1 := off (e 1%nat) + interpolation lines samples cs c1 in
        let d2 := off (e 2%nat) + interpolation lines samples cs c2 in
        exists r g b, pixel 3 samples y x img = [r; g; b] /\
          Rabs (IZR r - exact_red Y Cb Cr) <= / 2 + d0 + 1.402 * d2 /\
          Rabs (IZR g - exact_green Y Cb Cr) <= 0.5012 + d0 + 0.34414 * d1 + 0.71414 * d2 /\
          Rabs (IZR b - exact_blue Y Cb Cr) <= / 2 + d0 + 1.772 * d1.
  Proof using En P1 P2 W WW PO He Hq Hp QP B.
    intros c0 c1 c2 C A.
    destruct (file_ycbcr dbg rayon segs h fill1 fill2 ss ts qs ms data post fill3 c0 c1 c2 En C P1 P2 W WW PO A B) as (q0 & q1 & q2 & p0 & p1 & p2 & img & Q & F0 & F1 & F2 & D & L & Px).
    exists img. split; [exact D|]. split; [exact L|]. intros y x Hy Hx row Y Cb Cr d0 d1 d2. pose proof each_near as EN.
    assert (E : nth_error cs 0 = Some c0 /\ nth_error cs 1 = Some c1 /\ nth_error cs 2 = Some c2) by (unfold cs; rewrite C; auto). destruct E as (E0 & E1 & E2).
    assert (K : nth_error qs 0 = Some q0 /\ nth_error qs 1 = Some q1 /\ nth_error qs 2 = Some q2) by (rewrite Q; auto). destruct K as (K0 & K1 & K2).
    apply (rgb_near _ _ _ _ _ _ _ _ _ _ (Px y x Hy Hx)).
    - exact (EN 0%nat c0 q0 p0 E0 K0 F0 y x Hy Hx).
    - exact (EN 1%nat c1 q1 p1 E1 K1 F1 y x Hy Hx).
    - exact (EN 2%nat c2 q2 p2 E2 K2 F2 y x Hy Hx).
  Qed.
  Lemma planes_cmyk : length (fh_comps h) = 4%nat -> adobes (segs ++ post) <> [] -> (last (adobes (segs ++ post)) 1 = 0)%Z ->
    exists img, decode_fresh dbg rayon file = Ok img /\ (lenZ img = 4 * samples * lines)%Z /\
      forall y x, (0 <= y < lines)%Z -> (0 <= x < samples)%Z ->
        let row := shown_row rayon (largest (map cs_v cs)) y in
        length (pixel 4 samples y x img) = 4%nat /\
        forall k c, nth_error cs k = Some c ->
          Rabs (IZR (nth k (pixel 4 samples y x img) 0%Z) - (255 - comp_picture lines samples cs c (p k) row x)) <= off (e k) + interpolation lines samples cs c.
  Proof using En P1 P2 W WW PO He Hq Hp QP B.
    intros C4 A1 A2. assert (CE : exists c0 c1 c2 c3, fh_comps h = [c0; c1; c2; c3]) by (clear - C4; destruct (fh_comps h) as [|c0 [|c1 [|c2 [|c3 [|]]]]]; try discriminate C4; repeat eexists). destruct CE as (c0 & c1 & c2 & c3 & C). assert (Ecs : cs = [c0; c1; c2; c3]) by exact C.
    destruct (file_cmyk dbg rayon segs h fill1 fill2 ss ts qs ms data post fill3 c0 c1 c2 c3 En C P1 P2 W WW PO A1 A2 B)
      as (q0 & q1 & q2 & q3 & p0 & p1 & p2 & p3 & img & Q & F0 & F1 & F2 & F3 & D & L & Px).
    exists img. split; [exact D|]. split; [exact L|]. intros y x Hy Hx row. pose proof (Px y x Hy Hx) as Ep. cbv zeta in Ep. fold cs lines samples row in Ep. rewrite Ep. split; [reflexivity|].
    pose proof each_near as EN.
    assert (T : forall k c q pl, nth_error cs k = Some c -> nth_error qs k = Some q -> plane_from lines samples cs ms k c q pl ->
      Rabs (IZR (255 - comp_shown lines samples cs c pl row x)%Z - (255 - comp_picture lines samples cs c (p k) row x)) <= off (e k) + interpolation lines samples cs c).
    { intros k c q pl Ec Eq P. pose proof (EN k c q pl Ec Eq P y x Hy Hx) as N. cbv zeta in N. fold row in N.
      rewrite minus_IZR. rewrite <- Rabs_Ropp in N. replace (255 - IZR (comp_shown lines samples cs c pl row x) - (255 - comp_picture lines samples cs c (p k) row x))
        with (- (IZR (comp_shown lines samples cs c pl row x) - comp_picture lines samples cs c (p k) row x)) by ring. exact N. }
    intros k c Ec. pose proof Ec as Ec'. rewrite Ecs in Ec'.
    destruct k as [|[|[|[|k]]]]; cbn [nth_error] in Ec'; [| | | |destruct k; discriminate Ec']; cbn [nth]; injection Ec' as <-.
    - exact (T 0%nat c0 q0 p0 Ec ltac:(rewrite Q; reflexivity) F0).
    - exact (T 1%nat c1 q1 p1 Ec ltac:(rewrite Q; reflexivity) F1).
    - exact (T 2%nat c2 q2 p2 Ec ltac:(rewrite Q; reflexivity) F2).
    - exact (T 3%nat c3 q3 p3 Ec ltac:(rewrite Q; reflexivity) F3).
  Qed.
End File.
