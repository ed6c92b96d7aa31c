(** Distance between decoded images and exact ones. *)
From Coq Require Import Reals Lra.
From Verif Require Import Base Tactics SpecBits SpecColor SpecBlock SpecFrame SpecSegments SpecUpsample SpecScan SpecFile SpecImage SpecPlane SpecDct SpecIdct SpecExact Idct Decode GeomP UpsampleP2 IdctReal ParsersP FileP.
Open Scope R_scope.

(** ** Spectra *)
Lemma at_nth : forall order xs v u k, NoDup order -> nth_error order k = Some (v, u) -> at_position order xs v u = nth k xs 0%Z.
Proof.
  induction order as [|[r c] order IH]; intros xs v u k N E; [destruct k; discriminate E|].
  inversion N as [|? ? N1 N2]; subst. destruct xs as [|x xs]; [destruct k; reflexivity|]. destruct k as [|k]; cbn [nth_error nth at_position] in *.
  - injection E as -> ->. rewrite !Nat.eqb_refl. reflexivity.
  - destruct ((r =? v) && (c =? u))%nat eqn:Q; [|auto]. exfalso. apply N1. apply andb_prop in Q. destruct Q as [Q1 Q2].
    apply Nat.eqb_eq in Q1. apply Nat.eqb_eq in Q2. subst. apply nth_error_In with k. auto.
Qed.
Lemma zigzag_nodup : NoDup zigzag.
Proof.
  assert (E : nodup (fun a b : nat * nat => ltac:(decide equality; apply Nat.eq_dec)) zigzag = zigzag) by (vm_compute; reflexivity).
  rewrite <- E. apply NoDup_nodup.
Qed.
Lemma zigzag_all : forall v u, (v < 8)%nat -> (u < 8)%nat -> exists k, (k < 64)%nat /\ nth_error zigzag k = Some (v, u).
Proof.
  intros v u Hv Hu. assert (I : In (v, u) zigzag).
  { assert (G : forallb (fun p => existsb (fun q => ((fst p =? fst q) && (snd p =? snd q))%nat) zigzag) (list_prod (seq 0 8) (seq 0 8)) = true) by (vm_compute; reflexivity).
    rewrite forallb_forall in G. specialize (G (v, u) ltac:(apply in_prod; apply in_seq; lia)). apply existsb_exists in G. destruct G as ([a b] & I & Q).
    cbn [fst snd] in Q. apply andb_prop in Q. destruct Q as [Q1 Q2]. apply Nat.eqb_eq in Q1. apply Nat.eqb_eq in Q2. subst. exact I. }
  apply In_nth_error in I. destruct I as [k K]. exists k. split; [|exact K].
  assert (L : length zigzag = 64%nat) by (vm_compute; reflexivity). rewrite <- L. apply nth_error_Some. rewrite K. discriminate.
Qed.
Lemma at_natural : forall l xs v u, (v < 8)%nat -> (u < 8)%nat -> (forall k, (k < 64)%nat -> nth (natural k) l 0%Z = nth k xs 0%Z) ->
  nth (u + 8 * v) l 0%Z = at_position zigzag xs v u.
Proof.
  intros l xs v u Hv Hu H. destruct (zigzag_all v u Hv Hu) as (k & K & E). rewrite (at_nth _ _ _ _ k zigzag_nodup E), <- H by auto.
  unfold natural. rewrite (nth_error_nth zigzag k (0, 0)%nat E). f_equal. lia.
Qed.
Lemma spectrum_dequantised : forall b q blk qt v u, (v < 8)%nat -> (u < 8)%nat -> block_values blk (q_dc b) (q_ac b) -> natural_order qt q ->
  dequantised blk qt v u = spectrum b q v u.
Proof.
  intros b q blk qt v u Hv Hu [_ B] [_ N]. unfold dequantised, spectrum. rewrite (at_natural _ _ v u Hv Hu B), (at_natural _ _ v u Hv Hu N). reflexivity.
Qed.
Lemma magnitude_ext : forall F G, (forall v u, (v < 8)%nat -> (u < 8)%nat -> F v u = G v u) -> magnitude F = magnitude G.
Proof. intros F G H. unfold magnitude. apply rsum8_ext. intros u Hu. apply rsum8_ext. intros v Hv. rewrite H; auto. Qed.
Lemma idct_real_ext : forall F G y x, (forall v u, (v < 8)%nat -> (u < 8)%nat -> F v u = G v u) -> idct_real F y x = idct_real G y x.
Proof. intros F G y x H. unfold idct_real. f_equal. apply rsum8_ext. intros u Hu. apply rsum8_ext. intros v Hv. rewrite H; auto. Qed.

(** ** Samples *)
Lemma block_near : forall M b q blk qt rows r x, M <= 65536 -> (forall y x, (y < 8)%nat -> (x < 8)%nat -> -240 <= 128 + idct_real (spectrum b q) y x <= 750) -> block_values blk (q_dc b) (q_ac b) -> natural_order qt q ->
  (forall dbg, idct_block_rows dbg blk qt = Ok rows) -> magnitude (spectrum b q) <= M ->
  Rabs (IZR (in_block rows r x) - level (idct_real (spectrum b q) (Z.to_nat (r mod 8)) (Z.to_nat (x mod 8)))) <= 5 / 8 + M / 6000.
Proof.
  intros M b q blk qt rows r x HM G BV NO R Q. assert (E : forall v u, (v < 8)%nat -> (u < 8)%nat -> dequantised blk qt v u = spectrum b q v u).
  { intros v u Hv Hu. apply spectrum_dequantised; auto. }
  rewrite <- (magnitude_ext _ _ E) in Q. destruct (sample_near true blk qt (proj1 BV)) as (rows' & R' & N).
  - lra.
  - intros y x' Hy Hx. rewrite (idct_real_ext _ _ _ _ E). apply G; assumption.
  - rewrite R in R'. injection R' as <-. rewrite <- (idct_real_ext _ _ _ _ E). unfold in_block.
    specialize (N (Z.to_nat (r mod 8)) (Z.to_nat (x mod 8)) ltac:(lia) ltac:(lia)). lra.
Qed.

(** ** Interpolation *)
Lemma rounded : forall n d : Z, (0 < d)%Z -> (d mod 2 = 0)%Z -> Rabs (IZR ((n + d / 2) / d) - IZR n / IZR d) <= / 2.
Proof.
  intros n d D E. assert (B : (2 * n - d <= 2 * d * ((n + d / 2) / d) <= 2 * n + d)%Z).
  { pose proof (Z.div_mod (n + d / 2) d ltac:(lia)). pose proof (Z.mod_pos_bound (n + d / 2) d D). lia. }
  assert (P : 0 < IZR d) by (apply IZR_lt; auto). destruct B as [B1 B2]. apply IZR_le in B1. apply IZR_le in B2.
  rewrite minus_IZR, !mult_IZR in B1. rewrite plus_IZR, !mult_IZR in B2. set (k := IZR ((n + d / 2) / d)) in *.
  apply Rabs_le. split; apply (Rmult_le_reg_l (2 * IZR d)); try lra; unfold Rdiv; field_simplify; try lra.
Qed.

Lemma neighbour_range : forall last i, (0 <= i -> i / 2 <= last -> 0 <= neighbour last i <= last)%Z.
Proof. intros last i H1 H2. unfold neighbour. destruct (Z.even i); lia. Qed.
Lemma near_avg2 : forall (a b : Z) (f g e : R), Rabs (IZR a - f) <= e -> Rabs (IZR b - g) <= e ->
  Rabs (IZR ((3 * a + b + 2) / 4) - (3 * f + g) / 4) <= e + / 2.
Proof.
  intros a b f g e A B. pose proof (rounded (3 * a + b) 4 ltac:(lia) eq_refl) as Q. change (4 / 2)%Z with 2%Z in Q. change (IZR 4) with 4 in Q. rewrite plus_IZR, mult_IZR in Q.
  set (k := IZR ((3 * a + b + 2) / 4)) in *. change (IZR 3) with 3 in Q. revert A B Q. unfold Rabs. repeat destruct (Rcase_abs _); lra.
Qed.
Lemma near_avg4 : forall (a b c d : Z) (f g h i e : R), Rabs (IZR a - f) <= e -> Rabs (IZR b - g) <= e -> Rabs (IZR c - h) <= e -> Rabs (IZR d - i) <= e ->
  Rabs (IZR ((9 * a + 3 * b + 3 * c + d + 8) / 16) - (9 * f + 3 * g + 3 * h + i) / 16) <= e + / 2.
Proof.
  intros a b c d f g h i e A B C D. pose proof (rounded (9 * a + 3 * b + 3 * c + d) 16 ltac:(lia) eq_refl) as Q. change (16 / 2)%Z with 8%Z in Q.
  rewrite !plus_IZR, !mult_IZR in Q. set (k := IZR ((9 * a + 3 * b + 3 * c + d + 8) / 16)) in *.
  apply Rabs_le. apply Rabs_def2 in Q || idtac.
  assert (R : forall x y, Rabs x <= y -> - y <= x <= y) by (intros x y; unfold Rabs; destruct (Rcase_abs _); lra).
  apply R in A, B, C, D, Q. lra.
Qed.
Lemma shown_near : forall hr vr p stride w h row x f e,
  (forall r c, (0 <= r < h)%Z -> (0 <= c < w)%Z -> Rabs (IZR (px p stride r c) - f r c) <= e) ->
  (1 <= hr)%Z -> (1 <= vr)%Z -> (0 <= row)%Z -> (row / vr < h)%Z -> (0 <= x)%Z -> (x / hr < w)%Z ->
  Rabs (IZR (shown hr vr p stride w h row x) - shown_exact hr vr f w h row x) <= e + (if (Z.max hr vr =? 2)%Z then / 2 else 0).
Proof.
  intros hr vr p stride w h row x f e N H1 H2 R1 R2 X1 X2. assert (R3 : (0 <= row / vr)%Z) by (apply Z.div_pos; lia). assert (X3 : (0 <= x / hr)%Z) by (apply Z.div_pos; lia). unfold shown, shown_exact.
  destruct (Z.eqb_spec hr 1) as [->|A1]; [destruct (Z.eqb_spec vr 1) as [->|A2]; [|destruct (Z.eqb_spec vr 2) as [->|A3]]|destruct (Z.eqb_spec hr 2) as [->|A2]; [destruct (Z.eqb_spec vr 1) as [->|A3]; [|destruct (Z.eqb_spec vr 2) as [->|A4]]|]].
  - cbn [andb]. change (Z.max 1 1 =? 2)%Z with false. rewrite Z.div_1_r in *. rewrite Rplus_0_r. apply N; lia.
  - change ((1 =? 2) && (2 =? 1))%Z with false. cbn [andb]. change (Z.max 1 2 =? 2)%Z with true. rewrite Z.div_1_r in *. unfold double_height.
    pose proof (neighbour_range (h - 1) row R1 ltac:(lia)). apply near_avg2; apply N; lia.
  - change (1 =? 2)%Z with false. cbn [andb]. replace (Z.max 1 vr =? 2)%Z with false by lia. rewrite Rplus_0_r. apply N; lia.
  - cbn [andb]. change (2 =? 1)%Z with false. change (Z.max 2 1 =? 2)%Z with true. rewrite Z.div_1_r in *. unfold double_width.
    pose proof (neighbour_range (w - 1) x X1 ltac:(lia)). apply near_avg2; apply N; lia.
  - cbn [andb]. change (2 =? 1)%Z with false. change (Z.max 2 2 =? 2)%Z with true. cbn [andb]. unfold double_both.
    pose proof (neighbour_range (w - 1) x X1 ltac:(lia)). pose proof (neighbour_range (h - 1) row R1 ltac:(lia)). apply near_avg4; apply N; lia.
  - cbn [andb]. change (2 =? 1)%Z with false. cbn [andb]. replace (Z.max 2 vr =? 2)%Z with false by lia. rewrite Rplus_0_r. apply N; lia.
  - replace (hr =? 1)%Z with false by lia. cbn [andb]. replace (Z.max hr vr =? 2)%Z with false by lia. rewrite Rplus_0_r. apply N; lia.
Qed.

Lemma in_extent : forall len f fm i, (0 <= i < len)%Z -> (1 <= f <= fm)%Z -> (fm mod f = 0)%Z ->
  (1 <= ratio len f fm /\ i / ratio len f fm < extent len f fm)%Z.
Proof.
  intros len f fm i H1 H2 D. unfold ratio. destruct (Z.eqb_spec len 1) as [->|N].
  - rewrite extent_one by auto. split; [lia|]. replace i with 0%Z by lia. reflexivity.
  - pose proof (extent_covers len f fm ltac:(lia) H2 D) as C. assert (Q : (1 <= fm / f)%Z) by (apply Z.div_le_lower_bound; lia). split; [exact Q|].
    apply Z.div_lt_upper_bound; nia.
Qed.

(** ** Colours *)
Lemma sat_limited : forall n, IZR (sat n) = limited (IZR n).
Proof.
  intros n. unfold sat, limited. rewrite <- (max_IZR 0), <- (min_IZR 255) || idtac.
  destruct (Z.max_spec 0 (Z.min 255 n)) as [[A ->]|[A ->]]; destruct (Z.min_spec 255 n) as [[B C]|[B C]]; rewrite ?C in *;
    try apply IZR_lt in A; try apply IZR_le in A; try apply IZR_lt in B; try apply IZR_le in B;
    unfold Rmax, Rmin; repeat destruct (Rle_dec _ _); lra.
Qed.
Lemma limited_near : forall a b e, Rabs (a - b) <= e -> Rabs (limited a - limited b) <= e.
Proof.
  intros a b e. unfold limited, Rmax, Rmin, Rabs. repeat destruct (Rle_dec _ _); repeat destruct (Rcase_abs _); lra.
Qed.
Lemma rounds_near : forall tol x v r e, rounds_to tol x v -> Rabs (IZR x / 100000 - r) <= e ->
  Rabs (IZR v - limited r) <= / 2 + IZR tol / 100000 + e.
Proof.
  intros tol x v r e (n & A & ->) B. rewrite sat_limited. apply limited_near. apply IZR_le in A. rewrite abs_IZR, minus_IZR, plus_IZR, mult_IZR in A.
  revert A B. unfold Rabs. repeat destruct (Rcase_abs _); lra.
Qed.

(** ** Planes *)
Lemma spectrum_none : forall q v u, spectrum (mkQ 0 []) q v u = 0.
Proof.
  intros q v u. unfold spectrum. cbn [q_dc q_ac]. replace (at_position zigzag [0%Z] v u) with 0%Z; [rewrite Z.mul_0_l; reflexivity|].
  generalize zigzag. intros [|[r c] o]; cbn [at_position]; [reflexivity|]. destruct ((r =? v) && (c =? u))%nat; [reflexivity|]. destruct o as [|[? ?] o]; reflexivity.
Qed.
Lemma magnitude_none : forall q, magnitude (spectrum (mkQ 0 []) q) = 0.
Proof.
  intros q. rewrite (magnitude_ext _ (fun _ _ => 0)) by (intros; apply spectrum_none). unfold magnitude, rsum8. rewrite Rabs_R0. ring.
Qed.
Lemma q_at_within : forall M ms qs w k h v r c q, 0 <= M -> spectra_within M ms qs -> nth_error qs k = Some q ->
  magnitude (spectrum (q_at ms w k h v r c) q) <= M.
Proof.
  intros M ms qs w k h v r c q HM S E. unfold q_at.
  destruct (nth_in_or_default (Z.to_nat (block_no h v r c)) (nth k (nth (Z.to_nat (mcu_row v r * w + mcu_col h c)) ms []) []) (mkQ 0 [])) as [I| ->].
  - destruct (nth_in_or_default (Z.to_nat (mcu_row v r * w + mcu_col h c)) ms []) as [I2|E2].
    + exact (S _ k q _ I2 E I).
    + rewrite E2 in I. destruct k; destruct I.
  - rewrite magnitude_none. exact HM.
Qed.
Lemma q_at_reach : forall ms qs w k h v r c q, samples_in_reach ms qs -> nth_error qs k = Some q ->
  forall y x, (y < 8)%nat -> (x < 8)%nat -> -240 <= 128 + idct_real (spectrum (q_at ms w k h v r c) q) y x <= 750.
Proof.
  intros ms qs w k h v r c q S E y x Hy Hx. unfold q_at.
  destruct (nth_in_or_default (Z.to_nat (block_no h v r c)) (nth k (nth (Z.to_nat (mcu_row v r * w + mcu_col h c)) ms []) []) (mkQ 0 [])) as [I| ->].
  - destruct (nth_in_or_default (Z.to_nat (mcu_row v r * w + mcu_col h c)) ms []) as [I2|E2].
    + exact (S _ k q _ I2 E I y x Hy Hx).
    + rewrite E2 in I. destruct k; destruct I.
  - pose proof (idct_real_bound (spectrum (mkQ 0 []) q) y x Hy Hx) as B. rewrite magnitude_none in B. unfold Rabs in B. destruct (Rcase_abs _); lra.
Qed.
Lemma small_reach : forall ms qs, spectra_within 1472 ms qs -> samples_in_reach ms qs.
Proof.
  intros ms qs S m k q b I E Ib y x Hy Hx. pose proof (S m k q b I E Ib) as M. pose proof (idct_real_bound (spectrum b q) y x Hy Hx) as B.
  assert (- 368 <= idct_real (spectrum b q) y x <= 368) by (unfold Rabs in B; destruct (Rcase_abs _); lra). lra.
Qed.
Lemma plane_near : forall M lines samples cs ms qs k c q p, 0 <= M <= 65536 -> spectra_within M ms qs -> samples_in_reach ms qs -> nth_error qs k = Some q ->
  plane_from lines samples cs ms k c q p -> forall r x, (0 <= r < plane_rows lines cs c)%Z -> (0 <= x < plane_stride samples cs c)%Z ->
  Rabs (IZR (px p (plane_stride samples cs c) r x) - exact_sample ms (mcus samples (largest (map cs_h cs))) k c q r x) <= 5 / 8 + M / 6000.
Proof.
  intros M lines samples cs ms qs k c q p HM S G E [_ P] r x Hr Hx. destruct (P r x Hr Hx) as (blk & qt & rows & B & N & R & ->).
  unfold exact_sample. exact (block_near M _ q blk qt rows r x (proj2 HM) (q_at_reach ms qs _ k _ _ r x q G E) B N R (q_at_within M ms qs _ k _ _ r x q (proj1 HM) S E)).
Qed.
Lemma comp_near : forall M rayon lines samples cs ms qs k c q p, 0 <= M <= 65536 -> spectra_within M ms qs -> samples_in_reach ms qs -> nth_error qs k = Some q ->
  header_ok lines samples cs -> In c cs -> whole_ratios cs c -> plane_from lines samples cs ms k c q p ->
  forall y x, (0 <= y < lines)%Z -> (0 <= x < samples)%Z -> let row := shown_row rayon (largest (map cs_v cs)) y in
  Rabs (IZR (comp_shown lines samples cs c p row x) - comp_exact lines samples cs ms k c q row x) <= 5 / 8 + M / 6000 + interpolation lines samples cs c.
Proof.
  intros M rayon lines samples cs ms qs k c q p HM S G E HO I [W1 W2] P y x Hy Hx row.
  destruct HO as [_ _ Ne _ _ X]. rewrite Forall_forall in X. pose proof (largest_factors cs cs_h Ne (fun c H => proj1 (X c H))) as Hh.
  pose proof (largest_factors cs cs_v Ne (fun c H => proj2 (X c H))) as Hv.
  assert (Fh : (1 <= cs_h c <= largest (map cs_h cs))%Z) by (destruct (X c I); pose proof (largest_ge (map cs_h cs) (cs_h c) (in_map cs_h cs c I)); lia).
  assert (Fv : (1 <= cs_v c <= largest (map cs_v cs))%Z) by (destruct (X c I); pose proof (largest_ge (map cs_v cs) (cs_v c) (in_map cs_v cs c I)); lia).
  assert (Rw : (0 <= row < lines)%Z).
  { subst row. unfold shown_row. set (vm := largest (map cs_v cs)) in *. pose proof (Z.mul_div_le y vm ltac:(lia)). pose proof (Z.div_pos y vm ltac:(lia) ltac:(lia)).
    destruct rayon; nia. }
  destruct (in_extent samples _ _ x Hx Fh W1) as [H1 H2]. destruct (in_extent lines _ _ row Rw Fv W2) as [H3 H4].
  pose proof (extent_le samples _ _ ltac:(lia) Fh) as X1. pose proof (extent_le lines _ _ ltac:(lia) Fv) as X2.
  apply shown_near; auto; try lia.
  intros r x' Hr Hx'. apply (plane_near M lines samples cs ms qs k c q p HM S G E P); unfold plane_rows, plane_stride; lia.
Qed.

(** ** Images *)
Lemma rgb_near : forall y cb cr Y Cb Cr e0 e1 e2 px, rgb_pixel y cb cr px ->
  Rabs (IZR y - Y) <= e0 -> Rabs (IZR cb - Cb) <= e1 -> Rabs (IZR cr - Cr) <= e2 ->
  exists r g b, px = [r; g; b] /\
    Rabs (IZR r - exact_red Y Cb Cr) <= / 2 + e0 + 1.402 * e2 /\
    Rabs (IZR g - exact_green Y Cb Cr) <= 0.5012 + e0 + 0.34414 * e1 + 0.71414 * e2 /\
    Rabs (IZR b - exact_blue Y Cb Cr) <= / 2 + e0 + 1.772 * e1.
Proof.
  intros y cb cr Y Cb Cr e0 e1 e2 px (_ & r & g & b & -> & R & G & B) A0 A1 A2. exists r, g, b. split; [reflexivity|].
  assert (T : forall x y, Rabs x <= y -> - y <= x <= y) by (intros u w; unfold Rabs; destruct (Rcase_abs _); lra).
  apply T in A0, A1, A2. split; [|split].
  - pose proof (rounds_near _ _ _ (Y + 1.402 * (Cr - 128)) (e0 + 1.402 * e2) R) as Q. unfold exact_red. cbv beta in Q.
    assert (H : Rabs (IZR (bt_r y cb cr) / 100000 - (Y + 1.402 * (Cr - 128))) <= e0 + 1.402 * e2).
    { unfold bt_r. rewrite plus_IZR, !mult_IZR, minus_IZR. apply Rabs_le. lra. }
    specialize (Q H). lra.
  - pose proof (rounds_near _ _ _ (Y - 0.34414 * (Cb - 128) - 0.71414 * (Cr - 128)) (e0 + 0.34414 * e1 + 0.71414 * e2) G) as Q. unfold exact_green.
    assert (H : Rabs (IZR (bt_g y cb cr) / 100000 - (Y - 0.34414 * (Cb - 128) - 0.71414 * (Cr - 128))) <= e0 + 0.34414 * e1 + 0.71414 * e2).
    { unfold bt_g. rewrite !minus_IZR, !mult_IZR, !minus_IZR. apply Rabs_le. lra. }
    specialize (Q H). lra.
  - pose proof (rounds_near _ _ _ (Y + 1.772 * (Cb - 128)) (e0 + 1.772 * e1) B) as Q. unfold exact_blue.
    assert (H : Rabs (IZR (bt_b y cb cr) / 100000 - (Y + 1.772 * (Cb - 128))) <= e0 + 1.772 * e1).
    { unfold bt_b. rewrite plus_IZR, !mult_IZR, minus_IZR. apply Rabs_le. lra. }
    specialize (Q H). lra.
Qed.

Lemma file_near : forall dbg rayon segs h fill1 fill2 ss ts qs ms data post fill3 c0 c1 c2 M,
  encodes segs h ss ts qs ms data -> fh_comps h = [c0; c1; c2] ->
  let cs := fh_comps h in let lines := fh_lines h in let samples := fh_samples h in
  (0 < lines)%Z -> (0 < samples)%Z -> Forall (whole_ratios cs) cs -> Forall (width_works lines samples cs) cs -> post_ok post ->
  (last (adobes (segs ++ post)) 1 <> 0)%Z -> 0 <= M <= 65536 -> spectra_within M ms qs -> samples_in_reach ms qs ->
  let file := file_bytes segs fill1 fill2 (mkSpS ss 0 63 0 0) data post fill3 in bytes file ->
  exists q0 q1 q2 img, qs = [q0; q1; q2] /\ decode_fresh dbg rayon file = Ok img /\ (lenZ img = 3 * samples * lines)%Z /\
    forall y x, (0 <= y < lines)%Z -> (0 <= x < samples)%Z ->
      let row := shown_row rayon (largest (map cs_v cs)) y in
      let Y := comp_exact lines samples cs ms 0 c0 q0 row x in
      let Cb := comp_exact lines samples cs ms 1 c1 q1 row x in
      let Cr := comp_exact lines samples cs ms 2 c2 q2 row x in
      let e := fun c => 5 / 8 + M / 6000 + interpolation lines samples cs c in
      exists r g b, pixel 3 samples y x img = [r; g; b] /\
        Rabs (IZR r - exact_red Y Cb Cr) <= / 2 + e c0 + 1.402 * e c2 /\
        Rabs (IZR g - exact_green Y Cb Cr) <= 0.5012 + e c0 + 0.34414 * e c1 + 0.71414 * e c2 /\
        Rabs (IZR b - exact_blue Y Cb Cr) <= / 2 + e c0 + 1.772 * e c1.
Proof.
  intros dbg rayon segs h fill1 fill2 ss ts qs ms data post fill3 c0 c1 c2 M En C cs lines samples Hl Hs W WW PO A HM S G file B.
  destruct (file_ycbcr dbg rayon segs h fill1 fill2 ss ts qs ms data post fill3 c0 c1 c2 En C Hl Hs W WW PO A B) as (q0 & q1 & q2 & p0 & p1 & p2 & img & Q & P0 & P1 & P2 & D & L & Px).
  exists q0, q1, q2, img. splits; auto. intros y x Hy Hx row Y Cb Cr e.
  assert (HO : header_ok lines samples cs). { apply (sof_ok segs h (en_segs _ _ _ _ _ _ _ En)). rewrite (en_frame _ _ _ _ _ _ _ En). left. reflexivity. }
  rewrite Forall_forall in W. unfold e. subst qs.
  assert (I : In c0 cs /\ In c1 cs /\ In c2 cs) by (unfold cs; rewrite C; cbn; auto 8). destruct I as (I0 & I1 & I2).
  apply (rgb_near _ _ _ _ _ _ _ _ _ _ (Px y x Hy Hx)).
  - exact (comp_near M rayon lines samples cs ms _ 0 c0 q0 p0 HM S G eq_refl HO I0 (W _ I0) P0 y x Hy Hx).
  - exact (comp_near M rayon lines samples cs ms _ 1 c1 q1 p1 HM S G eq_refl HO I1 (W _ I1) P1 y x Hy Hx).
  - exact (comp_near M rayon lines samples cs ms _ 2 c2 q2 p2 HM S G eq_refl HO I2 (W _ I2) P2 y x Hy Hx).
Qed.

Lemma file_near_cmyk : forall dbg rayon segs h fill1 fill2 ss ts qs ms data post fill3 c0 c1 c2 c3 M,
  encodes segs h ss ts qs ms data -> fh_comps h = [c0; c1; c2; c3] ->
  let cs := fh_comps h in let lines := fh_lines h in let samples := fh_samples h in
  (0 < lines)%Z -> (0 < samples)%Z -> Forall (whole_ratios cs) cs -> Forall (width_works lines samples cs) cs -> post_ok post ->
  adobes (segs ++ post) <> [] -> (last (adobes (segs ++ post)) 1 = 0)%Z -> 0 <= M <= 65536 -> spectra_within M ms qs -> samples_in_reach ms qs ->
  let file := file_bytes segs fill1 fill2 (mkSpS ss 0 63 0 0) data post fill3 in bytes file ->
  exists img, decode_fresh dbg rayon file = Ok img /\ (lenZ img = 4 * samples * lines)%Z /\
    forall y x, (0 <= y < lines)%Z -> (0 <= x < samples)%Z ->
      let row := shown_row rayon (largest (map cs_v cs)) y in
      length (pixel 4 samples y x img) = 4%nat /\
      forall k c q v, nth_error cs k = Some c -> nth_error qs k = Some q -> nth_error (pixel 4 samples y x img) k = Some v ->
        Rabs (IZR v - (255 - comp_exact lines samples cs ms k c q row x)) <= 5 / 8 + M / 6000 + interpolation lines samples cs c.
Proof.
  intros dbg rayon segs h fill1 fill2 ss ts qs ms data post fill3 c0 c1 c2 c3 M En C cs lines samples Hl Hs W WW PO A1 A2 HM S G file B.
  destruct (file_cmyk dbg rayon segs h fill1 fill2 ss ts qs ms data post fill3 c0 c1 c2 c3 En C Hl Hs W WW PO A1 A2 B)
    as (q0 & q1 & q2 & q3 & p0 & p1 & p2 & p3 & img & Q & P0 & P1 & P2 & P3 & D & L & Px).
  exists img. splits; auto. intros y x Hy Hx row. pose proof (Px y x Hy Hx) as Ep. cbv zeta in Ep. fold cs lines samples row in Ep. rewrite Ep. split; [reflexivity|].
  assert (HO : header_ok lines samples cs). { apply (sof_ok segs h (en_segs _ _ _ _ _ _ _ En)). rewrite (en_frame _ _ _ _ _ _ _ En). left. reflexivity. }
  rewrite Forall_forall in W.
  assert (T : forall k c q p v, nth_error cs k = Some c -> nth_error qs k = Some q -> plane_from lines samples cs ms k c q p ->
    Some (255 - comp_shown lines samples cs c p row x)%Z = Some v -> Rabs (IZR v - (255 - comp_exact lines samples cs ms k c q row x)) <= 5 / 8 + M / 6000 + interpolation lines samples cs c).
  { intros k c q p v Ec Eq P E. assert (Ev : v = (255 - comp_shown lines samples cs c p row x)%Z) by congruence. subst v. clear E. pose proof (nth_error_In _ _ Ec) as I.
    pose proof (comp_near M rayon lines samples cs ms _ k c q p HM S G Eq HO I (W _ I) P y x Hy Hx) as N. cbv zeta in N. fold row in N.
    rewrite minus_IZR. rewrite <- Rabs_Ropp in N. replace (255 - IZR (comp_shown lines samples cs c p row x) - (255 - comp_exact lines samples cs ms k c q row x))
      with (- (IZR (comp_shown lines samples cs c p row x) - comp_exact lines samples cs ms k c q row x)) by ring. exact N. }
  assert (Ecs : cs = [c0; c1; c2; c3]) by exact C.
  intros k c q v Ec Eq Ev. pose proof Ec as Ec'. pose proof Eq as Eq'. rewrite Ecs in Ec'. rewrite Q in Eq'.
  destruct k as [|[|[|[|k]]]]; cbn [nth_error] in Ec', Eq', Ev; [| | | |destruct k; discriminate Ec']; injection Ec' as <-; injection Eq' as <-.
  - exact (T _ _ _ _ _ Ec Eq P0 Ev).
  - exact (T _ _ _ _ _ Ec Eq P1 Ev).
  - exact (T _ _ _ _ _ Ec Eq P2 Ev).
  - exact (T _ _ _ _ _ Ec Eq P3 Ev).
Qed.

(** ** Components of full resolution *)
Lemma largest_one : forall (f : comp_spec -> Z) cs, cs <> [] -> (forall c, In c cs -> f c = 1%Z) -> largest (map f cs) = 1%Z.
Proof.
  intros f cs N H. induction cs as [|c cs IH]; [congruence|]. cbn [map largest fold_right]. rewrite (H c (or_introl eq_refl)).
  destruct cs as [|c' cs]; [reflexivity|]. change (fold_right Z.max 0%Z (map f (c' :: cs))) with (largest (map f (c' :: cs))).
  rewrite IH; [reflexivity|discriminate|]. intros; apply H; right; auto.
Qed.
Lemma file_near_full : forall dbg rayon segs h fill1 fill2 ss ts qs ms data post fill3,
  encodes segs h ss ts qs ms data -> length (fh_comps h) = 3%nat ->
  let cs := fh_comps h in let lines := fh_lines h in let samples := fh_samples h in
  (0 < lines)%Z -> (0 < samples)%Z -> full_resolution cs -> post_ok post ->
  (last (adobes (segs ++ post)) 1 <> 0)%Z -> spectra_within 1472 ms qs ->
  let file := file_bytes segs fill1 fill2 (mkSpS ss 0 63 0 0) data post fill3 in bytes file ->
  exists img, decode_fresh dbg rayon file = Ok img /\ (lenZ img = 3 * samples * lines)%Z /\
    forall y x, (0 <= y < lines)%Z -> (0 <= x < samples)%Z ->
      let exact k := level (idct_real (spectrum (block_444 ms samples k y x) (nth k qs [])) (Z.to_nat (y mod 8)) (Z.to_nat (x mod 8))) in
      exists r g b, pixel 3 samples y x img = [r; g; b] /\
        Rabs (IZR r - exact_red (exact 0%nat) (exact 1%nat) (exact 2%nat)) < 3 /\
        Rabs (IZR g - exact_green (exact 0%nat) (exact 1%nat) (exact 2%nat)) < 3 /\
        Rabs (IZR b - exact_blue (exact 0%nat) (exact 1%nat) (exact 2%nat)) < 3.
Proof.
  intros dbg rayon segs h fill1 fill2 ss ts qs ms data post fill3 En L3 cs lines samples Hl Hs FR PO A S file B.
  destruct (fh_comps h) as [|c0 [|c1 [|c2 [|c3 l]]]] eqn:C; try discriminate L3.
  unfold full_resolution in FR. rewrite Forall_forall in FR.
  assert (Hh : largest (map cs_h cs) = 1%Z) by (apply largest_one; [discriminate|intros c I; apply FR; exact I]).
  assert (Hv : largest (map cs_v cs) = 1%Z) by (apply largest_one; [discriminate|intros c I; apply FR; exact I]).
  assert (Rh : forall c, In c cs -> h_ratio samples cs c = 1%Z) by (intros c I; unfold h_ratio, ratio; rewrite Hh, (proj1 (FR c I)); destruct (_ =? _)%Z; reflexivity).
  assert (Rv : forall c, In c cs -> v_ratio lines cs c = 1%Z) by (intros c I; unfold v_ratio, ratio; rewrite Hv, (proj2 (FR c I)); destruct (_ =? _)%Z; reflexivity).
  destruct (file_near dbg rayon segs h fill1 fill2 ss ts qs ms data post fill3 c0 c1 c2 1472 En C Hl Hs) as (q0 & q1 & q2 & img & Q & D & L & P); auto; rewrite ?C; fold cs; try lra; try exact (small_reach ms qs S).
  - apply Forall_forall. intros c I. unfold whole_ratios. rewrite Hh, Hv, (proj1 (FR c I)), (proj2 (FR c I)). split; reflexivity.
  - apply Forall_forall. intros c I. unfold width_works. fold lines samples. rewrite (Rh c I), (Rv c I). split; [intros; lia|intros [?|?]; lia].
  - exists img. splits; auto. intros y x Hy Hx exact. destruct (P y x Hy Hx) as (r & g & b & E & P1 & P2 & P3). exists r, g, b. split; [exact E|].
    rewrite C in P1, P2, P3. fold cs lines samples in P1, P2, P3.
    assert (In c0 cs /\ In c1 cs /\ In c2 cs) as (I0 & I1 & I2) by (unfold cs; cbn; auto 8).
    assert (N : forall c, In c cs -> interpolation lines samples cs c = 0) by (intros c I; unfold interpolation; rewrite (Rh c I), (Rv c I); reflexivity).
    assert (Ex : forall k c q, In c cs -> nth k qs [] = q -> comp_exact lines samples cs ms k c q (shown_row rayon (largest (map cs_v cs)) y) x = exact k).
    { intros k c q I <-. unfold comp_exact, shown_exact. rewrite (Rh c I), (Rv c I). cbn [Z.eqb andb]. change ((1 =? 1) && (1 =? 1))%Z with true. cbv iota.
      unfold exact_sample, exact, shown_row, q_at, block_444, block_no, mcu_row, mcu_col. rewrite Hh, Hv, (proj1 (FR c I)), (proj2 (FR c I)), !Z.div_1_r, !Z.mul_1_r.
      replace (if rayon then y else y) with y by (destruct rayon; reflexivity). rewrite !(Z.div_small (_ mod 8) 8) by (apply Z.mod_pos_bound; lia). reflexivity. }
    rewrite (N _ I0), (N _ I2), (Ex 0%nat c0 q0), (Ex 1%nat c1 q1), (Ex 2%nat c2 q2) in P1 by (auto; rewrite Q; reflexivity).
    rewrite (N _ I0), (N _ I1), (N _ I2), (Ex 0%nat c0 q0), (Ex 1%nat c1 q1), (Ex 2%nat c2 q2) in P2 by (auto; rewrite Q; reflexivity).
    rewrite (N _ I0), (N _ I1), (Ex 0%nat c0 q0), (Ex 1%nat c1 q1), (Ex 2%nat c2 q2) in P3 by (auto; rewrite Q; reflexivity).
    splits; lra.
Qed.
