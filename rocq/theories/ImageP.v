(** Output images. *)
From Verif Require Import Base F32 SpecBits Idct Color Types Upsampler Parsers Decode Tactics SpecColor SpecUpsample SpecFrame SpecSegments GeomP ParsersP ColorP RowP UpsampleP UpsampleP2.

Lemma zrange_app : forall a b, 0 <= a <= b -> zrange b = zrange a ++ map (fun k => a + k) (zrange (b - a)).
Proof.
  intros a b H. unfold zrange. replace (Z.to_nat b) with (Z.to_nat a + Z.to_nat (b - a))%nat by lia.
  rewrite seq_app, map_app. f_equal. rewrite map_map. rewrite Nat.add_0_l.
  replace (Z.to_nat a) with (Z.to_nat a + 0)%nat at 1 by lia.
  generalize 0%nat as s. induction (Z.to_nat (b - a)) as [|n IH]; intros s; [reflexivity|]. cbn [seq map]. f_equal; [lia|].
  rewrite <- (IH (S s)). f_equal. f_equal. lia.
Qed.

Lemma Forall2_length : forall (A B : Type) (R : A -> B -> Prop) l l', Forall2 R l l' -> length l = length l'.
Proof. intros A B R l l' H. induction H; cbn; congruence. Qed.

(** Lines made by the groups. *)
Lemma image_lines_ok : forall dbg f gs ps width ncomp (line : Z -> list Z) groups bufs,
  (length gs <= length bufs)%nat -> Forall geom_ok gs -> Forall integral gs -> Forall2 plane_of gs ps ->
  (forall row n, In (row, n) groups -> Forall (fun g => g_width g = width /\ 0 <= row < g_height g /\ row_fits g row) gs) ->
  (forall row n ns, In (row, n) groups -> Forall (fun k => width <= k) ns -> length ns = length gs ->
    color_convert dbg f (repeat 0 (Z.to_nat (width * ncomp)))
      (map (fun '(g, p, n) => map Some (map (g_shown g p row) (zrange n))) (combine (combine gs ps) ns)) = Ok (line row)) ->
  image_lines dbg f (map g_up gs) (map (map Some) ps) width ncomp bufs groups =
    Ok (flat_map (fun '(row, n) => repeat (line row) (Z.to_nat n)) groups).
Proof.
  intros dbg f gs ps width ncomp line groups. induction groups as [|[row n] groups IH]; intros bufs L G I P R C; [reflexivity|].
  cbn [image_lines flat_map]. unfold upsample_and_interleave_row. unfold lenZ. rewrite !map_length, (Forall2_length _ _ _ _ _ P).
  rewrite Z.eqb_refl. replace (debug_assert dbg true) with (@Ok unit tt) by (destruct dbg; reflexivity). cbn [bind].
  destruct (rows_ok dbg gs ps bufs row width) as [ns [bufs' [L1 [F1 [L2 E]]]]]; auto.
  { apply (R row n). left; auto. }
  rewrite E. cbn [bind]. rewrite (C row n ns) by (auto; left; auto). cbn [bind].
  rewrite IH; auto; [lia| |]; intros; eapply R || eapply C; try (right; eauto); eauto.
Qed.

Lemma map_const_repeat : forall (A B : Type) (c : B) (l : list A), map (fun _ => c) l = repeat c (length l).
Proof. induction l as [|x l IH]; cbn; congruence. Qed.

(** The groups of [v] lines cover the lines one by one. *)
Lemma groups_lines : forall (A : Type) (line : Z -> A) rayon height v, 0 < v -> 0 <= height ->
  flat_map (fun '(row, n) => repeat (line row) (Z.to_nat n)) (line_groups rayon height v) =
  map (fun y => line (if rayon then y / v else y / v * v)) (zrange height).
Proof.
  intros A line rayon height v Hv Hh. unfold line_groups.
  set (q := (height + v - 1) / v).
  assert (Q : (q - 1) * v < height <= q * v).
  { unfold q. fold (ceil_div height v). apply ceil_div_bounds. auto. }
  assert (Hq : 0 <= q) by nia. clearbody q.
  assert (K : forall k, 0 <= k <= q ->
    flat_map (fun '(row, n) => repeat (line row) (Z.to_nat n)) (map (fun k => (if rayon then k else k * v, Z.min v (height - k * v))) (zrange k)) =
    map (fun y => line (if rayon then y / v else y / v * v)) (zrange (Z.min (k * v) height))).
  { intros k [Hk0 Hk]. revert Hk. pattern k. apply natlike_ind; auto.
    - intros _. replace (Z.min (0 * v) height) with 0 by lia. reflexivity.
    - intros j Hj IH Hj2. replace (Z.succ j) with (j + 1) in * by lia. rewrite (zrange_app j (j + 1)) by lia.
      replace (j + 1 - j) with 1 by lia. cbn [map zrange]. change (zrange 1) with [0]. cbn [map].
      rewrite map_app, flat_map_app, IH by lia. cbn [map flat_map]. rewrite app_nil_r.
      replace (j + 0) with j by lia.
      assert (Hjv : j * v < height) by nia.
      replace (Z.min (j * v) height) with (j * v) by lia.
      set (n := Z.min v (height - j * v)). assert (Hn : 0 <= n <= v) by lia.
      replace (Z.min ((j + 1) * v) height) with (j * v + n) by lia.
      rewrite (zrange_app (j * v) (j * v + n)) by nia. replace (j * v + n - j * v) with n by lia. clearbody n.
      rewrite map_app. f_equal. rewrite map_map.
      rewrite <- (zrange_length n). rewrite <- map_const_repeat. apply map_ext_in. intros x Hx. apply zrange_in in Hx.
      assert (E : (j * v + x) / v = j) by (symmetry; apply Z.div_unique with x; lia). rewrite E. reflexivity. }
  rewrite (K q) by lia. f_equal. f_equal. lia.
Qed.

(** Pixels of an image made of equal lines. *)
Lemma concat_length : forall (ls : list (list Z)) n, Forall (fun l => length l = n) ls -> length (concat ls) = (length ls * n)%nat.
Proof. induction ls as [|l ls IH]; intros n F; [reflexivity|]. inv F. cbn [concat length]. rewrite app_length, (IH (length l)) by auto. lia. Qed.

Lemma concat_pixel : forall (ls : list (list Z)) n y a m, Forall (fun l => length l = n) ls -> (y < length ls)%nat -> (a + m <= n)%nat ->
  firstn m (skipn (y * n + a) (concat ls)) = firstn m (skipn a (nth y ls [])).
Proof.
  induction ls as [|l ls IH]; intros n y a m F Hy Ha; [cbn in Hy; lia|]. inv F. destruct y as [|y]; cbn [concat nth].
  - cbn [Nat.mul Nat.add]. rewrite skipn_app, firstn_app, skipn_length.
    replace (m - (length l - a))%nat with 0%nat by lia. cbn [firstn]. rewrite app_nil_r. reflexivity.
  - rewrite skipn_app. replace (S y * length l + a - length l)%nat with (y * length l + a)%nat by lia.
    rewrite skipn_all2 by lia. cbn [app]. apply IH; auto. cbn [length] in Hy. lia.
Qed.

(** ** The frame of a header *)
Definition geoms (lines samples : Z) (cs : list comp_spec) : list geom :=
  map (comp_geom samples lines (largest (map cs_h cs)) (largest (map cs_v cs))) cs.

Lemma header_geoms : forall lines samples cs, header_ok lines samples cs -> 0 < lines -> 0 < samples -> Forall geom_ok (geoms lines samples cs).
Proof.
  intros lines samples cs [L S N F R X] Hl Hs. unfold geoms. apply Forall_map. apply Forall_forall. intros c Hc.
  rewrite Forall_forall in X.
  pose proof (largest_factors cs cs_h N (fun c H => proj1 (X c H))). pose proof (largest_factors cs cs_v N (fun c H => proj2 (X c H))).
  pose proof (largest_ge (map cs_h cs) (cs_h c) (in_map cs_h _ _ Hc)). pose proof (largest_ge (map cs_v cs) (cs_v c) (in_map cs_v _ _ Hc)).
  destruct (X c Hc). unfold geom_ok, comp_geom. cbn [g_width g_height g_hm g_vm g_h g_v]. lia.
Qed.

Lemma upsampler_of_header : forall m pr lines samples cs, header_ok lines samples cs -> 0 < lines -> 0 < samples ->
  Forall integral (geoms lines samples cs) ->
  upsampler_new (f_components (frame_of m pr lines samples cs)) (mkDims samples lines) = Ok (map g_up (geoms lines samples cs)).
Proof.
  intros m pr lines samples cs HO Hl Hs I. pose proof (header_geoms _ _ _ HO Hl Hs) as G. destruct HO as [L S N F R X].
  unfold upsampler_new, frame_of. cbn [f_components]. rewrite !map_map. cbn [c_h c_v].
  rewrite Forall_forall in X.
  rewrite !max_unwrap_largest.
  2,4: destruct cs; [congruence|discriminate].
  2,3: apply Forall_map, Forall_forall; intros c Hc; destruct (X c Hc); lia.
  cbn [bind]. unfold geoms in *. change (map (fun x => cs_h x) cs) with (map cs_h cs). change (map (fun x => cs_v x) cs) with (map cs_v cs).
  set (hm := largest (map cs_h cs)) in *. set (vm := largest (map cs_v cs)) in *. clearbody hm vm. clear X N F R.
  induction cs as [|c cs IH]; [reflexivity|]. cbn [map mapM]. inv G. inv I. cbn [c_h c_v].
  pose proof (proj1 (choose_cases _ H1) H3) as E. unfold comp_geom in E. cbn [g_width g_height g_hm g_vm g_h g_v] in E. rewrite E. cbn [bind].
  rewrite IH by auto. cbn [bind]. do 2 f_equal. unfold g_up, comp_geom, g_stride, g_w, g_ht.
  cbn [g_width g_height g_hm g_vm g_h g_v c_size c_block_size dim_w]. f_equal. lia.
Qed.

(** ** Whole images *)
From Verif Require Import SpecImage.

Lemma px_byte : forall p s y x, ubytes p -> is_byte (px p s y x).
Proof. intros p s y x B. unfold px, is_byte. pose proof (byte_nth p (Z.to_nat (y * s + x)) B). lia. Qed.

Lemma shown_byte : forall hr vr p s w h row x, ubytes p -> is_byte (shown hr vr p s w h row x).
Proof.
  intros hr vr p s w h row x B. assert (P : forall y x, 0 <= px p s y x < 256) by (intros; apply px_byte; auto).
  unfold shown, double_width, double_height, double_both, is_byte.
  destruct (_ && _); [apply P|]. destruct (_ && _).
  { pose proof (P row (x / 2)). pose proof (P row (neighbour (w - 1) x)). lia. }
  destruct (_ && _).
  { pose proof (P (row / 2) x). pose proof (P (neighbour (h - 1) row) x). lia. }
  destruct (_ && _); [|apply P].
  pose proof (P (row / 2) (x / 2)). pose proof (P (neighbour (h - 1) row) (x / 2)).
  pose proof (P (row / 2) (neighbour (w - 1) x)). pose proof (P (neighbour (h - 1) row) (neighbour (w - 1) x)). lia.
Qed.

Lemma bytes_le : forall p, bytes p <-> ubytes p.
Proof. intros. unfold bytes, ubytes, is_byte. split; apply Forall_impl; intros; lia. Qed.

Lemma geom_plane : forall lines samples cs c p, plane_for lines samples cs c p <-> plane_of (comp_geom samples lines (largest (map cs_h cs)) (largest (map cs_v cs)) c) p.
Proof. intros. unfold plane_for, plane_of. rewrite bytes_le. reflexivity. Qed.

Lemma works_fits : forall g row, geom_ok g -> 0 <= row <= (g_height g - 1) / g_vm g * g_vm g ->
  (g_hr g = 2 -> g_vr g = 1 -> g_width g mod 2 = 0 /\ (g_height g - 1) / g_vm g * g_vm g * g_stride g + g_width g <= g_stride g * g_rows g) ->
  (2 < g_hr g \/ 2 < g_vr g -> g_width g mod (g_hm g / g_h g) = 0) ->
  0 <= row < g_height g /\ row_fits g row.
Proof.
  intros g row G R A B. pose proof G as (W & H & Ah & Bh & Av & Bv). split.
  { pose proof (Z.mul_div_le (g_height g - 1) (g_vm g)). lia. }
  pose proof (ratio_pos (g_width g) (g_h g) (g_hm g) Ah) as R1. fold (g_hr g) in R1.
  pose proof (ratio_pos (g_height g) (g_v g) (g_vm g) Av) as R2. fold (g_vr g) in R2.
  pose proof (extent_le (g_width g) (g_h g) (g_hm g) ltac:(lia) ltac:(lia)) as Xw. fold (g_w g) (g_stride g) in Xw.
  unfold row_fits, g_kind.
  destruct ((g_hr g =? 1) && (g_vr g =? 1)) eqn:K1; auto.
  destruct ((g_hr g =? 2) && (g_vr g =? 1)) eqn:K2.
  { destruct A as [A1 A2]; [lia|lia|]. split; auto. nia. }
  destruct ((g_hr g =? 1) && (g_vr g =? 2)) eqn:K3; auto.
  destruct ((g_hr g =? 2) && (g_vr g =? 2)) eqn:K4; auto.
  apply B. lia.
Qed.

Lemma works_geoms : forall lines samples cs row, header_ok lines samples cs -> 0 < lines -> 0 < samples ->
  Forall (width_works lines samples cs) cs -> 0 <= row <= (lines - 1) / largest (map cs_v cs) * largest (map cs_v cs) ->
  Forall (fun g => g_width g = samples /\ 0 <= row < g_height g /\ row_fits g row) (geoms lines samples cs).
Proof.
  intros lines samples cs row HO Hl Hs Wk R. pose proof (header_geoms _ _ _ HO Hl Hs) as G. unfold geoms in *.
  rewrite Forall_map in *. rewrite Forall_forall in *. intros c Hc. specialize (G c Hc). destruct (Wk c Hc) as [A B].
  split; [reflexivity|]. apply works_fits; auto.
Qed.

Lemma group_rows : forall rayon height v row n, 0 < v -> 0 < height -> In (row, n) (line_groups rayon height v) -> 0 <= row <= (height - 1) / v * v.
Proof.
  intros rayon height v row n Hv Hh H. unfold line_groups in H. apply in_map_iff in H. destruct H as [k [E Hk]]. apply zrange_in in Hk.
  assert (Q : k <= (height - 1) / v).
  { replace ((height + v - 1) / v) with ((height - 1) / v + 1) in Hk; [lia|].
    replace (height + v - 1) with (height - 1 + 1 * v) by lia. rewrite Z.div_add by lia. lia. }
  inversion E; subst. destruct rayon; nia.
Qed.

(** The lines of the components at one row. *)
Lemma line_split : forall f a n, 0 <= a <= n -> map Some (map f (zrange n)) = line_of (map f (zrange a)) ++ map Some (map f (map (fun k => a + k) (zrange (n - a)))).
Proof. intros. rewrite (zrange_app a n) at 1 by lia. rewrite !map_app. reflexivity. Qed.

Definition row_line (g : geom) (p : list Z) (row : Z) : list Z := map (g_shown g p row) (zrange (g_width g)).
Lemma row_line_bytes : forall g p row, plane_of g p -> bytes (row_line g p row).
Proof.
  intros g p row [B _]. unfold row_line. apply Forall_map, Forall_forall. intros x _. apply shown_byte. auto.
Qed.
Lemma row_line_length : forall g p row, length (row_line g p row) = Z.to_nat (g_width g).
Proof. intros. unfold row_line. rewrite map_length, zrange_length. reflexivity. Qed.
Lemma row_line_nth : forall g p row x, 0 <= x < g_width g -> nth (Z.to_nat x) (row_line g p row) 0 = g_shown g p row x.
Proof.
  intros g p row x H. unfold row_line. rewrite (nth_indep _ 0 (g_shown g p row 0)) by (rewrite map_length, zrange_length; lia).
  rewrite map_nth, nth_zrange by lia. f_equal. lia.
Qed.

Lemma image_of_lines : forall dbg rayon d m pr lines samples cs ps f (line : Z -> list Z) n,
  header_ok lines samples cs -> 0 < lines -> 0 < samples -> Forall (whole_ratios cs) cs -> Forall (width_works lines samples cs) cs ->
  Forall2 (plane_for lines samples cs) cs ps ->
  d_frame d = Some (frame_of m pr lines samples cs) -> d_planes d = map (map Some) ps ->
  lenZ cs = n -> n <= 4 -> choose_color_convert_func n (d_color d) = Ok f ->
  (forall row ns, Forall (fun k => samples <= k) ns -> length ns = length cs ->
    color_convert dbg f (repeat 0 (Z.to_nat (samples * n)))
      (map (fun '(g, p, n) => map Some (map (g_shown g p row) (zrange n))) (combine (combine (geoms lines samples cs) ps) ns)) = Ok (line row)) ->
  let vm := largest (map cs_v cs) in
  upsample_image dbg rayon d = Ok (concat (map (fun y => line (if rayon then y / vm else y / vm * vm)) (zrange lines))).
Proof.
  intros dbg rayon d m pr lines samples cs ps f line n HO Hl Hs WR WW P Fd Pd Ln Hn Cf C vm.
  pose proof (header_geoms _ _ _ HO Hl Hs) as G.
  assert (I : Forall integral (geoms lines samples cs)) by (unfold geoms; rewrite Forall_map; eapply Forall_impl; [|exact WR]; intros c Hc; apply strict_integral; exact Hc).
  assert (P2 : Forall2 plane_of (geoms lines samples cs) ps).
  { unfold geoms. assert (K : forall l ps, Forall2 (plane_for lines samples cs) l ps ->
      Forall2 plane_of (map (comp_geom samples lines (largest (map cs_h cs)) (largest (map cs_v cs))) l) ps); [|auto].
    intros l qs F. induction F; cbn [map]; constructor; auto. apply geom_plane. auto. }
  assert (V : 1 <= vm <= 4).
  { destruct HO as [L S N F R X]. rewrite Forall_forall in X. apply (largest_factors cs cs_v N (fun c H => proj2 (X c H))). }
  assert (Cn : 0 < n).
  { destruct HO. destruct cs; [congruence|]. unfold lenZ in Ln. cbn [length] in Ln. lia. }
  unfold upsample_image. rewrite Fd.
  assert (El : lenZ (f_components (frame_of m pr lines samples cs)) = n) by (unfold lenZ, frame_of in *; cbn [f_components]; rewrite map_length; auto).
  rewrite El, Cf. cbn [bind]. change (f_samples (frame_of m pr lines samples cs)) with samples. change (f_lines (frame_of m pr lines samples cs)) with lines.
  rewrite upsampler_of_header by auto. cbn [bind].
  assert (Ev : max_unwrap (map c_v (f_components (frame_of m pr lines samples cs))) = Ok vm).
  { unfold frame_of. cbn [f_components]. rewrite map_map. cbn [c_v]. destruct HO. apply max_unwrap_largest.
    - destruct cs; [congruence|discriminate].
    - apply Forall_map. eapply Forall_impl; [|exact ho_factors]. intros c [_ H]. lia. }
  rewrite Ev. cbn [bind]. assert (samples * n <> 0) by nia. replace (samples * n =? 0) with false by lia. cbn [negb assert_ bind].
  rewrite Pd, (image_lines_ok dbg f (geoms lines samples cs) ps samples n line); auto.
  - cbn [bind]. rewrite groups_lines by lia. reflexivity.
  - unfold geoms. rewrite map_length. unfold lenZ in Ln. cbn [length]. lia.
  - intros row k Hk. apply works_geoms; auto. eapply group_rows; eauto. lia.
  - intros row k ns _ F L. apply C; auto. rewrite L. unfold geoms. apply map_length.
Qed.

Lemma lines_pixels : forall (line : Z -> list Z) n width height (r : Z -> Z) y x, 0 <= n -> 0 <= width ->
  (forall row, length (line row) = Z.to_nat (n * width)) -> 0 <= y < height -> 0 <= x < width ->
  pixel n width y x (concat (map (fun y => line (r y)) (zrange height))) = firstn (Z.to_nat n) (skipn (Z.to_nat (n * x)) (line (r y))).
Proof.
  intros line n width height r y x Hn Hw L Hy Hx. unfold pixel.
  replace (Z.to_nat (n * (y * width + x))) with (Z.to_nat y * Z.to_nat (n * width) + Z.to_nat (n * x))%nat.
  2:{ rewrite <- Z2Nat.inj_mul by nia. rewrite <- Z2Nat.inj_add by nia. f_equal. ring. }
  rewrite concat_pixel.
  - f_equal. f_equal. rewrite (nth_indep _ [] (line (r 0))) by (rewrite map_length, zrange_length; lia).
    rewrite (map_nth (fun y => line (r y)) _ 0). rewrite nth_zrange by lia. do 2 f_equal. lia.
  - apply Forall_map, Forall_forall. auto.
  - rewrite map_length, zrange_length. lia.
  - nia.
Qed.

Lemma lines_length : forall (line : Z -> list Z) n width height (r : Z -> Z), 0 <= n -> 0 <= width -> 0 <= height ->
  (forall row, length (line row) = Z.to_nat (n * width)) ->
  lenZ (concat (map (fun y => line (r y)) (zrange height))) = n * width * height.
Proof.
  intros. unfold lenZ. rewrite (concat_length _ (Z.to_nat (n * width))).
  - rewrite map_length, zrange_length. nia.
  - apply Forall_map, Forall_forall. auto.
Qed.

Lemma image_ycbcr : forall dbg rayon d m pr lines samples c0 c1 c2 p0 p1 p2,
  let cs := [c0; c1; c2] in
  header_ok lines samples cs -> 0 < lines -> 0 < samples -> Forall (whole_ratios cs) cs -> Forall (width_works lines samples cs) cs ->
  Forall2 (plane_for lines samples cs) cs [p0; p1; p2] ->
  d_frame d = Some (frame_of m pr lines samples cs) -> d_planes d = map line_of [p0; p1; p2] -> d_color d <> Some AdobeUnknown ->
  exists img, upsample_image dbg rayon d = Ok img /\ lenZ img = 3 * samples * lines /\
    forall y x, 0 <= y < lines -> 0 <= x < samples ->
      let row := shown_row rayon (largest (map cs_v cs)) y in
      rgb_pixel (comp_shown lines samples cs c0 p0 row x) (comp_shown lines samples cs c1 p1 row x) (comp_shown lines samples cs c2 p2 row x)
        (pixel 3 samples y x img).
Proof.
  intros dbg rayon d m pr lines samples c0 c1 c2 p0 p1 p2 cs HO Hl Hs WR WW P Fd Pd Ad.
  set (gm := comp_geom samples lines (largest (map cs_h cs)) (largest (map cs_v cs))).
  assert (Pg : plane_of (gm c0) p0 /\ plane_of (gm c1) p1 /\ plane_of (gm c2) p2).
  { inversion P as [|a b l1 l2 Q0 P1]; subst. inversion P1 as [|a b l1 l2 Q1 P2]; subst. inversion P2 as [|a b l1 l2 Q2 P3]; subst.
    rewrite geom_plane in Q0, Q1, Q2. auto. }
  destruct Pg as (G0 & G1 & G2).
  set (line := fun row => zip3 rgb_of (row_line (gm c0) p0 row) (row_line (gm c1) p1 row) (row_line (gm c2) p2 row)).
  assert (Ll : forall row, length (line row) = Z.to_nat (3 * samples)).
  { intros. unfold line. rewrite (zip3_length _ _ _ (Z.to_nat samples)) by apply row_line_length. lia. }
  exists (concat (map (fun y => line (shown_row rayon (largest (map cs_v cs)) y)) (zrange lines))). split; [|split].
  - apply (image_of_lines dbg rayon d m pr lines samples cs [p0; p1; p2] CYcbcr line 3); auto.
    + lia.
    + unfold choose_color_convert_func. cbn [Z.eqb Pos.eqb]. destruct (d_color d) as [[]|]; congruence.
    + intros row ns F L. destruct ns as [|n0 [|n1 [|n2 [|? ?]]]]; try discriminate L.
      apply Forall_cons_iff in F; destruct F as [F0 F]; apply Forall_cons_iff in F; destruct F as [F1 F]; apply Forall_cons_iff in F; destruct F as [F2 _].
      unfold geoms. fold gm. cbn [map combine cs]. rewrite (line_split _ samples n0), (line_split _ samples n1), (line_split _ samples n2) by (clear - Hs F0 F1 F2; lia).
      cbn [color_convert]. replace (Z.to_nat (samples * 3)) with (3 * Z.to_nat samples)%nat by lia.
      apply line_ycbcr_ok; try (apply row_line_bytes; auto); apply row_line_length.
  - apply lines_length; auto; lia.
  - intros y x Hy Hx row. rewrite (lines_pixels line 3 samples lines); auto; try lia. fold row.
    change (Z.to_nat 3) with 3%nat. replace (Z.to_nat (3 * x)) with (3 * Z.to_nat x)%nat by lia. unfold line.
    rewrite (zip3_pixel _ _ _ _ (Z.to_nat samples)) by (try apply row_line_length; lia).
    rewrite !row_line_nth by (cbn; lia). apply rgb_of_pixel; apply shown_byte; [apply G0|apply G1|apply G2].
Qed.

Lemma image_cmyk : forall dbg rayon d m pr lines samples c0 c1 c2 c3 p0 p1 p2 p3,
  let cs := [c0; c1; c2; c3] in
  header_ok lines samples cs -> 0 < lines -> 0 < samples -> Forall (whole_ratios cs) cs -> Forall (width_works lines samples cs) cs ->
  Forall2 (plane_for lines samples cs) cs [p0; p1; p2; p3] ->
  d_frame d = Some (frame_of m pr lines samples cs) -> d_planes d = map line_of [p0; p1; p2; p3] -> d_color d = Some AdobeUnknown ->
  exists img, upsample_image dbg rayon d = Ok img /\ lenZ img = 4 * samples * lines /\
    forall y x, 0 <= y < lines -> 0 <= x < samples ->
      let row := shown_row rayon (largest (map cs_v cs)) y in
      pixel 4 samples y x img =
        [255 - comp_shown lines samples cs c0 p0 row x; 255 - comp_shown lines samples cs c1 p1 row x;
         255 - comp_shown lines samples cs c2 p2 row x; 255 - comp_shown lines samples cs c3 p3 row x].
Proof.
  intros dbg rayon d m pr lines samples c0 c1 c2 c3 p0 p1 p2 p3 cs HO Hl Hs WR WW P Fd Pd Ad.
  set (gm := comp_geom samples lines (largest (map cs_h cs)) (largest (map cs_v cs))).
  set (line := fun row => zip4 cmyk_of (row_line (gm c0) p0 row) (row_line (gm c1) p1 row) (row_line (gm c2) p2 row) (row_line (gm c3) p3 row)).
  assert (Ll : forall row, length (line row) = Z.to_nat (4 * samples)).
  { intros. unfold line. rewrite (zip4_length _ _ _ _ (Z.to_nat samples)) by apply row_line_length. lia. }
  exists (concat (map (fun y => line (shown_row rayon (largest (map cs_v cs)) y)) (zrange lines))). split; [|split].
  - apply (image_of_lines dbg rayon d m pr lines samples cs [p0; p1; p2; p3] CCmyk line 4); auto.
    + lia.
    + rewrite Ad. reflexivity.
    + intros row ns F L. destruct ns as [|n0 [|n1 [|n2 [|n3 [|? ?]]]]]; try discriminate L.
      apply Forall_cons_iff in F; destruct F as [F0 F]; apply Forall_cons_iff in F; destruct F as [F1 F]; apply Forall_cons_iff in F; destruct F as [F2 F]; apply Forall_cons_iff in F; destruct F as [F3 _].
      unfold geoms. fold gm. cbn [map combine cs]. rewrite (line_split _ samples n0), (line_split _ samples n1), (line_split _ samples n2), (line_split _ samples n3) by (clear - Hs F0 F1 F2 F3; lia).
      cbn [color_convert]. replace (Z.to_nat (samples * 4)) with (4 * Z.to_nat samples)%nat by lia.
      apply line_cmyk_ok; apply row_line_length.
  - apply lines_length; auto; lia.
  - intros y x Hy Hx row. rewrite (lines_pixels line 4 samples lines); auto; try lia. fold row.
    change (Z.to_nat 4) with 4%nat. replace (Z.to_nat (4 * x)) with (4 * Z.to_nat x)%nat by lia. unfold line.
    rewrite (zip4_pixel _ _ _ _ _ (Z.to_nat samples)) by (try apply row_line_length; lia).
    rewrite !row_line_nth by (cbn; lia). reflexivity.
Qed.
