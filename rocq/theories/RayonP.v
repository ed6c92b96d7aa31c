(** Independence of the line buffers, the parallel loop, and images that cannot be upsampled. *)
From Verif Require Import Base F32 SpecBits Idct Color Types Upsampler Parsers Decode Rayon Tactics SpecColor SpecUpsample SpecFrame SpecSegments SpecImage GeomP ParsersP ColorP RowP UpsampleP UpsampleP2 ImageP.

Lemma row_fits_dec : forall g row, row_fits g row \/ ~ row_fits g row.
Proof. intros. unfold row_fits. destruct (g_kind g); auto; lia. Qed.

(** ** Buffers *)
Definition okbuf (g : geom) (buf : list Z) : Prop :=
  match g_kind g with
  | UGeneric hf _ => forall x, hf * (g_width g / hf) <= x -> nth (Z.to_nat x) buf 0 = 0
  | _ => True
  end.
Fixpoint bufs_ok (gs : list geom) (bufs : list (list Z)) : Prop :=
  match gs, bufs with
  | [], _ => True
  | _ :: _, [] => False
  | g :: gs, b :: bufs => okbuf g b /\ bufs_ok gs bufs
  end.
Lemma okbuf_nil : forall g, okbuf g [].
Proof. intros. unfold okbuf. destruct (g_kind g); auto. intros. destruct (Z.to_nat x); reflexivity. Qed.
Lemma bufs_nil : forall gs, (length gs <= 4)%nat -> bufs_ok gs [[]; []; []; []].
Proof.
  intros gs H. do 5 (destruct gs as [|? gs]; [cbn; repeat split; auto using okbuf_nil|]). cbn in H. lia.
Qed.

Lemma row_indep : forall dbg g p row, geom_ok g -> integral g -> plane_of g p -> 0 <= row < g_height g ->
  (exists line, forall buf, okbuf g buf -> exists buf', okbuf g buf' /\ upsample_row dbg (g_up g) (map Some p) row (g_width g) buf = Ok (line, buf')) \/
  (forall buf, upsample_row dbg (g_up g) (map Some p) row (g_width g) buf = Panic PIndex).
Proof.
  intros dbg g p row G I P R. destruct (g_kind g) as [| | | |hf vf] eqn:K.
  5:{ left. exists (map Some (map (fun x => if x <? hf * (g_width g / hf) then g_shown g p row x else 0) (zrange (g_width g)))).
    intros buf B. destruct (comp_row_generic dbg g p row buf hf vf) as [Hf E]; auto.
    assert (EL : map (fun x => if x <? hf * (g_width g / hf) then g_shown g p row x else nth (Z.to_nat x) buf 0) (zrange (g_width g)) =
                 map (fun x => if x <? hf * (g_width g / hf) then g_shown g p row x else 0) (zrange (g_width g))).
    { apply map_ext_zrange. intros x Hx. destruct (Z.ltb_spec x (hf * (g_width g / hf))); auto. unfold okbuf in B. rewrite K in B. apply B. auto. }
    rewrite EL in E. rewrite E. eexists. split; [|reflexivity]. unfold okbuf. rewrite K. intros x Hx.
    destruct (Z_lt_ge_dec x 0) as [Hn|Hn].
    { exfalso. assert (0 <= g_width g / hf) by (apply Z.div_pos; [destruct G as ((W & _) & _)|]; lia). nia. }
    destruct (Z_lt_ge_dec x (g_width g)) as [Hb|Hb].
    - set (f := fun x => if x <? hf * (g_width g / hf) then g_shown g p row x else 0).
      rewrite (nth_indep _ 0 (f 0)) by (rewrite map_length, zrange_length; clear - Hb Hn; lia).
      rewrite map_nth, nth_zrange by (clear - Hb Hn; lia). unfold f. rewrite Z2Nat.id by (clear - Hn; lia).
      replace (x <? hf * (g_width g / hf)) with false by (symmetry; apply Z.ltb_ge; exact Hx). reflexivity.
    - apply nth_overflow. rewrite map_length, zrange_length. clear - Hb Hn. lia. }
  all: destruct (row_fits_dec g row) as [F|F]; [left | try (exfalso; apply F; unfold row_fits; rewrite K; exact Logic.I)].
  all: try (right; intros buf; apply comp_row_panic; auto; fail).
  all: exists (map Some (map (g_shown g p row) (zrange (g_len g)))); intros buf _;
    destruct (comp_row dbg g p row buf G I P R F) as [b1 [Hn' E1]]; exists b1; split; [unfold okbuf; rewrite K; exact Logic.I|exact E1].
Qed.

Lemma rows_indep : forall dbg width row gs ps,
  Forall geom_ok gs -> Forall integral gs -> Forall (fun g => g_width g = width /\ 0 <= row < g_height g) gs -> Forall2 plane_of gs ps ->
  (exists ls, forall bufs, bufs_ok gs bufs -> exists bufs', bufs_ok gs bufs' /\ upsample_rows dbg (map g_up gs) (map (map Some) ps) bufs row width = Ok (ls, bufs')) \/
  (forall bufs, bufs_ok gs bufs -> upsample_rows dbg (map g_up gs) (map (map Some) ps) bufs row width = Panic PIndex).
Proof.
  intros dbg width row. induction gs as [|g gs IH]; intros ps G I R P.
  - inv P. left. exists []. intros bufs _. exists bufs. split; [exact Logic.I|]. reflexivity.
  - inversion P as [|g0 p gs0 ps0 P0 P1]; subst.
    pose proof (Forall_inv_tail G) as G1. pose proof (Forall_inv_tail I) as I1. pose proof (Forall_inv_tail R) as R1.
    apply Forall_inv in G. apply Forall_inv in I. apply Forall_inv in R. destruct R as [Ew R]. subst width.
    destruct (row_indep dbg g p row G I P0 R) as [[line A]|A].
    + destruct (IH ps0 G1 I1 R1 P1) as [[ls B]|B].
      * left. exists (line :: ls). intros [|b bufs] KK; [destruct KK|]. destruct KK as [K1 K2]. destruct (A b K1) as [b' [Kb E1]]. destruct (B bufs K2) as [bufs' [Kbs E2]].
        exists (b' :: bufs'). split; [split; auto|]. cbn [map upsample_rows]. rewrite E1. cbn [bind]. rewrite E2. reflexivity.
      * right. intros [|b bufs] KK; [destruct KK|]. destruct KK as [K1 K2]. destruct (A b K1) as [b' [Kb E1]]. cbn [map upsample_rows]. rewrite E1. cbn [bind]. rewrite (B bufs K2). reflexivity.
    + right. intros [|b bufs] KK; [destruct KK|]. destruct KK as [K1 K2]. cbn [map upsample_rows]. rewrite A. reflexivity.
Qed.

Lemma lines_indep : forall dbg f width ncomp gs ps groups,
  Forall geom_ok gs -> Forall integral gs -> Forall2 plane_of gs ps ->
  (forall row n, In (row, n) groups -> Forall (fun g => g_width g = width /\ 0 <= row < g_height g) gs) ->
  forall b1 b2, bufs_ok gs b1 -> bufs_ok gs b2 ->
  image_lines dbg f (map g_up gs) (map (map Some) ps) width ncomp b1 groups = image_lines dbg f (map g_up gs) (map (map Some) ps) width ncomp b2 groups.
Proof.
  intros dbg f width ncomp gs ps. induction groups as [|[row n] groups IH]; intros G I P R b1 b2 K1 K2; [reflexivity|].
  cbn [image_lines]. unfold upsample_and_interleave_row, lenZ. rewrite !map_length, (Forall2_length _ _ _ _ _ P), Z.eqb_refl.
  replace (debug_assert dbg true) with (@Ok unit tt) by (destruct dbg; reflexivity). cbn [bind].
  destruct (rows_indep dbg width row gs ps G I) as [[ls A]|A]; auto.
  { apply (R row n). left. auto. }
  - destruct (A b1 K1) as [b1' [K1' E1]]. destruct (A b2 K2) as [b2' [K2' E2]]. rewrite E1, E2. cbn [bind].
    destruct (color_convert _ _ _ _); auto. cbn [bind]. rewrite (IH G I P ltac:(intros; eapply R; right; eauto) b1' b2'); auto.
  - rewrite (A b1 K1), (A b2 K2). reflexivity.
Qed.

Lemma image_lines_app : forall dbg f width ncomp gs ps g1 g2,
  Forall geom_ok gs -> Forall integral gs -> Forall2 plane_of gs ps ->
  (forall row n, In (row, n) (g1 ++ g2) -> Forall (fun g => g_width g = width /\ 0 <= row < g_height g) gs) ->
  forall b1 b2, bufs_ok gs b1 -> bufs_ok gs b2 ->
  image_lines dbg f (map g_up gs) (map (map Some) ps) width ncomp b1 (g1 ++ g2) =
  (let* l1 := image_lines dbg f (map g_up gs) (map (map Some) ps) width ncomp b1 g1 in
   let* l2 := image_lines dbg f (map g_up gs) (map (map Some) ps) width ncomp b2 g2 in Ok (l1 ++ l2)).
Proof.
  intros dbg f width ncomp gs ps g1 g2 G I P. induction g1 as [|[row n] g1 IH]; intros R b1 b2 K1 K2.
  - cbn [app image_lines bind]. rewrite (lines_indep dbg f width ncomp gs ps g2 G I P R b1 b2 K1 K2).
    destruct (image_lines _ _ _ _ _ _ _ _); reflexivity.
  - cbn [app image_lines]. unfold upsample_and_interleave_row, lenZ. rewrite !map_length, (Forall2_length _ _ _ _ _ P), Z.eqb_refl.
    replace (debug_assert dbg true) with (@Ok unit tt) by (destruct dbg; reflexivity). cbn [bind].
    destruct (rows_indep dbg width row gs ps G I) as [[ls A]|A]; auto.
    { apply (R row n). left. auto. }
    + destruct (A b1 K1) as [b1' [K1' E1]]. rewrite E1. cbn [bind].
      destruct (color_convert _ _ _ _) as [line| | |]; auto. cbn [bind].
      rewrite (IH ltac:(intros; eapply R; right; eauto) b1' b2); auto.
      destruct (image_lines dbg f (map g_up gs) (map (map Some) ps) width ncomp b1' g1); auto. cbn [bind].
      destruct (image_lines dbg f (map g_up gs) (map (map Some) ps) width ncomp b2 g2); auto. cbn [bind].
      rewrite app_assoc. reflexivity.
    + rewrite (A b1 K1). reflexivity.
Qed.

Lemma pieces_concat : forall dbg f width ncomp gs ps pieces,
  (length gs <= 4)%nat -> Forall geom_ok gs -> Forall integral gs -> Forall2 plane_of gs ps ->
  (forall row n, In (row, n) (concat pieces) -> Forall (fun g => g_width g = width /\ 0 <= row < g_height g) gs) ->
  image_pieces dbg f (map g_up gs) (map (map Some) ps) width ncomp pieces =
  image_lines dbg f (map g_up gs) (map (map Some) ps) width ncomp [[]; []; []; []] (concat pieces).
Proof.
  intros dbg f width ncomp gs ps pieces L G I P. induction pieces as [|g pieces IH]; intros R; [reflexivity|].
  cbn [image_pieces concat]. rewrite (image_lines_app dbg f width ncomp gs ps g (concat pieces) G I P R _ [[]; []; []; []]) by (apply bufs_nil; auto).
  rewrite IH by (intros row n H; apply (R row n), in_or_app; auto). reflexivity.
Qed.

(** ** Frames whose ratios are not whole *)
Lemma integral_dec : forall g, integral g \/ ~ integral g.
Proof.
  intros g. unfold integral, strict.
  destruct (Z.eq_dec (g_width g) 1), (Z.eq_dec (g_hm g mod g_h g) 0), (Z.eq_dec (g_height g) 1), (Z.eq_dec (g_vm g mod g_v g) 0),
    (Z_lt_dec 2 (g_hr g)), (Z_lt_dec 2 (g_vr g)); tauto.
Qed.

Lemma upsampler_cases : forall m pr lines samples cs, header_ok lines samples cs -> 0 < lines -> 0 < samples ->
  (Forall integral (geoms lines samples cs) /\
   upsampler_new (f_components (frame_of m pr lines samples cs)) (mkDims samples lines) = Ok (map g_up (geoms lines samples cs))) \/
  (~ Forall integral (geoms lines samples cs) /\
   upsampler_new (f_components (frame_of m pr lines samples cs)) (mkDims samples lines) = Fail EUnsupported).
Proof.
  intros m pr lines samples cs HO Hl Hs. pose proof (header_geoms _ _ _ HO Hl Hs) as G. destruct HO as [L S N F R X].
  unfold upsampler_new, frame_of. cbn [f_components]. rewrite !map_map. cbn [c_h c_v].
  rewrite Forall_forall in X.
  rewrite !max_unwrap_largest.
  2,4: destruct cs; [congruence|discriminate].
  2,3: apply Forall_map, Forall_forall; intros c Hc; destruct (X c Hc); lia.
  cbn [bind]. unfold geoms in *. change (map (fun x => cs_h x) cs) with (map cs_h cs). change (map (fun x => cs_v x) cs) with (map cs_v cs).
  set (hm := largest (map cs_h cs)) in *. set (vm := largest (map cs_v cs)) in *. clearbody hm vm. clear X N F R.
  induction cs as [|c cs IH]; [left; split; [constructor|reflexivity]|]. cbn [map mapM].
  pose proof (Forall_inv G) as G0. apply Forall_inv_tail in G. specialize (IH G). cbn [c_h c_v].
  pose proof (choose_cases _ G0) as [E1 E2]. unfold comp_geom in E1, E2. cbn [g_width g_height g_hm g_vm g_h g_v] in E1, E2.
  destruct (integral_dec (comp_geom samples lines hm vm c)) as [Y|Y].
  - rewrite (E1 Y). cbn [bind]. destruct IH as [[A B]|[A B]].
    + left. split; [constructor; auto|]. rewrite B. cbn [bind]. do 2 f_equal. unfold g_up, comp_geom, g_stride, g_w, g_ht.
      cbn [g_width g_height g_hm g_vm g_h g_v c_size c_block_size dim_w]. f_equal. clear. lia.
    + right. split; [intros C; apply A, (Forall_inv_tail C)|]. rewrite B. reflexivity.
  - right. split; [intros C; apply Y, (Forall_inv C)|]. rewrite (E2 Y). reflexivity.
Qed.

Lemma header_vm : forall lines samples cs, header_ok lines samples cs -> 1 <= largest (map cs_v cs) <= 4.
Proof. intros lines samples cs [L S N F R X]. rewrite Forall_forall in X. apply (largest_factors cs cs_v N (fun c H => proj2 (X c H))). Qed.

Lemma header_max_v : forall m pr lines samples cs, header_ok lines samples cs ->
  max_unwrap (map c_v (f_components (frame_of m pr lines samples cs))) = Ok (largest (map cs_v cs)).
Proof.
  intros m pr lines samples cs HO. unfold frame_of. cbn [f_components]. rewrite map_map. cbn [c_v]. destruct HO. apply max_unwrap_largest.
  - destruct cs; [congruence|discriminate].
  - apply Forall_map. eapply Forall_impl; [|exact ho_factors]. intros c [_ H]. lia.
Qed.

Lemma geoms_range : forall rayon lines samples cs row n, header_ok lines samples cs -> 0 < lines -> 0 < samples ->
  In (row, n) (line_groups rayon lines (largest (map cs_v cs))) -> Forall (fun g => g_width g = samples /\ 0 <= row < g_height g) (geoms lines samples cs).
Proof.
  intros rayon lines samples cs row n HO Hl Hs H. pose proof (header_vm _ _ _ HO) as V.
  apply group_rows in H; auto; [|lia]. unfold geoms. apply Forall_map, Forall_forall. intros c _. cbn [comp_geom g_width g_height].
  split; auto. pose proof (Z.mul_div_le (lines - 1) (largest (map cs_v cs)) ltac:(lia)). split; [tauto|]. lia.
Qed.

Lemma geoms_planes : forall lines samples cs ps, Forall2 (plane_for lines samples cs) cs ps -> Forall2 plane_of (geoms lines samples cs) ps.
Proof.
  intros lines samples cs ps P. unfold geoms. assert (K : forall l ps, Forall2 (plane_for lines samples cs) l ps ->
      Forall2 plane_of (map (comp_geom samples lines (largest (map cs_h cs)) (largest (map cs_v cs))) l) ps); [|auto].
  intros l qs F. induction F; cbn [map]; constructor; auto. apply geom_plane. auto.
Qed.

Lemma rayon_schedule : forall dbg cut d m pr lines samples cs ps,
  header_ok lines samples cs -> 0 < lines -> 0 < samples -> (length cs <= 4)%nat -> Forall2 (plane_for lines samples cs) cs ps ->
  d_frame d = Some (frame_of m pr lines samples cs) -> d_planes d = map line_of ps ->
  (forall gs, concat (cut gs) = gs) ->
  upsample_rayon dbg cut d = upsample_image dbg true d.
Proof.
  intros dbg cut d m pr lines samples cs ps HO Hl Hs Lc P Fd Pd Ct. unfold upsample_rayon, upsample_image. rewrite Fd.
  destruct (choose_color_convert_func _ _) as [f| | |]; auto. cbn [bind].
  change (f_samples (frame_of m pr lines samples cs)) with samples. change (f_lines (frame_of m pr lines samples cs)) with lines.
  destruct (upsampler_cases m pr lines samples cs HO Hl Hs) as [[I E]|[_ E]]; rewrite E; auto. cbn [bind].
  rewrite header_max_v by auto. cbn [bind]. destruct (assert_ _ _); auto. cbn [bind]. rewrite Pd.
  assert (PC := pieces_concat dbg f samples (lenZ (f_components (frame_of m pr lines samples cs))) (geoms lines samples cs) ps (cut (line_groups true lines (largest (map cs_v cs))))).
  rewrite Ct in PC. change (map line_of ps) with (map (map (@Some Z)) ps). rewrite PC; auto.
  - unfold geoms. rewrite map_length. auto.
  - apply header_geoms; auto.
  - apply geoms_planes. auto.
  - intros row n H. eapply geoms_range; eauto.
Qed.

Lemma groups_v1 : forall height, line_groups true height 1 = line_groups false height 1.
Proof. intros. unfold line_groups. apply map_ext. intros k. f_equal. lia. Qed.

Lemma rayon_v1 : forall dbg d m pr lines samples cs, header_ok lines samples cs -> largest (map cs_v cs) = 1 ->
  d_frame d = Some (frame_of m pr lines samples cs) -> upsample_image dbg true d = upsample_image dbg false d.
Proof.
  intros dbg d m pr lines samples cs HO V Fd. unfold upsample_image. rewrite Fd, header_max_v, V by auto.
  destruct (choose_color_convert_func _ _); auto. cbn [bind]. destruct (upsampler_new _ _); auto. cbn [bind].
  rewrite groups_v1. reflexivity.
Qed.

(** ** Images that cannot be produced *)
Lemma image_lines_panic : forall dbg f width ncomp gs ps groups bufs,
  Forall geom_ok gs -> Forall integral gs -> Forall2 plane_of gs ps -> bufs_ok gs bufs ->
  (forall row n, In (row, n) groups -> Forall (fun g => g_width g = width /\ 0 <= row < g_height g) gs) ->
  (forall row ls b b', In row (map fst groups) -> bufs_ok gs b -> upsample_rows dbg (map g_up gs) (map (map Some) ps) b row width = Ok (ls, b') ->
     exists l, color_convert dbg f (repeat 0 (Z.to_nat (width * ncomp))) ls = Ok l) ->
  (exists row, In row (map fst groups) /\ forall b, bufs_ok gs b -> upsample_rows dbg (map g_up gs) (map (map Some) ps) b row width = Panic PIndex) ->
  image_lines dbg f (map g_up gs) (map (map Some) ps) width ncomp bufs groups = Panic PIndex.
Proof.
  intros dbg f width ncomp gs ps. induction groups as [|[row n] groups IH]; intros bufs G I P K R C [r [Hr A]]; [contradiction|].
  cbn [image_lines]. unfold upsample_and_interleave_row, lenZ. rewrite !map_length, (Forall2_length _ _ _ _ _ P), Z.eqb_refl.
  replace (debug_assert dbg true) with (@Ok unit tt) by (destruct dbg; reflexivity). cbn [bind].
  destruct (rows_indep dbg width row gs ps G I) as [[ls B]|B]; auto.
  { apply (R row n). left. auto. }
  - destruct (B bufs K) as [b' [K' E]]. rewrite E. cbn [bind].
    destruct (C row ls bufs b') as [l El]; [left; auto|auto|auto|]. rewrite El. cbn [bind].
    rewrite IH; auto.
    + intros r0 n0 H0. apply (R r0 n0). right. auto.
    + intros r0 l0 b0 b0' H0 K0 E0. apply (C r0 l0 b0 b0'); auto. right. auto.
    + exists r. split; auto. destruct Hr as [Hr|Hr]; auto. cbn in Hr. subst r. rewrite (A bufs K) in E. discriminate.
  - rewrite (B bufs K). reflexivity.
Qed.

Lemma dims_422 : forall i0 i1 i2 q0 q1 q2, largest (map cs_h (comps_422 i0 i1 i2 q0 q1 q2)) = 2 /\ largest (map cs_v (comps_422 i0 i1 i2 q0 q1 q2)) = 1.
Proof. intros. split; reflexivity. Qed.

Definition g422a (lines samples : Z) : geom := mkGeom samples lines 2 1 2 1.
Definition g422b (lines samples : Z) : geom := mkGeom samples lines 2 1 1 1.

Lemma geoms_422 : forall lines samples i0 i1 i2 q0 q1 q2,
  geoms lines samples (comps_422 i0 i1 i2 q0 q1 q2) = [g422a lines samples; g422b lines samples; g422b lines samples].
Proof. reflexivity. Qed.

Lemma kind_422 : forall lines samples, 0 < lines -> 0 < samples -> g_kind (g422a lines samples) = UH1V1 /\
  g_kind (g422b lines samples) = if samples =? 1 then UH1V1 else UH2V1.
Proof.
  intros. unfold g_kind, g_hr, g_vr, ratio, g422a, g422b. cbn [g_width g_height g_hm g_vm g_h g_v].
  change (2 / 2) with 1. change (1 / 1) with 1. change (2 / 1) with 2.
  destruct (samples =? 1), (lines =? 1); split; reflexivity.
Qed.

Lemma room_422 : forall lines samples, 0 < lines -> 1 < samples ->
  let g := g422b lines samples in
  ((lines - 1) * g_stride g + samples <= g_stride g * g_rows g <-> (lines mod 8 <> 0 \/ samples <= 8)).
Proof.
  intros lines samples Hl Hs. unfold g422b, g_stride, g_rows, mcus. cbn [g_width g_height g_hm g_vm g_h g_v].
  change (8 * 2) with 16. change (8 * 1) with 8.
  pose proof (ceil_div_bounds samples 16 ltac:(lia)) as [A1 A2]. pose proof (ceil_div_bounds lines 8 ltac:(lia)) as [B1 B2].
  set (a := ceil_div samples 16) in *. set (b := ceil_div lines 8) in *. clearbody a b.
  rewrite !Z.mul_1_r. cbv zeta. split.
  - intros H. destruct (Z.eq_dec (lines mod 8) 0) as [E|E]; [|left; auto]. right.
    assert (lines = 8 * b) by lia. nia.
  - intros H. destruct (Z.eq_dec (lines mod 8) 0) as [E|E].
    + assert (lines = 8 * b) by lia. assert (samples <= 8) by tauto. assert (a = 1) by lia. nia.
    + assert (lines + 1 <= 8 * b) by lia. nia.
Qed.

Lemma fits_422 : forall lines samples row, 0 < lines -> 0 < samples -> 0 <= row <= lines - 1 -> size_422 lines samples ->
  row_fits (g422a lines samples) row /\ row_fits (g422b lines samples) row.
Proof.
  intros lines samples row Hl Hs R S. unfold row_fits. destruct (kind_422 lines samples Hl Hs) as [-> ->]. split; auto.
  destruct (Z.eqb_spec samples 1) as [E|E]; [exact Logic.I|]. destruct S as [S|[S1 S2]]; [lia|]. split; auto.
  apply (room_422 lines samples Hl ltac:(lia)) in S2. cbv zeta in S2.
  assert (0 < g_stride (g422b lines samples)).
  { unfold g_stride, mcus, g422b. cbn [g_width g_height g_hm g_vm g_h g_v]. pose proof (ceil_div_bounds samples (8 * 2) ltac:(lia)). lia. }
  change (g_width (g422b lines samples)) with samples. nia.
Qed.

Lemma works_422 : forall lines samples i0 i1 i2 q0 q1 q2, 0 < lines -> 0 < samples -> size_422 lines samples ->
  let cs := comps_422 i0 i1 i2 q0 q1 q2 in Forall (whole_ratios cs) cs /\ Forall (width_works lines samples cs) cs.
Proof.
  intros lines samples i0 i1 i2 q0 q1 q2 Hl Hs S cs. split.
  - repeat constructor.
  - assert (V : (lines - 1) / 1 * 1 = lines - 1) by (rewrite Z.div_1_r; lia).
    destruct (kind_422 lines samples Hl Hs) as [_ K]. destruct (fits_422 lines samples (lines - 1) Hl Hs ltac:(lia) S) as [_ F].
    unfold row_fits in F. rewrite K in F.
    assert (W : forall c, In c cs -> width_works lines samples cs c).
    { intros c Hc. unfold width_works, h_ratio, v_ratio, ratio.
      change (largest (map cs_h cs)) with 2. change (largest (map cs_v cs)) with 1.
      assert (Ec : cs_v c = 1 /\ (cs_h c = 2 \/ c = mkCS (cs_id c) 1 1 (cs_tq c))).
      { unfold cs, comps_422 in Hc. cbn [In] in Hc. destruct Hc as [<-|[<-|[<-|[]]]]; auto. }
      destruct Ec as [E1 E2]. rewrite E1, V. change (1 / 1) with 1. replace (if lines =? 1 then 1 else 1) with 1 by (destruct (lines =? 1); reflexivity).
      split; [|intros [H|H]; exfalso; [|lia]].
      - intros H _. destruct (samples =? 1) eqn:E; [lia|]. destruct E2 as [E2|E2]; [rewrite E2 in H; discriminate|].
        rewrite E2. exact F.
      - destruct (samples =? 1); [lia|]. destruct E2 as [E2|E2]; [rewrite E2 in H; discriminate|]. rewrite E2 in H. discriminate. }
    apply Forall_forall. exact W.
Qed.

Lemma integral_422 : forall lines samples, integral (g422a lines samples) /\ integral (g422b lines samples).
Proof. intros. split; apply strict_integral; split; reflexivity. Qed.

Lemma panic_422 : forall dbg rayon d m pr lines samples i0 i1 i2 q0 q1 q2 ps,
  let cs := comps_422 i0 i1 i2 q0 q1 q2 in
  header_ok lines samples cs -> 0 < lines -> 0 < samples -> ~ size_422 lines samples ->
  Forall2 (plane_for lines samples cs) cs ps -> d_frame d = Some (frame_of m pr lines samples cs) -> d_planes d = map line_of ps ->
  upsample_image dbg rayon d = Panic PIndex.
Proof.
  intros dbg rayon d m pr lines samples i0 i1 i2 q0 q1 q2 ps cs HO Hl Hs NS P Fd Pd.
  pose proof (header_geoms _ _ _ HO Hl Hs) as G. pose proof (geoms_planes _ _ _ _ P) as PG.
  unfold cs in G, PG. rewrite geoms_422 in G, PG.
  destruct (integral_422 lines samples) as [Ia Ib]. destruct (kind_422 lines samples Hl Hs) as [Ka Kb].
  assert (II : Forall integral [g422a lines samples; g422b lines samples; g422b lines samples]) by (repeat constructor; auto).
  unfold upsample_image. rewrite Fd. change (lenZ (f_components (frame_of m pr lines samples cs))) with 3.
  change (f_samples (frame_of m pr lines samples cs)) with samples. change (f_lines (frame_of m pr lines samples cs)) with lines.
  assert (EC : exists f, choose_color_convert_func 3 (d_color d) = Ok f /\ (f = CNull \/ f = CYcbcr)).
  { unfold choose_color_convert_func. cbn [Z.eqb Pos.eqb]. destruct (d_color d) as [[]|]; eauto. }
  destruct EC as [f [-> Hf]]. cbn [bind].
  rewrite upsampler_of_header by (auto; unfold cs; rewrite geoms_422; auto). cbn [bind]. rewrite header_max_v by auto. cbn [bind].
  replace (samples * 3 =? 0) with false by lia. cbn [negb assert_ bind].
  change (largest (map cs_v cs)) with 1. rewrite Pd. unfold cs. rewrite geoms_422.
  rewrite (image_lines_panic dbg f samples 3 [g422a lines samples; g422b lines samples; g422b lines samples] ps); auto.
  - apply bufs_nil. cbn. lia.
  - intros row n H. apply (geoms_range rayon lines samples cs row n); auto.
  - intros row ls b b' Hr Kb' E. destruct Hf as [->| ->]; [eexists; reflexivity|].
    assert (RR : 0 <= row <= lines - 1).
    { apply in_map_iff in Hr. destruct Hr as [[r n] [<- Hr]]. apply group_rows in Hr; auto; [|lia]. rewrite Z.div_1_r in Hr. cbn [fst]. lia. }
    inversion PG as [|? p0 ? ? P0 PG1]; subst. inversion PG1 as [|? p1 ? ? P1 PG2]; subst. inversion PG2 as [|? p2 ? ? P2 PG3]; subst. inversion PG3; subst.
    apply Forall_inv in G as Ga. assert (Gb := Forall_inv (Forall_inv_tail G)).
    assert (FF : row_fits (g422b lines samples) row).
    { destruct (row_fits_dec (g422b lines samples) row) as [|NF]; auto. exfalso.
      assert (K2 : g_kind (g422b lines samples) = UH2V1).
      { rewrite Kb. destruct (Z.eqb_spec samples 1); auto. exfalso. apply NS. left. auto. }
      destruct b as [|b0 [|b1 bs]]; try (cbn in Kb'; tauto).
      cbn [map upsample_rows] in E. destruct (upsample_row dbg (g_up (g422a lines samples)) _ _ _ _) as [[l bb]| | |]; try discriminate E. cbn [bind] in E.
      pose proof (comp_row_panic dbg (g422b lines samples) p1 row b1 Gb Ib P1 ltac:(cbn; lia) K2 NF) as EP.
      change (g_width (g422b lines samples)) with samples in EP. rewrite EP in E. discriminate. }
    destruct (rows_ok dbg [g422a lines samples; g422b lines samples; g422b lines samples] [p0; p1; p2] b row samples) as [ns [bb [L1 [F1 [L2 E2]]]]]; auto.
    + assert (FA : row_fits (g422a lines samples) row) by (unfold row_fits; rewrite Ka; exact Logic.I).
      repeat constructor; auto; cbn; lia.
    + destruct b as [|b0 [|b1 [|b2 bs]]]; cbn in Kb' |- *; try tauto. lia.
    + rewrite E2 in E. inversion E; subst ls. destruct ns as [|n0 [|n1 [|n2 [|? ?]]]]; try discriminate L2.
      apply Forall_cons_iff in F1; destruct F1 as [F0 F]; apply Forall_cons_iff in F; destruct F as [F1 F]; apply Forall_cons_iff in F; destruct F as [F2 _].
      cbn [map combine]. rewrite (line_split _ samples n0), (line_split _ samples n1), (line_split _ samples n2) by (clear - Hs F0 F1 F2; lia).
      cbn [color_convert]. replace (Z.to_nat (samples * 3)) with (3 * Z.to_nat samples)%nat by (clear; lia).
      eexists. apply line_ycbcr_ok.
      1: apply (row_line_bytes (g422a lines samples) p0 row P0).
      1: apply (row_line_bytes (g422b lines samples) p1 row P1).
      1: apply (row_line_bytes (g422b lines samples) p2 row P2).
      all: rewrite map_length, zrange_length; reflexivity.
  - assert (S1 : samples <> 1) by (intros ->; apply NS; left; auto).
    exists (lines - 1). split.
    + apply in_map_iff. exists (lines - 1, 1). split; auto. unfold line_groups. apply in_map_iff. exists (lines - 1). split.
      * destruct rayon; f_equal; lia.
      * apply zrange_in. rewrite Z.div_1_r. lia.
    + intros b Kb'. inversion PG as [|? p0 ? ? P0 PG1]; subst. inversion PG1 as [|? p1 ? ? P1 PG2]; subst.
      assert (Ga := Forall_inv G). assert (Gb := Forall_inv (Forall_inv_tail G)).
      destruct b as [|b0 [|b1 bs]]; try (cbn in Kb'; tauto). cbn [map upsample_rows].
      destruct (comp_row dbg (g422a lines samples) p0 (lines - 1) b0) as [bb [_ E0]]; auto.
      { cbn. lia. }
      { unfold row_fits. rewrite Ka. exact Logic.I. }
      change (g_width (g422a lines samples)) with samples in E0. rewrite E0. cbn [bind].
      assert (NF : ~ row_fits (g422b lines samples) (lines - 1)).
      { unfold row_fits. rewrite Kb. replace (samples =? 1) with false by lia. change (g_width (g422b lines samples)) with samples.
        intros [M Rm]. apply (room_422 lines samples Hl ltac:(lia)) in Rm. apply NS. right. tauto. }
      pose proof (comp_row_panic dbg (g422b lines samples) p1 (lines - 1) b1 Gb Ib P1 ltac:(cbn; lia)) as EP.
      rewrite Kb in EP. replace (samples =? 1) with false in EP by lia. change (g_width (g422b lines samples)) with samples in EP.
      rewrite EP by auto. reflexivity.
Qed.

(** ** Rows of a component of a frame *)
Lemma shown_between : forall hr vr p stride w h row x lo hi, 1 <= hr -> 1 <= vr -> 0 <= row < vr * h -> 0 <= x < hr * w ->
  (forall y c, 0 <= y < h -> 0 <= c < w -> Z.abs (y - row / vr) <= 1 -> Z.abs (c - x / hr) <= 1 -> lo <= px p stride y c <= hi) ->
  lo <= shown hr vr p stride w h row x <= hi.
Proof.
  intros hr vr p stride w h row x lo hi Hh Hv R X B.
  assert (Ry : 0 <= row / vr < h) by (split; [apply Z.div_pos; lia|apply Z.div_lt_upper_bound; lia]).
  assert (Rx : 0 <= x / hr < w) by (split; [apply Z.div_pos; lia|apply Z.div_lt_upper_bound; lia]).
  assert (NB : forall last i, 0 <= i -> i / 2 <= last -> 0 <= neighbour last i <= last /\ Z.abs (neighbour last i - i / 2) <= 1).
  { intros last i Hi Hl. rewrite neighbour_parity. destruct (i mod 2 =? 0); lia. }
  unfold shown, double_width, double_height, double_both.
  destruct ((hr =? 1) && (vr =? 1)) eqn:K1.
  { assert (hr = 1) by lia. assert (vr = 1) by lia. subst. rewrite !Z.div_1_r in *. apply B; lia. }
  destruct ((hr =? 2) && (vr =? 1)) eqn:K2.
  { assert (hr = 2) by lia. assert (vr = 1) by lia. subst. rewrite !Z.div_1_r in *. destruct (NB (w - 1) x) as [N1 N2]; [lia|lia|].
    pose proof (B row (x / 2) ltac:(lia) ltac:(lia) ltac:(lia) ltac:(lia)). pose proof (B row (neighbour (w - 1) x) ltac:(lia) ltac:(lia) ltac:(lia) ltac:(lia)). lia. }
  destruct ((hr =? 1) && (vr =? 2)) eqn:K3.
  { assert (hr = 1) by lia. assert (vr = 2) by lia. subst. rewrite !Z.div_1_r in *. destruct (NB (h - 1) row) as [N1 N2]; [lia|lia|].
    pose proof (B (row / 2) x ltac:(lia) ltac:(lia) ltac:(lia) ltac:(lia)). pose proof (B (neighbour (h - 1) row) x ltac:(lia) ltac:(lia) ltac:(lia) ltac:(lia)). lia. }
  destruct ((hr =? 2) && (vr =? 2)) eqn:K4.
  { assert (hr = 2) by lia. assert (vr = 2) by lia. subst. destruct (NB (h - 1) row) as [N1 N2]; [lia|lia|]. destruct (NB (w - 1) x) as [N3 N4]; [lia|lia|].
    pose proof (B (row / 2) (x / 2) ltac:(lia) ltac:(lia) ltac:(lia) ltac:(lia)).
    pose proof (B (neighbour (h - 1) row) (x / 2) ltac:(lia) ltac:(lia) ltac:(lia) ltac:(lia)).
    pose proof (B (row / 2) (neighbour (w - 1) x) ltac:(lia) ltac:(lia) ltac:(lia) ltac:(lia)).
    pose proof (B (neighbour (h - 1) row) (neighbour (w - 1) x) ltac:(lia) ltac:(lia) ltac:(lia) ltac:(lia)). lia. }
  apply B; auto; lia.
Qed.

Lemma nth_known : forall (f : Z -> Z) n x, 0 <= x < n -> nth (Z.to_nat x) (map Some (map f (zrange n))) None = Some (f x).
Proof.
  intros f n x H. rewrite map_map. rewrite (nth_indep _ None (Some (f 0))) by (rewrite map_length, zrange_length; lia).
  rewrite (map_nth (fun x => Some (f x))), nth_zrange by lia. do 2 f_equal. lia.
Qed.

Lemma frame_row : forall m pr lines samples cs ups k c u, header_ok lines samples cs -> 0 < lines -> 0 < samples ->
  upsampler_new (f_components (frame_of m pr lines samples cs)) (mkDims samples lines) = Ok ups ->
  nth_error cs k = Some c -> nth_error ups k = Some u ->
  let g := comp_geom samples lines (largest (map cs_h cs)) (largest (map cs_v cs)) c in
  u = g_up g /\ geom_ok g /\ integral g.
Proof.
  intros m pr lines samples cs ups k c u HO Hl Hs E Ec Eu g.
  pose proof (header_geoms _ _ _ HO Hl Hs) as G.
  destruct (upsampler_cases m pr lines samples cs HO Hl Hs) as [[I E2]|[_ E2]]; rewrite E2 in E; [|discriminate]. inversion E; subst ups.
  unfold geoms in *. rewrite map_map in Eu. rewrite nth_error_map in Eu. unfold Datatypes.option_map in Eu. rewrite Ec in Eu. inversion Eu; subst u.
  rewrite Forall_map in *. rewrite Forall_forall in *. apply nth_error_In in Ec. split; [reflexivity|]. split; [apply G|apply I]; exact Ec.
Qed.

Lemma interpolated_rows : forall dbg m pr lines samples cs ups k c u p row buf line buf',
  header_ok lines samples cs -> 0 < lines -> 0 < samples ->
  upsampler_new (f_components (frame_of m pr lines samples cs)) (mkDims samples lines) = Ok ups ->
  nth_error cs k = Some c -> nth_error ups k = Some u ->
  h_ratio samples cs c <= 2 -> v_ratio lines cs c <= 2 ->
  plane_for lines samples cs c p -> 0 <= row < lines ->
  upsample_row dbg u (line_of p) row samples buf = Ok (line, buf') ->
  samples <= lenZ line /\ forall x, 0 <= x < samples -> nth (Z.to_nat x) line None = Some (comp_shown lines samples cs c p row x).
Proof.
  intros dbg m pr lines samples cs ups k c u p row buf line buf' HO Hl Hs EU Ec Eu Rh Rv P R E.
  destruct (frame_row m pr lines samples cs ups k c u HO Hl Hs EU Ec Eu) as (-> & G & I).
  set (g := comp_geom samples lines (largest (map cs_h cs)) (largest (map cs_v cs)) c) in *.
  apply geom_plane in P. fold g in P.
  assert (F : row_fits g row).
  { destruct (row_fits_dec g row) as [|NF]; auto. exfalso. destruct (g_kind g) as [| | | |hf vf] eqn:K; try (apply NF; unfold row_fits; rewrite K; exact Logic.I).
    - pose proof (comp_row_panic dbg g p row buf G I P R K NF) as EP. change (g_width g) with samples in EP. unfold line_of in E. rewrite EP in E. discriminate.
    - destruct (geom_cover g G I) as (_ & _ & _ & _ & _ & R1 & R2). change (g_hr g) with (h_ratio samples cs c) in *. change (g_vr g) with (v_ratio lines cs c) in *.
      unfold g_kind in K. change (g_hr g) with (h_ratio samples cs c) in K. change (g_vr g) with (v_ratio lines cs c) in K.
      assert (A : h_ratio samples cs c = 1 \/ h_ratio samples cs c = 2) by lia. assert (B : v_ratio lines cs c = 1 \/ v_ratio lines cs c = 2) by lia.
      destruct A as [A|A], B as [B|B]; rewrite A, B in K; discriminate K. }
  destruct (comp_row dbg g p row buf G I P R F) as [b2 [Hn E2]]. change (g_width g) with samples in *. unfold line_of in E. rewrite E2 in E. inversion E; subst.
  split.
  - unfold lenZ. rewrite !map_length, zrange_length. lia.
  - intros x Hx. rewrite nth_known by lia. reflexivity.
Qed.

Lemma repeated_rows : forall dbg m pr lines samples cs ups k c u p row buf,
  header_ok lines samples cs -> 0 < lines -> 0 < samples ->
  upsampler_new (f_components (frame_of m pr lines samples cs)) (mkDims samples lines) = Ok ups ->
  nth_error cs k = Some c -> nth_error ups k = Some u ->
  2 < h_ratio samples cs c \/ 2 < v_ratio lines cs c ->
  plane_for lines samples cs c p -> 0 <= row < lines ->
  let hf := largest (map cs_h cs) / cs_h c in
  exists line buf', upsample_row dbg u (line_of p) row samples buf = Ok (line, buf') /\ lenZ line = samples /\
    (forall x, 0 <= x < hf * (samples / hf) ->
      nth (Z.to_nat x) line None = Some (px p (plane_stride samples cs c) (row / v_ratio lines cs c) (x / h_ratio samples cs c))) /\
    (forall x, hf * (samples / hf) <= x < samples -> nth (Z.to_nat x) line None = Some (nth (Z.to_nat x) buf 0)).
Proof.
  intros dbg m pr lines samples cs ups k c u p row buf HO Hl Hs EU Ec Eu Big P R hf.
  destruct (frame_row m pr lines samples cs ups k c u HO Hl Hs EU Ec Eu) as (-> & G & I).
  set (g := comp_geom samples lines (largest (map cs_h cs)) (largest (map cs_v cs)) c) in *.
  apply geom_plane in P. fold g in P.
  change (h_ratio samples cs c) with (g_hr g) in *. change (v_ratio lines cs c) with (g_vr g) in *. change (plane_stride samples cs c) with (g_stride g).
  assert (K : g_kind g = UGeneric hf (largest (map cs_v cs) / cs_v c) /\ forall row x, g_shown g p row x = px p (g_stride g) (row / g_vr g) (x / g_hr g)).
  { unfold g_shown, shown, g_kind. replace ((g_hr g =? 1) && (g_vr g =? 1)) with false by lia. replace ((g_hr g =? 2) && (g_vr g =? 1)) with false by lia.
    replace ((g_hr g =? 1) && (g_vr g =? 2)) with false by lia. replace ((g_hr g =? 2) && (g_vr g =? 2)) with false by lia. split; reflexivity. }
  destruct K as [K S]. destruct (comp_row_generic dbg g p row buf _ _ G I P R K) as [Hf E]. change (g_width g) with samples in E.
  eexists _, _. split; [exact E|]. split; [unfold lenZ; rewrite !map_length, zrange_length; clear - Hs; lia|].
  assert (M : hf * (samples / hf) <= samples) by (apply Z.mul_div_le; lia).
  split; intros x Hx.
  - rewrite nth_known by (clear - Hx M Hs; lia). replace (x <? hf * (samples / hf)) with true by (symmetry; apply Z.ltb_lt; tauto). rewrite S. reflexivity.
  - assert (0 <= hf * (samples / hf)) by (apply Z.mul_nonneg_nonneg; [lia|apply Z.div_pos; lia]).
    rewrite nth_known by (clear - Hx H; lia). replace (x <? hf * (samples / hf)) with false by (symmetry; apply Z.ltb_ge; tauto). reflexivity.
Qed.

Lemma unsupported_image : forall dbg rayon d m pr lines samples cs f,
  header_ok lines samples cs -> 0 < lines -> 0 < samples -> d_frame d = Some (frame_of m pr lines samples cs) ->
  choose_color_convert_func (lenZ cs) (d_color d) = Ok f ->
  (exists c, In c cs /\ (samples <> 1 /\ largest (map cs_h cs) mod cs_h c <> 0 \/ lines <> 1 /\ largest (map cs_v cs) mod cs_v c <> 0)) ->
  upsample_image dbg rayon d = Fail EUnsupported.
Proof.
  intros dbg rayon d m pr lines samples cs f HO Hl Hs Fd Cf [c [Hc D]]. unfold upsample_image. rewrite Fd.
  assert (El : lenZ (f_components (frame_of m pr lines samples cs)) = lenZ cs) by (unfold lenZ, frame_of in *; cbn [f_components]; rewrite map_length; auto).
  rewrite El, Cf. cbn [bind]. change (f_samples (frame_of m pr lines samples cs)) with samples. change (f_lines (frame_of m pr lines samples cs)) with lines.
  destruct (upsampler_cases m pr lines samples cs HO Hl Hs) as [[I _]|[_ E2]]; [exfalso|rewrite E2; reflexivity].
  unfold geoms in I. rewrite Forall_map, Forall_forall in I. destruct (I c Hc) as (I1 & I2 & _). cbn [comp_geom g_width g_height g_hm g_vm g_h g_v] in *. tauto.
Qed.

(** Output lines of one group are equal. *)
Lemma group_lines_equal : forall dbg d m pr lines samples c0 c1 c2 p0 p1 p2,
  let cs := [c0; c1; c2] in
  header_ok lines samples cs -> 0 < lines -> 0 < samples -> Forall (whole_ratios cs) cs -> Forall (width_works lines samples cs) cs ->
  Forall2 (plane_for lines samples cs) cs [p0; p1; p2] ->
  d_frame d = Some (frame_of m pr lines samples cs) -> d_planes d = map line_of [p0; p1; p2] -> d_color d <> Some AdobeUnknown ->
  exists img, upsample_image dbg false d = Ok img /\
    forall y y' x, 0 <= y < lines -> 0 <= y' < lines -> 0 <= x < samples -> y / largest (map cs_v cs) = y' / largest (map cs_v cs) ->
      pixel 3 samples y x img = pixel 3 samples y' x img.
Proof.
  intros dbg d m pr lines samples c0 c1 c2 p0 p1 p2 cs HO Hl Hs WR WW P Fd Pd Ad.
  set (gm := comp_geom samples lines (largest (map cs_h cs)) (largest (map cs_v cs))).
  assert (Pg : plane_of (gm c0) p0 /\ plane_of (gm c1) p1 /\ plane_of (gm c2) p2).
  { inversion P as [|a b l1 l2 Q0 P1]; subst. inversion P1 as [|a b l1 l2 Q1 P2]; subst. inversion P2 as [|a b l1 l2 Q2 P3]; subst.
    rewrite geom_plane in Q0, Q1, Q2. auto. }
  destruct Pg as (G0 & G1 & G2).
  set (line := fun row => zip3 rgb_of (row_line (gm c0) p0 row) (row_line (gm c1) p1 row) (row_line (gm c2) p2 row)).
  assert (Ll : forall row, length (line row) = Z.to_nat (3 * samples)).
  { intros. unfold line. rewrite (zip3_length _ _ _ (Z.to_nat samples)) by apply row_line_length. lia. }
  exists (concat (map (fun y => line (shown_row false (largest (map cs_v cs)) y)) (zrange lines))). split.
  - apply (image_of_lines dbg false d m pr lines samples cs [p0; p1; p2] CYcbcr line 3); auto.
    + lia.
    + unfold choose_color_convert_func. cbn [Z.eqb Pos.eqb]. destruct (d_color d) as [[]|]; congruence.
    + intros row ns F L. destruct ns as [|n0 [|n1 [|n2 [|? ?]]]]; try discriminate L.
      apply Forall_cons_iff in F; destruct F as [F0 F]; apply Forall_cons_iff in F; destruct F as [F1 F]; apply Forall_cons_iff in F; destruct F as [F2 _].
      unfold geoms. fold gm. cbn [map combine cs]. rewrite (line_split _ samples n0), (line_split _ samples n1), (line_split _ samples n2) by (clear - Hs F0 F1 F2; lia).
      cbn [color_convert]. replace (Z.to_nat (samples * 3)) with (3 * Z.to_nat samples)%nat by lia.
      apply line_ycbcr_ok; try (apply row_line_bytes; auto); apply row_line_length.
  - intros y y' x Hy Hy' Hx E. rewrite !(lines_pixels line 3 samples lines); auto; try lia. unfold shown_row. rewrite E. reflexivity.
Qed.
