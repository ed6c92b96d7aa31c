(** The outcome of upsampling for every size and all sampling factors. *)
From Verif Require Import Base F32 SpecBits Idct Color Types Upsampler Parsers Decode Tactics SpecColor SpecUpsample SpecFrame SpecSegments SpecImage SpecAnswer GeomP ParsersP ColorP RowP UpsampleP UpsampleP2 ImageP RayonP.

Definition g_drawn (g : geom) (p : list Z) (row x : Z) : Z :=
  match g_kind g with
  | UGeneric hf _ => if x <? hf * (g_width g / hf) then g_shown g p row x else 0
  | _ => g_shown g p row x
  end.
Definition possible (g : geom) (row : Z) : Prop :=
  g_kind g = UH2V1 -> g_width g mod 2 = 0 /\ row * g_stride g + g_width g <= g_stride g * g_rows g.
Lemma possible_dec : forall g row, possible g row \/ ~ possible g row.
Proof.
  intros. unfold possible. destruct (g_kind g); try (left; intros E; discriminate E).
  destruct (Z.eq_dec (g_width g mod 2) 0); [|right; tauto]. destruct (Z_le_dec (row * g_stride g + g_width g) (g_stride g * g_rows g)); [left|right]; tauto.
Qed.
Lemma all_possible_dec : forall gs row, Forall (fun g => possible g row) gs \/ ~ Forall (fun g => possible g row) gs.
Proof.
  intros gs row. induction gs as [|g gs IH]; [left; constructor|]. destruct (possible_dec g row); [|right; intros F; apply Forall_inv in F; contradiction].
  destruct IH; [left; constructor; auto|right; intros F; apply Forall_inv_tail in F; contradiction].
Qed.

Lemma row_total : forall dbg g p row, geom_ok g -> integral g -> plane_of g p -> 0 <= row < g_height g ->
  (possible g row -> exists n, g_width g <= n /\ forall buf, okbuf g buf -> exists buf', okbuf g buf' /\
     upsample_row dbg (g_up g) (map Some p) row (g_width g) buf = Ok (map Some (map (g_drawn g p row) (zrange n)), buf')) /\
  (~ possible g row -> forall buf, upsample_row dbg (g_up g) (map Some p) row (g_width g) buf = Panic PIndex).
Proof.
  intros dbg g p row G I P R. split.
  - intros Po. destruct (g_kind g) as [| | | |hf vf] eqn:K.
    5:{ exists (g_width g). split; [lia|].
      intros buf B. destruct (comp_row_generic dbg g p row buf hf vf) as [Hf E]; auto.
      assert (EL : map (fun x => if x <? hf * (g_width g / hf) then g_shown g p row x else nth (Z.to_nat x) buf 0) (zrange (g_width g)) =
                   map (g_drawn g p row) (zrange (g_width g))).
      { apply map_ext_zrange. intros x Hx. unfold g_drawn. rewrite K. destruct (Z.ltb_spec x (hf * (g_width g / hf))); auto. unfold okbuf in B. rewrite K in B. apply B. auto. }
      rewrite EL in E. rewrite E. eexists. split; [|reflexivity]. unfold okbuf. rewrite K. intros x Hx.
      destruct (Z_lt_ge_dec x 0) as [Hn|Hn].
      { exfalso. assert (0 <= g_width g / hf) by (apply Z.div_pos; [destruct G as ((W & _) & _)|]; lia). nia. }
      destruct (Z_lt_ge_dec x (g_width g)) as [Hb|Hb].
      - rewrite (nth_indep _ 0 (g_drawn g p row 0)) by (rewrite map_length, zrange_length; clear - Hb Hn; lia).
        rewrite map_nth, nth_zrange by (clear - Hb Hn; lia). unfold g_drawn. rewrite K. rewrite Z2Nat.id by (clear - Hn; lia).
        replace (x <? hf * (g_width g / hf)) with false by (symmetry; apply Z.ltb_ge; exact Hx). reflexivity.
      - apply nth_overflow. rewrite map_length, zrange_length. clear - Hb Hn. lia. }
    all: assert (F : row_fits g row) by (unfold row_fits; rewrite K; first [exact Logic.I | apply Po; exact K]).
    all: exists (g_len g); split; [destruct (comp_row dbg g p row [] G I P R F) as [b1 [Hn' E1]]; exact Hn'|].
    all: intros buf _; destruct (comp_row dbg g p row buf G I P R F) as [b1 [Hn' E1]]; exists b1; split; [unfold okbuf; rewrite K; exact Logic.I|].
    all: rewrite E1; unfold g_drawn; rewrite K; reflexivity.
  - intros NP buf. assert (K : g_kind g = UH2V1).
    { destruct (g_kind g) eqn:K; auto; exfalso; apply NP; intros E; rewrite K in E; discriminate E. }
    apply comp_row_panic; auto. unfold row_fits. rewrite K. intros X. apply NP. intros _. exact X.
Qed.

Lemma rows_total : forall dbg width row gs ps,
  Forall geom_ok gs -> Forall integral gs -> Forall (fun g => g_width g = width /\ 0 <= row < g_height g) gs -> Forall2 plane_of gs ps ->
  (Forall (fun g => possible g row) gs -> exists ns, Forall (fun n => width <= n) ns /\ length ns = length gs /\
    forall bufs, bufs_ok gs bufs -> exists bufs', bufs_ok gs bufs' /\ upsample_rows dbg (map g_up gs) (map (map Some) ps) bufs row width =
      Ok (map (fun '(g, p, n) => map Some (map (g_drawn g p row) (zrange n))) (combine (combine gs ps) ns), bufs')) /\
  (~ Forall (fun g => possible g row) gs -> forall bufs, bufs_ok gs bufs -> upsample_rows dbg (map g_up gs) (map (map Some) ps) bufs row width = Panic PIndex).
Proof.
  intros dbg width row. induction gs as [|g gs IH]; intros ps G I R P.
  - inv P. split.
    + intros _. exists []. split; [constructor|]. split; [reflexivity|]. intros bufs _. exists bufs. split; [exact Logic.I|]. reflexivity.
    + intros N. exfalso. apply N. constructor.
  - inversion P as [|g0 p gs0 ps0 P0 P1]; subst.
    pose proof (Forall_inv_tail G) as G1. pose proof (Forall_inv_tail I) as I1. pose proof (Forall_inv_tail R) as R1.
    apply Forall_inv in G. apply Forall_inv in I. apply Forall_inv in R. destruct R as [Ew R]. subst width.
    destruct (row_total dbg g p row G I P0 R) as [A1 A2]. destruct (IH ps0 G1 I1 R1 P1) as [B1 B2]. split.
    + intros Q. destruct (A1 (Forall_inv Q)) as [n [Hn A]]. destruct (B1 (Forall_inv_tail Q)) as [ns [Fn [Ln B]]].
      exists (n :: ns). split; [constructor; auto|]. split; [cbn; congruence|]. intros [|b bufs] KK; [destruct KK|]. destruct KK as [K1 K2].
      destruct (A b K1) as [b' [Kb E1]]. destruct (B bufs K2) as [bufs' [Kbs E2]].
      exists (b' :: bufs'). split; [split; auto|]. cbn [map upsample_rows combine]. rewrite E1. cbn [bind]. rewrite E2. reflexivity.
    + intros N [|b bufs] KK; [destruct KK|]. destruct KK as [K1 K2]. cbn [map upsample_rows].
      destruct (possible_dec g row) as [Q|Q].
      * destruct (A1 Q) as [n [Hn A]]. destruct (A b K1) as [b' [Kb E1]]. rewrite E1. cbn [bind]. rewrite B2 by (try exact K2; intros F; apply N; constructor; auto). reflexivity.
      * rewrite A2 by auto. reflexivity.
Qed.

(** Lines made by the groups, when every row can be made. *)
Lemma image_lines_total : forall dbg f gs ps width ncomp (line : Z -> list Z) groups bufs,
  bufs_ok gs bufs -> Forall geom_ok gs -> Forall integral gs -> Forall2 plane_of gs ps ->
  (forall row n, In (row, n) groups -> Forall (fun g => g_width g = width /\ 0 <= row < g_height g) gs) ->
  (forall row n, In (row, n) groups -> Forall (fun g => possible g row) gs) ->
  (forall row n ns, In (row, n) groups -> Forall (fun k => width <= k) ns -> length ns = length gs ->
    color_convert dbg f (repeat 0 (Z.to_nat (width * ncomp)))
      (map (fun '(g, p, n) => map Some (map (g_drawn g p row) (zrange n))) (combine (combine gs ps) ns)) = Ok (line row)) ->
  image_lines dbg f (map g_up gs) (map (map Some) ps) width ncomp bufs groups =
    Ok (flat_map (fun '(row, n) => repeat (line row) (Z.to_nat n)) groups).
Proof.
  intros dbg f gs ps width ncomp line groups. induction groups as [|[row n] groups IH]; intros bufs K G I P R Q C; [reflexivity|].
  cbn [image_lines flat_map]. unfold upsample_and_interleave_row. unfold lenZ. rewrite !map_length, (Forall2_length _ _ _ _ _ P).
  rewrite Z.eqb_refl. replace (debug_assert dbg true) with (@Ok unit tt) by (destruct dbg; reflexivity). cbn [bind].
  destruct (rows_total dbg width row gs ps G I ltac:(apply (R row n); left; auto) P) as [T _].
  destruct (T ltac:(apply (Q row n); left; auto)) as [ns [F1 [L2 E]]]. destruct (E bufs K) as [bufs' [K' E']].
  rewrite E'. cbn [bind]. rewrite (C row n ns) by (auto; left; auto). cbn [bind].
  rewrite IH; auto; intros.
  - apply (R row0 n0). right; auto.
  - apply (Q row0 n0). right; auto.
  - apply (C row0 n0); auto. right; auto.
Qed.

(** ** From the header *)
Section Header.
  Variables (lines samples : Z) (cs : list comp_spec).
  Hypothesis (HO : header_ok lines samples cs) (Hl : 0 < lines) (Hs : 0 < samples).
  Let vm := largest (map cs_v cs).
  Let gm := comp_geom samples lines (largest (map cs_h cs)) (largest (map cs_v cs)).

  Lemma accepted_integral : forall c, ratios_accepted lines samples cs c <-> integral (gm c).
  Proof. intros c. reflexivity. Qed.
  Lemma all_accepted : Forall (ratios_accepted lines samples cs) cs <-> Forall integral (geoms lines samples cs).
  Proof. unfold geoms. rewrite Forall_map. split; apply Forall_impl; intros c; apply accepted_integral. Qed.

  Lemma last_row : forall rayon row n, In (row, n) (line_groups rayon lines vm) -> 0 <= row <= shown_row rayon vm (lines - 1).
  Proof.
    intros rayon row n H. pose proof (header_vm _ _ _ HO) as V. fold vm in V. unfold line_groups in H. apply in_map_iff in H. destruct H as [k [E Hk]]. apply zrange_in in Hk.
    assert (Q : k <= (lines - 1) / vm).
    { replace ((lines + vm - 1) / vm) with ((lines - 1) / vm + 1) in Hk; [lia|].
      replace (lines + vm - 1) with (lines - 1 + 1 * vm) by lia. rewrite Z.div_add by lia. lia. }
    unfold shown_row. inversion E; subst. destruct rayon; nia.
  Qed.
  Lemma last_group : forall rayon, In (shown_row rayon vm (lines - 1)) (map fst (line_groups rayon lines vm)).
  Proof.
    intros rayon. pose proof (header_vm _ _ _ HO) as V. fold vm in V. unfold line_groups. rewrite map_map. cbn [fst]. apply in_map_iff. exists ((lines - 1) / vm). split.
    - unfold shown_row. destruct rayon; reflexivity.
    - apply zrange_in. split; [apply Z.div_pos; lia|]. replace (lines + vm - 1) with (lines - 1 + 1 * vm) by lia. rewrite Z.div_add by lia. lia.
  Qed.

  Lemma kind_doubling : forall c, g_kind (gm c) = UH2V1 <-> h_ratio samples cs c = 2 /\ v_ratio lines cs c = 1.
  Proof.
    intros c. unfold g_kind. change (g_hr (gm c)) with (h_ratio samples cs c). change (g_vr (gm c)) with (v_ratio lines cs c).
    set (a := h_ratio samples cs c). set (b := v_ratio lines cs c). clearbody a b.
    destruct (Z.eqb_spec a 1), (Z.eqb_spec a 2), (Z.eqb_spec b 1), (Z.eqb_spec b 2); cbn [andb]; split; intros H; try discriminate H; try (exfalso; lia); auto.
  Qed.
  Lemma possible_of : forall rayon c, doubling_possible lines samples cs rayon c <-> possible (gm c) (shown_row rayon vm (lines - 1)).
  Proof.
    intros rayon c. unfold doubling_possible, possible. rewrite kind_doubling. change (g_width (gm c)) with samples.
    change (g_stride (gm c)) with (plane_stride samples cs c). change (g_rows (gm c)) with (plane_rows lines cs c). fold vm. tauto.
  Qed.
  Lemma all_possible : forall rayon, Forall (doubling_possible lines samples cs rayon) cs <-> Forall (fun g => possible g (shown_row rayon vm (lines - 1))) (geoms lines samples cs).
  Proof. intros rayon. unfold geoms. rewrite Forall_map. split; apply Forall_impl; intros c; apply possible_of. Qed.
  Lemma stride_nonneg : forall g, geom_ok g -> 0 <= g_stride g.
  Proof. intros g (W & H & Ah & Bh & Av & Bv). pose proof (extent_le (g_width g) (g_h g) (g_hm g) ltac:(lia) ltac:(lia)) as X. unfold g_stride. lia. Qed.
  Lemma possible_before : forall gs row r, Forall geom_ok gs -> r <= row -> Forall (fun g => possible g row) gs -> Forall (fun g => possible g r) gs.
  Proof.
    intros gs row r G L F. apply Forall_forall. intros g Hg. rewrite Forall_forall in F, G. specialize (F g Hg). specialize (G g Hg). intros K. destruct (F K) as [A B]. split; auto.
    pose proof (stride_nonneg g G). nia.
  Qed.

  Lemma drawn_of : forall c p row x, In c cs -> g_drawn (gm c) p row x = comp_drawn lines samples cs c p row x.
  Proof.
    intros c p row x Hc. pose proof (header_geoms _ _ _ HO Hl Hs) as G. unfold geoms in G. rewrite Forall_map, Forall_forall in G. specialize (G c Hc). fold gm in G.
    destruct G as (W & H & Ah & Bh & Av & Bv).
    pose proof (ratio_pos (g_width (gm c)) (g_h (gm c)) (g_hm (gm c)) Ah) as Rh. pose proof (ratio_pos (g_height (gm c)) (g_v (gm c)) (g_vm (gm c)) Av) as Rv.
    unfold g_drawn, comp_drawn, g_kind. change (g_hr (gm c)) with (h_ratio samples cs c). change (g_vr (gm c)) with (v_ratio lines cs c).
    change (ratio (g_width (gm c)) (g_h (gm c)) (g_hm (gm c))) with (h_ratio samples cs c) in Rh. change (ratio (g_height (gm c)) (g_v (gm c)) (g_vm (gm c))) with (v_ratio lines cs c) in Rv.
    change (g_shown (gm c) p row x) with (comp_shown lines samples cs c p row x). change (g_width (gm c)) with samples.
    change (g_hm (gm c) / g_h (gm c)) with (largest (map cs_h cs) / cs_h c). cbv zeta.
    set (a := h_ratio samples cs c) in *. set (b := v_ratio lines cs c) in *. set (hf := largest (map cs_h cs) / cs_h c). clearbody a b hf.
    destruct ((a =? 1) && (b =? 1)) eqn:K1. { replace (2 <? a) with false by lia. replace (2 <? b) with false by lia. reflexivity. }
    destruct ((a =? 2) && (b =? 1)) eqn:K2. { replace (2 <? a) with false by lia. replace (2 <? b) with false by lia. reflexivity. }
    destruct ((a =? 1) && (b =? 2)) eqn:K3. { replace (2 <? a) with false by lia. replace (2 <? b) with false by lia. reflexivity. }
    destruct ((a =? 2) && (b =? 2)) eqn:K4. { replace (2 <? a) with false by lia. replace (2 <? b) with false by lia. reflexivity. }
    replace ((2 <? a) || (2 <? b)) with true by lia. cbn [andb].
    rewrite Z.leb_antisym. destruct (x <? hf * (samples / hf)); reflexivity.
  Qed.
  Lemma drawn_byte : forall c p row x, bytes p -> is_byte (comp_drawn lines samples cs c p row x).
  Proof.
    intros c p row x B. unfold comp_drawn. destruct (_ && _); [unfold is_byte; lia|]. apply shown_byte. apply bytes_le. exact B.
  Qed.

  Definition drawn_line (c : comp_spec) (p : list Z) (row : Z) : list Z := map (comp_drawn lines samples cs c p row) (zrange samples).
  Lemma drawn_line_bytes : forall c p row, bytes p -> bytes (drawn_line c p row).
  Proof. intros. unfold drawn_line. apply Forall_map, Forall_forall. intros x _. apply drawn_byte. auto. Qed.
  Lemma drawn_line_length : forall c p row, length (drawn_line c p row) = Z.to_nat samples.
  Proof. intros. unfold drawn_line. rewrite map_length, zrange_length. reflexivity. Qed.
  Lemma drawn_line_nth : forall c p row x, 0 <= x < samples -> nth (Z.to_nat x) (drawn_line c p row) 0 = comp_drawn lines samples cs c p row x.
  Proof.
    intros c p row x H. unfold drawn_line. rewrite (nth_indep _ 0 (comp_drawn lines samples cs c p row 0)) by (rewrite map_length, zrange_length; lia).
    rewrite map_nth, nth_zrange by lia. f_equal. lia.
  Qed.
  (** A line as the colour conversion gets it: at least [samples] values. *)
  Lemma drawn_split : forall c p row n, In c cs -> samples <= n -> map Some (map (g_drawn (gm c) p row) (zrange n)) =
    line_of (drawn_line c p row) ++ map Some (map (comp_drawn lines samples cs c p row) (map (fun k => samples + k) (zrange (n - samples)))).
  Proof.
    intros c p row n Hc Hn. unfold drawn_line. rewrite <- (line_split (comp_drawn lines samples cs c p row) samples n) by lia. f_equal. apply map_ext. intros x. apply drawn_of. exact Hc.
  Qed.

  Section Image.
    Variables (dbg rayon : bool) (d : decoder) (m pr : Z) (ps : list (list Z)) (f : color_func).
    Hypothesis (Lc : (length cs <= 4)%nat) (Cf : choose_color_convert_func (lenZ cs) (d_color d) = Ok f)
               (Fd : d_frame d = Some (frame_of m pr lines samples cs)) (P : Forall2 (plane_for lines samples cs) cs ps) (Pd : d_planes d = map line_of ps).

    Lemma comps_len : lenZ (f_components (frame_of m pr lines samples cs)) = lenZ cs.
    Proof. unfold lenZ, frame_of. cbn [f_components]. rewrite map_length. auto. Qed.
    Lemma some_comp : 0 < lenZ cs.
    Proof. destruct HO. destruct cs; [congruence|]. unfold lenZ. cbn [length]. lia. Qed.

    Lemma not_accepted : ~ Forall (ratios_accepted lines samples cs) cs -> upsample_image dbg rayon d = Fail EUnsupported.
    Proof.
      intros N. unfold upsample_image. rewrite Fd, comps_len, Cf. cbn [bind].
      change (f_samples (frame_of m pr lines samples cs)) with samples. change (f_lines (frame_of m pr lines samples cs)) with lines.
      destruct (upsampler_cases m pr lines samples cs HO Hl Hs) as [[I _]|[_ E2]]; [|rewrite E2; reflexivity].
      exfalso. apply N, all_accepted. exact I.
    Qed.

    Lemma upsample_as_lines : Forall (ratios_accepted lines samples cs) cs -> upsample_image dbg rayon d =
      let* ls := image_lines dbg f (map g_up (geoms lines samples cs)) (map (map Some) ps) samples (lenZ cs) [[]; []; []; []] (line_groups rayon lines vm) in Ok (concat ls).
    Proof.
      intros A. unfold upsample_image. rewrite Fd, comps_len, Cf. cbn [bind].
      change (f_samples (frame_of m pr lines samples cs)) with samples. change (f_lines (frame_of m pr lines samples cs)) with lines.
      destruct (upsampler_cases m pr lines samples cs HO Hl Hs) as [[_ E2]|[N _]]; [|exfalso; apply N, all_accepted, A]. rewrite E2. cbn [bind].
      rewrite header_max_v by auto. cbn [bind]. pose proof some_comp. assert (samples * lenZ cs <> 0) by nia. replace (samples * lenZ cs =? 0) with false by lia. cbn [negb assert_ bind].
      rewrite Pd. reflexivity.
    Qed.

    Lemma geoms_few : bufs_ok (geoms lines samples cs) [[]; []; []; []].
    Proof. apply bufs_nil. unfold geoms. rewrite map_length. exact Lc. Qed.

    Lemma drawn_image : forall line, Forall (ratios_accepted lines samples cs) cs -> Forall (doubling_possible lines samples cs rayon) cs ->
      (forall row ns, Forall (fun k => samples <= k) ns -> length ns = length cs ->
        color_convert dbg f (repeat 0 (Z.to_nat (samples * lenZ cs)))
          (map (fun '(g, p, n) => map Some (map (g_drawn g p row) (zrange n))) (combine (combine (geoms lines samples cs) ps) ns)) = Ok (line row)) ->
      upsample_image dbg rayon d = Ok (concat (map (fun y => line (shown_row rayon vm y)) (zrange lines))).
    Proof.
      intros line A D C. rewrite (upsample_as_lines A). pose proof (header_vm _ _ _ HO) as V. fold vm in V.
      rewrite (image_lines_total dbg f (geoms lines samples cs) ps samples (lenZ cs) line).
      - cbn [bind]. rewrite groups_lines by lia. reflexivity.
      - apply geoms_few.
      - apply header_geoms; auto.
      - apply all_accepted. exact A.
      - apply geoms_planes. exact P.
      - intros row n H. apply (geoms_range rayon lines samples cs row n); auto.
      - intros row n H. apply (possible_before _ (shown_row rayon vm (lines - 1))); [apply header_geoms; auto|apply (last_row _ _ _ H)|]. apply all_possible. exact D.
      - intros row n ns _ F L. apply C; auto. rewrite L. unfold geoms. apply map_length.
    Qed.

    Lemma drawn_panic : Forall (ratios_accepted lines samples cs) cs -> ~ Forall (doubling_possible lines samples cs rayon) cs ->
      (forall row ns, Forall (fun k => samples <= k) ns -> length ns = length cs ->
        exists l, color_convert dbg f (repeat 0 (Z.to_nat (samples * lenZ cs)))
          (map (fun '(g, p, n) => map Some (map (g_drawn g p row) (zrange n))) (combine (combine (geoms lines samples cs) ps) ns)) = Ok l) ->
      upsample_image dbg rayon d = Panic PIndex.
    Proof.
      intros A D C. rewrite (upsample_as_lines A).
      pose proof (header_geoms _ _ _ HO Hl Hs) as G. pose proof (proj1 all_accepted A) as I. pose proof (geoms_planes _ _ _ _ P) as PG.
      assert (RR : forall row, In row (map fst (line_groups rayon lines vm)) -> Forall (fun g => g_width g = samples /\ 0 <= row < g_height g) (geoms lines samples cs)).
      { intros row H. apply in_map_iff in H. destruct H as [[r n] [<- H]]. apply (geoms_range rayon lines samples cs r n); auto. }
      rewrite (image_lines_panic dbg f samples (lenZ cs) (geoms lines samples cs) ps); auto.
      - apply geoms_few.
      - intros row n H. apply (geoms_range rayon lines samples cs row n); auto.
      - intros row ls b b' Hr Kb E. destruct (rows_total dbg samples row (geoms lines samples cs) ps G I (RR row Hr) PG) as [T1 T2].
        destruct (all_possible_dec (geoms lines samples cs) row) as [Q|Q]; [|rewrite T2 in E by auto; discriminate E].
        destruct (T1 Q) as [ns [F [L X]]]. destruct (X b Kb) as [b2 [_ E2]]. rewrite E2 in E. inversion E; subst ls. apply C; auto. rewrite L. unfold geoms. apply map_length.
      - exists (shown_row rayon vm (lines - 1)). split; [apply last_group|]. intros b Kb.
        destruct (rows_total dbg samples _ (geoms lines samples cs) ps G I (RR _ (last_group rayon)) PG) as [_ T2]. apply T2; auto.
        intros F. apply D, all_possible. exact F.
    Qed.

    (** No line can be converted. *)
    Lemma convert_panic : Forall (ratios_accepted lines samples cs) cs ->
      (forall row ns, length ns = length cs ->
        color_convert dbg f (repeat 0 (Z.to_nat (samples * lenZ cs)))
          (map (fun '(g, p, n) => map Some (map (g_drawn g p row) (zrange n))) (combine (combine (geoms lines samples cs) ps) ns)) = Panic PAssert) ->
      upsample_image dbg rayon d = Panic PAssert \/ upsample_image dbg rayon d = Panic PIndex.
    Proof.
      intros A C. rewrite (upsample_as_lines A).
      pose proof (header_geoms _ _ _ HO Hl Hs) as G. pose proof (proj1 all_accepted A) as I. pose proof (geoms_planes _ _ _ _ P) as PG.
      pose proof (last_group rayon) as LG. destruct (line_groups rayon lines vm) as [|[row n] gs] eqn:EG; [destruct LG|]. clear LG.
      cbn [image_lines]. unfold upsample_and_interleave_row, lenZ. rewrite !map_length, (Forall2_length _ _ _ _ _ PG), Z.eqb_refl.
      replace (debug_assert dbg true) with (@Ok unit tt) by (destruct dbg; reflexivity). cbn [bind].
      assert (RR : Forall (fun g => g_width g = samples /\ 0 <= row < g_height g) (geoms lines samples cs)).
      { apply (geoms_range rayon lines samples cs row n); auto. fold vm. rewrite EG. left. reflexivity. }
      destruct (rows_total dbg samples row (geoms lines samples cs) ps G I RR PG) as [T1 T2].
      destruct (all_possible_dec (geoms lines samples cs) row) as [Q|Q].
      - left. destruct (T1 Q) as [ns [F [L X]]]. destruct (X _ geoms_few) as [b2 [_ E2]]. rewrite E2. cbn [bind].
        change (Z.of_nat (length cs)) with (lenZ cs). rewrite C; [reflexivity|]. rewrite L. unfold geoms. apply map_length.
      - right. rewrite T2 by (auto using geoms_few). reflexivity.
    Qed.
  End Image.
End Header.
