(** The final_answer to every encoded file. *)
From Verif Require Import Base F32 SpecBits Idct Color Types Upsampler Parsers Decode Tactics SpecColor SpecUpsample SpecFrame SpecSegments SpecImage SpecScan SpecMarker SpecBlock SpecFile SpecAnswer
  MarkerP GeomP ParsersP ParsersP2 ColorP RowP UpsampleP UpsampleP2 ImageP RayonP AnswerP.

Lemma accepted_dec : forall lines samples cs, Forall (ratios_accepted lines samples cs) cs \/ ~ Forall (ratios_accepted lines samples cs) cs.
Proof.
  intros lines samples cs. rewrite all_accepted. induction (geoms lines samples cs) as [|g gs IH]; [left; constructor|].
  destruct (integral_dec g); [|right; intros F; apply Forall_inv in F; contradiction].
  destruct IH; [left; constructor; auto|right; intros F; apply Forall_inv_tail in F; contradiction].
Qed.
Lemma possible_all_dec : forall lines samples cs rayon, Forall (doubling_possible lines samples cs rayon) cs \/ ~ Forall (doubling_possible lines samples cs rayon) cs.
Proof. intros. rewrite all_possible. apply all_possible_dec. Qed.

(** The transform stored in the decoder. *)
Definition color_for (t : option Z) : option adobe := match t with Some t => transform_of t | None => None end.

Section Whole.
  Variables (dbg rayon : bool) (d : decoder) (m pr lines samples : Z) (cs : list comp_spec) (ps : list (list Z)) (t : option Z).
  Hypothesis (HO : header_ok lines samples cs) (Hl : 0 < lines) (Hs : 0 < samples) (Lc : (length cs <= 4)%nat)
             (Fd : d_frame d = Some (frame_of m pr lines samples cs)) (P : Forall2 (plane_for lines samples cs) cs ps) (Pd : d_planes d = map line_of ps)
             (Cd : d_color d = color_for t) (Tr : match t with Some t => 0 <= t <= 2 | None => True end).

  Lemma three_lines : forall row c0 c1 c2 p0 p1 p2 ns, cs = [c0; c1; c2] -> ps = [p0; p1; p2] -> Forall (fun k => samples <= k) ns -> length ns = length cs ->
    color_convert dbg CYcbcr (repeat 0 (Z.to_nat (samples * lenZ cs)))
      (map (fun '(g, p, n) => map Some (map (g_drawn g p row) (zrange n))) (combine (combine (geoms lines samples cs) ps) ns)) =
    Ok (zip3 rgb_of (drawn_line lines samples cs c0 p0 row) (drawn_line lines samples cs c1 p1 row) (drawn_line lines samples cs c2 p2 row)).
  Proof.
    intros row c0 c1 c2 p0 p1 p2 ns Ec Ep F L. rewrite Ep in *. pose proof P as P'. rewrite Ec in P' at 2. inversion P' as [|a b l1 l2 Q0 P1]; subst a b l1 l2. inversion P1 as [|a b l1 l2 Q1 P2]; subst a b l1 l2. inversion P2 as [|a b l1 l2 Q2 P3]; subst a b l1 l2.
    rewrite Ec in L. destruct ns as [|n0 [|n1 [|n2 [|? ?]]]]; try discriminate L.
    apply Forall_cons_iff in F; destruct F as [F0 F]; apply Forall_cons_iff in F; destruct F as [F1 F]; apply Forall_cons_iff in F; destruct F as [F2 _].
    replace (lenZ cs) with 3 by (rewrite Ec; reflexivity).
    unfold geoms. replace (map (comp_geom samples lines (largest (map cs_h cs)) (largest (map cs_v cs))) cs) with (map (comp_geom samples lines (largest (map cs_h cs)) (largest (map cs_v cs))) [c0; c1; c2]) by (f_equal; auto).
    cbn [map combine]. rewrite !(drawn_split lines samples cs) by (auto; rewrite Ec; cbn [In]; auto).
    cbn [color_convert]. replace (Z.to_nat (samples * 3)) with (3 * Z.to_nat samples)%nat by (clear; lia).
    apply line_ycbcr_ok; try (apply drawn_line_bytes; apply Q0 || apply Q1 || apply Q2); apply drawn_line_length.
  Qed.
  Lemma four_lines : forall row c0 c1 c2 c3 p0 p1 p2 p3 ns, cs = [c0; c1; c2; c3] -> ps = [p0; p1; p2; p3] -> Forall (fun k => samples <= k) ns -> length ns = length cs ->
    color_convert dbg CCmyk (repeat 0 (Z.to_nat (samples * lenZ cs)))
      (map (fun '(g, p, n) => map Some (map (g_drawn g p row) (zrange n))) (combine (combine (geoms lines samples cs) ps) ns)) =
    Ok (zip4 cmyk_of (drawn_line lines samples cs c0 p0 row) (drawn_line lines samples cs c1 p1 row) (drawn_line lines samples cs c2 p2 row) (drawn_line lines samples cs c3 p3 row)).
  Proof.
    intros row c0 c1 c2 c3 p0 p1 p2 p3 ns Ec Ep F L. rewrite Ep in *.
    rewrite Ec in L. destruct ns as [|n0 [|n1 [|n2 [|n3 [|? ?]]]]]; try discriminate L.
    apply Forall_cons_iff in F; destruct F as [F0 F]; apply Forall_cons_iff in F; destruct F as [F1 F]; apply Forall_cons_iff in F; destruct F as [F2 F]; apply Forall_cons_iff in F; destruct F as [F3 _].
    replace (lenZ cs) with 4 by (rewrite Ec; reflexivity).
    unfold geoms. replace (map (comp_geom samples lines (largest (map cs_h cs)) (largest (map cs_v cs))) cs) with (map (comp_geom samples lines (largest (map cs_h cs)) (largest (map cs_v cs))) [c0; c1; c2; c3]) by (f_equal; auto).
    cbn [map combine]. rewrite !(drawn_split lines samples cs) by (auto; rewrite Ec; cbn [In]; auto).
    cbn [color_convert]. replace (Z.to_nat (samples * 4)) with (4 * Z.to_nat samples)%nat by (clear; lia).
    apply line_cmyk_ok; apply drawn_line_length.
  Qed.

  Lemma planes_three : forall c0 c1 c2, cs = [c0; c1; c2] -> exists p0 p1 p2, ps = [p0; p1; p2].
  Proof. intros c0 c1 c2 E. pose proof (Forall2_length _ _ _ _ _ P) as L. rewrite E in L. destruct ps as [|p0 [|p1 [|p2 [|]]]]; try discriminate L. eauto. Qed.
  Lemma planes_four : forall c0 c1 c2 c3, cs = [c0; c1; c2; c3] -> exists p0 p1 p2 p3, ps = [p0; p1; p2; p3].
  Proof. intros c0 c1 c2 c3 E. pose proof (Forall2_length _ _ _ _ _ P) as L. rewrite E in L. destruct ps as [|p0 [|p1 [|p2 [|p3 [|]]]]]; try discriminate L. eauto 6. Qed.

  Lemma ycbcr_image : forall c0 c1 c2 p0 p1 p2, cs = [c0; c1; c2] -> ps = [p0; p1; p2] -> choose_color_convert_func (lenZ cs) (d_color d) = Ok CYcbcr ->
    Forall (ratios_accepted lines samples cs) cs -> Forall (doubling_possible lines samples cs rayon) cs ->
    exists img, upsample_image dbg rayon d = Ok img /\ lenZ img = 3 * samples * lines /\
      forall y x, 0 <= y < lines -> 0 <= x < samples -> let row := shown_row rayon (largest (map cs_v cs)) y in
        rgb_pixel (comp_drawn lines samples cs c0 p0 row x) (comp_drawn lines samples cs c1 p1 row x) (comp_drawn lines samples cs c2 p2 row x) (pixel 3 samples y x img).
  Proof.
    intros c0 c1 c2 p0 p1 p2 Ec Ep Cf A D.
    set (line := fun row => zip3 rgb_of (drawn_line lines samples cs c0 p0 row) (drawn_line lines samples cs c1 p1 row) (drawn_line lines samples cs c2 p2 row)).
    assert (Ll : forall row, length (line row) = Z.to_nat (3 * samples)).
    { intros. unfold line. rewrite (zip3_length _ _ _ (Z.to_nat samples)) by apply drawn_line_length. lia. }
    exists (concat (map (fun y => line (shown_row rayon (largest (map cs_v cs)) y)) (zrange lines))). split; [|split].
    - apply (drawn_image lines samples cs HO Hl Hs dbg rayon d m pr ps CYcbcr Lc Cf Fd P Pd line A D). intros row ns F L. apply three_lines; auto.
    - apply lines_length; auto; lia.
    - intros y x Hy Hx row. rewrite (lines_pixels line 3 samples lines); auto; try lia. fold row.
      change (Z.to_nat 3) with 3%nat. replace (Z.to_nat (3 * x)) with (3 * Z.to_nat x)%nat by lia. unfold line.
      rewrite (zip3_pixel _ _ _ _ (Z.to_nat samples)) by (try apply drawn_line_length; lia).
      rewrite !drawn_line_nth by lia. pose proof P as P'. rewrite Ec, Ep in P'. 
      assert (B : bytes p0 /\ bytes p1 /\ bytes p2).
      { inversion P' as [|a b l1 l2 Q0 P1]; subst a b l1 l2. inversion P1 as [|a b l1 l2 Q1 P2]; subst a b l1 l2. inversion P2 as [|a b l1 l2 Q2 P3]; subst a b l1 l2. split; [apply Q0|split; [apply Q1|apply Q2]]. }
      apply rgb_of_pixel; apply drawn_byte; apply B.
  Qed.
  Lemma cmyk_image : forall c0 c1 c2 c3 p0 p1 p2 p3, cs = [c0; c1; c2; c3] -> ps = [p0; p1; p2; p3] -> choose_color_convert_func (lenZ cs) (d_color d) = Ok CCmyk ->
    Forall (ratios_accepted lines samples cs) cs -> Forall (doubling_possible lines samples cs rayon) cs ->
    exists img, upsample_image dbg rayon d = Ok img /\ lenZ img = 4 * samples * lines /\
      forall y x, 0 <= y < lines -> 0 <= x < samples -> let row := shown_row rayon (largest (map cs_v cs)) y in
        pixel 4 samples y x img = [255 - comp_drawn lines samples cs c0 p0 row x; 255 - comp_drawn lines samples cs c1 p1 row x;
                                   255 - comp_drawn lines samples cs c2 p2 row x; 255 - comp_drawn lines samples cs c3 p3 row x].
  Proof.
    intros c0 c1 c2 c3 p0 p1 p2 p3 Ec Ep Cf A D.
    set (line := fun row => zip4 cmyk_of (drawn_line lines samples cs c0 p0 row) (drawn_line lines samples cs c1 p1 row) (drawn_line lines samples cs c2 p2 row) (drawn_line lines samples cs c3 p3 row)).
    assert (Ll : forall row, length (line row) = Z.to_nat (4 * samples)).
    { intros. unfold line. rewrite (zip4_length _ _ _ _ (Z.to_nat samples)) by apply drawn_line_length. lia. }
    exists (concat (map (fun y => line (shown_row rayon (largest (map cs_v cs)) y)) (zrange lines))). split; [|split].
    - apply (drawn_image lines samples cs HO Hl Hs dbg rayon d m pr ps CCmyk Lc Cf Fd P Pd line A D). intros row ns F L. apply four_lines; auto.
    - apply lines_length; auto; lia.
    - intros y x Hy Hx row. rewrite (lines_pixels line 4 samples lines); auto; try lia. fold row.
      change (Z.to_nat 4) with 4%nat. replace (Z.to_nat (4 * x)) with (4 * Z.to_nat x)%nat by lia. unfold line.
      rewrite (zip4_pixel _ _ _ _ _ (Z.to_nat samples)) by (try apply drawn_line_length; lia).
      rewrite !drawn_line_nth by lia. reflexivity.
  Qed.

  Lemma concat_zeros : forall (A : Type) (l : list A) n, concat (map (fun _ => repeat 0 n) l) = repeat 0 (length l * n).
  Proof. intros A l n. induction l as [|a l IH]; [reflexivity|]. cbn [map concat length Nat.mul]. rewrite IH, repeat_app. reflexivity. Qed.

  Lemma total_answer : final_answer rayon lines samples cs ps t (upsample_image dbg rayon d).
  Proof.
    destruct (Z.eq_dec (lenZ cs) 3) as [E3|N3].
    - assert (EC : exists c0 c1 c2, cs = [c0; c1; c2]).
      { unfold lenZ in E3. destruct cs as [|c0 [|c1 [|c2 [|c3 l]]]]; cbn [length] in E3; try lia. eauto. }
      destruct EC as [c0 [c1 [c2 Ec]]]. destruct (planes_three c0 c1 c2 Ec) as [p0 [p1 [p2 Ep]]].
      destruct (accepted_dec lines samples cs) as [A|A].
      2:{ assert (CF : exists f, choose_color_convert_func (lenZ cs) (d_color d) = Ok f) by (rewrite E3; unfold choose_color_convert_func; cbn [Z.eqb Pos.eqb]; destruct (d_color d) as [[]|]; eauto).
          destruct CF as [f CF]. rewrite (not_accepted lines samples cs HO Hl Hs dbg rayon d m pr f CF Fd A). apply a_ratio; auto. }
      destruct (option_map (fun x => x =? 0) t) as [[]|] eqn:T0.
      + (* RGB *) assert (Et : t = Some 0) by (destruct t as [t0|]; [|discriminate T0]; unfold option_map in T0; assert (T1 : (t0 =? 0) = true) by congruence; apply Z.eqb_eq in T1; congruence).
        assert (CF : choose_color_convert_func (lenZ cs) (d_color d) = Ok CNull) by (rewrite E3, Cd, Et; reflexivity).
        destruct (possible_all_dec lines samples cs rayon) as [D|D].
        * rewrite (drawn_image lines samples cs HO Hl Hs dbg rayon d m pr ps CNull Lc CF Fd P Pd (fun _ => repeat 0 (Z.to_nat (samples * lenZ cs))) A D) by (intros; reflexivity).
          rewrite concat_zeros, zrange_length. replace (Z.to_nat lines * Z.to_nat (samples * lenZ cs))%nat with (Z.to_nat (3 * samples * lines)) by (rewrite E3, <- Z2Nat.inj_mul by lia; f_equal; lia).
          apply a_rgb; auto.
        * rewrite (drawn_panic lines samples cs HO Hl Hs dbg rayon d m pr ps CNull Lc CF Fd P Pd A D) by (intros; eexists; reflexivity). apply a_doubling; auto.
      + (* YCbCr with Adobe *) assert (Nt : t <> Some 0) by (intros ->; discriminate T0).
        assert (CF : choose_color_convert_func (lenZ cs) (d_color d) = Ok CYcbcr).
        { rewrite E3, Cd. destruct t as [t0|]; [|reflexivity]. cbn [color_for]. unfold transform_of. destruct (Z.eqb_spec t0 0); [congruence|]. destruct (Z.eqb_spec t0 1); [reflexivity|]. destruct (Z.eqb_spec t0 2); [reflexivity|]. reflexivity. }
        destruct (possible_all_dec lines samples cs rayon) as [D|D].
        * destruct (ycbcr_image c0 c1 c2 p0 p1 p2 Ec Ep CF A D) as [img [U [Li Px]]]. rewrite U. apply (a_ycbcr rayon lines samples cs ps t c0 c1 c2 p0 p1 p2); auto.
        * rewrite (drawn_panic lines samples cs HO Hl Hs dbg rayon d m pr ps CYcbcr Lc CF Fd P Pd A D) by (intros row ns F L; eexists; apply (three_lines row c0 c1 c2 p0 p1 p2 ns); auto). apply a_doubling; auto.
      + assert (Nt : t <> Some 0) by (intros ->; discriminate T0).
        assert (CF : choose_color_convert_func (lenZ cs) (d_color d) = Ok CYcbcr) by (rewrite E3, Cd; destruct t; [discriminate T0|reflexivity]).
        destruct (possible_all_dec lines samples cs rayon) as [D|D].
        * destruct (ycbcr_image c0 c1 c2 p0 p1 p2 Ec Ep CF A D) as [img [U [Li Px]]]. rewrite U. apply (a_ycbcr rayon lines samples cs ps t c0 c1 c2 p0 p1 p2); auto.
        * rewrite (drawn_panic lines samples cs HO Hl Hs dbg rayon d m pr ps CYcbcr Lc CF Fd P Pd A D) by (intros row ns F L; eexists; apply (three_lines row c0 c1 c2 p0 p1 p2 ns); auto). apply a_doubling; auto.
    - destruct (Z.eq_dec (lenZ cs) 4) as [E4|N4].
      + assert (EC : exists c0 c1 c2 c3, cs = [c0; c1; c2; c3]).
        { unfold lenZ in E4. destruct cs as [|c0 [|c1 [|c2 [|c3 [|c4 l]]]]]; cbn [length] in E4; try lia. eauto 6. }
        destruct EC as [c0 [c1 [c2 [c3 Ec]]]]. destruct (planes_four c0 c1 c2 c3 Ec) as [p0 [p1 [p2 [p3 Ep]]]].
        destruct t as [t0|].
        2:{ replace (upsample_image dbg rayon d) with (@Fail (list Z) EAdobeMissing); [apply a_adobe; auto|].
            unfold upsample_image. rewrite Fd, (comps_len lines samples cs m pr), E4, Cd. reflexivity. }
        assert (CF : choose_color_convert_func (lenZ cs) (d_color d) = Ok (if t0 =? 0 then CCmyk else CYcck)).
        { rewrite E4, Cd. cbn [color_for]. unfold transform_of. destruct (Z.eqb_spec t0 0); [reflexivity|]. destruct (Z.eqb_spec t0 1); [reflexivity|]. destruct (Z.eqb_spec t0 2); [reflexivity|]. lia. }
        destruct (accepted_dec lines samples cs) as [A|A].
        2:{ rewrite (not_accepted lines samples cs HO Hl Hs dbg rayon d m pr _ CF Fd A). apply a_ratio; auto. right. split; [auto|discriminate]. }
        destruct (Z.eqb_spec t0 0) as [->|Nt].
        * destruct (possible_all_dec lines samples cs rayon) as [D|D].
          -- destruct (cmyk_image c0 c1 c2 c3 p0 p1 p2 p3 Ec Ep CF A D) as [img [U [Li Px]]]. rewrite U. apply (a_cmyk rayon lines samples cs ps (Some 0) c0 c1 c2 c3 p0 p1 p2 p3); auto.
          -- rewrite (drawn_panic lines samples cs HO Hl Hs dbg rayon d m pr ps CCmyk Lc CF Fd P Pd A D) by (intros row ns F L; eexists; apply (four_lines row c0 c1 c2 c3 p0 p1 p2 p3 ns); auto). apply a_doubling; auto.
        * destruct (convert_panic lines samples cs HO Hl Hs dbg rayon d m pr ps CYcck Lc CF Fd P Pd A) as [E|E].
          { intros row ns L. rewrite Ec in L. destruct ns as [|n0 [|n1 [|n2 [|n3 [|? ?]]]]]; try discriminate L. rewrite Ep. unfold geoms.
            replace (map (comp_geom samples lines (largest (map cs_h cs)) (largest (map cs_v cs))) cs) with (map (comp_geom samples lines (largest (map cs_h cs)) (largest (map cs_v cs))) [c0; c1; c2; c3]) by (f_equal; auto). reflexivity. }
          -- rewrite E. apply (a_ycck rayon lines samples cs ps (Some t0) t0); auto.
          -- rewrite E. apply (a_ycck rayon lines samples cs ps (Some t0) t0); auto.
      + replace (upsample_image dbg rayon d) with (@Panic (list Z) PComponents); [apply a_components; auto|].
        unfold upsample_image. rewrite Fd, (comps_len lines samples cs m pr). unfold choose_color_convert_func.
        replace (lenZ cs =? 3) with false by lia. replace (lenZ cs =? 4) with false by lia. reflexivity.
  Qed.
End Whole.
