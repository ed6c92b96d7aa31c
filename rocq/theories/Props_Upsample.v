(** C37 to C41: upsampling and the output image. *)
From Verif Require Import Base SpecBits SpecColor SpecFrame SpecSegments SpecUpsample SpecImage Idct Color Types Upsampler Parsers Decode Rayon ImageP RayonP.

(** C37.  The row returned for a component whose ratios are 1 or 2 has at least [samples]
    values; column [x] shows the sample(s) at that place with weights 3/4, 1/4 along each
    doubled axis ([comp_shown], SpecUpsample).  The previous content of the line buffer does
    not matter. *)
Theorem C37_rows :
  forall (dbg : bool) (m precision lines samples : Z) (cs : list comp_spec) (ups : list up_component)
         (k : nat) (c : comp_spec) (u : up_component) (p : list Z) (row : Z) (buf : list Z) (line : plane) (buf' : list Z),
    header_ok lines samples cs -> 0 < lines -> 0 < samples ->
    upsampler_new (f_components (frame_of m precision lines samples cs)) (mkDims samples lines) = Ok ups ->
    nth_error cs k = Some c -> nth_error ups k = Some u ->
    h_ratio samples cs c <= 2 -> v_ratio lines cs c <= 2 ->
    plane_for lines samples cs c p -> 0 <= row < lines ->
    upsample_row dbg u (line_of p) row samples buf = Ok (line, buf') ->
    samples <= lenZ line /\
    forall x, 0 <= x < samples -> nth (Z.to_nat x) line None = Some (comp_shown lines samples cs c p row x).
Proof. exact interpolated_rows. Qed.
Print Assumptions C37_rows.

(** The value shown lies between the smallest and the largest of the samples around it. *)
Theorem C37_between :
  forall (hr vr : Z) (p : list Z) (stride w h row x lo hi : Z),
    1 <= hr -> 1 <= vr -> 0 <= row < vr * h -> 0 <= x < hr * w ->
    (forall y c, 0 <= y < h -> 0 <= c < w -> Z.abs (y - row / vr) <= 1 -> Z.abs (c - x / hr) <= 1 ->
       lo <= px p stride y c <= hi) ->
    lo <= shown hr vr p stride w h row x <= hi.
Proof. exact shown_between. Qed.
Print Assumptions C37_between.

Theorem C37_constant :
  forall (hr vr : Z) (p : list Z) (stride w h row x v : Z),
    1 <= hr -> 1 <= vr -> 0 <= row < vr * h -> 0 <= x < hr * w ->
    (forall y c, 0 <= y < h -> 0 <= c < w -> px p stride y c = v) ->
    shown hr vr p stride w h row x = v.
Proof.
  intros hr vr p stride w h row x v Hh Hv R X C.
  assert (B : v <= shown hr vr p stride w h row x <= v) by (apply shown_between; auto; intros y c Hy Hc _ _; rewrite C by auto; lia).
  lia.
Qed.
Print Assumptions C37_constant.

(** The whole image, three components (not marked RGB): every ratio combination on which the
    upsampler works. *)
Theorem C37_image :
  forall (dbg rayon : bool) (d : decoder) (m precision lines samples : Z) (c0 c1 c2 : comp_spec) (p0 p1 p2 : list Z),
    let cs := [c0; c1; c2] in
    header_ok lines samples cs -> 0 < lines -> 0 < samples ->
    Forall (whole_ratios cs) cs -> Forall (width_works lines samples cs) cs ->
    Forall2 (plane_for lines samples cs) cs [p0; p1; p2] ->
    d_frame d = Some (frame_of m precision lines samples cs) -> d_planes d = map line_of [p0; p1; p2] ->
    d_color d <> Some AdobeUnknown ->
    exists img, upsample_image dbg rayon d = Ok img /\ lenZ img = 3 * samples * lines /\
      forall y x, 0 <= y < lines -> 0 <= x < samples ->
        let v := largest (map cs_v cs) in
        let row := if rayon then y / v else y / v * v in
        rgb_pixel (comp_shown lines samples cs c0 p0 row x) (comp_shown lines samples cs c1 p1 row x)
                  (comp_shown lines samples cs c2 p2 row x) (pixel 3 samples y x img).
Proof. exact image_ycbcr. Qed.
Print Assumptions C37_image.

(** The same for four components with Adobe transform 0. *)
Theorem C37_image_cmyk :
  forall (dbg rayon : bool) (d : decoder) (m precision lines samples : Z) (c0 c1 c2 c3 : comp_spec) (p0 p1 p2 p3 : list Z),
    let cs := [c0; c1; c2; c3] in
    header_ok lines samples cs -> 0 < lines -> 0 < samples ->
    Forall (whole_ratios cs) cs -> Forall (width_works lines samples cs) cs ->
    Forall2 (plane_for lines samples cs) cs [p0; p1; p2; p3] ->
    d_frame d = Some (frame_of m precision lines samples cs) -> d_planes d = map line_of [p0; p1; p2; p3] ->
    d_color d = Some AdobeUnknown ->
    exists img, upsample_image dbg rayon d = Ok img /\ lenZ img = 4 * samples * lines /\
      forall y x, 0 <= y < lines -> 0 <= x < samples ->
        let v := largest (map cs_v cs) in
        let row := if rayon then y / v else y / v * v in
        pixel 4 samples y x img =
          [255 - comp_shown lines samples cs c0 p0 row x; 255 - comp_shown lines samples cs c1 p1 row x;
           255 - comp_shown lines samples cs c2 p2 row x; 255 - comp_shown lines samples cs c3 p3 row x].
Proof. exact image_cmyk. Qed.
Print Assumptions C37_image_cmyk.

(** A 4:2:0 image of 5 by 3 pixels. *)
Definition cs_420 : list comp_spec := [mkCS 1 2 2 0; mkCS 2 1 1 1; mkCS 3 1 1 1].
Definition cb_420 : list Z := map (fun i => i mod 256) (zrange 64).
Example C37_case :
  header_ok 3 5 cs_420 /\ Forall (whole_ratios cs_420) cs_420 /\ Forall (width_works 3 5 cs_420) cs_420 /\
  plane_for 3 5 cs_420 (mkCS 2 1 1 1) cb_420 /\
  map (comp_shown 3 5 cs_420 (mkCS 2 1 1 1) cb_420 2) [0; 1; 2; 3; 4] = [6; 6; 7; 7; 8] /\
  upsample_row true (mkUp UH2V2 (mkDims 3 2) 8) (line_of cb_420) 2 5 [] = Ok (line_of [6; 6; 7; 7; 8; 8], [6; 6; 7; 7; 8; 8]).
Proof.
  split; [constructor; try lia; try discriminate; repeat constructor; cbn; lia|].
  split; [repeat constructor|]. split.
  { repeat constructor; cbn; try lia; try discriminate. }
  split; [split; [|reflexivity]|split; reflexivity].
  unfold cb_420. apply Forall_map, Forall_forall. intros i _. unfold is_byte. lia.
Qed.

(** C38, the sizes on which 4:2:2 images are upsampled: width 1, or an even width with a
    height that is no multiple of 8 or a width of at most 8. *)
Theorem C38_works_partial :
  forall (dbg rayon : bool) (d : decoder) (m precision lines samples i0 i1 i2 q0 q1 q2 : Z) (p0 p1 p2 : list Z),
    let cs := comps_422 i0 i1 i2 q0 q1 q2 in
    header_ok lines samples cs -> 0 < lines -> 0 < samples -> size_422 lines samples ->
    Forall2 (plane_for lines samples cs) cs [p0; p1; p2] ->
    d_frame d = Some (frame_of m precision lines samples cs) -> d_planes d = map line_of [p0; p1; p2] ->
    d_color d <> Some AdobeUnknown ->
    exists img, upsample_image dbg rayon d = Ok img /\ lenZ img = 3 * samples * lines.
Proof.
  intros dbg rayon d m pr lines samples i0 i1 i2 q0 q1 q2 p0 p1 p2 cs HO Hl Hs S P Fd Pd A.
  destruct (works_422 lines samples i0 i1 i2 q0 q1 q2 Hl Hs S) as [W1 W2].
  destruct (image_ycbcr dbg rayon d m pr lines samples _ _ _ p0 p1 p2 HO Hl Hs W1 W2 P Fd Pd A) as [img [E [L _]]]. eauto.
Qed.
Print Assumptions C38_works_partial.

(** All other sizes panic, whatever the planes contain, in both build profiles. *)
Theorem C38_refuted :
  forall (dbg rayon : bool) (d : decoder) (m precision lines samples i0 i1 i2 q0 q1 q2 : Z) (ps : list (list Z)),
    let cs := comps_422 i0 i1 i2 q0 q1 q2 in
    header_ok lines samples cs -> 0 < lines -> 0 < samples -> ~ size_422 lines samples ->
    Forall2 (plane_for lines samples cs) cs ps ->
    d_frame d = Some (frame_of m precision lines samples cs) -> d_planes d = map line_of ps ->
    upsample_image dbg rayon d = Panic PIndex.
Proof. exact panic_422. Qed.
Print Assumptions C38_refuted.

Example C38_case : size_422 5 16 /\ ~ size_422 8 16 /\ ~ size_422 5 15.
Proof. unfold size_422. lia. Qed.
Example C38_witness :
  let cs := comps_422 1 2 3 0 1 1 in
  let d := set_planes (set_frame decoder_default (Some (frame_of 0 8 8 16 cs))) [repeat (Some 1) 128; repeat (Some 1) 64; repeat (Some 1) 64] in
  header_ok 8 16 cs /\ upsample_image false false d = Panic PIndex.
Proof. split; [constructor; try lia; try discriminate; repeat constructor; cbn; lia|reflexivity]. Qed.

(** C39.  With a ratio above 2 the row is the nearest sample of every column in a whole group
    of [hf] columns.  Missing: the columns after the last whole group (next theorem). *)
Theorem C39_nearest_partial :
  forall (dbg : bool) (m precision lines samples : Z) (cs : list comp_spec) (ups : list up_component)
         (k : nat) (c : comp_spec) (u : up_component) (p : list Z) (row : Z) (buf : list Z),
    header_ok lines samples cs -> 0 < lines -> 0 < samples ->
    upsampler_new (f_components (frame_of m precision lines samples cs)) (mkDims samples lines) = Ok ups ->
    nth_error cs k = Some c -> nth_error ups k = Some u ->
    2 < h_ratio samples cs c \/ 2 < v_ratio lines cs c ->
    plane_for lines samples cs c p -> 0 <= row < lines ->
    let hf := largest (map cs_h cs) / cs_h c in
    exists line buf', upsample_row dbg u (line_of p) row samples buf = Ok (line, buf') /\ lenZ line = samples /\
      (forall x, 0 <= x < hf * (samples / hf) ->
        nth (Z.to_nat x) line None = Some (px p (plane_stride samples cs c) (row / v_ratio lines cs c) (x / h_ratio samples cs c))) /\
      (forall x, hf * (samples / hf) <= x < samples -> nth (Z.to_nat x) line None = Some (nth (Z.to_nat x) buf 0)).
Proof. exact repeated_rows. Qed.
Print Assumptions C39_nearest_partial.

(** A 4:1:0-like component in an image of 5 columns: the last column shows 0. *)
Definition cs_410 : list comp_spec := [mkCS 1 4 1 0; mkCS 2 1 1 1; mkCS 3 1 1 1].
Theorem C39_last_columns_refuted :
  exists u, upsampler_new (f_components (frame_of 0 8 1 5 cs_410)) (mkDims 5 1) = Ok u /\
    forall dbg, upsample_row dbg (nth 1 u (mkUp UH1V1 (mkDims 0 0) 0)) (line_of (repeat 77 64)) 0 5 [] =
      Ok (line_of [77; 77; 77; 77; 0], [77; 77; 77; 77; 0]).
Proof. eexists. split; [reflexivity|]. intros []; reflexivity. Qed.
Print Assumptions C39_last_columns_refuted.
Example C39_case : header_ok 1 5 cs_410 /\ h_ratio 5 cs_410 (mkCS 2 1 1 1) = 4 /\ plane_for 1 5 cs_410 (mkCS 2 1 1 1) (repeat 77 64).
Proof.
  split; [constructor; try lia; try discriminate; repeat constructor; cbn; lia|]. split; [reflexivity|]. split; [|reflexivity].
  apply Forall_forall. intros x Hx. apply repeat_spec in Hx. subst. unfold is_byte. lia.
Qed.

(** Ratios that are not whole are reported. *)
Theorem C39_unsupported :
  forall (dbg rayon : bool) (d : decoder) (m precision lines samples : Z) (cs : list comp_spec) (f : color_func),
    header_ok lines samples cs -> 0 < lines -> 0 < samples -> d_frame d = Some (frame_of m precision lines samples cs) ->
    choose_color_convert_func (lenZ cs) (d_color d) = Ok f ->
    (exists c, In c cs /\ (samples <> 1 /\ largest (map cs_h cs) mod cs_h c <> 0 \/
                           lines <> 1 /\ largest (map cs_v cs) mod cs_v c <> 0)) ->
    upsample_image dbg rayon d = Fail EUnsupported.
Proof. exact unsupported_image. Qed.
Print Assumptions C39_unsupported.
Example C39_unsupported_case : exists c, In c [mkCS 1 3 1 0; mkCS 2 2 1 0; mkCS 3 1 1 0] /\ 3 mod cs_h c <> 0.
Proof. exists (mkCS 2 2 1 0). split; [cbn; auto|discriminate]. Qed.

(** C40 when no component is subsampled vertically: line [y] shows row [y].  Missing: larger
    vertical factors, for which it is false. *)
Theorem C40_own_row_partial :
  forall (dbg : bool) (d : decoder) (m precision lines samples : Z) (c0 c1 c2 : comp_spec) (p0 p1 p2 : list Z),
    let cs := [c0; c1; c2] in
    header_ok lines samples cs -> 0 < lines -> 0 < samples ->
    Forall (whole_ratios cs) cs -> Forall (width_works lines samples cs) cs ->
    Forall2 (plane_for lines samples cs) cs [p0; p1; p2] ->
    d_frame d = Some (frame_of m precision lines samples cs) -> d_planes d = map line_of [p0; p1; p2] ->
    d_color d <> Some AdobeUnknown -> largest (map cs_v cs) = 1 ->
    exists img, upsample_image dbg false d = Ok img /\ lenZ img = 3 * samples * lines /\
      forall y x, 0 <= y < lines -> 0 <= x < samples ->
        rgb_pixel (comp_shown lines samples cs c0 p0 y x) (comp_shown lines samples cs c1 p1 y x)
                  (comp_shown lines samples cs c2 p2 y x) (pixel 3 samples y x img).
Proof.
  intros dbg d m pr lines samples c0 c1 c2 p0 p1 p2 cs HO Hl Hs W1 W2 P Fd Pd A V.
  destruct (image_ycbcr dbg false d m pr lines samples c0 c1 c2 p0 p1 p2 HO Hl Hs W1 W2 P Fd Pd A) as [img [E [L X]]].
  exists img. split; [exact E|]. split; [exact L|]. intros y x Hy Hx. specialize (X y x Hy Hx). fold cs in X. rewrite V in X.
  unfold shown_row in X. rewrite Z.div_1_r, Z.mul_1_r in X. exact X.
Qed.
Print Assumptions C40_own_row_partial.

(** With a vertical factor above 1 the lines of a group are copies of each other. *)
Theorem C40_copied_lines :
  forall (dbg : bool) (d : decoder) (m precision lines samples : Z) (c0 c1 c2 : comp_spec) (p0 p1 p2 : list Z),
    let cs := [c0; c1; c2] in
    header_ok lines samples cs -> 0 < lines -> 0 < samples ->
    Forall (whole_ratios cs) cs -> Forall (width_works lines samples cs) cs ->
    Forall2 (plane_for lines samples cs) cs [p0; p1; p2] ->
    d_frame d = Some (frame_of m precision lines samples cs) -> d_planes d = map line_of [p0; p1; p2] ->
    d_color d <> Some AdobeUnknown ->
    exists img, upsample_image dbg false d = Ok img /\
      forall y y' x, 0 <= y < lines -> 0 <= y' < lines -> 0 <= x < samples ->
        y / largest (map cs_v cs) = y' / largest (map cs_v cs) ->
        pixel 3 samples y x img = pixel 3 samples y' x img.
Proof. exact group_lines_equal. Qed.
Print Assumptions C40_copied_lines.

(** An image of 8 by 4 pixels, first component at full and the others at half the vertical
    resolution; row 1 of the first component is white, the others black. *)
Definition cs_440 : list comp_spec := [mkCS 1 1 2 0; mkCS 2 1 1 1; mkCS 3 1 1 1].
Definition stripe : list Z := repeat 0 8 ++ repeat 255 8 ++ repeat 0 112.
Definition image_440 : decoder :=
  set_planes (set_frame decoder_default (Some (frame_of 0 8 4 8 cs_440))) (map line_of [stripe; repeat 128 64; repeat 128 64]).
Example image_440_ok : header_ok 4 8 cs_440 /\ Forall2 (plane_for 4 8 cs_440) cs_440 [stripe; repeat 128 64; repeat 128 64].
Proof.
  split; [constructor; try lia; try discriminate; repeat constructor; cbn; lia|].
  assert (B : forall v n, is_byte v -> bytes (repeat v n)) by (intros v n Hv; apply Forall_forall; intros x Hx; apply repeat_spec in Hx; subst; auto).
  assert (S : bytes stripe).
  { unfold stripe. apply Forall_app. split; [apply B; unfold is_byte; lia|]. apply Forall_app. split; apply B; unfold is_byte; lia. }
  assert (G : bytes (repeat 128 64)) by (apply B; unfold is_byte; lia).
  constructor; [split; [exact S|reflexivity]|]. constructor; [split; [exact G|reflexivity]|].
  constructor; [split; [exact G|reflexivity]|constructor].
Qed.

Theorem C40_refuted :
  exists img, upsample_image false false image_440 = Ok img /\
    forall r g b, pixel 3 8 1 0 img = [r; g; b] -> ~ rounds_to 0 (bt_r (comp_shown 4 8 cs_440 (mkCS 1 1 2 0) stripe 1 0) 128 128) r.
Proof.
  eexists. split; [vm_compute; reflexivity|]. intros r g b E [n [H1 H2]]. vm_compute in E. inversion E; subst.
  change (comp_shown 4 8 cs_440 (mkCS 1 1 2 0) stripe 1 0) with 255 in H1. unfold bt_r, sat in *. lia.
Qed.
Print Assumptions C40_refuted.

(** C41.  The way the parallel loop is cut into pieces does not matter. *)
Theorem C41_schedule :
  forall (dbg : bool) (cut : list (Z * Z) -> list (list (Z * Z))) (d : decoder) (m precision lines samples : Z)
         (cs : list comp_spec) (ps : list (list Z)),
    header_ok lines samples cs -> 0 < lines -> 0 < samples -> (length cs <= 4)%nat ->
    Forall2 (plane_for lines samples cs) cs ps ->
    d_frame d = Some (frame_of m precision lines samples cs) -> d_planes d = map line_of ps ->
    (forall gs, concat (cut gs) = gs) ->
    upsample_rayon dbg cut d = upsample_image dbg true d.
Proof. exact rayon_schedule. Qed.
Print Assumptions C41_schedule.

(** Without vertical subsampling the parallel and the sequential loop agree.  Missing: larger
    vertical factors, for which it is false. *)
Theorem C41_sequential_partial :
  forall (dbg : bool) (cut : list (Z * Z) -> list (list (Z * Z))) (d : decoder) (m precision lines samples : Z)
         (cs : list comp_spec) (ps : list (list Z)),
    header_ok lines samples cs -> 0 < lines -> 0 < samples -> (length cs <= 4)%nat ->
    Forall2 (plane_for lines samples cs) cs ps ->
    d_frame d = Some (frame_of m precision lines samples cs) -> d_planes d = map line_of ps ->
    (forall gs, concat (cut gs) = gs) ->
    largest (map cs_v cs) = 1 ->
    upsample_rayon dbg cut d = upsample_image dbg false d.
Proof.
  intros dbg cut d m pr lines samples cs ps HO Hl Hs L P Fd Pd Ct V.
  rewrite (rayon_schedule dbg cut d m pr lines samples cs ps HO Hl Hs L P Fd Pd Ct). apply (rayon_v1 dbg d m pr lines samples cs HO V Fd).
Qed.
Print Assumptions C41_sequential_partial.
Example C41_case : forall gs : list (Z * Z), concat (map (fun g => [g]) gs) = gs.
Proof. induction gs as [|g gs IH]; [reflexivity|]. cbn. rewrite IH. reflexivity. Qed.

Theorem C41_refuted :
  exists a b, upsample_image false false image_440 = Ok a /\ upsample_rayon false (fun gs => [gs]) image_440 = Ok b /\
    pixel 3 8 2 0 a = [0; 0; 0] /\ pixel 3 8 2 0 b = [255; 255; 255].
Proof. eexists _, _. split; [vm_compute; reflexivity|]. split; [vm_compute; reflexivity|]. split; reflexivity. Qed.
Print Assumptions C41_refuted.
