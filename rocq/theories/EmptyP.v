(** The answer to encoded files without lines or without columns. *)
From Verif Require Import Base F32 SpecBits Idct Color Types Upsampler Biterator Marker Parsers Decode Tactics SpecColor SpecUpsample SpecFrame SpecSegments SpecImage SpecScan SpecMarker SpecBlock SpecFile SpecAnswer
  MarkerP GeomP ParsersP ParsersP2 ImageP SpecGlobal GlobalP SpecStream StreamP StreamP2 FileP UpsampleP2 RayonP AnswerP AnswerP2 AnswerP3.

(** Upsamplers depend on the size only in so far as it is 1. *)
Definition some_size (n : Z) : Z := if n =? 0 then 2 else n.
Lemma choose_same : forall h v hm vm w l, choose_upsampler h v hm vm (mkDims (some_size w) (some_size l)) = choose_upsampler h v hm vm (mkDims w l).
Proof.
  intros h v hm vm w l. unfold choose_upsampler, some_size. cbn [dim_w dim_h]. destruct (Z.eqb_spec w 0) as [->|]; destruct (Z.eqb_spec l 0) as [->|]; reflexivity.
Qed.
Lemma accepted_same : forall lines samples cs c, ratios_accepted (some_size lines) (some_size samples) cs c <-> ratios_accepted lines samples cs c.
Proof.
  intros lines samples cs c.
  assert (R : forall n f fm, ratio (some_size n) f fm = ratio n f fm) by (intros n f fm; unfold ratio, some_size; destruct (Z.eqb_spec n 0) as [->|]; reflexivity).
  assert (O : forall n, some_size n = 1 <-> n = 1) by (intros n; unfold some_size; destruct (Z.eqb_spec n 0); lia).
  unfold ratios_accepted, repeated, h_ratio, v_ratio. rewrite !R, !O. tauto.
Qed.
Lemma some_header : forall lines samples cs, header_ok lines samples cs -> header_ok (some_size lines) (some_size samples) cs.
Proof. intros lines samples cs [L S N F R X]. constructor; auto; unfold some_size; [destruct (lines =? 0)|destruct (samples =? 0)]; lia. Qed.

Lemma ups_same : forall lines samples hm vm cs (f g : comp_spec -> component), (forall c, c_h (f c) = c_h (g c) /\ c_v (f c) = c_v (g c)) ->
  let ch sz c := (let* u := choose_upsampler (c_h c) (c_v c) hm vm sz in Ok (mkUp u (c_size c) (dim_w (c_block_size c) * 8))) in
  (forall u, mapM (ch (mkDims (some_size samples) (some_size lines))) (map f cs) = Ok u -> exists u', mapM (ch (mkDims samples lines)) (map g cs) = Ok u') /\
  (forall e, mapM (ch (mkDims (some_size samples) (some_size lines))) (map f cs) = Fail e -> mapM (ch (mkDims samples lines)) (map g cs) = Fail e).
Proof.
  intros lines samples hm vm cs f g H ch. induction cs as [|c cs [I1 I2]]; [split; [eauto|discriminate]|]. cbn [map mapM].
  unfold ch at 1 3 5 7. rewrite choose_same. destruct (H c) as [-> ->].
  destruct (choose_upsampler (c_h (g c)) (c_v (g c)) hm vm (mkDims samples lines)) as [k|e|p|]; cbn [bind]; try (split; [discriminate|congruence]); try (split; congruence).
  split.
  - intros u E. destruct (mapM _ (map f cs)) as [u0|e|p|] eqn:Q; try discriminate E. destruct (I1 u0 eq_refl) as [u' ->]. cbn [bind]. eauto.
  - intros e E. destruct (mapM _ (map f cs)) as [u0|e0|p|] eqn:Q; try discriminate E. rewrite (I2 e0 eq_refl). cbn [bind] in *. congruence.
Qed.
Lemma ups_any : forall m pr lines samples cs, header_ok lines samples cs ->
  (Forall (ratios_accepted lines samples cs) cs /\ exists u, upsampler_new (f_components (frame_of m pr lines samples cs)) (mkDims samples lines) = Ok u) \/
  (~ Forall (ratios_accepted lines samples cs) cs /\ upsampler_new (f_components (frame_of m pr lines samples cs)) (mkDims samples lines) = Fail EUnsupported).
Proof.
  intros m pr lines samples cs HO. pose proof (some_header _ _ _ HO) as HO'.
  assert (HO2 := HO). destruct HO2 as [L S N F R X]. rewrite Forall_forall in X.
  assert (Pl : 0 < some_size lines) by (unfold some_size; destruct (Z.eqb_spec lines 0); lia). assert (Ps : 0 < some_size samples) by (unfold some_size; destruct (Z.eqb_spec samples 0); lia).
  assert (AS : Forall (ratios_accepted lines samples cs) cs <-> Forall (ratios_accepted (some_size lines) (some_size samples) cs) cs).
  { split; apply Forall_impl; intros c; apply accepted_same. }
  assert (E : forall l s, upsampler_new (f_components (frame_of m pr l s cs)) (mkDims s l) =
    mapM (fun c => let* u := choose_upsampler (c_h c) (c_v c) (largest (map cs_h cs)) (largest (map cs_v cs)) (mkDims s l) in Ok (mkUp u (c_size c) (dim_w (c_block_size c) * 8))) (f_components (frame_of m pr l s cs))).
  { intros l s. unfold upsampler_new. unfold frame_of. cbn [f_components]. rewrite !map_map. cbn [c_h c_v].
    rewrite !max_unwrap_largest; [reflexivity|destruct cs; [congruence|discriminate]| |destruct cs; [congruence|discriminate]|];
      apply Forall_map, Forall_forall; intros c Hc; destruct (X c Hc); lia. }
  rewrite E. pose proof (upsampler_cases m pr (some_size lines) (some_size samples) cs HO' Pl Ps) as C. rewrite E in C.
  unfold frame_of in *. cbn [f_components] in *. cbv zeta in *.
  match type of C with context [mapM _ (map ?f cs)] => match goal with |- context [mapM _ (map ?g cs)] => pose proof (ups_same lines samples (largest (map cs_h cs)) (largest (map cs_v cs)) cs f g ltac:(intros c; split; reflexivity)) as [U1 U2] end end.
  cbv zeta in U1, U2. destruct C as [[A B]|[A B]].
  - left. split; [apply AS, all_accepted, A|]. exact (U1 _ B).
  - right. split; [intros A'; apply A, all_accepted, AS, A'|]. exact (U2 _ B).
Qed.

Lemma empty_image : forall dbg rayon d m pr lines samples cs t,
  header_ok lines samples cs -> lines = 0 \/ samples = 0 -> d_frame d = Some (frame_of m pr lines samples cs) ->
  d_color d = color_for t -> match t with Some t => 0 <= t <= 2 | None => True end ->
  empty_answer lines samples cs t (upsample_image dbg rayon d).
Proof.
  intros dbg rayon d m pr lines samples cs t HO Z0 Fd Cd Ht. unfold upsample_image. rewrite Fd, (comps_len lines samples cs m pr).
  assert (Ln : 0 < lenZ cs) by (destruct HO; destruct cs; [congruence|unfold lenZ; cbn [length]; lia]).
  assert (Rest : forall f, choose_color_convert_func (lenZ cs) (d_color d) = Ok f -> lenZ cs = 3 \/ lenZ cs = 4 /\ t <> None ->
    empty_answer lines samples cs t
      (let* f := choose_color_convert_func (lenZ cs) (d_color d) in
       let* ups := upsampler_new (f_components (frame_of m pr lines samples cs)) (mkDims (f_samples (frame_of m pr lines samples cs)) (f_lines (frame_of m pr lines samples cs))) in
       let* v := max_unwrap (map c_v (f_components (frame_of m pr lines samples cs))) in
       let* _ := assert_ (negb (f_samples (frame_of m pr lines samples cs) * lenZ cs =? 0)) PAssert in
       let* ls := image_lines dbg f ups (d_planes d) (f_samples (frame_of m pr lines samples cs)) (lenZ cs) [[]; []; []; []] (line_groups rayon (f_lines (frame_of m pr lines samples cs)) v) in
       Ok (concat ls))).
  { intros f -> K. cbn [bind]. change (f_samples (frame_of m pr lines samples cs)) with samples. change (f_lines (frame_of m pr lines samples cs)) with lines.
    destruct (ups_any m pr lines samples cs HO) as [[A [u ->]]|[A ->]]; cbn [bind]; [|apply e_ratio; auto].
    rewrite (header_max_v m pr lines samples cs HO). cbn [bind].
    destruct (Z.eq_dec samples 0) as [->|Ns]; [apply e_width; auto|]. destruct Z0 as [->|?]; [|contradiction].
    replace (samples * lenZ cs =? 0) with false by nia. cbn [negb assert_ bind].
    pose proof (header_vm _ _ _ HO) as V. unfold line_groups. replace ((0 + largest (map cs_v cs) - 1) / largest (map cs_v cs)) with 0 by (symmetry; apply Z.div_small; lia).
    cbn. apply e_height; auto. }
  destruct (Z.eq_dec (lenZ cs) 3) as [E3|N3].
  - destruct (choose_color_convert_func (lenZ cs) (d_color d)) as [f|e|p|] eqn:CF; [apply (Rest f eq_refl); auto| | |];
      exfalso; rewrite E3 in CF; unfold choose_color_convert_func in CF; cbn [Z.eqb Pos.eqb] in CF; destruct (d_color d) as [[]|]; discriminate CF.
  - destruct (Z.eq_dec (lenZ cs) 4) as [E4|N4].
    + destruct t as [t0|].
      * assert (CF : choose_color_convert_func (lenZ cs) (d_color d) = Ok (if t0 =? 0 then CCmyk else CYcck)).
        { rewrite E4, Cd. cbn [color_for]. unfold transform_of. destruct (Z.eqb_spec t0 0); [reflexivity|]. destruct (Z.eqb_spec t0 1); [reflexivity|]. destruct (Z.eqb_spec t0 2); [reflexivity|]. lia. }
        apply (Rest _ CF). right. split; [exact E4|discriminate].
      * rewrite E4, Cd. cbn. apply e_adobe; auto.
    + replace (choose_color_convert_func (lenZ cs) (d_color d)) with (@Panic color_func PComponents); [apply e_components; auto|].
      unfold choose_color_convert_func. replace (lenZ cs =? 3) with false by lia. replace (lenZ cs =? 4) with false by lia. reflexivity.
Qed.

Lemma empty_file : forall dbg rayon segs h fill1 fill2 ss ts qs ms data post fill3, encodes segs h ss ts qs ms data ->
  let cs := fh_comps h in let lines := fh_lines h in let samples := fh_samples h in
  lines = 0 \/ samples = 0 -> post_ok post ->
  let file := file_bytes segs fill1 fill2 (mkSpS ss 0 63 0 0) data post fill3 in bytes file ->
  empty_answer lines samples cs (last_transform (segs ++ post)) (decode_fresh dbg rayon file).
Proof.
  intros dbg rayon segs h fill1 fill2 ss ts qs ms data post fill3 [F Sf ND L4 Few CC Sh Lm SD] cs lines samples Z0 PO file B.
  destruct (file_planes dbg rayon segs h fill1 fill2 ss ts qs ms data post fill3 F Sf ND L4 Few CC Sh Lm SD PO B) as [d [b [ds [ps [S [Eb [Jn [Fr [Co [Ep [Lp PL]]]]]]]]]]].
  destruct (sof_ok segs h F ltac:(rewrite Sf; left; reflexivity)) as [Fm HO].
  assert (TA : empty_answer lines samples cs (last_transform (segs ++ post)) (upsample_image dbg rayon d)).
  { apply (empty_image dbg rayon d (fh_marker h) (fh_precision h) lines samples cs (last_transform (segs ++ post))); auto.
    - rewrite Co. unfold last_transform, color_for. apply last_map_some.
    - apply transforms_small. apply Forall_app. split; [exact F|apply PO]. }
  rewrite (decode_answers dbg rayon file d ds fill3 b B S Eb Jn); [exact TA|]. destruct TA; discriminate.
Qed.
