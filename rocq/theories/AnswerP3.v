(** The final_answer to every encoded file. *)
From Verif Require Import Base F32 SpecBits Idct Color Types Upsampler Biterator Marker Parsers Decode Tactics SpecColor SpecUpsample SpecFrame SpecSegments SpecImage SpecScan SpecMarker SpecBlock SpecFile SpecAnswer
  MarkerP GeomP ParsersP ParsersP2 ImageP SpecGlobal GlobalP SpecStream StreamP StreamP2 FileP UpsampleP2 RayonP AnswerP AnswerP2.

Lemma decode_answers : forall dbg rayon input d junk fill b, bytes input ->
  from dbg false rayon (PcMarker, decoder_default, biter_new input) (PcMarker, d, b) -> bi_input b = junk ++ marker_bytes fill 0xD9 -> no_marker junk ->
  upsample_image dbg rayon d <> Panic PFuel ->
  decode_fresh dbg rayon input = upsample_image dbg rayon d.
Proof.
  intros dbg rayon input d junk fill b B S Eb J NU.
  set (r := match upsample_image dbg rayon d with Ok img => RImage img | Fail e => RError e | Panic p => RPanic p | UB => RUB end).
  assert (E : step dbg false rayon PcMarker d b = (d, mkBiter [] (bi_bits b) (bi_count b), SStop r)).
  { cbn [step]. assert (P : parse_marker (bi_input b) = Ok (EOI, [])).
    { apply parse_marker_ok. exists 0xD9. split; [constructor|]. exists junk, fill. split; [exact J|]. split; [lia|]. split; [lia|]. rewrite Eb. unfold marker_bytes. reflexivity. }
    rewrite P. unfold r. destruct (upsample_image dbg rayon d); reflexivity. }
  assert (Nr : r <> RPanic PFuel) by (unfold r; destruct (upsample_image dbg rayon d); congruence).
  assert (R : runs_to dbg false rayon (PcMarker, d, b) (d, mkBiter [] (bi_bits b) (bi_count b), r)).
  { exists 1%nat. split; [|exact Nr]. cbn [run]. rewrite E. reflexivity. }
  apply (from_runs _ _ _ _ _ S) in R. destruct R as [fuel [R _]].
  pose proof (decode_no_fuel dbg rayon decoder_default input ltac:(constructor) B) as NF. unfold decode_fresh. unfold decode in *.
  destruct (run dbg false rayon (run_fuel (biter_new input)) PcMarker decoder_default (biter_new input)) as [[d' b'] r'] eqn:ER.
  assert (W : (d', b', r') = (d, mkBiter [] (bi_bits b) (bi_count b), r)).
  { rewrite <- ER, <- R. destruct (Nat.le_ge_cases fuel (run_fuel (biter_new input))) as [Le|Le].
    - apply run_more; [rewrite R; exact Nr|exact Le].
    - symmetry. apply run_more; [rewrite ER; cbn [snd] in *; intros ->; apply NF; reflexivity|exact Le]. }
  assert (Er : r' = r) by congruence. assert (Eb' : bi_input b' = []) by (replace b' with (mkBiter [] (bi_bits b) (bi_count b)) by congruence; reflexivity).
  cbn [snd]. rewrite Er, Eb'. unfold r. destruct (upsample_image dbg rayon d); reflexivity.
Qed.

Lemma last_map_some : forall (A B : Type) (f : A -> option B) l, last (map f l) None = match last (map Some l) None with Some a => f a | None => None end.
Proof.
  intros A B f l. induction l as [|a l IH]; [reflexivity|]. destruct l as [|b l]; [reflexivity|].
  change (last (map f (a :: b :: l)) None) with (last (map f (b :: l)) None). change (last (map Some (a :: b :: l)) None) with (last (map Some (b :: l)) None). exact IH.
Qed.
Lemma last_some_in : forall (A : Type) (l : list A) a, last (map Some l) None = Some a -> In a l.
Proof.
  intros A l a. induction l as [|x l IH]; [discriminate|]. destruct l as [|y l]; [cbn; intros E; inversion E; auto|].
  change (last (map Some (x :: y :: l)) None) with (last (map Some (y :: l)) None). intros E. right. apply IH. exact E.
Qed.
Lemma transforms_small : forall l, Forall (fun s => hseg_ok (snd s)) l -> match last_transform l with Some t => 0 <= t <= 2 | None => True end.
Proof.
  intros l F. destruct (last_transform l) as [t|] eqn:E; [|exact Logic.I]. apply last_some_in in E. unfold adobes in E. apply in_flat_map in E. destruct E as [s [Hs Ht]].
  rewrite Forall_forall in F. specialize (F s Hs). destruct (snd s); try contradiction. destruct Ht as [->|[]]. destruct F as [[_ [_ [_ F]]] _]. exact F.
Qed.

Lemma answer_not_fuel : forall rayon lines samples cs ps t o, final_answer rayon lines samples cs ps t o -> o <> Panic PFuel.
Proof. intros rayon lines samples cs ps t o H. destruct H; try discriminate. destruct H3; subst; discriminate. Qed.

Lemma file_answer : forall dbg rayon segs h fill1 fill2 ss ts qs ms data post fill3, encodes segs h ss ts qs ms data ->
  let cs := fh_comps h in let lines := fh_lines h in let samples := fh_samples h in
  0 < lines -> 0 < samples -> post_ok post ->
  let file := file_bytes segs fill1 fill2 (mkSpS ss 0 63 0 0) data post fill3 in bytes file ->
  exists ps, length ps = length cs /\
    (forall k c, nth_error cs k = Some c -> exists q p, nth_error qs k = Some q /\ nth_error ps k = Some p /\ plane_from lines samples cs ms k c q p) /\
    final_answer rayon lines samples cs ps (last_transform (segs ++ post)) (decode_fresh dbg rayon file).
Proof.
  intros dbg rayon segs h fill1 fill2 ss ts qs ms data post fill3 [F Sf ND L4 Few CC Sh Lm SD] cs lines samples P1 P2 PO file B.
  destruct (file_planes dbg rayon segs h fill1 fill2 ss ts qs ms data post fill3 F Sf ND L4 Few CC Sh Lm SD PO B) as [d [b [ds [ps [S [Eb [Jn [Fr [Co [Ep [Lp PL]]]]]]]]]]].
  destruct (sof_ok segs h F ltac:(rewrite Sf; left; reflexivity)) as [Fm HO].
  assert (PF := Forall2_planes (fh_lines h) (fh_samples h) (fh_comps h) ms qs ps Lp PL).
  exists ps. split; [exact Lp|]. split; [exact PL|].
  assert (TA : final_answer rayon lines samples cs ps (last_transform (segs ++ post)) (upsample_image dbg rayon d)).
  { apply (total_answer dbg rayon d (fh_marker h) (fh_precision h) lines samples cs ps (last_transform (segs ++ post))); auto.
    - unfold lenZ in L4. fold cs in L4. lia.
    - rewrite Co. unfold last_transform, color_for. apply last_map_some.
    - apply transforms_small. apply Forall_app. split; [exact F|apply PO]. }
  rewrite (decode_answers dbg rayon file d ds fill3 b B S Eb Jn); [exact TA|]. apply (answer_not_fuel _ _ _ _ _ _ _ TA).
Qed.

(** ** When there is an image *)
Definition image_conditions (rayon : bool) (lines samples : Z) (cs : list comp_spec) (t : option Z) : Prop :=
  (lenZ cs = 3 \/ lenZ cs = 4 /\ t = Some 0) /\ Forall (ratios_accepted lines samples cs) cs /\ Forall (doubling_possible lines samples cs rayon) cs.
Lemma answer_image : forall rayon lines samples cs ps t o, final_answer rayon lines samples cs ps t o ->
  ((exists img, o = Ok img) <-> image_conditions rayon lines samples cs t).
Proof.
  intros rayon lines samples cs ps t o H. unfold image_conditions.
  destruct H; (split; [intros [i E]; try discriminate E | intros [X [Y Z]]]); try (exfalso; tauto); eauto.
  - exfalso. destruct X as [X|[X X']]; congruence.
  - exfalso. destruct X as [X|[X X']]; congruence.
  - subst cs. split; [left; reflexivity|auto].
  - subst cs. split; [right; auto|auto].
Qed.
Lemma file_image_iff : forall dbg rayon segs h fill1 fill2 ss ts qs ms data post fill3, encodes segs h ss ts qs ms data ->
  let cs := fh_comps h in let lines := fh_lines h in let samples := fh_samples h in
  0 < lines -> 0 < samples -> post_ok post ->
  let file := file_bytes segs fill1 fill2 (mkSpS ss 0 63 0 0) data post fill3 in bytes file ->
  (exists img, decode_fresh dbg rayon file = Ok img) <->
  (lenZ cs = 3 \/ lenZ cs = 4 /\ last_transform (segs ++ post) = Some 0) /\
  Forall (ratios_accepted lines samples cs) cs /\ Forall (doubling_possible lines samples cs rayon) cs.
Proof.
  intros dbg rayon segs h fill1 fill2 ss ts qs ms data post fill3 En cs lines samples P1 P2 PO file B.
  destruct (file_answer dbg rayon segs h fill1 fill2 ss ts qs ms data post fill3 En P1 P2 PO B) as [ps [_ [_ A]]]. exact (answer_image _ _ _ _ _ _ _ A).
Qed.

(** ** 4:2:2 *)
Lemma accepted_422 : forall lines samples i0 i1 i2 q0 q1 q2, let cs := comps_422 i0 i1 i2 q0 q1 q2 in Forall (ratios_accepted lines samples cs) cs.
Proof. intros. repeat first [apply Forall_nil | apply Forall_cons]; (split; [right; reflexivity|split; [right; reflexivity|intros _; split; reflexivity]]). Qed.
Lemma possible_422 : forall rayon lines samples i0 i1 i2 q0 q1 q2, 0 < lines -> 0 < samples -> let cs := comps_422 i0 i1 i2 q0 q1 q2 in
  (Forall (doubling_possible lines samples cs rayon) cs <-> size_422 lines samples).
Proof.
  intros rayon lines samples i0 i1 i2 q0 q1 q2 Hl Hs cs. rewrite all_possible. unfold cs. rewrite geoms_422. fold cs. change (largest (map cs_v cs)) with 1.
  assert (SR : shown_row rayon 1 (lines - 1) = lines - 1) by (unfold shown_row; rewrite Z.div_1_r; destruct rayon; lia). rewrite SR.
  destruct (kind_422 lines samples Hl Hs) as [Ka Kb]. split.
  - intros F. apply Forall_inv_tail, Forall_inv in F. destruct (Z.eq_dec samples 1) as [E|E]; [left; exact E|]. right. unfold possible in F. rewrite Kb in F. replace (samples =? 1) with false in F by lia.
    destruct (F eq_refl) as [A B]. split; [exact A|]. apply (room_422 lines samples Hl ltac:(lia)) in B. exact B.
  - intros S. destruct (fits_422 lines samples (lines - 1) Hl Hs ltac:(lia) S) as [_ F].
    assert (Pa : possible (g422a lines samples) (lines - 1)) by (intros K; rewrite Ka in K; discriminate K).
    assert (Pb : possible (g422b lines samples) (lines - 1)) by (intros K; unfold row_fits in F; rewrite K in F; exact F).
    do 3 (apply Forall_cons; [assumption|]). apply Forall_nil.
Qed.
Lemma file_422 : forall dbg rayon segs h fill1 fill2 ss ts qs ms data post fill3 i0 i1 i2 q0 q1 q2, encodes segs h ss ts qs ms data -> fh_comps h = comps_422 i0 i1 i2 q0 q1 q2 ->
  0 < fh_lines h -> 0 < fh_samples h -> post_ok post ->
  let file := file_bytes segs fill1 fill2 (mkSpS ss 0 63 0 0) data post fill3 in bytes file ->
  (size_422 (fh_lines h) (fh_samples h) -> exists img, decode_fresh dbg rayon file = Ok img) /\
  (~ size_422 (fh_lines h) (fh_samples h) -> decode_fresh dbg rayon file = Panic PIndex).
Proof.
  intros dbg rayon segs h fill1 fill2 ss ts qs ms data post fill3 i0 i1 i2 q0 q1 q2 En Ec P1 P2 PO file B.
  destruct (file_answer dbg rayon segs h fill1 fill2 ss ts qs ms data post fill3 En P1 P2 PO B) as [ps [_ [_ A]]]. fold file in A. rewrite Ec in A.
  assert (AC := accepted_422 (fh_lines h) (fh_samples h) i0 i1 i2 q0 q1 q2). assert (PP := possible_422 rayon (fh_lines h) (fh_samples h) i0 i1 i2 q0 q1 q2 P1 P2). cbv zeta in AC, PP. split.
  - intros S. apply (answer_image _ _ _ _ _ _ _ A). split; [left; reflexivity|]. split; [exact AC|]. apply PP. exact S.
  - intros S. destruct A; try contradiction; try discriminate; try reflexivity; try (exfalso; apply S, PP; assumption).
Qed.

(** ** Ratios that are not whole *)
Lemma file_unsupported : forall dbg rayon segs h fill1 fill2 ss ts qs ms data post fill3, encodes segs h ss ts qs ms data ->
  let cs := fh_comps h in let lines := fh_lines h in let samples := fh_samples h in
  0 < lines -> 0 < samples -> post_ok post -> lenZ cs = 3 \/ lenZ cs = 4 /\ last_transform (segs ++ post) <> None ->
  let file := file_bytes segs fill1 fill2 (mkSpS ss 0 63 0 0) data post fill3 in bytes file ->
  (exists c, In c cs /\ (samples <> 1 /\ largest (map cs_h cs) mod cs_h c <> 0 \/ lines <> 1 /\ largest (map cs_v cs) mod cs_v c <> 0)) ->
  decode_fresh dbg rayon file = Fail EUnsupported.
Proof.
  intros dbg rayon segs h fill1 fill2 ss ts qs ms data post fill3 En cs lines samples P1 P2 PO N file B [c [Hc D]].
  destruct (file_answer dbg rayon segs h fill1 fill2 ss ts qs ms data post fill3 En P1 P2 PO B) as [ps [_ [_ A]]]. fold file cs lines samples in A.
  assert (NA : ~ Forall (ratios_accepted lines samples cs) cs).
  { intros F. rewrite Forall_forall in F. destruct (F c Hc) as [I1 [I2 _]]. tauto. }
  clearbody file. destruct A; try contradiction; try reflexivity; exfalso; destruct N as [N|[N N']]; congruence.
Qed.
