(** Two encodings of the same coefficients (C61). *)
From Verif Require Import Base Tactics SpecBits SpecReader SpecMarker Biterator Huffman Marker Types Parsers Upsampler Decode SpecGlobal SpecStream.
From Verif Require Import SpecHuffman SpecBlock SpecTables SpecFrame SpecSegments SpecScan SpecPlane SpecUpsample SpecImage SpecColor SpecFile SpecAnswer SpecPieces.
From Verif Require Import InvP MarkerP GlobalP StreamP2 FileP AnswerP2 AnswerP3 ReuseP PiecesP DamageP2.

(** ** The image depends on the sampling factors, not on identifiers and selectors *)
Definition factors (cs : list comp_spec) : list (Z * Z) := map (fun c => (cs_h c, cs_v c)) cs.
Lemma factors_h : forall cs, map cs_h cs = map fst (factors cs).
Proof. intros. unfold factors. rewrite map_map. reflexivity. Qed.
Lemma factors_v : forall cs, map cs_v cs = map snd (factors cs).
Proof. intros. unfold factors. rewrite map_map. reflexivity. Qed.

Definition view (c : component) : Z * Z * dims * dims := (c_h c, c_v c, c_size c, c_block_size c).
Lemma new_view : forall cs cs' size, map view cs = map view cs' -> upsampler_new cs size = upsampler_new cs' size.
Proof.
  intros cs cs' size E. unfold upsampler_new.
  assert (Eh : map c_h cs = map c_h cs') by (transitivity (map (fun v : Z * Z * dims * dims => fst (fst (fst v))) (map view cs)); [rewrite map_map; reflexivity|]; rewrite E, map_map; reflexivity).
  assert (Ev : map c_v cs = map c_v cs') by (transitivity (map (fun v : Z * Z * dims * dims => snd (fst (fst v))) (map view cs)); [rewrite map_map; reflexivity|]; rewrite E, map_map; reflexivity).
  rewrite <- Eh, <- Ev. destruct (max_unwrap (map c_h cs)) as [hm|e|p|]; try reflexivity. destruct (max_unwrap (map c_v cs)) as [vm|e|p|]; try reflexivity. cbn [bind]. clear Eh Ev.
  revert cs' E. induction cs as [|c cs IH]; intros [|c' cs'] E; try discriminate E; [reflexivity|]. cbn [map] in E. injection E as E1 E2 E3 E4 E5. cbn [mapM]. rewrite E1, E2, E3, E4. rewrite (IH cs' E5). reflexivity.
Qed.
Lemma frame_view : forall m pr m' pr' lines samples cs cs', factors cs = factors cs' ->
  map view (f_components (frame_of m pr lines samples cs)) = map view (f_components (frame_of m' pr' lines samples cs')).
Proof.
  intros m pr m' pr' lines samples cs cs' E. unfold frame_of. cbn [f_components]. rewrite !map_map. unfold view. cbn [c_h c_v c_size c_block_size].
  rewrite (factors_h cs), (factors_v cs), (factors_h cs'), (factors_v cs'), <- E. set (hm := largest _). set (vm := largest _). clearbody hm vm. revert cs' E.
  induction cs as [|c cs IH]; intros [|c' cs'] E; try discriminate E; [reflexivity|]. injection E as E1 E2 E3. cbn [map]. rewrite E1, E2. f_equal. apply IH. exact E3.
Qed.
Lemma image_view : forall dbg rayon d d' m pr m' pr' lines samples cs cs', factors cs = factors cs' ->
  d_frame d = Some (frame_of m pr lines samples cs) -> d_frame d' = Some (frame_of m' pr' lines samples cs') -> d_color d = d_color d' -> d_planes d = d_planes d' ->
  upsample_image dbg rayon d = upsample_image dbg rayon d'.
Proof.
  intros dbg rayon d d' m pr m' pr' lines samples cs cs' E F F' C P. unfold upsample_image. rewrite F, F', C, P.
  pose proof (frame_view m pr m' pr' lines samples cs cs' E) as V. rewrite (new_view _ _ _ V).
  assert (L : lenZ (f_components (frame_of m pr lines samples cs)) = lenZ (f_components (frame_of m' pr' lines samples cs'))) by (unfold lenZ; rewrite <- (map_length view), V, map_length; reflexivity).
  assert (Ev : map c_v (f_components (frame_of m pr lines samples cs)) = map c_v (f_components (frame_of m' pr' lines samples cs')))
    by (transitivity (map (fun v : Z * Z * dims * dims => snd (fst (fst v))) (map view (f_components (frame_of m pr lines samples cs)))); [rewrite map_map; reflexivity|]; rewrite V, map_map; reflexivity).
  rewrite L, Ev. reflexivity.
Qed.

(** ** The planes depend on the coefficients *)
Lemma px_lists : forall p p' rows stride, 0 <= rows -> 0 <= stride -> lenZ p = rows * stride -> lenZ p' = rows * stride ->
  (forall y x, 0 <= y < rows -> 0 <= x < stride -> px p stride y x = px p' stride y x) -> p = p'.
Proof.
  intros p p' rows stride Hr Hs L L' H. apply (nth_ext _ _ 0 0); [unfold lenZ in *; lia|]. intros n Hn.
  assert (Ss : 0 < stride) by (unfold lenZ in *; nia). specialize (H (Z.of_nat n / stride) (Z.of_nat n mod stride)).
  assert (Dm : Z.of_nat n = Z.of_nat n / stride * stride + Z.of_nat n mod stride) by (pose proof (Z.div_mod (Z.of_nat n) stride ltac:(lia)); lia).
  pose proof (Z.mod_pos_bound (Z.of_nat n) stride Ss) as Mb. pose proof (Z.div_pos (Z.of_nat n) stride ltac:(lia) Ss) as Dp.
  assert (Dl : Z.of_nat n / stride < rows) by (apply Z.div_lt_upper_bound; [exact Ss|]; unfold lenZ in *; lia).
  specialize (H ltac:(lia) ltac:(lia)). unfold px in H. rewrite <- Dm, Nat2Z.id in H. exact H.
Qed.
Lemma plane_factors : forall lines samples cs cs' ms k c c' q p, factors cs = factors cs' -> cs_h c = cs_h c' -> cs_v c = cs_v c' ->
  plane_from lines samples cs' ms k c' q p -> plane_from lines samples cs ms k c q p.
Proof.
  intros lines samples cs cs' ms k c c' q p E Eh Ev H. unfold plane_from, plane_for, plane_rows, plane_stride in *.
  rewrite (factors_h cs), (factors_v cs), E, Eh, Ev, <- factors_h, <- factors_v. exact H.
Qed.
Lemma factors_nth : forall cs cs' k c c', factors cs = factors cs' -> nth_error cs k = Some c -> nth_error cs' k = Some c' -> cs_h c = cs_h c' /\ cs_v c = cs_v c'.
Proof.
  intros cs cs' k c c' E E1 E2. pose proof (map_nth_error (fun c => (cs_h c, cs_v c)) _ _ E1) as X. pose proof (map_nth_error (fun c => (cs_h c, cs_v c)) _ _ E2) as Y.
  unfold factors in E. rewrite E in X. rewrite X in Y. injection Y as Y1 Y2. auto.
Qed.

Lemma lists_ext : forall A (l l' : list A), (forall k, nth_error l k = nth_error l' k) -> l = l'.
Proof.
  induction l as [|a l IH]; intros [|a' l'] H; [reflexivity|discriminate (H 0%nat)|discriminate (H 0%nat)|]. pose proof (H 0%nat) as H0. injection H0 as <-. f_equal. apply IH. intros k. exact (H (S k)).
Qed.
Lemma from_fuel : forall dbg rerun rayon c c', from dbg rerun rayon c c' ->
  (forall fuel, snd (let '(p, d, b) := c' in run dbg rerun rayon fuel p d b) = RPanic PFuel) -> forall fuel, snd (let '(p, d, b) := c in run dbg rerun rayon fuel p d b) = RPanic PFuel.
Proof.
  intros dbg rerun rayon c c' H. induction H as [|c1 c2 H IH M]; [auto|]. intros Q. apply IH. destruct c1 as [[p1 d1] b1], c2 as [[p2 d2] b2]. cbn [moves] in M.
  intros [|fuel]; [reflexivity|]. cbn [run]. rewrite M. apply Q.
Qed.
Lemma answers : forall dbg rayon input d junk fill b, bytes input ->
  from dbg false rayon (PcMarker, decoder_default, biter_new input) (PcMarker, d, b) -> bi_input b = junk ++ marker_bytes fill 0xD9 -> no_marker junk ->
  decode_fresh dbg rayon input = upsample_image dbg rayon d.
Proof.
  intros dbg rayon input d junk fill b B S Eb J. apply (decode_answers dbg rayon input d junk fill b B S Eb J). intros U.
  apply (decode_no_fuel dbg rayon decoder_default input ltac:(constructor) B). unfold decode.
  assert (P : parse_marker (bi_input b) = Ok (EOI, [])).
  { apply parse_marker_ok. exists 0xD9. split; [constructor|]. exists junk, fill. split; [exact J|]. split; [lia|]. split; [lia|]. rewrite Eb. unfold marker_bytes. reflexivity. }
  assert (Q := from_fuel _ _ _ _ _ S). cbn beta iota in Q. specialize (Q ltac:(intros [|fuel]; [reflexivity|]; cbn [run step]; rewrite P, U; reflexivity) (run_fuel (biter_new input))).
  destruct (run dbg false rayon (run_fuel (biter_new input)) PcMarker decoder_default (biter_new input)) as [[d' b'] r]. cbn [snd] in *. rewrite Q. reflexivity.
Qed.

(** What [file_planes] says about a file. *)
Definition has_planes (dbg rayon : bool) (segs post : list (nat * hseg)) (h : frame_header) (qs : list (list Z)) (ms : list mcu) (fill3 : nat) (file : list Z) : Prop :=
  exists d b ds ps, from dbg false rayon (PcMarker, decoder_default, biter_new file) (PcMarker, d, b) /\ bi_input b = ds ++ marker_bytes fill3 0xD9 /\ no_marker ds /\
    d_frame d = Some (frame_of (fh_marker h) (fh_precision h) (fh_lines h) (fh_samples h) (fh_comps h)) /\
    d_color d = last (map transform_of (adobes (segs ++ post))) None /\ d_planes d = map line_of ps /\ length ps = length (fh_comps h) /\
    forall k c, nth_error (fh_comps h) k = Some c -> exists q p, nth_error qs k = Some q /\ nth_error ps k = Some p /\ plane_from (fh_lines h) (fh_samples h) (fh_comps h) ms k c q p.
Lemma planes_equal : forall dbg rayon segs h post fill3 segs' h' post' fill3' qs ms qs' ms' file file',
  Forall (fun s => hseg_ok (snd s)) segs -> sofs segs = [h] -> Forall (fun s => hseg_ok (snd s)) segs' ->
  has_planes dbg rayon segs post h qs ms fill3 file -> has_planes dbg rayon segs' post' h' qs' ms' fill3' file' ->
  (forall k c q q' p p' y x, nth_error (fh_comps h) k = Some c -> nth_error qs k = Some q -> nth_error qs' k = Some q' ->
     plane_from (fh_lines h) (fh_samples h) (fh_comps h) ms k c q p -> plane_from (fh_lines h) (fh_samples h) (fh_comps h) ms' k c q' p' ->
     0 <= y < plane_rows (fh_lines h) (fh_comps h) c -> 0 <= x < plane_stride (fh_samples h) (fh_comps h) c ->
     px p' (plane_stride (fh_samples h) (fh_comps h) c) y x = px p (plane_stride (fh_samples h) (fh_comps h) c) y x) ->
  post_ok post -> post_ok post' ->
  fh_lines h' = fh_lines h -> fh_samples h' = fh_samples h ->
  map (fun c => (cs_h c, cs_v c)) (fh_comps h') = map (fun c => (cs_h c, cs_v c)) (fh_comps h) ->
  last_transform (segs' ++ post') = last_transform (segs ++ post) -> bytes file -> bytes file' -> decode_fresh dbg rayon file' = decode_fresh dbg rayon file.
Proof.
  intros dbg rayon segs h post fill3 segs' h' post' fill3' qs ms qs' ms' file file' F Sf F' HP HP' MEET PO PO' El Es Ef Et B B'.
  destruct HP as [d [b [ds [ps [S [Eb [Jn [Fr [Co [Ep [Lp PL]]]]]]]]]]]. destruct HP' as [d' [b' [ds' [ps' [S' [Eb' [Jn' [Fr' [Co' [Ep' [Lp' PL']]]]]]]]]]].
  rewrite El, Es in *. fold (factors (fh_comps h')) in Ef. fold (factors (fh_comps h)) in Ef.
  assert (Lc : length (fh_comps h') = length (fh_comps h)) by (rewrite <- (map_length (fun c => (cs_h c, cs_v c)) (fh_comps h')); unfold factors in Ef; rewrite Ef, map_length; reflexivity).
  assert (Eps : ps' = ps).
  { apply lists_ext. intros k. destruct (nth_error (fh_comps h) k) as [c|] eqn:Ec.
    - destruct (nth_error (fh_comps h') k) as [c'|] eqn:Ec'; [|apply nth_error_None in Ec'; assert (k < length (fh_comps h))%nat by (apply nth_error_Some; congruence); lia].
      destruct (PL k c Ec) as [q [p [Eq [Ek Fp]]]]. destruct (PL' k c' Ec') as [q' [p' [Eq' [Ek' Fp']]]]. rewrite Ek, Ek'. f_equal.
      destruct (factors_nth _ _ _ _ _ (eq_sym Ef) Ec Ec') as [Eh Ev]. apply (plane_factors _ _ (fh_comps h) (fh_comps h') ms' k c c' q' p' (eq_sym Ef) Eh Ev) in Fp'.
      destruct (sof_ok segs h F ltac:(rewrite Sf; left; reflexivity)) as [_ HO].
      assert (HF : 1 <= cs_h c <= 4 /\ 1 <= cs_v c <= 4) by (destruct HO as [_ _ _ _ _ X]; rewrite Forall_forall in X; apply X; exact (nth_error_In _ _ Ec)).
      assert (W0 : 0 <= mcus (fh_samples h) (largest (map cs_h (fh_comps h))) /\ 0 <= mcus (fh_lines h) (largest (map cs_v (fh_comps h)))) by (destruct (frame_fits _ ltac:(exists (fh_marker h), (fh_precision h), (fh_lines h), (fh_samples h), (fh_comps h); split; [reflexivity|exact HO])) as [_ [X [Y _]]]; split; [exact X|exact Y]).
      apply (px_lists p' p (plane_rows (fh_lines h) (fh_comps h) c) (plane_stride (fh_samples h) (fh_comps h) c)).
      + unfold plane_rows. nia.
      + unfold plane_stride. nia.
      + destruct Fp' as [[_ X] _]. rewrite X. apply Z.mul_comm.
      + destruct Fp as [[_ X] _]. rewrite X. apply Z.mul_comm.
      + intros y x Hy Hx. exact (MEET k c q q' p p' y x Ec Eq Eq' Fp Fp' Hy Hx).
    - apply nth_error_None in Ec. assert (X : nth_error ps k = None) by (apply nth_error_None; lia). assert (Y : nth_error ps' k = None) by (apply nth_error_None; lia). rewrite X, Y. reflexivity. }
  assert (Ei : upsample_image dbg rayon d' = upsample_image dbg rayon d).
  { eapply image_view; [exact Ef|exact Fr'|exact Fr| |rewrite Ep, Ep', Eps; reflexivity].
    rewrite Co, Co'. unfold last_transform in Et.
    assert (T : forall l, Forall (fun s => hseg_ok (snd s)) l -> last (map transform_of (adobes l)) None = match last (map Some (adobes l)) None with Some t => transform_of t | None => None end).
    { intros l _. induction (adobes l) as [|a [|a' r] IH]; [reflexivity|reflexivity|exact IH]. }
    rewrite !T, Et; [reflexivity|apply Forall_app; split; [exact F|apply PO]|apply Forall_app; split; [exact F'|apply PO']]. }
  rewrite (answers dbg rayon _ d ds fill3 b B S Eb Jn), (answers dbg rayon _ d' ds' fill3' b' B' S' Eb' Jn'). exact Ei.
Qed.
Lemma planes_answer : forall dbg rayon segs h post fill3 segs' h' post' fill3' qs ms file file',
  Forall (fun s => hseg_ok (snd s)) segs -> sofs segs = [h] -> Forall (fun s => hseg_ok (snd s)) segs' ->
  has_planes dbg rayon segs post h qs ms fill3 file -> has_planes dbg rayon segs' post' h' qs ms fill3' file' -> post_ok post -> post_ok post' ->
  fh_lines h' = fh_lines h -> fh_samples h' = fh_samples h ->
  map (fun c => (cs_h c, cs_v c)) (fh_comps h') = map (fun c => (cs_h c, cs_v c)) (fh_comps h) ->
  last_transform (segs' ++ post') = last_transform (segs ++ post) -> bytes file -> bytes file' -> decode_fresh dbg rayon file' = decode_fresh dbg rayon file.
Proof.
  intros dbg rayon segs h post fill3 segs' h' post' fill3' qs ms file file' F Sf F' HP HP'. apply (planes_equal dbg rayon segs h post fill3 segs' h' post' fill3' qs ms qs ms file file' F Sf F' HP HP').
  intros k c q q' p p' y x Ec Eq Eq' Fp Fp' Hy Hx. assert (q' = q) by congruence. subst q'.
  exact (planes_meet (fh_lines h) (fh_samples h) (fh_comps h) ms ms k c q p' p y x Fp' Fp Hy Hx eq_refl).
Qed.

Lemma same_answer : forall dbg rayon segs h fill1 fill2 ss ts data post fill3 segs' h' fill1' fill2' ss' ts' data' post' fill3' qs ms,
  encodes segs h ss ts qs ms data -> encodes segs' h' ss' ts' qs ms data' -> post_ok post -> post_ok post' ->
  fh_lines h' = fh_lines h -> fh_samples h' = fh_samples h ->
  map (fun c => (cs_h c, cs_v c)) (fh_comps h') = map (fun c => (cs_h c, cs_v c)) (fh_comps h) ->
  last_transform (segs' ++ post') = last_transform (segs ++ post) ->
  let file := file_bytes segs fill1 fill2 (mkSpS ss 0 63 0 0) data post fill3 in
  let file' := file_bytes segs' fill1' fill2' (mkSpS ss' 0 63 0 0) data' post' fill3' in
  bytes file -> bytes file' -> decode_fresh dbg rayon file' = decode_fresh dbg rayon file.
Proof.
  intros dbg rayon segs h fill1 fill2 ss ts data post fill3 segs' h' fill1' fill2' ss' ts' data' post' fill3' qs ms En En' PO PO' El Es Ef Et file file' B B'.
  destruct En as [F Sf ND L4 Few CC Sh Lm SD]. destruct En' as [F' Sf' ND' L4' Few' CC' Sh' Lm' SD'].
  refine (planes_answer dbg rayon segs h post fill3 segs' h' post' fill3' qs ms file file' F Sf F' _ _ PO PO' El Es Ef Et B B').
  - exact (file_planes dbg rayon segs h fill1 fill2 ss ts qs ms data post fill3 F Sf ND L4 Few CC Sh Lm SD PO B).
  - exact (file_planes dbg rayon segs' h' fill1' fill2' ss' ts' qs ms data' post' fill3' F' Sf' ND' L4' Few' CC' Sh' Lm' SD' PO' B').
Qed.
