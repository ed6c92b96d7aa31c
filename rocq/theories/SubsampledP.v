(** Images with flat components of which other samples are left out (C91). *)
From Verif Require Import Base Tactics SpecBits SpecReader SpecMarker Biterator Huffman Marker Types Parsers Idct Upsampler Decode SpecGlobal SpecStream.
From Verif Require Import SpecHuffman SpecBlock SpecTables SpecFrame SpecSegments SpecScan SpecPlane SpecUpsample SpecImage SpecColor SpecFile SpecAnswer SpecIdct SpecFlat SpecEncoder SpecEdit SpecFlip SpecChannel SpecRatio SpecSubsampled.
From Verif Require Import GeomP ParsersP InvP MarkerP GlobalP StreamP2 FileP ImageP BlockP UpsampleP RayonP IdctP IdctP2 AnswerP AnswerP2 AnswerP3 ReuseP PiecesP DamageP2 TransP UpsampleP2 FlatP EditP EditP2 EncoderP MosaicP FlipP FlipP3 ChannelP NearbyP OrderP RatioP.

Lemma subsampled_files :
  forall dbg rayon segs segs' h h' fill1 fill2 fill1' fill2' ss ss' ts ts' qs qs' ms ms' data data' post post' fill3 fill3' img img',
    let cs := fh_comps h in let cs' := fh_comps h' in let lines := fh_lines h in let samples := fh_samples h in
    let vm := largest (map cs_v cs) in let vm' := largest (map cs_v cs') in
    encodes segs h ss ts qs ms data -> encodes segs' h' ss' ts' qs' ms' data' -> post_ok post -> post_ok post' ->
    fh_lines h' = lines -> fh_samples h' = samples -> 0 < lines -> 0 < samples -> length cs' = length cs ->
    (forall k, (k < length cs)%nat -> kept_component lines samples cs cs' qs qs' ms ms' k \/ flat_both lines samples cs cs' qs qs' ms ms' k) ->
    last_transform (segs' ++ post') = last_transform (segs ++ post) ->
    let file := file_bytes segs fill1 fill2 (mkSpS ss 0 63 0 0) data post fill3 in
    let file' := file_bytes segs' fill1' fill2' (mkSpS ss' 0 63 0 0) data' post' fill3' in
    bytes file -> bytes file' -> decode_fresh dbg rayon file = Ok img -> decode_fresh dbg rayon file' = Ok img' ->
    forall y y0 x, 0 <= y < lines -> 0 <= y0 < lines -> 0 <= x < samples ->
      (if rayon then y / vm' = y0 / vm else y / vm' * vm' = y0 / vm * vm) ->
      pixel (lenZ cs) samples y x img' = pixel (lenZ cs) samples y0 x img.
Proof.
  intros dbg rayon segs segs' h h' fill1 fill2 fill1' fill2' ss ss' ts ts' qs qs' ms ms' data data' post post' fill3 fill3' img img' cs cs' lines samples vm vm' En En' PO PO' El Es L0 S0 Lc KF Et file file' B B' D D' y y0 x Hy Hy0 Hx Hv.
  assert (Er : shown_row rayon (largest (map cs_v cs')) y = shown_row rayon (largest (map cs_v cs)) y0) by (fold vm vm'; unfold shown_row; destruct rayon; exact Hv). clear Hv vm vm'.
  destruct (file_answer dbg rayon segs h fill1 fill2 ss ts qs ms data post fill3 En L0 S0 PO B) as [ps [Lp [PL FA]]].
  destruct (file_answer dbg rayon segs' h' fill1' fill2' ss' ts' qs' ms' data' post' fill3' En' ltac:(lia) ltac:(lia) PO' B') as [ps' [Lp' [PL' FA']]].
  fold file in FA. fold file' in FA'. rewrite D in FA. rewrite D', Et, El, Es in FA'. rewrite El, Es in PL'. fold cs lines samples in FA, PL, Lp. fold cs' in FA', PL', Lp'.
  pose proof (files_header segs h ss ts qs ms data En) as HO. fold cs lines samples in HO. pose proof (files_header segs' h' ss' ts' qs' ms' data' En') as HO'. fold cs' in HO'. rewrite El, Es in HO'.
  destruct (answer_colour _ _ _ _ _ _ _ y0 x FA Lp Hy0 Hx) as [A E1]. destruct (answer_colour _ _ _ _ _ _ _ y x FA' Lp' Hy Hx) as [A' E2].
  assert (Lz : lenZ cs' = lenZ cs) by (unfold lenZ; congruence). rewrite Lz in E2. rewrite E1, E2. f_equal.
  assert (Rw : 0 <= shown_row rayon (largest (map cs_v cs)) y0 < lines) by exact (row_range rayon lines samples cs y0 HO Hy0).
  unfold draw. apply lists_ext. intros k. destruct (nth_error cs k) as [c|] eqn:Ec.
  - assert (Hk : (k < length cs)%nat) by (apply nth_error_Some; congruence). destruct (nth_error cs' k) as [c'|] eqn:Ec'; [|apply nth_error_None in Ec'; lia].
    destruct (PL k c Ec) as [q [p [Eq1 [Ep P]]]]. destruct (PL' k c' Ec') as [q' [p' [Eq1' [Ep' P']]]].
    assert (CB : forall cs0 ps0 (c0 : comp_spec) (p0 : list Z), nth_error cs0 k = Some c0 -> nth_error ps0 k = Some p0 -> nth_error (combine cs0 ps0) k = Some (c0, p0)).
    { clear. intros cs0. revert k. induction cs0 as [|c1 cs0 IH]; intros [|k] [|p1 ps0] c0 p0 E1 E2; try discriminate; cbn [combine nth_error] in *; [congruence|apply IH; assumption]. }
    rewrite (map_nth_error _ _ _ (CB _ _ _ _ Ec Ep)), (map_nth_error _ _ _ (CB _ _ _ _ Ec' Ep')). cbn [fst snd]. f_equal. clear CB.
    destruct (KF k Hk) as [K|[dc [dc' [F [F' K]]]]]; specialize (K c c' q q' Ec Ec' Eq1 Eq1').
    + destruct K as [-> [Rh [Rv SB]]]. rewrite Er, Forall_forall in *.
      exact (drawn_same lines samples cs cs' ms ms' k c c' q p p' HO HO' L0 S0 Ec Ec' (conj Rh Rv) SB P P' (A c (nth_error_In _ _ Ec)) _ x Rw Hx).
    + destruct K as [W [W' Es']].
      transitivity (flat_shown lines samples cs' c' dc' q' x).
      * pose proof (en_mcus _ _ _ _ _ _ _ En') as Sh'. pose proof (en_count _ _ _ _ _ _ _ En') as Lm'. fold cs' in Sh', Lm'. rewrite El, Es in Lm'. rewrite Forall_forall in A'. pose proof (nth_error_In _ _ Ec') as I'.
        apply (flat_drawn rayon lines samples cs' c' p' (dc_sample dc' q') HO' I' (A' c' I')); auto.
        intros y' x' Hy' Hx'. exact (flat_plane lines samples cs' ms' k c' q' p' dc' HO' Sh' Lm' Ec' P' F' y' x' Hy' Hx').
      * transitivity (flat_shown lines samples cs c dc q x).
        { unfold flat_shown. rewrite (full_left lines samples cs c x HO (nth_error_In _ _ Ec) W Hx), (full_left lines samples cs' c' x HO' (nth_error_In _ _ Ec') W' Hx). exact Es'. }
        symmetry. pose proof (en_mcus _ _ _ _ _ _ _ En) as Sh. pose proof (en_count _ _ _ _ _ _ _ En) as Lm. fold cs lines samples in Sh, Lm. rewrite Forall_forall in A. pose proof (nth_error_In _ _ Ec) as I.
        apply (flat_drawn rayon lines samples cs c p (dc_sample dc q) HO I (A c I)); auto.
        intros y' x' Hy' Hx'. exact (flat_plane lines samples cs ms k c q p dc HO Sh Lm Ec P F y' x' Hy' Hx').
  - apply nth_error_None in Ec. transitivity (@None Z); [|symmetry]; apply nth_error_None; rewrite map_length, combine_length; lia.
Qed.

Lemma subsampled_same :
  forall dbg rayon segs segs' h h' fill1 fill2 fill1' fill2' ss ss' ts ts' qs qs' ms ms' data data' post post' fill3 fill3' img img',
    let cs := fh_comps h in let cs' := fh_comps h' in let lines := fh_lines h in let samples := fh_samples h in
    let vm := largest (map cs_v cs) in let vm' := largest (map cs_v cs') in
    encodes segs h ss ts qs ms data -> encodes segs' h' ss' ts' qs' ms' data' -> post_ok post -> post_ok post' ->
    fh_lines h' = lines -> fh_samples h' = samples -> 0 < lines -> 0 < samples -> length cs' = length cs ->
    (forall k, (k < length cs)%nat -> kept_component lines samples cs cs' qs qs' ms ms' k \/ flat_both lines samples cs cs' qs qs' ms ms' k) ->
    last_transform (segs' ++ post') = last_transform (segs ++ post) ->
    let file := file_bytes segs fill1 fill2 (mkSpS ss 0 63 0 0) data post fill3 in
    let file' := file_bytes segs' fill1' fill2' (mkSpS ss' 0 63 0 0) data' post' fill3' in
    bytes file -> bytes file' -> decode_fresh dbg rayon file = Ok img -> decode_fresh dbg rayon file' = Ok img' ->
    forall y x, 0 <= y < lines -> 0 <= x < samples ->
      vm' = vm \/ rayon = false /\ y mod vm = 0 /\ y mod vm' = 0 ->
      pixel (lenZ cs) samples y x img' = pixel (lenZ cs) samples y x img.
Proof.
  intros dbg rayon segs segs' h h' fill1 fill2 fill1' fill2' ss ss' ts ts' qs qs' ms ms' data data' post post' fill3 fill3' img img' cs cs' lines samples vm vm' En En' PO PO' El Es L0 S0 Lc KF Et file file' B B' D D' y x Hy Hx Hv.
  apply (subsampled_files dbg rayon segs segs' h h' fill1 fill2 fill1' fill2' ss ss' ts ts' qs qs' ms ms' data data' post post' fill3 fill3' img img' En En' PO PO' El Es L0 S0 Lc KF Et B B' D D' y y x Hy Hy Hx).
  fold cs cs'. fold vm vm'. destruct Hv as [->|[-> [H1 H2]]]; [destruct rayon; reflexivity|].
  assert (F : forall n, y mod n = 0 -> y / n * n = y). { intros n Hn. destruct (Z.eq_dec n 0) as [->|N]; [rewrite Zmod_0_r in Hn; subst; reflexivity|]. pose proof (Z.div_mod y n N). lia. }
  rewrite (F vm H1), (F vm' H2). reflexivity.
Qed.
