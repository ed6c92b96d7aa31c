(** Requantised files (C68). *)
From Verif Require Import Base Tactics SpecBits SpecReader SpecMarker Biterator Huffman Marker Types Parsers Idct Upsampler Decode SpecGlobal SpecStream.
From Verif Require Import SpecHuffman SpecBlock SpecTables SpecFrame SpecSegments SpecScan SpecPlane SpecUpsample SpecImage SpecColor SpecFile SpecAnswer SpecEdit.
From Verif Require Import InvP MarkerP GlobalP StreamP2 FileP ImageP BlockP IdctP AnswerP2 AnswerP3 ReuseP PiecesP DamageP2 TransP.

Lemma column_products : forall a q a' q' i, (i < 8)%nat ->
  (forall n, (n < 64)%nat -> at64 a n * at64 q n = at64 a' n * at64 q' n) -> (forall n, (n < 64)%nat -> at64 a n = 0 <-> at64 a' n = 0) ->
  idct_column a q i = idct_column a' q' i.
Proof.
  intros a q a' q' i Hi P Z0. unfold idct_column. cbv zeta.
  assert (E : forall k, (k < 8)%nat -> (at64 a (i + 8 * k) =? 0) = (at64 a' (i + 8 * k) =? 0)).
  { intros k Hk. specialize (Z0 (i + 8 * k)%nat ltac:(lia)). destruct (Z.eqb_spec (at64 a (i + 8 * k)) 0), (Z.eqb_spec (at64 a' (i + 8 * k)) 0); tauto. }
  rewrite !E by lia. unfold dequant. rewrite (P (i + 8 * 0)%nat ltac:(lia)).
  replace (map (fun k => w32 (at64 a (i + 8 * k) * at64 q (i + 8 * k))) (seq 0 8)) with (map (fun k => w32 (at64 a' (i + 8 * k) * at64 q' (i + 8 * k))) (seq 0 8)); [reflexivity|].
  apply map_ext_in. intros k Hk. apply in_seq in Hk. rewrite P by lia. reflexivity.
Qed.
Lemma rows_products : forall dbg a q a' q',
  (forall n, (n < 64)%nat -> at64 a n * at64 q n = at64 a' n * at64 q' n) -> (forall n, (n < 64)%nat -> at64 a n = 0 <-> at64 a' n = 0) ->
  idct_block_rows dbg a q = idct_block_rows dbg a' q'.
Proof.
  intros dbg a q a' q' P Z0. unfold idct_block_rows. cbv zeta.
  replace (map (idct_column a q) (seq 0 8)) with (map (idct_column a' q') (seq 0 8)); [reflexivity|].
  apply map_ext_in. intros i Hi. apply in_seq in Hi. symmetry. apply column_products; auto; lia.
Qed.

Lemma rel_nth : forall A B (R : A -> B -> Prop) l l' d d', Forall2 R l l' -> R d d' -> forall n, R (nth n l d) (nth n l' d').
Proof. intros A B R l l' d d' F D. induction F as [|a b l l' H F IH]; intros [|n]; cbn [nth]; auto. Qed.

Lemma block_meet : forall q q' b b' blk blk' qt qt' rows rows', no_zero q -> no_zero q' -> same_products q q' b b' ->
  block_values blk (q_dc b) (q_ac b) -> block_values blk' (q_dc b') (q_ac b') -> natural_order qt q -> natural_order qt' q' ->
  idct_block_rows true blk qt = Ok rows -> idct_block_rows true blk' qt' = Ok rows' -> rows' = rows.
Proof.
  intros q q' b b' blk blk' qt qt' rows rows' Nq Nq' S [_ V] [_ V'] [_ O] [_ O'] D D'.
  rewrite (rows_products true blk qt blk' qt') in D; [congruence| |]; intros n Hn; destruct (natural_unnatural n Hn) as [E L]; rewrite <- E; unfold at64; rewrite ?V, ?V', ?O, ?O' by exact L.
  - exact (S _ L).
  - specialize (S _ L). unfold coef in S. specialize (Nq _ L). specialize (Nq' _ L). split; intros Z0; rewrite Z0 in S; nia.
Qed.

Lemma products_answer : forall dbg rayon segs h fill1 fill2 ss ts data post fill3 segs' h' fill1' fill2' ss' ts' data' post' fill3' qs ms qs' ms',
  encodes segs h ss ts qs ms data -> encodes segs' h' ss' ts' qs' ms' data' -> post_ok post -> post_ok post' ->
  fh_lines h' = fh_lines h -> fh_samples h' = fh_samples h ->
  map (fun c => (cs_h c, cs_v c)) (fh_comps h') = map (fun c => (cs_h c, cs_v c)) (fh_comps h) ->
  last_transform (segs' ++ post') = last_transform (segs ++ post) ->
  Forall no_zero qs -> Forall no_zero qs' -> Forall2 (same_mcu qs qs') ms ms' ->
  let file := file_bytes segs fill1 fill2 (mkSpS ss 0 63 0 0) data post fill3 in
  let file' := file_bytes segs' fill1' fill2' (mkSpS ss' 0 63 0 0) data' post' fill3' in
  bytes file -> bytes file' -> decode_fresh dbg rayon file' = decode_fresh dbg rayon file.
Proof.
  intros dbg rayon segs h fill1 fill2 ss ts data post fill3 segs' h' fill1' fill2' ss' ts' data' post' fill3' qs ms qs' ms' En En' PO PO' El Es Ef Et Nq Nq' SM file file' B B'.
  destruct En as [F Sf ND L4 Few CC Sh Lm SD]. destruct En' as [F' Sf' ND' L4' Few' CC' Sh' Lm' SD'].
  refine (planes_equal dbg rayon segs h post fill3 segs' h' post' fill3' qs ms qs' ms' file file' F Sf F' _ _ _ PO PO' El Es Ef Et B B').
  - exact (file_planes dbg rayon segs h fill1 fill2 ss ts qs ms data post fill3 F Sf ND L4 Few CC Sh Lm SD PO B).
  - exact (file_planes dbg rayon segs' h' fill1' fill2' ss' ts' qs' ms' data' post' fill3' F' Sf' ND' L4' Few' CC' Sh' Lm' SD' PO' B').
  - intros k c q q' p p' y x Ec Eq Eq' [_ P] [_ P'] Hy Hx. destruct (P y x Hy Hx) as [blk [qt [rows [V [O [D ->]]]]]]. destruct (P' y x Hy Hx) as [blk' [qt' [rows' [V' [O' [D' ->]]]]]]. clear P P'. cbv zeta in V, V'.
    rewrite Forall_forall in Nq, Nq'. f_equal.
    refine (block_meet q q' _ _ _ _ _ _ _ _ (Nq _ (nth_error_In _ _ Eq)) (Nq' _ (nth_error_In _ _ Eq')) _ V V' O O' (D true) (D' true)).
    assert (Lc : length (fh_comps h') = length (fh_comps h)) by (rewrite <- (map_length (fun c => (cs_h c, cs_v c)) (fh_comps h')), Ef, map_length; reflexivity).
    unfold q_at. set (i := Z.to_nat _). set (j := Z.to_nat _).
    assert (R : Forall2 (fun m m' => forall j, same_products q q' (nth j (nth k m []) (mkQ 0 [])) (nth j (nth k m' []) (mkQ 0 []))) ms ms').
    { clear - SM Sh Sh' Lc Eq Eq'. induction SM as [|m m' ms ms' Hm SM IH]; [constructor|]. inv Sh. inv Sh'. constructor; [|auto]. clear IH SM.
      assert (Lm : length m' = length m) by (rewrite <- (Forall2_length _ _ _ _ _ H1), <- (Forall2_length _ _ _ _ _ H3); exact Lc).
      destruct (nth_error m k) as [bs|] eqn:Eb.
      - destruct (nth_error m' k) as [bs'|] eqn:Eb'; [|apply nth_error_None in Eb'; assert (k < length m)%nat by (apply nth_error_Some; congruence); lia].
        rewrite (nth_error_nth _ _ _ Eb), (nth_error_nth _ _ _ Eb'). apply rel_nth; [exact (Hm k q q' bs bs' Eq Eq' Eb Eb')|]. intros [|[|n]] _; reflexivity.
      - apply nth_error_None in Eb. rewrite !nth_overflow with (n := k) by lia. intros [|j] [|[|n]] _; reflexivity. }
    pose proof (rel_nth _ _ _ _ _ [] [] R) as Q. cbv beta in Q. apply Q. intros j0 i0 _. destruct k, j0, i0 as [|[|n]]; reflexivity.
Qed.
