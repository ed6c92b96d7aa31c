(** An outcome is final (C80). *)
From Verif Require Import SpecColor Base Tactics SpecBits SpecReader SpecHuffman SpecBlock SpecTables Biterator BitsP Readers ReadersP Huffman HuffmanP2 HuffmanP3  Marker SpecMarker MarkerP Types Idct IdctP Color Upsampler Parsers Decode SpecFrame SpecSegments SpecScan SpecPlane SpecUpsample SpecImage SpecFile SpecLimits BlockP PlaneP SegmentsP SafeP InvP ScanP RestartP PlacedP EncodeP SpecGlobal GlobalP ExtP SpecStream StreamP StreamP2 RowP UpsampleP ImageP ParsersP FileP CorruptP SpecCode CodeP3 ReuseP TraceP SpecPieces PiecesP SpecWait DamageP2 WaitP WaitP2.

(** ** The errors of drawing the image *)
Section Errors.
Variable e0 : error.
Hypothesis N1 : e0 <> EUnsupported.
Hypothesis N2 : e0 <> EAdobeMissing.
Definition ne {A} (x : out A) : Prop := x <> Fail e0.
Lemma ne_bind : forall A B (x : out A) (k : A -> out B), ne x -> (forall a, ne (k a)) -> ne (bind x k).
Proof. intros A B [a|e|p|] k H K; cbn [bind]; [apply K| | |]; unfold ne in *; congruence. Qed.
Ltac ne1 := first [ apply ne_bind; [|intros] | match goal with |- ne (Ok _) => discriminate | |- ne (Panic _) => discriminate | |- ne UB => discriminate | |- ne (if ?c then _ else _) => destruct c | |- ne (let '(_, _) := ?x in _) => destruct x | |- ne (match ?x with _ => _ end) => destruct x end ].
Ltac nes := repeat ne1.
Lemma ne_index : forall A (l : list A) i, ne (index l i). Proof. intros. unfold index. nes. Qed.
Lemma ne_read : forall o, ne (Color.read o). Proof. intros [v|]; discriminate. Qed.
Lemma ne_rd : forall p i, ne (rd p i). Proof. intros. unfold rd. apply ne_bind; [apply ne_index|apply ne_read]. Qed.
Lemma ne_store : forall A (l : list A) i v, ne (store l i v). Proof. intros. unfold store. nes. Qed.
Lemma ne_slice : forall A (l : list A) i j, ne (slice l i j). Proof. intros. unfold slice. nes. Qed.
Lemma ne_slice_from : forall A (l : list A) i, ne (slice_from l i). Proof. intros. apply ne_slice. Qed.
Lemma ne_usub : forall dbg n a b, ne (usub dbg n a b). Proof. intros. unfold usub. nes. Qed.
Lemma ne_debug : forall dbg b, ne (debug_assert dbg b). Proof. intros. unfold debug_assert, assert_. nes. Qed.
Lemma ne_max : forall l, ne (max_unwrap l). Proof. intros. unfold max_unwrap. nes. Qed.
Lemma ne_mapM : forall A B (f : A -> out B) l, (forall a, ne (f a)) -> ne (mapM f l).
Proof. intros A B f l H. induction l as [|x l IH]; cbn [mapM]; nes; auto. Qed.
#[local] Hint Resolve ne_index ne_read ne_rd ne_store ne_slice ne_slice_from ne_usub ne_debug ne_max : ne.
Lemma ne_h2v1 : forall n outs input, (length outs <= n)%nat -> ne (h2v1_loop outs input).
Proof.
  induction n as [|n IH]; intros outs input L; destruct outs as [|x [|y outs]]; cbn [h2v1_loop length] in *; try discriminate; try lia.
  destruct input as [|a [|b [|c t]]]; try discriminate. repeat (apply ne_bind; [auto with ne|intros]); [apply IH; lia|discriminate].
Qed.
Lemma ne_h1v2 : forall outs near far, ne (h1v2_loop outs near far).
Proof. induction outs as [|x outs IH]; intros [|a near] [|b far]; cbn [h1v2_loop]; try discriminate. repeat (apply ne_bind; [auto with ne|intros]); discriminate. Qed.
Lemma ne_h2v2 : forall n outs near far t, (length outs <= n)%nat -> ne (h2v2_loop outs near far t).
Proof.
  induction n as [|n IH]; intros outs near far t L; destruct outs as [|x [|y outs]]; cbn [h2v2_loop length] in *; try discriminate; try lia.
  destruct near as [|a near], far as [|b far]; try discriminate. repeat (apply ne_bind; [auto with ne|intros]); [apply IH; lia|]. destruct a2. discriminate.
Qed.
Lemma ne_generic : forall hf input outs, ne (generic_loop hf outs input).
Proof. intros hf. induction input as [|x input IH]; intros outs; cbn [generic_loop]; [discriminate|]. destruct (_ <? _); [discriminate|]. repeat (apply ne_bind; [auto with ne|intros]); discriminate. Qed.
Lemma ne_row : forall dbg c input row width buf, ne (upsample_row dbg c input row width buf).
Proof.
  intros dbg c input row width buf. unfold upsample_row. destruct (up_kind c); (apply ne_bind; [|discriminate]).
  - apply ne_slice.
  - unfold up_h2v1. cbv zeta. apply ne_bind; [auto with ne|intros i]. destruct (_ =? 1); repeat (apply ne_bind; [solve [eapply ne_h2v1; apply le_n|auto with ne]|intros]); auto with ne.
  - unfold up_h1v2. cbv zeta. repeat (apply ne_bind; [auto with ne|intros]). apply ne_h1v2.
  - unfold up_h2v2. cbv zeta. repeat (apply ne_bind; [auto with ne|intros]). destruct (_ =? 1); repeat (apply ne_bind; [solve [eapply ne_h2v2; apply le_n|auto with ne]|intros]); auto with ne.
    destruct a8 as [tail t]. apply ne_bind; [auto with ne|intros]. auto with ne.
  - unfold up_generic. cbv zeta. apply ne_bind; [auto with ne|intros]. apply ne_generic.
Qed.
Lemma ne_rows : forall dbg cs data bufs row width, ne (upsample_rows dbg cs data bufs row width).
Proof.
  intros dbg. induction cs as [|c cs IH]; intros [|p data] [|b bufs] row width; cbn [upsample_rows]; try discriminate.
  apply ne_bind; [apply ne_row|intros [l b']]. apply ne_bind; [apply IH|intros [ls bs]; discriminate].
Qed.
Lemma ne_rgb : forall dbg y cb cr, ne (ycbcr_to_rgb dbg y cb cr).
Proof. intros. unfold ycbcr_to_rgb, ycc_clamp, index_unchecked. nes; auto with ne. Qed.
Lemma ne_ycbcr : forall dbg n data y cb cr, (length data <= n)%nat -> ne (line_ycbcr dbg data y cb cr).
Proof.
  intros dbg. induction n as [|n IH]; intros data y cb cr L; destruct data as [|a [|b [|c data]]]; cbn [line_ycbcr length] in *; try discriminate; try lia.
  destruct y, cb, cr; try discriminate. do 3 (apply ne_bind; [auto with ne|intros]). apply ne_bind; [apply ne_rgb|intros [[r g] b']]. apply ne_bind; [apply IH; lia|discriminate].
Qed.
Lemma ne_ycck : forall dbg n data y cb cr, (length data <= n)%nat -> ne (line_ycck dbg data y cb cr).
Proof.
  intros dbg. induction n as [|n IH]; intros data y cb cr L; destruct data as [|a [|b [|c [|k data]]]]; cbn [line_ycck length] in *; try discriminate; try lia.
  destruct y, cb, cr; try discriminate. do 3 (apply ne_bind; [auto with ne|intros]). apply ne_bind; [apply ne_rgb|intros [[r g] b']]. apply ne_bind; [apply IH; lia|discriminate].
Qed.
Lemma ne_cmyk : forall n data c m y k, (length data <= n)%nat -> ne (line_cmyk data c m y k).
Proof.
  induction n as [|n IH]; intros data c m y k L; destruct data as [|a [|b [|e [|f data]]]]; cbn [line_cmyk length] in *; try discriminate; try lia.
  destruct c, m, y, k; try discriminate. do 4 (apply ne_bind; [auto with ne|intros]). apply ne_bind; [apply IH; lia|discriminate].
Qed.
Lemma ne_lines : forall dbg f ups data w n gs bufs, ne (image_lines dbg f ups data w n bufs gs).
Proof.
  intros dbg f ups data w n. induction gs as [|[row k] gs IH]; intros bufs; cbn [image_lines]; [discriminate|].
  apply ne_bind; [unfold upsample_and_interleave_row; apply ne_bind; [auto with ne|intros; apply ne_rows]|intros [colors bufs']].
  apply ne_bind; [|intros; apply ne_bind; [apply IH|discriminate]].
  unfold color_convert. destruct f; [discriminate| | |].
  - destruct colors as [|y [|cb [|cr [|]]]]; try discriminate. eapply ne_ycbcr; apply le_n.
  - destruct colors as [|y [|cb [|cr [|]]]]; try discriminate. eapply ne_ycck; apply le_n.
  - destruct colors as [|c [|m [|y [|k' [|]]]]]; try discriminate. eapply ne_cmyk; apply le_n.
Qed.
Lemma ne_image : forall dbg rayon d, ne (upsample_image dbg rayon d).
Proof.
  intros dbg rayon d. unfold upsample_image. destruct (d_frame d) as [fr|]; [|discriminate].
  apply ne_bind; [unfold choose_color_convert_func; nes; intros Q; injection Q as Q; symmetry in Q; contradiction|intros f].
  apply ne_bind; [unfold upsampler_new; do 2 (apply ne_bind; [auto with ne|intros]); apply ne_mapM; intros c; apply ne_bind; [unfold choose_upsampler; nes; intros Q; injection Q as Q; symmetry in Q; contradiction|discriminate]|intros ups].
  apply ne_bind; [auto with ne|intros v]. apply ne_bind; [unfold assert_; nes|intros _]. apply ne_bind; [apply ne_lines|discriminate].
Qed.
End Errors.
Lemma image_errors : forall dbg rayon d e, upsample_image dbg rayon d = Fail e -> e = EUnsupported \/ e = EAdobeMissing.
Proof.
  intros dbg rayon d e E. assert (D : forall x y : error, {x = y} + {x <> y}) by decide equality.
  destruct (D e EUnsupported) as [H|H]; [left; exact H|]. destruct (D e EAdobeMissing) as [H'|H']; [right; exact H'|]. exfalso. exact (ne_image e H H' dbg rayon d E).
Qed.

(** ** Runs that do not wait *)
Lemma run_final : forall s dbg rerun rayon fuel p d b d' b' r, run dbg rerun rayon fuel p d b = (d', b', r) -> ~ is_need r -> r <> RPanic PFuel ->
  run dbg rerun rayon fuel p d (ext s b) = (d', ext s b', r) \/
  r = RFail EOutOfBits /\ exists q e c, from dbg rerun rayon (p, d, b) (q, e, c) /\ has_eob_runs e.
Proof.
  intros s dbg rerun rayon. induction fuel as [|fuel IH]; intros p d b d' b' r E N1 N3; [cbn in E; inv E; congruence|].
  cbn [run] in *. destruct (step dbg rerun rayon p d b) as [[d1 b1] R] eqn:SE. pose proof (step_ext s _ _ _ _ _ _ _ _ _ SE) as X.
  destruct R as [p1|r1].
  - rewrite X. destruct (IH _ _ _ _ _ _ E N1 N3) as [H|[H [q [e [c [F HE]]]]]]; [left; exact H|right]. split; [exact H|]. exists q, e, c. split; [|exact HE].
    apply (from_trans _ _ _ _ (p1, d1, b1)); [|exact F]. eapply from_next; [apply from_here|exact SE].
  - inversion E. subst. destruct r as [img|e|q|e|q|]; try (left; rewrite X; reflexivity); [exfalso; apply N1; exact I|].
    destruct e; try (left; rewrite X; reflexivity). destruct X as [X|X]; [right|left; rewrite X; reflexivity]. split; [reflexivity|]. exists p, d, b. split; [apply from_here|exact X].
Qed.
Lemma run_error : forall dbg rerun rayon fuel p d b d' b' e, run dbg rerun rayon fuel p d b = (d', b', RError e) -> e = EUnsupported \/ e = EAdobeMissing.
Proof.
  intros dbg rerun rayon. induction fuel as [|fuel IH]; intros p d b d' b' e E; [discriminate E|]. cbn [run] in E.
  destruct (step dbg rerun rayon p d b) as [[d1 b1] [p1|r1]] eqn:SE; [exact (IH _ _ _ _ _ _ E)|]. injection E as -> -> ->.
  destruct p as [|m|final todo ph]; cbn [step] in SE.
  - destruct (parse_marker (bi_input b)) as [[m rest]|e1|q|]; [|destruct e1; inv SE|inv SE|inv SE].
    destruct m; try discriminate SE. destruct (upsample_image dbg rayon d) as [img|e1|q|] eqn:U; inv SE. exact (image_errors _ _ _ _ U).
  - destruct (no_segment m); [discriminate SE|]. destruct (segment_data dbg (bi_input b)) as [[data rest]|e1|q|]; [|destruct e1; inv SE|inv SE|inv SE].
    destruct m; try (destruct (seg_payload _ _ _ _) as [d2 [u|e1|q|]]; cbn [seg_end] in SE; [inv SE|destruct e1; inv SE|inv SE|inv SE]).
    unfold do_sos in SE. destruct (sos_segment (d_frame d) data) as [[sc r]|e1|q|]; [|destruct e1; inv SE|inv SE|inv SE].
    destruct (sos_begin dbg d sc) as [d2 [final|e1|q|]]; try discriminate SE. destruct (scan_init final d2); discriminate SE.
  - destruct (scan_loop dbg rerun final todo ph d b) as [[d2 b2] [|todo' ph'|e1|q|]]; try discriminate SE. destruct (scan_finish d2); discriminate SE.
Qed.
Lemma final : forall dbg rayon d a s, reachable dbg rayon d -> bytes a -> bytes s ->
  let o := snd (decode dbg rayon d a) in let o' := snd (decode dbg rayon d (a ++ s)) in
  o <> Fail EEof -> (forall img, o <> Ok img) ->
  o' = o \/
  s <> [] /\ o' = Panic PAssert /\ (o = Fail EUnsupported \/ o = Fail EAdobeMissing) \/
  o = Fail EOutOfBits /\ exists p e b, from dbg false rayon (PcMarker, d, biter_new a) (p, e, b) /\ has_eob_runs e.
Proof.
  intros dbg rayon d a s Rd Ba Bs o o' NE NI.
  pose proof (decode_no_fuel dbg rayon d a Rd Ba) as NF.
  unfold o, o', decode in *. clear o o'.
  destruct (run dbg false rayon (run_fuel (biter_new a)) PcMarker d (biter_new a)) as [[d1 b1] r] eqn:E.
  cbn [snd] in *.
  assert (N1 : ~ is_need r) by (intros H; destruct r; try contradiction; apply NE; reflexivity).
  assert (N3 : r <> RPanic PFuel) by (intros ->; apply NF; reflexivity).
  destruct (run_final s _ _ _ _ _ _ _ _ _ _ E N1 N3) as [X|[-> H]]; [|right; right; split; [reflexivity|exact H]].
  change (ext s (biter_new a)) with (biter_new (a ++ s)) in X.
  assert (X2 : run dbg false rayon (run_fuel (biter_new (a ++ s))) PcMarker d (biter_new (a ++ s)) = (d1, ext s b1, r)).
  { rewrite <- X. apply run_more; [rewrite X; exact N3|]. unfold run_fuel, biter_new. cbn [bi_input]. rewrite app_length. lia. }
  rewrite X2. cbn [snd ext bi_input].
  destruct r as [img|e|p|e|p|]; try (left; reflexivity).
  - destruct (bi_input b1) as [|x l] eqn:Ei; [exfalso; exact (NI _ eq_refl)|]. left. reflexivity.
  - destruct (bi_input b1) as [|x l] eqn:Ei; [|left; reflexivity]. cbn [app]. destruct s as [|x s]; [left; reflexivity|]. right. left. split; [discriminate|]. split; [reflexivity|].
    destruct (run_error _ _ _ _ _ _ _ _ _ _ E) as [H|H]; rewrite H; [left|right]; reflexivity.
Qed.
