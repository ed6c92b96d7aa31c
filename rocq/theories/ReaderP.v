(** What a reader reads (C82) and the images it gives one after another (C83). *)
From Verif Require Import Base SpecBits SpecReader SpecMarker SpecHuffman SpecBlock SpecTables SpecFrame SpecSegments SpecScan SpecPlane SpecFile SpecPieces Biterator Types Decode SpecGlobal SpecStream GlobalP StreamP StreamP2 PiecesP Tactics Framed SpecFramed FramedP SpecRepeat.

Section R.
Variables dbg rerun rayon : bool.
Notation call := (reader_call dbg rerun rayon).

(** A call takes its reads from the front, each only when all before it were not enough. *)
Lemma reads_needed : forall evs k buf k' buf' evs' a, call k buf evs = (k', buf', evs', a) ->
  exists used, evs = used ++ evs' /\
    (forall u v, used = u ++ v -> v <> [] -> snd (call k buf u) = AError EEof) /\
    ((evs' = [] /\ a = AError EEof) \/ forall others, call k buf (used ++ others) = (k', buf', others, a)).
Proof.
  intros evs. induction evs as [|e evs IH]; intros k buf k' buf' evs' a E.
  - exists []. destruct (codec_decode dbg rerun rayon k buf) as [[k1 b1] r] eqn:C. cbn [reader_call] in E. rewrite C in E.
    split; [|split].
    + destruct r as [[img|]|e|p|]; inversion E; reflexivity.
    + intros u v H. destruct u; [|discriminate]. destruct v; [congruence|discriminate].
    + destruct r as [[img|]|e|p|]; [right|left|right|right|right]; [| |..]; try (intros others; inversion E; subst; apply (reader_stop _ _ _ _ _ _ _ _ _ C); discriminate).
      inversion E. auto.
  - destruct (codec_decode dbg rerun rayon k buf) as [[k1 b1] r] eqn:C.
    assert (D : r = Ok None \/ r <> Ok None) by (destruct r as [[img|]|?|?|]; auto; right; discriminate).
    destruct D as [-> |N].
    + assert (first : snd (call k buf []) = AError EEof) by (cbn [reader_call]; rewrite C; reflexivity).
      destruct e as [c|].
      * cbn [reader_call] in E. rewrite C in E. destruct (IH _ _ _ _ _ _ E) as (used & E1 & E2 & E3).
        exists (Data c :: used). split; [cbn [app]; congruence|]. split.
        -- intros u v H NV. destruct u as [|e0 u]; [exact first|]. cbn [app] in H. injection H as H0 H1. subst e0. cbn [reader_call]. rewrite C. exact (E2 u v H1 NV).
        -- destruct E3 as [E3|E3]; [left; exact E3|right]. intros others. cbn [app reader_call]. rewrite C. apply E3.
      * cbn [reader_call] in E. rewrite C in E. inversion E. subst. exists [IoError]. split; [reflexivity|]. split.
        -- intros u v H NV. destruct u as [|e0 u]; [exact first|]. destruct u, v; try discriminate; congruence.
        -- right. intros others. cbn [app reader_call]. rewrite C. reflexivity.
    + rewrite (reader_stop dbg rerun rayon k buf (e :: evs) k1 b1 r C N) in E. inversion E. subst. exists []. split; [reflexivity|]. split.
      * intros u v H NV. destruct u; [|discriminate]. destruct v; [congruence|discriminate].
      * right. intros others. apply (reader_stop _ _ _ _ _ _ _ _ _ C N).
Qed.


(** Bytes are neither lost nor invented, and a reader may be called again after an image or an
    I/O error. *)
Lemma call_bytes : forall evs k buf k' buf' evs' a, Forall (fun e => bytes (chunk_of e)) evs ->
  streaming dbg rerun rayon k buf -> call k buf evs = (k', buf', evs', a) ->
  exists used dropped, evs = used ++ evs' /\ buf ++ delivered used = dropped ++ buf' /\
    ((exists img, a = AImage img) \/ a = AIo -> streaming dbg rerun rayon k' buf').
Proof.
  intros evs. induction evs as [|e evs IH]; intros k buf k' buf' evs' a B H E.
  all: destruct (codec_decode dbg rerun rayon k buf) as [[k1 b1] r] eqn:C.
  all: pose proof (codec_step_ok dbg rerun rayon k buf (streaming_ok _ _ _ _ _ H)) as SO; rewrite C in SO; destruct SO as (_ & (x & SX) & _).
  - exists [], x. unfold delivered. cbn [map concat]. rewrite app_nil_r. cbn [reader_call] in E. rewrite C in E.
    destruct r as [[img|]|?|?|]; inversion E; subst; (split; [reflexivity|]; split; [reflexivity|]; intros [[img0 Q]|Q]; try discriminate Q).
    eapply stream_call; [exact H|exact C].
  - assert (D : r = Ok None \/ r <> Ok None) by (destruct r as [[img|]|?|?|]; auto; right; discriminate).
    inversion B as [|? ? B1 B2]; subst. destruct D as [-> |N].
    + assert (H1 : streaming dbg rerun rayon k1 b1) by (eapply stream_call; [exact H|exact C]).
      destruct e as [c|]; cbn [reader_call] in E; rewrite C in E.
      * destruct (IH _ _ _ _ _ _ B2 (stream_more _ _ _ _ _ c H1 B1) E) as (used & dropped & E1 & E2 & E3).
        exists (Data c :: used), (x ++ dropped). split; [cbn [app]; congruence|]. split; [|exact E3].
        unfold delivered in *. cbn [map chunk_of concat]. rewrite <- !app_assoc in *. rewrite <- E2. reflexivity.
      * inversion E. subst. exists [IoError], x. split; [reflexivity|]. split; [unfold delivered; cbn [map chunk_of concat]; rewrite !app_nil_r; reflexivity|].
        intros _. exact H1.
    + rewrite (reader_stop dbg rerun rayon k _ (e :: evs) k1 b1 r C N) in E. inversion E. subst. exists [], x. unfold delivered. cbn [map concat]. rewrite app_nil_r.
      split; [reflexivity|]. split; [reflexivity|]. intros Q. destruct r as [o|?|?|]; [eapply stream_call; [exact H|exact C]|..].
      all: destruct Q as [[img Q]|Q]; discriminate Q.
Qed.

(** ** One image after another *)
Lemma repeated_det : forall k buf evs l1 l2, repeated dbg rerun rayon k buf evs l1 -> repeated dbg rerun rayon k buf evs l2 -> l1 = l2.
Proof.
  intros k buf evs l1 l2 H. revert l2. induction H as [k buf evs k' buf' evs' img l E S IH|k buf evs k' buf' evs' a E N]; intros l2 H2;
    inversion H2 as [? ? ? ? ? ? img2 l' E2 S2|? ? ? ? ? ? a2 E2 N2]; subst; rewrite E in E2; inversion E2; subst; try congruence.
  f_equal. apply IH. exact S2.
Qed.

Lemma call_data : forall k buf k1 buf1 c evs, codec_decode dbg rerun rayon k buf = (k1, buf1, Ok None) ->
  call k buf (Data c :: evs) = call k1 (buf1 ++ c) evs.
Proof. intros k buf k1 buf1 c evs E. cbn [reader_call]. rewrite E. reflexivity. Qed.
Lemma repeated_data : forall k buf k1 buf1 c evs l, codec_decode dbg rerun rayon k buf = (k1, buf1, Ok None) ->
  repeated dbg rerun rayon k1 (buf1 ++ c) evs l -> repeated dbg rerun rayon k buf (Data c :: evs) l.
Proof.
  intros k buf k1 buf1 c evs l E S. pose proof (call_data k buf k1 buf1 c evs E) as R. inversion S; subst.
  - eapply repeated_image; [rewrite R; eassumption|assumption].
  - eapply repeated_last; [rewrite R; eassumption|assumption].
Qed.

(** The reader answers as the framed stream does. *)
Lemma frames_repeated : forall k buf cs l, frames dbg rerun rayon (fun k => k) k buf cs l ->
  exists imgs e1 e2, l = map AImage imgs ++ e1 /\ repeated dbg rerun rayon k buf (map Data cs) (map AImage imgs ++ e2) /\
    same_end e1 e2 /\ length e2 = 1%nat /\ (forall img, ~ In (AImage img) e2).
Proof.
  intros k buf cs l H.
  induction H as [k buf k' E|k buf k' buf' E N|k buf k' buf' c cs l E F IH|k buf k' buf' cs img l E F IH|k buf k' buf' cs e E|k buf k' buf' cs p E|k buf k' buf' cs E].
  - exists [], [], [AError EEof]. split; [reflexivity|]. split; [|split; [right; auto|split; [reflexivity|intros img [Q|[]]; discriminate Q]]].
    eapply repeated_last; [cbn [map reader_call]; rewrite E; reflexivity|discriminate].
  - exists [], [AIo], [AError EEof]. split; [reflexivity|]. split; [|split; [right; auto|split; [reflexivity|intros img [Q|[]]; discriminate Q]]].
    eapply repeated_last; [cbn [map reader_call]; rewrite E; reflexivity|discriminate].
  - destruct IH as (imgs & e1 & e2 & E1 & E2 & E3). exists imgs, e1, e2. split; [exact E1|]. split; [|exact E3].
    cbn [map]. eapply repeated_data; [exact E|exact E2].
  - destruct IH as (imgs & e1 & e2 & E1 & E2 & E3). exists (img :: imgs), e1, e2. split; [cbn [map app]; congruence|]. split; [|exact E3].
    cbn [map app]. eapply repeated_image; [apply (reader_stop _ _ _ _ _ _ _ _ _ E); discriminate|exact E2].
  - exists [], [AError e], [AError e]. split; [reflexivity|]. split; [|split; [left; reflexivity|split; [reflexivity|intros img [Q|[]]; discriminate Q]]].
    eapply repeated_last; [apply (reader_stop _ _ _ _ _ _ _ _ _ E); discriminate|discriminate].
  - exists [], [APanic p], [APanic p]. split; [reflexivity|]. split; [|split; [left; reflexivity|split; [reflexivity|intros img [Q|[]]; discriminate Q]]].
    eapply repeated_last; [apply (reader_stop _ _ _ _ _ _ _ _ _ E); discriminate|discriminate].
  - exists [], [AUB], [AUB]. split; [reflexivity|]. split; [|split; [left; reflexivity|split; [reflexivity|intros img [Q|[]]; discriminate Q]]].
    eapply repeated_last; [apply (reader_stop _ _ _ _ _ _ _ _ _ E); discriminate|discriminate].
Qed.

(** A framed stream always comes to an end: every image uses up bytes. *)
Lemma frames_total : forall n cs k buf, (length cs + length (buf ++ concat cs) < n)%nat -> Forall bytes cs -> streaming dbg rerun rayon k buf ->
  exists l, frames dbg rerun rayon (fun k => k) k buf cs l.
Proof.
  induction n as [|n IH]; intros cs k buf L B H; [lia|].
  destruct (codec_decode dbg rerun rayon k buf) as [[k1 b1] r] eqn:C.
  pose proof (codec_step_ok dbg rerun rayon k buf (streaming_ok _ _ _ _ _ H)) as SO. rewrite C in SO. destruct SO as (_ & (x & SX) & _).
  destruct r as [[img|]|e|p|].
  - destruct (image_at_eoi dbg rerun rayon _ _ _ _ _ H C) as [pre Q]. destruct (IH cs k1 b1) as [l F].
    + rewrite Q in L. rewrite !app_length in *. cbn [length] in L. lia.
    + exact B.
    + eapply stream_call; [exact H|exact C].
    + eexists. eapply frames_image; [exact C|exact F].
  - destruct cs as [|c cs].
    + destruct b1; [eexists; eapply frames_end; exact C|eexists; eapply frames_left; [exact C|discriminate]].
    + inversion B as [|? ? B1 B2]; subst. destruct (IH cs k1 (b1 ++ c)) as [l F].
      * rewrite !app_length in *. cbn [length concat] in L. rewrite app_length in L. lia.
      * exact B2.
      * apply stream_more; [eapply stream_call; [exact H|exact C]|exact B1].
      * eexists. eapply frames_more; [exact C|exact F].
  - eexists. eapply frames_error. exact C.
  - eexists. eapply frames_panic. exact C.
  - eexists. eapply frames_ub. exact C.
Qed.
Lemma framed_as_read : forall k buf cs, Forall bytes cs -> streaming dbg rerun rayon k buf ->
  exists imgs e1 e2, same_end e1 e2 /\
    (forall l, frames dbg rerun rayon (fun k => k) k buf cs l <-> l = map AImage imgs ++ e1) /\
    (forall l, repeated dbg rerun rayon k buf (map Data cs) l <-> l = map AImage imgs ++ e2) /\
    length e2 = 1%nat /\ (forall img, ~ In (AImage img) e2).
Proof.
  intros k buf cs B H. destruct (frames_total _ cs k buf (Nat.lt_succ_diag_r _) B H) as [l F].
  destruct (frames_repeated _ _ _ _ F) as (imgs & e1 & e2 & -> & R & SE & X). exists imgs, e1, e2. split; [exact SE|]. split; [|split; [|exact X]].
  - intros l. split; [intros F2; eapply frames_det; [exact F2|exact F]|intros ->; exact F].
  - intros l. split; [intros F2; eapply repeated_det; [exact F2|exact R]|intros ->; exact R].
Qed.

(** ** The reads of one file *)
Lemma feed_call : forall done k buf k0 buf0 c rest k2 buf2 r,
  codec_feed dbg rerun rayon k buf ([] :: done) = (k0, buf0, Ok None) ->
  codec_decode dbg rerun rayon k0 (buf0 ++ c) = (k2, buf2, r) -> r <> Ok None ->
  call k buf (map Data (done ++ c :: rest)) = (k2, buf2, map Data rest, ans r).
Proof.
  intros done. induction done as [|c0 done IH]; intros k buf k0 buf0 c rest k2 buf2 r F E N;
    apply feed_nil in F; destruct F as [(k1 & b1 & E1 & F)|[_ F]]; try congruence.
  - cbn [codec_feed] in F. inversion F. subst. cbn [app map]. rewrite (call_data _ _ _ _ _ _ E1). apply (reader_stop _ _ _ _ _ _ _ _ _ E N).
  - cbn [app map]. rewrite (call_data _ _ _ _ _ _ E1). apply (IH k1 (b1 ++ c0) k0 buf0); auto.
    cbn [codec_feed] in F |- *. rewrite app_nil_r. exact F.
Qed.

(** All reads but the last one used end inside the file. *)
Lemma image_reads : forall file s chunks img, Forall bytes chunks -> concat chunks = file ++ s ->
  decode_fresh dbg rayon file = Ok img -> no_eob_runs dbg rayon file -> rerun = false \/ no_restarts dbg rayon file ->
  exists done c rest k buf, chunks = done ++ c :: rest /\ (length (concat done) < length file)%nat /\
    call codec_new [] (map Data chunks) = (k, buf, map Data rest, AImage img) /\ buf ++ concat rest = s.
Proof.
  intros file s chunks img B EC D NE NR. destruct (stream_tail dbg rerun rayon file s chunks img B EC D NE NR) as (done & c & rest & k0 & buf0 & k & buf & E1 & E2 & E3 & E4).
  exists done, c, rest, k, buf. split; [exact E1|]. split; [|split; [|exact E4]].
  - destruct (le_lt_dec (length file) (length (concat done))) as [L|L]; [exfalso|exact L].
    assert (Bd : Forall bytes done) by (rewrite E1 in B; apply Forall_app in B; apply B).
    assert (Ed : concat done = file ++ skipn (length file) (concat done)).
    { rewrite <- (firstn_skipn (length file) (concat done)) at 1. f_equal.
      rewrite E1, concat_app in EC. apply (f_equal (firstn (length file))) in EC. rewrite firstn_app, firstn_app, firstn_all in EC.
      replace (length file - length (concat done))%nat with 0%nat in EC by lia. rewrite Nat.sub_diag in EC. cbn [firstn] in EC. rewrite !app_nil_r in EC. exact EC. }
    destruct (stream_tail dbg rerun rayon file _ done img Bd Ed D NE NR) as (d2 & c2 & r2 & k3 & b3 & k4 & b4 & F1 & F2 & F3 & _).
    rewrite F1, (feed_done _ _ _ _ _ _ _ _ _ _ _ _ _ F2 F3) in E2; discriminate.
  - rewrite E1. apply (feed_call done codec_new [] k0 buf0 c rest k buf (Ok (Some img))); [|exact E3|discriminate].
    cbn [codec_feed app codec_decode]. exact E2.
Qed.
Lemma file_reads : forall segs h fill1 fill2 ss ts qs ms data post fill3 s chunks,
  encodes segs h ss ts qs ms data -> post_ok post ->
  let file := file_bytes segs fill1 fill2 (mkSpS ss 0 63 0 0) data post fill3 in
  sequential_tables (segs ++ post) -> rerun = false \/ no_intervals (segs ++ post) -> Forall bytes chunks -> concat chunks = file ++ s ->
  exists done c rest k buf, chunks = done ++ c :: rest /\ (length (concat done) < length file)%nat /\
    call codec_new [] (map Data chunks) = (k, buf, map Data rest, answered (decode_fresh dbg rayon file)) /\
    ((forall p, decode_fresh dbg rayon file <> Panic p) -> buf ++ concat rest = s).
Proof.
  intros segs h fill1 fill2 ss ts qs ms data post fill3 s chunks En PO file Sq Ni B EC.
  destruct (pieces_tail dbg rerun rayon segs h fill1 fill2 ss ts qs ms data post fill3 s chunks En PO Sq Ni B EC)
    as (done & c & rest & k0 & buf0 & k & buf & E1 & E2 & E3 & (l & E4 & E5) & E6). fold file in E3, E5, E6.
  exists done, c, rest, k, buf. split; [exact E1|]. split; [|split].
  - destruct (le_lt_dec (length file) (length (concat done))) as [L|L]; [exfalso|exact L].
    assert (Bd : Forall bytes done) by (rewrite E1 in B; apply Forall_app in B; apply B).
    assert (Ed : concat done = file ++ skipn (length file) (concat done)).
    { rewrite <- (firstn_skipn (length file) (concat done)) at 1. f_equal.
      rewrite E1, concat_app in EC. apply (f_equal (firstn (length file))) in EC. rewrite firstn_app, firstn_app, firstn_all in EC.
      replace (length file - length (concat done))%nat with 0%nat in EC by lia. rewrite Nat.sub_diag in EC. cbn [firstn] in EC. rewrite !app_nil_r in EC. exact EC. }
    destruct (pieces_tail dbg rerun rayon segs h fill1 fill2 ss ts qs ms data post fill3 _ done En PO Sq Ni Bd Ed)
      as (d2 & c2 & r2 & k3 & b3 & k4 & b4 & F1 & F2 & F3 & _ & F6). fold file in F3, F6.
    rewrite F1, (feed_done _ _ _ _ _ _ _ _ _ _ _ _ _ F2 F3 F6) in E2. congruence.
  - assert (A : ans (lift (decode_fresh dbg rayon file)) = answered (decode_fresh dbg rayon file)) by (destruct (decode_fresh dbg rayon file); reflexivity).
    rewrite E1, <- A. apply (feed_call done codec_new [] k0 buf0 c rest k buf _); [|exact E3|exact E6].
    cbn [codec_feed app codec_decode]. exact E2.
  - intros NP. rewrite <- (E5 NP). exact E4.
Qed.
End R.
