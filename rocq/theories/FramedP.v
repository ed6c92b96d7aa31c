(** Readers that fail now and then (C50), several images on one stream (C49). *)
From Verif Require Import Base SpecBits Biterator Types Decode SpecGlobal SpecStream GlobalP StreamP StreamP2 Tactics Framed SpecFramed.

(** ** The reader *)
Lemma session_det : forall dbg rerun rayon k buf evs l1 l2,
  session dbg rerun rayon k buf evs l1 -> session dbg rerun rayon k buf evs l2 -> l1 = l2.
Proof.
  intros dbg rerun rayon k buf evs l1 l2 H. revert l2. induction H as [k buf evs k' buf' evs' a E N|k buf evs k' buf' evs' l E S IH];
    intros l2 H2; inversion H2 as [? ? ? ? ? ? a2 E2 N2|? ? ? ? ? ? l' E2 S2]; subst; rewrite E in E2; inversion E2; subst; try congruence.
  f_equal. apply IH. exact S2.
Qed.

Definition ans (r : out (option (list Z))) : answer :=
  match r with Ok (Some img) => AImage img | Ok None => AIo | Fail e => AError e | Panic p => APanic p | UB => AUB end.

Lemma reader_stop : forall dbg rerun rayon k buf evs k' buf' r, codec_decode dbg rerun rayon k buf = (k', buf', r) -> r <> Ok None ->
  reader_call dbg rerun rayon k buf evs = (k', buf', evs, ans r).
Proof. intros dbg rerun rayon k buf evs k' buf' r E N. destruct evs; cbn [reader_call]; rewrite E; destruct r as [[img|]|e'|p|]; try reflexivity; congruence. Qed.
Lemma ans_io : forall r, r <> Ok None -> ans r <> AIo.
Proof. intros [[img|]|e|p|] N; cbn; congruence. Qed.

Lemma session_data : forall dbg rerun rayon k buf k1 buf1 c evs l, codec_decode dbg rerun rayon k buf = (k1, buf1, Ok None) ->
  session dbg rerun rayon k1 (buf1 ++ c) evs l -> session dbg rerun rayon k buf (Data c :: evs) l.
Proof.
  intros dbg rerun rayon k buf k1 buf1 c evs l E S.
  assert (R : reader_call dbg rerun rayon k buf (Data c :: evs) = reader_call dbg rerun rayon k1 (buf1 ++ c) evs) by (cbn [reader_call]; rewrite E; reflexivity).
  inversion S as [? ? ? ? ? ? a2 E2 N2|? ? ? ? ? ? l' E2 S2]; subst.
  - eapply session_last; [rewrite R; exact E2|exact N2].
  - eapply session_again; [rewrite R; exact E2|exact S2].
Qed.

Lemma feed_nil : forall dbg rerun rayon k buf cs k' buf' r, codec_feed dbg rerun rayon k buf ([] :: cs) = (k', buf', r) ->
  (exists k1 buf1, codec_decode dbg rerun rayon k buf = (k1, buf1, Ok None) /\ codec_feed dbg rerun rayon k1 buf1 cs = (k', buf', r)) \/
  (codec_decode dbg rerun rayon k buf = (k', buf', r) /\ r <> Ok None).
Proof.
  intros dbg rerun rayon k buf cs k' buf' r E. cbn [codec_feed] in E. rewrite app_nil_r in E.
  destruct (codec_decode dbg rerun rayon k buf) as [[k1 buf1] [[img|]|e|p|]] eqn:E1.
  all: try (right; inversion E; subst; split; [reflexivity|discriminate]). left. eauto.
Qed.

Lemma session_wait : forall dbg rerun rayon evs k buf k' buf' c rest k2 buf2 r,
  codec_feed dbg rerun rayon k buf ([] :: map chunk_of evs) = (k', buf', Ok None) ->
  codec_decode dbg rerun rayon k' (buf' ++ c) = (k2, buf2, r) -> r <> Ok None ->
  session dbg rerun rayon k buf (evs ++ Data c :: rest) (repeat AIo (io_errors evs) ++ [ans r]).
Proof.
  intros dbg rerun rayon evs. induction evs as [|e evs IH]; intros k buf k' buf' c rest k2 buf2 r F E N.
  - cbn [map] in F. apply feed_nil in F. destruct F as [[k1 [buf1 [E1 F]]]|[_ F]]; [|congruence]. cbn [codec_feed] in F. inversion F. subst k1 buf1.
    cbn [app io_errors filter length repeat]. eapply session_data; [exact E1|]. eapply session_last; [apply reader_stop; [exact E|exact N]|apply ans_io; exact N].
  - cbn [map] in F. apply feed_nil in F. destruct F as [[k1 [buf1 [E1 F]]]|[_ F]]; [|congruence]. destruct e as [c0|].
    + change (chunk_of (Data c0)) with c0 in F. change (io_errors (Data c0 :: evs)) with (io_errors evs). rewrite <- app_comm_cons.
      eapply session_data; [exact E1|]. apply (IH k1 (buf1 ++ c0) k' buf' c rest k2 buf2 r); [|exact E|exact N].
      cbn [codec_feed] in F |- *. rewrite app_nil_r. exact F.
    + change (chunk_of IoError) with (@nil Z) in F. change (io_errors (IoError :: evs)) with (S (io_errors evs)). rewrite <- app_comm_cons. cbn [repeat app].
      eapply session_again; [|apply (IH k1 buf1 k' buf' c rest k2 buf2 r); [exact F|exact E|exact N]].
      cbn [reader_call]. rewrite E1. reflexivity.
Qed.

Lemma session_stop : forall dbg rerun rayon evs k buf k' buf' r,
  codec_feed dbg rerun rayon k buf ([] :: map chunk_of evs) = (k', buf', r) -> r <> Ok None ->
  exists n, (n <= io_errors evs)%nat /\ session dbg rerun rayon k buf evs (repeat AIo n ++ [ans r]).
Proof.
  intros dbg rerun rayon evs. induction evs as [|e evs IH]; intros k buf k' buf' r F N.
  - cbn [map] in F. apply feed_nil in F. destruct F as [[k1 [buf1 [E1 F]]]|[F _]]; [cbn [codec_feed] in F; congruence|].
    exists 0%nat. split; [lia|]. cbn [repeat app]. eapply session_last; [apply reader_stop; [exact F|exact N]|apply ans_io; exact N].
  - cbn [map] in F. apply feed_nil in F. destruct F as [[k1 [buf1 [E1 F]]]|[F _]].
    + destruct e as [c0|].
      * change (chunk_of (Data c0)) with c0 in F. change (io_errors (Data c0 :: evs)) with (io_errors evs).
        destruct (IH k1 (buf1 ++ c0) k' buf' r) as [n [Hn S]]; [cbn [codec_feed] in F |- *; rewrite app_nil_r; exact F|exact N|].
        exists n. split; [exact Hn|]. eapply session_data; [exact E1|exact S].
      * change (chunk_of IoError) with (@nil Z) in F. change (io_errors (IoError :: evs)) with (S (io_errors evs)).
        destruct (IH k1 buf1 k' buf' r F N) as [n [Hn SS]]. exists (S n). split; [lia|]. cbn [repeat app].
        eapply session_again; [|exact SS]. cbn [reader_call]. rewrite E1. reflexivity.
    + exists 0%nat. split; [lia|]. cbn [repeat app]. eapply session_last; [apply reader_stop; [exact F|exact N]|apply ans_io; exact N].
Qed.

Lemma bytes_chunks : forall evs, bytes (delivered evs) -> Forall bytes ([] :: map chunk_of evs).
Proof.
  intros evs B. constructor; [constructor|]. unfold delivered in B. revert B. generalize (map chunk_of evs) as cs.
  induction cs as [|c cs IH]; intros B; [constructor|]. cbn [concat] in B. apply Forall_app in B. constructor; [apply B|]. apply IH. apply B.
Qed.
Lemma delivered_app : forall a b, delivered (a ++ b) = delivered a ++ delivered b.
Proof. intros a b. unfold delivered. rewrite map_app, concat_app. reflexivity. Qed.

Lemma retry_image : forall dbg rerun rayon evs c rest img answers, bytes (delivered evs ++ c) -> c <> [] ->
  decode_fresh dbg rayon (delivered evs ++ c) = Ok img ->
  no_eob_runs dbg rayon (delivered evs ++ c) -> rerun = false \/ no_restarts dbg rayon (delivered evs ++ c) ->
  session dbg rerun rayon codec_new [] (evs ++ Data c :: rest) answers <-> answers = repeat AIo (io_errors evs) ++ [AImage img].
Proof.
  intros dbg rerun rayon evs c rest img answers B Nc E NE U.
  assert (S : session dbg rerun rayon codec_new [] (evs ++ Data c :: rest) (repeat AIo (io_errors evs) ++ [AImage img])).
  { apply Forall_app in B. destruct B as [B1 B2]. pose proof (bytes_chunks evs B1) as BC.
    destruct (stream_prefix dbg rerun rayon (delivered evs ++ c) c ([] :: map chunk_of evs) img BC B2 Nc eq_refl E NE U) as [k1 [buf1 F1]].
    destruct (stream_image dbg rerun rayon (([] :: map chunk_of evs) ++ [c]) img) as [k2 F2].
    - apply Forall_app. split; [exact BC|]. constructor; [exact B2|constructor].
    - rewrite concat_app. cbn [concat app]. rewrite app_nil_r. exact E.
    - rewrite concat_app. cbn [concat app]. rewrite app_nil_r. exact NE.
    - rewrite concat_app. cbn [concat app]. rewrite app_nil_r. exact U.
    - rewrite feed_app, F1 in F2. cbn [codec_feed] in F2.
      destruct (codec_decode dbg rerun rayon k1 (buf1 ++ c)) as [[k3 buf3] r] eqn:E3.
      assert (r = Ok (Some img)) as -> by (destruct r as [[i|]|e|p|]; congruence).
      exact (session_wait dbg rerun rayon evs codec_new [] k1 buf1 c rest k3 buf3 _ F1 E3 ltac:(discriminate)). }
  split; [intros H; eapply session_det; [exact H|exact S]|intros ->; exact S].
Qed.
Lemma retry_error : forall dbg rerun rayon evs e, bytes (delivered evs) ->
  decode_fresh dbg rayon (delivered evs) = Fail e -> e <> EEof ->
  no_eob_runs dbg rayon (delivered evs) -> rerun = false \/ no_restarts dbg rayon (delivered evs) ->
  exists n, (n <= io_errors evs)%nat /\
    forall answers, session dbg rerun rayon codec_new [] evs answers <-> answers = repeat AIo n ++ [AError e].
Proof.
  intros dbg rerun rayon evs e B E N NE U.
  destruct (stream_error dbg rerun rayon ([] :: map chunk_of evs) e (bytes_chunks evs B) E N NE U) as [k [buf F]].
  destruct (session_stop dbg rerun rayon evs codec_new [] k buf (Fail e) F ltac:(discriminate)) as [n [Hn S]]. exists n. split; [exact Hn|].
  intros answers. split; [intros H; eapply session_det; [exact H|exact S]|intros ->; exact S].
Qed.
Lemma session_end : forall dbg rerun rayon evs k buf k' buf',
  codec_feed dbg rerun rayon k buf ([] :: map chunk_of evs) = (k', buf', Ok None) ->
  session dbg rerun rayon k buf evs (repeat AIo (io_errors evs) ++ [AError EEof]).
Proof.
  intros dbg rerun rayon evs. induction evs as [|e evs IH]; intros k buf k' buf' F.
  - cbn [map] in F. apply feed_nil in F. destruct F as [[k1 [buf1 [E1 F]]]|[_ F]]; [|congruence].
    cbn [app io_errors filter length repeat]. eapply session_last; [cbn [reader_call]; rewrite E1; reflexivity|discriminate].
  - cbn [map] in F. apply feed_nil in F. destruct F as [[k1 [buf1 [E1 F]]]|[_ F]]; [|congruence]. destruct e as [c0|].
    + change (chunk_of (Data c0)) with c0 in F. change (io_errors (Data c0 :: evs)) with (io_errors evs).
      eapply session_data; [exact E1|]. apply (IH k1 (buf1 ++ c0) k' buf').
      cbn [codec_feed] in F |- *. rewrite app_nil_r. exact F.
    + change (chunk_of IoError) with (@nil Z) in F. change (io_errors (IoError :: evs)) with (S (io_errors evs)). cbn [repeat app].
      eapply session_again; [|apply (IH k1 buf1 k' buf'); exact F]. cbn [reader_call]. rewrite E1. reflexivity.
Qed.
Lemma retry_truncated : forall dbg rerun rayon evs s img answers, bytes (delivered evs ++ s) -> s <> [] ->
  decode_fresh dbg rayon (delivered evs ++ s) = Ok img ->
  no_eob_runs dbg rayon (delivered evs ++ s) -> rerun = false \/ no_restarts dbg rayon (delivered evs ++ s) ->
  session dbg rerun rayon codec_new [] evs answers <-> answers = repeat AIo (io_errors evs) ++ [AError EEof].
Proof.
  intros dbg rerun rayon evs s img answers B Ns E NE U. apply Forall_app in B. destruct B as [B1 B2].
  destruct (stream_prefix dbg rerun rayon (delivered evs ++ s) s ([] :: map chunk_of evs) img (bytes_chunks evs B1) B2 Ns eq_refl E NE U) as [k1 [buf1 F1]].
  pose proof (session_end dbg rerun rayon evs codec_new [] k1 buf1 F1) as S.
  split; [intros H; eapply session_det; [exact H|exact S]|intros ->; exact S].
Qed.

(** ** Several images *)
Lemma frames_det : forall dbg rerun rayon next k buf cs l1 l2,
  frames dbg rerun rayon next k buf cs l1 -> frames dbg rerun rayon next k buf cs l2 -> l1 = l2.
Proof.
  intros dbg rerun rayon next k buf cs l1 l2 H. revert l2. induction H; intros l2 H2; inversion H2; subst; try congruence.
  - match goal with A : codec_decode _ _ _ _ _ = _, C : codec_decode _ _ _ _ _ = _ |- _ => rewrite A in C; inversion C; subst end. auto.
  - match goal with A : codec_decode _ _ _ _ _ = _, C : codec_decode _ _ _ _ _ = _ |- _ => rewrite A in C; inversion C; subst end. f_equal. auto.
Qed.

Lemma frames_feed : forall dbg rerun rayon next done k buf k1 b1 k0 buf0 c rest k2 buf2 img l,
  codec_decode dbg rerun rayon k buf = (k1, b1, Ok None) ->
  codec_feed dbg rerun rayon k1 b1 done = (k0, buf0, Ok None) ->
  codec_decode dbg rerun rayon k0 (buf0 ++ c) = (k2, buf2, Ok (Some img)) ->
  frames dbg rerun rayon next (next k2) buf2 rest l ->
  frames dbg rerun rayon next k buf (done ++ c :: rest) (AImage img :: l).
Proof.
  intros dbg rerun rayon next. induction done as [|x done IH]; intros k buf k1 b1 k0 buf0 c rest k2 buf2 img l E F D FR.
  - cbn [codec_feed] in F. inversion F. subst. cbn [app]. eapply frames_more; [exact E|]. eapply frames_image; [exact D|exact FR].
  - cbn [codec_feed] in F. destruct (codec_decode dbg rerun rayon k1 (b1 ++ x)) as [[k3 b3] r] eqn:E3.
    assert (r = Ok None) as -> by (destruct r as [[i|]|e|p|]; congruence).
    rewrite <- app_comm_cons. eapply frames_more; [exact E|]. eapply IH; [exact E3|exact F|exact D|exact FR].
Qed.

Lemma frames_fresh : forall dbg rerun rayon files imgs,
  Forall2 (fun f img => bytes f /\ decode_fresh dbg rayon f = Ok img /\ no_eob_runs dbg rayon f /\ (rerun = false \/ no_restarts dbg rayon f)) files imgs ->
  forall buf chunks, concat (buf :: chunks) = concat files ->
  frames dbg rerun rayon (fun _ => codec_new) codec_new buf chunks (map AImage imgs).
Proof.
  intros dbg rerun rayon files imgs H. induction H as [|f img files imgs [B [E [NE U]]] H IH]; intros buf chunks EC.
  - cbn [concat] in EC. apply app_eq_nil in EC. destruct EC as [-> EC]. cbn [map].
    revert EC. induction chunks as [|c chunks IHc]; intros EC; [eapply frames_end; reflexivity|].
    cbn [concat] in EC. apply app_eq_nil in EC. destruct EC as [-> EC]. eapply frames_more; [reflexivity|]. exact (IHc EC).
  - cbn [map concat] in *.
    assert (BF : bytes (concat (buf :: chunks))).
    { cbn [concat]. rewrite EC. apply Forall_app. split; [exact B|]. clear - H. induction H as [|f img files imgs [B _] H IH]; [constructor|]. cbn [concat]. apply Forall_app. auto. }
    assert (BC : Forall bytes (buf :: chunks)).
    { revert BF. generalize (buf :: chunks) as cs. induction cs as [|c cs IHc]; intros BF; [constructor|]. cbn [concat] in BF. apply Forall_app in BF. constructor; [apply BF|]. apply IHc. apply BF. }
    destruct (stream_tail dbg rerun rayon f (concat files) (buf :: chunks) img BC EC E NE U) as [done [c [rest [k0 [buf0 [k [buf' [E0 [F [D ER]]]]]]]]]].
    destruct done as [|x done].
    + cbn [app] in E0. inversion E0. subst c rest. cbn [codec_feed] in F. inversion F. subst k0 buf0. cbn [app] in D.
      eapply frames_image; [exact D|]. apply IH. exact ER.
    + rewrite <- app_comm_cons in E0. inversion E0. subst x chunks. cbn [codec_feed app] in F.
      destruct (codec_decode dbg rerun rayon codec_new buf) as [[k1 b1] r] eqn:E1.
      assert (r = Ok None) as -> by (destruct r as [[i|]|e|p|]; congruence).
      eapply frames_feed; [exact E1|exact F|exact D|]. apply IH. exact ER.
Qed.
Lemma fresh_codec : forall dbg rerun rayon files imgs chunks,
  Forall2 (fun f img => bytes f /\ decode_fresh dbg rayon f = Ok img /\ no_eob_runs dbg rayon f /\ (rerun = false \/ no_restarts dbg rayon f)) files imgs ->
  concat chunks = concat files ->
  forall answers, frames dbg rerun rayon (fun _ => codec_new) codec_new [] chunks answers <-> answers = map AImage imgs.
Proof.
  intros dbg rerun rayon files imgs chunks H E answers.
  pose proof (frames_fresh dbg rerun rayon files imgs H [] chunks E) as S.
  split; [intros HH; eapply frames_det; [exact HH|exact S]|intros ->; exact S].
Qed.
