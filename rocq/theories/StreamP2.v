(** Decoding in pieces, continued: whole calls, the codec and the blocking reader. *)
From Verif Require Import Base Tactics SpecBits Biterator Huffman HuffmanP3 Marker Types Parsers Decode SpecGlobal SpecStream ExtP StreamP InvP GlobalP.
From Verif Require Import Marker SpecMarker MarkerP.

(** ** Runs without fuel *)
Definition runs_to (dbg rerun rayon : bool) (c : pc * decoder * biter) (W : decoder * biter * res) : Prop :=
  exists fuel, (let '(p, d, b) := c in run dbg rerun rayon fuel p d b = W) /\ snd W <> RPanic PFuel.

Lemma runs_det : forall dbg rerun rayon c W W', runs_to dbg rerun rayon c W -> runs_to dbg rerun rayon c W' -> W = W'.
Proof.
  intros dbg rerun rayon [[p d] b] W W' [f [E N]] [f' [E' N']]. subst. 
  destruct (Nat.le_ge_cases f f') as [L|L]; [symmetry|]; apply run_more; auto.
Qed.
Lemma runs_next : forall dbg rerun rayon p d b p' d' b' W, step dbg rerun rayon p d b = (d', b', SNext p') ->
  (runs_to dbg rerun rayon (p, d, b) W <-> runs_to dbg rerun rayon (p', d', b') W).
Proof.
  intros dbg rerun rayon p d b p' d' b' W SE. split; intros [f [E N]].
  - destruct f as [|f]; [cbn in E; subst; cbn in N; congruence|]. cbn [run] in E. rewrite SE in E. exists f. auto.
  - exists (S f). cbn [run]. rewrite SE. auto.
Qed.
Lemma runs_stop : forall dbg rerun rayon p d b d' b' r W, step dbg rerun rayon p d b = (d', b', SStop r) ->
  runs_to dbg rerun rayon (p, d, b) W -> W = (d', b', r).
Proof.
  intros dbg rerun rayon p d b d' b' r W S [f [E N]]. destruct f as [|f]; [cbn in E; subst; cbn in N; congruence|].
  cbn [run] in E. rewrite S in E. congruence.
Qed.
Lemma runs_step_eq : forall dbg rerun rayon p d b p' d' b' W,
  step dbg rerun rayon p d b = step dbg rerun rayon p' d' b' ->
  runs_to dbg rerun rayon (p, d, b) W -> runs_to dbg rerun rayon (p', d', b') W.
Proof.
  intros dbg rerun rayon p d b p' d' b' W S [f [E N]]. destruct f as [|f]; [cbn in E; subst; cbn in N; congruence|].
  exists (Datatypes.S f). cbn [run] in *. rewrite <- S. auto.
Qed.

Lemma from_moves : forall dbg rerun rayon c c1 c2, moves dbg rerun rayon c1 c -> from dbg rerun rayon c1 c2 -> from dbg rerun rayon c c2.
Proof.
  intros dbg rerun rayon c c1 c2 M F. induction F as [|x y F IH My].
  - eapply from_next; [apply from_here|exact M].
  - eapply from_next; [exact IH|exact My].
Qed.
Lemma from_step_eq : forall dbg rerun rayon p d b p' d' b' c,
  step dbg rerun rayon p d b = step dbg rerun rayon p' d' b' ->
  from dbg rerun rayon (p', d', b') c -> c = (p', d', b') \/ from dbg rerun rayon (p, d, b) c.
Proof.
  intros dbg rerun rayon p d b p' d' b' c S F. induction F as [|x y F IH M]; [left; reflexivity|right].
  destruct IH as [->|IH].
  - eapply from_next; [apply from_here|]. destruct y as [[q e] c]. cbn [moves] in *. rewrite S. exact M.
  - eapply from_next; [exact IH|exact M].
Qed.

Lemma next_not_restart : forall dbg rerun rayon p d b d' b' p', step dbg rerun rayon p d b = (d', b', SNext p') -> ~ in_restart p'.
Proof.
  intros dbg rerun rayon p d b d' b' p' E. destruct p as [|m|final todo ph]; cbn [step] in E.
  - destruct (parse_marker (bi_input b)) as [[m rest]|e|q|]; try discriminate.
    + destruct m; try (inv E; exact (fun x => x)). destruct (upsample_image dbg rayon d); discriminate.
    + destruct e; discriminate.
  - destruct (no_segment m); [inv E; exact (fun x => x)|].
    destruct (segment_data dbg (bi_input b)) as [[data rest]|e|q|]; try discriminate; [|destruct e; discriminate].
    assert (SG : forall d1 b1 r, seg_end m d1 b1 r = (d', b', SNext p') -> ~ in_restart p').
    { intros d1 b1 r H. destruct r as [u|e|q|]; cbn [seg_end] in H; try discriminate; [inv H; exact (fun x => x)|destruct e; discriminate]. }
    destruct m; try (destruct (seg_payload dbg _ d data) as [d1 r]; eapply SG; exact E).
    unfold do_sos in E. destruct (sos_segment (d_frame d) data) as [[sc i]|e|q|]; try discriminate; [|destruct e; discriminate].
    destruct (sos_begin dbg d sc) as [d1 [final|e|q|]]; try discriminate. destruct (scan_init final d1); try discriminate. inv E. exact (fun x => x).
  - destruct (scan_loop dbg rerun final todo ph d b) as [[d1 b1] r]. destruct r; try discriminate.
    destruct (scan_finish d1); try discriminate. inv E. exact (fun x => x).
Qed.

(** ** One call on a prefix of the input *)
Definition is_need (r : res) : Prop := match r with RNeed _ => True | _ => False end.
(** Restart markers cannot be cut badly. *)
Definition uncut (dbg rerun rayon : bool) (p : pc) (d : decoder) (b : biter) : Prop :=
  rerun = false \/ ~ in_restart p /\ forall q e c, from dbg rerun rayon (p, d, b) (q, e, c) -> d_restart e = 0.
Lemma call_ext : forall s dbg rerun rayon W, ~ is_need (snd W) -> forall fuel p d b d' b' r,
  run dbg rerun rayon fuel p d b = (d', b', r) -> r <> RPanic PFuel ->
  runs_to dbg rerun rayon (p, d, ext s b) W -> uncut dbg rerun rayon p d (ext s b) ->
  (r = RFail EOutOfBits /\ exists q e c, from dbg rerun rayon (p, d, ext s b) (q, e, c) /\ has_eob_runs e) \/
  (exists p', r = RNeed p' /\ runs_to dbg rerun rayon (p', d', ext s b') W /\ uncut dbg rerun rayon p' d' (ext s b') /\
     step dbg rerun rayon p' d' b' = (d', b', SStop (RNeed p')) /\
     (forall q e c, from dbg rerun rayon (p', d', ext s b') (q, e, c) ->
        exists q0 e0 c0, from dbg rerun rayon (p, d, ext s b) (q0, e0, c0) /\ kin e0 e)) \/
  (~ is_need r /\ W = (d', ext s b', r)).
Proof.
  intros s dbg rerun rayon W ST. induction fuel as [|fuel IH]; intros p d b d' b' r E N RW U; [cbn in E; congruence|].
  cbn [run] in E. destruct (step dbg rerun rayon p d b) as [[d1 b1] R] eqn:SE.
  pose proof (step_ext s _ _ _ _ _ _ _ _ _ SE) as X. destruct R as [p1|r1].
  - apply (runs_next _ _ _ _ _ _ _ _ _ W) in X as RN. apply RN in RW.
    assert (FM : forall c, from dbg rerun rayon (p1, d1, ext s b1) c -> from dbg rerun rayon (p, d, ext s b) c).
    { intros c F. eapply from_moves; [|exact F]. exact X. }
    assert (U1 : uncut dbg rerun rayon p1 d1 (ext s b1)).
    { destruct U as [U|[U1 U2]]; [left; exact U|right]. split; [eapply next_not_restart; exact SE|]. intros q e c F. eapply U2. apply FM. exact F. }
    destruct (IH _ _ _ _ _ _ E N RW U1) as [[H1 [q [e [c [H2 H3]]]]]|[[p' [H1 [H2 [H3 [H4 H5]]]]]|H]].
    + left. split; [exact H1|]. exists q, e, c. auto.
    + right. left. exists p'. splits; auto. intros q e c F. destruct (H5 q e c F) as [q0 [e0 [c0 [F0 K]]]]. exists q0, e0, c0. auto.
    + right. right. exact H.
  - inversion E. subst d1 b1 r1. clear E.
    assert (FIN : ~ is_need r -> step dbg rerun rayon p d (ext s b) = (d', ext s b', SStop r) -> ~ is_need r /\ W = (d', ext s b', r)).
    { intros H Y. split; [exact H|]. eapply runs_stop; [exact Y|exact RW]. }
    destruct r as [img|e|p'|e|q|]; try (right; right; apply FIN; [exact (fun x => x)|exact X]).
    + right. left. exists p'. destruct X as [[K [X1 X2]]|[[m [-> ->]] X]].
      * assert (UP : rerun = false \/ ~ in_restart p' /\ d_restart d = 0).
        { destruct U as [U|[U1 U2]]; [left; exact U|right]. pose proof (U2 _ _ _ (from_here _ _ _ _)) as D0. split; [|exact D0].
          intros H. destruct (X2 H) as [H2|H2]; [exact (U1 H2)|lia]. }
        destruct X1 as [X1 X3]; [tauto|].
        assert (FF : forall q e c, from dbg rerun rayon (p', d', ext s b') (q, e, c) ->
           exists q0 e0 c0, from dbg rerun rayon (p, d, ext s b) (q0, e0, c0) /\ kin e0 e).
        { intros q e c F. destruct (from_step_eq _ _ _ _ _ _ _ _ _ _ X1 F) as [G|G].
          - inv G. exists p, d, (ext s b). split; [apply from_here|exact K].
          - exists q, e, c. split; [exact G|apply kin_refl]. }
        splits; auto.
        -- eapply runs_step_eq; [exact X1|exact RW].
        -- destruct U as [->|[U1 U2]]; [left; reflexivity|]. destruct UP as [->|[UP1 UP2]]; [left; reflexivity|right].
           split; [exact UP1|]. intros q e c F. destruct (FF _ _ _ F) as [q0 [e0 [c0 [F0 K0]]]].
           rewrite (kin_restart _ _ K0). eapply U2; exact F0.
      * pose proof (runs_stop _ _ _ _ _ _ _ _ _ _ X RW) as ->. exfalso. apply ST. exact I.
    + destruct e; try (right; right; apply FIN; [exact (fun x => x)|exact X]).
      destruct X as [X|X]; [left|right; right; apply FIN; [exact (fun x => x)|exact X]].
      split; [reflexivity|]. exists p, d, (ext s b). split; [apply from_here|exact X].
Qed.

(** ** The codec *)
Definition answer (r : res) : out (option (list Z)) :=
  match r with
  | RImage img => Ok (Some img)
  | RNeed _ => Ok None
  | RError e | RFail e => Fail e
  | RPanic p => Panic p
  | RUB => UB
  end.
Definition conf (k : codec) (buf : list Z) : pc * decoder * biter := (k_pc k, k_dec k, mkBiter buf (k_bits k) (k_count k)).
Definition waiting (dbg rerun rayon : bool) (k : codec) (buf : list Z) : Prop :=
  let b := mkBiter buf (k_bits k) (k_count k) in
  step dbg rerun rayon (k_pc k) (k_dec k) b = (k_dec k, b, SStop (RNeed (k_pc k))).

Lemma codec_ok_more : forall k buf c, codec_ok k buf -> bytes c -> codec_ok k (buf ++ c).
Proof. intros k buf c [K [P [R B]]] C. split; auto. split; auto. split; [exact R|]. cbn. apply Forall_app. split; auto. Qed.

Lemma codec_call : forall dbg rerun rayon k x buf, codec_ok k (x :: buf) ->
  exists d b r, runs_to dbg rerun rayon (conf k (x :: buf)) (d, b, r) /\ 
    run dbg rerun rayon (run_fuel (mkBiter (x :: buf) (k_bits k) (k_count k))) (k_pc k) (k_dec k) (mkBiter (x :: buf) (k_bits k) (k_count k)) = (d, b, r) /\
    r <> RPanic PFuel /\
    codec_decode dbg rerun rayon k (x :: buf) =
      (mkCodec d (match r with RNeed p => p | _ => PcMarker end) (bi_bits b) (bi_count b),
       match r with RImage _ | RError _ | RNeed _ => bi_input b | _ => x :: buf end, answer r).
Proof.
  intros dbg rerun rayon k x buf OK. pose proof (codec_run dbg rerun rayon k _ OK) as P. cbv zeta in P. unfold codec_decode.
  destruct (run dbg rerun rayon (run_fuel (mkBiter (x :: buf) (k_bits k) (k_count k))) (k_pc k) (k_dec k) (mkBiter (x :: buf) (k_bits k) (k_count k))) as [[d b] r] eqn:E.
  assert (N : r <> RPanic PFuel) by (intros ->; apply P).
  exists d, b, r. splits; auto.
  - eexists. split; [exact E|exact N].
  - destruct r; reflexivity.
Qed.

Lemma feed_app : forall dbg rerun rayon a c k buf,
  codec_feed dbg rerun rayon k buf (a ++ c) =
  match codec_feed dbg rerun rayon k buf a with (k', buf', Ok None) => codec_feed dbg rerun rayon k' buf' c | x => x end.
Proof.
  intros dbg rerun rayon. induction a as [|x a IH]; intros c k buf; [reflexivity|]. cbn [app codec_feed].
  destruct (codec_decode dbg rerun rayon k (buf ++ x)) as [[k1 buf1] [[img|]|e|p|]]; try reflexivity. apply IH.
Qed.

Lemma feed_ext : forall dbg rerun rayon dW bW rW, ~ is_need rW -> forall chunks k buf,
  codec_ok k buf -> Forall bytes chunks -> waiting dbg rerun rayon k buf ->
  runs_to dbg rerun rayon (conf k (buf ++ concat chunks)) (dW, bW, rW) ->
  uncut dbg rerun rayon (k_pc k) (k_dec k) (mkBiter (buf ++ concat chunks) (k_bits k) (k_count k)) ->
  (forall q e c, from dbg rerun rayon (conf k (buf ++ concat chunks)) (q, e, c) -> ~ has_eob_runs e) ->
  exists done c rest k0 buf0 buf', chunks = done ++ c :: rest /\
    codec_feed dbg rerun rayon k buf done = (k0, buf0, Ok None) /\
    codec_decode dbg rerun rayon k0 (buf0 ++ c) = (mkCodec dW PcMarker (bi_bits bW) (bi_count bW), buf', answer rW) /\
    match rW with RImage _ | RError _ => buf' ++ concat rest = bi_input bW | _ => exists l, l ++ concat rest = bi_input bW end.
Proof.
  intros dbg rerun rayon dW bW rW NW. induction chunks as [|c chunks IH]; intros k buf OK By WT RW U NE.
  - cbn [concat] in RW. rewrite app_nil_r in RW. pose proof (runs_stop _ _ _ _ _ _ _ _ _ _ WT RW) as H. inversion H. subst. exfalso. apply NW. exact I.
  - cbn [concat] in RW, U, NE. inversion By as [|? ? Bc Bs]; subst. rewrite app_assoc in RW, U, NE.
    pose proof (codec_ok_more _ _ c OK Bc) as OK1. destruct (buf ++ c) as [|x buf1] eqn:EB.
    + destruct (app_eq_nil _ _ EB) as [-> ->]. destruct (IH k [] OK Bs WT RW U NE) as [done [c1 [rest [k0 [buf0 [buf' [E1 [E2 E3]]]]]]]].
      exists ([] :: done), c1, rest, k0, buf0, buf'. split; [cbn; congruence|]. split; [|exact E3]. cbn [codec_feed app codec_decode]. exact E2.
    + destruct (codec_call dbg rerun rayon k x buf1 OK1) as [d1 [b1 [r1 [_ [E [N CD]]]]]].
      destruct (call_ext (concat chunks) dbg rerun rayon (dW, bW, rW) NW _ _ _ _ _ _ _ E N RW U) as [[H1 [q [e [c0 [H2 H3]]]]]|[[p' [H1 [H2 [H3 [H4 H5]]]]]|[H1 H2]]].
      * exfalso. exact (NE _ _ _ H2 H3).
      * subst r1. cbn [answer] in CD.
        set (k1 := mkCodec d1 p' (bi_bits b1) (bi_count b1)) in *.
        assert (OK2 : codec_ok k1 (bi_input b1)).
        { pose proof (codec_step_ok dbg rerun rayon k (x :: buf1) OK1) as S. rewrite CD in S. apply S. }
        assert (WT2 : waiting dbg rerun rayon k1 (bi_input b1)) by (unfold waiting; destruct b1; exact H4).
        assert (NE2 : forall q e c, from dbg rerun rayon (conf k1 (bi_input b1 ++ concat chunks)) (q, e, c) -> ~ has_eob_runs e).
        { intros q e c0 F HE. destruct (H5 q e c0 F) as [q0 [e0 [c1 [F0 K]]]]. apply (NE _ _ _ F0). eapply has_eob_kin; eauto. }
        destruct (IH k1 (bi_input b1) OK2 Bs WT2 H2 H3 NE2) as [done [c1 [rest [k0 [buf0 [buf' [E1 [E2 E3]]]]]]]].
        exists (c :: done), c1, rest, k0, buf0, buf'. split; [cbn; congruence|]. split; [|exact E3]. cbn [codec_feed]. rewrite EB, CD. exact E2.
      * exists [], c, chunks, k, buf. inversion H2. subst dW bW rW.
        exists (match r1 with RImage _ | RError _ | RNeed _ => bi_input b1 | _ => x :: buf1 end). split; [reflexivity|].
        split; [reflexivity|]. cbn [ext bi_bits bi_count bi_input]. rewrite EB, CD.
        destruct r1; try (exfalso; apply H1; exact I); cbn [answer]; (split; [reflexivity|]); first [reflexivity|exists (bi_input b1); reflexivity].
Qed.

(** ** From one-shot decoding *)
Lemma step_rerun : forall dbg rayon p d b, ~ in_restart p -> forall rerun, step dbg rerun rayon p d b = step dbg false rayon p d b.
Proof.
  intros dbg rayon p d b N rerun. destruct p as [|m|final todo [|]]; [reflexivity|reflexivity| |exfalso; apply N; exact I].
  cbn [step]. replace (scan_loop dbg rerun final todo PhRow d b) with (scan_loop dbg false final todo PhRow d b); [reflexivity|].
  clear N. revert d b. induction todo as [|[y x] todo IH]; intros d b; [reflexivity|]. cbn [scan_loop].
  destruct (decode_row dbg d b) as [[d1 b1]|[]|q|]; try reflexivity. destruct (restart_check dbg x y d1) as [[need d2]|e|q|]; try reflexivity.
  destruct (if need then restart_marker d2 b1 else Ok (d2, b1)) as [[d3 b3]|[]|q|]; try reflexivity.
  destruct (if final then dequantize dbg x y d3 else Ok d3); try reflexivity. apply IH.
Qed.
Lemma run_rerun : forall dbg rayon rerun fuel p d b, ~ in_restart p -> run dbg rerun rayon fuel p d b = run dbg false rayon fuel p d b.
Proof.
  intros dbg rayon rerun. induction fuel as [|fuel IH]; intros p d b N; [reflexivity|]. cbn [run]. rewrite (step_rerun _ _ _ _ _ N).
  destruct (step dbg false rayon p d b) as [[d' b'] [p'|r]] eqn:E; [|reflexivity]. apply IH. eapply next_not_restart; exact E.
Qed.
Lemma from_rerun : forall dbg rayon rerun c p d b, (let '(q, _, _) := c in ~ in_restart q) -> from dbg rerun rayon c (p, d, b) ->
  from dbg false rayon c (p, d, b) /\ ~ in_restart p.
Proof.
  intros dbg rayon rerun c p d b N F. remember (p, d, b) as c2 eqn:E2. revert p d b E2. induction F as [|c1 c2 F IH M]; intros p d b ->.
  - split; [apply from_here|exact N].
  - destruct c1 as [[p1 d1] b1]. destruct (IH p1 d1 b1 eq_refl) as [F1 N1]. cbn [moves] in M. rewrite (step_rerun _ _ _ _ _ N1) in M.
    split; [eapply from_next; [exact F1|exact M]|eapply next_not_restart; exact M].
Qed.

Lemma run_ext_done : forall s dbg rerun rayon fuel p d b d' b' r, run dbg rerun rayon fuel p d b = (d', b', r) ->
  ~ is_need r -> r <> RFail EOutOfBits -> r <> RPanic PFuel -> run dbg rerun rayon fuel p d (ext s b) = (d', ext s b', r).
Proof.
  intros s dbg rerun rayon. induction fuel as [|fuel IH]; intros p d b d' b' r E N1 N2 N3; [cbn in E; inv E; congruence|].
  cbn [run] in *. destruct (step dbg rerun rayon p d b) as [[d1 b1] R] eqn:SE. pose proof (step_ext s _ _ _ _ _ _ _ _ _ SE) as X.
  destruct R as [p1|r1].
  - rewrite X. apply IH; auto.
  - inversion E. subst. destruct r as [img|e|q|e|q|]; try (rewrite X; reflexivity); [exfalso; apply N1; exact I|].
    destruct e; try (rewrite X; reflexivity). congruence.
Qed.

(** What a successful or failing one-shot decode means for the run. *)
Lemma decode_image : forall dbg rayon d input img, snd (decode dbg rayon d input) = Ok img ->
  exists d' b', run dbg false rayon (run_fuel (biter_new input)) PcMarker d (biter_new input) = (d', b', RImage img) /\ bi_input b' = [].
Proof.
  intros dbg rayon d input img E. unfold decode in E. cbv zeta in E.
  destruct (run dbg false rayon (run_fuel (biter_new input)) PcMarker d (biter_new input)) as [[d' b'] r]. cbn [snd] in E.
  destruct r; try discriminate; destruct (bi_input b') eqn:EI; try discriminate. inv E. eauto.
Qed.
Lemma decode_fail : forall dbg rayon d input e, snd (decode dbg rayon d input) = Fail e -> e <> EEof ->
  exists d' b' r, run dbg false rayon (run_fuel (biter_new input)) PcMarker d (biter_new input) = (d', b', r) /\ (r = RFail e \/ r = RError e).
Proof.
  intros dbg rayon d input e E N. unfold decode in E. cbv zeta in E.
  destruct (run dbg false rayon (run_fuel (biter_new input)) PcMarker d (biter_new input)) as [[d' b'] r]. cbn [snd] in E.
  destruct r; try discriminate; try (destruct (bi_input b'); try discriminate); inv E; try congruence; eauto 10.
Qed.

Lemma start_waiting : forall dbg rerun rayon, waiting dbg rerun rayon codec_new [].
Proof. reflexivity. Qed.
Lemma start_ok : codec_ok codec_new [].
Proof. split; [apply default_ok|]. split; [exact I|]. apply (good_start []). constructor. Qed.

Lemma uncut_start : forall dbg rerun rayon input, rerun = false \/ no_restarts dbg rayon input ->
  uncut dbg rerun rayon PcMarker decoder_default (biter_new input).
Proof.
  intros dbg rerun rayon input [H|H]; [left; exact H|right]. split; [exact (fun x => x)|]. intros q e c F.
  apply from_rerun in F; [|exact (fun x => x)]. destruct F as [F _]. apply H. exists q, c. exact F.
Qed.
Lemma no_eob_start : forall dbg rerun rayon input, no_eob_runs dbg rayon input ->
  forall q e c, from dbg rerun rayon (PcMarker, decoder_default, biter_new input) (q, e, c) -> ~ has_eob_runs e.
Proof.
  intros dbg rerun rayon input H q e c F. apply from_rerun in F; [|exact (fun x => x)]. destruct F as [F _]. apply H. exists q, c. exact F.
Qed.

Lemma feed_any : forall dbg rerun rayon chunks d b r, Forall bytes chunks ->
  run dbg false rayon (run_fuel (biter_new (concat chunks))) PcMarker decoder_default (biter_new (concat chunks)) = (d, b, r) ->
  ~ is_need r -> r <> RPanic PFuel ->
  no_eob_runs dbg rayon (concat chunks) -> rerun = false \/ no_restarts dbg rayon (concat chunks) ->
  exists done c rest k0 buf0 buf', chunks = done ++ c :: rest /\
    codec_feed dbg rerun rayon codec_new [] done = (k0, buf0, Ok None) /\
    codec_decode dbg rerun rayon k0 (buf0 ++ c) = (mkCodec d PcMarker (bi_bits b) (bi_count b), buf', answer r) /\
    match r with RImage _ | RError _ => buf' ++ concat rest = bi_input b | _ => exists l, l ++ concat rest = bi_input b end.
Proof.
  intros dbg rerun rayon chunks d b r By E N1 N2 NE U.
  apply (feed_ext dbg rerun rayon d b r N1 chunks codec_new [] start_ok By (start_waiting _ _ _)).
  - exists (run_fuel (biter_new (concat chunks))). split; [|exact N2]. cbn [conf].
    etransitivity; [apply run_rerun; exact (fun x => x)|exact E].
  - apply uncut_start. exact U.
  - apply no_eob_start. exact NE.
Qed.

Lemma feed_done : forall dbg rerun rayon k buf done c rest k0 buf0 k' buf' r, codec_feed dbg rerun rayon k buf done = (k0, buf0, Ok None) ->
  codec_decode dbg rerun rayon k0 (buf0 ++ c) = (k', buf', r) -> r <> Ok None ->
  codec_feed dbg rerun rayon k buf (done ++ c :: rest) = (k', buf', r).
Proof.
  intros dbg rerun rayon k buf done c rest k0 buf0 k' buf' r E1 E2 N. rewrite feed_app, E1. cbn [codec_feed]. rewrite E2.
  destruct r as [[img|]|e|p|]; try reflexivity. congruence.
Qed.

Lemma stream_image : forall dbg rerun rayon chunks img, Forall bytes chunks ->
  decode_fresh dbg rayon (concat chunks) = Ok img ->
  no_eob_runs dbg rayon (concat chunks) -> rerun = false \/ no_restarts dbg rayon (concat chunks) ->
  exists k, codec_feed dbg rerun rayon codec_new [] chunks = (k, [], Ok (Some img)).
Proof.
  intros dbg rerun rayon chunks img By E NE U. unfold decode_fresh in E. apply decode_image in E. destruct E as [d [b [E EI]]].
  destruct (feed_any dbg rerun rayon chunks d b (RImage img) By E (fun x => x) ltac:(discriminate) NE U) as [done [c [rest [k0 [buf0 [buf' [-> [H0 [H1 H2]]]]]]]]].
  rewrite EI in H2. apply app_eq_nil in H2. destruct H2 as [-> H2]. eexists. eapply feed_done; [exact H0|exact H1|discriminate].
Qed.
Lemma stream_error : forall dbg rerun rayon chunks e, Forall bytes chunks ->
  decode_fresh dbg rayon (concat chunks) = Fail e -> e <> EEof ->
  no_eob_runs dbg rayon (concat chunks) -> rerun = false \/ no_restarts dbg rayon (concat chunks) ->
  exists k buf, codec_feed dbg rerun rayon codec_new [] chunks = (k, buf, Fail e).
Proof.
  intros dbg rerun rayon chunks e By E NF NE U. unfold decode_fresh in E. apply decode_fail in E; [|exact NF]. destruct E as [d [b [r [E ER]]]].
  assert (A : ~ is_need r /\ r <> RPanic PFuel /\ answer r = Fail e) by (destruct ER as [->| ->]; cbn; auto; splits; auto; discriminate).
  destruct A as [A1 [A2 A3]].
  destruct (feed_any dbg rerun rayon chunks d b r By E A1 A2 NE U) as [done [c [rest [k0 [buf0 [buf' [-> [H0 [H1 _]]]]]]]]]. rewrite A3 in H1.
  eexists _, _. eapply feed_done; [exact H0|exact H1|discriminate].
Qed.

Lemma passes_ext : forall dbg rayon input s d img, decode_fresh dbg rayon input = Ok img ->
  passes dbg rayon (input ++ s) d -> passes dbg rayon input d.
Proof.
  intros dbg rayon input s d img E [p [b F]]. unfold decode_fresh in E. apply decode_image in E. destruct E as [dW [bW [E _]]].
  set (c0 := (PcMarker, decoder_default, biter_new (input ++ s))) in *.
  assert (G : forall c, from dbg false rayon c0 c -> exists q e b0, c = (q, e, ext s b0) /\
     from dbg false rayon (PcMarker, decoder_default, biter_new input) (q, e, b0) /\
     exists fuel d' b', run dbg false rayon fuel q e b0 = (d', b', RImage img)).
  { induction 1 as [|c1 c2 F1 IH M].
    - exists PcMarker, decoder_default, (biter_new input). splits; [reflexivity|apply from_here|]. eexists _, _, _. exact E.
    - destruct IH as [q [e [b0 [-> [F0 [fuel [d' [b' R]]]]]]]]. destruct c2 as [[q2 e2] b2]. cbn [moves] in M.
      destruct fuel as [|fuel]; [discriminate|]. cbn [run] in R. destruct (step dbg false rayon q e b0) as [[d1 b1] RR] eqn:SE.
      pose proof (step_ext s _ _ _ _ _ _ _ _ _ SE) as X. destruct RR as [p1|r1].
      + rewrite X in M. inversion M. subst q2 e2 b2. exists p1, d1, b1. splits; [reflexivity| |eauto].
        eapply from_next; [exact F0|]. exact SE.
      + inversion R. subst. rewrite X in M. discriminate. }
  destruct (G _ F) as [q [e [b0 [H [F0 _]]]]]. inv H. exists q, b0. exact F0.
Qed.

Lemma stream_tail : forall dbg rerun rayon input s chunks img, Forall bytes chunks -> concat chunks = input ++ s ->
  decode_fresh dbg rayon input = Ok img ->
  no_eob_runs dbg rayon input -> rerun = false \/ no_restarts dbg rayon input ->
  exists done c rest k0 buf0 k buf', chunks = done ++ c :: rest /\
    codec_feed dbg rerun rayon codec_new [] done = (k0, buf0, Ok None) /\
    codec_decode dbg rerun rayon k0 (buf0 ++ c) = (k, buf', Ok (Some img)) /\ buf' ++ concat rest = s.
Proof.
  intros dbg rerun rayon input s chunks img By EC E NE U.
  assert (P : forall d, passes dbg rayon (concat chunks) d -> passes dbg rayon input d) by (intros d; rewrite EC; eapply passes_ext; exact E).
  unfold decode_fresh in E. apply decode_image in E. destruct E as [d [b [E EI]]].
  apply (run_ext_done s) in E; [|exact (fun x => x)|discriminate|discriminate].
  change (ext s (biter_new input)) with (biter_new (input ++ s)) in E. rewrite <- EC in E.
  assert (E2 : run dbg false rayon (run_fuel (biter_new (concat chunks))) PcMarker decoder_default (biter_new (concat chunks)) = (d, ext s b, RImage img)).
  { rewrite <- E. apply run_more; [rewrite E; discriminate|]. unfold run_fuel, biter_new. cbn [bi_input]. rewrite EC, app_length. lia. }
  destruct (feed_any dbg rerun rayon chunks d (ext s b) (RImage img) By E2 (fun x => x) ltac:(discriminate)) as [done [c [rest [k0 [buf0 [buf' [H0 [H1 [H3 H2]]]]]]]]].
  - intros e Pe. apply NE. apply P. exact Pe.
  - destruct U as [U|U]; [left; exact U|right]. intros e Pe. apply U. apply P. exact Pe.
  - exists done, c, rest, k0, buf0. eexists _, buf'. splits; [exact H0|exact H1|exact H3|]. rewrite H2. cbn [ext bi_input]. rewrite EI. reflexivity.
Qed.

Lemma stream_prefix : forall dbg rerun rayon input s chunks img, Forall bytes chunks -> bytes s -> s <> [] -> concat chunks ++ s = input ->
  decode_fresh dbg rayon input = Ok img ->
  no_eob_runs dbg rayon input -> rerun = false \/ no_restarts dbg rayon input ->
  exists k buf, codec_feed dbg rerun rayon codec_new [] chunks = (k, buf, Ok None).
Proof.
  intros dbg rerun rayon input s chunks img By Bs NS EC E NE U.
  assert (EC2 : concat (chunks ++ [s]) = input) by (rewrite concat_app; cbn [concat]; rewrite app_nil_r; exact EC).
  rewrite <- EC2 in *. unfold decode_fresh in E. apply decode_image in E. destruct E as [d [b [E EI]]].
  destruct (feed_any dbg rerun rayon (chunks ++ [s]) d b (RImage img)) as [done [c [rest [k0 [buf0 [buf' [H0 [H1 [H3 H2]]]]]]]]]; auto; try discriminate.
  { apply Forall_app. split; auto. }
  rewrite EI in H2. apply app_eq_nil in H2. destruct H2 as [_ H2].
  destruct rest as [|r0 rest] using rev_ind.
  - apply app_inj_tail in H0. destruct H0 as [-> ->]. eauto.
  - exfalso. rewrite app_comm_cons, app_assoc in H0. apply app_inj_tail in H0. destruct H0 as [_ <-].
    rewrite concat_app in H2. apply app_eq_nil in H2. destruct H2 as [_ H2]. cbn in H2. rewrite app_nil_r in H2. auto.
Qed.

(** ** The blocking reader *)
Lemma read_feed : forall dbg rerun rayon reads k buf,
  read_decode dbg rerun rayon k buf reads =
  match codec_feed dbg rerun rayon k buf reads with
  | (k', buf', Ok None) => (k', buf', Fail EEof)
  | (k', buf', Ok (Some img)) => (k', buf', Ok img)
  | (k', buf', Fail e) => (k', buf', Fail e)
  | (k', buf', Panic p) => (k', buf', Panic p)
  | (k', buf', UB) => (k', buf', UB)
  end.
Proof.
  intros dbg rerun rayon. induction reads as [|c reads IH]; intros k buf; [reflexivity|]. cbn [read_decode codec_feed].
  destruct (codec_decode dbg rerun rayon k (buf ++ c)) as [[k1 buf1] [[img|]|e|p|]]; try reflexivity. apply IH.
Qed.
Lemma read_image : forall dbg rerun rayon reads img, Forall bytes reads ->
  decode_fresh dbg rayon (concat reads) = Ok img ->
  no_eob_runs dbg rayon (concat reads) -> rerun = false \/ no_restarts dbg rayon (concat reads) ->
  snd (read_decode dbg rerun rayon codec_new [] reads) = Ok img.
Proof.
  intros dbg rerun rayon reads img By E NE U. destruct (stream_image dbg rerun rayon reads img By E NE U) as [k H].
  rewrite read_feed, H. reflexivity.
Qed.
Lemma read_error : forall dbg rerun rayon reads e, Forall bytes reads ->
  decode_fresh dbg rayon (concat reads) = Fail e -> e <> EEof ->
  no_eob_runs dbg rayon (concat reads) -> rerun = false \/ no_restarts dbg rayon (concat reads) ->
  snd (read_decode dbg rerun rayon codec_new [] reads) = Fail e.
Proof.
  intros dbg rerun rayon reads e By E N NE U. destruct (stream_error dbg rerun rayon reads e By E N NE U) as [k [buf H]].
  rewrite read_feed, H. reflexivity.
Qed.

(** ** One-shot decoding of prefixes and extensions *)
Lemma decode_trailing : forall dbg rayon d input s img, snd (decode dbg rayon d input) = Ok img -> s <> [] ->
  snd (decode dbg rayon d (input ++ s)) = Panic PAssert.
Proof.
  intros dbg rayon d input s img E N. apply decode_image in E. destruct E as [d' [b' [E EI]]].
  apply (run_ext_done s) in E; [|exact (fun x => x)|discriminate|discriminate].
  change (ext s (biter_new input)) with (biter_new (input ++ s)) in E. unfold decode. cbv zeta.
  rewrite (run_more dbg false rayon (run_fuel (biter_new input))).
  - rewrite E. cbn [snd ext bi_input]. rewrite EI. destruct s; [congruence|reflexivity].
  - rewrite E. discriminate.
  - unfold run_fuel, biter_new. cbn [bi_input]. rewrite app_length. lia.
Qed.

Lemma decode_prefix : forall dbg rayon d a s img, reachable dbg rayon d -> bytes a -> s <> [] ->
  snd (decode dbg rayon d (a ++ s)) = Ok img ->
  snd (decode dbg rayon d a) = Fail EEof \/
  snd (decode dbg rayon d a) = Fail EOutOfBits /\
    exists p e b, from dbg false rayon (PcMarker, d, biter_new (a ++ s)) (p, e, b) /\ has_eob_runs e.
Proof.
  intros dbg rayon d a s img R B N E. apply decode_image in E. destruct E as [dW [bW [E EI]]].
  pose proof (decode_no_fuel dbg rayon d a R B) as NF. unfold decode in *. cbv zeta in *.
  destruct (run dbg false rayon (run_fuel (biter_new a)) PcMarker d (biter_new a)) as [[d' b'] r] eqn:EA. cbn [snd] in *.
  assert (NR : r <> RPanic PFuel) by (intros ->; apply NF; reflexivity).
  destruct (call_ext s dbg false rayon (dW, bW, RImage img) (fun x => x) _ _ _ _ _ _ _ EA NR) as [[H1 H2]|[[p' [-> _]]|[H1 H2]]].
  - eexists. split; [exact E|discriminate].
  - left. reflexivity.
  - subst r. right. split; [reflexivity|]. exact H2.
  - left. reflexivity.
  - exfalso. inversion H2. subst bW. cbn [ext bi_input] in EI. apply app_eq_nil in EI. destruct EI as [_ EI]. auto.
Qed.

(** ** Corollaries in the form used by the property file *)
Lemma history_streaming : forall dbg rerun rayon k buf got, history dbg rerun rayon k buf got -> streaming dbg rerun rayon k buf.
Proof. induction 1; [constructor|constructor; auto|econstructor; eauto]. Qed.
Lemma bytes_accounted : forall dbg rerun rayon k buf got, history dbg rerun rayon k buf got -> exists dropped, got = dropped ++ buf.
Proof.
  induction 1 as [|k buf got more H [dr ->] B|k buf got k' buf' r H [dr ->] E].
  - exists []. reflexivity.
  - exists dr. rewrite app_assoc. reflexivity.
  - apply history_streaming, streaming_ok in H. pose proof (codec_step_ok dbg rerun rayon k buf H) as C. rewrite E in C.
    destruct C as [_ [[x C] _]]. exists (dr ++ x). rewrite C, app_assoc. reflexivity.
Qed.
Lemma run_image_eoi : forall dbg rerun rayon fuel p d b d' b' img, dec_ok d -> good b -> pc_ok p d ->
  run dbg rerun rayon fuel p d b = (d', b', RImage img) -> exists pre, bi_input b = pre ++ [255; 0xD9] ++ bi_input b'.
Proof.
  intros dbg rerun rayon. induction fuel as [|fuel IH]; intros p d b d' b' img K G P E; [discriminate|]. cbn [run] in E.
  pose proof (step_inv dbg rerun rayon p d b K G P) as Inv.
  destruct (step dbg rerun rayon p d b) as [[d1 b1] r] eqn:ES. destruct r as [p'|r].
  - destruct Inv as [K' [G' [[x Sf] [P' _]]]]. destruct (IH _ _ _ _ _ _ K' G' P' E) as [pre Q]. exists (x ++ pre).
    rewrite Sf, Q, <- app_assoc. reflexivity.
  - inv E. destruct p as [|m|final todo ph].
    + cbn [step] in ES. destruct (parse_marker (bi_input b)) as [[m rest]|[]| |] eqn:EM; try discriminate.
      destruct m; try discriminate. destruct (upsample_image dbg rayon d); inv ES. cbn [bi_input].
      apply parse_marker_ok in EM. destruct EM as [c [C [pre [k [_ [_ [_ ->]]]]]]]. inv C. exists (pre ++ FF k).
      unfold FF. rewrite <- app_assoc. f_equal. rewrite <- Nat.add_1_r, repeat_app, <- app_assoc. reflexivity.
    + cbn [step] in ES. exfalso. destruct (no_segment m); [discriminate|]. destruct (segment_data dbg (bi_input b)) as [[data rest]|[]| |]; try discriminate.
      assert (SE : forall d0 b0 r0, seg_end m d0 b0 r0 <> (d', b', SStop (RImage img)))
        by (intros d0 b0 r0 H; unfold seg_end in H; destruct r0 as [|[]| |]; discriminate).
      destruct m; try (destruct (seg_payload _ _ _ _) as [d3 r3]; exact (SE _ _ _ ES)).
      unfold do_sos in ES. destruct (sos_segment (d_frame d) data) as [[sc ?]|[]| |]; try discriminate.
      destruct (sos_begin dbg d sc) as [d3 [final| | |]]; try discriminate. destruct (scan_init final d3); discriminate.
    + cbn [step] in ES. exfalso. destruct (scan_loop dbg rerun final todo ph d b) as [[d2 b2] [|? ?|?|?|]]; try discriminate. destruct (scan_finish d2); discriminate.
Qed.
Lemma image_at_eoi : forall dbg rerun rayon k buf k' buf' img, streaming dbg rerun rayon k buf ->
  codec_decode dbg rerun rayon k buf = (k', buf', Ok (Some img)) ->
  exists pre, buf = pre ++ [255; 0xD9] ++ buf'.
Proof.
  intros dbg rerun rayon k buf k' buf' img H E. apply streaming_ok in H. destruct H as [K [P G]]. unfold codec_decode in E.
  destruct buf as [|x buf]; [discriminate|]. set (b0 := mkBiter (x :: buf) (k_bits k) (k_count k)) in *.
  destruct (run dbg rerun rayon (run_fuel b0) (k_pc k) (k_dec k) b0) as [[d b] r] eqn:ER. destruct r; try discriminate. inv E.
  exact (run_image_eoi dbg rerun rayon _ _ _ _ _ _ _ K G P ER).
Qed.
Lemma read_tail : forall dbg rerun rayon input s reads img, Forall bytes reads -> concat reads = input ++ s ->
  decode_fresh dbg rayon input = Ok img ->
  no_eob_runs dbg rayon input -> rerun = false \/ no_restarts dbg rayon input ->
  snd (read_decode dbg rerun rayon codec_new [] reads) = Ok img.
Proof.
  intros dbg rerun rayon input s reads img By EC E NE U.
  destruct (stream_tail dbg rerun rayon input s reads img By EC E NE U) as [done [c [rest [k0 [buf0 [k [buf' [-> [H0 [H1 H2]]]]]]]]]].
  rewrite read_feed. erewrite feed_done; [|exact H0|exact H1|discriminate]. reflexivity.
Qed.
Lemma prefix_no_image : forall dbg rayon d a s img img', reachable dbg rayon d -> bytes a -> s <> [] ->
  snd (decode dbg rayon d (a ++ s)) = Ok img -> snd (decode dbg rayon d a) <> Ok img'.
Proof.
  intros dbg rayon d a s img img' R B N E H. destruct (decode_prefix dbg rayon d a s img R B N E) as [F|[F _]]; congruence.
Qed.
