From Verif Require Import Base Tactics SpecBits SpecReader SpecFrame SpecMarker SpecSegments SpecHeader SpecGlobal Biterator HuffmanP3 Marker MarkerP
  Types Parsers ParsersP ParsersP2 Decode SegmentsP SafeP InvP.

Lemma good_start : forall input, bytes input -> good (biter_new input).
Proof. intros input B. split; [unfold reader_ok; cbn; lia|exact B]. Qed.

Lemma decode_run : forall dbg rayon d input, dec_ok d -> bytes input ->
  run_post (biter_new input) (run dbg false rayon (run_fuel (biter_new input)) PcMarker d (biter_new input)).
Proof. intros. apply run_inv; auto using good_start, run_fuel_enough. exact I. Qed.

Lemma reachable_ok : forall dbg rayon d, reachable dbg rayon d -> dec_ok d.
Proof.
  induction 1 as [|d input R IH B]; [apply default_ok|]. unfold decode. pose proof (decode_run dbg rayon d input IH B) as P.
  destruct (run dbg false rayon (run_fuel (biter_new input)) PcMarker d (biter_new input)) as [[d' b'] r]. apply P.
Qed.

Lemma decode_cases : forall dbg rayon d input, dec_ok d -> bytes input ->
  post (fun img => exists fr, d_frame (fst (decode dbg rayon d input)) = Some fr /\ frame_good fr /\ bytes img /\
                    lenZ img = f_lines fr * f_samples fr * lenZ (f_components fr))
       (snd (decode dbg rayon d input)).
Proof.
  intros dbg rayon d input K B. unfold decode. pose proof (decode_run dbg rayon d input K B) as P.
  destruct (run dbg false rayon (run_fuel (biter_new input)) PcMarker d (biter_new input)) as [[d' b'] r].
  destruct P as [K' [G' [S' R]]]. cbn [fst snd]. destruct r as [img|e|p|e|p|]; cbn [post]; auto.
  - destruct (bi_input b'); cbn [post]; auto.
  - destruct (bi_input b'); cbn [post]; auto.
Qed.

Lemma decode_no_ub : forall dbg rayon d input, reachable dbg rayon d -> bytes input -> snd (decode dbg rayon d input) <> UB.
Proof. intros dbg rayon d input R B E. pose proof (decode_cases dbg rayon d input (reachable_ok _ _ _ R) B) as P. rewrite E in P. exact P. Qed.
Lemma decode_no_fuel : forall dbg rayon d input, reachable dbg rayon d -> bytes input -> snd (decode dbg rayon d input) <> Panic PFuel.
Proof. intros dbg rayon d input R B E. pose proof (decode_cases dbg rayon d input (reachable_ok _ _ _ R) B) as P. rewrite E in P. exact P. Qed.

(** ** Streaming *)
Definition codec_ok (k : codec) (buf : list Z) : Prop :=
  dec_ok (k_dec k) /\ pc_ok (k_pc k) (k_dec k) /\ good (mkBiter buf (k_bits k) (k_count k)).

Lemma codec_run : forall dbg rerun rayon k buf, codec_ok k buf ->
  let b := mkBiter buf (k_bits k) (k_count k) in run_post b (run dbg rerun rayon (run_fuel b) (k_pc k) (k_dec k) b).
Proof. intros dbg rerun rayon k buf [K [P G]] b. apply run_inv; auto using run_fuel_enough. Qed.

Lemma codec_step_ok : forall dbg rerun rayon k buf, codec_ok k buf ->
  let '(k', buf', r) := codec_decode dbg rerun rayon k buf in
  codec_ok k' buf' /\ suffix buf' buf /\
  post (fun o => forall img, o = Some img -> exists fr, d_frame (k_dec k') = Some fr /\ frame_good fr /\ bytes img /\ lenZ img = f_lines fr * f_samples fr * lenZ (f_components fr)) r.
Proof.
  intros dbg rerun rayon k buf OK. unfold codec_decode. destruct buf as [|x buf]; [splits; auto using suffix_refl; discriminate|].
  set (bf := x :: buf) in *. pose proof (codec_run dbg rerun rayon k bf OK) as P. cbv zeta in P.
  destruct (run dbg rerun rayon (run_fuel (mkBiter bf (k_bits k) (k_count k))) (k_pc k) (k_dec k) (mkBiter bf (k_bits k) (k_count k))) as [[d' b'] r].
  destruct P as [K' [G' [S' R]]]. cbn [bi_input] in S'.
  assert (Gk : good (mkBiter bf (bi_bits b') (bi_count b'))).
  { split; [apply G'|]. apply OK. }
  assert (Gb : good (mkBiter (bi_input b') (bi_bits b') (bi_count b'))) by (destruct b'; exact G').
  destruct r as [img|e|p|e|p|]; cbv beta zeta; try contradiction; (split; [split; [|split]|split]); cbn [k_dec k_pc k_bits k_count post];
    auto using suffix_refl; try exact I; try discriminate.
  intros im E. inv E. exact R.
Qed.

Lemma streaming_ok : forall dbg rerun rayon k buf, streaming dbg rerun rayon k buf -> codec_ok k buf.
Proof.
  induction 1 as [|k buf more H IH B|k buf k' buf' r H IH E].
  - split; [apply default_ok|]. split; [exact I|]. apply (good_start []). constructor.
  - destruct IH as [K [P [R B0]]]. split; auto. split; auto. split; [exact R|]. cbn. apply Forall_app. split; auto.
  - pose proof (codec_step_ok dbg rerun rayon k buf IH) as S. rewrite E in S. apply S.
Qed.

Lemma codec_no_ub : forall dbg rerun rayon k buf, streaming dbg rerun rayon k buf -> snd (codec_decode dbg rerun rayon k buf) <> UB.
Proof.
  intros dbg rerun rayon k buf H E. pose proof (codec_step_ok dbg rerun rayon k buf (streaming_ok _ _ _ _ _ H)) as S.
  destruct (codec_decode dbg rerun rayon k buf) as [[k' buf'] r]. cbn in E. subst r. apply S.
Qed.
Lemma codec_no_fuel : forall dbg rerun rayon k buf, streaming dbg rerun rayon k buf -> snd (codec_decode dbg rerun rayon k buf) <> Panic PFuel.
Proof.
  intros dbg rerun rayon k buf H E. pose proof (codec_step_ok dbg rerun rayon k buf (streaming_ok _ _ _ _ _ H)) as S.
  destruct (codec_decode dbg rerun rayon k buf) as [[k' buf'] r]. cbn in E. subst r. apply S.
Qed.

(** ** Termination *)
Definition conf_ok (c : pc * decoder * biter) : Prop := let '(p, d, b) := c in dec_ok d /\ good b /\ pc_ok p d.

Lemma occurs_ok : forall dbg rerun rayon c, occurs dbg rerun rayon c -> conf_ok c.
Proof.
  induction 1 as [d input R B|k buf S|[[p d] b] [[p' d'] b'] H IH M].
  - split; [eapply reachable_ok; eauto|]. split; [apply (good_start input B)|exact I].
  - destruct (streaming_ok _ _ _ _ _ S) as [K [P G]]. split; auto.
  - destruct IH as [K [G P]]. pose proof (step_inv dbg rerun rayon p d b K G P) as S. cbn in M. rewrite M in S.
    destruct S as [K' [G' [_ [P' _]]]]. split; auto.
Qed.

Lemma moves_acc : forall dbg rerun rayon n c, conf_ok c -> (let '(p, d, b) := c in measure p b < n)%nat -> Acc (moves dbg rerun rayon) c.
Proof.
  intros dbg rerun rayon. induction n as [|n IH]; intros [[p d] b] [K [G P]] L; [lia|]. constructor. intros [[p' d'] b'] M.
  pose proof (step_inv dbg rerun rayon p d b K G P) as S. cbn in M. rewrite M in S. destruct S as [K' [G' [_ [P' L']]]].
  apply IH; [split; auto|lia].
Qed.

Lemma no_infinite_run : forall dbg rerun rayon c, occurs dbg rerun rayon c -> Acc (moves dbg rerun rayon) c.
Proof.
  intros dbg rerun rayon [[p d] b] H. apply (moves_acc dbg rerun rayon (S (measure p b))); [eapply occurs_ok; eauto|lia].
Qed.

Lemma run_more : forall dbg rerun rayon fuel p d b, snd (run dbg rerun rayon fuel p d b) <> RPanic PFuel ->
  forall fuel', (fuel <= fuel')%nat -> run dbg rerun rayon fuel' p d b = run dbg rerun rayon fuel p d b.
Proof.
  intros dbg rerun rayon. induction fuel as [|fuel IH]; intros p d b H fuel' L; [exfalso; apply H; reflexivity|].
  destruct fuel' as [|fuel']; [lia|]. cbn [run] in *. destruct (step dbg rerun rayon p d b) as [[d' b'] [p'|r]]; [|reflexivity].
  apply IH; [exact H|lia].
Qed.

Lemma run_bound : forall dbg rerun rayon p d b, occurs dbg rerun rayon (p, d, b) ->
  forall fuel, (3 * length (bi_input b) + 3 <= fuel)%nat ->
  run dbg rerun rayon fuel p d b = run dbg rerun rayon (run_fuel b) p d b /\ snd (run dbg rerun rayon fuel p d b) <> RPanic PFuel.
Proof.
  intros dbg rerun rayon p d b H fuel L. apply occurs_ok in H. destruct H as [K [G P]].
  pose proof (run_inv dbg rerun rayon (run_fuel b) p d b K G P (run_fuel_enough p b)) as R.
  assert (N : snd (run dbg rerun rayon (run_fuel b) p d b) <> RPanic PFuel).
  { destruct (run dbg rerun rayon (run_fuel b) p d b) as [[d' b'] r]. cbn. intros ->. apply R. }
  assert (E : run dbg rerun rayon fuel p d b = run dbg rerun rayon (run_fuel b) p d b) by (apply run_more; auto).
  split; [exact E|]. rewrite E. exact N.
Qed.

(** ** Where the frame comes from *)
Definition traced (f0 : option frame) (input : list Z) (p : pc) (d : decoder) (b : biter) : Prop :=
  suffix (bi_input b) input /\
  (d_frame d = f0 \/ exists fr, d_frame d = Some fr /\ frame_in input fr) /\
  match p with PcSegment (SOF n) => 0 <= n <= 2 /\ exists pre, input = pre ++ [255; 0xC0 + n] ++ bi_input b | _ => True end.

Lemma app_FF : forall k, exists pre, FF (S k) = pre ++ [255].
Proof. induction k as [|k [pre E]]; [exists []; reflexivity|]. exists (255 :: pre). cbn [FF repeat app] in *. rewrite <- E. reflexivity. Qed.

Lemma step_traced : forall dbg rerun rayon f0 input p d b d' b' r, dec_ok d -> good b -> pc_ok p d -> bytes input -> traced f0 input p d b ->
  step dbg rerun rayon p d b = (d', b', r) ->
  match r with SNext p' => traced f0 input p' d' b' | SStop _ => traced f0 input PcMarker d' b' end.
Proof.
  intros dbg rerun rayon f0 input p d b d' b' r K G P B [Su [Fr Pc]] E.
  pose proof (step_inv dbg rerun rayon p d b K G P) as SI. rewrite E in SI. destruct SI as [K' [G' [Su' _]]].
  assert (Su2 : suffix (bi_input b') input) by (eapply suffix_trans; eauto).
  assert (X : forall p', (match p' with PcSegment (SOF _) => False | _ => True end) -> d_frame d' = d_frame d -> traced f0 input p' d' b').
  { intros p' Hp Hf. split; auto. split; [rewrite Hf; exact Fr|]. destruct p' as [|m| ]; auto. destruct m; auto; contradiction. }
  assert (Y : d_frame d' = d_frame d -> (forall p', r = SNext p' -> match p' with PcSegment (SOF _) => False | _ => True end) ->
    match r with SNext p' => traced f0 input p' d' b' | SStop _ => traced f0 input PcMarker d' b' end).
  { intros Hf Hp. destruct r as [p'|]; (apply X; [|exact Hf]); [apply Hp; reflexivity|exact I]. }
  destruct p as [|m|final todo ph]; cbn [step] in E.
  - destruct (parse_marker (bi_input b)) as [[m rest]|e|q|] eqn:Em.
    2:{ destruct e; inv E; apply Y; auto; intros; discriminate. }
    2:{ inv E; apply Y; auto; intros; discriminate. }
    2:{ inv E; apply Y; auto; intros; discriminate. }
    destruct m; try (inv E; apply Y; auto; intros p' Ep; inv Ep; exact I).
    + inv E. split; auto. split; auto. apply parse_marker_ok in Em. destruct Em as [c [C [pre [k [_ [_ [_ Ei]]]]]]].
      inversion C; subst. split; auto. destruct Su as [q ->]. destruct (app_FF k) as [pk Ek]. rewrite Ei, Ek. cbn [bi_input].
      exists (q ++ pre ++ pk). rewrite <- !app_assoc. reflexivity.
    + destruct (upsample_image dbg rayon d); inv E; apply Y; auto; intros; discriminate.
  - destruct (no_segment m) eqn:NS. { inv E. apply Y; auto. intros p' Ep; inv Ep; exact I. }
    destruct (segment_data dbg (bi_input b)) as [[data rest]|e|q|] eqn:Es.
    2:{ destruct e; inv E; apply Y; auto; intros; discriminate. }
    2:{ inv E; apply Y; auto; intros; discriminate. }
    2:{ inv E; apply Y; auto; intros; discriminate. }
    destruct (segment_data_len _ _ _ _ (proj2 G) Es) as [x [y [pre [Ei ->]]]].
    assert (Bp : bytes pre).
    { destruct G as [_ Bi]. rewrite Ei in Bi. unbytes Bi. apply Forall_app in Bi. apply Bi. }
    assert (SE : forall m' dd bb rr, seg_end m' dd bb rr = (d', b', r) -> dd = d' /\ bb = b' /\ match r with SNext p' => p' = PcMarker | _ => True end).
    { intros m' dd bb [u|e|q|] H; cbn [seg_end] in H; try (inv H; auto; fail). destruct e; inv H; auto. }
    assert (KP : forall (A : Type) (o : out A) (k : A -> decoder), (forall a, d_frame (k a) = d_frame d) ->
      d_frame (fst (match o with Ok a => (k a, Ok tt) | Fail e => (d, Fail e) | Panic q => (d, Panic q) | UB => (d, UB) end : decoder * out unit)) = d_frame d).
    { intros A [a|e|q|] k H; cbn; auto. }
    assert (Z1 : forall m', m' <> SOS -> (forall n, m' <> SOF n) -> d_frame (fst (seg_payload dbg m' d pre)) = d_frame d).
    { intros m' N1 N2. destruct m'; cbn [seg_payload]; try reflexivity; try congruence.
      - apply dht_inv; auto.
      - destruct (seg_dqt_any (length pre) d pre Bp (proj2 (proj2 (ok_slots d K))) (le_n _)) as [ts [r0 [l [_ [_ [_ [[_ Eq]|[_ [e [_ Eq]]]]]]]]]]; rewrite Eq; reflexivity.
      - apply KP. intros [? ?]; reflexivity.
      - destruct (n =? 14); [|reflexivity]. apply KP. intros [? ?]; reflexivity. }
    assert (Z2 : forall m', m' <> SOS -> (forall n, m' <> SOF n) ->
      (let '(d0, r0) := seg_payload dbg m' d pre in seg_end m' d0 (mkBiter rest (bi_bits b) (bi_count b)) r0) = (d', b', r) ->
      match r with SNext p' => traced f0 input p' d' b' | SStop _ => traced f0 input PcMarker d' b' end).
    { intros m' N1 N2 H. specialize (Z1 m' N1 N2). destruct (seg_payload dbg m' d pre) as [d0 r0]. apply SE in H. destruct H as [H1 [H2 H]]. cbn [fst] in Z1. rewrite H1 in Z1.
      apply Y; auto. intros p' ->. subst p'. exact I. }
    destruct m; try discriminate NS; try (match type of NS with no_segment ?mm = _ => apply (Z2 mm); [discriminate|discriminate|exact E] end); clear Z2.
    + cbn [seg_payload] in E. destruct Pc as [Hn [q Eq]]. destruct (sof dbg n pre) as [[fr i]|e|pp|] eqn:Ef.
      * apply SE in E. destruct E as [<- [<- E]]. assert (T : traced f0 input PcMarker (set_frame d (Some fr)) (mkBiter rest (bi_bits b) (bi_count b))).
        { split; auto. split; auto. right. cbn. exists fr. split; [reflexivity|].
          destruct (sof_inv _ _ _ _ _ Bp Ef) as [p [lines [samples [cs [-> [_ [H1 [H2 [H3 [H4 [H5 [H6 ->]]]]]]]]]]]].
          exists q, n, x, y, p, lines, samples, cs, (i ++ rest). split; auto. split; [constructor; auto|]. split; [|reflexivity].
          rewrite Eq, Ei. cbn [app]. rewrite <- app_assoc. reflexivity. }
        destruct r; [subst p|]; exact T.
      * apply SE in E. destruct E as [<- [<- E]]. apply Y; auto. intros p' ->. subst; exact I.
      * apply SE in E. destruct E as [<- [<- E]]. apply Y; auto. intros p' ->. subst; exact I.
      * apply SE in E. destruct E as [<- [<- E]]. apply Y; auto. intros p' ->. subst; exact I.
    + unfold do_sos in E. destruct (sos_segment (d_frame d) pre) as [[sc i]|e|q|] eqn:Eh.
      2:{ destruct e; inv E; apply Y; auto; intros; discriminate. }
      2:{ inv E; apply Y; auto; intros; discriminate. }
      2:{ inv E; apply Y; auto; intros; discriminate. }
      destruct (sos_begin_inv dbg d sc K (sos_start _ _ _ _ Bp Eh)) as [K1 [F1 _]]. destruct (sos_begin dbg d sc) as [d1 o]. cbn [fst] in *.
      destruct o as [final|e|q|]; try (inv E; apply Y; auto; intros; discriminate).
      pose proof (scan_init_inv final d1 K1) as SI. destruct (scan_init final d1) as [d2|e|q|]; try (inv E; apply Y; auto; intros; discriminate).
      destruct SI as [_ [F2 _]]. inv E. apply Y; [congruence|]. intros p' Ep. inv Ep. exact I.
  - pose proof (scan_inv dbg rerun final todo ph d b K G P) as SI. destruct (scan_loop dbg rerun final todo ph d b) as [[d1 b1] sr].
    destruct SI as [K1 [G1 [S1 [F1 R1]]]]. destruct sr; try (inv E; apply Y; auto; intros; discriminate).
    pose proof (finish_inv final d1 K1 R1) as FI. destruct (scan_finish d1) as [d2|e|q|]; try (inv E; apply Y; auto; intros; discriminate).
    destruct FI as [_ F2]. inv E. apply Y; [congruence|]. intros p' Ep. inv Ep. exact I.
Qed.

Lemma run_traced : forall dbg rerun rayon f0 input fuel p d b, dec_ok d -> good b -> pc_ok p d -> bytes input -> traced f0 input p d b ->
  traced f0 input PcMarker (fst (fst (run dbg rerun rayon fuel p d b))) (snd (fst (run dbg rerun rayon fuel p d b))).
Proof.
  intros dbg rerun rayon f0 input. induction fuel as [|fuel IH]; intros p d b K G P B T; cbn [run].
  - destruct T as [T1 [T2 _]]. cbn. split; auto.
  - pose proof (step_inv dbg rerun rayon p d b K G P) as SI. destruct (step dbg rerun rayon p d b) as [[d' b'] r] eqn:E.
    pose proof (step_traced _ _ _ _ _ _ _ _ _ _ _ K G P B T E) as T'. destruct SI as [K' [G' [_ R]]].
    destruct r as [p'|r]; [|exact T']. destruct R as [P' _]. apply IH; auto.
Qed.

Lemma image_header : forall dbg rayon input img, bytes input -> decode_fresh dbg rayon input = Ok img ->
  exists lines samples cs, header_ok lines samples cs /\ header_in input lines samples cs /\ lenZ img = lines * samples * lenZ cs /\ bytes img.
Proof.
  intros dbg rayon input img B E. unfold decode_fresh in E.
  pose proof (decode_cases dbg rayon decoder_default input default_ok B) as C. rewrite E in C. destruct C as [fr [Hf [_ [Bi Li]]]].
  assert (T : traced None input PcMarker decoder_default (biter_new input)).
  { split; [apply suffix_refl|]. split; [left; reflexivity|exact I]. }
  pose proof (run_traced dbg false rayon None input (run_fuel (biter_new input)) PcMarker decoder_default (biter_new input) default_ok (good_start input B) I B T) as [_ [T2 _]].
  unfold decode in Hf. destruct (run dbg false rayon (run_fuel (biter_new input)) PcMarker decoder_default (biter_new input)) as [[d' b'] r].
  cbn [fst snd] in *. destruct T2 as [T2|[fr' [Hf' [pre [m [l1 [l0 [pr [lines [samples [cs [po [Hm [HO [HI ->]]]]]]]]]]]]]]]; [congruence|].
  rewrite Hf' in Hf. inv Hf. exists lines, samples, cs. splits; auto; [exists pre, m, l1, l0, pr, po; auto|].
  rewrite Li. unfold frame_of. cbn [f_lines f_samples f_components]. unfold lenZ. rewrite map_length. reflexivity.
Qed.

Lemma image_size : forall dbg rayon d input img, reachable dbg rayon d -> bytes input -> snd (decode dbg rayon d input) = Ok img ->
  exists fr, d_frame (fst (decode dbg rayon d input)) = Some fr /\ lenZ img = f_lines fr * f_samples fr * lenZ (f_components fr) /\ bytes img.
Proof.
  intros dbg rayon d input img R B E. pose proof (decode_cases dbg rayon d input (reachable_ok _ _ _ R) B) as C. rewrite E in C.
  destruct C as [fr [Hf [_ [Bi Li]]]]. eauto.
Qed.

Lemma codec_image_size : forall dbg rerun rayon k buf k' buf' img, streaming dbg rerun rayon k buf ->
  codec_decode dbg rerun rayon k buf = (k', buf', Ok (Some img)) ->
  exists fr, d_frame (k_dec k') = Some fr /\ lenZ img = f_lines fr * f_samples fr * lenZ (f_components fr) /\ bytes img.
Proof.
  intros dbg rerun rayon k buf k' buf' img H E. pose proof (codec_step_ok dbg rerun rayon k buf (streaming_ok _ _ _ _ _ H)) as S. rewrite E in S.
  destruct S as [_ [_ S]]. destruct (S img eq_refl) as [fr [Hf [_ [Bi Li]]]]. eauto.
Qed.
