(** Where the frame of a decoder comes from (C67). *)
From Verif Require Import Base Tactics SpecBits SpecReader SpecFrame SpecMarker SpecSegments SpecHeader SpecGlobal SpecStream SpecFile Biterator Marker
  Types Parsers Decode HuffmanP3 SafeP InvP GlobalP FileP CorruptP.

(** A call that passes through a configuration ends as the rest of the run does. *)
Lemma run_from : forall dbg rayon d0 input p d b, reachable dbg rayon d0 -> bytes input -> from dbg false rayon (PcMarker, d0, biter_new input) (p, d, b) ->
  exists n, run dbg false rayon (run_fuel (biter_new input)) PcMarker d0 (biter_new input) = run dbg false rayon n p d b.
Proof.
  intros dbg rayon d0 input p d b R B From.
  assert (X : forall c c', from dbg false rayon c c' -> forall p d b p' d' b', c = (p, d, b) -> c' = (p', d', b') -> dec_ok d -> good b -> pc_ok p d ->
     exists j, (measure p' b' + j <= measure p b)%nat /\ forall n, run dbg false rayon (j + n) p d b = run dbg false rayon n p' d' b').
  { clear. intros c c' H. induction H as [|c1 c2 H IH M]; intros p d b p' d' b' E1 E2 K G P.
    - assert (Y : (p, d, b) = (p', d', b')) by congruence. inv Y. exists 0%nat. split; [lia|reflexivity].
    - destruct c1 as [[p1 d1] b1]. subst c2. cbn [moves] in M. destruct (IH _ _ _ _ _ _ E1 eq_refl K G P) as [j [L1 Rn]].
      destruct (from_inv dbg rayon _ _ H _ _ _ _ _ _ E1 eq_refl K G P) as [K1 [G1 P1]].
      pose proof (step_inv dbg false rayon p1 d1 b1 K1 G1 P1) as SI. rewrite M in SI. destruct SI as [_ [_ [_ [_ L2]]]].
      exists (j + 1)%nat. split; [lia|]. intros n. replace (j + 1 + n)%nat with (j + S n)%nat by lia. rewrite Rn. cbn [run]. rewrite M. reflexivity. }
  destruct (X _ _ From _ _ _ _ _ _ eq_refl eq_refl (reachable_ok _ _ _ R) (good_start _ B) Logic.I) as [j [L Rn]].
  pose proof (run_fuel_enough PcMarker (biter_new input)) as Fu.
  exists (run_fuel (biter_new input) - j)%nat. rewrite <- Rn. f_equal. lia.
Qed.

Lemma frame_from : forall dbg rayon d input, reachable dbg rayon d -> bytes input ->
  d_frame (fst (decode dbg rayon d input)) = d_frame d \/ exists fr, d_frame (fst (decode dbg rayon d input)) = Some fr /\ frame_in input fr.
Proof.
  intros dbg rayon d input R B.
  assert (T : traced (d_frame d) input PcMarker d (biter_new input)).
  { split; [apply suffix_refl|]. split; [left; reflexivity|exact Logic.I]. }
  pose proof (run_traced dbg false rayon (d_frame d) input (run_fuel (biter_new input)) PcMarker d (biter_new input) (reachable_ok _ _ _ R) (good_start input B) Logic.I B T) as [_ [T2 _]].
  unfold decode. destruct (run dbg false rayon (run_fuel (biter_new input)) PcMarker d (biter_new input)) as [[d' b'] r]. exact T2.
Qed.

Lemma repeat_255 : forall k a x b, FF k ++ 0 :: b = a ++ 255 :: x -> x <> [] -> (exists y, x = 255 :: y) \/ (exists y, x = 0 :: y) \/ exists a', b = a' ++ 255 :: x.
Proof.
  induction k as [|k IH]; intros a x b E N; cbn [FF repeat app] in E.
  - destruct a as [|z a]; cbn [app] in E; [discriminate E|]. inv E. eauto.
  - destruct a as [|z a]; cbn [app] in E; [|injection E as _ E; exact (IH a x b E N)].
    injection E as E. destruct k; cbn [FF repeat app] in E; subst x; eauto.
Qed.

Lemma no_frame_junk : forall junk rest, no_marker junk -> no_frame_marker rest -> no_frame_marker (junk ++ rest).
Proof.
  intros junk rest J N. induction J as [|z r Hz J IH|k r J IH]; [exact N| |].
  - intros a m b M E. destruct a as [|y a]; cbn [app] in E; injection E as E1 E; [congruence|]. exact (IH a m b M E).
  - intros a m b M E. rewrite <- app_assoc in E. cbn [app] in E.
    destruct (repeat_255 (S k) a (192 + m :: b) (r ++ rest) E ltac:(discriminate)) as [[y H]|[[y H]|[a' H]]];
      [assert (Q : 192 + m = 255) by congruence; clear -Q M; lia|assert (Q : 192 + m = 0) by congruence; clear -Q M; lia|exact (IH a' m b M H)].
Qed.

Lemma frame_after : forall dbg rayon d0 input d junk rest, reachable dbg rayon d0 -> bytes input ->
  from dbg false rayon (PcMarker, d0, biter_new input) (PcMarker, d, mkBiter (junk ++ rest) 0 0) -> no_marker junk -> no_frame_marker rest ->
  d_frame (fst (decode dbg rayon d0 input)) = d_frame d.
Proof.
  intros dbg rayon d0 input d junk rest R B From J N.
  destruct (from_inv dbg rayon _ _ From _ _ _ _ _ _ eq_refl eq_refl (reachable_ok _ _ _ R) (good_start _ B) Logic.I) as [K [G P]].
  destruct (run_from dbg rayon d0 input _ _ _ R B From) as [n En].
  assert (T : traced (d_frame d) (junk ++ rest) PcMarker d (mkBiter (junk ++ rest) 0 0)).
  { split; [apply suffix_refl|]. split; [left; reflexivity|exact Logic.I]. }
  pose proof (run_traced dbg false rayon (d_frame d) (junk ++ rest) n PcMarker d (mkBiter (junk ++ rest) 0 0) K G P (proj2 G) T) as [_ [T2 _]].
  rewrite <- En in T2. unfold decode. destruct (run dbg false rayon (run_fuel (biter_new input)) PcMarker d0 (biter_new input)) as [[d' b'] r].
  cbn [fst snd] in *. destruct T2 as [T2|[fr [_ [pre [m [l1 [l0 [pr [lines [samples [cs [po [Hm [_ [E _]]]]]]]]]]]]]]]; [exact T2|].
  exfalso. apply (no_frame_junk junk rest J N pre m (l1 :: l0 :: sof_bytes pr lines samples cs ++ po) Hm). exact E.
Qed.

Lemma frame_of_header : forall dbg rayon d fill segs rest, reachable dbg rayon d -> Forall (fun s => hseg_ok (snd s)) segs ->
  let input := marker_bytes fill 0xD8 ++ flat_map hseg_bytes segs ++ rest in bytes input -> no_frame_marker rest ->
  d_frame (fst (decode dbg rayon d input)) =
    last (map (fun h => Some (frame_of (fh_marker h) (fh_precision h) (fh_lines h) (fh_samples h) (fh_comps h))) (sofs segs)) (d_frame d).
Proof.
  intros dbg rayon d fill segs rest R F input B N.
  assert (S1 : from dbg false rayon (PcMarker, d, biter_new input) (PcMarker, d, mkBiter ([] ++ flat_map hseg_bytes segs ++ rest) 0 0)).
  { apply (from_next _ _ _ _ (PcSegment SOI, d, mkBiter (flat_map hseg_bytes segs ++ rest) 0 0)); [|reflexivity]. eapply from_next; [apply from_here|]. cbn [moves biter_new]. unfold input.
    apply (marker_step dbg false rayon d [] fill 0xD8 SOI); [constructor|constructor|discriminate]. }
  destruct (header_run dbg false rayon 0 0 segs d [] rest (ok_slots d (reachable_ok _ _ _ R)) F ltac:(constructor)) as [d1 [junk [S2 [J [_ H]]]]].
  rewrite <- (hs_frame _ _ _ _ H). exact (frame_after dbg rayon d input d1 junk rest R B (from_trans _ _ _ _ _ _ S1 S2) J N).
Qed.

Lemma frame_of_last : forall dbg rayon d fill segs h rest l, reachable dbg rayon d -> Forall (fun s => hseg_ok (snd s)) segs -> sofs segs = l ++ [h] ->
  let input := marker_bytes fill 0xD8 ++ flat_map hseg_bytes segs ++ rest in bytes input -> no_frame_marker rest ->
  d_frame (fst (decode dbg rayon d input)) = Some (frame_of (fh_marker h) (fh_precision h) (fh_lines h) (fh_samples h) (fh_comps h)).
Proof.
  intros dbg rayon d fill segs h rest l R F E input B N. unfold input in *. rewrite (frame_of_header dbg rayon d fill segs rest R F B N), E, map_app, last_app. reflexivity.
Qed.
Lemma frame_stays : forall dbg rayon d input, reachable dbg rayon d -> bytes input -> no_frame_marker input ->
  d_frame (fst (decode dbg rayon d input)) = d_frame d.
Proof.
  intros dbg rayon d input R B N. destruct (frame_from dbg rayon d input R B) as [E|[fr [_ [pre [m [l1 [l0 [pr [lines [samples [cs [po [Hm [_ [E _]]]]]]]]]]]]]]]; [exact E|].
  exfalso. exact (N pre m (l1 :: l0 :: sof_bytes pr lines samples cs ++ po) Hm E).
Qed.
