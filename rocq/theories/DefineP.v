(** Only what the header segments define matters (C92). *)
From Coq Require Import Permutation.
From Verif Require Import Base Tactics SpecBits SpecMarker SpecHuffman SpecBlock SpecTables SpecFrame SpecSegments SpecGlobal SpecStream SpecFile SpecLimits SpecDefine
  Biterator Marker MarkerP Huffman Types Parsers Decode SegmentsP InvP GlobalP ExtP StreamP StreamP2 FileP CommentP ReuseP.

Lemma store_huffman_ss : forall dbg d c th lengths values d', store_huffman dbg d c th lengths values = Ok d' -> d_ss d' = d_ss d.
Proof.
  intros dbg d c th lengths values d' E. unfold store_huffman, bind in E.
  repeat match type of E with context [match ?x with _ => _ end] => destruct x end; try discriminate; inv E; reflexivity.
Qed.
Lemma store_quant_ss : forall d tq t d', store_quant d tq t = Ok d' -> d_ss d' = d_ss d.
Proof.
  intros d tq t d' E. unfold store_quant, bind in E.
  repeat match type of E with context [match ?x with _ => _ end] => destruct x end; try discriminate; inv E; reflexivity.
Qed.
Lemma seg_dht_ss : forall dbg n d data, d_ss (fst (seg_dht dbg n d data)) = d_ss d.
Proof.
  intros dbg. induction n as [|n IH]; intros d data; (destruct data as [|z data]; [reflexivity|]); [reflexivity|]. cbn [seg_dht].
  destruct (huffman_table (z :: data)) as [[[[[c th] lengths] values] i']|e|p|]; try reflexivity.
  destruct (store_huffman dbg d c th lengths values) as [d'|e|p|] eqn:E; try reflexivity. rewrite IH. exact (store_huffman_ss _ _ _ _ _ _ _ E).
Qed.
Lemma seg_dqt_ss : forall n d data, d_ss (fst (seg_dqt n d data)) = d_ss d.
Proof.
  induction n as [|n IH]; intros d data; (destruct data as [|z data]; [reflexivity|]); [reflexivity|]. cbn [seg_dqt].
  destruct (dqt (z :: data)) as [[[tq t] i']|e|p|]; try reflexivity.
  destruct (store_quant d tq t) as [d'|e|p|] eqn:E; try reflexivity. rewrite IH. exact (store_quant_ss _ _ _ _ E).
Qed.
Lemma seg_payload_ss : forall dbg m d data, d_ss (fst (seg_payload dbg m d data)) = d_ss d.
Proof.
  intros dbg m d data. destruct m; cbn [seg_payload]; try reflexivity; try apply seg_dht_ss; try apply seg_dqt_ss.
  all: repeat match goal with |- context [match ?x with _ => _ end] => destruct x end; reflexivity.
Qed.
Lemma segment_ss : forall dbg rerun rayon m d b d' b', step dbg rerun rayon (PcSegment m) d b = (d', b', SNext PcMarker) -> d_ss d' = d_ss d.
Proof.
  intros dbg rerun rayon m d b d' b' E. cbn [step] in E. destruct (no_segment m); [inv E; reflexivity|].
  destruct (segment_data dbg (bi_input b)) as [[data rest]|e|p|]; [|destruct e; discriminate|discriminate|discriminate].
  pose proof (seg_payload_ss dbg m d data) as S.
  destruct m; try (destruct (seg_payload dbg _ d data) as [d1 r]; cbn [fst] in S; cbn [seg_end] in E; destruct r as [u|e|p|]; [inv E; exact S|destruct e; discriminate|discriminate|discriminate]).
  unfold do_sos in E. repeat match type of E with context [match ?x with _ => _ end] => destruct x end; discriminate.
Qed.

(** The state after the header segments, with the scratch state of the scans. *)
Lemma header_walk : forall dbg rayon bits count segs d junk rest, four_slots d -> Forall (fun s => hseg_ok (snd s)) segs -> no_marker junk ->
  exists d', from dbg false rayon (PcMarker, d, mkBiter (junk ++ flat_map hseg_bytes segs ++ rest) bits count) (PcMarker, d', mkBiter (left_overs segs junk ++ rest) bits count) /\
    no_marker (left_overs segs junk) /\ four_slots d' /\ header_state dbg d d' segs /\ d_ss d' = d_ss d.
Proof.
  intros dbg rayon bits count. induction segs as [|s segs IH]; intros d junk rest F4 F J.
  - exists d. splits; [apply from_here|exact J|exact F4| |reflexivity]. destruct F4 as [A [B C]]. constructor; cbn; auto using quant_same, dc_same, ac_same.
  - inv F. destruct (hseg_moves dbg false rayon bits count d junk s (flat_map hseg_bytes segs ++ rest) F4 H1 J) as [d1 [m [b1 [M1 [M2 [J1 [F1 S1]]]]]]].
    destruct (IH d1 (left_over s) rest F1 H2 J1) as [d2 [E2 [J2 [F2 [S2 SS]]]]]. exists d2. splits; auto.
    + cbn [flat_map]. rewrite <- app_assoc. eapply from_trans; [|exact E2]. eapply from_next; [eapply from_next; [apply from_here|exact M1]|exact M2].
    + apply (header_app dbg d d1 d2 [s] segs); auto.
    + rewrite SS. exact (segment_ss _ _ _ _ _ _ _ _ M2).
Qed.

Lemma last_some : forall A B (f : A -> B) (l : list A) x, last (map f l) x = match last_of l with Some a => f a | None => x end.
Proof.
  intros A B f l x. unfold last_of. induction l as [|a l IH] using rev_ind; [reflexivity|]. rewrite !map_app, !last_app. reflexivity.
Qed.
Lemma slots_ext : forall A (l l' : list (option A)), length l = 4%nat -> length l' = 4%nat ->
  (forall k, (k < 4)%nat -> nth k l None = nth k l' None) -> l = l'.
Proof. intros A l l' L L' H. apply (nth_ext l l' None None); [congruence|]. intros n Hn. apply H. congruence. Qed.

Lemma same_state : forall dbg d d1 d2 l l', header_state dbg d d1 l -> header_state dbg d d2 l' -> d_ss d1 = d_ss d -> d_ss d2 = d_ss d ->
  same_definitions l l' -> d1 = d2.
Proof.
  intros dbg d d1 d2 l l' [[A1 A1'] [A2 A2'] [A3 A3'] A4 A5 A6 A7 A8 A9] [[B1 B1'] [B2 B2'] [B3 B3'] B4 B5 B6 B7 B8 B9] SA SB [Q [H [R [S T]]]].
  assert (E1 : d_qt d1 = d_qt d2).
  { apply slots_ext; auto. intros k Hk. specialize (Q k Hk). specialize (A1' k Hk). specialize (B1' k Hk).
    destruct (last_entry _ (dqts l)) as [t|], (last_entry _ (dqts l')) as [t'|]; cbn [option_map] in Q; try discriminate; [|congruence].
    injection Q as Q. destruct A1' as [q [A1' N]], B1' as [q' [B1' N']]. rewrite Q in N. rewrite (order_unique _ _ _ N N') in A1'. congruence. }
  assert (E2 : d_dc d1 = d_dc d2).
  { apply slots_ext; auto. intros k Hk. specialize (H DC k Hk). specialize (A2' k Hk). specialize (B2' k Hk).
    destruct (last_entry _ (dhts l)) as [t|], (last_entry _ (dhts l')) as [t'|]; cbn [option_map] in H; try discriminate; [|congruence].
    injection H as H H'. destruct A2' as [q [A2' N]], B2' as [q' [B2' N']]. congruence. }
  assert (E3 : d_ac d1 = d_ac d2).
  { apply slots_ext; auto. intros k Hk. specialize (H AC k Hk). specialize (A3' k Hk). specialize (B3' k Hk).
    destruct (last_entry _ (dhts l)) as [t|], (last_entry _ (dhts l')) as [t'|]; cbn [option_map] in H; try discriminate; [|congruence].
    injection H as H H'. destruct A3' as [q [A3' N]], B3' as [q' [B3' N']]. congruence. }
  rewrite last_some in A5, A6, B5, B6. rewrite <- (map_id (dris l)), last_some in A4. rewrite <- (map_id (dris l')), last_some in B4. rewrite R in A4. rewrite S in A5. rewrite T in A6.
  destruct d1, d2. cbn in *. congruence.
Qed.

Lemma definitions_only : forall dbg rayon d a l l' rest, reachable dbg rayon d -> between_segments dbg rayon d a ->
  Forall (fun s => hseg_ok (snd s)) l -> Forall (fun s => hseg_ok (snd s)) l' -> same_definitions l l' ->
  bytes (a ++ flat_map hseg_bytes l ++ rest) -> bytes (a ++ flat_map hseg_bytes l' ++ rest) ->
  decode dbg rayon d (a ++ flat_map hseg_bytes l ++ rest) = decode dbg rayon d (a ++ flat_map hseg_bytes l' ++ rest).
Proof.
  intros dbg rayon d a l l' rest R [d1 [junk [bits [count [J F]]]]] O O' S B B'.
  assert (F4 : four_slots d1).
  { assert (Ba : bytes a) by (unfold bytes in *; rewrite !Forall_app in B; tauto).
    apply ok_slots. assert (Oc : occurs dbg false rayon (PcMarker, d1, mkBiter junk bits count)).
    { clear - R F Ba. remember (PcMarker, d1, mkBiter junk bits count) as c. clear Heqc. induction F as [|c1 c2 F IH M]; [apply occurs_decode; assumption|eapply occurs_moves; eassumption]. }
    apply occurs_ok in Oc. apply Oc. }
  destruct (header_walk dbg rayon bits count l d1 junk rest F4 O J) as [x [Fx [Jx [_ [Hx Sx]]]]].
  destruct (header_walk dbg rayon bits count l' d1 junk rest F4 O' J) as [y [Fy [Jy [_ [Hy Sy]]]]].
  pose proof (same_state dbg d1 x y l l' Hx Hy Sx Sy S). subst y.
  apply (decode_join dbg rayon d _ _ x (left_overs l junk) (left_overs l' junk) rest bits count R B B'); [| |exact Jx|exact Jy].
  - eapply from_trans; [exact (from_ext (flat_map hseg_bytes l ++ rest) _ _ _ _ _ _ F)|exact Fx].
  - eapply from_trans; [exact (from_ext (flat_map hseg_bytes l' ++ rest) _ _ _ _ _ _ F)|exact Fy].
Qed.

(** ** Segments that define different things may be exchanged *)
Lemma same_refl : forall l, same_definitions l l.
Proof. intros l. repeat split; reflexivity. Qed.
Lemma same_trans : forall a b c, same_definitions a b -> same_definitions b c -> same_definitions a c.
Proof. intros a b c [A1 [A2 [A3 [A4 A5]]]] [B1 [B2 [B3 [B4 B5]]]]. unfold same_definitions. splits; [intros k Hk; rewrite A1, B1; auto|intros k e Hk; rewrite A2, B2; auto|congruence|congruence|congruence]. Qed.
Lemma last_of_app : forall A (a b : list A), last_of (a ++ b) = match last_of b with Some x => Some x | None => last_of a end.
Proof.
  intros A a b. unfold last_of. rewrite map_app, last_app. destruct b as [|x b] using rev_ind; [reflexivity|]. rewrite map_app, !last_app. reflexivity.
Qed.
Lemma map_pick : forall A B (f : A -> B) (x y : option A), option_map f (match x with Some a => Some a | None => y end) = match option_map f x with Some a => Some a | None => option_map f y end.
Proof. intros A B f [x|] y; reflexivity. Qed.
Lemma same_app : forall a b a' b', same_definitions a a' -> same_definitions b b' -> same_definitions (a ++ b) (a' ++ b').
Proof.
  intros a b a' b' [A1 [A2 [A3 [A4 A5]]]] [B1 [B2 [B3 [B4 B5]]]]. unfold same_definitions, dqts, dhts, dris, sofs, adobes in *. rewrite !flat_map_app, !last_of_app.
  splits; try (rewrite ?B3, ?B4, ?B5, ?A3, ?A4, ?A5; reflexivity); intros; rewrite !last_entry_app, !map_pick; [rewrite B1, A1|rewrite B2, A2]; auto.
Qed.
Lemma entry_in : forall A (sel : A -> bool) l x, last_entry sel l = Some x -> In x l /\ sel x = true.
Proof.
  induction l as [|y l IH]; intros x E; [discriminate|]. cbn [last_entry] in E. destruct (last_entry sel l) as [z|] eqn:L; [inv E; destruct (IH x eq_refl); split; [right; assumption|assumption]|].
  destruct (sel y) eqn:S; [|discriminate]. inv E. split; [left; reflexivity|exact S].
Qed.
Lemma entry_swap : forall A (sel : A -> bool) a b, (forall x y, In x a -> In y b -> sel x = true -> sel y = true -> False) ->
  last_entry sel (a ++ b) = last_entry sel (b ++ a).
Proof.
  intros A sel a b H. rewrite !last_entry_app. destruct (last_entry sel a) as [x|] eqn:Ea, (last_entry sel b) as [y|] eqn:Eb; try reflexivity.
  exfalso. apply entry_in in Ea, Eb. apply (H x y); tauto.
Qed.
Lemma same_swap : forall s t, independent s t -> same_definitions [s; t] [t; s].
Proof.
  intros [f s] [g t] H. unfold independent in H. cbn [snd] in H. unfold same_definitions, dqts, dhts, dris, sofs, adobes.
  destruct s, t; cbn [flat_map app snd]; rewrite ?app_nil_r; try contradiction; splits; try reflexivity; intros; f_equal; apply entry_swap.
  - intros x y X Y SX SY. apply (H x y X Y). lia.
  - intros x y X Y SX SY. unfold is_slot in *. destruct c, (th_class x) eqn:Cx, (th_class y) eqn:Cy; try discriminate; (apply (H x y X Y); [congruence|lia]).
Qed.
Lemma independent_sym : forall s t, independent s t -> independent t s.
Proof.
  intros [f s] [g t]. unfold independent. cbn [snd]. destruct s, t; auto.
  - intros H x y X Y E. exact (H y x Y X (eq_sym E)).
  - intros H x y X Y C E. exact (H y x Y X (eq_sym C) (eq_sym E)).
Qed.
Lemma pairs_perm : forall l l', Permutation l l' -> ForallOrdPairs independent l -> ForallOrdPairs independent l'.
Proof.
  induction 1 as [|x l l' P IH|x y l|l l1 l2 P1 IH1 P2 IH2]; intros F; auto.
  - inv F. constructor; auto. rewrite Forall_forall in *. intros z Z. apply H1. apply Permutation_sym in P. exact (Permutation_in _ P Z).
  - inv F. inv H2. inv H1. constructor; [constructor; [apply independent_sym; assumption|assumption]|constructor; assumption].
Qed.
Lemma same_perm : forall l l', Permutation l l' -> ForallOrdPairs independent l -> same_definitions l l'.
Proof.
  induction 1 as [|x l l' P IH|x y l|l l1 l2 P1 IH1 P2 IH2]; intros F.
  - apply same_refl.
  - inv F. apply (same_app [x] l [x] l'); [apply same_refl|auto].
  - inv F. inv H1. apply (same_app [y; x] l [x; y] l); [apply same_swap; assumption|apply same_refl].
  - eapply same_trans; [apply IH1; exact F|apply IH2; eapply pairs_perm; eassumption].
Qed.
Lemma any_order : forall dbg rayon d a l l' rest, reachable dbg rayon d -> between_segments dbg rayon d a ->
  Forall (fun s => hseg_ok (snd s)) l -> ForallOrdPairs independent l -> Permutation l l' ->
  bytes (a ++ flat_map hseg_bytes l ++ rest) ->
  decode dbg rayon d (a ++ flat_map hseg_bytes l ++ rest) = decode dbg rayon d (a ++ flat_map hseg_bytes l' ++ rest).
Proof.
  intros dbg rayon d a l l' rest R Bt O I P B. apply definitions_only; auto.
  - rewrite Forall_forall in *. intros s Hs. apply O. apply Permutation_sym in P. exact (Permutation_in _ P Hs).
  - apply same_perm; assumption.
  - unfold bytes in *. rewrite !Forall_app in *. splits; try tauto. eapply Permutation_Forall; [apply (Permutation_flat_map hseg_bytes); exact P|tauto].
Qed.
Lemma grouped : forall dbg rayon d a f g h l1 l2 b rest, reachable dbg rayon d -> between_segments dbg rayon d a ->
  (exists ts us, l1 = [(f, HDqt (ts ++ us))] /\ l2 = [(g, HDqt ts); (h, HDqt us)]) \/
  (exists ts us, l1 = [(f, HDht (ts ++ us))] /\ l2 = [(g, HDht ts); (h, HDht us)]) ->
  Forall (fun s => hseg_ok (snd s)) (l1 ++ b) -> Forall (fun s => hseg_ok (snd s)) (l2 ++ b) ->
  bytes (a ++ flat_map hseg_bytes (l1 ++ b) ++ rest) -> bytes (a ++ flat_map hseg_bytes (l2 ++ b) ++ rest) ->
  decode dbg rayon d (a ++ flat_map hseg_bytes (l1 ++ b) ++ rest) = decode dbg rayon d (a ++ flat_map hseg_bytes (l2 ++ b) ++ rest).
Proof.
  intros dbg rayon d a f g h l1 l2 b rest R Bt H O O' B B'. apply definitions_only; auto. apply same_app; [|apply same_refl].
  destruct H as [[ts [us [-> ->]]]|[ts [us [-> ->]]]]; unfold same_definitions, dqts, dhts, dris, sofs, adobes; cbn [flat_map app snd]; rewrite ?app_nil_r; splits; intros; rewrite ?app_nil_r; reflexivity.
Qed.
