(** From the bytes of a file to the planes of its components (C45). *)
From Coq Require Import Sorted.
From Verif Require Import SpecColor Base Tactics SpecBits SpecReader SpecHuffman SpecBlock SpecTables Biterator Readers ReadersP Huffman HuffmanP3 Marker SpecMarker MarkerP Types Idct IdctP Parsers Decode SpecFrame SpecSegments SpecScan SpecPlane SpecUpsample SpecImage SpecFile BlockP PlaneP SegmentsP SafeP InvP ScanP RestartP PlacedP EncodeP SpecGlobal GlobalP SpecStream StreamP StreamP2 RowP UpsampleP ImageP.

(** ** Tables *)
Lemma last_entry_app : forall A (sel : A -> bool) a b, last_entry sel (a ++ b) = match last_entry sel b with Some x => Some x | None => last_entry sel a end.
Proof.
  induction a as [|x a IH]; intros b; cbn [app last_entry]; [destruct (last_entry sel b); reflexivity|]. rewrite IH. destruct (last_entry sel b); reflexivity.
Qed.
Lemma quant_app : forall a b c ts us, quant_slots a b ts -> quant_slots b c us -> quant_slots a c (ts ++ us).
Proof.
  intros a b c ts us [L1 H1] [L2 H2]. split; [exact L2|]. intros k Hk. rewrite last_entry_app. specialize (H1 k Hk). specialize (H2 k Hk).
  destruct (last_entry _ us); [exact H2|]. rewrite H2. exact H1.
Qed.
Lemma dc_app : forall dbg a b c ts us, dc_slots dbg a b ts -> dc_slots dbg b c us -> dc_slots dbg a c (ts ++ us).
Proof.
  intros dbg a b c ts us [L1 H1] [L2 H2]. split; [exact L2|]. intros k Hk. rewrite last_entry_app. specialize (H1 k Hk). specialize (H2 k Hk).
  destruct (last_entry _ us); [exact H2|]. rewrite H2. exact H1.
Qed.
Lemma ac_app : forall dbg a b c ts us, ac_slots dbg a b ts -> ac_slots dbg b c us -> ac_slots dbg a c (ts ++ us).
Proof.
  intros dbg a b c ts us [L1 H1] [L2 H2]. split; [exact L2|]. intros k Hk. rewrite last_entry_app. specialize (H1 k Hk). specialize (H2 k Hk).
  destruct (last_entry _ us); [exact H2|]. rewrite H2. exact H1.
Qed.

(** ** Steps *)
Lemma marker_step : forall dbg rerun rayon d junk fill c m rest bits count, no_marker junk -> code_of m c -> m <> EOI ->
  step dbg rerun rayon PcMarker d (mkBiter (junk ++ marker_bytes fill c ++ rest) bits count) = (d, mkBiter rest bits count, SNext (PcSegment m)).
Proof.
  intros dbg rerun rayon d junk fill c m rest bits count J C N. cbn [step bi_input].
  assert (Nz : c <> 0 /\ c <> 255) by (inversion C; subst; split; lia).
  assert (E : parse_marker (junk ++ marker_bytes fill c ++ rest) = Ok (m, rest)).
  { apply parse_marker_ok. exists c. split; [exact C|]. exists junk, fill. destruct Nz. split; [exact J|]. split; auto. split; auto. unfold marker_bytes. rewrite <- app_assoc. reflexivity. }
  rewrite E. cbn [bi_bits bi_count]. destruct m; congruence.
Qed.

(** What the header segments leave in the decoder. *)
Record header_state (dbg : bool) (d d' : decoder) (l : list (nat * hseg)) : Prop := mkHS {
  hs_qt : quant_slots (d_qt d) (d_qt d') (dqts l);
  hs_dc : dc_slots dbg (d_dc d) (d_dc d') (dhts l);
  hs_ac : ac_slots dbg (d_ac d) (d_ac d') (dhts l);
  hs_dri : d_restart d' = last (dris l) (d_restart d);
  hs_frame : d_frame d' = last (map (fun h => Some (frame_of (fh_marker h) (fh_precision h) (fh_lines h) (fh_samples h) (fh_comps h))) (sofs l)) (d_frame d);
  hs_color : d_color d' = last (map transform_of (adobes l)) (d_color d);
  hs_planes : d_planes d' = d_planes d;
  hs_finished : d_finished d' = d_finished d;
  hs_scan : d_scan d' = d_scan d;
}.
Lemma last_any : forall A (l : list A) x d d', last (x :: l) d = last (x :: l) d'.
Proof. induction l as [|y l IH]; intros x d d'; [reflexivity|]. apply (IH y d d'). Qed.
Lemma last_app : forall A (a b : list A) d, last (a ++ b) d = last b (last a d).
Proof.
  induction a as [|x a IH]; intros b d; [reflexivity|]. cbn [app]. destruct a as [|y a]; [destruct b as [|z b]; [reflexivity|apply (last_any _ b z)]|].
  change (last (x :: (y :: a) ++ b) d) with (last ((y :: a) ++ b) d). rewrite IH. reflexivity.
Qed.
Lemma header_app : forall dbg d d1 d2 a b, header_state dbg d d1 a -> header_state dbg d1 d2 b -> header_state dbg d d2 (a ++ b).
Proof.
  intros dbg d d1 d2 a b [A1 A2 A3 A4 A5 A6 A7 A8 A9] [B1 B2 B3 B4 B5 B6 B7 B8 B9]. unfold dqts, dhts, dris, sofs, adobes in *. constructor; unfold dqts, dhts, dris, sofs, adobes; rewrite ?flat_map_app, ?map_app, ?last_app.
  - eapply quant_app; eauto.
  - eapply dc_app; eauto.
  - eapply ac_app; eauto.
  - rewrite B4, A4. reflexivity.
  - rewrite B5, A5. reflexivity.
  - rewrite B6, A6. reflexivity.
  - congruence.
  - congruence.
  - congruence.
Qed.
Lemma quant_same : forall l, length l = 4%nat -> quant_slots l l [].
Proof. intros l H. split; [exact H|]. intros k _. reflexivity. Qed.
Lemma dc_same : forall dbg l, length l = 4%nat -> dc_slots dbg l l [].
Proof. intros dbg l H. split; [exact H|]. intros k _. reflexivity. Qed.
Lemma ac_same : forall dbg l, length l = 4%nat -> ac_slots dbg l l [].
Proof. intros dbg l H. split; [exact H|]. intros k _. reflexivity. Qed.

(** One header segment.  The decoder goes on behind it, or (for a comment) inside it. *)
Definition left_over (s : nat * hseg) : list Z := match snd s with HCom p => segment p | _ => [] end.
Lemma hseg_moves : forall dbg rerun rayon bits count d junk s rest, four_slots d -> hseg_ok (snd s) -> no_marker junk ->
  exists d' m b1, moves dbg rerun rayon (PcSegment m, d, b1) (PcMarker, d, mkBiter (junk ++ hseg_bytes s ++ rest) bits count) /\
    moves dbg rerun rayon (PcMarker, d', mkBiter (left_over s ++ rest) bits count) (PcSegment m, d, b1) /\
    no_marker (left_over s) /\ four_slots d' /\ header_state dbg d d' [s].
Proof.
  intros dbg rerun rayon bits count d junk [fill s] rest F4 [Ho Hl] J. cbn [snd fst] in *. unfold hseg_bytes. cbn [fst snd].
  assert (G : forall m, code_of m (hseg_code s) -> m <> EOI -> no_segment m = false -> forall d',
    step dbg rerun rayon (PcSegment m) d (mkBiter (segment (hseg_payload s) ++ rest) bits count) = (d', mkBiter rest bits count, SNext PcMarker) ->
    four_slots d' -> header_state dbg d d' [(fill, s)] -> left_over (fill, s) = [] ->
    exists d' m b1, moves dbg rerun rayon (PcSegment m, d, b1) (PcMarker, d, mkBiter (junk ++ (marker_bytes fill (hseg_code s) ++ segment (hseg_payload s)) ++ rest) bits count) /\
      moves dbg rerun rayon (PcMarker, d', mkBiter (left_over (fill, s) ++ rest) bits count) (PcSegment m, d, b1) /\
      no_marker (left_over (fill, s)) /\ four_slots d' /\ header_state dbg d d' [(fill, s)]).
  { intros m C N S d' E F' H' L'. rewrite L'. exists d', m, (mkBiter (segment (hseg_payload s) ++ rest) bits count). splits; [|exact E|constructor|exact F'|exact H'].
    cbn [moves]. rewrite <- app_assoc. apply marker_step; auto. }
  pose proof F4 as [F1 [F2 F3]].
  assert (Same : forall l, dqts l = [] -> dhts l = [] -> dris l = [] -> sofs l = [] -> adobes l = [] -> header_state dbg d d l).
  { intros l E1 E2 E3 E4 E5. constructor; rewrite ?E1, ?E2, ?E3, ?E4, ?E5; auto using quant_same, dc_same, ac_same. }
  destruct s as [ts|ts|n|h|n p|v fl t|p]; cbn [hseg_code hseg_payload] in *.
  - destruct (dqt_segment dbg rerun rayon d ts rest bits count F4 Ho) as [l [E Q]]. apply (G DQT ltac:(constructor) ltac:(discriminate) eq_refl _ E); [| |reflexivity].
    + split; [exact F1|split; [exact F2|apply Q]].
    + constructor; cbn; rewrite ?app_nil_r; auto using dc_same, ac_same.
  - destruct (dht_segment dbg rerun rayon d ts rest bits count F4 Ho) as [dc [ac [E [Q1 Q2]]]]. apply (G DHT ltac:(constructor) ltac:(discriminate) eq_refl _ E); [| |reflexivity].
    + split; [apply Q1|split; [apply Q2|exact F3]].
    + constructor; cbn; rewrite ?app_nil_r; auto using quant_same.
  - pose proof (dri_segment dbg rerun rayon d n [] rest bits count) as E. rewrite app_nil_r in E. apply (G DRI ltac:(constructor) ltac:(discriminate) eq_refl _ E); [exact F4| |reflexivity].
    constructor; cbn; auto using quant_same, dc_same, ac_same.
  - destruct Ho as [Hm Hh]. pose proof (sof_segment dbg rerun rayon (fh_marker h) d (fh_precision h) _ _ _ [] rest bits count Hh) as E. rewrite app_nil_r in E.
    apply (G (SOF (fh_marker h)) ltac:(constructor; lia) ltac:(discriminate) eq_refl _ E); [exact F4| |reflexivity].
    constructor; cbn; auto using quant_same, dc_same, ac_same.
  - destruct Ho as [Hn [H14 _]]. pose proof (app_segment dbg rerun rayon n d p rest bits count H14) as E.
    apply (G (APP n) ltac:(constructor; lia) ltac:(discriminate) eq_refl _ E); [exact F4|apply Same; reflexivity|reflexivity].
  - destruct Ho as [Hv [Hf [_ Ht]]]. assert (T : exists a, transform_of t = Some a).
    { unfold transform_of. destruct (Z.eqb_spec t 0); eauto. destruct (Z.eqb_spec t 1); eauto. destruct (Z.eqb_spec t 2); eauto. lia. }
    destruct T as [a T]. pose proof (adobe_segment dbg rerun rayon d v fl t a [] rest bits count Hv Hf T) as E. rewrite app_nil_r in E.
    apply (G (APP 14) ltac:(apply (code_APP 14); lia) ltac:(discriminate) eq_refl _ E); [exact F4| |reflexivity].
    constructor; cbn; auto using quant_same, dc_same, ac_same.
  - destruct Ho as [_ Hp]. exists d, COM, (mkBiter (segment p ++ rest) bits count). splits; [| |exact Hp|exact F4|apply Same; reflexivity]; cbn [moves].
    + rewrite <- app_assoc. apply (marker_step dbg rerun rayon d junk fill 254 COM); [exact J|constructor|discriminate].
    + reflexivity.
Qed.

Lemma hseg_step : forall dbg rerun rayon bits count d junk s rest, four_slots d -> hseg_ok (snd s) -> no_marker junk ->
  exists d', from dbg rerun rayon (PcMarker, d, mkBiter (junk ++ hseg_bytes s ++ rest) bits count) (PcMarker, d', mkBiter (left_over s ++ rest) bits count) /\
    no_marker (left_over s) /\ four_slots d' /\ header_state dbg d d' [s].
Proof.
  intros dbg rerun rayon bits count d junk s rest F4 H J. destruct (hseg_moves dbg rerun rayon bits count d junk s rest F4 H J) as [d' [m [b1 [M1 [M2 H']]]]].
  exists d'. split; [|exact H']. eapply from_next; [eapply from_next; [apply from_here|exact M1]|exact M2].
Qed.

Lemma from_trans : forall dbg rerun rayon c1 c2 c3, from dbg rerun rayon c1 c2 -> from dbg rerun rayon c2 c3 -> from dbg rerun rayon c1 c3.
Proof. intros dbg rerun rayon c1 c2 c3 A B. induction B; [exact A|]. eapply from_next; eauto. Qed.

Definition left_overs (segs : list (nat * hseg)) (junk : list Z) : list Z := fold_left (fun _ s => left_over s) segs junk.
Lemma header_runs : forall dbg rerun rayon bits count segs d junk rest, four_slots d -> Forall (fun s => hseg_ok (snd s)) segs -> no_marker junk ->
  exists d', from dbg rerun rayon (PcMarker, d, mkBiter (junk ++ flat_map hseg_bytes segs ++ rest) bits count) (PcMarker, d', mkBiter (left_overs segs junk ++ rest) bits count) /\
    no_marker (left_overs segs junk) /\ four_slots d' /\ header_state dbg d d' segs.
Proof.
  intros dbg rerun rayon bits count. induction segs as [|s segs IH]; intros d junk rest F4 F J.
  - exists d. splits; [apply from_here|exact J|exact F4|]. destruct F4 as [A [B C]]. constructor; cbn; auto using quant_same, dc_same, ac_same.
  - inv F. destruct (hseg_step dbg rerun rayon bits count d junk s (flat_map hseg_bytes segs ++ rest) F4 H1 J) as [d1 [E1 [J1 [F1 S1]]]].
    destruct (IH d1 (left_over s) rest F1 H2 J1) as [d2 [E2 [J2 [F2 S2]]]]. exists d2. splits; auto.
    + cbn [flat_map]. rewrite <- app_assoc. eapply from_trans; eauto.
    + apply (header_app dbg d d1 d2 [s] segs); auto.
Qed.
Lemma header_run : forall dbg rerun rayon bits count segs d junk rest, four_slots d -> Forall (fun s => hseg_ok (snd s)) segs -> no_marker junk ->
  exists d' junk', from dbg rerun rayon (PcMarker, d, mkBiter (junk ++ flat_map hseg_bytes segs ++ rest) bits count) (PcMarker, d', mkBiter (junk' ++ rest) bits count) /\
    no_marker junk' /\ four_slots d' /\ header_state dbg d d' segs.
Proof. intros. destruct (header_runs dbg rerun rayon bits count segs d junk rest) as [d' H2]; auto. exists d', (left_overs segs junk). exact H2. Qed.

(** ** The scan header *)
Lemma bits_full : forall dbg, set_bits dbg (z_from_to 0 63) 0 = Ok (2 ^ 64 - 1).
Proof. intros []; vm_compute; reflexivity. Qed.
Lemma finish_all : forall dbg hs, (length hs <= 4)%nat -> map h_index hs = zrange (lenZ hs) ->
  exists fin, mark_finished dbg (z_from_to 0 63) hs [0; 0; 0; 0] = Ok fin /\ all_finished fin hs = Ok true.
Proof.
  intros dbg hs L E. pose proof (bits_full dbg) as B. assert (NE : z_from_to 0 63 <> []) by discriminate. generalize dependent (z_from_to 0 63). intros js B NE.
  assert (U : forall h r fin i fin', h_index h = i -> index fin i = Ok 0 -> store fin i (2 ^ 64 - 1) = Ok fin' -> mark_finished dbg js (h :: r) fin = mark_finished dbg js r fin').
  { intros h r fin i fin' Q1 Q2 Q3. destruct js; [congruence|]. cbn [mark_finished]. rewrite Q1, Q2. cbn [bind]. rewrite B. cbn [bind]. rewrite Q3. reflexivity. }
  assert (N0 : forall fin, mark_finished dbg js [] fin = Ok fin) by (intros; destruct js; reflexivity).
  destruct hs as [|h0 [|h1 [|h2 [|h3 [|h4 hs]]]]]; cbn [length] in L; try lia; cbn [map] in E; unfold lenZ in E; cbn [length Z.of_nat Pos.of_succ_nat Pos.succ] in E;
    unfold zrange in E; cbn in E.
  - eexists. split; [apply N0|reflexivity].
  - injection E as E0. erewrite U by (exact E0 || reflexivity). eexists. split; [apply N0|]. cbn [all_finished]. rewrite E0. reflexivity.
  - injection E as E0 E1. erewrite U by (exact E0 || reflexivity). erewrite U by (exact E1 || reflexivity).
    eexists. split; [apply N0|]. cbn [all_finished]. rewrite E0, E1. reflexivity.
  - injection E as E0 E1 E2. erewrite U by (exact E0 || reflexivity). erewrite U by (exact E1 || reflexivity). erewrite U by (exact E2 || reflexivity).
    eexists. split; [apply N0|]. cbn [all_finished]. rewrite E0, E1, E2. reflexivity.
  - injection E as E0 E1 E2 E3. erewrite U by (exact E0 || reflexivity). erewrite U by (exact E1 || reflexivity). erewrite U by (exact E2 || reflexivity). erewrite U by (exact E3 || reflexivity).
    eexists. split; [apply N0|]. cbn [all_finished]. rewrite E0, E1, E2, E3. reflexivity.
Qed.

Lemma take_all : forall hs ps, (length hs <= 4)%nat -> map h_index hs = zrange (lenZ hs) -> length ps = length hs ->
  exists r, take_planes ps hs = Ok (ps, r).
Proof.
  intros hs ps L E Lp.
  destruct hs as [|h0 [|h1 [|h2 [|h3 [|h4 hs]]]]]; cbn [length] in L; try lia; cbn [map] in E; unfold lenZ in E; cbn [length Z.of_nat Pos.of_succ_nat Pos.succ] in E;
    unfold zrange in E; cbn in E; [clear E|injection E as E0|injection E as E0 H0|injection E as E0 H0 H1|injection E as E0 H0 H1 H2];
    destruct ps as [|p0 [|p1 [|p2 [|p3 [|p4 ps]]]]]; try discriminate Lp; cbn [take_planes]; try rewrite E0; try rewrite H0; try rewrite H1; try rewrite H2; eexists; reflexivity.
Qed.

Lemma codings_length : forall l cs ss ts qs, comp_codings l cs ss ts qs -> length ss = length cs /\ length ts = length cs /\ length qs = length cs /\ map sc_id ss = map cs_id cs.
Proof.
  intros l cs ss ts qs H. induction H as [|c cs s ss t ts q qs C H [A [B [D E]]]]; [auto|]. cbn [length map]. rewrite (cc_id _ _ _ _ _ C), E. auto.
Qed.
Lemma codings_nth : forall l cs ss ts qs, comp_codings l cs ss ts qs -> forall k c, nth_error cs k = Some c ->
  exists s t q, nth_error ss k = Some s /\ nth_error ts k = Some t /\ nth_error qs k = Some q /\ comp_coding l c s t q.
Proof. intros l cs ss ts qs H. induction H; intros [|k] c0 E; cbn [nth_error] in *; try discriminate; [inv E; eauto 10|auto]. Qed.

Lemma Forall2_nth_error : forall A B (R : A -> B -> Prop) l l', length l = length l' ->
  (forall k a b, nth_error l k = Some a -> nth_error l' k = Some b -> R a b) -> Forall2 R l l'.
Proof.
  induction l as [|a l IH]; intros [|b l'] L H; try discriminate; constructor; [apply (H 0%nat); reflexivity|]. apply IH; [cbn in L; lia|].
  intros k a0 b0 E1 E2. apply (H (S k)); assumption.
Qed.

(** The headers of a scan with all components in frame order. *)
Lemma scan_in_all : forall m pr lines samples cs ss, map sc_id ss = map cs_id cs -> NoDup (map cs_id cs) -> 1 <= lenZ cs <= 4 ->
  scan_in_frame (frame_of m pr lines samples cs) (mkSpS ss 0 63 0 0) (zrange (lenZ cs)).
Proof.
  intros m pr lines samples cs ss E ND L. assert (Ls : length ss = length cs) by (rewrite <- (map_length sc_id ss), E, map_length; reflexivity).
  unfold scan_in_frame. cbn [sp_comps]. split; [unfold lenZ in *; lia|]. split.
  - rewrite E. assert (Ei : map c_id (f_components (frame_of m pr lines samples cs)) = map cs_id cs) by (unfold frame_of; cbn [f_components]; rewrite map_map; reflexivity).
    apply Forall2_nth_error; [rewrite map_length, zrange_length; unfold lenZ; lia|].
    intros k id j E1 E2. assert (Hk : (k < length cs)%nat) by (rewrite <- (map_length cs_id cs); apply nth_error_Some; congruence).
    assert (Ej : j = Z.of_nat k) by (pose proof (zrange_nth_error (lenZ cs) (Z.of_nat k) ltac:(unfold lenZ; lia)) as Q; rewrite Nat2Z.id in Q; congruence).
    subst j. split; [lia|]. rewrite Ei, Nat2Z.id. split; [exact E1|]. intros j Hj Q. rewrite <- E1 in Q.
    rewrite NoDup_nth_error in ND. assert (j = k); [|lia]. apply ND; [rewrite map_length; lia|exact Q].
  - unfold zrange. generalize 0%nat as s. intros s. assert (Q : forall n s, Sorted Z.lt (map Z.of_nat (seq s n))); [|apply Q].
    induction n as [|n IH]; intros s0; cbn [seq map]; constructor; [apply IH|]. destruct n; cbn [seq map]; constructor. lia.
Qed.

(** ** The tables of the components *)
Lemma entry_in : forall A (sel : A -> bool) l x, last_entry sel l = Some x -> In x l /\ sel x = true.
Proof.
  induction l as [|a l IH]; intros x E; cbn [last_entry] in E; [discriminate|]. destruct (last_entry sel l) eqn:EL.
  - inv E. destruct (IH x eq_refl). split; [right; auto|auto].
  - destruct (sel a) eqn:Es; inv E. split; [left; reflexivity|exact Es].
Qed.
Lemma dhts_ok : forall segs e, Forall (fun s => hseg_ok (snd s)) segs -> In e (dhts segs) -> dht_ok e.
Proof.
  intros segs e F I. unfold dhts in I. apply in_flat_map in I. destruct I as [s [I1 I2]]. rewrite Forall_forall in F. specialize (F s I1). destruct F as [F _].
  destruct (snd s); try contradiction. rewrite Forall_forall in F. apply F. exact I2.
Qed.
Lemma slot_ok : forall A (l : list (option A)) k x, length l = 4%nat -> 0 <= k <= 3 -> nth (Z.to_nat k) l None = Some x -> index l k = Ok (Some x).
Proof. intros A l k x L K E. rewrite (index_nth _ l k None) by (unfold lenZ; lia). rewrite E. reflexivity. Qed.

Lemma coding_ready : forall dbg segs d c comp s t q k, Forall (fun s => hseg_ok (snd s)) segs ->
  dc_slots dbg [None; None; None; None] (d_dc d) (dhts segs) -> ac_slots dbg [None; None; None; None] (d_ac d) (dhts segs) ->
  comp_coding segs c s t q -> comp_ready dbg d comp (mkHeader k (sc_dc s) (sc_ac s)) t.
Proof.
  intros dbg segs d c comp s t q k F [L1 D1] [L2 D2] [_ Hd Ha _ [e1 [E1 [C1 V1]]] [e2 [E2 [C2 V2]]] _].
  specialize (D1 (Z.to_nat (sc_dc s)) ltac:(lia)). rewrite E1 in D1. destruct D1 as [t1 [N1 T1]].
  specialize (D2 (Z.to_nat (sc_ac s)) ltac:(lia)). rewrite E2 in D2. destruct D2 as [t2 [N2 T2]].
  exists t1, t2. cbn [h_dc h_ac]. split; [apply slot_ok; auto|]. split; [apply slot_ok; auto|].
  destruct (entry_in _ _ _ _ E1) as [I1 _]. destruct (entry_in _ _ _ _ E2) as [I2 _]. apply (dhts_ok segs) in I1; auto. apply (dhts_ok segs) in I2; auto.
  destruct I1 as [_ [A1 [A2 [A3 _]]]]. destruct I2 as [_ [B1 [B2 [B3 _]]]]. constructor; rewrite ?C1, ?V1, ?C2, ?V2; auto.
Qed.

Lemma codings_ready : forall dbg segs d (g : comp_spec -> component), Forall (fun s => hseg_ok (snd s)) segs ->
  dc_slots dbg [None; None; None; None] (d_dc d) (dhts segs) -> ac_slots dbg [None; None; None; None] (d_ac d) (dhts segs) ->
  forall cs ss ts qs, comp_codings segs cs ss ts qs -> forall ks, length ks = length cs ->
  comps_ready dbg d (map g cs) (map header_of (combine ss ks)) ts.
Proof.
  intros dbg segs d g F D A cs ss ts qs H. induction H as [|c cs s ss t ts q qs C H IH]; intros ks L; [constructor|].
  destruct ks as [|k ks]; [discriminate|]. cbn [map combine]. constructor; [|apply IH; cbn in L; lia].
  unfold header_of. cbn [fst snd]. eapply coding_ready; eauto.
Qed.

Lemma unset_none : forall A (l : list (option A)) sel, (forall i, In i sel -> exists x, index l i = Ok (Some x)) -> any_unset l sel = Ok false.
Proof.
  induction sel as [|i sel IH]; intros H; [reflexivity|]. cbn [any_unset]. destruct (H i ltac:(left; reflexivity)) as [x ->]. cbn [bind]. apply IH. intros j I. apply H. right. exact I.
Qed.
Lemma ready_tables : forall dbg d cs hs ts, comps_ready dbg d cs hs ts ->
  any_unset (d_dc d) (map h_dc hs) = Ok false /\ any_unset (d_ac d) (map h_ac hs) = Ok false.
Proof.
  intros dbg d cs hs ts H. split; apply unset_none; intros i I; apply in_map_iff in I; destruct I as [h [<- I]];
    (induction H as [|c cs h0 hs t ts [dct [act [I1 [I2 _]]]] H IH]; [contradiction|]; destruct I as [->|I]; [eauto|apply IH; exact I]).
Qed.
Lemma combine_header : forall ss ks, length ks = length ss -> map h_index (map header_of (combine ss ks)) = ks.
Proof.
  induction ss as [|s ss IH]; intros [|k ks] L; try discriminate; [reflexivity|]. cbn [combine map]. rewrite IH by (cbn in L; lia). reflexivity.
Qed.
Lemma header_nth : forall ss ks j hd, nth_error (map header_of (combine ss ks)) j = Some hd -> nth_error ks j = Some (h_index hd).
Proof.
  induction ss as [|s ss IH]; intros [|k ks] [|j] hd E; cbn [combine map nth_error] in *; try discriminate; [inv E; reflexivity|]. apply IH. exact E.
Qed.
Lemma headers_length : forall ss ks, length ks = length ss -> length (map header_of (combine ss ks)) = length ss.
Proof. intros. rewrite map_length, combine_length. lia. Qed.

(** Values of an MCU by component. *)
Lemma concat_nth : forall cs m, mcu_shape cs m -> (forall c, In c cs -> 1 <= cs_h c /\ 1 <= cs_v c) -> forall k c j, nth_error cs k = Some c -> 0 <= j < cs_h c * cs_v c ->
  nth_error (concat m) (blocks_before cs k + Z.to_nat j) = Some (nth (Z.to_nat j) (nth k m []) (mkQ 0 [])).
Proof.
  intros cs m S. induction S as [|c qs cs m L S IH]; intros P k c0 j E Hj; [destruct k; discriminate|]. unfold lenZ in L.
  destruct k as [|k]; cbn [nth_error] in E.
  - inv E. unfold blocks_before. cbn [firstn fold_right Nat.add concat nth]. rewrite nth_error_app1 by lia. apply nth_error_nth'. lia.
  - unfold blocks_before. cbn [firstn fold_right concat nth]. rewrite nth_error_app2 by lia.
    assert (Q : (length qs = Z.to_nat (cs_h c * cs_v c))%nat) by lia. rewrite Q.
    replace (Z.to_nat (cs_h c * cs_v c) + fold_right (fun c n => Z.to_nat (cs_h c * cs_v c) + n) 0 (firstn k cs) + Z.to_nat j - Z.to_nat (cs_h c * cs_v c))%nat
      with (blocks_before cs k + Z.to_nat j)%nat by (unfold blocks_before; lia).
    apply (IH (fun c H => P c (or_intror H)) k c0 j E Hj).
Qed.

(** ** The scan *)
Lemma Forall2_get : forall A B (R : A -> B -> Prop) l l', Forall2 R l l' -> forall i a b, nth_error l i = Some a -> nth_error l' i = Some b -> R a b.
Proof. intros A B R l l' H. induction H; intros [|i] a b E1 E2; cbn [nth_error] in *; try discriminate; [congruence|eauto]. Qed.
Lemma reads_det : forall dbg todo d b log1 d1 b1, mcus_read dbg todo d b log1 d1 b1 ->
  forall log2 d2 b2, mcus_read dbg todo d b log2 d2 b2 -> log1 = log2 /\ d1 = d2 /\ b1 = b2.
Proof.
  intros dbg todo d b log1 d1 b1 H. induction H as [d b|y x todo d b e1 c1 e2 c2 e3 log d' b' R A D H IH]; intros log2 d2 b2 H2; [inv H2; auto|].
  inversion H2 as [|y0 x0 t0 dd0 bb0 f1 g1 f2 g2 f3 logx dx bx R' A' D' H']; subst. rewrite R in R'. inv R'. rewrite A in A'. inv A'. rewrite D in D'. inv D'.
  destruct (IH _ _ _ H') as [-> [-> ->]]. auto.
Qed.

Lemma shape_fits : forall m pr lines samples cs mm, mcu_shape cs mm -> mcu_fits (f_components (frame_of m pr lines samples cs)) mm.
Proof.
  intros m pr lines samples cs mm H. unfold frame_of. cbn [f_components]. unfold mcu_fits.
  assert (G : forall g, (forall c, c_blocks_per_mcu (g c) = cs_h c * cs_v c) -> Forall2 (fun c qs => length qs = Z.to_nat (c_blocks_per_mcu c)) (map g cs) mm).
  { intros g Hg. induction H; cbn [map]; constructor; auto. rewrite Hg. unfold lenZ in H. lia. }
  apply G. reflexivity.
Qed.
Lemma total_before : forall m pr lines samples cs, header_ok lines samples cs -> total_blocks (f_components (frame_of m pr lines samples cs)) = blocks_before cs (length cs).
Proof.
  intros m pr lines samples cs H. destruct H as [_ _ _ _ _ F]. unfold blocks_before. rewrite firstn_all. unfold frame_of. cbn [f_components].
  assert (G : forall g, (forall c, c_h (g c) = cs_h c /\ c_v (g c) = cs_v c) -> total_blocks (map g cs) = fold_right (fun c n => (Z.to_nat (cs_h c * cs_v c) + n)%nat) 0%nat cs); [|apply G; intros; split; reflexivity].
  intros g Hg. clear - F Hg. induction F as [|c cs [H1 H2] F IH]; [reflexivity|]. cbn [map total_blocks fold_right]. fold (total_blocks (map g cs)). rewrite IH.
  unfold blocks_in. destruct (Hg c) as [-> ->]. rewrite Z2Nat.inj_mul by lia. lia.
Qed.

Lemma scan_coefs : forall dbg d0 fmk pr lines samples cs sc ts ms data tail d,
  header_ok lines samples cs -> lenZ cs <= 4 -> (blocks_before cs (length cs) <= 10)%nat -> 0 <= fmk <= 1 ->
  let fr := frame_of fmk pr lines samples cs in
  d_frame d0 = Some fr -> d_scan d0 = Some sc -> s_start sc = 0 -> 63 <= s_end sc -> s_low sc = 0 ->
  comps_ready dbg d0 (f_components fr) (s_headers sc) ts -> Forall (fun c => exists qt, index (d_qt d0) (cs_tq c) = Ok (Some qt)) cs ->
  0 <= d_restart d0 -> scan_init true d0 = Ok d -> marker_tail tail -> bytes tail ->
  Forall (mcu_shape cs) ms -> lenZ ms = mcus lines (largest (map cs_v cs)) * mcus samples (largest (map cs_h cs)) ->
  scan_data ts (d_restart d0) 0 ms data ->
  exists log d' b', mcus_read dbg (mcu_list (f_mcu fr)) d (mkBiter (data ++ tail) 0 0) log d' b' /\ Forall2 logged log ms /\
    (exists ps, in_scan d0 fr ps d') /\ exists ds, bi_input b' = stuff ds ++ tail.
Proof.
  intros dbg d0 fmk pr lines samples cs sc ts ms data tail d HO L4 Few Fm fr Fr Sc S0 S1 S2 RD Qts R0 SI MT BT Sh Lm SD.
  assert (FG : frame_good fr) by (exists fmk, pr, lines, samples, cs; split; [reflexivity|exact HO]).
  destruct (frame_fits fr FG) as [_ [W0 [H0 _]]].
  assert (Lts : length ts = length cs).
  { assert (G : length ts = length (f_components fr)) by (clear - RD; induction RD; cbn; auto). rewrite G. unfold fr, frame_of. cbn [f_components]. apply map_length. }
  apply (scan_read dbg d0 fr sc ts) with (n := 0) (pre := @nil (Z * Z)); auto.
  - unfold fr. rewrite total_before by exact HO. exact Few.
  - unfold fr, frame_of. cbn [f_components]. apply Forall_forall. intros c Ic. apply in_map_iff in Ic. destruct Ic as [c0 [<- Ic]]. unfold blocks_in. cbn [c_blocks_per_mcu c_v c_h].
    destruct HO as [_ _ _ _ _ HF]. rewrite Forall_forall in HF. destruct (HF c0 Ic). rewrite Z2Nat.inj_mul by lia. lia.
  - unfold fr, frame_of. cbn [f_components]. apply Forall_forall. intros c Ic. apply in_map_iff in Ic. destruct Ic as [c0 [<- Ic]]. cbn [c_tq]. rewrite Forall_forall in Qts. auto.
  - unfold coding_process, fr, frame_of. cbn [f_marker]. assert (O : fmk = 0 \/ fmk = 1) by lia. destruct O as [-> | ->]; cbn; auto.
  - unfold lenZ in L4. lia.
  - lia.
  - pose proof (mcu_length (f_mcu fr) H0 W0) as ML. unfold lenZ in ML, Lm. unfold fr, frame_of in ML. cbn [f_mcu dim_h dim_w] in ML. unfold fr, frame_of. cbn [f_mcu]. lia.
  - eapply Forall_impl; [|exact Sh]. intros mm. apply shape_fits.
  - destruct (init_counts _ _ _ SI R0) as [_ [C2 [C3 C4]]]. constructor; auto.
    + exists (repeat 0 (4 - length ts)). unfold lenZ in L4. split; [|unfold zeros; rewrite map_length, repeat_length; lia]. rewrite C2. unfold zeros.
      clear - Lts L4. destruct ts as [|a [|b [|c [|e [|f l]]]]]; try reflexivity. cbn in Lts. lia.
    + unfold scan_init in SI. rewrite Fr, Sc in SI.
      destruct (if s_start sc =? 0 then _ else _) as [u| | |]; try discriminate. cbn [bind] in SI. destruct u; [discriminate|].
      destruct (if 1 <? s_end sc then _ else _) as [u| | |]; try discriminate. cbn [bind] in SI. destruct u; [discriminate|].
      destruct (assert_ (lenZ (f_components fr) <=? 4) PCapacity) as [u| | |]; try discriminate. cbn [bind] in SI. inv SI. cbn [set_ss d_ss ss_results].
      eapply covered_sized. apply covered_start. exact FG.
  - intros _. destruct (init_counts _ _ _ SI R0) as [C [_ [_ [x E]]]]. rewrite E in C at 1. exact C.
Qed.

Lemma scan_dc : forall dbg d0 m pr lines samples cs sc ts ms data tail d,
  header_ok lines samples cs -> lenZ cs <= 4 -> (blocks_before cs (length cs) <= 10)%nat -> 0 <= m <= 1 ->
  let fr := frame_of m pr lines samples cs in
  d_frame d0 = Some fr -> d_scan d0 = Some sc -> s_start sc = 0 -> 63 <= s_end sc -> s_low sc = 0 ->
  comps_ready dbg d0 (f_components fr) (s_headers sc) ts -> Forall (fun c => exists qt, index (d_qt d0) (cs_tq c) = Ok (Some qt)) cs ->
  0 <= d_restart d0 -> scan_init true d0 = Ok d -> marker_tail tail -> bytes tail ->
  Forall (mcu_shape cs) ms -> lenZ ms = mcus lines (largest (map cs_v cs)) * mcus samples (largest (map cs_h cs)) ->
  scan_data ts (d_restart d0) 0 ms data ->
  exists log d' b', mcus_read dbg (mcu_list (f_mcu fr)) d (mkBiter (data ++ tail) 0 0) log d' b' /\ Forall2 logged log ms.
Proof.
  intros dbg d0 m pr lines samples cs sc ts ms data tail d A1 A2 A3 A4 fr A5 A6 A7 A8 A9 B1 B2 B3 B4 B5 B6 B7 B8 B9.
  destruct (scan_coefs dbg d0 m pr lines samples cs sc ts ms data tail d) as [log [d' [b' [X [Y _]]]]]; auto. exists log, d', b'. auto.
Qed.

Lemma sos_moves : forall dbg rayon segs d fmk pr lines samples cs ss ts qs ms data fill3 code more, 0 < code < 255 -> bytes more ->
  Forall (fun s => hseg_ok (snd s)) segs -> header_ok lines samples cs -> 0 <= fmk <= 1 ->
  d_frame d = Some (frame_of fmk pr lines samples cs) -> d_restart d = last (dris segs) 0 -> 0 <= d_restart d -> d_finished d = [0; 0; 0; 0] ->
  quant_slots [None; None; None; None] (d_qt d) (dqts segs) ->
  dc_slots dbg [None; None; None; None] (d_dc d) (dhts segs) -> ac_slots dbg [None; None; None; None] (d_ac d) (dhts segs) ->
  NoDup (map cs_id cs) -> lenZ cs <= 4 -> (blocks_before cs (length cs) <= 10)%nat -> comp_codings segs cs ss ts qs ->
  let mw := mcus samples (largest (map cs_h cs)) in let mh := mcus lines (largest (map cs_v cs)) in
  Forall (mcu_shape cs) ms -> lenZ ms = mh * mw -> scan_data ts (last (dris segs) 0) 0 ms data ->
  exists d' b' ds, (exists todo d1 b1, moves dbg false rayon (PcScan true todo PhRow, d1, b1) (PcSegment SOS, d, mkBiter (segment (sos_bytes (mkSpS ss 0 63 0 0)) ++ data ++ marker_bytes fill3 code ++ more) 0 0) /\
      moves dbg false rayon (PcMarker, d', b') (PcScan true todo PhRow, d1, b1)) /\
    bi_input b' = stuff ds ++ marker_bytes fill3 code ++ more /\ d_frame d' = d_frame d /\ d_color d' = d_color d /\ (four_slots d -> four_slots d') /\ length (d_planes d') = length cs /\
    forall k c, nth_error cs k = Some c -> exists p qt q, nth_error (d_planes d') k = Some p /\ nth_error qs k = Some q /\ natural_order qt q /\
      lenZ p = 8 * (mh * cs_v c) * (8 * (mw * cs_h c)) /\
      forall y x, 0 <= y < 8 * (mh * cs_v c) -> 0 <= x < 8 * (mw * cs_h c) ->
        exists blk, let q := q_at ms mw k (cs_h c) (cs_v c) y x in block_values blk (q_dc q) (q_ac q) /\
          sample_at p (8 * (mw * cs_h c)) y x = Some (in_block (block_samples blk qt) y x).
Proof.
  intros dbg rayon segs d fmk pr lines samples cs ss ts qs ms data fill3 code more Hcode Bmore F HO Fm Fr Rs R0 Fin Q D A ND L4 Few CC mw mh Sh Lm SD.
  destruct (codings_length _ _ _ _ _ CC) as [Lss [Lts [Lqs Ids]]].
  set (fr := frame_of fmk pr lines samples cs) in *. set (s := mkSpS ss 0 63 0 0). set (ks := zrange (lenZ cs)). set (sc := scan_of s ks).
  assert (L1 : 1 <= lenZ cs) by (destruct HO as [_ _ N _ _ _]; unfold lenZ; destruct cs; [congruence|cbn [length]; lia]).
  assert (Lk : length ks = length cs) by (unfold ks; rewrite zrange_length; unfold lenZ; lia).
  assert (Lh : length (s_headers sc) = length cs) by (unfold sc, scan_of; cbn [s_headers sp_comps s]; rewrite headers_length; lia).
  assert (Hi : map h_index (s_headers sc) = ks) by (unfold sc, scan_of; cbn [s_headers sp_comps s]; apply combine_header; lia).
  assert (Hi' : map h_index (s_headers sc) = zrange (lenZ (s_headers sc))) by (rewrite Hi; unfold ks, lenZ; rewrite Lh; reflexivity).
  assert (SH : sos_segment (Some fr) (sos_bytes s) = Ok (sc, [])).
  { rewrite <- (app_nil_r (sos_bytes s)). apply sos_header_scan; [destruct HO as [_ _ _ N _ _]; unfold fr, frame_of; cbn [f_components]; unfold lenZ in *; rewrite map_length; lia| |apply scan_in_all; auto].
    unfold scan_ok, s. cbn [sp_comps sp_start sp_end sp_high sp_low]. split; [|unfold is_byte, nibble; lia].
    apply Forall_forall. intros x Ix. apply In_nth_error in Ix. destruct Ix as [k Ek]. assert (Hk : (k < length cs)%nat) by (rewrite <- Lss; apply nth_error_Some; congruence).
    destruct (nth_error cs k) as [c|] eqn:Ec; [|apply nth_error_None in Ec; lia]. destruct (codings_nth _ _ _ _ _ CC k c Ec) as [x' [t [q [X1 [_ [_ [Y1 Y2 Y3 _ _ _ _]]]]]]].
    assert (x' = x) by congruence. subst x'. destruct HO as [_ _ _ _ HR _]. rewrite Forall_forall in HR. destruct (HR c (nth_error_In _ _ Ec)) as [B _]. split; [congruence|]. unfold nibble. lia. }
  destruct (finish_all dbg (s_headers sc) ltac:(unfold lenZ in L4; lia) Hi') as [fin [MF AF]].
  set (d1 := set_finished (set_scan d (Some sc)) fin).
  assert (SB : sos_begin dbg d sc = (d1, Ok true)).
  { unfold sos_begin. cbn [set_scan d_frame d_finished]. rewrite Fr.
    assert (CP : coding_process fr = Ok Baseline \/ coding_process fr = Ok Sequential).
    { unfold coding_process, fr, frame_of. cbn [f_marker]. assert (O : fmk = 0 \/ fmk = 1) by lia. destruct O as [-> | ->]; cbn; auto. }
    rewrite Fin. change (s_low sc) with 0. change (s_start sc) with 0. change (s_end sc) with 63. change (0 =? 0) with true. cbn iota.
    rewrite MF. destruct CP as [-> | ->]; rewrite AF; reflexivity. }
  assert (RD : comps_ready dbg d1 (f_components fr) (s_headers sc) ts).
  { unfold fr, frame_of, sc, scan_of. cbn [f_components s_headers sp_comps s]. eapply codings_ready; eauto. }
  destruct (ready_tables _ _ _ _ _ RD) as [U1 U2].
  assert (SI : scan_init true d1 = Ok (set_ss d1 (mkSS zero_coefs [0; 0; 0; 0] 0 0 (d_restart d) (map (fun c => repeat None (Z.to_nat (area (c_block_size c) * 64))) (f_components fr))))).
  { unfold scan_init. cbn [d1 set_finished set_scan d_frame d_scan]. rewrite Fr. change (s_start sc) with 0. change (s_end sc) with 63. change (0 =? 0) with true. change (1 <? 63) with true. cbn iota.
    fold (set_finished (set_scan d (Some sc)) fin). fold d1. rewrite U1. cbn [bind]. rewrite U2. cbn [bind].
    assert (X : lenZ (f_components fr) <=? 4 = true) by (unfold fr, frame_of; cbn [f_components]; unfold lenZ in *; rewrite map_length; lia).
    rewrite X. reflexivity. }
  set (d2 := set_ss d1 _) in SI.
  assert (ST : step dbg false rayon (PcSegment SOS) d (mkBiter (segment (sos_bytes s) ++ data ++ marker_bytes fill3 code ++ more) 0 0)
    = (d2, mkBiter (data ++ marker_bytes fill3 code ++ more) 0 0, SNext (PcScan true (mcu_list (f_mcu fr)) PhRow))).
  { rewrite step_segment by reflexivity. unfold on_payload, do_sos. rewrite Fr, SH, SB, SI. cbn [d2 d1 set_ss set_finished set_scan d_frame]. rewrite Fr. reflexivity. }
  assert (FG : frame_good fr) by (exists fmk, pr, lines, samples, cs; split; [reflexivity|exact HO]).
  destruct (frame_fits fr FG) as [_ [W0 [H0 [_ Ar]]]].
  assert (Qts : forall k c, nth_error cs k = Some c -> exists qt q, index (d_qt d) (cs_tq c) = Ok (Some qt) /\ nth_error qs k = Some q /\ natural_order qt q).
  { intros k c Ec. destruct (codings_nth _ _ _ _ _ CC k c Ec) as [x' [t [q [_ [_ [X3 [_ _ _ Y4 _ _ [e [Y5 Y6]]]]]]]]]. destruct Q as [Q1 Q2]. specialize (Q2 (Z.to_nat (cs_tq c)) ltac:(lia)).
    rewrite Z2Nat.id in Q2 by lia. rewrite Y5 in Q2. destruct Q2 as [qt [Q3 Q4]]. exists qt, q. split; [apply slot_ok; auto|]. split; [exact X3|]. rewrite Y6. exact Q4. }
  destruct (scan_coefs dbg d1 fmk pr lines samples cs sc ts ms data (marker_bytes fill3 code ++ more) d2) as [log [d3 [b3 [MR [LG [[ps IN] [ds EI]]]]]]]; auto.
  { cbn. lia. }
  { apply Forall_forall. intros c0 Ic. apply In_nth_error in Ic. destruct Ic as [k Ek]. destruct (Qts k c0 Ek) as [qt [q [X _]]]. exists qt. exact X. }
  { unfold marker_bytes, marker_tail. exists (match fill3 with O => code | S _ => 255 end), (match fill3 with O => more | S n => (FF n ++ [code]) ++ more end).
    destruct fill3; cbn; split; try reflexivity; lia. }
  { unfold marker_bytes. apply Forall_app. split; [|exact Bmore]. apply Forall_app. split; [unfold FF; apply Forall_forall; intros z Iz; apply repeat_spec in Iz; subst; unfold is_byte; lia|apply Forall_cons; [unfold is_byte; lia|apply Forall_nil]]. }
  { cbn [d1 set_finished set_scan d_restart]. rewrite Rs. exact SD. }
  { assert (SL : scan_loop dbg false true (mcu_list (f_mcu fr)) PhRow d2 (mkBiter (data ++ marker_bytes fill3 code ++ more) 0 0) = (d3, b3, ScDone)) by (apply scan_loop_reads; eauto).
    pose proof IN as [[s3 E3] _ _ Sz3]. assert (L3 : length (ss_results (d_ss d3)) = length (s_headers sc)).
    { apply Forall2_length in Sz3. rewrite <- Sz3, Lh. unfold fr, frame_of. cbn [f_components]. apply map_length. }
    destruct (take_all (s_headers sc) (ss_results (d_ss d3)) ltac:(unfold lenZ in L4; lia) Hi' L3) as [r TK].
    assert (SF : exists d4, scan_finish d3 = Ok d4 /\ d_frame d4 = d_frame d /\ d_color d4 = d_color d /\ (four_slots d -> four_slots d4)).
    { assert (Sc3 : d_scan d3 = Some sc) by (rewrite E3; reflexivity). unfold scan_finish. rewrite Sc3, TK. cbn [bind]. eexists. split; [reflexivity|]. rewrite E3. split; [reflexivity|]. split; [reflexivity|]. exact (fun x => x). }
    destruct SF as [d4 [SF [Fr4 [Co4 Fs4]]]].
    assert (ST2 : step dbg false rayon (PcScan true (mcu_list (f_mcu fr)) PhRow) d2 (mkBiter (data ++ marker_bytes fill3 code ++ more) 0 0) = (d4, b3, SNext PcMarker)) by (cbn [step]; rewrite SL, SF; reflexivity).
    assert (NDh : NoDup (map h_index (s_headers sc))) by (rewrite Hi; unfold ks, zrange; apply FinFun.Injective_map_NoDup; [intros a b; lia|apply seq_NoDup]).
    destruct (scan_placed dbg rayon d1 fmk pr lines samples cs sc d2 _ d4 b3 HO Fr eq_refl NDh SI ST2) as [log2 [d5 [MR2 [Lp PL]]]].
    fold fr in MR2. destruct (reads_det _ _ _ _ _ _ _ MR _ _ _ MR2) as [<- [<- _]].
    exists d4, b3, ds. split; [|split; [exact EI|split; [exact Fr4|split; [exact Co4|split; [exact Fs4|split; [rewrite Lp; exact Lh|]]]]]].
    + exists (mcu_list (f_mcu fr)), d2, (mkBiter (data ++ marker_bytes fill3 code ++ more) 0 0). split; [exact ST|exact ST2].
    + intros k c Ec. assert (Hk : (k < length cs)%nat) by (apply nth_error_Some; congruence).
      destruct (nth_error (s_headers sc) k) as [hd|] eqn:Eh; [|apply nth_error_None in Eh; lia].
      assert (Ek : h_index hd = Z.of_nat k).
      { assert (X : nth_error ks k = Some (h_index hd)) by (rewrite <- Hi, nth_error_map, Eh; reflexivity). unfold ks in X.
        pose proof (zrange_nth_error (lenZ cs) (Z.of_nat k) ltac:(unfold lenZ; lia)) as Y. rewrite Nat2Z.id in Y. congruence. }
      destruct (PL k hd c Eh) as [p [Ep [Lpp Sp]]]; [rewrite Ek, Nat2Z.id; exact Ec|]. rewrite Ek, Nat2Z.id in Sp. fold mw mh in Lpp, Sp.
      destruct (Qts k c Ec) as [qt [q [Q1 [Q2 Q3]]]]. exists p, qt, q. split; [exact Ep|]. split; [exact Q2|]. split; [exact Q3|]. split; [exact Lpp|].
      intros y x Hy Hx. destruct (Sp y x Hy Hx) as [qt' [Q4 Es]]. cbn [d1 set_finished set_scan d_qt] in Q4. assert (qt' = qt) by congruence. subst qt'.
      exists (containing_block log mw (blocks_before cs k) (cs_h c) (cs_v c) y x). cbv zeta. split; [|exact Es].
      destruct HO as [_ _ _ _ _ HF]. rewrite Forall_forall in HF. destruct (HF c (nth_error_In _ _ Ec)) as [Hh Hv].
      set (i := Z.to_nat (mcu_row (cs_v c) y * mw + mcu_col (cs_h c) x)).
      assert (Hi0 : 0 <= mcu_row (cs_v c) y < mh /\ 0 <= mcu_col (cs_h c) x < mw).
      { unfold mcu_row, mcu_col. clear - Hh Hv Hy Hx. split; (split; [apply Z.div_pos; lia|apply Z.div_lt_upper_bound; lia]). }
      assert (Hib : (i < length ms)%nat) by (unfold i; unfold lenZ in Lm; clear - Hi0 Lm; nia).
      destruct (nth_error ms i) as [mm|] eqn:Em; [|apply nth_error_None in Em; lia].
      assert (Lg : length log = length ms) by (eapply Forall2_length; exact LG).
      destruct (nth_error log i) as [coefs|] eqn:El; [|apply nth_error_None in El; lia].
      assert (LO : logged coefs mm) by (eapply Forall2_get; eauto).
      assert (SM : mcu_shape cs mm) by (rewrite Forall_forall in Sh; apply Sh; eapply nth_error_In; eauto).
      assert (BN : 0 <= block_no (cs_h c) (cs_v c) y x < cs_h c * cs_v c).
      { unfold block_no. clear - Hh Hv. pose proof (Z.mod_pos_bound y (8 * cs_v c) ltac:(lia)) as A. pose proof (Z.mod_pos_bound x (8 * cs_h c) ltac:(lia)) as B.
        assert (A1 : 0 <= y mod (8 * cs_v c) / 8 < cs_v c) by (split; [apply Z.div_pos; lia|apply Z.div_lt_upper_bound; lia]).
        assert (B1 : 0 <= x mod (8 * cs_h c) / 8 < cs_h c) by (split; [apply Z.div_pos; lia|apply Z.div_lt_upper_bound; lia]).
        clear A B. generalize dependent (y mod (8 * cs_v c) / 8). generalize dependent (x mod (8 * cs_h c) / 8). intros; nia. }
      pose proof (concat_nth cs mm SM (fun c I => ltac:(destruct (HF c I); lia)) k c _ Ec BN) as CN.
      destruct (LO _ _ CN) as [blk [EB QV]]. assert (X1 : containing_block log mw (blocks_before cs k) (cs_h c) (cs_v c) y x = blk) by (unfold containing_block; fold i; rewrite (nth_error_nth _ _ [] El); apply (nth_error_nth _ _ [] EB)).
      assert (X2 : q_at ms mw k (cs_h c) (cs_v c) y x = nth (Z.to_nat (block_no (cs_h c) (cs_v c) y x)) (nth k mm []) (mkQ 0 [])) by (unfold q_at; fold i; f_equal; f_equal; apply nth_error_nth; exact Em).
      rewrite X1, X2. exact QV. }
Qed.
Lemma sos_run : forall dbg rayon segs d fmk pr lines samples cs ss ts qs ms data fill3 code more, 0 < code < 255 -> bytes more ->
  Forall (fun s => hseg_ok (snd s)) segs -> header_ok lines samples cs -> 0 <= fmk <= 1 ->
  d_frame d = Some (frame_of fmk pr lines samples cs) -> d_restart d = last (dris segs) 0 -> 0 <= d_restart d -> d_finished d = [0; 0; 0; 0] ->
  quant_slots [None; None; None; None] (d_qt d) (dqts segs) ->
  dc_slots dbg [None; None; None; None] (d_dc d) (dhts segs) -> ac_slots dbg [None; None; None; None] (d_ac d) (dhts segs) ->
  NoDup (map cs_id cs) -> lenZ cs <= 4 -> (blocks_before cs (length cs) <= 10)%nat -> comp_codings segs cs ss ts qs ->
  let mw := mcus samples (largest (map cs_h cs)) in let mh := mcus lines (largest (map cs_v cs)) in
  Forall (mcu_shape cs) ms -> lenZ ms = mh * mw -> scan_data ts (last (dris segs) 0) 0 ms data ->
  exists d' b' ds, from dbg false rayon (PcSegment SOS, d, mkBiter (segment (sos_bytes (mkSpS ss 0 63 0 0)) ++ data ++ marker_bytes fill3 code ++ more) 0 0) (PcMarker, d', b') /\
    bi_input b' = stuff ds ++ marker_bytes fill3 code ++ more /\ d_frame d' = d_frame d /\ d_color d' = d_color d /\ (four_slots d -> four_slots d') /\ length (d_planes d') = length cs /\
    forall k c, nth_error cs k = Some c -> exists p qt q, nth_error (d_planes d') k = Some p /\ nth_error qs k = Some q /\ natural_order qt q /\
      lenZ p = 8 * (mh * cs_v c) * (8 * (mw * cs_h c)) /\
      forall y x, 0 <= y < 8 * (mh * cs_v c) -> 0 <= x < 8 * (mw * cs_h c) ->
        exists blk, let q := q_at ms mw k (cs_h c) (cs_v c) y x in block_values blk (q_dc q) (q_ac q) /\
          sample_at p (8 * (mw * cs_h c)) y x = Some (in_block (block_samples blk qt) y x).
Proof.
  intros dbg rayon segs d fmk pr lines samples cs ss ts qs ms data fill3 code more Hcode Bmore F HO Fm Fr Rs R0 Fin Q D A ND L4 Few CC mw mh Sh Lm SD.
  destruct (sos_moves dbg rayon segs d fmk pr lines samples cs ss ts qs ms data fill3 code more Hcode Bmore F HO Fm Fr Rs R0 Fin Q D A ND L4 Few CC Sh Lm SD) as [d' [b' [ds [[todo [d1 [b1 [M1 M2]]]] H]]]].
  exists d', b', ds. split; [|exact H]. eapply from_next; [eapply from_next; [apply from_here|exact M1]|exact M2].
Qed.

(** ** The planes as lists of samples *)
Definition known (o : option Z) : Z := match o with Some v => v | None => 0 end.
Lemma in_block_byte : forall coefs quant y x, is_byte (in_block (block_samples coefs quant) y x).
Proof.
  intros coefs quant y x. destruct (block_samples_shape coefs quant) as [L F]. unfold in_block.
  pose proof (Z.mod_pos_bound y 8 ltac:(lia)) as Hy. pose proof (Z.mod_pos_bound x 8 ltac:(lia)) as Hx.
  assert (I : In (nth (Z.to_nat (y mod 8)) (block_samples coefs quant) []) (block_samples coefs quant)) by (apply nth_In; lia).
  rewrite Forall_forall in F. destruct (F _ I) as [L2 B]. unfold bytes in B. rewrite Forall_forall in B. apply B. apply nth_In. lia.
Qed.
Lemma all_known : forall (p : plane) h w, lenZ p = h * w -> 0 <= w ->
  (forall y x, 0 <= y < h -> 0 <= x < w -> exists v, sample_at p w y x = Some v /\ is_byte v) ->
  p = line_of (map known p) /\ bytes (map known p).
Proof.
  intros p h w L W H.
  assert (G : forall o, In o p -> exists v, o = Some v /\ is_byte v).
  { intros o I. apply (In_nth _ _ None) in I. destruct I as [n [Hn E]].
    assert (W0 : 0 < w) by (unfold lenZ in L; destruct (Z.eq_dec w 0) as [->|]; [|lia]; rewrite Z.mul_0_r in L; lia).
    destruct (H (Z.of_nat n / w) (Z.of_nat n mod w)) as [v [Ev Bv]].
    - split; [apply Z.div_pos; lia|]. apply Z.div_lt_upper_bound; [lia|]. unfold lenZ in L. lia.
    - apply Z.mod_pos_bound. lia.
    - exists v. split; [|exact Bv]. unfold sample_at in Ev. replace (Z.of_nat n / w * w + Z.of_nat n mod w) with (Z.of_nat n) in Ev by (pose proof (Z.div_mod (Z.of_nat n) w ltac:(lia)); lia).
      rewrite Nat2Z.id in Ev. congruence. }
  clear - G. unfold line_of, bytes. split.
  - rewrite map_map. rewrite <- (map_id p) at 1. apply map_ext_in. intros o I. destruct (G o I) as [v [-> _]]. reflexivity.
  - apply Forall_forall. intros v I. apply in_map_iff in I. destruct I as [o [<- I]]. destruct (G o I) as [w [-> B]]. exact B.
Qed.
Lemma nth_known : forall (p : plane) k, nth k (map known p) 0 = known (nth k p None).
Proof. intros. rewrite <- (map_nth known). reflexivity. Qed.

Lemma dri_nonneg : forall segs, Forall (fun s => hseg_ok (snd s)) segs -> 0 <= last (dris segs) 0.
Proof.
  intros segs F. assert (G : Forall (fun n => 0 <= n) (dris segs)).
  { unfold dris. apply Forall_forall. intros n I. apply in_flat_map in I. destruct I as [s [I1 I2]]. rewrite Forall_forall in F. destruct (F s I1) as [Fs _]. destruct (snd s); try contradiction. destruct I2 as [->|[]]. lia. }
  clear F. generalize dependent (dris segs). intros l G. induction G as [|a l A G IH]; [cbn; lia|]. destruct l; [exact A|exact IH].
Qed.
Lemma sof_ok : forall segs h, Forall (fun s => hseg_ok (snd s)) segs -> In h (sofs segs) -> 0 <= fh_marker h <= 1 /\ header_ok (fh_lines h) (fh_samples h) (fh_comps h).
Proof.
  intros segs h F I. unfold sofs in I. apply in_flat_map in I. destruct I as [s [I1 I2]]. rewrite Forall_forall in F. destruct (F s I1) as [Fs _].
  destruct (snd s); try contradiction. destruct I2 as [->|[]]. exact Fs.
Qed.

Lemma code_range : forall s, hseg_ok s -> 0 < hseg_code s < 255.
Proof. intros [] [H _]; cbn [hseg_code]; lia. Qed.
Lemma post_marker : forall post fill, Forall (fun s => hseg_ok (snd s)) post ->
  exists f c more, flat_map hseg_bytes post ++ marker_bytes fill 0xD9 = marker_bytes f c ++ more /\ 0 < c < 255.
Proof.
  intros [|s post] fill F; [exists fill, 0xD9, []; rewrite app_nil_r; split; [reflexivity|lia]|].
  inv F. exists (fst s), (hseg_code (snd s)), (segment (hseg_payload (snd s)) ++ flat_map hseg_bytes post ++ marker_bytes fill 0xD9).
  split; [cbn [flat_map]; unfold hseg_bytes at 1; rewrite <- !app_assoc; reflexivity|apply code_range; assumption].
Qed.

Lemma file_planes : forall dbg rayon segs h fill1 fill2 ss ts qs ms data post fill3,
  let cs := fh_comps h in let lines := fh_lines h in let samples := fh_samples h in
  Forall (fun s => hseg_ok (snd s)) segs -> sofs segs = [h] -> NoDup (map cs_id cs) -> lenZ cs <= 4 -> (blocks_before cs (length cs) <= 10)%nat ->
  comp_codings segs cs ss ts qs -> Forall (mcu_shape cs) ms ->
  lenZ ms = mcus lines (largest (map cs_v cs)) * mcus samples (largest (map cs_h cs)) ->
  scan_data ts (last (dris segs) 0) 0 ms data -> post_ok post ->
  let file := file_bytes segs fill1 fill2 (mkSpS ss 0 63 0 0) data post fill3 in bytes file ->
  exists d b junk ps, from dbg false rayon (PcMarker, decoder_default, biter_new file) (PcMarker, d, b) /\
    bi_input b = junk ++ marker_bytes fill3 0xD9 /\ no_marker junk /\ d_frame d = Some (frame_of (fh_marker h) (fh_precision h) lines samples cs) /\
    d_color d = last (map transform_of (adobes (segs ++ post))) None /\ d_planes d = map line_of ps /\ length ps = length cs /\
    forall k c, nth_error cs k = Some c -> exists q p, nth_error qs k = Some q /\ nth_error ps k = Some p /\ plane_from lines samples cs ms k c q p.
Proof.
  intros dbg rayon segs h fill1 fill2 ss ts qs ms data post fill3 cs lines samples F Sf ND L4 Few CC Sh Lm SD [Fp Sop] file Bf.
  destruct (post_marker post fill3 Fp) as [f [code [more [Et Hc]]]].
  destruct (sof_ok segs h F ltac:(rewrite Sf; left; reflexivity)) as [Fm HO]. fold cs lines samples in HO.
  set (tail := marker_bytes fill2 0xDA ++ segment (sos_bytes (mkSpS ss 0 63 0 0)) ++ data ++ marker_bytes f code ++ more).
  assert (Ef : file = marker_bytes fill1 0xD8 ++ flat_map hseg_bytes segs ++ tail) by (unfold file, file_bytes, tail; rewrite Et; reflexivity).
  assert (Bm : bytes more) by (unfold bytes in *; rewrite Ef in Bf; unfold tail in Bf; rewrite !Forall_app in Bf; tauto).
  assert (S1 : from dbg false rayon (PcMarker, decoder_default, biter_new file)
    (PcMarker, decoder_default, mkBiter ([] ++ flat_map hseg_bytes segs ++ tail) 0 0)).
  { apply (from_next _ _ _ _ (PcSegment SOI, decoder_default, mkBiter (flat_map hseg_bytes segs ++ tail) 0 0)); [|reflexivity]. eapply from_next; [apply from_here|]. cbn [moves biter_new]. rewrite Ef.
    apply (marker_step dbg false rayon decoder_default [] fill1 0xD8 SOI); [constructor|constructor|discriminate]. }
  destruct (header_run dbg false rayon 0 0 segs decoder_default [] tail ltac:(split; [|split]; reflexivity) F ltac:(constructor)) as [d1 [junk [S2 [J [F4 [H1 H2 H3 H5 H6 H7 H8 H9 _]]]]]].
  rewrite Sf in H6. cbn [map last] in H6. cbn [decoder_default d_qt d_dc d_ac d_restart d_color d_finished] in *.
  assert (S3 : from dbg false rayon (PcMarker, d1, mkBiter (junk ++ tail) 0 0) (PcSegment SOS, d1, mkBiter (segment (sos_bytes (mkSpS ss 0 63 0 0)) ++ data ++ marker_bytes f code ++ more) 0 0)).
  { eapply from_next; [apply from_here|]. cbn [moves]. apply (marker_step dbg false rayon d1 junk fill2 0xDA SOS); [exact J|constructor|discriminate]. }
  destruct (sos_run dbg rayon segs d1 (fh_marker h) (fh_precision h) lines samples cs ss ts qs ms data f code more Hc Bm F HO Fm H6 H5) as [d2 [b2 [ds [S4 [Ei [Fr2 [Co2 [Fs2 [Lp PL]]]]]]]]]; auto.
  { rewrite H5. apply dri_nonneg. exact F. }
  set (mw := mcus samples (largest (map cs_h cs))) in *. set (mh := mcus lines (largest (map cs_v cs))) in *.
  rewrite <- Et in Ei. destruct b2 as [i2 bits2 count2]. cbn [bi_input] in Ei. subst i2.
  destruct (header_run dbg false rayon bits2 count2 post d2 (stuff ds) (marker_bytes fill3 0xD9) (Fs2 F4) Fp (no_marker_stuff ds)) as [d5 [j5 [S5 [J5 [F5 [K1 K2 K3 K5 K6 K7 K8 K9 _]]]]]].
  rewrite Sop in K6. cbn [map last] in K6. rewrite <- K8 in Lp, PL.
  exists d5, (mkBiter (j5 ++ marker_bytes fill3 0xD9) bits2 count2), j5, (map (map known) (d_planes d5)).
  split; [|split; [reflexivity|split; [exact J5|split; [rewrite K6, Fr2; exact H6|split; [rewrite K7, Co2, H7; unfold adobes; rewrite flat_map_app, map_app, last_app; reflexivity|]]]]].
  { eapply from_trans; [exact S1|]. eapply from_trans; [exact S2|]. eapply from_trans; [exact S3|]. eapply from_trans; [exact S4|exact S5]. }
  clear K1 K2 K3 K5 K6 K7 K8 K9 F5 S5 S4 S3 S2 S1.
  assert (HF : forall c, In c cs -> 1 <= cs_h c <= 4 /\ 1 <= cs_v c <= 4) by (destruct HO as [_ _ _ _ _ X]; rewrite Forall_forall in X; exact X).
  assert (W0 : 0 <= mw) by (destruct (frame_fits _ ltac:(exists (fh_marker h), (fh_precision h), lines, samples, cs; split; [reflexivity|exact HO])) as [_ [X _]]; exact X).
  assert (AK : forall k c p, nth_error cs k = Some c -> nth_error (d_planes d5) k = Some p -> p = line_of (map known p) /\ bytes (map known p)).
  { intros k c p Ec Ep. destruct (PL k c Ec) as [p' [qt [q [Ep' [_ [_ [Lpp Sp]]]]]]]. assert (p' = p) by congruence. subst p'.
    destruct (HF c (nth_error_In _ _ Ec)). apply (all_known p _ _ Lpp ltac:(nia)). intros y x Hy Hx. destruct (Sp y x Hy Hx) as [blk [_ E]]. eexists. split; [exact E|apply in_block_byte]. }
  split; [|split; [rewrite map_length; exact Lp|]].
  - rewrite map_map. rewrite <- (map_id (d_planes d5)) at 1. apply map_ext_in. intros p I. apply In_nth_error in I. destruct I as [k Ep].
    destruct (nth_error cs k) as [c|] eqn:Ec; [|apply nth_error_None in Ec; assert (k < length (d_planes d5))%nat by (apply nth_error_Some; intros X; unfold plane in *; rewrite Ep in X; discriminate); lia].
    apply (AK k c p Ec Ep).
  - intros k c Ec. destruct (PL k c Ec) as [p [qt [q [Ep [Eq [NO [Lpp Sp]]]]]]]. destruct (AK k c p Ec Ep) as [A1 A2]. exists q, (map known p). split; [exact Eq|]. split; [apply (map_nth_error (map known)); exact Ep|].
    unfold plane_from, plane_for, plane_rows, plane_stride. fold mw mh. split; [split; [exact A2|unfold lenZ in *; rewrite map_length, Lpp; apply Z.mul_comm]|].
    intros y x Hy Hx. destruct (Sp y x Hy Hx) as [blk [BV E]]. exists blk, qt, (block_samples blk qt). split; [exact BV|]. split; [exact NO|]. split; [intros; apply idct_block_total|].
    unfold px. rewrite nth_known. unfold sample_at in E. rewrite E. reflexivity.
Qed.

(** ** The decoder's answer *)
Lemma from_runs : forall dbg rerun rayon c c', from dbg rerun rayon c c' -> forall W, runs_to dbg rerun rayon c' W -> runs_to dbg rerun rayon c W.
Proof.
  intros dbg rerun rayon c c' H. induction H as [|c1 c2 H IH M]; intros W R; [exact R|]. apply IH. destruct c1 as [[p d] b], c2 as [[p' d'] b']. cbn [moves] in M. apply (runs_next _ _ _ _ _ _ _ _ _ W M). exact R.
Qed.
Lemma decode_from : forall dbg rayon input d junk fill img b, bytes input ->
  from dbg false rayon (PcMarker, decoder_default, biter_new input) (PcMarker, d, b) -> bi_input b = junk ++ marker_bytes fill 0xD9 -> no_marker junk ->
  upsample_image dbg rayon d = Ok img -> decode_fresh dbg rayon input = Ok img.
Proof.
  intros dbg rayon input d junk fill img b B S Eb J U.
  assert (E : step dbg false rayon PcMarker d b = (d, mkBiter [] (bi_bits b) (bi_count b), SStop (RImage img))).
  { cbn [step]. assert (P : parse_marker (bi_input b) = Ok (EOI, [])).
    { apply parse_marker_ok. exists 0xD9. split; [constructor|]. exists junk, fill. split; [exact J|]. split; [lia|]. split; [lia|]. rewrite Eb. unfold marker_bytes. reflexivity. }
    rewrite P, U. reflexivity. }
  assert (R : runs_to dbg false rayon (PcMarker, d, b) (d, mkBiter [] (bi_bits b) (bi_count b), RImage img)).
  { exists 1%nat. split; [|discriminate]. cbn [run]. rewrite E. reflexivity. }
  apply (from_runs _ _ _ _ _ S) in R. destruct R as [fuel [R _]].
  pose proof (decode_no_fuel dbg rayon decoder_default input ltac:(constructor) B) as NF. unfold decode_fresh. unfold decode in *.
  destruct (run dbg false rayon (run_fuel (biter_new input)) PcMarker decoder_default (biter_new input)) as [[d' b'] r] eqn:ER.
  assert (W : (d', b', r) = (d, mkBiter [] (bi_bits b) (bi_count b), RImage img)).
  { rewrite <- ER, <- R. destruct (Nat.le_ge_cases fuel (run_fuel (biter_new input))) as [Le|Le].
    - apply run_more; [rewrite R; discriminate|exact Le].
    - symmetry. apply run_more; [rewrite ER; cbn [snd] in *; intros ->; apply NF; reflexivity|exact Le]. }
  inv W. reflexivity.
Qed.

Lemma stuff_no_marker : forall ds, no_marker (stuff ds).
Proof. exact no_marker_stuff. Qed.

Lemma Forall2_planes : forall lines samples cs ms (qs ps : list (list Z)), length ps = length cs ->
  (forall k c, nth_error cs k = Some c -> exists q p, nth_error qs k = Some q /\ nth_error ps k = Some p /\ plane_from lines samples cs ms k c q p) ->
  Forall2 (plane_for lines samples cs) cs ps.
Proof.
  intros lines samples cs ms qs ps L H. apply Forall2_nth_error; [lia|]. intros k c p Ec Ep. destruct (H k c Ec) as [q [p' [_ [Ep' [X _]]]]]. assert (p' = p) by congruence. subst. exact X.
Qed.

Lemma color_of_last : forall l, last (map transform_of l) None = Some Color.AdobeUnknown <-> l <> [] /\ last l 1 = 0.
Proof.
  intros l. induction l as [|a l IH].
  - cbn. split; [discriminate|intros []; congruence].
  - destruct l as [|b l].
    + cbn [map last]. unfold transform_of. split.
      * intros E. split; [discriminate|]. destruct (Z.eqb_spec a 0); [assumption|]. destruct (Z.eqb_spec a 1); [discriminate|]. destruct (Z.eqb_spec a 2); discriminate.
      * intros [_ ->]. reflexivity.
    + change (last (map transform_of (a :: b :: l)) None) with (last (map transform_of (b :: l)) None). change (last (a :: b :: l) 1) with (last (b :: l) 1).
      rewrite IH. split; intros [_ X]; (split; [discriminate|exact X]).
Qed.

Lemma file_ycbcr : forall dbg rayon segs h fill1 fill2 ss ts qs ms data post fill3 c0 c1 c2, encodes segs h ss ts qs ms data -> fh_comps h = [c0; c1; c2] ->
  let cs := fh_comps h in let lines := fh_lines h in let samples := fh_samples h in
  0 < lines -> 0 < samples -> Forall (whole_ratios cs) cs -> Forall (width_works lines samples cs) cs -> post_ok post -> last (adobes (segs ++ post)) 1 <> 0 ->
  let file := file_bytes segs fill1 fill2 (mkSpS ss 0 63 0 0) data post fill3 in bytes file ->
  exists q0 q1 q2 p0 p1 p2 img, qs = [q0; q1; q2] /\
    plane_from lines samples cs ms 0 c0 q0 p0 /\ plane_from lines samples cs ms 1 c1 q1 p1 /\ plane_from lines samples cs ms 2 c2 q2 p2 /\
    decode_fresh dbg rayon file = Ok img /\ lenZ img = 3 * samples * lines /\
    forall y x, 0 <= y < lines -> 0 <= x < samples ->
      let row := shown_row rayon (largest (map cs_v cs)) y in
      rgb_pixel (comp_shown lines samples cs c0 p0 row x) (comp_shown lines samples cs c1 p1 row x) (comp_shown lines samples cs c2 p2 row x) (pixel 3 samples y x img).
Proof.
  intros dbg rayon segs h fill1 fill2 ss ts qs ms data post fill3 c0 c1 c2 [F Sf ND L4 Few CC Sh Lm SD] Ecs cs lines samples P1 P2 WR WW PO NA file B.
  destruct (file_planes dbg rayon segs h fill1 fill2 ss ts qs ms data post fill3 F Sf ND L4 Few CC Sh Lm SD PO B) as [d [b [ds [ps [S [Eb [Jn [Fr [Co [Ep [Lp PL]]]]]]]]]]].
  destruct (sof_ok segs h F ltac:(rewrite Sf; left; reflexivity)) as [Fm HO]. destruct (codings_length _ _ _ _ _ CC) as [_ [_ [Lq _]]].
  subst cs lines samples. rewrite Ecs in Lp, Lq. destruct ps as [|p0 [|p1 [|p2 [|p3 ps]]]]; try discriminate Lp. destruct qs as [|q0 [|q1 [|q2 [|q3 qs]]]]; try discriminate Lq.
  assert (PF := Forall2_planes (fh_lines h) (fh_samples h) (fh_comps h) ms [q0; q1; q2] [p0; p1; p2] ltac:(rewrite Ecs; reflexivity) PL).
  destruct (image_ycbcr dbg rayon d (fh_marker h) (fh_precision h) (fh_lines h) (fh_samples h) c0 c1 c2 p0 p1 p2) as [img [U [Li Px]]]; rewrite <- ?Ecs; auto.
  { rewrite Co, color_of_last. intros [_ X]. congruence. }
  exists q0, q1, q2, p0, p1, p2, img. split; [reflexivity|].
  destruct (PL 0%nat c0) as [x0 [y0 [X0 [Y0 Z0]]]]; [rewrite Ecs; reflexivity|]. injection X0 as <-. injection Y0 as <-.
  destruct (PL 1%nat c1) as [x1 [y1 [X1 [Y1 Z1]]]]; [rewrite Ecs; reflexivity|]. injection X1 as <-. injection Y1 as <-.
  destruct (PL 2%nat c2) as [x2 [y2 [X2 [Y2 Z2]]]]; [rewrite Ecs; reflexivity|]. injection X2 as <-. injection Y2 as <-.
  rewrite Ecs in *. splits; auto. apply (decode_from dbg rayon file d ds fill3 img b B S Eb); [exact Jn|exact U].
Qed.

Lemma file_cmyk : forall dbg rayon segs h fill1 fill2 ss ts qs ms data post fill3 c0 c1 c2 c3, encodes segs h ss ts qs ms data -> fh_comps h = [c0; c1; c2; c3] ->
  let cs := fh_comps h in let lines := fh_lines h in let samples := fh_samples h in
  0 < lines -> 0 < samples -> Forall (whole_ratios cs) cs -> Forall (width_works lines samples cs) cs -> post_ok post -> adobes (segs ++ post) <> [] -> last (adobes (segs ++ post)) 1 = 0 ->
  let file := file_bytes segs fill1 fill2 (mkSpS ss 0 63 0 0) data post fill3 in bytes file ->
  exists q0 q1 q2 q3 p0 p1 p2 p3 img, qs = [q0; q1; q2; q3] /\
    plane_from lines samples cs ms 0 c0 q0 p0 /\ plane_from lines samples cs ms 1 c1 q1 p1 /\ plane_from lines samples cs ms 2 c2 q2 p2 /\ plane_from lines samples cs ms 3 c3 q3 p3 /\
    decode_fresh dbg rayon file = Ok img /\ lenZ img = 4 * samples * lines /\
    forall y x, 0 <= y < lines -> 0 <= x < samples ->
      let row := shown_row rayon (largest (map cs_v cs)) y in
      pixel 4 samples y x img = [255 - comp_shown lines samples cs c0 p0 row x; 255 - comp_shown lines samples cs c1 p1 row x;
                                 255 - comp_shown lines samples cs c2 p2 row x; 255 - comp_shown lines samples cs c3 p3 row x].
Proof.
  intros dbg rayon segs h fill1 fill2 ss ts qs ms data post fill3 c0 c1 c2 c3 [F Sf ND L4 Few CC Sh Lm SD] Ecs cs lines samples P1 P2 WR WW PO NA NB file B.
  destruct (file_planes dbg rayon segs h fill1 fill2 ss ts qs ms data post fill3 F Sf ND L4 Few CC Sh Lm SD PO B) as [d [b [ds [ps [S [Eb [Jn [Fr [Co [Ep [Lp PL]]]]]]]]]]].
  destruct (sof_ok segs h F ltac:(rewrite Sf; left; reflexivity)) as [Fm HO]. destruct (codings_length _ _ _ _ _ CC) as [_ [_ [Lq _]]].
  subst cs lines samples. rewrite Ecs in Lp, Lq. destruct ps as [|p0 [|p1 [|p2 [|p3 [|p4 ps]]]]]; try discriminate Lp. destruct qs as [|q0 [|q1 [|q2 [|q3 [|q4 qs]]]]]; try discriminate Lq.
  assert (PF := Forall2_planes (fh_lines h) (fh_samples h) (fh_comps h) ms [q0; q1; q2; q3] [p0; p1; p2; p3] ltac:(rewrite Ecs; reflexivity) PL).
  destruct (image_cmyk dbg rayon d (fh_marker h) (fh_precision h) (fh_lines h) (fh_samples h) c0 c1 c2 c3 p0 p1 p2 p3) as [img [U [Li Px]]]; rewrite <- ?Ecs; auto.
  { rewrite Co, color_of_last. auto. }
  exists q0, q1, q2, q3, p0, p1, p2, p3, img. split; [reflexivity|].
  destruct (PL 0%nat c0) as [x0 [y0 [X0 [Y0 Z0]]]]; [rewrite Ecs; reflexivity|]. injection X0 as <-. injection Y0 as <-.
  destruct (PL 1%nat c1) as [x1 [y1 [X1 [Y1 Z1]]]]; [rewrite Ecs; reflexivity|]. injection X1 as <-. injection Y1 as <-.
  destruct (PL 2%nat c2) as [x2 [y2 [X2 [Y2 Z2]]]]; [rewrite Ecs; reflexivity|]. injection X2 as <-. injection Y2 as <-.
  destruct (PL 3%nat c3) as [x3 [y3 [X3 [Y3 Z3]]]]; [rewrite Ecs; reflexivity|]. injection X3 as <-. injection Y3 as <-.
  rewrite Ecs in *. splits; auto. apply (decode_from dbg rayon file d ds fill3 img b B S Eb); [exact Jn|exact U].
Qed.
