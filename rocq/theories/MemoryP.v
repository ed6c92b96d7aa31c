(** Memory is bounded by the size in the frame header, and is taken before the scan data (C81). *)
From Verif Require Import SpecColor Base Tactics SpecBits SpecReader SpecHuffman SpecBlock SpecTables Biterator Huffman HuffmanP2 HuffmanP3 Marker SpecMarker MarkerP Types Idct Upsampler Color Parsers Decode SpecFrame SpecSegments SpecScan SpecPlane SpecFile SpecLimits
  SpecHeader SpecStream SpecGlobal SpecMemory BlockP PlaneP SegmentsP ImageP SafeP InvP PlacedP EncodeP GlobalP ParsersP FileP CorruptP WaitP.

Definition fits_frame (F : frame -> Prop) (n : Z) : Prop :=
  n <= 0 \/ exists m pr lines samples cs, F (frame_of m pr lines samples cs) /\ header_ok lines samples cs /\ lenZ cs <= 4 /\ n <= room_for lines samples (lenZ cs).
Definition mem (F : frame -> Prop) (d : decoder) : Prop :=
  fits_frame F (samples_in (d_planes d)) /\ fits_frame F (samples_in (ss_results (d_ss d))) /\ coefs_in (ss_coefs (d_ss d)) <= 640.

Lemma concat_lens : forall A (a b : list (list A)), map (@lenZ A) a = map (@lenZ A) b -> lenZ (concat a) = lenZ (concat b).
Proof.
  intros A. induction a as [|x a IH]; intros [|y b] E; try discriminate; [reflexivity|]. cbn [map] in E. injection E as E1 E2.
  cbn [concat]. unfold lenZ in *. rewrite !app_length. specialize (IH _ E2). lia.
Qed.
Lemma sized_lens : forall MH cs ps qs, Forall2 (sized MH) cs ps -> Forall2 (sized MH) cs qs -> map (@lenZ _) ps = map (@lenZ _) qs.
Proof.
  intros MH cs ps qs H. revert qs. induction H; intros qs K; inv K; [reflexivity|]. cbn [map]. f_equal; [congruence|auto].
Qed.

Lemma mcus_le : forall len f, 0 <= len -> 1 <= f <= 4 -> 0 <= mcus len f /\ 8 * (mcus len f * f) <= len + 31.
Proof.
  intros len f L F. unfold mcus, ceil_div. pose proof (Z.div_pos (len + 8 * f - 1) (8 * f) ltac:(lia) ltac:(lia)). split; [assumption|].
  pose proof (Z.mul_div_le (len + 8 * f - 1) (8 * f) ltac:(lia)). set (q := (len + 8 * f - 1) / (8 * f)) in *. clearbody q. nia.
Qed.
Lemma padded_le : forall lines samples cs c, header_ok lines samples cs -> In c cs ->
  0 <= padded lines samples cs c <= (lines + 31) * (samples + 31).
Proof.
  intros lines samples cs c HO Ic. destruct HO as [Hl Hs N _ _ X]. rewrite Forall_forall in X.
  pose proof (largest_factors cs cs_h N (fun c H => proj1 (X c H))) as Hh.
  pose proof (largest_factors cs cs_v N (fun c H => proj2 (X c H))) as Hv.
  destruct (mcus_le samples _ (proj1 Hs) Hh) as [W0 W]. destruct (mcus_le lines _ (proj1 Hl) Hv) as [H0 H].
  destruct (X c Ic) as [Ch Cv].
  assert (Lh : cs_h c <= largest (map cs_h cs)) by (apply largest_ge, in_map; exact Ic).
  assert (Lv : cs_v c <= largest (map cs_v cs)) by (apply largest_ge, in_map; exact Ic).
  unfold padded. set (mw := mcus samples (largest (map cs_h cs))) in *. set (mh := mcus lines (largest (map cs_v cs))) in *. clearbody mw mh.
  set (a := 8 * (mh * cs_v c)). set (b := 8 * (mw * cs_h c)).
  assert (0 <= a <= lines + 31) by (unfold a; nia). assert (0 <= b <= samples + 31) by (unfold b; nia). clearbody a b. clear - H1 H2. nia.
Qed.
Lemma sized_padded : forall m pr lines samples cs ps, let fr := frame_of m pr lines samples cs in
  Forall2 (sized (dim_h (f_mcu fr))) (f_components fr) ps -> map (@lenZ _) ps = map (padded lines samples cs) cs.
Proof.
  intros m pr lines samples cs ps fr H. unfold fr, frame_of in H. cbn [f_mcu f_components dim_h] in H.
  assert (X : forall (f : comp_spec -> component) (G : comp_spec -> Z) MH l ps, (forall c p, sized MH (f c) p -> lenZ p = G c) -> Forall2 (sized MH) (map f l) ps -> map (@lenZ _) ps = map G l).
  { clear. intros f G MH. induction l as [|c l IH]; intros ps X H; inv H; [reflexivity|]. cbn [map]. f_equal; auto. }
  eapply X; [|exact H]. intros c p Hp. exact Hp.
Qed.
Lemma total_le : forall (l : list Z) k, Forall (fun x => 0 <= x <= k) l -> 0 <= fold_right Z.add 0 l <= lenZ l * k.
Proof. intros l k H. unfold lenZ. induction H; cbn [fold_right length]; lia. Qed.
Lemma concat_total : forall A (a : list (list A)), lenZ (concat a) = fold_right Z.add 0 (map (@lenZ A) a).
Proof. intros A. induction a as [|x a IH]; [reflexivity|]. cbn [concat map fold_right]. rewrite <- IH. unfold lenZ. rewrite app_length. lia. Qed.

Lemma sized_room : forall (F : frame -> Prop) fr ps, F fr -> frame_good fr -> lenZ (f_components fr) <= 4 ->
  Forall2 (sized (dim_h (f_mcu fr))) (f_components fr) ps -> fits_frame F (samples_in ps).
Proof.
  intros F fr ps Ff [m [pr [lines [samples [cs [-> HO]]]]]] L H. right. exists m, pr, lines, samples, cs. split; [exact Ff|]. split; [exact HO|].
  assert (L' : lenZ cs <= 4). { unfold frame_of in L. cbn [f_components] in L. unfold lenZ in *. rewrite map_length in L. exact L. }
  split; [exact L'|]. apply sized_padded in H. unfold samples_in. rewrite concat_total, H. unfold room_for.
  assert (E : lenZ cs = lenZ (map (padded lines samples cs) cs)) by (unfold lenZ; rewrite map_length; reflexivity). rewrite E.
  apply total_le. apply Forall_forall. intros x Ix. apply in_map_iff in Ix. destruct Ix as [c [<- Ic]]. apply padded_le; assumption.
Qed.

(** ** A scan *)
Definition kept_sizes (d d' : decoder) : Prop :=
  exists s, d' = set_ss d s /\ map (@lenZ _) (ss_results s) = map (@lenZ _) (ss_results (d_ss d)) /\ (coefs_in (ss_coefs (d_ss d)) <= 640 -> coefs_in (ss_coefs s) <= 640).
Lemma sizes_refl : forall d, kept_sizes d d.
Proof. intros d. exists (d_ss d). splits; auto. destruct d; reflexivity. Qed.
Lemma sizes_trans : forall a b c, kept_sizes a b -> kept_sizes b c -> kept_sizes a c.
Proof. intros a b c [s [-> [H1 H2]]] [t [-> [K1 K2]]]. exists t. cbn [d_ss set_ss] in *. splits; auto. congruence. Qed.
Lemma same_sizes : forall d d', same d d' -> (coefs_in (ss_coefs (d_ss d)) <= 640 -> coefs_in (ss_coefs (d_ss d')) <= 640) -> kept_sizes d d'.
Proof. intros d d' [s [-> [H _]]] C. exists s. cbn [d_ss set_ss] in C. splits; auto. rewrite H. reflexivity. Qed.
Lemma check_coefs : forall dbg x y d need d', restart_check dbg x y d = Ok (need, d') -> ss_coefs (d_ss d') = ss_coefs (d_ss d).
Proof.
  intros dbg x y d need d' E. unfold restart_check in E. destruct (0 <? d_restart d); [|inv E; reflexivity]. destruct (d_frame d); [|discriminate]. cbv zeta in E. binv E. binv E. binv E. inv E. reflexivity.
Qed.
Lemma marker_coefs : forall d b d' b', restart_marker d b = Ok (d', b') -> coefs_in (ss_coefs (d_ss d)) <= 640 -> coefs_in (ss_coefs (d_ss d')) <= 640.
Proof.
  intros d b d' b' E H. unfold restart_marker, handle_restart in E. binv E. destruct a as [m rest]. destruct m; try discriminate. destruct (n =? _); [|discriminate]. inv E. exact H.
Qed.
Lemma rows_640 : forall bs : list (list Z), length bs = 10%nat -> Forall (fun c => length c = 64%nat /\ Forall i16 c) bs -> coefs_in bs <= 640.
Proof.
  intros bs L H. unfold coefs_in. rewrite concat_total.
  assert (X : fold_right Z.add 0 (map (@lenZ Z) bs) = 64 * lenZ bs).
  { clear L. induction H as [|c bs [Hc _] H IH]; [reflexivity|]. cbn [map fold_right]. rewrite IH. unfold lenZ. rewrite Hc. cbn [length]. lia. }
  rewrite X. unfold lenZ. rewrite L. lia.
Qed.

Lemma loop_sizes : forall dbg rerun final todo ph d b, dec_ok d -> good b -> pc_ok (PcScan final todo ph) d ->
  kept_sizes d (fst (fst (scan_loop dbg rerun final todo ph d b))).
Proof.
  intros dbg rerun final. induction todo as [|[y x] rest IH]; intros ph d b K G P; cbn [scan_loop].
  { apply sizes_refl. }
  set (o1 := match ph with PhRow => decode_row dbg d b | PhRestart => Ok (d, b) end).
  assert (Q1 : post (fun '(d', b') => same d d' /\ good b' /\ (coefs_in (ss_coefs (d_ss d)) <= 640 -> coefs_in (ss_coefs (d_ss d')) <= 640)) o1).
  { unfold o1. destruct ph.
    - eapply post_weaken; [apply row_inv; auto|]. intros [d1 b1] [H1 [H2 [_ [H3 [H4 _]]]]]. splits; auto. intros _. apply rows_640; assumption.
    - cbn. splits; auto using same_refl. }
  destruct o1 as [[d1 b1]|e|p|]; [|destruct e; apply sizes_refl|apply sizes_refl|apply sizes_refl].
  destruct Q1 as [S1 [G1 C1]]. pose proof (same_ok _ _ K S1) as K1. pose proof (same_sizes _ _ S1 C1) as Z1. cbv zeta.
  set (o2 := if match ph with PhRow => true | PhRestart => rerun end then restart_check dbg x y d1 else Ok (true, d1)).
  assert (Q2 : post (fun '(_, d') => same d1 d') o2).
  { unfold o2. destruct (match ph with PhRow => true | PhRestart => rerun end); [apply check_inv; auto|]. apply same_refl; auto. }
  destruct o2 as [[need d2]|e|p|] eqn:E2; try exact Z1.
  assert (C2 : ss_coefs (d_ss d2) = ss_coefs (d_ss d1)).
  { unfold o2 in E2. destruct (match ph with PhRow => true | PhRestart => rerun end); [eapply check_coefs; exact E2|inv E2; reflexivity]. }
  assert (Z2 : kept_sizes d d2) by (eapply sizes_trans; [exact Z1|apply same_sizes; [exact Q2|rewrite C2; auto]]).
  assert (S2 : same d d2) by (eapply same_trans; eauto). pose proof (same_ok _ _ K S2) as K2. clear E2 o2.
  set (o3 := if need then restart_marker d2 b1 else Ok (d2, b1)).
  assert (Q3 : post (fun '(d', b') => same d2 d' /\ good b' /\ suffix (bi_input b') (bi_input b1)) o3).
  { unfold o3. destruct need; [apply restart_inv; auto|]. cbn. splits; auto using same_refl, suffix_refl. }
  destruct o3 as [[d3 b3]|e|p|] eqn:E3; [|destruct e; exact Z2|exact Z2|exact Z2].
  destruct Q3 as [S3 [G3 _]].
  assert (Z3 : kept_sizes d d3).
  { eapply sizes_trans; [exact Z2|apply same_sizes; [exact S3|]]. unfold o3 in E3. destruct need; [eapply marker_coefs; exact E3|inv E3; auto]. }
  assert (S3' : same d d3) by (eapply same_trans; eauto). pose proof (same_ok _ _ K S3') as K3. clear E3 o3.
  pose proof (same_pc _ _ _ _ _ ph S3' P) as P3. destruct P3 as [fr [done [Hf [E C]]]].
  assert (E' : mcu_list (f_mcu fr) = (done ++ [(y, x)]) ++ rest) by (rewrite <- app_assoc; exact E).
  assert (Q4 : post (fun d' => dec_ok d' /\ kept_sizes d3 d' /\ pc_ok (PcScan final rest PhRow) d') (if final then dequantize dbg x y d3 else Ok d3)).
  { destruct final.
    - eapply post_weaken; [apply (dequantize_inv dbg x y d3 fr done rest (ok_frame d3 K3 fr Hf) Hf E C)|].
      intros d' [ps [-> C']]. splits; auto.
      + destruct K3 as [A1 A2 A3 A4 A5 A6 A7 A8]. constructor; cbn; auto.
      + exists (set_results (d_ss d3) ps). splits; [reflexivity| |cbn; auto]. cbn [set_results ss_results].
        eapply sized_lens; [eapply covered_sized; exact C'|eapply covered_sized; exact C].
      + exists fr, (done ++ [(y, x)]). splits; auto.
    - cbn [post]. splits; [assumption|apply sizes_refl|]. exists fr, (done ++ [(y, x)]). splits; auto. }
  destruct (if final then dequantize dbg x y d3 else Ok d3) as [d4|e|p|]; try exact Z3.
  destruct Q4 as [K4 [Z4 P4]]. specialize (IH PhRow d4 b3 K4 G3 P4).
  eapply sizes_trans; [exact Z3|]. eapply sizes_trans; [exact Z4|exact IH].
Qed.

Lemma upd_nil : forall (ps : list plane) i p, nth_error ps i = Some p -> (lenZ (concat (upd ps i [])) + lenZ p = lenZ (concat ps))%Z.
Proof.
  induction ps as [|q ps IH]; intros i p E; destruct i as [|i]; cbn in E; try discriminate.
  - inv E. cbn [upd concat]. unfold lenZ. rewrite !app_length. cbn [length]. lia.
  - cbn [upd concat]. specialize (IH i p E). unfold lenZ in *. rewrite !app_length. lia.
Qed.
Lemma take_total : forall hs ps qs r, take_planes ps hs = Ok (qs, r) -> samples_in qs + samples_in r = samples_in ps.
Proof.
  unfold samples_in. induction hs as [|h hs IH]; intros ps qs r E; cbn [take_planes] in E; [inv E; reflexivity|].
  binv E. binv E. binv E. destruct a1 as [q1 r1]. inv E. apply IH in E2.
  assert (X : nth_error ps (Z.to_nat (h_index h)) = Some a /\ a0 = upd ps (Z.to_nat (h_index h)) []).
  { unfold index in E0. unfold store in E1. destruct (_ && _) in E1; [|discriminate]. inv E1. destruct (h_index h <? 0); [discriminate|].
    destruct (nth_error ps (Z.to_nat (h_index h))); inv E0; auto. }
  destruct X as [X ->]. apply upd_nil in X. cbn [concat]. unfold lenZ in *. rewrite app_length. lia.
Qed.
Lemma fits_less : forall F n n', fits_frame F n -> n' <= n -> fits_frame F n'.
Proof. intros F n n' [H|[m [pr [lines [samples [cs [A [B [C D]]]]]]]]] L; [left; lia|right; exists m, pr, lines, samples, cs; splits; auto; lia]. Qed.
Lemma samples_nonneg : forall ps, 0 <= samples_in ps.
Proof. intros ps. unfold samples_in, lenZ. lia. Qed.

(** ** Segments *)
Definition same_planes (d d' : decoder) : Prop := d_planes d' = d_planes d /\ d_ss d' = d_ss d.
Lemma dht_planes : forall dbg fuel d i, same_planes d (fst (seg_dht dbg fuel d i)).
Proof.
  intros dbg. induction fuel as [|fuel IH]; intros d i; destruct i as [|x i]; try (split; reflexivity). cbn [seg_dht].
  destruct (huffman_table (x :: i)) as [[[[[c th] ls] vs] i']|e|p|]; try (split; reflexivity).
  destruct (store_huffman dbg d c th ls vs) as [d1|e|p|] eqn:E; try (split; reflexivity). destruct (IH d1 i') as [A B].
  assert (C : same_planes d d1) by (unfold store_huffman in E; destruct c; binv E; binv E; inv E; split; reflexivity).
  destruct C as [C1 C2]. split; congruence.
Qed.
Lemma dqt_planes : forall fuel d i, same_planes d (fst (seg_dqt fuel d i)).
Proof.
  induction fuel as [|fuel IH]; intros d i; destruct i as [|x i]; try (split; reflexivity). cbn [seg_dqt].
  destruct (dqt (x :: i)) as [[[tq t] i']|e|p|]; try (split; reflexivity).
  destruct (store_quant d tq t) as [d1|e|p|] eqn:E; try (split; reflexivity). destruct (IH d1 i') as [A B].
  assert (C : same_planes d d1) by (unfold store_quant in E; binv E; binv E; inv E; split; reflexivity).
  destruct C as [C1 C2]. split; congruence.
Qed.
Lemma payload_planes : forall dbg m d data, same_planes d (fst (seg_payload dbg m d data)).
Proof.
  intros dbg m d data. destruct m; cbn [seg_payload]; try (split; reflexivity).
  - destruct (sof dbg n data) as [[f i]| | |]; split; reflexivity.
  - apply dht_planes.
  - apply dqt_planes.
  - destruct (p_u16 data) as [[r i]| | |]; split; reflexivity.
  - destruct (n =? 14); [|split; reflexivity]. destruct (app_adobe data) as [[t i]| | |]; split; reflexivity.
Qed.
Lemma begin_planes : forall dbg d sc, same_planes d (fst (sos_begin dbg d sc)).
Proof.
  intros dbg d sc. unfold sos_begin. cbn [set_scan d_frame d_finished]. destruct (d_frame d) as [fr|]; [|split; reflexivity].
  assert (X : same_planes d (fst (match (if s_low sc =? 0 then mark_finished dbg (z_from_to (s_start sc) (s_end sc)) (s_headers sc) (d_finished d) else Ok (d_finished d)) with
    | Ok fin => (set_finished (set_scan d (Some sc)) fin, all_finished fin (s_headers sc)) | Fail e => (set_scan d (Some sc), Fail e) | Panic q => (set_scan d (Some sc), Panic q) | UB => (set_scan d (Some sc), UB) end))).
  { destruct (if s_low sc =? 0 then _ else _) as [fin| | |] eqn:M; split; reflexivity. }
  destruct (coding_process fr) as [[]| | |]; try exact X; split; reflexivity.
Qed.
Lemma same_mem : forall F d d', same_planes d d' -> mem F d -> mem F d'.
Proof. intros F d d' [A B] H. unfold mem in *. rewrite A, B. exact H. Qed.

(** Starting a scan. *)
Lemma init_sizes : forall final d d', dec_ok d -> scan_init final d = Ok d' ->
  exists s, d' = set_ss d s /\ coefs_in (ss_coefs s) <= 640 /\
    (ss_results s = [] \/ exists fr, d_frame d = Some fr /\ lenZ (f_components fr) <= 4 /\ Forall2 (sized (dim_h (f_mcu fr))) (f_components fr) (ss_results s)).
Proof.
  intros final d d' K E. pose proof (ok_frame d K) as FG. unfold scan_init in E. destruct (d_frame d) as [fr|] eqn:Hf; [|discriminate]. destruct (d_scan d) as [sc|]; [|discriminate].
  destruct (if s_start sc =? 0 then _ else _) as [[]| | |]; cbn [bind] in E; try discriminate. destruct (if 1 <? s_end sc then _ else _) as [[]| | |]; cbn [bind] in E; try discriminate.
  assert (Z0 : coefs_in zero_coefs <= 640) by (vm_compute; discriminate).
  destruct final; cbn [bind] in E.
  - destruct (lenZ (f_components fr) <=? 4) eqn:L; cbn [assert_ bind] in E; [|discriminate]. inv E. eexists. splits; [reflexivity|exact Z0|]. right. exists fr. splits; auto; [lia|].
    cbn [ss_results]. eapply covered_sized. apply covered_start. auto.
  - inv E. eexists. splits; [reflexivity|exact Z0|]. left. reflexivity.
Qed.

Lemma step_mem : forall (F : frame -> Prop) dbg rerun rayon p d b, dec_ok d -> good b -> pc_ok p d -> (forall fr, d_frame d = Some fr -> F fr) -> mem F d ->
  mem F (fst (fst (step dbg rerun rayon p d b))).
Proof.
  intros F dbg rerun rayon p d b K G P Ff M. destruct p as [|m|final todo ph]; cbn [step].
  - destruct (parse_marker (bi_input b)) as [[m rest]|e|q|]; try (exact M); [|destruct e; exact M]. destruct m; try exact M. destruct (upsample_image dbg rayon d); exact M.
  - destruct (no_segment m); [exact M|]. destruct (segment_data dbg (bi_input b)) as [[data rest]|e|q|] eqn:Es; try exact M; [|destruct e; exact M].
    destruct (segment_data_len _ _ _ _ (proj2 G) Es) as [x [y [pre [Ei ->]]]].
    assert (Bp : bytes pre). { destruct G as [_ Bi]. rewrite Ei in Bi. unbytes Bi. apply Forall_app in Bi. apply Bi. }
    set (b' := mkBiter rest (bi_bits b) (bi_count b)).
    assert (X : mem F (fst (fst (let '(d', r) := seg_payload dbg m d pre in seg_end m d' b' r)))).
    { pose proof (same_mem F _ _ (payload_planes dbg m d pre) M) as M1. destruct (seg_payload dbg m d pre) as [d' [u|e|q|]]; cbn [fst] in M1; cbn [seg_end]; try exact M1. destruct e; exact M1. }
    destruct m; try exact X. clear X. unfold do_sos. destruct (sos_segment (d_frame d) pre) as [[sc i]|e|q|] eqn:Eh; try exact M; [|destruct e; exact M].
    destruct (sos_begin_inv dbg d sc K (sos_start _ _ _ _ Bp Eh)) as [K1 [F1 _]].
    pose proof (begin_planes dbg d sc) as SP. pose proof (same_mem F _ _ SP M) as M1.
    destruct (sos_begin dbg d sc) as [d1 o]. cbn [fst] in *. destruct o as [final|e|q|]; try exact M1.
    destruct (scan_init final d1) as [d2|e|q|] eqn:SI; try exact M1. destruct (init_sizes _ _ _ K1 SI) as [s [-> [C R]]].
    cbn [set_ss d_frame]. assert (MM : mem F (set_ss d1 s)).
    { destruct M1 as [A [B _]]. unfold mem. cbn [set_ss d_planes d_ss]. splits; auto. destruct R as [R|[fr [Hf [L S]]]].
      - rewrite R. left. unfold samples_in, lenZ. cbn. lia.
      - eapply sized_room; [apply Ff; rewrite <- F1; exact Hf|apply (ok_frame d1 K1); exact Hf|exact L|exact S]. }
    destruct (d_frame d1); exact MM.
  - pose proof (loop_sizes dbg rerun final todo ph d b K G P) as LS. destruct (scan_loop dbg rerun final todo ph d b) as [[d1 b1] r]. cbn [fst] in LS.
    destruct LS as [s [-> [L C]]]. destruct M as [A [B D]].
    assert (M1 : mem F (set_ss d s)).
    { unfold mem. cbn [set_ss d_planes d_ss]. splits; auto. unfold samples_in in *. rewrite (concat_lens _ _ _ L). exact B. }
    destruct r; try exact M1. unfold scan_finish. cbn [set_ss d_scan]. destruct (d_scan d) as [sc|]; [|exact M1]. cbv zeta. cbn [d_ss].
    fold (set_ss d s). change (ss_results (d_ss (set_ss d s))) with (ss_results s).
    destruct (take_planes (ss_results s) (s_headers sc)) as [[ps rr]|e|q|] eqn:T; cbn [bind]; try exact M1.
    apply take_total in T. destruct M1 as [_ [B1 D1]]. cbn [set_ss d_ss] in B1, D1. unfold mem. cbn [fst set_planes set_ss set_results d_planes d_ss ss_results ss_coefs].
    pose proof (samples_nonneg ps). pose proof (samples_nonneg rr). splits; [eapply fits_less; [exact B1|lia]|eapply fits_less; [exact B1|lia]|exact D1].
Qed.

(** ** Every state *)
Definition trace_ok (input : list Z) (c : pc * decoder * biter) : Prop :=
  let '(p, d, b) := c in dec_ok d /\ good b /\ pc_ok p d /\ traced None input p d b /\ mem (frame_in input) d.
Lemma frame_traced : forall input p d b, traced None input p d b -> forall fr, d_frame d = Some fr -> frame_in input fr.
Proof. intros input p d b [_ [[H|[fr' [H Hi]]] _]] fr E; [congruence|]. assert (fr = fr') by congruence. subst. exact Hi. Qed.
Lemma default_mem : forall F, mem F decoder_default.
Proof. intros F. unfold mem. splits; [left|left|]; vm_compute; discriminate. Qed.
Lemma trace_start : forall input, bytes input -> trace_ok input (PcMarker, decoder_default, biter_new input).
Proof.
  intros input B. unfold trace_ok. splits; [apply default_ok|apply (good_start input B)|exact I| |apply default_mem].
  split; [apply suffix_refl|]. split; [left; reflexivity|exact I].
Qed.
Lemma step_trace : forall dbg rerun rayon input p d b d' b' r, bytes input -> trace_ok input (p, d, b) -> step dbg rerun rayon p d b = (d', b', r) ->
  mem (frame_in input) d' /\ forall p', r = SNext p' -> trace_ok input (p', d', b').
Proof.
  intros dbg rerun rayon input p d b d' b' r B [K [G [P [T M]]]] E.
  pose proof (step_mem (frame_in input) dbg rerun rayon p d b K G P (frame_traced _ _ _ _ T) M) as M'.
  pose proof (step_inv dbg rerun rayon p d b K G P) as SI. pose proof (step_traced _ _ _ _ _ _ _ _ _ _ _ K G P B T E) as T'.
  rewrite E in M', SI. cbn [fst] in M'. destruct SI as [K' [G' [_ R]]]. split; [exact M'|]. intros p' ->. destruct R as [P' _]. unfold trace_ok. splits; auto.
Qed.
Lemma from_trace : forall dbg rerun rayon input c c', bytes input -> from dbg rerun rayon c c' -> trace_ok input c -> trace_ok input c'.
Proof.
  intros dbg rerun rayon input c c' B H T. induction H as [|[[p d] b] [[p' d'] b'] H IH M]; [exact T|]. cbn [moves] in M.
  exact (proj2 (step_trace _ _ _ _ _ _ _ _ _ _ B IH M) p' eq_refl).
Qed.
Lemma run_trace : forall dbg rerun rayon input fuel p d b, bytes input -> trace_ok input (p, d, b) -> mem (frame_in input) (fst (fst (run dbg rerun rayon fuel p d b))).
Proof.
  intros dbg rerun rayon input. induction fuel as [|fuel IH]; intros p d b B T; cbn [run]; [apply T|].
  destruct (step dbg rerun rayon p d b) as [[d' b'] r] eqn:E. destruct (step_trace _ _ _ _ _ _ _ _ _ _ B T E) as [M X].
  destruct r as [p'|r]; [apply IH; auto|exact M].
Qed.
Lemma fits_declared : forall input n, 0 <= n -> fits_frame (frame_in input) n -> n = 0 \/ declared input n.
Proof.
  intros input n N [H|(m & pr & lines & samples & cs & (pre & m' & l1 & l0 & pr' & lines' & samples' & cs' & po & Hm & HO' & HI & Ef) & HO & L & H)]; [left; lia|right].
  assert (E1 : lines = lines') by (exact (f_equal f_lines Ef)). assert (E2 : samples = samples') by (exact (f_equal f_samples Ef)).
  assert (E3 : lenZ cs = lenZ cs').
  { pose proof (f_equal (fun f => length (f_components f)) Ef) as X. unfold frame_of in X. cbn [f_components] in X. rewrite !map_length in X. unfold lenZ. lia. }
  subst. exists lines', samples', cs'. splits; [exists pre, m', l1, l0, pr', po; auto|lia|rewrite <- E3; exact H].
Qed.
Lemma bounded_by_header : forall dbg rayon input d, bytes input -> passes dbg rayon input d \/ d = fst (decode dbg rayon decoder_default input) ->
  (samples_in (d_planes d) = 0 \/ declared input (samples_in (d_planes d))) /\
  (samples_in (ss_results (d_ss d)) = 0 \/ declared input (samples_in (ss_results (d_ss d)))) /\
  coefs_in (ss_coefs (d_ss d)) <= 640.
Proof.
  intros dbg rayon input d B H. assert (M : mem (frame_in input) d).
  { destruct H as [[p [b H]]| ->].
    - pose proof (from_trace _ _ _ _ _ _ B H (trace_start input B)) as T. apply T.
    - pose proof (run_trace dbg false rayon input (run_fuel (biter_new input)) PcMarker decoder_default (biter_new input) B (trace_start input B)) as X.
      unfold decode. cbv zeta. destruct (run _ _ _ _ _ _ _) as [[d' b'] r]. exact X. }
  destruct M as [M1 [M2 M3]]. splits; [apply fits_declared; auto using samples_nonneg|apply fits_declared; auto using samples_nonneg|exact M3].
Qed.

(** ** Any history *)
Definition any_frame (fr : frame) : Prop := True.
Lemma run_mem : forall dbg rerun rayon fuel p d b, dec_ok d -> good b -> pc_ok p d -> mem any_frame d -> mem any_frame (fst (fst (run dbg rerun rayon fuel p d b))).
Proof.
  intros dbg rerun rayon. induction fuel as [|fuel IH]; intros p d b K G P M; cbn [run]; [exact M|].
  pose proof (step_inv dbg rerun rayon p d b K G P) as SI. pose proof (step_mem any_frame dbg rerun rayon p d b K G P ltac:(intros; exact I) M) as M'.
  destruct (step dbg rerun rayon p d b) as [[d' b'] r]. cbn [fst] in M'. destruct SI as [K' [G' [_ R]]]. destruct r as [p'|r]; [|exact M']. destruct R as [P' _]. apply IH; auto.
Qed.
Lemma reachable_mem : forall dbg rayon d, reachable dbg rayon d -> mem any_frame d.
Proof.
  intros dbg rayon d H. induction H as [|d input R IH B]; [apply default_mem|].
  pose proof (run_mem dbg false rayon (run_fuel (biter_new input)) PcMarker d (biter_new input) (reachable_ok _ _ _ R) (good_start input B) I IH) as X.
  unfold decode. cbv zeta. destruct (run _ _ _ _ _ _ _) as [[d' b'] r]. exact X.
Qed.
Lemma codec_mem : forall dbg rerun rayon k buf, codec_ok k buf -> mem any_frame (k_dec k) -> mem any_frame (k_dec (fst (fst (codec_decode dbg rerun rayon k buf)))).
Proof.
  intros dbg rerun rayon k buf [K [P G]] M. unfold codec_decode. destruct buf as [|x buf]; [exact M|]. cbv zeta.
  pose proof (run_mem dbg rerun rayon (run_fuel (mkBiter (x :: buf) (k_bits k) (k_count k))) (k_pc k) (k_dec k) _ K G P M) as X.
  destruct (run _ _ _ _ _ _ _) as [[d' b'] r]. destruct r; exact X.
Qed.
Lemma streaming_mem : forall dbg rerun rayon k buf, streaming dbg rerun rayon k buf -> mem any_frame (k_dec k).
Proof.
  intros dbg rerun rayon k buf H. induction H as [|k buf more H IH B|k buf k' buf' r H IH E]; [apply default_mem|exact IH|].
  pose proof (codec_mem dbg rerun rayon k buf (streaming_ok _ _ _ _ _ H) IH) as X. rewrite E in X. exact X.
Qed.
Lemma mem_bound : forall d, mem any_frame d -> samples_in (d_planes d) <= room_for 65535 65535 4 /\ samples_in (ss_results (d_ss d)) <= room_for 65535 65535 4 /\ coefs_in (ss_coefs (d_ss d)) <= 640.
Proof.
  assert (X : forall n, fits_frame any_frame n -> n <= room_for 65535 65535 4).
  { intros n [H|[m [pr [lines [samples [cs [_ [HO [L H]]]]]]]]]; [unfold room_for; lia|]. destruct HO as [Hl Hs _ _ _ _]. unfold room_for in *.
    assert (0 <= lenZ cs) by (unfold lenZ; lia). assert (0 <= (lines + 31) * (samples + 31) <= 65566 * 65566) by nia.
    change ((65535 + 31) * (65535 + 31)) with (65566 * 65566). set (a := (lines + 31) * (samples + 31)) in *. clearbody a. nia. }
  intros d [A [B C]]. auto.
Qed.
Lemma bounded_history : forall dbg rerun rayon p d b, occurs dbg rerun rayon (p, d, b) ->
  samples_in (d_planes d) <= room_for 65535 65535 4 /\ samples_in (ss_results (d_ss d)) <= room_for 65535 65535 4 /\ coefs_in (ss_coefs (d_ss d)) <= 640.
Proof.
  intros dbg rerun rayon p d b H. apply mem_bound.
  assert (X : forall c, occurs dbg rerun rayon c -> mem any_frame (snd (fst c))).
  { intros c O. induction O as [d0 input R B|k buf S|[[p0 d0] b0] [[p1 d1] b1] O IH M].
    - eapply reachable_mem; exact R.
    - eapply streaming_mem; exact S.
    - destruct (occurs_ok _ _ _ _ O) as [K [G P]]. cbn [moves] in M. pose proof (step_mem any_frame dbg rerun rayon p0 d0 b0 K G P ltac:(intros; exact I) IH) as Y. rewrite M in Y. exact Y. }
  exact (X _ H).
Qed.

(** ** The planes are there before any scan data is read *)
Lemma taken_early : forall dbg rayon segs h fill1 fill2 ss ts qs rest, header_for segs h ss ts qs ->
  let file := marker_bytes fill1 0xD8 ++ flat_map hseg_bytes segs ++ marker_bytes fill2 0xDA ++ segment (sos_bytes (mkSpS ss 0 63 0 0)) ++ rest in
  bytes file -> exists d, passes dbg rayon file d /\ map (@lenZ _) (ss_results (d_ss d)) = map (padded (fh_lines h) (fh_samples h) (fh_comps h)) (fh_comps h).
Proof.
  intros dbg rayon segs h fill1 fill2 ss ts qs rest [F Sf ND L4 Few CC] file B.
  destruct (sof_ok segs h F ltac:(rewrite Sf; left; reflexivity)) as [Fm HO].
  set (sosb := segment (sos_bytes (mkSpS ss 0 63 0 0))) in *.
  assert (Br : bytes rest) by (unfold bytes, file in *; rewrite !Forall_app in B; tauto).
  assert (S1 : from dbg false rayon (PcMarker, decoder_default, biter_new file) (PcMarker, decoder_default, mkBiter ([] ++ flat_map hseg_bytes segs ++ marker_bytes fill2 0xDA ++ sosb ++ rest) 0 0)).
  { apply (from_next _ _ _ _ (PcSegment SOI, decoder_default, mkBiter (flat_map hseg_bytes segs ++ marker_bytes fill2 0xDA ++ sosb ++ rest) 0 0)); [|reflexivity]. eapply from_next; [apply from_here|]. cbn [moves biter_new].
    apply (marker_step dbg false rayon decoder_default [] fill1 0xD8 SOI); [constructor|constructor|discriminate]. }
  destruct (header_runs dbg false rayon 0 0 segs decoder_default [] (marker_bytes fill2 0xDA ++ sosb ++ rest) ltac:(split; [|split]; reflexivity) F ltac:(constructor)) as [d1 [S2 [J [F4 HS]]]].
  assert (S3 : from dbg false rayon (PcMarker, decoder_default, biter_new file) (PcSegment SOS, d1, mkBiter (sosb ++ rest) 0 0)).
  { eapply from_trans; [exact S1|]. eapply from_trans; [exact S2|]. eapply from_next; [apply from_here|]. cbn [moves]. apply (marker_step dbg false rayon d1 _ fill2 0xDA SOS); [exact J|constructor|discriminate]. }
  destruct HS as [H1 H2 H3 H5 H6 H7 H8 H9 _]. rewrite Sf in H6. cbn [map last] in H6. cbn [decoder_default d_qt d_dc d_ac d_restart d_color d_finished] in *.
  destruct (from_inv dbg rayon _ _ S3 _ _ _ _ _ _ eq_refl eq_refl default_ok (good_start file B) I) as [Kd [Gd _]].
  destruct (sos_enter dbg rayon segs d1 (fh_marker h) (fh_precision h) (fh_lines h) (fh_samples h) (fh_comps h) ss ts qs rest [] Br ltac:(constructor) F HO Fm H6 ltac:(rewrite H5; apply dri_nonneg; exact F) H9 H1 H2 H3 ND L4 Few CC Kd
     ltac:(rewrite app_nil_r; exact Gd)) as (d0 & sc & d2 & ST & _ & _ & _ & _ & _ & _ & _ & _ & _ & _ & _ & _ & Sz).
  rewrite app_nil_r in ST. exists d2. split; [|eapply sized_padded; exact Sz]. eexists _, _. eapply from_next; [exact S3|exact ST].
Qed.
