(** Markers outside the supported set (C51), images left over from earlier calls (C52), and
    the parts of the frame header without influence (C53). *)
From Verif Require Import Base Tactics SpecBits SpecMarker SpecSegments SpecGlobal SpecStream SpecFile SpecLimits SpecProcess
  Biterator Marker MarkerP Types Parsers Upsampler Decode SegmentsP InvP GlobalP ExtP StreamP StreamP2 FileP CommentP HuffmanP3 ReuseP.

(** ** C51 *)
Lemma decode_from : forall dbg rayon d input c d1 b1 r, reachable dbg rayon d -> bytes input ->
  from dbg false rayon (PcMarker, d, biter_new input) c -> (let '(p, e, b) := c in step dbg false rayon p e b = (d1, b1, SStop r)) ->
  run dbg false rayon (run_fuel (biter_new input)) PcMarker d (biter_new input) = (d1, b1, r).
Proof.
  intros dbg rayon d input c d1 b1 r R B F S. pose proof (decode_no_fuel dbg rayon d input R B) as NF. unfold decode in NF. cbv zeta in NF.
  destruct (run dbg false rayon (run_fuel (biter_new input)) PcMarker d (biter_new input)) as [[d2 b2] r2] eqn:ER.
  assert (RT : runs_to dbg false rayon (PcMarker, d, biter_new input) (d2, b2, r2)).
  { eexists. split; [exact ER|]. cbn [snd]. intros ->. apply NF. reflexivity. }
  assert (RC : runs_to dbg false rayon c (d2, b2, r2)).
  { clear - F RT. induction F as [|c1 c2 F IH M]; [exact RT|].
    destruct c1 as [[p1 e1] x1], c2 as [[p2 e2] x2]. cbn [moves] in M. apply (runs_next _ _ _ _ _ _ _ _ _ _ M). exact IH. }
  destruct c as [[p e] b]. rewrite (runs_stop _ _ _ _ _ _ _ _ _ _ S RC). reflexivity.
Qed.

Lemma unknown_marker : forall dbg rayon d a fill code b, reachable dbg rayon d -> between_segments dbg rayon d a ->
  0 < code < 255 -> (forall m, ~ code_of m code) -> bytes (a ++ marker_bytes fill code ++ b) ->
  snd (decode dbg rayon d (a ++ marker_bytes fill code ++ b)) = Fail EMarker.
Proof.
  intros dbg rayon d a fill code b R [d' [junk [bits [count [J F]]]]] C U B.
  pose proof (from_ext (marker_bytes fill code ++ b) _ _ _ _ _ _ F) as F1. unfold ext in F1. cbn [bi_input bi_bits bi_count biter_new] in F1.
  assert (PM : parse_marker (junk ++ marker_bytes fill code ++ b) = Fail EMarker).
  { unfold parse_marker. rewrite scan_no_marker by exact J. unfold marker_bytes. rewrite <- app_assoc. rewrite scan_FF. cbn [app marker_scan].
    destruct (code =? 255) eqn:E1; [lia|]. destruct (code =? 0) eqn:E2; [lia|].
    destruct (marker_of_byte code) as [m|] eqn:EM; [|reflexivity]. exfalso. apply (U m). apply marker_of_byte_code. exact EM. }
  assert (S : step dbg false rayon PcMarker d' (mkBiter (junk ++ marker_bytes fill code ++ b) bits count) =
              (d', mkBiter (junk ++ marker_bytes fill code ++ b) bits count, SStop (RFail EMarker))).
  { cbn [step bi_input]. rewrite PM. reflexivity. }
  pose proof (decode_from dbg rayon d _ _ _ _ _ R B F1 S) as RR. unfold decode. cbv zeta. rewrite RR. reflexivity.
Qed.

(** ** C52 *)
Lemma run_image_planes : forall dbg rerun rayon fuel p d b d' b' img, run dbg rerun rayon fuel p d b = (d', b', RImage img) ->
  upsample_image dbg rayon d' = Ok img.
Proof.
  intros dbg rerun rayon. induction fuel as [|fuel IH]; intros p d b d' b' img E; [discriminate|]. cbn [run] in E.
  destruct (step dbg rerun rayon p d b) as [[d1 b1] r] eqn:ES. destruct r as [p'|r]; [exact (IH _ _ _ _ _ _ E)|].
  inv E. destruct p as [|m|final todo ph].
  - cbn [step] in ES. destruct (parse_marker (bi_input b)) as [[m rest]|[]| |] eqn:EM; try discriminate.
    destruct m; try discriminate. destruct (upsample_image dbg rayon d) eqn:U; inv ES. exact U.
  - cbn [step] in ES. exfalso. destruct (no_segment m); [discriminate|]. destruct (segment_data dbg (bi_input b)) as [[data rest]|[]| |]; try discriminate.
    assert (SE : forall d0 b0 r0, seg_end m d0 b0 r0 <> (d', b', SStop (RImage img)))
      by (intros d0 b0 r0 H; unfold seg_end in H; destruct r0 as [|[]| |]; discriminate).
    destruct m; try (destruct (seg_payload _ _ _ _) as [d3 r3]; exact (SE _ _ _ ES)).
    unfold do_sos in ES. destruct (sos_segment (d_frame d) data) as [[sc ?]|[]| |]; try discriminate.
    destruct (sos_begin dbg d sc) as [d3 [final| | |]]; try discriminate. destruct (scan_init final d3); discriminate.
  - cbn [step] in ES. exfalso. destruct (scan_loop dbg rerun final todo ph d b) as [[d2 b2] [|? ?|?|?|]]; try discriminate. destruct (scan_finish d2); discriminate.
Qed.
Lemma left_image : forall dbg rayon d input img, snd (decode dbg rayon d input) = Ok img ->
  snd (decode dbg rayon (fst (decode dbg rayon d input)) [0xFF; 0xD8; 0xFF; 0xD9]) = Ok img.
Proof.
  intros dbg rayon d input img E. apply decode_image in E. destruct E as [d' [b' [E _]]].
  assert (F : fst (decode dbg rayon d input) = d') by (unfold decode; cbv zeta; rewrite E; reflexivity). rewrite F.
  apply run_image_planes in E. unfold decode. cbv zeta.
  change (run_fuel (biter_new [255; 216; 255; 217])) with 15%nat.
  assert (S1 : step dbg false rayon PcMarker d' (biter_new [255; 216; 255; 217]) = (d', mkBiter [255; 217] 0 0, SNext (PcSegment SOI))) by reflexivity.
  assert (S2 : step dbg false rayon (PcSegment SOI) d' (mkBiter [255; 217] 0 0) = (d', mkBiter [255; 217] 0 0, SNext PcMarker)) by reflexivity.
  assert (S3 : step dbg false rayon PcMarker d' (mkBiter [255; 217] 0 0) = (d', mkBiter [] 0 0, SStop (RImage img))).
  { cbn [step bi_input bi_bits bi_count]. change (parse_marker [255; 217]) with (Ok (EOI, @nil Z)). cbv iota beta zeta. rewrite E. reflexivity. }
  cbn [run]. rewrite S1, S2, S3. reflexivity.
Qed.

(** Without a scan the planes stay as they are. *)
Lemma dht_planes : forall dbg fuel d i, d_planes (fst (seg_dht dbg fuel d i)) = d_planes d.
Proof.
  intros dbg. induction fuel as [|fuel IH]; intros d i; destruct i as [|x i]; try reflexivity; cbn [seg_dht].
  destruct (huffman_table (x :: i)) as [[[[[c th] ls] vs] i']|e|q|]; try reflexivity.
  destruct (store_huffman dbg d c th ls vs) as [d1|e|q|] eqn:E; try reflexivity. rewrite IH. unfold store_huffman in E. destruct c; binv E; binv E; inv E; reflexivity.
Qed.
Lemma dqt_planes : forall fuel d i, d_planes (fst (seg_dqt fuel d i)) = d_planes d.
Proof.
  induction fuel as [|fuel IH]; intros d i; destruct i as [|x i]; try reflexivity; cbn [seg_dqt].
  destruct (dqt (x :: i)) as [[[tq t] i']|e|q|]; try reflexivity.
  destruct (store_quant d tq t) as [d1|e|q|] eqn:E; try reflexivity. rewrite IH. unfold store_quant in E. binv E; binv E; inv E; reflexivity.
Qed.
Lemma payload_planes : forall dbg m d data, d_planes (fst (seg_payload dbg m d data)) = d_planes d.
Proof.
  intros dbg m d data. destruct m as [|n0| | | | |n|n1| |]; cbn [seg_payload]; try reflexivity.
  - destruct (sof dbg n0 data) as [[f i]| | |]; reflexivity.
  - apply dht_planes.
  - apply dqt_planes.
  - destruct (p_u16 data) as [[r i]| | |]; reflexivity.
  - destruct (n1 =? 14); [|reflexivity]. destruct (app_adobe data) as [[t i]| | |]; reflexivity.
Qed.
Lemma segment_suffix : forall dbg i data rest, segment_data dbg i = Ok (data, rest) -> suffix rest i.
Proof.
  intros dbg i data rest E. unfold segment_data in E. binv E. destruct a as [n i1]. binv E.
  unfold p_u16 in E0. destruct i as [|x [|y i]]; try discriminate. inv E0. unfold p_take in E. destruct (a <=? lenZ i1); [|discriminate]. inv E.
  exists (x :: y :: firstn (Z.to_nat a) i1). cbn [app]. rewrite firstn_skipn. reflexivity.
Qed.
Lemma no_scan_planes : forall dbg rerun rayon input, ~ has_code 0xDA input -> forall fuel p d b,
  suffix (bi_input b) input -> (match p with PcMarker => True | PcSegment m => m <> SOS | PcScan _ _ _ => False end) ->
  d_planes (fst (fst (run dbg rerun rayon fuel p d b))) = d_planes d.
Proof.
  intros dbg rerun rayon input N. induction fuel as [|fuel IH]; intros p d b SU P; [reflexivity|]. cbn [run]. destruct p as [|m|]; [| |contradiction]; cbn [step].
  - destruct (parse_marker (bi_input b)) as [[m rest]|[]|q|] eqn:EM; try reflexivity. cbv zeta.
    assert (M : m <> SOS) by (intros ->; apply N; eapply code_before; [exact SU|exact EM|constructor]).
    assert (S2 : suffix rest input) by (eapply suffix_trans; [|exact SU]; eapply first_marker_len; exact EM).
    destruct m; try (apply IH; [exact S2|exact M]). destruct (upsample_image dbg rayon d); reflexivity.
  - destruct (no_segment m); [apply IH; [exact SU|exact I]|]. destruct (segment_data dbg (bi_input b)) as [[data rest]|[]|q|] eqn:ED; try reflexivity.
    assert (S2 : suffix rest input) by (eapply suffix_trans; [|exact SU]; eapply segment_suffix; exact ED).
    assert (X : d_planes (fst (fst (let '(d', b', r) := (let '(d', r) := seg_payload dbg m d data in seg_end m d' (mkBiter rest (bi_bits b) (bi_count b)) r) in
      match r with SNext p' => run dbg rerun rayon fuel p' d' b' | SStop r' => (d', b', r') end))) = d_planes d).
    { pose proof (payload_planes dbg m d data) as PP. destruct (seg_payload dbg m d data) as [d1 r1]. cbn [fst] in PP. rewrite <- PP.
      unfold seg_end. destruct r1 as [u|[]|q|]; try reflexivity. apply IH; [exact S2|exact I]. }
    destruct m; try exact X. congruence.
Qed.
Lemma no_scan : forall dbg rayon input img, bytes input -> ~ has_code 0xDA input -> decode_fresh dbg rayon input = Ok img ->
  Forall (fun v => v = 0) img /\ (dbg = true -> img = []).
Proof.
  intros dbg rayon input img B N E. unfold decode_fresh in E. apply decode_image in E. destruct E as [d' [b' [E _]]].
  pose proof (no_scan_planes dbg false rayon input N (run_fuel (biter_new input)) PcMarker decoder_default (biter_new input)) as P. rewrite E in P. cbn [fst] in P.
  specialize (P ltac:(exists []; reflexivity) I). apply run_image_planes in E.
  assert (W : dbg = true \/ not_black img -> img = []).
  { intros H. destruct (black_image dbg rayon d' img E P H) as [fr [v [Fr [Mv G]]]]. unfold upsample_image in E. rewrite Fr in E. cbv zeta in E. binv E. binv E.
    rewrite Mv in E. cbn [bind] in E. binv E. rewrite G in E. cbn [image_lines bind concat] in E. inv E. reflexivity. }
  split; [|intros D; apply W; left; exact D]. apply Forall_forall. intros x I. destruct (Z.eq_dec x 0) as [H|H]; [exact H|].
  assert (img = []) by (apply W; right; exists x; auto). subst img. destruct I.
Qed.

(** ** C53 *)
Definition normf (f : frame) : frame :=
  mkFrame (if f_marker f =? 1 then 0 else f_marker f) 8 (f_lines f) (f_samples f) (f_mcu f) (f_components f).
Definition norm (d : decoder) : decoder := set_frame d (option_map normf (d_frame d)).
Definition onorm (r : out decoder) : out decoder := let* d := r in Ok (norm d).
Definition rnorm (r : out (decoder * biter)) : out (decoder * biter) := let* (d, b) := r in Ok (norm d, b).

Lemma normf_process : forall f, match coding_process f with
  | Ok Baseline | Ok Sequential => coding_process (normf f) = Ok Baseline \/ coding_process (normf f) = Ok Sequential
  | x => coding_process (normf f) = x end.
Proof.
  intros f. unfold coding_process, normf. cbn [f_marker]. destruct (f_marker f =? 0) eqn:E0.
  - destruct (f_marker f =? 1) eqn:E1; [lia|]. rewrite E0. auto.
  - destruct (f_marker f =? 1) eqn:E1.
    + cbn. auto.
    + rewrite E0, E1. cbn [orb]. repeat match goal with |- context [if ?c then _ else _] => destruct c end; auto.
Qed.

Lemma norm_ss : forall d s, norm (set_ss d s) = set_ss (norm d) s. Proof. reflexivity. Qed.

Lemma decode_comps_norm : forall dbg d sc cs hs ps n b eob, decode_comps dbg (norm d) sc cs hs ps n b eob = decode_comps dbg d sc cs hs ps n b eob.
Proof.
  intros dbg d sc. induction cs as [|c cs IH]; intros hs ps n b eob; [reflexivity|]. destruct hs as [|h hs], ps as [|p ps]; try reflexivity.
  cbn [decode_comps]. change (d_dc (norm d)) with (d_dc d). change (d_ac (norm d)) with (d_ac d).
  destruct (index (d_dc d) (h_dc h)) as [[t|]| | |]; cbn [bind]; try reflexivity.
  destruct (index (d_ac d) (h_ac h)) as [[u|]| | |]; cbn [bind]; try reflexivity.
  destruct (decode_blocks dbg sc t u (Nat.min (Z.to_nat (c_blocks_per_mcu c)) n) b eob p) as [[[[bl b1] e1] p1]| | |]; cbn [bind]; try reflexivity.
  rewrite IH. reflexivity.
Qed.
Lemma decode_row_norm : forall dbg d b, decode_row dbg (norm d) b = rnorm (decode_row dbg d b).
Proof.
  intros dbg d b. unfold decode_row. change (d_scan (norm d)) with (d_scan d). change (d_frame (norm d)) with (option_map normf (d_frame d)).
  change (d_ss (norm d)) with (d_ss d).
  destruct (d_scan d) as [sc|]; [|reflexivity]. destruct (d_frame d) as [fr|]; [|reflexivity]. cbn [option_map]. cbv zeta.
  change (f_components (normf fr)) with (f_components fr). rewrite decode_comps_norm.
  destruct (decode_comps dbg d sc (f_components fr) (s_headers sc) (ss_preds (d_ss d)) MAX_BLOCKS b (ss_eob (d_ss d))) as [[[[bl ps] b1] e1]| | |]; reflexivity.
Qed.
Lemma dequantize_norm : forall dbg x y d, dequantize dbg x y (norm d) = onorm (dequantize dbg x y d).
Proof.
  intros dbg x y d. unfold dequantize. change (d_frame (norm d)) with (option_map normf (d_frame d)). change (d_ss (norm d)) with (d_ss d). change (d_qt (norm d)) with (d_qt d).
  destruct (d_frame d) as [fr|]; [|reflexivity]. cbn [option_map]. cbv zeta. change (f_components (normf fr)) with (f_components fr).
  pose proof (normf_process fr) as P. destruct (coding_process fr) as [[]| | |]; try (destruct P as [P|P]); rewrite P; cbn [bind onorm]; try reflexivity.
  all: destruct (dequantize_comps dbg (d_qt d) x y (f_components fr) (ss_results (d_ss d)) (ss_coefs (d_ss d))); reflexivity.
Qed.
Lemma restart_check_norm : forall dbg x y d, restart_check dbg x y (norm d) = (let* (n, d') := restart_check dbg x y d in Ok (n, norm d')).
Proof.
  intros dbg x y d. unfold restart_check. change (d_restart (norm d)) with (d_restart d). change (d_frame (norm d)) with (option_map normf (d_frame d)). change (d_ss (norm d)) with (d_ss d).
  destruct (0 <? d_restart d); [|reflexivity]. destruct (d_frame d) as [fr|]; [|reflexivity]. cbn [option_map]. cbv zeta. change (f_mcu (normf fr)) with (f_mcu fr).
  destruct (usub dbg 16 (dim_w (f_mcu fr)) 1) as [lx| | |]; cbn [bind]; try reflexivity.
  destruct (x =? lx).
  - destruct (usub dbg 16 (dim_h (f_mcu fr)) 1) as [ly| | |]; cbn [bind]; try reflexivity.
    destruct (usub dbg 16 (ss_left (d_ss d)) 1); reflexivity.
  - cbn [bind]. destruct (usub dbg 16 (ss_left (d_ss d)) 1); reflexivity.
Qed.
Lemma restart_marker_norm : forall d b, restart_marker (norm d) b = rnorm (restart_marker d b).
Proof.
  intros d b. unfold restart_marker. destruct (parse_marker (bi_input b)) as [[m rest]| | |]; cbn [bind]; try reflexivity.
  unfold handle_restart. cbv zeta. change (d_ss (norm d)) with (d_ss d). change (d_restart (norm d)) with (d_restart d).
  destruct m; try reflexivity. destruct (_ =? ss_rst (d_ss d)); reflexivity.
Qed.
Lemma scan_loop_norm : forall dbg rerun final todo ph d b, scan_loop dbg rerun final todo ph (norm d) b =
  (let '(d', b', r) := scan_loop dbg rerun final todo ph d b in (norm d', b', r)).
Proof.
  intros dbg rerun final. induction todo as [|[y x] todo IH]; intros ph d b; [reflexivity|]. cbn [scan_loop].
  assert (R : (match ph with PhRow => decode_row dbg (norm d) b | PhRestart => Ok (norm d, b) end) =
              rnorm (match ph with PhRow => decode_row dbg d b | PhRestart => Ok (d, b) end)) by (destruct ph; [apply decode_row_norm|reflexivity]).
  rewrite R. destruct (match ph with PhRow => decode_row dbg d b | PhRestart => Ok (d, b) end) as [[d1 b1]|[]| |]; cbn [rnorm bind]; try reflexivity.
  cbv zeta. set (check := match ph with PhRow => true | PhRestart => rerun end). clearbody check.
  assert (C : (if check then restart_check dbg x y (norm d1) else Ok (true, norm d1)) =
              (let* (n, d') := (if check then restart_check dbg x y d1 else Ok (true, d1)) in Ok (n, norm d'))) by (destruct check; [apply restart_check_norm|reflexivity]).
  rewrite C. destruct (if check then restart_check dbg x y d1 else Ok (true, d1)) as [[need d2]| | |]; cbn [bind]; try reflexivity.
  assert (M : (if need then restart_marker (norm d2) b1 else Ok (norm d2, b1)) = rnorm (if need then restart_marker d2 b1 else Ok (d2, b1))) by (destruct need; [apply restart_marker_norm|reflexivity]).
  rewrite M. destruct (if need then restart_marker d2 b1 else Ok (d2, b1)) as [[d3 b3]|[]| |]; cbn [rnorm bind]; try reflexivity.
  assert (Q : (if final then dequantize dbg x y (norm d3) else Ok (norm d3)) = onorm (if final then dequantize dbg x y d3 else Ok d3)) by (destruct final; [apply dequantize_norm|reflexivity]).
  rewrite Q. destruct (if final then dequantize dbg x y d3 else Ok d3) as [d4| | |]; cbn [onorm bind]; try reflexivity. apply IH.
Qed.
Lemma scan_finish_norm : forall d, scan_finish (norm d) = onorm (scan_finish d).
Proof.
  intros d. unfold scan_finish. change (d_scan (norm d)) with (d_scan d). change (d_ss (norm d)) with (d_ss d). destruct (d_scan d) as [sc|]; [|reflexivity]. cbv zeta.
  destruct (take_planes (ss_results (d_ss d)) (s_headers sc)) as [[ps rs]| | |]; reflexivity.
Qed.
Lemma scan_init_norm : forall final d, scan_init final (norm d) = onorm (scan_init final d).
Proof.
  intros final d. unfold scan_init. change (d_scan (norm d)) with (d_scan d). change (d_frame (norm d)) with (option_map normf (d_frame d)).
  change (d_dc (norm d)) with (d_dc d). change (d_ac (norm d)) with (d_ac d). change (d_restart (norm d)) with (d_restart d).
  destruct (d_frame d) as [fr|]; [|reflexivity]. destruct (d_scan d) as [sc|]; [|reflexivity]. cbn [option_map]. change (f_components (normf fr)) with (f_components fr).
  destruct (if s_start sc =? 0 then any_unset (d_dc d) (map h_dc (s_headers sc)) else Ok false) as [[]| | |]; cbn [bind]; try reflexivity.
  destruct (if 1 <? s_end sc then any_unset (d_ac d) (map h_ac (s_headers sc)) else Ok false) as [[]| | |]; cbn [bind]; try reflexivity.
  destruct final; cbn [bind]; [|reflexivity]. destruct (assert_ (lenZ (f_components fr) <=? 4) PCapacity); reflexivity.
Qed.
Lemma sos_headers_norm : forall n f mx i, sos_headers (option_map normf f) n mx i = sos_headers f n mx i.
Proof.
  induction n as [|n IH]; intros f mx i; [reflexivity|]. cbn [sos_headers]. destruct (p_any i) as [[id i1]| | |]; cbn [bind]; try reflexivity.
  destruct (split_4_bit i1) as [[[dc ac] i2]| | |]; cbn [bind]; try reflexivity. destruct f as [fr|]; [|reflexivity]. cbn [option_map].
  change (f_components (normf fr)) with (f_components fr). destruct (position id (f_components fr) 0) as [k|]; [|reflexivity]. cbv zeta.
  destruct (match mx with None => Ok tt | Some mx0 => if wrap 8 k <? mx0 then Fail ESosOrder else if wrap 8 k =? mx0 then Fail ESosDuplicate else Ok tt end); cbn [bind]; try reflexivity.
  rewrite <- (IH (Some fr)). reflexivity.
Qed.
Lemma sos_segment_norm : forall f i, sos_segment (option_map normf f) i = sos_segment f i.
Proof.
  intros f i. unfold sos_segment. destruct (p_any i) as [[n i1]| | |]; cbn [bind]; try reflexivity. destruct ((1 <=? n) && (n <=? 4)); [|reflexivity].
  rewrite sos_headers_norm. reflexivity.
Qed.
Lemma sos_begin_norm : forall dbg d sc, sos_begin dbg (norm d) sc = (let '(d', r) := sos_begin dbg d sc in (norm d', r)).
Proof.
  intros dbg d sc. unfold sos_begin. cbv zeta. change (d_frame (set_scan (norm d) (Some sc))) with (option_map normf (d_frame d)).
  change (d_frame (set_scan d (Some sc))) with (d_frame d). change (d_finished (set_scan (norm d) (Some sc))) with (d_finished d).
  change (d_finished (set_scan d (Some sc))) with (d_finished d).
  destruct (d_frame d) as [fr|] eqn:Fr; [|cbn [option_map]; unfold norm, set_scan, set_frame; cbn; rewrite Fr; reflexivity]. cbn [option_map].
  assert (X : set_scan (norm d) (Some sc) = norm (set_scan d (Some sc))) by reflexivity.
  pose proof (normf_process fr) as P. destruct (coding_process fr) as [[]| | |]; try (destruct P as [P|P]); rewrite P; rewrite ?X; try reflexivity.
  all: destruct (if s_low sc =? 0 then mark_finished dbg (z_from_to (s_start sc) (s_end sc)) (s_headers sc) (d_finished d) else Ok (d_finished d)); reflexivity.
Qed.
Lemma seg_dht_norm : forall dbg n d i, seg_dht dbg n (norm d) i = (let '(d', r) := seg_dht dbg n d i in (norm d', r)).
Proof.
  intros dbg. induction n as [|n IH]; intros d i; cbn [seg_dht]; [destruct i; reflexivity|]. destruct i as [|x i]; [reflexivity|].
  destruct (huffman_table (x :: i)) as [[[[[c th] l] v] i']| | |]; try reflexivity.
  assert (S : store_huffman dbg (norm d) c th l v = onorm (store_huffman dbg d c th l v)).
  { unfold store_huffman. change (d_ac (norm d)) with (d_ac d). change (d_dc (norm d)) with (d_dc d).
    destruct c; repeat (match goal with |- bind ?x _ = _ => destruct x end; cbn [bind onorm]; try reflexivity). }
  rewrite S. destruct (store_huffman dbg d c th l v) as [d1| | |]; cbn [onorm bind]; try reflexivity. apply IH.
Qed.
Lemma seg_dqt_norm : forall n d i, seg_dqt n (norm d) i = (let '(d', r) := seg_dqt n d i in (norm d', r)).
Proof.
  induction n as [|n IH]; intros d i; cbn [seg_dqt]; [destruct i; reflexivity|]. destruct i as [|x i]; [reflexivity|].
  destruct (dqt (x :: i)) as [[[tq t] i']| | |]; try reflexivity.
  assert (S : store_quant (norm d) tq t = onorm (store_quant d tq t)).
  { unfold store_quant. change (d_qt (norm d)) with (d_qt d). destruct (quantization_table_new t) as [q| | |]; cbn [bind onorm]; try reflexivity. destruct (store (d_qt d) tq (Some q)); reflexivity. }
  rewrite S. destruct (store_quant d tq t) as [d1| | |]; cbn [onorm bind]; try reflexivity. apply IH.
Qed.
Lemma normf_idem : forall f, normf (normf f) = normf f.
Proof. intros f. unfold normf. cbn [f_marker f_lines f_samples f_mcu f_components]. f_equal. destruct (f_marker f =? 1) eqn:E; [reflexivity|rewrite E; reflexivity]. Qed.
Lemma norm_idem : forall d, norm (norm d) = norm d.
Proof. intros d. unfold norm, set_frame. cbn. f_equal. destruct (d_frame d) as [f|]; [|reflexivity]. cbn. rewrite normf_idem. reflexivity. Qed.
Lemma upsample_norm : forall dbg rayon d, upsample_image dbg rayon (norm d) = upsample_image dbg rayon d.
Proof. intros dbg rayon d. unfold upsample_image. change (d_frame (norm d)) with (option_map normf (d_frame d)). destruct (d_frame d) as [fr|]; reflexivity. Qed.

(** Results of steps up to [norm]. *)
Definition tn (x : decoder * biter * step_res) : decoder * biter * step_res := let '(d, b, r) := x in (norm d, b, r).
Lemma seg_payload_norm : forall dbg m d data,
  let '(d1, r1) := seg_payload dbg m (norm d) data in let '(d2, r2) := seg_payload dbg m d data in norm d1 = norm d2 /\ r1 = r2.
Proof.
  intros dbg m d data. destruct m as [|n0| | | | |n|n1| |]; cbn [seg_payload].
  all: try (rewrite norm_idem; auto; fail).
  - destruct (sof dbg n0 data) as [[f i]| | |]; rewrite ?norm_idem; auto.
  - rewrite seg_dht_norm. destruct (seg_dht dbg (length data) d data) as [d1 r1]. rewrite norm_idem. auto.
  - rewrite seg_dqt_norm. destruct (seg_dqt (length data) d data) as [d1 r1]. rewrite norm_idem. auto.
  - destruct (p_u16 data) as [[r i]| | |]; rewrite ?norm_idem; auto.
    change (set_restart (norm d) r) with (norm (set_restart d r)). rewrite norm_idem. auto.
  - destruct (n1 =? 14); [|rewrite norm_idem; auto]. destruct (app_adobe data) as [[t i]| | |]; rewrite ?norm_idem; auto.
    change (set_color (norm d) (Some t)) with (norm (set_color d (Some t))). rewrite norm_idem. auto.
Qed.
Lemma seg_end_norm : forall m d1 d2 b r, norm d1 = norm d2 -> tn (seg_end m d1 b r) = tn (seg_end m d2 b r).
Proof. intros m d1 d2 b r E. unfold seg_end. destruct r as [|[]| |]; cbn [tn]; rewrite E; reflexivity. Qed.
Lemma do_sos_norm : forall dbg d b data, do_sos dbg (norm d) b data = tn (do_sos dbg d b data).
Proof.
  intros dbg d b data. unfold do_sos. change (d_frame (norm d)) with (option_map normf (d_frame d)). rewrite sos_segment_norm.
  destruct (sos_segment (d_frame d) data) as [[sc i]|[]| |]; try reflexivity. rewrite sos_begin_norm. destruct (sos_begin dbg d sc) as [d1 [final| | |]]; try reflexivity.
  rewrite scan_init_norm. destruct (scan_init final d1) as [d2| | |]; cbn [onorm bind]; try reflexivity. cbv zeta. cbn [tn].
  change (d_frame (norm d2)) with (option_map normf (d_frame d2)). destruct (d_frame d2); reflexivity.
Qed.
Lemma step_norm : forall dbg rerun rayon p d b, tn (step dbg rerun rayon p (norm d) b) = tn (step dbg rerun rayon p d b).
Proof.
  intros dbg rerun rayon p d b. destruct p as [|m|final todo ph]; cbn [step].
  - destruct (parse_marker (bi_input b)) as [[m rest]|[]| |]; cbn [tn]; rewrite ?norm_idem; try reflexivity. cbv zeta.
    destruct m; cbn [tn]; rewrite ?norm_idem; try reflexivity. rewrite upsample_norm. destruct (upsample_image dbg rayon d); cbn [tn]; rewrite norm_idem; reflexivity.
  - destruct (no_segment m); [cbn [tn]; rewrite norm_idem; reflexivity|].
    destruct (segment_data dbg (bi_input b)) as [[data rest]|[]| |]; cbn [tn]; rewrite ?norm_idem; try reflexivity. cbv zeta.
    assert (X : forall m', tn (let '(d', r) := seg_payload dbg m' (norm d) data in seg_end m' d' (mkBiter rest (bi_bits b) (bi_count b)) r) =
                           tn (let '(d', r) := seg_payload dbg m' d data in seg_end m' d' (mkBiter rest (bi_bits b) (bi_count b)) r)).
    { intros m'. pose proof (seg_payload_norm dbg m' d data) as Y. destruct (seg_payload dbg m' (norm d) data) as [d1 r1]. destruct (seg_payload dbg m' d data) as [d2 r2].
      destruct Y as [Y ->]. apply seg_end_norm. exact Y. }
    destruct m; try apply X. rewrite do_sos_norm. destruct (do_sos dbg d (mkBiter rest (bi_bits b) (bi_count b)) data) as [[d1 b1] r1]. cbn [tn]. rewrite norm_idem. reflexivity.
  - rewrite scan_loop_norm. destruct (scan_loop dbg rerun final todo ph d b) as [[d1 b1] r]. destruct r; cbn [tn]; rewrite ?norm_idem; try reflexivity.
    rewrite scan_finish_norm. destruct (scan_finish d1); cbn [onorm bind tn]; rewrite ?norm_idem; reflexivity.
Qed.
Lemma run_norm : forall dbg rerun rayon fuel p d1 d2 b, norm d1 = norm d2 ->
  let '(e1, b1, r1) := run dbg rerun rayon fuel p d1 b in let '(e2, b2, r2) := run dbg rerun rayon fuel p d2 b in norm e1 = norm e2 /\ b1 = b2 /\ r1 = r2.
Proof.
  intros dbg rerun rayon. induction fuel as [|fuel IH]; intros p d1 d2 b N; cbn [run]; [auto|].
  pose proof (step_norm dbg rerun rayon p d1 b) as S1. pose proof (step_norm dbg rerun rayon p d2 b) as S2. rewrite N in S1. rewrite S2 in S1. clear S2.
  destruct (step dbg rerun rayon p d1 b) as [[e1 b1] r1]. destruct (step dbg rerun rayon p d2 b) as [[e2 b2] r2]. cbn [tn] in S1.
  apply pair_equal_spec in S1. destruct S1 as [S1 Sc]. apply pair_equal_spec in S1. destruct S1 as [Sa Sb]. subst b2 r2. destruct r1 as [p'|r]; [apply IH; auto|auto].
Qed.

Lemma frame_process : forall dbg rayon d a fill i p i' p' data b, reachable dbg rayon d -> between_segments dbg rayon d a ->
  0 <= i <= 1 -> 0 <= i' <= 1 -> is_byte p -> is_byte p' ->
  let file n q := a ++ marker_bytes fill (0xC0 + n) ++ segment (q :: data) ++ b in
  bytes (file i p) -> snd (decode dbg rayon d (file i' p')) = snd (decode dbg rayon d (file i p)).
Proof.
  intros dbg rayon d a fill i p i' p' data b R [d' [junk [bits [count [J F]]]]] Hi Hi' Bp Bp' file B.
  assert (G : forall n q, 0 <= n <= 1 -> is_byte q -> bytes (file n q)).
  { intros n q Hn Bq. unfold file, bytes in *. rewrite !Forall_app in *. destruct B as [B1 [B2 [B3 B4]]]. splits; auto.
    - unfold marker_bytes in *. rewrite Forall_app in *. split; [apply B2|]. constructor; [unfold is_byte; lia|constructor].
    - unfold segment in *. cbn [app] in *. inversion B3 as [|? ? X1 X2]; subst. inversion X2 as [|? ? X3 X4]; subst. inversion X4 as [|? ? X5 X6]; subst.
      assert (L : lenZ (q :: data) = lenZ (p :: data)) by reflexivity. rewrite L. constructor; [exact X1|]. constructor; [exact X3|]. constructor; [exact Bq|exact X6]. }
  (* the configuration before the segment of the frame header *)
  assert (F2 : forall n q, 0 <= n <= 1 -> from dbg false rayon (PcMarker, d, biter_new (file n q)) (PcSegment (SOF n), d', mkBiter (segment (q :: data) ++ b) bits count)).
  { intros n q Hn. pose proof (from_ext (marker_bytes fill (0xC0 + n) ++ segment (q :: data) ++ b) _ _ _ _ _ _ F) as F1. unfold ext in F1. cbn [bi_input bi_bits bi_count biter_new] in F1.
    eapply from_next; [exact F1|]. cbn [moves]. apply (marker_step dbg false rayon d' junk fill (0xC0 + n) (SOF n)); [exact J|constructor; lia|discriminate]. }
  assert (RT : forall n q, 0 <= n <= 1 -> is_byte q -> exists W, runs_to dbg false rayon (PcSegment (SOF n), d', mkBiter (segment (q :: data) ++ b) bits count) W /\
     run dbg false rayon (run_fuel (biter_new (file n q))) PcMarker d (biter_new (file n q)) = W).
  { intros n q Hn Bq. pose proof (decode_no_fuel dbg rayon d (file n q) R (G n q Hn Bq)) as NF. unfold decode in NF. cbv zeta in NF.
    destruct (run dbg false rayon (run_fuel (biter_new (file n q))) PcMarker d (biter_new (file n q))) as [[d1 b1] r] eqn:ER. exists (d1, b1, r). split; [|reflexivity].
    assert (RT : runs_to dbg false rayon (PcMarker, d, biter_new (file n q)) (d1, b1, r)).
    { eexists. split; [exact ER|]. cbn [snd]. intros ->. apply NF. reflexivity. }
    pose proof (F2 n q Hn) as FF. clear - FF RT. remember (PcSegment (SOF n), d', mkBiter (segment (q :: data) ++ b) bits count) as c. clear Heqc. induction FF as [|c1 c2 FF IH M]; [exact RT|].
    destruct c1 as [[p1 e1] x1], c2 as [[p2 e2] x2]. cbn [moves] in M. apply (runs_next _ _ _ _ _ _ _ _ _ _ M). exact IH. }
  destruct (RT i p Hi Bp) as [W [R1 E1]]. destruct (RT i' p' Hi' Bp') as [W' [R1' E1']]. unfold decode. cbv zeta. rewrite E1, E1'. clear E1 E1' RT F2 G.
  (* the segment *)
  assert (S : forall n q, step dbg false rayon (PcSegment (SOF n)) d' (mkBiter (segment (q :: data) ++ b) bits count) =
     (let '(e, r) := seg_payload dbg (SOF n) d' (q :: data) in seg_end (SOF n) e (mkBiter b bits count) r)).
  { intros n q. cbn [step no_segment bi_input bi_bits bi_count]. rewrite segment_data_ok. reflexivity. }
  pose proof (S i p) as Sp. pose proof (S i' p') as Sp'. clear S. cbn [seg_payload] in Sp, Sp'.
  assert (Q : match sof dbg i (p :: data), sof dbg i' (p' :: data) with
     | Ok (f, x), Ok (f', x') => normf f = normf f' /\ x = x' | Fail e, Fail e' => e = e' | Panic k, Panic k' => k = k' | UB, UB => True | _, _ => False end).
  { unfold sof. cbn [p_any bind]. 
    destruct (p_u16 data) as [[lines d1]|?|?|]; cbn [bind]; try reflexivity; auto. destruct (p_u16 d1) as [[samples d2]|?|?|]; cbn [bind]; try reflexivity; auto.
    destruct (p_any d2) as [[n d3]|?|?|]; cbn [bind]; try reflexivity; auto. destruct (p_count (Z.to_nat n) sof_component d3) as [[cs d4]|?|?|]; cbn [bind]; try reflexivity; auto.
    destruct (max_unwrap (map c_h cs)) as [hm|?|?|]; cbn [bind]; try reflexivity; auto. destruct (max_unwrap (map c_v cs)) as [vm|?|?|]; cbn [bind]; try reflexivity; auto.
    cbv zeta. destruct (mapM _ cs) as [cs'|?|?|]; cbn [bind]; try reflexivity; auto. split; [|reflexivity]. unfold normf. cbn [f_marker f_precision f_lines f_samples f_mcu f_components].
    f_equal. destruct (i =? 1) eqn:Ei, (i' =? 1) eqn:Ei'; lia. }
  destruct (sof dbg i (p :: data)) as [[f x]|e|k|], (sof dbg i' (p' :: data)) as [[f' x']|e'|k'|]; try contradiction.
  - destruct Q as [Q _]. cbn [seg_end] in Sp, Sp'. apply (runs_next _ _ _ _ _ _ _ _ _ _ Sp) in R1. apply (runs_next _ _ _ _ _ _ _ _ _ _ Sp') in R1'.
    destruct R1 as [fu [E N]], R1' as [fu' [E' N']].
    assert (Nd : norm (set_frame d' (Some f)) = norm (set_frame d' (Some f'))) by (unfold norm, set_frame; cbn; rewrite Q; reflexivity).
    pose proof (run_norm dbg false rayon (fu + fu') PcMarker _ _ (mkBiter b bits count) Nd) as H.
    assert (M : run dbg false rayon (fu + fu') PcMarker (set_frame d' (Some f)) (mkBiter b bits count) = W)
      by (rewrite <- E; apply run_more; [rewrite E; exact N|lia]).
    assert (M' : run dbg false rayon (fu + fu') PcMarker (set_frame d' (Some f')) (mkBiter b bits count) = W')
      by (rewrite <- E'; apply run_more; [rewrite E'; exact N'|lia]).
    rewrite M, M' in H. destruct W as [[w1 w2] w3], W' as [[w1' w2'] w3']. destruct H as [_ [-> ->]]. reflexivity.
  - subst e'. cbn [seg_end] in Sp, Sp'. destruct e; rewrite (runs_stop _ _ _ _ _ _ _ _ _ _ Sp R1), (runs_stop _ _ _ _ _ _ _ _ _ _ Sp' R1'); reflexivity.
  - subst k'. cbn [seg_end] in Sp, Sp'. rewrite (runs_stop _ _ _ _ _ _ _ _ _ _ Sp R1), (runs_stop _ _ _ _ _ _ _ _ _ _ Sp' R1'). reflexivity.
  - cbn [seg_end] in Sp, Sp'. rewrite (runs_stop _ _ _ _ _ _ _ _ _ _ Sp R1), (runs_stop _ _ _ _ _ _ _ _ _ _ Sp' R1'). reflexivity.
Qed.

Lemma unsupported : forall dbg rayon d a fill code b, reachable dbg rayon d -> between_segments dbg rayon d a ->
  unsupported_code code -> bytes (a ++ marker_bytes fill code ++ b) ->
  snd (decode dbg rayon d (a ++ marker_bytes fill code ++ b)) = Fail EMarker.
Proof.
  intros dbg rayon d a fill code b R A U B. unfold unsupported_code in U. apply unknown_marker; auto; [lia|].
  intros m C. inversion C; subst; lia.
Qed.
Lemma supported : forall c, 0 < c < 255 -> unsupported_code c \/ exists m, code_of m c.
Proof.
  intros c H. unfold unsupported_code.
  destruct (Z_le_gt_dec 0xE0 c).
  { destruct (Z_le_gt_dec c 0xEF); [right; exists (APP (c - 0xE0)); replace c with (0xE0 + (c - 0xE0)) at 2 by lia; constructor; lia|].
    destruct (Z.eq_dec c 0xFE) as [->|]; [right; exists COM; constructor|lia]. }
  destruct (Z_le_gt_dec 0xD0 c).
  { destruct (Z_le_gt_dec c 0xD7); [right; exists (RST (c - 0xD0)); replace c with (0xD0 + (c - 0xD0)) at 2 by lia; constructor; lia|].
    destruct (Z.eq_dec c 0xD8) as [->|]; [right; exists SOI; constructor|]. destruct (Z.eq_dec c 0xD9) as [->|]; [right; exists EOI; constructor|].
    destruct (Z.eq_dec c 0xDA) as [->|]; [right; exists SOS; constructor|]. destruct (Z.eq_dec c 0xDB) as [->|]; [right; exists DQT; constructor|].
    destruct (Z.eq_dec c 0xDD) as [->|]; [right; exists DRI; constructor|]. lia. }
  destruct (Z.eq_dec c 0xC4) as [->|]; [right; exists DHT; constructor|].
  destruct (Z_le_gt_dec 0xC0 c); [|lia]. destruct (Z_le_gt_dec c 0xC2); [|lia].
  right. exists (SOF (c - 0xC0)). replace c with (0xC0 + (c - 0xC0)) at 2 by lia. constructor; lia.
Qed.

Lemma same_process : forall dbg rayon d a fill header b, reachable dbg rayon d -> between_segments dbg rayon d a ->
  bytes (a ++ marker_bytes fill 0xC0 ++ segment header ++ b) ->
  snd (decode dbg rayon d (a ++ marker_bytes fill 0xC1 ++ segment header ++ b)) =
  snd (decode dbg rayon d (a ++ marker_bytes fill 0xC0 ++ segment header ++ b)).
Proof.
  intros dbg rayon d a fill header b R A B. destruct header as [|p data].
  - (* without any contents the header is incomplete either way *)
    destruct A as [d' [junk [bits [count [J F]]]]].
    assert (B' : bytes (a ++ marker_bytes fill 0xC1 ++ segment [] ++ b)).
    { unfold bytes in *. rewrite !Forall_app in *. destruct B as [B1 [B2 [B3 B4]]]. splits; auto. unfold marker_bytes in *. rewrite Forall_app in *. split; [apply B2|]. constructor; [unfold is_byte; lia|constructor]. }
    assert (F2 : forall n, 0 <= n <= 1 -> from dbg false rayon (PcMarker, d, biter_new (a ++ marker_bytes fill (0xC0 + n) ++ segment [] ++ b)) (PcSegment (SOF n), d', mkBiter (segment [] ++ b) bits count)).
    { intros n Hn. pose proof (from_ext (marker_bytes fill (0xC0 + n) ++ segment [] ++ b) _ _ _ _ _ _ F) as F1. unfold ext in F1. cbn [bi_input bi_bits bi_count biter_new] in F1.
      eapply from_next; [exact F1|]. cbn [moves]. apply (marker_step dbg false rayon d' junk fill (0xC0 + n) (SOF n)); [exact J|constructor; lia|discriminate]. }
    assert (S : forall n, step dbg false rayon (PcSegment (SOF n)) d' (mkBiter (segment [] ++ b) bits count) = (d', mkBiter b bits count, SStop (RNeed (PcSegment (SOF n))))).
    { intros n. cbn [step no_segment bi_input bi_bits bi_count]. rewrite segment_data_ok. reflexivity. }
    pose proof (decode_from dbg rayon d _ _ _ _ _ R B (F2 0 ltac:(lia)) (S 0)) as E0. pose proof (decode_from dbg rayon d _ _ _ _ _ R B' (F2 1 ltac:(lia)) (S 1)) as E1.
    unfold decode. cbv zeta. cbn [Z.add] in E0, E1. change (0xC0 + 0) with 0xC0 in E0. change (0xC0 + 1) with 0xC1 in E1. rewrite E0, E1. reflexivity.
  - assert (Bp : is_byte p).
    { unfold bytes in B. rewrite !Forall_app in B. destruct B as [_ [_ [B _]]]. unfold segment in B. cbn [app] in B. inversion B as [|? ? _ B2]; subst. inversion B2 as [|? ? _ B3]; subst. inversion B3; subst; auto. }
    exact (frame_process dbg rayon d a fill 0 p 1 p data b R A ltac:(lia) ltac:(lia) Bp Bp B).
Qed.
Lemma precision_ignored : forall dbg rayon d a fill i precision precision' data b, reachable dbg rayon d -> between_segments dbg rayon d a -> 0 <= i <= 1 -> is_byte precision' ->
  bytes (a ++ marker_bytes fill (0xC0 + i) ++ segment (precision :: data) ++ b) ->
  snd (decode dbg rayon d (a ++ marker_bytes fill (0xC0 + i) ++ segment (precision' :: data) ++ b)) =
  snd (decode dbg rayon d (a ++ marker_bytes fill (0xC0 + i) ++ segment (precision :: data) ++ b)).
Proof.
  intros dbg rayon d a fill i p p' data b R A Hi Bp' B.
  assert (Bp : is_byte p).
  { unfold bytes in B. rewrite !Forall_app in B. destruct B as [_ [_ [B _]]]. unfold segment in B. cbn [app] in B. inversion B as [|? ? _ B2]; subst. inversion B2 as [|? ? _ B3]; subst. inversion B3; subst; auto. }
  exact (frame_process dbg rayon d a fill i p i p' data b R A Hi Hi Bp Bp' B).
Qed.
