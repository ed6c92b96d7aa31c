(** A short file that takes memory for any size (C81). *)
From Verif Require Import Base Tactics SpecBits SpecReader SpecMarker SpecHuffman SpecBlock SpecTables SpecFrame SpecSegments SpecScan SpecPlane SpecImage SpecColor SpecFile SpecAnswer SpecLimits SpecStream SpecGlobal SpecMemory
  Idct Types Decode MemoryP Props_Scan Props_Answer.

Lemma flat_header_for : forall lines samples h0 h1 h2,
  let cs := [mkCS 1 h0 1 0; mkCS 2 h1 1 0; mkCS 3 h2 1 0] in
  header_ok lines samples cs -> (Z.to_nat h0 + (Z.to_nat h1 + Z.to_nat h2) <= 10)%nat ->
  header_for (flat_segs lines samples cs) (flat_h lines samples cs) ex_ss [ex_ts; ex_ts; ex_ts] [ex_q; ex_q; ex_q].
Proof.
  intros lines samples h0 h1 h2 cs HO Hn.
  assert (CC : forall c s, In c cs -> sc_id s = cs_id c -> sc_dc s = 0 -> sc_ac s = 0 -> comp_coding (flat_segs lines samples cs) c s ex_ts ex_q).
  { intros c s I E1 E2 E3. assert (T : cs_tq c = 0) by (destruct I as [<-|[<-|[<-|[]]]]; reflexivity). constructor; rewrite ?E2, ?E3, ?T; auto; try lia.
    - exists ex_dcs. split; [reflexivity|split; reflexivity].
    - exists ex_acs. split; [reflexivity|split; reflexivity].
    - exists (mkDqt 0 0 ex_q). split; reflexivity. }
  constructor.
  - repeat first [apply Forall_nil | apply Forall_cons]; cbn [snd]; split; try (cbn; lia).
    + apply Forall_cons; [|apply Forall_nil]. split; [cbn; lia|]. split; [cbn; lia|]. split; [reflexivity|small_list].
    + split; [cbn; lia|exact HO].
    + repeat first [apply Forall_nil | apply Forall_cons]; (split; [cbn; lia|]; split; [split; [reflexivity|byte_list]|]; split; [byte_list|]; split; [reflexivity|]; split; [cbn; lia|vm_compute; discriminate]).
  - reflexivity.
  - cbn. repeat constructor; cbn; intuition discriminate.
  - cbn. lia.
  - cbn. rewrite !Z.mul_1_r. lia.
  - do 3 (apply ccs_cons; [apply CC; cbn; tauto|]). apply ccs_nil.
Qed.

Lemma padded_ge : forall len f, 0 <= len -> 1 <= f <= 4 -> len <= 8 * (mcus len f * f).
Proof.
  intros len f L F. unfold mcus, ceil_div. pose proof (Z.mod_pos_bound (len + 8 * f - 1) (8 * f) ltac:(lia)). pose proof (Z.div_mod (len + 8 * f - 1) (8 * f) ltac:(lia)).
  set (q := (len + 8 * f - 1) / (8 * f)) in *. set (r := (len + 8 * f - 1) mod (8 * f)) in *. clearbody q r. nia.
Qed.

Lemma few_bytes : forall dbg rayon lines samples, 0 <= lines < 65536 -> 0 <= samples < 65536 ->
  exists file d, bytes file /\ lenZ file <= 200 /\ passes dbg rayon file d /\ 3 * (lines * samples) <= samples_in (ss_results (d_ss d)).
Proof.
  intros dbg rayon lines samples Hl Hs. set (cs := [mkCS 1 1 1 0; mkCS 2 1 1 0; mkCS 3 1 1 0]).
  assert (HO : header_ok lines samples cs) by (constructor; try assumption; try discriminate; repeat constructor; cbn; lia).
  pose proof (flat_header_for lines samples 1 1 1 HO ltac:(cbn; lia)) as HF. fold cs in HF.
  set (file := marker_bytes 0 0xD8 ++ flat_map hseg_bytes (flat_segs lines samples cs) ++ marker_bytes 0 0xDA ++ segment (sos_bytes (mkSpS ex_ss 0 63 0 0)) ++ []).
  assert (B : bytes file).
  { unfold file, flat_segs. cbn. repeat constructor; unfold is_byte; try lia; try (split; [apply Z.div_pos; lia|apply Z.div_lt_upper_bound; lia]); try (apply Z.mod_pos_bound; lia). }
  destruct (taken_early dbg rayon _ _ 0 0 _ _ _ [] HF B) as [d [P E]]. exists file, d. split; [exact B|]. split; [unfold file, lenZ; cbn; lia|]. split; [exact P|].
  unfold samples_in. rewrite concat_total, E. cbn [flat_h fh_lines fh_samples fh_comps]. unfold cs. cbn [map fold_right]. unfold padded. cbn [map cs_h cs_v largest fold_right].
  change (Z.max 1 (Z.max 1 (Z.max 1 0))) with 1. pose proof (padded_ge lines 1 ltac:(lia) ltac:(lia)). pose proof (padded_ge samples 1 ltac:(lia) ltac:(lia)).
  set (a := 8 * (mcus lines 1 * 1)) in *. set (b := 8 * (mcus samples 1 * 1)) in *. clearbody a b. nia.
Qed.
