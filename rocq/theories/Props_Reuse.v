(** Used decoders and encoded files (C09). *)
From Verif Require Import Base SpecBits SpecReader SpecMarker SpecHuffman SpecBlock SpecTables SpecFrame SpecSegments SpecScan SpecPlane SpecUpsample SpecImage SpecColor SpecFile SpecAnswer SpecLimits SpecReuse Huffman Decode ReuseP2 Props_Scan Props_Answer.

(** Whatever a decoder was used for before, an encoded file with its own restart interval and
    colour transform (or after inputs that have none) gets the answer of a fresh decoder: the
    same image, the same error, the same panic. *)
Theorem C09_files_partial :
  forall dbg rayon history f, Forall bytes history -> encodes_with [] f ->
    dris (cf_segs f) <> [] \/ never 0xDD history -> adobes (cf_segs f) <> [] \/ never 0xEE history ->
    snd (decode dbg rayon (decoder_after dbg rayon history) (coded_bytes f)) = decode_fresh dbg rayon (coded_bytes f).
Proof. exact reuse_file. Qed.
Print Assumptions C09_files_partial.

(** Exactly what is taken over from earlier files: a file decoded after others gets the answer
    of a fresh decoder to the same file with the tables, restart intervals and colour
    transforms of all earlier files in front of its own segments.  The files may therefore
    lean on tables of earlier ones. *)
Theorem C09_series :
  forall dbg rayon files f, series [] (files ++ [f]) ->
    snd (decode dbg rayon (decoder_after dbg rayon (map coded_bytes files)) (coded_bytes f)) =
    decode_fresh dbg rayon (bytes_with (retained (all_segs files)) f).
Proof. exact series_answer. Qed.
Print Assumptions C09_series.

(** A second image without tables of its own. *)
Definition se_cs : list comp_spec := [mkCS 1 1 1 0; mkCS 2 1 1 0; mkCS 3 1 1 0].
Definition se_first : coded := mkCoded (flat_segs 3 5 se_cs) (flat_h 3 5 se_cs) 0 0 ex_ss [ex_ts; ex_ts; ex_ts] [ex_q; ex_q; ex_q] [flat_mcu se_cs] [0x49; 0x7F] [] 0.
Definition se_second : coded := mkCoded [(0%nat, HSof (flat_h 2 2 se_cs))] (flat_h 2 2 se_cs) 0 0 ex_ss [ex_ts; ex_ts; ex_ts] [ex_q; ex_q; ex_q] [flat_mcu se_cs] [0x49; 0x7F] [] 0.
Lemma se_encodes : encodes (retained (all_segs [se_first]) ++ cf_segs se_second) (flat_h 2 2 se_cs) ex_ss [ex_ts; ex_ts; ex_ts] [ex_q; ex_q; ex_q] [flat_mcu se_cs] [0x49; 0x7F].
Proof.
  assert (HO : header_ok 2 2 se_cs) by (unfold se_cs; flat_header).
  pose proof (flat_encodes 2 2 1 1 1 [0x49; 0x7F] 3 (repeat true 7) HO eq_refl ltac:(lia) eq_refl ltac:(byte_list) eq_refl eq_refl ltac:(cbn; lia)) as En. cbv zeta in En. fold se_cs in En.
  destruct En as [F Sf ND L4 Few CC Sh Lm SD]. unfold flat_segs in F. apply Forall_cons_iff in F. destruct F as [F1 F]. apply Forall_cons_iff in F. destruct F as [F2 F3].
  constructor; auto.
  - unfold all_segs, se_first, flat_segs, se_second. cbn [flat_map cf_segs cf_post app retained filter snd]. apply Forall_cons; [exact F1|]. apply Forall_cons_iff in F3. apply Forall_cons; [apply F3|]. apply Forall_cons; [exact F2|constructor].
  - (* the entries are the same *) clear - CC. set (l := retained (all_segs [se_first]) ++ cf_segs se_second). assert (Q : forall c s t q, comp_coding (flat_segs 2 2 se_cs) c s t q -> comp_coding l c s t q) by (intros c s t q [A B C D E G H]; constructor; auto).
    revert CC. generalize (fh_comps (flat_h 2 2 se_cs)), ex_ss, [ex_ts; ex_ts; ex_ts], [ex_q; ex_q; ex_q]. intros cs ss ts qs CC. induction CC; constructor; auto.
Qed.
Lemma se_bytes : bytes (coded_bytes se_first) /\ bytes (bytes_with (retained (all_segs [se_first])) se_second).
Proof.
  split; match goal with |- bytes ?x => let l := eval vm_compute in x in change (bytes l) end; byte_list.
Qed.
Lemma se_flat : encodes_with [] se_first.
Proof.
  assert (HO : header_ok 3 5 se_cs) by (unfold se_cs; flat_header). split; [|split; [split; constructor|apply se_bytes]].
  exact (flat_encodes 3 5 1 1 1 [0x49; 0x7F] 3 (repeat true 7) HO eq_refl ltac:(lia) eq_refl ltac:(byte_list) eq_refl eq_refl ltac:(cbn; lia)).
Qed.
Example C09_series_case : series [] [se_first; se_second] /\
  snd (decode true false (decoder_after true false [coded_bytes se_first]) (coded_bytes se_second)) = Ok (repeat 128 12) /\
  decode_fresh true false (coded_bytes se_second) = Fail EUnsetDc.
Proof.
  split; [|split; vm_compute; reflexivity]. split; [exact se_flat|]. split; [|exact Logic.I]. split; [exact se_encodes|]. split; [split; constructor|apply se_bytes].
Qed.
(** A file with its own tables after one that is rejected and one that is no image at all. *)
Example C09_files_case : encodes_with [] se_first /\ never 0xDD [coded_bytes se_second; [1; 2; 3]] /\ never 0xEE [coded_bytes se_second; [1; 2; 3]] /\
  snd (decode true true (decoder_after true true [coded_bytes se_second; [1; 2; 3]]) (coded_bytes se_first)) = Ok (repeat 128 45).
Proof.
  split; [exact se_flat|].
  assert (N : forall c l, forallb (fun n => negb ((nth n l 0 =? 255) && (nth (S n) l 0 =? c))) (seq 0 (length l)) = true -> ~ has_code c l).
  { intros c l H [a [b E]]. rewrite forallb_forall in H. specialize (H (length a)). subst l. rewrite !app_length in H. specialize (H ltac:(apply in_seq; cbn; lia)).
    assert (A0 : nth (length a) (a ++ [255; c] ++ b) 0 = 255) by (rewrite app_nth2, Nat.sub_diag by lia; reflexivity).
    assert (A1 : nth (S (length a)) (a ++ [255; c] ++ b) 0 = c) by (rewrite app_nth2 by lia; replace (S (length a) - length a)%nat with 1%nat by lia; reflexivity).
    rewrite A0, A1, !Z.eqb_refl in H. discriminate H. }
  split; [|split; [|vm_compute; reflexivity]]; intros i [<-|[<-|[]]]; apply N; vm_compute; reflexivity.
Qed.
