(** The answer of the decoder to every encoded file, whatever its size, sampling factors and
    number of components (C45, and C38 and C39 for whole files). *)
From Verif Require Import Base SpecBits SpecReader SpecMarker SpecHuffman SpecBlock SpecTables SpecFrame SpecSegments SpecScan SpecPlane SpecUpsample SpecImage SpecColor SpecFile SpecAnswer Decode AnswerP3 EmptyP Props_Scan.

(** Every file that encodes an image of positive size has the answer of SpecAnswer.v for the
    planes made of its coefficients: an image exactly as drawn there, the error for its
    sampling ratios or its missing Adobe segment, or the panic. *)
Theorem C45_every_file :
  forall dbg rayon segs h fill1 fill2 ss ts qs ms data post fill3,
    encodes segs h ss ts qs ms data ->
    let cs := fh_comps h in let lines := fh_lines h in let samples := fh_samples h in
    0 < lines -> 0 < samples -> post_ok post ->
    let file := file_bytes segs fill1 fill2 (mkSpS ss 0 63 0 0) data post fill3 in bytes file ->
    exists ps, length ps = length cs /\
      (forall k c, nth_error cs k = Some c -> exists q p, nth_error qs k = Some q /\ nth_error ps k = Some p /\ plane_from lines samples cs ms k c q p) /\
      final_answer rayon lines samples cs ps (last_transform (segs ++ post)) (decode_fresh dbg rayon file).
Proof. exact file_answer. Qed.
Print Assumptions C45_every_file.

(** In particular, an image is returned exactly in these cases. *)
Theorem C45_image_iff :
  forall dbg rayon segs h fill1 fill2 ss ts qs ms data post fill3,
    encodes segs h ss ts qs ms data ->
    let cs := fh_comps h in let lines := fh_lines h in let samples := fh_samples h in
    0 < lines -> 0 < samples -> post_ok post ->
    let file := file_bytes segs fill1 fill2 (mkSpS ss 0 63 0 0) data post fill3 in bytes file ->
    (exists img, decode_fresh dbg rayon file = Ok img) <->
    (lenZ cs = 3 \/ lenZ cs = 4 /\ last_transform (segs ++ post) = Some 0) /\
    Forall (ratios_accepted lines samples cs) cs /\ Forall (doubling_possible lines samples cs rayon) cs.
Proof. exact file_image_iff. Qed.
Print Assumptions C45_image_iff.

(** Files that encode an image with no lines or no columns: the other answers. *)
Theorem C45_empty_file :
  forall dbg rayon segs h fill1 fill2 ss ts qs ms data post fill3,
    encodes segs h ss ts qs ms data ->
    let cs := fh_comps h in let lines := fh_lines h in let samples := fh_samples h in
    lines = 0 \/ samples = 0 -> post_ok post ->
    let file := file_bytes segs fill1 fill2 (mkSpS ss 0 63 0 0) data post fill3 in bytes file ->
    empty_answer lines samples cs (last_transform (segs ++ post)) (decode_fresh dbg rayon file).
Proof. exact empty_file. Qed.
Print Assumptions C45_empty_file.

(** C38 for whole files: every 4:2:2 file of one of the sizes of [size_422] decodes, every
    other 4:2:2 file makes the decoder panic. *)
Theorem C38_files_refuted :
  forall dbg rayon segs h fill1 fill2 ss ts qs ms data post fill3 i0 i1 i2 q0 q1 q2,
    encodes segs h ss ts qs ms data -> fh_comps h = comps_422 i0 i1 i2 q0 q1 q2 ->
    0 < fh_lines h -> 0 < fh_samples h -> post_ok post ->
    let file := file_bytes segs fill1 fill2 (mkSpS ss 0 63 0 0) data post fill3 in bytes file ->
    (size_422 (fh_lines h) (fh_samples h) -> exists img, decode_fresh dbg rayon file = Ok img) /\
    (~ size_422 (fh_lines h) (fh_samples h) -> decode_fresh dbg rayon file = Panic PIndex).
Proof. exact file_422. Qed.
Print Assumptions C38_files_refuted.

(** C39 for whole files: ratios that are not whole are an error, never a wrong image. *)
Theorem C39_files_unsupported :
  forall dbg rayon segs h fill1 fill2 ss ts qs ms data post fill3,
    encodes segs h ss ts qs ms data ->
    let cs := fh_comps h in let lines := fh_lines h in let samples := fh_samples h in
    0 < lines -> 0 < samples -> post_ok post -> lenZ cs = 3 \/ lenZ cs = 4 /\ last_transform (segs ++ post) <> None ->
    let file := file_bytes segs fill1 fill2 (mkSpS ss 0 63 0 0) data post fill3 in bytes file ->
    (exists c, In c cs /\ (samples <> 1 /\ largest (map cs_h cs) mod cs_h c <> 0 \/ lines <> 1 /\ largest (map cs_v cs) mod cs_v c <> 0)) ->
    decode_fresh dbg rayon file = Fail EUnsupported.
Proof. exact file_unsupported. Qed.
Print Assumptions C39_files_unsupported.

(** ** Cases: flat images of one MCU *)
Definition flat_block : qblock := mkQ 0 (repeat 0 63).
Definition flat_mcu (cs : list comp_spec) : mcu := map (fun c => repeat flat_block (Z.to_nat (cs_h c * cs_v c))) cs.
Definition flat_h (lines samples : Z) (cs : list comp_spec) : frame_header := mkFH 0 8 lines samples cs.
Definition flat_segs (lines samples : Z) (cs : list comp_spec) : list (nat * hseg) :=
  [(0%nat, HDqt [mkDqt 0 0 ex_q]); (0%nat, HSof (flat_h lines samples cs)); (0%nat, HDht [ex_dcs; ex_acs])].
Definition flat_file (lines samples : Z) (cs : list comp_spec) (data : list Z) : list Z :=
  file_bytes (flat_segs lines samples cs) 0 0 (mkSpS ex_ss 0 63 0 0) data [] 0.
Definition flat_bits (n : nat) : list bool := concat (repeat [false; true; false] n).

Lemma flat_comp : forall k, comp_bits ex_ts 0 (repeat flat_block k) (flat_bits k) 0.
Proof.
  induction k as [|k IH]; [constructor|]. unfold flat_bits. cbn [repeat concat].
  change ([false; true; false] ++ concat (repeat [false; true; false] k)) with ((([false] ++ [] ++ []) ++ [true; false]) ++ flat_bits k).
  apply (ex_dc 0 (repeat flat_block k) 0 0%nat [false]); try reflexivity; [cbn; lia|apply ex_small|apply ex_eob|exact IH].
Qed.
Lemma flat_encodes : forall lines samples h0 h1 h2 data n pad,
  let cs := [mkCS 1 h0 1 0; mkCS 2 h1 1 0; mkCS 3 h2 1 0] in
  header_ok lines samples cs -> n = (Z.to_nat h0 + (Z.to_nat h1 + Z.to_nat h2))%nat -> (n <= 10)%nat ->
  mcus lines (largest (map cs_v cs)) * mcus samples (largest (map cs_h cs)) = 1 ->
  bytes data -> stuff data = data -> bits_of data = flat_bits n ++ pad -> (length pad < 8)%nat ->
  encodes (flat_segs lines samples cs) (flat_h lines samples cs) ex_ss [ex_ts; ex_ts; ex_ts] [ex_q; ex_q; ex_q] [flat_mcu cs] data.
Proof.
  intros lines samples h0 h1 h2 data n pad cs HO En Hn M Bd Sd Eb Lp.
  assert (HH : 1 <= h0 /\ 1 <= h1 /\ 1 <= h2).
  { destruct HO as [_ _ _ _ _ X]. unfold cs in X. apply Forall_cons_iff in X. destruct X as [[X0 _] X]. apply Forall_cons_iff in X. destruct X as [[X1 _] X]. apply Forall_cons_iff in X. destruct X as [[X2 _] X]. cbn [cs_h] in *. lia. }
  assert (CC : forall c s, In c cs -> sc_id s = cs_id c -> sc_dc s = 0 -> sc_ac s = 0 -> comp_coding (flat_segs lines samples cs) c s ex_ts ex_q).
  { intros c s I E1 E2 E3. assert (T : cs_tq c = 0) by (destruct I as [<-|[<-|[<-|[]]]]; reflexivity). constructor; rewrite ?E2, ?E3, ?T; auto; try lia.
    - exists ex_dcs. split; [reflexivity|split; reflexivity].
    - exists ex_acs. split; [reflexivity|split; reflexivity].
    - exists (mkDqt 0 0 ex_q). split; reflexivity. }
  constructor.
  - repeat first [apply Forall_nil | apply Forall_cons]; cbn [snd]; split; try (cbn; lia).
    + apply Forall_cons; [|apply Forall_nil]. split; [cbn; lia|]. split; [cbn; lia|]. split; [reflexivity|small_list].
    + split; [cbn; lia|exact HO].
    + repeat first [apply Forall_nil | apply Forall_cons]; (split; [cbn; lia|]; split; [split; [reflexivity|byte_list]|]; split; [byte_list|]; split; [reflexivity|]; split; [cbn; lia|vm_compute; discriminate]).
  - reflexivity.
  - cbn. repeat constructor; cbn; intuition discriminate.
  - cbn. lia.
  - cbn. rewrite !Z.mul_1_r. lia.
  - do 3 (apply ccs_cons; [apply CC; cbn; tauto|]). apply ccs_nil.
  - constructor; [|constructor]. unfold mcu_shape, flat_mcu. cbn [map cs fh_comps flat_h]. repeat constructor; cbn [cs_h cs_v]; unfold lenZ; rewrite repeat_length; lia.
  - cbn [flat_h fh_lines fh_samples fh_comps]. rewrite M. reflexivity.
  - change (last (dris (flat_segs lines samples cs)) 0) with 0. apply sd_last; [left; reflexivity|].
    exists data, (flat_bits n). split; [exact Bd|]. split; [auto|]. split; [left; exists pad; split; [exact Eb|exact Lp]|].
    replace (flat_bits n) with ((flat_bits (Z.to_nat h0) ++ (flat_bits (Z.to_nat h1) ++ (flat_bits (Z.to_nat h2) ++ []))) ++ []).
    2:{ subst n. unfold flat_bits. rewrite !repeat_app, !concat_app, !app_nil_r. reflexivity. }
    apply (msb_cons _ _ _ _ _ _ [0; 0; 0]); [|constructor]. unfold flat_mcu. cbn [map cs cs_h cs_v]. rewrite !Z.mul_1_r.
    do 3 (apply mb_cons; [apply flat_comp|]). constructor.
Qed.
Ltac flat_header := constructor; try lia; try discriminate; repeat constructor; cbn; lia.

(** No lines: the empty image.  No columns: a panic. *)
Lemma empty_encodes : forall lines samples, lines = 0 /\ samples = 5 \/ lines = 5 /\ samples = 0 ->
  let cs := [mkCS 1 2 1 0; mkCS 2 1 1 0; mkCS 3 1 1 0] in
  encodes (flat_segs lines samples cs) (flat_h lines samples cs) ex_ss [ex_ts; ex_ts; ex_ts] [ex_q; ex_q; ex_q] [] [].
Proof.
  intros lines samples D cs.
  assert (HO : header_ok lines samples cs) by (unfold cs; flat_header).
  assert (CC : forall c s, In c cs -> sc_id s = cs_id c -> sc_dc s = 0 -> sc_ac s = 0 -> comp_coding (flat_segs lines samples cs) c s ex_ts ex_q).
  { intros c s I E1 E2 E3. assert (T : cs_tq c = 0) by (destruct I as [<-|[<-|[<-|[]]]]; reflexivity). constructor; rewrite ?E2, ?E3, ?T; auto; try lia.
    - exists ex_dcs. split; [reflexivity|split; reflexivity].
    - exists ex_acs. split; [reflexivity|split; reflexivity].
    - exists (mkDqt 0 0 ex_q). split; reflexivity. }
  constructor.
  - repeat first [apply Forall_nil | apply Forall_cons]; cbn [snd]; split; try (cbn; lia).
    + apply Forall_cons; [|apply Forall_nil]. split; [cbn; lia|]. split; [cbn; lia|]. split; [reflexivity|small_list].
    + split; [cbn; lia|exact HO].
    + repeat first [apply Forall_nil | apply Forall_cons]; (split; [cbn; lia|]; split; [split; [reflexivity|byte_list]|]; split; [byte_list|]; split; [reflexivity|]; split; [cbn; lia|vm_compute; discriminate]).
  - reflexivity.
  - cbn. repeat constructor; cbn; intuition discriminate.
  - cbn. lia.
  - cbn. lia.
  - do 3 (apply ccs_cons; [apply CC; cbn; tauto|]). apply ccs_nil.
  - constructor.
  - destruct D as [[-> ->]|[-> ->]]; reflexivity.
  - apply sd_last; [left; reflexivity|]. exists [], []. split; [constructor|]. split; [reflexivity|]. split; [left; exists []; split; [reflexivity|cbn; lia]|]. constructor.
Qed.
Example C45_empty_case :
  let cs := [mkCS 1 2 1 0; mkCS 2 1 1 0; mkCS 3 1 1 0] in
  encodes (flat_segs 0 5 cs) (flat_h 0 5 cs) ex_ss [ex_ts; ex_ts; ex_ts] [ex_q; ex_q; ex_q] [] [] /\ decode_fresh true false (flat_file 0 5 cs []) = Ok [] /\
  encodes (flat_segs 5 0 cs) (flat_h 5 0 cs) ex_ss [ex_ts; ex_ts; ex_ts] [ex_q; ex_q; ex_q] [] [] /\ decode_fresh true true (flat_file 5 0 cs []) = Panic PAssert.
Proof. split; [apply (empty_encodes 0 5); lia|]. split; [vm_compute; reflexivity|]. split; [apply (empty_encodes 5 0); lia|vm_compute; reflexivity]. Qed.

(** 4:2:2, three columns: a panic.  Four columns: an image. *)
Example C38_files_case :
  let cs := comps_422 1 2 3 0 0 0 in
  encodes (flat_segs 1 3 cs) (flat_h 1 3 cs) ex_ss [ex_ts; ex_ts; ex_ts] [ex_q; ex_q; ex_q] [flat_mcu cs] [0x49; 0x2F] /\
  decode_fresh true false (flat_file 1 3 cs [0x49; 0x2F]) = Panic PIndex /\
  decode_fresh true false (flat_file 1 4 cs [0x49; 0x2F]) = Ok (repeat 128 12).
Proof.
  split; [|split; vm_compute; reflexivity].
  apply (flat_encodes 1 3 2 1 1 [0x49; 0x2F] 4 [true; true; true; true]); try reflexivity; [flat_header|lia|byte_list|cbn; lia].
Qed.
(** Factors 3, 2, 1: an error. *)
Example C39_files_case :
  let cs := [mkCS 1 3 1 0; mkCS 2 2 1 0; mkCS 3 1 1 0] in
  encodes (flat_segs 1 3 cs) (flat_h 1 3 cs) ex_ss [ex_ts; ex_ts; ex_ts] [ex_q; ex_q; ex_q] [flat_mcu cs] [0x49; 0x24; 0xBF] /\
  decode_fresh true false (flat_file 1 3 cs [0x49; 0x24; 0xBF]) = Fail EUnsupported.
Proof.
  split; [|vm_compute; reflexivity].
  apply (flat_encodes 1 3 3 2 1 [0x49; 0x24; 0xBF] 6 [true; true; true; true; true; true]); try reflexivity; [flat_header|lia|byte_list|cbn; lia].
Qed.
(** Factors 4, 1, 1 and six columns: the last two columns are drawn with chroma 0. *)
Example C45_every_case :
  let cs := [mkCS 1 4 1 0; mkCS 2 1 1 0; mkCS 3 1 1 0] in
  encodes (flat_segs 1 6 cs) (flat_h 1 6 cs) ex_ss [ex_ts; ex_ts; ex_ts] [ex_q; ex_q; ex_q] [flat_mcu cs] [0x49; 0x24; 0xBF] /\
  Forall (ratios_accepted 1 6 cs) cs /\ Forall (doubling_possible 1 6 cs false) cs /\
  decode_fresh true false (flat_file 1 6 cs [0x49; 0x24; 0xBF]) = Ok (repeat 128 12 ++ [0; 255; 0; 0; 255; 0]).
Proof.
  split; [|split; [|split; [|vm_compute; reflexivity]]].
  - apply (flat_encodes 1 6 4 1 1 [0x49; 0x24; 0xBF] 6 [true; true; true; true; true; true]); try reflexivity; [flat_header|lia|byte_list|cbn; lia].
  - repeat first [apply Forall_nil | apply Forall_cons]; (split; [right; reflexivity|split; [right; reflexivity|intros _; split; reflexivity]]).
  - repeat first [apply Forall_nil | apply Forall_cons]; (intros H; vm_compute in H; discriminate H).
Qed.
