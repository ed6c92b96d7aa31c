(** What [Decoder::frame] holds after a call (C67). *)
From Verif Require Import Base SpecBits SpecMarker SpecSegments SpecHeader SpecGlobal SpecFile Types Decode HeaderP GlobalP Props_Scan.

(** Whatever the call returns, the frame is the one from before the call or stands for a frame
    header in the bytes of this call. *)
Theorem C67_from_input :
  forall dbg rayon d input, reachable dbg rayon d -> bytes input ->
    d_frame (fst (decode dbg rayon d input)) = d_frame d \/
    exists fr, d_frame (fst (decode dbg rayon d input)) = Some fr /\ frame_in input fr.
Proof. exact frame_from. Qed.
Print Assumptions C67_from_input.

(** Input without a marker SOF0..SOF2 leaves the frame alone. *)
Theorem C67_stays :
  forall dbg rayon d input, reachable dbg rayon d -> bytes input -> no_frame_marker input ->
    d_frame (fst (decode dbg rayon d input)) = d_frame d.
Proof. exact frame_stays. Qed.
Print Assumptions C67_stays.

(** After well-formed segments with a frame header, the frame is that header's (the last one's),
    whatever comes next, be it cut off, damaged or refused, as long as it holds no other marker
    SOF0..SOF2. *)
Theorem C67_header :
  forall dbg rayon d fill segs h rest before, reachable dbg rayon d ->
    Forall (fun s => hseg_ok (snd s)) segs -> sofs segs = before ++ [h] ->
    let input := marker_bytes fill 0xD8 ++ flat_map hseg_bytes segs ++ rest in bytes input -> no_frame_marker rest ->
    d_frame (fst (decode dbg rayon d input)) = Some (frame_of (fh_marker h) (fh_precision h) (fh_lines h) (fh_samples h) (fh_comps h)).
Proof. exact frame_of_last. Qed.
Print Assumptions C67_header.

(** The header of the example file and the first bytes of its scan header: the call fails with
    an end of input; the frame is there: 9 samples by 1 line, three components, two MCUs.  A
    second call with that decoder on tables only leaves it in place. *)
Definition cut_rest : list Z := [255; 0xDA; 0; 12; 3].
Definition cut_file : list Z := marker_bytes 0 0xD8 ++ flat_map hseg_bytes ex_segs ++ cut_rest.
Definition more_tables : list Z := marker_bytes 0 0xD8 ++ hseg_bytes (0%nat, HDri 4) ++ marker_bytes 0 0xD9.
Definition after_cut : decoder := fst (decode false false decoder_default cut_file).
Lemma plain_no_frame : forall l, forallb (fun p => negb ((fst p =? 255) && (192 <=? snd p) && (snd p <=? 194))%bool) (combine l (tl l)) = true -> no_frame_marker l.
Proof.
  intros l H a m b M E. rewrite forallb_forall in H. specialize (H (255, 192 + m)). cbn [fst snd] in H.
  assert (I : In (255, 192 + m) (combine l (tl l))).
  { subst l. clear. induction a as [|x a IH]; [left; reflexivity|]. destruct a; right; exact IH. }
  specialize (H I). rewrite Z.eqb_refl in H. destruct (Z.leb_spec 192 (192 + m)); [|lia]. destruct (Z.leb_spec (192 + m) 194); [discriminate H|lia].
Qed.
Lemma plain_bytes : forall l, forallb (fun b => (0 <=? b) && (b <? 256))%bool l = true -> bytes l.
Proof. intros l H. rewrite forallb_forall in H. apply Forall_forall. intros b I. specialize (H b I). unfold is_byte. lia. Qed.
Example C67_example :
  reachable false false decoder_default /\ Forall (fun s => hseg_ok (snd s)) ex_segs /\ sofs ex_segs = [] ++ [ex_h] /\ bytes cut_file /\ no_frame_marker cut_rest /\
  snd (decode false false decoder_default cut_file) = Fail EEof /\
  d_frame after_cut = Some (frame_of 0 8 1 9 ex_cs) /\ f_mcu (frame_of 0 8 1 9 ex_cs) = mkDims 2 1 /\
  reachable false false after_cut /\ bytes more_tables /\ no_frame_marker more_tables /\
  d_frame (fst (decode false false after_cut more_tables)) = Some (frame_of 0 8 1 9 ex_cs) /\
  frame_in cut_file (frame_of 0 8 1 9 ex_cs).
Proof.
  assert (B : bytes cut_file) by (apply plain_bytes; vm_compute; reflexivity).
  assert (N : no_frame_marker cut_rest) by (apply plain_no_frame; vm_compute; reflexivity).
  assert (F : Forall (fun s => hseg_ok (snd s)) ex_segs) by exact (en_segs _ _ _ _ _ _ _ ex_encodes).
  assert (D : d_frame after_cut = Some (frame_of 0 8 1 9 ex_cs)) by exact (C67_header false false decoder_default 0 ex_segs ex_h cut_rest [] (fresh _ _) F eq_refl B N).
  assert (R : reachable false false after_cut) by exact (reused false false decoder_default cut_file (fresh _ _) B).
  assert (B2 : bytes more_tables) by (apply plain_bytes; vm_compute; reflexivity).
  assert (N2 : no_frame_marker more_tables) by (apply plain_no_frame; vm_compute; reflexivity).
  split; [constructor|]. split; [exact F|]. split; [reflexivity|]. split; [exact B|]. split; [exact N|]. split; [vm_compute; reflexivity|].
  split; [exact D|]. split; [vm_compute; reflexivity|]. split; [exact R|]. split; [exact B2|]. split; [exact N2|].
  split; [rewrite (C67_stays false false after_cut more_tables R B2 N2); exact D|].
  destruct (C67_from_input false false decoder_default cut_file (fresh _ _) B) as [E|[fr [E I]]].
  - exfalso. change (d_frame after_cut = None) in E. congruence.
  - change (d_frame after_cut = Some fr) in E. replace (frame_of 0 8 1 9 ex_cs) with fr by congruence. exact I.
Qed.
