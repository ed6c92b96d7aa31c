(** C49 and C50: several images on one stream, and readers that fail now and then. *)
From Verif Require Import Base SpecBits Biterator Types Huffman Decode SpecGlobal SpecStream StreamP2 TraceP Framed SpecFramed FramedP Samples Tactics.

Ltac byte_list := repeat first [apply Forall_nil | apply Forall_cons]; unfold is_byte; try lia.

(** ** C49: several images on one stream *)

(** The file [tiny] with zeros instead of ones as padding, and a file with luma DC 7. *)
Definition tiny0 : list Z := [0xFF; 0xD8] ++ tiny_dqt ++ tiny_sof ++ tiny_dht ++ tiny_sos ++ [0] ++ [0xFF; 0xD9].
Definition seven_dqt : list Z := [0xFF; 0xDB; 0; 0x43; 0] ++ repeat 8 64.
Definition seven_dht : list Z :=
  [0xFF; 0xC4; 0; 0x15; 0; 1; 1] ++ repeat 0 14 ++ [0; 3] ++ [0xFF; 0xC4; 0; 0x14; 0x10; 1] ++ repeat 0 15 ++ [0].
Definition seven : list Z := [0xFF; 0xD8] ++ seven_dqt ++ tiny_sof ++ seven_dht ++ tiny_sos ++ [0xB8; 0x3F] ++ [0xFF; 0xD9].

(** Refuted: the bits left in the bit reader after one image are taken for the beginning of the
    scan of the next.  The second copy of [tiny] is never answered, and at the end of the stream
    its bytes are an error; [seven] after [tiny0] is answered with the wrong pixels. *)
Theorem C49_refuted :
  forall dbg rerun rayon,
    decode_fresh dbg rayon tiny = Ok [128; 128; 128] /\ decode_fresh dbg rayon tiny0 = Ok [128; 128; 128] /\
    decode_fresh dbg rayon seven = Ok [135; 135; 135] /\
    (forall answers, frames dbg rerun rayon (fun k => k) codec_new [] [tiny; tiny] answers <->
       answers = [AImage [128; 128; 128]; AIo]) /\
    (forall answers, frames dbg rerun rayon (fun k => k) codec_new [] [tiny0; seven] answers <->
       answers = [AImage [128; 128; 128]; AImage [128; 128; 128]]).
Proof.
  intros dbg rerun rayon.
  split; [destruct dbg, rayon; vm_compute; reflexivity|]. split; [destruct dbg, rayon; vm_compute; reflexivity|].
  split; [destruct dbg, rayon; vm_compute; reflexivity|]. split.
  - enough (F : frames dbg rerun rayon (fun k => k) codec_new [] [tiny; tiny] [AImage [128; 128; 128]; AIo]).
    { intros answers. split; [intros H; eapply frames_det; [exact H|exact F]|intros ->; exact F]. }
    eapply frames_more; [reflexivity|]. eapply frames_image; [destruct dbg, rerun, rayon; vm_compute; reflexivity|].
    eapply frames_more; [destruct dbg, rerun, rayon; vm_compute; reflexivity|].
    eapply frames_left; [destruct dbg, rerun, rayon; vm_compute; reflexivity|destruct dbg, rerun, rayon; vm_compute; discriminate].
  - enough (F : frames dbg rerun rayon (fun k => k) codec_new [] [tiny0; seven] [AImage [128; 128; 128]; AImage [128; 128; 128]]).
    { intros answers. split; [intros H; eapply frames_det; [exact H|exact F]|intros ->; exact F]. }
    eapply frames_more; [reflexivity|]. eapply frames_image; [destruct dbg, rerun, rayon; vm_compute; reflexivity|].
    eapply frames_more; [destruct dbg, rerun, rayon; vm_compute; reflexivity|].
    eapply frames_image; [destruct dbg, rerun, rayon; vm_compute; reflexivity|].
    eapply frames_end; destruct dbg, rerun, rayon; vm_compute; reflexivity.
Qed.
Print Assumptions C49_refuted.

(** With a new codec for every image (the buffer is kept), each of any number of images is
    answered in turn, however the stream is cut into chunks.  Missing: the same codec for all
    images (refuted above), and files outside the restrictions of C05. *)
Theorem C49_fresh_codec_partial :
  forall dbg rerun rayon files imgs chunks,
    Forall2 (fun file img =>
      bytes file /\ decode_fresh dbg rayon file = Ok img /\
      no_eob_runs dbg rayon file /\ (rerun = false \/ no_restarts dbg rayon file)) files imgs ->
    concat chunks = concat files ->
    forall answers,
      frames dbg rerun rayon (fun _ => codec_new) codec_new [] chunks answers <-> answers = map AImage imgs.
Proof. exact fresh_codec. Qed.
Print Assumptions C49_fresh_codec_partial.

Example two_ok : forall f, f = tiny0 \/ f = seven ->
  bytes f /\ (exists img, decode_fresh true false f = Ok img) /\ no_eob_runs true false f /\ no_restarts true false f.
Proof.
  assert (E0 : decode_fresh true false tiny0 = Ok [128; 128; 128]) by (vm_compute; reflexivity).
  assert (E7 : decode_fresh true false seven = Ok [135; 135; 135]) by (vm_compute; reflexivity).
  intros f [-> | ->]; (split; [byte_list|]).
  - split; [eauto|]. split; [eapply no_eob_runs_check; [exact E0|vm_compute; reflexivity]|eapply no_restarts_check; [exact E0|vm_compute; reflexivity]].
  - split; [eauto|]. split; [eapply no_eob_runs_check; [exact E7|vm_compute; reflexivity]|eapply no_restarts_check; [exact E7|vm_compute; reflexivity]].
Qed.
(** The stream that goes wrong above, cut inside the first file and inside the second. *)
Example C49_case :
  let stream := tiny0 ++ seven in
  concat [firstn 100 stream; firstn 100 (skipn 100 stream); []; skipn 200 stream] = concat [tiny0; seven] /\
  frames true true false (fun _ => codec_new) codec_new [] [firstn 100 stream; firstn 100 (skipn 100 stream); []; skipn 200 stream]
         [AImage [128; 128; 128]; AImage [135; 135; 135]].
Proof.
  cbv zeta. split; [vm_compute; reflexivity|].
  apply (C49_fresh_codec_partial true true false [tiny0; seven] [[128; 128; 128]; [135; 135; 135]]); [|vm_compute; reflexivity|reflexivity].
  constructor; [|constructor; [|constructor]].
  - destruct (two_ok tiny0 (or_introl eq_refl)) as [A [_ [B C]]]. split; [exact A|]. split; [vm_compute; reflexivity|]. split; [exact B|right; exact C].
  - destruct (two_ok seven (or_intror eq_refl)) as [A [_ [B C]]]. split; [exact A|]. split; [vm_compute; reflexivity|]. split; [exact B|right; exact C].
Qed.

(** ** C50: readers that fail now and then *)

(** Whatever I/O errors strike between the reads, a caller that calls [decode] again after each
    of them gets every error once and then the image; nothing is lost, and what the reader
    would do afterwards ([rest]) has no influence. *)
Theorem C50_retry_partial :
  forall dbg rerun rayon evs c rest img answers, bytes (delivered evs ++ c) -> c <> [] ->
    decode_fresh dbg rayon (delivered evs ++ c) = Ok img ->
    no_eob_runs dbg rayon (delivered evs ++ c) -> rerun = false \/ no_restarts dbg rayon (delivered evs ++ c) ->
    session dbg rerun rayon codec_new [] (evs ++ Data c :: rest) answers <->
    answers = repeat AIo (io_errors evs) ++ [AImage img].
Proof. exact retry_image. Qed.
Print Assumptions C50_retry_partial.

(** If the bytes are rejected, the parse error comes after at most the I/O errors. *)
Theorem C50_retry_error_partial :
  forall dbg rerun rayon evs e, bytes (delivered evs) ->
    decode_fresh dbg rayon (delivered evs) = Fail e -> e <> EEof ->
    no_eob_runs dbg rayon (delivered evs) -> rerun = false \/ no_restarts dbg rayon (delivered evs) ->
    exists n, (n <= io_errors evs)%nat /\
      forall answers, session dbg rerun rayon codec_new [] evs answers <-> answers = repeat AIo n ++ [AError e].
Proof. exact retry_error. Qed.
Print Assumptions C50_retry_error_partial.

(** If the input ends before the file does, the I/O errors are followed by the error for the
    end of the input. *)
Theorem C50_truncated_partial :
  forall dbg rerun rayon evs s img answers, bytes (delivered evs ++ s) -> s <> [] ->
    decode_fresh dbg rayon (delivered evs ++ s) = Ok img ->
    no_eob_runs dbg rayon (delivered evs ++ s) -> rerun = false \/ no_restarts dbg rayon (delivered evs ++ s) ->
    session dbg rerun rayon codec_new [] evs answers <-> answers = repeat AIo (io_errors evs) ++ [AError EEof].
Proof. exact retry_truncated. Qed.
Print Assumptions C50_truncated_partial.

(** Errors at the very start, in the middle of a segment, and twice in the scan. *)
Example C50_case :
  let evs := [IoError; Data (firstn 75 seven); IoError; Data (firstn 75 (skipn 75 seven)); IoError; IoError] in
  session true true false codec_new [] (evs ++ Data (skipn 150 seven) :: [IoError; Data [1; 2]])
    [AIo; AIo; AIo; AIo; AImage [135; 135; 135]].
Proof.
  cbv zeta. destruct (two_ok seven (or_intror eq_refl)) as [A [_ [B C]]].
  refine (proj2 (C50_retry_partial true true false
           [IoError; Data (firstn 75 seven); IoError; Data (firstn 75 (skipn 75 seven)); IoError; IoError] (skipn 150 seven)
           [IoError; Data [1; 2]] [135; 135; 135] _ _ _ _ _ _) _);
    [exact A|discriminate|vm_compute; reflexivity|exact B|right; exact C|reflexivity].
Qed.
Example C50_truncated_case :
  let evs := [IoError; Data (firstn 75 seven); IoError; Data (firstn 75 (skipn 75 seven)); IoError; IoError] in
  session true true false codec_new [] evs [AIo; AIo; AIo; AIo; AError EEof].
Proof.
  cbv zeta. destruct (two_ok seven (or_intror eq_refl)) as [A [_ [B C]]].
  refine (proj2 (C50_truncated_partial true true false
           [IoError; Data (firstn 75 seven); IoError; Data (firstn 75 (skipn 75 seven)); IoError; IoError] (skipn 150 seven) [135; 135; 135] _ _ _ _ _ _) _);
    [exact A|discriminate|vm_compute; reflexivity|exact B|right; exact C|reflexivity].
Qed.
