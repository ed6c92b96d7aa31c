(** C51-C54: unsupported markers, left-over images, sequential frames and sample precision. *)
From Verif Require Import Base SpecBits SpecMarker SpecSegments SpecGlobal SpecFile SpecLimits SpecProcess
  Biterator Marker Types Decode StreamP2 FileP CommentP ProcessP Samples Tactics.

Ltac byte_list := match goal with |- bytes ?l => let l' := eval vm_compute in l in change (bytes l') end;
  repeat first [apply Forall_nil | apply Forall_cons]; unfold is_byte; try lia.

(** ** C51: unsupported markers are errors *)
Theorem C51_unsupported :
  forall dbg rayon d a fill code b,
    reachable dbg rayon d -> between_segments dbg rayon d a -> unsupported_code code ->
    bytes (a ++ marker_bytes fill code ++ b) ->
    snd (decode dbg rayon d (a ++ marker_bytes fill code ++ b)) = Fail EMarker.
Proof. exact unsupported. Qed.
Print Assumptions C51_unsupported.

(** The list is complete: every other code is that of a marker the decoder knows. *)
Theorem C51_complete : forall c, 0 < c < 255 -> unsupported_code c \/ exists m, code_of m c.
Proof. exact supported. Qed.
Print Assumptions C51_complete.

(** A lossless frame header in the place of the baseline one. *)
Definition after_sof : list Z := tiny_dqt ++ tiny_dht ++ tiny_sos ++ [3; 0xFF; 0xD9].
Example C51_case :
  between_segments true false decoder_default [0xFF; 0xD8] /\ unsupported_code 0xC3 /\
  snd (decode true false decoder_default ([0xFF; 0xD8] ++ marker_bytes 0 0xC3 ++ skipn 2 tiny_sof ++ after_sof)) = Fail EMarker /\
  snd (decode true false decoder_default ([0xFF; 0xD8] ++ marker_bytes 0 0xC0 ++ skipn 2 tiny_sof ++ after_sof)) = Ok [128; 128; 128].
Proof.
  split; [apply (header_between true false decoder_default 0 []); constructor|].
  split; [unfold unsupported_code; lia|split; vm_compute; reflexivity].
Qed.

(** ** C52: pixels of an earlier image *)

(** Refuted, always: after any call that returned an image, the input that consists of the start
    and end markers alone is answered with that image once more. *)
Theorem C52_refuted :
  forall dbg rayon d input img,
    snd (decode dbg rayon d input) = Ok img ->
    snd (decode dbg rayon (fst (decode dbg rayon d input)) [0xFF; 0xD8; 0xFF; 0xD9]) = Ok img.
Proof. exact left_image. Qed.
Print Assumptions C52_refuted.

(** With a fresh decoder nothing is left over: an input in which the code of a scan never occurs
    gives no image, or (release builds) a black one, or one without pixels. *)
Theorem C52_fresh_partial :
  forall dbg rayon input img,
    bytes input -> ~ has_code 0xDA input -> decode_fresh dbg rayon input = Ok img ->
    Forall (fun v => v = 0) img /\ (dbg = true -> img = []).
Proof. exact no_scan. Qed.
Print Assumptions C52_fresh_partial.

Example C52_case :
  snd (decode true false decoder_default tiny) = Ok [128; 128; 128] /\
  decode_fresh true false [0xFF; 0xD8; 0xFF; 0xD9] = Panic PUnwrap /\
  snd (decode true false (fst (decode true false decoder_default tiny)) [0xFF; 0xD8; 0xFF; 0xD9]) = Ok [128; 128; 128].
Proof. split; [|split]; vm_compute; reflexivity. Qed.

(** ** C53: baseline and extended sequential frames *)

(** A frame header gives the same result, for every decoder a user can hold and whatever
    precedes and follows it, whether it is announced as baseline (SOF0) or as extended
    sequential (SOF1). *)
Theorem C53_sequential :
  forall dbg rayon d a fill header b,
    reachable dbg rayon d -> between_segments dbg rayon d a ->
    bytes (a ++ marker_bytes fill 0xC0 ++ segment header ++ b) ->
    snd (decode dbg rayon d (a ++ marker_bytes fill 0xC1 ++ segment header ++ b)) =
    snd (decode dbg rayon d (a ++ marker_bytes fill 0xC0 ++ segment header ++ b)).
Proof. exact same_process. Qed.
Print Assumptions C53_sequential.

Example C53_case :
  decode_fresh true false ([0xFF; 0xD8] ++ marker_bytes 0 0xC1 ++ segment (skipn 4 tiny_sof) ++ after_sof) = Ok [128; 128; 128].
Proof.
  unfold decode_fresh. rewrite (C53_sequential true false decoder_default [0xFF; 0xD8] 0 (skipn 4 tiny_sof) after_sof); [vm_compute; reflexivity|constructor| |byte_list].
  apply (header_between true false decoder_default 0 []); constructor.
Qed.

(** ** C54: sample precision *)

(** Refuted: a file with 12-bit samples is accepted. *)
Theorem C54_refuted :
  forall dbg rayon, exists file precision rest,
    file = [0xFF; 0xD8] ++ marker_bytes 0 0xC1 ++ segment (precision :: rest) ++ after_sof /\ precision = 12 /\
    decode_fresh dbg rayon file = Ok [128; 128; 128].
Proof. intros dbg rayon. do 3 eexists. split; [reflexivity|]. split; [reflexivity|]. instantiate (1 := skipn 5 tiny_sof). destruct dbg, rayon; vm_compute; reflexivity. Qed.
Print Assumptions C54_refuted.

(** In fact the precision has no influence at all: whatever number a frame header gives, and
    whatever precedes and follows it, the result is the same. *)
Theorem C54_ignored :
  forall dbg rayon d a fill i precision precision' data b,
    reachable dbg rayon d -> between_segments dbg rayon d a -> 0 <= i <= 1 -> is_byte precision' ->
    bytes (a ++ marker_bytes fill (0xC0 + i) ++ segment (precision :: data) ++ b) ->
    snd (decode dbg rayon d (a ++ marker_bytes fill (0xC0 + i) ++ segment (precision' :: data) ++ b)) =
    snd (decode dbg rayon d (a ++ marker_bytes fill (0xC0 + i) ++ segment (precision :: data) ++ b)).
Proof. exact precision_ignored. Qed.
Print Assumptions C54_ignored.
