(** C01-C04: memory safety, termination, size of the image, agreement of the builds. *)
From Verif Require Import Base SpecBits SpecMarker SpecSegments SpecGlobal Biterator Types Decode Samples GlobalP DebugP.

(** [UB] is the outcome of an out-of-bounds unchecked access and of reading a sample that
    was never written; it is never the outcome, whatever was decoded before. *)
Theorem C01_decode_safe :
  forall dbg rayon d input, reachable dbg rayon d -> bytes input -> snd (decode dbg rayon d input) <> UB.
Proof. exact decode_no_ub. Qed.
Print Assumptions C01_decode_safe.

Theorem C01_stream_safe :
  forall dbg rerun rayon k buf, streaming dbg rerun rayon k buf -> snd (codec_decode dbg rerun rayon k buf) <> UB.
Proof. exact codec_no_ub. Qed.
Print Assumptions C01_stream_safe.

(** A decoder that has seen an image, then garbage, then half a file. *)
Example C01_case :
  exists d, reachable true false d /\ d_frame d <> None /\ exists img, snd (decode true false d tiny) = Ok img.
Proof.
  exists (fst (decode true false (fst (decode true false (fst (decode true false decoder_default tiny)) [1; 0xFF; 0xC4; 0; 9; 7])) (firstn 90 tiny))).
  split.
  - repeat (apply reused; [|apply Forall_forall; intros x Hx; cbn in Hx; repeat (destruct Hx as [<-|Hx]; [unfold is_byte; lia|]); contradiction]). apply fresh.
  - split; [vm_compute; discriminate|]. eexists. vm_compute. reflexivity.
Qed.
Example C01_stream_case :
  exists k buf, streaming true true false k buf /\ k_pc k <> PcMarker /\ buf <> [].
Proof.
  eexists _, _. split.
  - eapply stream_call; [apply stream_more; [apply stream_new|]|].
    + instantiate (1 := firstn 100 tiny). apply Forall_forall; intros x Hx; cbn in Hx; repeat (destruct Hx as [<-|Hx]; [unfold is_byte; lia|]); contradiction.
    + vm_compute. reflexivity.
  - split; discriminate.
Qed.

(** The parser cannot move forever, from any configuration that occurs. *)
Theorem C02_no_infinite_run :
  forall dbg rerun rayon c, occurs dbg rerun rayon c -> Acc (moves dbg rerun rayon) c.
Proof. exact no_infinite_run. Qed.
Print Assumptions C02_no_infinite_run.

(** A call needs at most three transitions per byte of its input, plus three; [PFuel] would
    be the outcome if a loop of the model ran out of its bound. *)
Theorem C02_linear :
  forall dbg rerun rayon p d b, occurs dbg rerun rayon (p, d, b) ->
    forall fuel, (3 * length (bi_input b) + 3 <= fuel)%nat ->
    run dbg rerun rayon fuel p d b = run dbg rerun rayon (run_fuel b) p d b /\
    snd (run dbg rerun rayon fuel p d b) <> RPanic PFuel.
Proof. exact run_bound. Qed.
Print Assumptions C02_linear.

Theorem C02_decode_terminates :
  forall dbg rayon d input, reachable dbg rayon d -> bytes input -> snd (decode dbg rayon d input) <> Panic PFuel.
Proof. exact decode_no_fuel. Qed.
Print Assumptions C02_decode_terminates.

Theorem C02_stream_terminates :
  forall dbg rerun rayon k buf, streaming dbg rerun rayon k buf ->
    snd (codec_decode dbg rerun rayon k buf) <> Panic PFuel.
Proof. exact codec_no_fuel. Qed.
Print Assumptions C02_stream_terminates.

Example C02_case :
  occurs true true false (PcMarker, decoder_default, mkBiter tiny 0 0) /\
  snd (run true true false (run_fuel (mkBiter tiny 0 0)) PcMarker decoder_default (mkBiter tiny 0 0)) = RImage [128; 128; 128].
Proof.
  split.
  - apply occurs_decode; [apply fresh|]. apply Forall_forall; intros x Hx; cbn in Hx; repeat (destruct Hx as [<-|Hx]; [unfold is_byte; lia|]); contradiction.
  - vm_compute. reflexivity.
Qed.

(** The image has lines * samples * components bytes for the frame the decoder reports. *)
Theorem C03_image_size :
  forall dbg rayon d input img, reachable dbg rayon d -> bytes input -> snd (decode dbg rayon d input) = Ok img ->
    exists fr, d_frame (fst (decode dbg rayon d input)) = Some fr /\
      lenZ img = f_lines fr * f_samples fr * lenZ (f_components fr) /\ bytes img.
Proof. exact image_size. Qed.
Print Assumptions C03_image_size.

(** For a fresh decoder that frame is a frame header found in the input. *)
Theorem C03_image_header :
  forall dbg rayon input img, bytes input -> decode_fresh dbg rayon input = Ok img ->
    exists lines samples cs, header_ok lines samples cs /\ header_in input lines samples cs /\
      lenZ img = lines * samples * lenZ cs /\ bytes img.
Proof. exact image_header. Qed.
Print Assumptions C03_image_header.

Theorem C03_stream_image_size :
  forall dbg rerun rayon k buf k' buf' img, streaming dbg rerun rayon k buf ->
    codec_decode dbg rerun rayon k buf = (k', buf', Ok (Some img)) ->
    exists fr, d_frame (k_dec k') = Some fr /\
      lenZ img = f_lines fr * f_samples fr * lenZ (f_components fr) /\ bytes img.
Proof. exact codec_image_size. Qed.
Print Assumptions C03_stream_image_size.

Example C03_case : decode_fresh true false tiny = Ok [128; 128; 128] /\ decode_fresh false true tiny = Ok [128; 128; 128].
Proof. vm_compute. split; reflexivity. Qed.

(** If the debug build does not panic, the release build does exactly the same. *)
Theorem C04_builds_agree :
  forall rayon d input,
    (exists p, snd (decode true rayon d input) = Panic p) \/
    decode true rayon d input = decode false rayon d input.
Proof. exact debug_release. Qed.
Print Assumptions C04_builds_agree.

Theorem C04_builds_agree_stream :
  forall rerun rayon k buf,
    (exists p, snd (codec_decode true rerun rayon k buf) = Panic p) \/
    codec_decode true rerun rayon k buf = codec_decode false rerun rayon k buf.
Proof. exact debug_release_codec. Qed.
Print Assumptions C04_builds_agree_stream.

(** The disjunction is needed: a segment length below 2 panics only in the debug build. *)
Example C04_case :
  decode true false decoder_default tiny = decode false false decoder_default tiny /\
  (forall p, snd (decode true false decoder_default tiny) <> Panic p) /\
  snd (decode true false decoder_default [0xFF; 0xDB; 0; 0]) = Panic POverflow /\
  snd (decode false false decoder_default [0xFF; 0xDB; 0; 0]) = Fail EEof.
Proof. split; [vm_compute; reflexivity|]. split; [vm_compute; discriminate|]. split; vm_compute; reflexivity. Qed.
