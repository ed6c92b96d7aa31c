(** Where panics come from (C57). *)
From Verif Require Import Base SpecBits SpecMarker SpecHuffman SpecFrame SpecSegments SpecGlobal SpecLimits SpecStream SpecPanic Biterator Marker Types Color Decode Samples PanicP Props_Limits.

(** ** C57: every panic has one of the listed causes *)
(** Whatever a decoder was used for before, and whatever bytes it is given, in every build. *)
Theorem C57_causes :
  forall dbg rayon d input p, reachable dbg rayon d -> bytes input ->
    snd (decode dbg rayon d input) = Panic p -> certain_cause dbg rayon d input \/ possible_cause dbg rayon d input.
Proof. exact panic_has_cause. Qed.
Print Assumptions C57_causes.

(** Without a cause the call returns an image or an error. *)
Theorem C57_returns :
  forall dbg rayon d input, reachable dbg rayon d -> bytes input ->
    ~ certain_cause dbg rayon d input -> ~ possible_cause dbg rayon d input -> returns (snd (decode dbg rayon d input)).
Proof. exact no_cause_returns. Qed.
Print Assumptions C57_returns.

(** The causes of the first list always lead to a panic. *)
Theorem C57_certain :
  forall dbg rayon d input, reachable dbg rayon d -> bytes input ->
    certain_cause dbg rayon d input -> exists p, snd (decode dbg rayon d input) = Panic p.
Proof. exact certain_panics. Qed.
Print Assumptions C57_certain.

(** *** Cases *)
Ltac byte_list := match goal with |- bytes ?l => let l' := eval vm_compute in l in change (bytes l') end;
  repeat first [apply Forall_nil | apply Forall_cons]; unfold is_byte; try lia.
(** The first transition, to the segment of marker [m]. *)
Ltac one m r := apply (from_next _ _ _ _ (PcMarker, decoder_default, biter_new r) (PcSegment m, decoder_default, mkBiter (skipn 2 r) 0 0)); [apply from_here|reflexivity].

(** The inputs of C42_refuted, which panic, are bytes for a reachable decoder. *)
Example C57_causes_case : forall dbg rayon, reachable dbg rayon decoder_default /\ bytes (tiny ++ [0]) /\
  snd (decode dbg rayon decoder_default (tiny ++ [0])) = Panic PAssert.
Proof. intros dbg rayon. split; [constructor|]. split; [byte_list|]. destruct dbg, rayon; vm_compute; reflexivity. Qed.

(** A frame header without components, for a new decoder. *)
Definition no_components : list Z := [0xFF; 0xC0; 0; 8; 8; 0; 1; 0; 1; 0].
Example C57_certain_case : bytes no_components /\ certain_cause true false decoder_default no_components.
Proof.
  split; [byte_list|]. apply (cause_no_component _ _ _ _ 0 decoder_default [0; 8; 8; 0; 1; 0; 1; 0] 8 0 1 0 1 []).
  - exists 0, 0. one (SOF 0) no_components.
  - exists 0, 8, []. split; reflexivity.
Qed.
(** A DHT segment of length 0: checked arithmetic panics, wrapping arithmetic does not. *)
Definition zero_length : list Z := [0xFF; 0xC4; 0; 0].
Example C57_certain_length_case : bytes zero_length /\ certain_cause true false decoder_default zero_length /\
  snd (decode true false decoder_default zero_length) = Panic POverflow /\ snd (decode false false decoder_default zero_length) = Fail EEof.
Proof.
  split; [byte_list|]. split; [|split; vm_compute; reflexivity]. apply (cause_length _ _ _ _ DHT decoder_default 0 0 []); [|exact I|reflexivity|lia].
  exists 0, 0. one DHT zero_length.
Qed.

(** An input without a cause: it ends after the quantisation tables. *)
Definition tables_only : list Z := [0xFF; 0xD8] ++ tiny_dqt.
Example C57_returns_case : bytes tables_only /\ ~ certain_cause true false decoder_default tables_only /\ ~ possible_cause true false decoder_default tables_only.
Proof.
  assert (B : bytes tables_only) by byte_list. split; [exact B|]. split.
  - intros C. destruct (C57_certain true false decoder_default tables_only (fresh _ _) B C) as [p E].
    assert (D : snd (decode true false decoder_default tables_only) = Fail EEof) by (vm_compute; reflexivity). rewrite D in E. discriminate E.
  - apply (plain_no_cause _ _ _ _ 10); [vm_compute; lia|vm_compute; reflexivity].
Qed.
