(** Stray start-of-image and restart markers (C94). *)
From Verif Require Import Base Tactics SpecBits SpecMarker SpecGlobal SpecStream SpecFile SpecLimits
  Biterator Marker MarkerP Types Parsers Decode InvP GlobalP ExtP StreamP StreamP2 FileP CommentP.

Lemma stray_ignored : forall dbg rayon d a fill c b, reachable dbg rayon d -> between_segments dbg rayon d a ->
  c = 0xD8 \/ 0xD0 <= c <= 0xD7 -> bytes (a ++ marker_bytes fill c ++ b) ->
  decode dbg rayon d (a ++ marker_bytes fill c ++ b) = decode dbg rayon d (a ++ b).
Proof.
  intros dbg rayon d a fill c b R [d' [junk [bits [count [J F]]]]] Hc B.
  assert (M : exists m, code_of m c /\ m <> EOI /\ no_segment m = true).
  { destruct Hc as [->|Hc]; [exists SOI; splits; [constructor|discriminate|reflexivity]|]. exists (RST (c - 0xD0)). splits; [|discriminate|reflexivity].
    replace c with (0xD0 + (c - 0xD0)) at 2 by lia. constructor. lia. }
  destruct M as [m [Cm [Nm Sm]]].
  apply (decode_join dbg rayon d _ _ d' [] junk b bits count R B (bytes_drop _ _ _ B)); [|exact (from_ext b _ _ _ _ _ _ F)|constructor|exact J].
  pose proof (from_ext (marker_bytes fill c ++ b) _ _ _ _ _ _ F) as F1. unfold ext in F1. cbn [bi_input bi_bits bi_count biter_new] in F1.
  apply (from_next _ _ _ _ (PcSegment m, d', mkBiter b bits count)).
  - eapply from_next; [exact F1|]. cbn [moves]. apply (marker_step dbg false rayon d' junk fill c m); assumption.
  - cbn [moves step]. rewrite Sm. reflexivity.
Qed.

Lemma start_optional : forall dbg rayon d fill b, reachable dbg rayon d -> bytes (marker_bytes fill 0xD8 ++ b) ->
  decode dbg rayon d (marker_bytes fill 0xD8 ++ b) = decode dbg rayon d b.
Proof. intros dbg rayon d fill b R B. exact (stray_ignored dbg rayon d [] fill 0xD8 b R (start_between dbg rayon d) (or_introl eq_refl) B). Qed.
