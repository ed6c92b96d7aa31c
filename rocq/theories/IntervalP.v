(** The restart interval of a fresh decoder. *)
From Verif Require Import Base SpecSegments SpecFile Biterator Types Decode SpecGlobal SpecStream FileP CommentP SpecReader SpecMarker.

Lemma fresh_interval : forall dbg rayon fill segs, Forall (fun s => hseg_ok (snd s)) segs ->
  exists d' junk bits count, no_marker junk /\ d_restart d' = last (dris segs) 0 /\
    from dbg false rayon (PcMarker, decoder_default, biter_new (marker_bytes fill 0xD8 ++ flat_map hseg_bytes segs)) (PcMarker, d', mkBiter junk bits count).
Proof. intros dbg rayon fill segs F. exact (header_interval dbg rayon decoder_default fill segs (fresh dbg rayon) F). Qed.
