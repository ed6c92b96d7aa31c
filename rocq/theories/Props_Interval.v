(** The restart interval of a fresh decoder (C22). *)
From Verif Require Import Base SpecSegments SpecFile Biterator Types Decode SpecGlobal SpecStream SpecReader SpecMarker IntervalP.

(** A fresh decoder that has read any header segments has the interval of the last DRI segment
    among them, and the interval 0, that is no restart markers, if there is none. *)
Theorem C22_fresh_interval :
  forall dbg rayon fill segs, Forall (fun s => hseg_ok (snd s)) segs ->
    exists d' junk bits count, no_marker junk /\ d_restart d' = last (dris segs) 0 /\
      from dbg false rayon (PcMarker, decoder_default, biter_new (marker_bytes fill 0xD8 ++ flat_map hseg_bytes segs)) (PcMarker, d', mkBiter junk bits count).
Proof. exact fresh_interval. Qed.
Print Assumptions C22_fresh_interval.

Example C22_fresh_case :
  Forall (fun s => hseg_ok (snd s)) [(0%nat, HCom [1]); (1%nat, HApp 2 [7])] /\ last (dris [(0%nat, HCom [1]); (1%nat, HApp 2 [7])]) 0 = 0 /\
  last (dris [(0%nat, HDri 5); (1%nat, HApp 2 [7])]) 0 = 5.
Proof. split; [repeat constructor; cbn; try lia; try (repeat constructor; lia)|split; reflexivity]. Qed.
