(** Files that can be decoded in pieces, described by their segments (C05, C06, C07). *)
From Verif Require Import Base Huffman SpecSegments SpecFile SpecStream.

(** No AC table lists an end-of-band run among its symbols. *)
Definition sequential_tables (segs : list (nat * hseg)) : Prop :=
  Forall (fun t => th_class t = AC -> Forall (fun v => ~ eob_run v) (th_values t)) (dhts segs).
(** No restart interval is set. *)
Definition no_intervals (segs : list (nat * hseg)) : Prop := Forall (fun n => n = 0) (dris segs).

(** A whole answer as the codec gives it. *)
Definition lift (o : out (list Z)) : out (option (list Z)) :=
  match o with Ok img => Ok (Some img) | Fail e => Fail e | Panic p => Panic p | UB => UB end.
