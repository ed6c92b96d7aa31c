(** Headers that define more tables than another (C93). *)
From Verif Require Import Base SpecHuffman SpecTables SpecFrame SpecSegments SpecFile SpecDefine Types Parsers.

(** Everything that [l] defines is defined in the same way by [l'], which may define further
    tables, but has the same restart interval, frame header and Adobe transform. *)
Definition defines_more (l l' : list (nat * hseg)) : Prop :=
  (forall k t, (k < 4)%nat -> last_entry (fun t => tq_dest t =? Z.of_nat k) (dqts l) = Some t ->
     exists t', last_entry (fun t => tq_dest t =? Z.of_nat k) (dqts l') = Some t' /\ tq_values t' = tq_values t) /\
  (forall c k t, (k < 4)%nat -> last_entry (is_slot c k) (dhts l) = Some t ->
     exists t', last_entry (is_slot c k) (dhts l') = Some t' /\ th_counts t' = th_counts t /\ th_values t' = th_values t) /\
  last_of (dris l) = last_of (dris l') /\ last_of (sofs l) = last_of (sofs l') /\ last_of (adobes l) = last_of (adobes l').

(** A segment with tables only. *)
Definition only_tables (s : nat * hseg) : Prop := match snd s with HDqt _ | HDht _ => True | _ => False end.
