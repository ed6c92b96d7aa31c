(** What the segments of a header define, and which of them define different things (C92). *)
From Verif Require Import Base SpecHuffman SpecTables SpecFrame SpecSegments SpecFile Types Parsers.

Definition last_of {A} (l : list A) : option A := last (map Some l) None.

(** The last quantisation table for each of the four destinations, the last Huffman table for each
    class and destination, the last restart interval, frame header and Adobe transform are the same. *)
Definition same_definitions (l l' : list (nat * hseg)) : Prop :=
  (forall k, (k < 4)%nat ->
     option_map tq_values (last_entry (fun t => tq_dest t =? Z.of_nat k) (dqts l)) = option_map tq_values (last_entry (fun t => tq_dest t =? Z.of_nat k) (dqts l'))) /\
  (forall c k, (k < 4)%nat ->
     option_map (fun t => (th_counts t, th_values t)) (last_entry (is_slot c k) (dhts l)) =
     option_map (fun t => (th_counts t, th_values t)) (last_entry (is_slot c k) (dhts l'))) /\
  last_of (dris l) = last_of (dris l') /\ last_of (sofs l) = last_of (sofs l') /\ last_of (adobes l) = last_of (adobes l').

(** Two segments that do not define the same thing. *)
Definition independent (s t : nat * hseg) : Prop :=
  match snd s, snd t with
  | HDqt ts, HDqt us => forall a b, In a ts -> In b us -> tq_dest a <> tq_dest b
  | HDht ts, HDht us => forall a b, In a ts -> In b us -> th_class a = th_class b -> th_dest a <> th_dest b
  | HDri _, HDri _ | HSof _, HSof _ | HAdobe _ _ _, HAdobe _ _ _ => False
  | _, _ => True
  end.
