(** Vocabulary for readers that fail now and then (C50). *)
From Verif Require Import Base Framed.

(** The bytes a reader delivers, and the number of its I/O errors. *)
Definition chunk_of (e : event) : list Z := match e with Data c => c | IoError => [] end.
Definition delivered (evs : list event) : list Z := concat (map chunk_of evs).
Definition io_errors (evs : list event) : nat :=
  length (filter (fun e => match e with IoError => true | Data _ => false end) evs).
(** One-shot decoding's result as an answer. *)
Definition answered (o : out (list Z)) : answer :=
  match o with Ok img => AImage img | Fail e => AError e | Panic p => APanic p | UB => AUB end.
