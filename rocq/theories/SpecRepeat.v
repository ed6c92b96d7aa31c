(** Vocabulary for a caller that decodes one image after another from a reader (C83). *)
From Verif Require Import Base Types Decode Framed.

(** The answers of a caller that calls [ReadDecoder::decode] again after every image. *)
Inductive repeated (dbg rerun rayon : bool) : codec -> list Z -> list event -> list answer -> Prop :=
| repeated_image : forall k buf evs k' buf' evs' img l,
    reader_call dbg rerun rayon k buf evs = (k', buf', evs', AImage img) ->
    repeated dbg rerun rayon k' buf' evs' l -> repeated dbg rerun rayon k buf evs (AImage img :: l)
| repeated_last : forall k buf evs k' buf' evs' a,
    reader_call dbg rerun rayon k buf evs = (k', buf', evs', a) -> (forall img, a <> AImage img) ->
    repeated dbg rerun rayon k buf evs [a].

(** What a framed stream and a reader say at the end of their input: the framed stream ends, with
    an error if bytes are left; the reader reports the end of the input. *)
Definition same_end (framed read : list answer) : Prop :=
  framed = read \/ (read = [AError EEof] /\ (framed = [] \/ framed = [AIo])).
