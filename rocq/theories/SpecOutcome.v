(** Outcomes of a step as seen by a caller. *)
From Verif Require Import Base Decode.

(** The step ends in an error ([RNeed] is the error 'unexpected end of input' for one-shot
    decoding), neither in a panic nor in undefined behaviour. *)
Definition rejected (r : step_res) : Prop :=
  match r with SStop (RFail _) | SStop (RNeed _) => True | _ => False end.

