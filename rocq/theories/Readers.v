(** Client programs of the bit reader, used to state its properties. *)
From Verif Require Import Base Biterator.

(** Calls [next_bits] once per size and collects the values; stops at the first error. *)
Fixpoint read_groups (dbg : bool) (b : biter) (ns : list nat) : out (option (list Z) * biter) :=
  match ns with
  | [] => Ok (Some [], b)
  | n :: r =>
      let* (v, b) := next_bits dbg b (Z.of_nat n) in
      match v with
      | None => Ok (None, b)
      | Some v =>
          let* (vs, b) := read_groups dbg b r in
          match vs with
          | None => Ok (None, b)
          | Some vs => Ok (Some (v :: vs), b)
          end
      end
  end.
