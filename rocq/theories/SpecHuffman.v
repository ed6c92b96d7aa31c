(** Specification of JPEG Huffman codes (T.81 annex C), independent of the decoder. *)
From Verif Require Import Base SpecBits.

(** The code lengths of a table: counts[l-1] codes of length l, in order. *)
Fixpoint lengths_from (l : Z) (counts : list Z) : list Z :=
  match counts with
  | [] => []
  | n :: r => repeat l (Z.to_nat n) ++ lengths_from (l + 1) r
  end.
Definition code_lengths (counts : list Z) : list Z := lengths_from 1 counts.

(** The canonical codes (C.2, figure C.2): within a length consecutive numbers; the first
    code of the next length is twice the number after the last code of this one. *)
Fixpoint codes_from (l : nat) (first : Z) (counts : list Z) : list (list bool) :=
  match counts with
  | [] => []
  | n :: r => map (fun j => to_bits l (first + j)) (zrange n)
              ++ codes_from (S l) (2 * (first + n)) r
  end.
Definition canonical (counts : list Z) : list (list bool) := codes_from 1 0 counts.

(** Kraft sum, scaled by 2^16: a code of length l takes 2^(16-l) of the 2^16 code words. *)
Definition kraft (counts : list Z) : Z :=
  fold_right Z.add 0 (map (fun l => 2 ^ (16 - l)) (code_lengths counts)).

(** A count vector as found in a DHT segment: sixteen bytes. *)
Definition counts_ok (counts : list Z) : Prop := length counts = 16%nat /\ bytes counts.

Definition total_codes (counts : list Z) : Z := fold_right Z.add 0 counts.
