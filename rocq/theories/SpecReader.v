(** What a state of the bit reader stands for: the bits it will deliver next. *)
From Verif Require Import Base Biterator SpecBits.

(** A state the reader can be in: a u64 buffer holding at most 64 bits. *)
Definition reader_ok (b : biter) : Prop :=
  0 <= bi_count b <= 64 /\ 0 <= bi_bits b < 2 ^ 64.

(** The bits buffered in the reader: the low [bi_count] bits of the buffer. *)
Definition pending (b : biter) : list bool := to_bits (Z.to_nat (bi_count b)) (bi_bits b).

(** The next bits of the reader start with [bs]: what the buffer holds followed by the
    destuffed data up to the marker at [tail]; if the data has a clean end, any number of
    zero bits follows. *)
Definition holds_at (tail : list Z) (b : biter) (bs : list bool) : Prop :=
  reader_ok b /\ exists ds, bytes ds /\ bi_input b = stuff ds ++ tail /\ 
    exists z, (z = 0%nat \/ clean_end ds) /\ prefix bs (pending b ++ bits_of ds ++ repeat false z).
