(** C15: consecutive codes of an accepted table. *)
From Verif Require Import Base Biterator SpecBits SpecReader Huffman SpecHuffman CanonP Props_Huffman.

(** There is a code for every value; the first consists of zeros, and every other is the
    number after its predecessor, followed by zeros if it is longer. *)
Theorem C15_consecutive :
  forall (dbg : bool) (counts values : list Z) (t : base_table),
    counts_ok counts -> lenZ values = total_codes counts -> table_new dbg counts values = Ok t ->
    length (canonical counts) = length values /\
    (forall c, nth_error (canonical counts) 0 = Some c -> of_bits c = 0) /\
    (forall k c c', nth_error (canonical counts) k = Some c -> nth_error (canonical counts) (S k) = Some c' ->
       (length c <= length c')%nat /\
       of_bits c' = (of_bits c + 1) * 2 ^ (Z.of_nat (length c') - Z.of_nat (length c))).
Proof. exact codes_consecutive. Qed.
Print Assumptions C15_consecutive.

Example C15_consecutive_case :
  (exists t, table_new true ex_counts ex_values = Ok t) /\
  nth_error (canonical ex_counts) 3 = Some [true; true; false; true] /\
  nth_error (canonical ex_counts) 4 = Some [true; true; true; false; false; false; false; false; false] /\
  448 = (13 + 1) * 2 ^ (9 - 4).
Proof. repeat split; try reflexivity. destruct (table_new true ex_counts ex_values) eqn:E; [eauto|vm_compute in E; discriminate ..]. Qed.
