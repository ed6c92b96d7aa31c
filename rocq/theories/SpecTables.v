(** When a pair of decoder tables was built from the given counts and values. *)
From Verif Require Import Base SpecBits SpecHuffman SpecBlock Huffman.

Record built (dbg : bool) (ts : tables) (dct : base_table) (act : ac_table) : Prop := mkBuilt {
  bu_dcc : counts_ok (dc_counts ts);
  bu_dcv : lenZ (dc_values ts) = total_codes (dc_counts ts);
  bu_dcb : bytes (dc_values ts);
  bu_dc : table_new dbg (dc_counts ts) (dc_values ts) = Ok dct;
  bu_acc : counts_ok (ac_counts ts);
  bu_acv : lenZ (ac_values ts) = total_codes (ac_counts ts);
  bu_acb : bytes (ac_values ts);
  bu_ac : ac_new dbg (ac_counts ts) (ac_values ts) = Ok act;
}.

