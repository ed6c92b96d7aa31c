(** Tables used by files whose damage goes unnoticed (C78). *)
From Verif Require Import Base Huffman SpecHuffman SpecBlock.

(** The DC tables name only difference sizes that exist, 0 to 11 (F.1.2.1). *)
Definition dc_sizes (ts : list tables) : Prop := Forall (fun t => Forall (fun v => v <= 11) (dc_values t)) ts.
