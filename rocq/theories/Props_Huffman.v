(** C13 (AC table), C14-C18: Huffman tables. *)
From Verif Require Import Base Biterator SpecBits SpecReader Huffman SpecHuffman HuffmanP3.

(** A table used in the examples: 1 code of 1 bit, 1 of 2, 0 of 3, 2 of 4, 1 of 9, 1 of 16. *)
Definition ex_counts : list Z := [1; 1; 0; 2; 0; 0; 0; 0; 1; 0; 0; 0; 0; 0; 0; 1].
Definition ex_values : list Z := [1; 0; 18; 240; 35; 255].
Lemma ex_counts_ok : counts_ok ex_counts.
Proof. split; [reflexivity|]. repeat constructor; unfold is_byte; lia. Qed.
Lemma ex_values_ok : bytes ex_values.
Proof. repeat constructor; unfold is_byte; lia. Qed.

(** C14, acceptance, in both build profiles.  [kraft counts <= 2^16] says that the canonical
    assignment fits: the code words taken by all codes do not exceed the available ones. *)
Theorem C14_accept_iff :
  forall (dbg : bool) (counts values : list Z),
    counts_ok counts -> lenZ values = total_codes counts ->
    ((exists t, table_new dbg counts values = Ok t) <->
     1 <= total_codes counts <= 256 /\ kraft counts <= 2 ^ 16).
Proof. exact accept_iff. Qed.
Print Assumptions C14_accept_iff.

Example C14_case :
  counts_ok ex_counts /\ lenZ ex_values = total_codes ex_counts /\ kraft ex_counts = 57473 /\
  match table_new true ex_counts ex_values with Ok _ => True | _ => False end.
Proof. split; [exact ex_counts_ok|]. vm_compute. auto. Qed.

(** C14, rejection is an error.  Missing: a table without any code panics
    ([C14_empty_table_refuted]), and more than 256 codes panic in a debug build
    ([C14_large_table_refuted]). *)
Theorem C14_reject_error_partial :
  forall (dbg : bool) (counts values : list Z),
    counts_ok counts -> lenZ values = total_codes counts ->
    1 <= total_codes counts ->
    (total_codes counts <= 256 \/ dbg = false) ->
    ~ (total_codes counts <= 256 /\ kraft counts <= 2 ^ 16) ->
    exists e, table_new dbg counts values = Fail e.
Proof. exact reject_error. Qed.
Print Assumptions C14_reject_error_partial.

Example C14_reject_case :
  let counts := [3; 0; 0; 0; 0; 0; 0; 0; 0; 0; 0; 0; 0; 0; 0; 0] in
  total_codes counts = 3 /\ kraft counts = 98304 /\ table_new true counts [0; 1; 2] = Fail EHuffCode.
Proof. vm_compute. auto. Qed.

Theorem C14_empty_table_refuted :
  exists counts values, counts_ok counts /\ lenZ values = total_codes counts /\
    forall dbg, table_new dbg counts values = Panic PIndex.
Proof.
  exists (repeat 0 16), []. split; [split; [reflexivity|]; repeat constructor; unfold is_byte; lia|].
  split; [reflexivity|]. intros []; reflexivity.
Qed.
Print Assumptions C14_empty_table_refuted.

Theorem C14_large_table_refuted :
  exists counts values, counts_ok counts /\ lenZ values = total_codes counts /\
    table_new true counts values = Panic PAssert.
Proof.
  exists (repeat 0 14 ++ [255; 2]), (repeat 0 257). split; [split; [reflexivity|]; repeat constructor; unfold is_byte; lia|].
  split; reflexivity.
Qed.
Print Assumptions C14_large_table_refuted.

(** C15.  [canonical counts] lists the codes of T.81 C.2 in symbol order. *)
Theorem C15_prefix_free :
  forall (dbg : bool) (counts values : list Z) (t : base_table) (i j : nat) (ci cj : list bool),
    counts_ok counts -> lenZ values = total_codes counts -> table_new dbg counts values = Ok t ->
    nth_error (canonical counts) i = Some ci -> nth_error (canonical counts) j = Some cj ->
    i <> j -> ~ prefix ci cj.
Proof. exact prefix_free_built. Qed.
Print Assumptions C15_prefix_free.

(** The k-th symbol gets a code of the k-th length announced by the counts. *)
Theorem C15_code_lengths :
  forall (counts : list Z), counts_ok counts ->
    map (fun c => Z.of_nat (length c)) (canonical counts) = code_lengths counts.
Proof. exact canonical_lengths. Qed.
Print Assumptions C15_code_lengths.

Example C15_case :
  map of_bits (canonical ex_counts) = [0; 2; 12; 13; 448; 57472] /\
  map (@length bool) (canonical ex_counts) = [1; 2; 4; 4; 9; 16]%nat.
Proof. vm_compute. auto. Qed.

(** C16.  Whatever the reader state [b] and whatever follows the code. *)
Theorem C16_decode_inverts_encode :
  forall (dbg : bool) (counts values : list Z) (t : base_table) (tail : list Z) (b : biter)
         (bs : list bool) (k : nat) (c : list bool) (v : Z),
    counts_ok counts -> lenZ values = total_codes counts -> table_new dbg counts values = Ok t ->
    marker_tail tail ->
    nth_error (canonical counts) k = Some c -> nth_error values k = Some v ->
    holds_at tail b (c ++ bs) ->
    exists b', table_decode dbg t b = Ok (Some v, b') /\ holds_at tail b' bs.
Proof. exact decode_symbol. Qed.
Print Assumptions C16_decode_inverts_encode.

(** Two symbols in a row: the 9-bit code of 35 through the search, then 18 through the table. *)
Example C16_case :
  match table_new true ex_counts ex_values with
  | Ok t =>
      let bs := to_bits 9 448 ++ to_bits 4 12 in
      let b := mkBiter [255; 217] (of_bits bs * 2 ^ 20) 33 in
      prefix bs (pending b) /\
      match table_decode true t b with
      | Ok (Some v, b') => v = 35 /\ exists b'', table_decode true t b' = Ok (Some 18, b'')
      | _ => False
      end
  | _ => False
  end.
Proof.
  vm_compute. split; [eexists; reflexivity|]. split; [reflexivity|]. eexists; reflexivity.
Qed.

(** C17.  [bs] are the next 16 bits. *)
Theorem C17_no_code_no_symbol :
  forall (dbg : bool) (counts values : list Z) (t : base_table) (tail : list Z) (b : biter) (bs : list bool),
    counts_ok counts -> lenZ values = total_codes counts -> table_new dbg counts values = Ok t ->
    marker_tail tail -> length bs = 16%nat -> holds_at tail b bs ->
    (forall c, In c (canonical counts) -> ~ prefix c bs) ->
    exists b', table_decode dbg t b = Ok (None, b') /\ holds_at tail b' bs.
Proof. exact decode_no_symbol. Qed.
Print Assumptions C17_no_code_no_symbol.

(** In any reader state over any bytes decoding neither panics nor accesses a table out of
    bounds, and a symbol it returns is one of the table's values. *)
Theorem C17_decode_total :
  forall (dbg : bool) (counts values : list Z) (t : base_table) (b : biter),
    counts_ok counts -> lenZ values = total_codes counts -> table_new dbg counts values = Ok t ->
    reader_ok b -> bytes (bi_input b) ->
    exists r b', table_decode dbg t b = Ok (r, b') /\ (forall v, r = Some v -> In v values).
Proof. exact decode_total. Qed.
Print Assumptions C17_decode_total.

Example C17_case :
  match table_new true ex_counts ex_values with
  | Ok t => exists b, table_decode true t (mkBiter [] 65535 16) = Ok (None, b)
  | _ => False
  end.
Proof. vm_compute. eexists. reflexivity. Qed.

(** C18.  In every reader state the combined lookup behaves as decoding the symbol [byte] and
    then its [byte mod 16] magnitude bits, or as decoding the symbol alone. *)
Theorem C18_fast_equals_slow :
  forall (dbg : bool) (counts values : list Z) (t : ac_table) (b : biter),
    counts_ok counts -> lenZ values = total_codes counts -> bytes values ->
    ac_new dbg counts values = Ok t ->
    reader_ok b -> bytes (bi_input b) ->
    match decode_fast_ac dbg t b with
    | Ok (AFast v run, b') => exists byte b1,
        table_decode dbg (ac_table_base t) b = Ok (Some byte, b1) /\
        run = byte / 16 /\ 1 <= byte mod 16 <= 7 /\
        receive_extend dbg b1 (byte mod 16) = Ok (Some v, b')
    | Ok (ANormal byte, b') => table_decode dbg (ac_table_base t) b = Ok (Some byte, b')
    | Ok (AErr, b') => table_decode dbg (ac_table_base t) b = Ok (None, b')
    | _ => False
    end.
Proof. exact fast_slow_built. Qed.
Print Assumptions C18_fast_equals_slow.

(** C13 for the AC table: the value is EXTEND of the magnitude bits after the code. *)
Theorem C13_ac_extend :
  forall (dbg : bool) (counts values : list Z) (t : ac_table) (tail : list Z) (b : biter)
         (bs : list bool) (k : nat) (c mag : list bool) (byte : Z),
    counts_ok counts -> lenZ values = total_codes counts -> bytes values ->
    ac_new dbg counts values = Ok t -> marker_tail tail -> bytes tail ->
    nth_error (canonical counts) k = Some c -> nth_error values k = Some byte ->
    Z.of_nat (length mag) = byte mod 16 -> holds_at tail b (c ++ mag ++ bs) ->
    exists b',
      (decode_fast_ac dbg t b = Ok (AFast (EXTEND (of_bits mag) (byte mod 16)) (byte / 16), b')
       /\ holds_at tail b' bs) \/
      (decode_fast_ac dbg t b = Ok (ANormal byte, b') /\ holds_at tail b' (mag ++ bs)).
Proof. exact fast_value_built. Qed.
Print Assumptions C13_ac_extend.

(** Symbol 18 = run 1, size 2, code 1100, magnitude bits 01: value -2 in one lookup; the
    9-bit code of 35 goes the slow way. *)
Example C18_case :
  match ac_new true ex_counts ex_values with
  | Ok t =>
      (exists b', decode_fast_ac true t (mkBiter [] (of_bits (to_bits 4 12 ++ to_bits 2 1) * 2 ^ 20) 26)
                  = Ok (AFast (-2) 1, b')) /\
      (exists b', decode_fast_ac true t (mkBiter [] (448 * 2 ^ 20) 29) = Ok (ANormal 35, b'))
  | _ => False
  end.
Proof. vm_compute. split; eexists; reflexivity. Qed.
