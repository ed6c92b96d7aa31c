(** C19-C21 and C26: coefficient blocks. *)
From Coq Require Import Permutation.
From Verif Require Import Base Biterator SpecBits SpecReader Huffman SpecHuffman SpecBlock SpecTables Types Parsers Decode BlockP.

(** Example tables: DC categories 0, 2, 3; AC symbols EOB, (0,1), (1,2), ZRL, (3,2). *)
Definition ex_tables : tables :=
  mkTables ([1; 1; 1] ++ repeat 0 13) [0; 2; 3] ([1; 1; 0; 2; 0; 0; 0; 0; 1] ++ repeat 0 7) [1; 0; 18; 240; 50].
Definition ex_scan : scan := mkScan [] 0 63 0 0.

(** C26.  [natural k] is the row-major position of the k-th cell of the zigzag walk over the
    8x8 square; values and coefficients of zigzag index k are written there. *)
Theorem C26_zigzag :
  forall (coefs : list Z) (k : nat) (v : Z), (k < 64)%nat -> length coefs = 64%nat ->
    exists coefs', unzigzag coefs (Z.of_nat k) v = Ok coefs' /\ length coefs' = 64%nat /\
      nth (natural k) coefs' 0 = v /\ forall j, j <> natural k -> nth j coefs' 0 = nth j coefs 0.
Proof. exact zigzag_writes. Qed.
Print Assumptions C26_zigzag.

Theorem C26_permutation : Permutation (map natural (seq 0 64)) (seq 0 64).
Proof. exact zigzag_permutation. Qed.
Print Assumptions C26_permutation.

Example C26_case : map natural [0; 1; 2; 3; 4; 5; 62; 63]%nat = [0; 1; 8; 16; 9; 2; 62; 63]%nat.
Proof. reflexivity. Qed.

(** C19.  [dc] is the block's DC value, [pred] the predictor, [ac] its 63 AC coefficients in
    zigzag order, [bk] the bits of T.81 F.1.2, [bs] whatever follows. *)
Theorem C19_block_inverts_encoding :
  forall (dbg : bool) (ts : tables) (dct : base_table) (act : ac_table) (sc : scan) (tail : list Z)
         (b : biter) (bs : list bool) (dc : Z) (ac : list Z) (pred : Z) (bk : list bool),
    built dbg ts dct act -> marker_tail tail -> bytes tail ->
    s_start sc = 0 -> 63 <= s_end sc -> s_low sc = 0 ->
    -32768 <= dc < 32768 -> block_ok (mkBlock (dc - pred) ac) ->
    block_bits ts (mkBlock (dc - pred) ac) bk -> holds_at tail b (bk ++ bs) ->
    exists blk b', decode_block dbg sc dct act zero_block b 0 pred = Ok (blk, b', 0, dc) /\
      block_values blk dc ac /\ holds_at tail b' bs.
Proof. exact block_inverts. Qed.
Print Assumptions C19_block_inverts_encoding.

(** A block with runs of 1, 19 (a ZRL and a run of 3) and an EOB. *)
Definition ex_ac : list Z := [1; -1; 0; 2] ++ repeat 0 19 ++ [2] ++ repeat 0 39.
Lemma ex_ac_symbols : ac_symbols 0 ex_ac =
  [(1, [true]); (1, [false]); (18, [true; false]); (240, []); (50, [true; false]); (0, [])].
Proof. reflexivity. Qed.
Definition ex_dc_bits : list bool := [true; false] ++ [false; false] ++ [].
Definition ex_ac_bits : list bool :=
  [false] ++ [true] ++ [false] ++ [false] ++ [true; true; false; false] ++ [true; false] ++
  [true; true; false; true] ++ [] ++ to_bits 9 448 ++ [true; false] ++ [true; false] ++ [] ++ [].

Example C19_case :
  exists dct act, built true ex_tables dct act /\
    block_ok (mkBlock (4 - 7) ex_ac) /\
    block_bits ex_tables (mkBlock (4 - 7) ex_ac) (ex_dc_bits ++ ex_ac_bits) /\
    let bs := ex_dc_bits ++ ex_ac_bits in
    let b := mkBiter [255; 217] (of_bits bs * 2 ^ 20) (Z.of_nat (length bs) + 20) in
    match decode_block true ex_scan dct act zero_block b 0 7 with
    | Ok (blk, _, 0, 4) => firstn 12 blk = [4; 1; 0; 0; 0; 0; 0; 0; -1; 2; 0; 0]
    | _ => False
    end.
Proof.
  eexists _, _. split; [|split; [|split]].
  - constructor; [split; [reflexivity|]; repeat constructor; unfold is_byte; lia|reflexivity|
      repeat constructor; unfold is_byte; lia|vm_compute; reflexivity|
      split; [reflexivity|]; repeat constructor; unfold is_byte; lia|reflexivity|
      repeat constructor; unfold is_byte; lia|vm_compute; reflexivity].
  - split; [cbn; lia|]. split; [reflexivity|]. repeat constructor; cbn; lia.
  - exists ex_dc_bits, ex_ac_bits. split; [reflexivity|]. cbn [b_diff b_ac]. split.
    + apply (coded_cons _ _ 1%nat); [reflexivity|reflexivity|constructor].
    + rewrite ex_ac_symbols. unfold ex_ac_bits.
      apply (coded_cons _ _ 0%nat); [reflexivity|reflexivity|].
      apply (coded_cons _ _ 0%nat); [reflexivity|reflexivity|].
      apply (coded_cons _ _ 2%nat); [reflexivity|reflexivity|].
      apply (coded_cons _ _ 3%nat); [reflexivity|reflexivity|].
      apply (coded_cons _ _ 4%nat); [reflexivity|reflexivity|].
      apply (coded_cons _ _ 1%nat); [reflexivity|reflexivity|]. constructor.
  - vm_compute. reflexivity.
Qed.

(** C20.  For any bits and any band: positions outside the band stay zero, and the decoder
    never panics or writes out of bounds. *)
Theorem C20_band_only :
  forall (dbg : bool) (ts : tables) (dct : base_table) (act : ac_table) (sc : scan) (b : biter)
         (eob pred : Z) (coefs : list Z) (b' : biter) (eob' pred' : Z),
    built dbg ts dct act -> 0 <= s_start sc -> 0 <= s_end sc ->
    reader_ok b -> bytes (bi_input b) -> 0 <= eob < 2 ^ 15 -> -32768 <= pred < 32768 ->
    decode_block dbg sc dct act zero_block b eob pred = Ok (coefs, b', eob', pred') ->
    length coefs = 64%nat /\
    forall k, (k < 64)%nat -> (Z.of_nat k < s_start sc \/ s_end sc < Z.of_nat k) ->
      nth (natural k) coefs 0 = 0.
Proof. exact block_band. Qed.
Print Assumptions C20_band_only.

Theorem C20_total :
  forall (dbg : bool) (ts : tables) (dct : base_table) (act : ac_table) (sc : scan) (b : biter) (eob pred : Z),
    built dbg ts dct act -> 0 <= s_start sc ->
    reader_ok b -> bytes (bi_input b) -> 0 <= eob < 2 ^ 15 -> -32768 <= pred < 32768 ->
    (exists r, decode_block dbg sc dct act zero_block b eob pred = Ok r) \/
    (exists e, decode_block dbg sc dct act zero_block b eob pred = Fail e).
Proof. exact block_total. Qed.
Print Assumptions C20_total.

(** The band 3..20 over arbitrary bits: something is decoded, and only there. *)
Example C20_case :
  match table_new true (dc_counts ex_tables) (dc_values ex_tables),
        ac_new true (ac_counts ex_tables) (ac_values ex_tables) with
  | Ok dct, Ok act =>
      match decode_block true (mkScan [] 3 20 0 1) dct act zero_block (mkBiter [255; 217] (of_bits ex_ac_bits * 2 ^ 30) 57) 0 0 with
      | Ok (blk, _, _, _) => nth (natural 3) blk 0 = 2 /\ nth (natural 4) blk 0 = -2 /\ nth 0 blk 0 = 0
      | _ => False
      end
  | _, _ => False
  end.
Proof. vm_compute. auto. Qed.

(** C21 for the blocks of one component: the i-th block has DC value [pred] plus the first
    i+1 differences, as a 16-bit number (whole scans: Props_Scan). *)
Theorem C21_dc_running_sum :
  forall (dbg : bool) (ts : tables) (dct : base_table) (act : ac_table) (sc : scan) (tail : list Z)
         (ks : list block) (b : biter) (bs bk : list bool) (pred : Z),
    built dbg ts dct act -> marker_tail tail -> bytes tail ->
    s_start sc = 0 -> 63 <= s_end sc -> s_low sc = 0 -> -32768 <= pred < 32768 ->
    Forall block_ok ks -> blocks_bits ts ks bk -> holds_at tail b (bk ++ bs) ->
    exists blks b',
      decode_blocks dbg sc dct act (length ks) b 0 pred = Ok (blks, b', 0, int16 (pred + sum_diffs ks)) /\
      length blks = length ks /\
      (forall i blk k, nth_error blks i = Some blk -> nth_error ks i = Some k ->
         block_values blk (int16 (pred + sum_diffs (firstn (S i) ks))) (b_ac k)) /\
      holds_at tail b' bs.
Proof. exact dc_running_sum. Qed.
Print Assumptions C21_dc_running_sum.

(** Two blocks with differences -3 and -3 from a predictor near the lower limit wrap around. *)
Example C21_case :
  match table_new true (dc_counts ex_tables) (dc_values ex_tables),
        ac_new true (ac_counts ex_tables) (ac_values ex_tables) with
  | Ok dct, Ok act =>
      let bs := [true; false; false; false; true; false; true; false; false; false; true; false] in
      match decode_blocks true ex_scan dct act 2 (mkBiter [255; 217] (of_bits bs * 2 ^ 30) 42) 0 (-32764) with
      | Ok (blks, _, 0, p) => map (fun k => nth 0 k 0) blks = [-32767; 32766] /\ p = 32766
      | _ => False
      end
  | _, _ => False
  end.
Proof. vm_compute. auto. Qed.
