(** Specification of sequential block coding (T.81 A.3.6, F.1.2), independent of the decoder. *)
From Verif Require Import Base SpecBits SpecHuffman.

(** ** Zigzag order (figure A.6) *)
(** The cells of the anti-diagonal [s] of the 8x8 square, by increasing row. *)
Definition diagonal (s : nat) : list (nat * nat) :=
  filter (fun '(r, c) => (r + c =? s)%nat) (list_prod (seq 0 8) (seq 0 8)).
(** Diagonals are traversed alternately downwards and upwards, starting upwards. *)
Definition zigzag : list (nat * nat) :=
  flat_map (fun s => if Nat.even s then rev (diagonal s) else diagonal s) (seq 0 15).
(** The row-major (natural) position of the k-th element in zigzag order. *)
Definition natural (k : nat) : nat := let '(r, c) := nth k zigzag (0, 0)%nat in (8 * r + c)%nat.

(** ** Magnitudes (F.1.2.1) *)
(** Category of a value: the number of bits of its absolute value. *)
Definition category (v : Z) : Z := if v =? 0 then 0 else Z.log2 (Z.abs v) + 1.
(** The extra bits: the low bits of [v], or of [v - 1] for negative [v]. *)
Definition magnitude (v : Z) : list bool :=
  to_bits (Z.to_nat (category v)) (if v <? 0 then v - 1 else v).

(** ** Symbols *)
(** A symbol and the extra bits that follow its code. *)
Definition symbol : Type := Z * list bool.
Definition dc_symbol (diff : Z) : symbol := (category diff, magnitude diff).
(** The symbols of the AC coefficients [l] in zigzag order, [run] zeros already seen
    (figures F.2 and F.3): ZRL = 0xF0, EOB = 0x00. *)
Fixpoint ac_symbols (run : Z) (l : list Z) : list symbol :=
  match l with
  | [] => if run =? 0 then [] else [(0, [])]
  | v :: r =>
      if v =? 0 then ac_symbols (run + 1) r
      else repeat (240, []) (Z.to_nat (run / 16))
           ++ (16 * (run mod 16) + category v, magnitude v) :: ac_symbols 0 r
  end.

(** [bs] writes the symbols with the codes of the table (counts, values). *)
Inductive coded (counts values : list Z) : list symbol -> list bool -> Prop :=
| coded_nil : coded counts values [] []
| coded_cons : forall k s extra c rest bs,
    nth_error values k = Some s -> nth_error (canonical counts) k = Some c ->
    coded counts values rest bs ->
    coded counts values ((s, extra) :: rest) (c ++ extra ++ bs).

(** A block: its DC difference and its 63 AC coefficients in zigzag order. *)
Record block := mkBlock { b_diff : Z; b_ac : list Z }.
Record tables := mkTables { dc_counts : list Z; dc_values : list Z; ac_counts : list Z; ac_values : list Z }.
Definition block_ok (k : block) : Prop :=
  category (b_diff k) <= 11 /\ length (b_ac k) = 63%nat /\ Forall (fun v => category v <= 15) (b_ac k).
Definition block_bits (t : tables) (k : block) (bs : list bool) : Prop :=
  exists bd ba, bs = bd ++ ba /\
    coded (dc_counts t) (dc_values t) [dc_symbol (b_diff k)] bd /\
    coded (ac_counts t) (ac_values t) (ac_symbols 0 (b_ac k)) ba.

(** [blk] is the 8x8 block in natural order with DC value [dc] and AC coefficients [ac]. *)
Definition block_values (blk : list Z) (dc : Z) (ac : list Z) : Prop :=
  length blk = 64%nat /\ forall k, (k < 64)%nat -> nth (natural k) blk 0 = nth k (dc :: ac) 0.

(** Sixteen-bit two's complement representative. *)
Definition int16 (x : Z) : Z := (x + 32768) mod 65536 - 32768.

(** A sequence of blocks of one component, coded one after the other. *)
Inductive blocks_bits (ts : tables) : list block -> list bool -> Prop :=
| bb_nil : blocks_bits ts [] []
| bb_cons : forall k ks bk bs, block_bits ts k bk -> blocks_bits ts ks bs -> blocks_bits ts (k :: ks) (bk ++ bs).

Definition sum_diffs (ks : list block) : Z := fold_right Z.add 0 (map b_diff ks).

(** The decoded blocks: each DC value is the previous one (at first [pred]) plus the block's
    difference, as a 16-bit number. *)
Inductive blocks_values : list (list Z) -> Z -> list block -> Prop :=
| bv_nil : forall pred, blocks_values [] pred []
| bv_cons : forall blk blks pred k ks,
    block_values blk (int16 (pred + b_diff k)) (b_ac k) ->
    blocks_values blks (int16 (pred + b_diff k)) ks ->
    blocks_values (blk :: blks) pred (k :: ks).
