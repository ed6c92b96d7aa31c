(** Scans: the order in which MCUs are read (C22, C32), and the entropy-coded data of a
    sequential scan with restart intervals (T.81 A.2.3, B.1.1.5, E.1.4, F.1.1.5; C21, C45). *)
From Verif Require Import Base SpecBits SpecHuffman SpecBlock SpecTables SpecSegments Biterator Marker Types Decode.

(** ** Reading MCUs *)
(** What follows one MCU in the decoder: the restart counter, and the marker if one is due. *)
Definition after_mcu (dbg : bool) (x y : Z) (d : decoder) (b : biter) : out (decoder * biter) :=
  let* (need, d) := restart_check dbg x y d in
  if need then restart_marker d b else Ok (d, b).

(** The MCUs [todo] (row, column), one after the other; the log has, for every MCU, the
    coefficient blocks that were read. *)
Inductive mcus_read (dbg : bool) : list (Z * Z) -> decoder -> biter -> list (list (list Z)) -> decoder -> biter -> Prop :=
| mr_nil : forall d b, mcus_read dbg [] d b [] d b
| mr_cons : forall y x todo d b d1 b1 d2 b2 d3 log d' b',
    decode_row dbg d b = Ok (d1, b1) -> after_mcu dbg x y d1 b1 = Ok (d2, b2) -> dequantize dbg x y d2 = Ok d3 ->
    mcus_read dbg todo d3 b2 log d' b' ->
    mcus_read dbg ((y, x) :: todo) d b (ss_coefs (d_ss d1) :: log) d' b'.

(** A restart marker is due after MCU number [i] (from 0) of [n] when the interval is [r]. *)
Definition restart_due (r n i : Z) : bool := (0 <? r) && ((i + 1) mod r =? 0) && (i + 1 <? n).

(** Blocks of an MCU that belong to the components before number [k]. *)
Definition blocks_before (cs : list comp_spec) (k : nat) : nat :=
  fold_right (fun c n => (Z.to_nat (cs_h c * cs_v c) + n)%nat) 0%nat (firstn k cs).

(** ** Writing MCUs *)
(** Quantised coefficients of a block: DC, and 63 AC coefficients in zigzag order. *)
Record qblock := mkQ { q_dc : Z; q_ac : list Z }.
(** An MCU: for every component its blocks, row by row. *)
Definition mcu := list (list qblock).

(** The blocks of one component in one MCU; a DC value is the previous one (at first [pred])
    plus the coded difference, as a 16-bit number. *)
Inductive comp_bits (t : tables) : Z -> list qblock -> list bool -> Z -> Prop :=
| cb_nil : forall pred, comp_bits t pred [] [] pred
| cb_cons : forall pred q qs diff bk bs pred',
    q_dc q = int16 (pred + diff) -> block_ok (mkBlock diff (q_ac q)) ->
    block_bits t (mkBlock diff (q_ac q)) bk -> comp_bits t (q_dc q) qs bs pred' ->
    comp_bits t pred (q :: qs) (bk ++ bs) pred'.
(** An MCU, with one predictor per component. *)
Inductive mcu_bits : list tables -> list Z -> mcu -> list bool -> list Z -> Prop :=
| mb_nil : mcu_bits [] [] [] [] []
| mb_cons : forall t ts p ps qs m b1 b2 p' ps',
    comp_bits t p qs b1 p' -> mcu_bits ts ps m b2 ps' -> mcu_bits (t :: ts) (p :: ps) (qs :: m) (b1 ++ b2) (p' :: ps').
Inductive mcus_bits (ts : list tables) : list Z -> list mcu -> list bool -> Prop :=
| msb_nil : forall ps, mcus_bits ts ps [] []
| msb_cons : forall ps m ms b1 b2 ps', mcu_bits ts ps m b1 ps' -> mcus_bits ts ps' ms b2 -> mcus_bits ts ps (m :: ms) (b1 ++ b2).

(** The bytes of a restart interval: all predictors start at 0; the bits are padded to whole
    bytes and stuffed.  The data may also stop early, with zeros for the missing bits (see
    [carries]). *)
Definition interval_data (ts : list tables) (ms : list mcu) (data : list Z) : Prop :=
  exists ds bits, bytes ds /\ data = stuff ds /\ carries ds bits /\
    mcus_bits ts (map (fun _ => 0) ts) ms bits.
(** The data of a scan: intervals of [r] MCUs separated by RSTn, n counting modulo 8 from
    [n]; one single interval if [r] is 0. *)
Inductive scan_data (ts : list tables) (r : Z) : Z -> list mcu -> list Z -> Prop :=
| sd_last : forall n ms data, r = 0 \/ lenZ ms <= r -> interval_data ts ms data -> scan_data ts r n ms data
| sd_more : forall n ms data rest data', 0 < r -> lenZ ms = r -> rest <> [] ->
    interval_data ts ms data -> scan_data ts r ((n + 1) mod 8) rest data' ->
    scan_data ts r n (ms ++ rest) (data ++ [255; 0xD0 + n] ++ data').

(** ** What was read against what was written *)
(** A block of coefficients in natural order. *)
Definition q_values (blk : list Z) (q : qblock) : Prop := block_values blk (q_dc q) (q_ac q).
(** The blocks read for an MCU are the blocks of [m], component after component. *)
Definition logged (coefs : list (list Z)) (m : mcu) : Prop :=
  forall k q, nth_error (concat m) k = Some q -> exists blk, nth_error coefs k = Some blk /\ q_values blk q.
(** An MCU has h * v blocks of each component. *)
Definition mcu_shape (cs : list comp_spec) (m : mcu) : Prop := Forall2 (fun c qs => lenZ qs = cs_h c * cs_v c) cs m.

(** A component of the frame, its scan header, its tables: the decoder has the tables the
    header selects, and they were built from [t]. *)
Definition comp_ready (dbg : bool) (d : decoder) (c : component) (h : scan_header) (t : tables) : Prop :=
  exists dct act, index (d_dc d) (h_dc h) = Ok (Some dct) /\ index (d_ac d) (h_ac h) = Ok (Some act) /\ built dbg t dct act.
Inductive comps_ready (dbg : bool) (d : decoder) : list component -> list scan_header -> list tables -> Prop :=
| cr_nil : comps_ready dbg d [] [] []
| cr_cons : forall c cs h hs t ts, comp_ready dbg d c h t -> comps_ready dbg d cs hs ts -> comps_ready dbg d (c :: cs) (h :: hs) (t :: ts).
