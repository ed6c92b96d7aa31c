(** Specification of the coding of a band of coefficients, with runs of blocks that end in
    zeros (T.81 G.1.2.1 and G.1.2.2), independent of the decoder. *)
From Verif Require Import Base SpecBits SpecHuffman SpecBlock SpecScan.

(** The symbols of the coefficients [l] of a band in zigzag order, [run] zeros already seen.
    Trailing zeros are written as the symbol [last]. *)
Fixpoint band_symbols (last : symbol) (run : Z) (l : list Z) : list symbol :=
  match l with
  | [] => if run =? 0 then [] else [last]
  | v :: r =>
      if v =? 0 then band_symbols last (run + 1) r
      else repeat (240, []) (Z.to_nat (run / 16))
           ++ (16 * (run mod 16) + category v, magnitude v) :: band_symbols last 0 r
  end.

(** The symbol EOBn: this block and the [2 ^ n + v - 1] blocks after it end here. *)
Definition eobn (n : nat) (v : Z) : symbol := (16 * Z.of_nat n, to_bits n v).

(** The band [lo .. hi] of a scan; DC coefficients are coded when [lo] is 0. *)
Record band_of := mkBand { lo : Z; hi : Z }.
Definition band_first (w : band_of) : Z := Z.max (lo w) 1.
Definition band_size (w : band_of) : Z := hi w - band_first w + 1.

(** A block: its DC difference (unused when [lo] is not 0) and the values of its band. *)
Definition band_block_ok (w : band_of) (k : block) : Prop :=
  category (b_diff k) <= 11 /\ lenZ (b_ac k) = band_size w /\ Forall (fun v => category v <= 15) (b_ac k).

Definition dc_bits (w : band_of) (ts : tables) (diff : Z) (bs : list bool) : Prop :=
  if lo w =? 0 then coded (dc_counts ts) (dc_values ts) [dc_symbol diff] bs else bs = [].

(** [band_bits w ts run ks bs run']: with [run] blocks still covered by an earlier EOBn, the
    bits [bs] write the blocks [ks]; [run'] blocks are still covered afterwards. *)
Inductive band_bits (w : band_of) (ts : tables) : Z -> list block -> list bool -> Z -> Prop :=
| band_nil : forall run, band_bits w ts run [] [] run
| band_covered : forall run k ks bd bs run', 0 < run -> Forall (fun v => v = 0) (b_ac k) ->
    dc_bits w ts (b_diff k) bd -> band_bits w ts (run - 1) ks bs run' ->
    band_bits w ts run (k :: ks) (bd ++ bs) run'
| band_full : forall k ks bd ba bs run', last (b_ac k) 0 <> 0 ->
    dc_bits w ts (b_diff k) bd ->
    coded (ac_counts ts) (ac_values ts) (band_symbols (0, []) 0 (b_ac k)) ba ->
    band_bits w ts 0 ks bs run' -> band_bits w ts 0 (k :: ks) (bd ++ ba ++ bs) run'
| band_ends : forall k ks bd ba bs run' n v, last (b_ac k) 0 = 0 -> (n <= 14)%nat -> 0 <= v < 2 ^ Z.of_nat n ->
    dc_bits w ts (b_diff k) bd ->
    coded (ac_counts ts) (ac_values ts) (band_symbols (eobn n v) 0 (b_ac k)) ba ->
    band_bits w ts (2 ^ Z.of_nat n + v - 1) ks bs run' ->
    band_bits w ts 0 (k :: ks) (bd ++ ba ++ bs) run'.

(** The value of a coefficient: scaled back by the point transform (G.1.2.1), as a 16-bit
    number. *)
Definition scaled (low v : Z) : Z := int16 (v * 2 ^ low).

(** The decoded blocks, in natural order: the band holds the scaled values, everything else
    is zero, and the DC value (if coded) is the scaled running sum. *)
Inductive band_values (w : band_of) (low : Z) : list (list Z) -> Z -> list block -> Prop :=
| wv_nil : forall pred, band_values w low [] pred []
| wv_cons : forall blk blks pred k ks,
    let dc := if lo w =? 0 then int16 (pred + b_diff k) else pred in
    length blk = 64%nat ->
    (forall j, (j < 64)%nat -> nth (natural j) blk 0 =
       if Z.of_nat j =? 0 then (if lo w =? 0 then scaled low dc else 0)
       else if (band_first w <=? Z.of_nat j) && (Z.of_nat j <=? hi w)
            then scaled low (nth (j - Z.to_nat (band_first w)) (b_ac k) 0)
            else 0) ->
    band_values w low blks dc ks -> band_values w low (blk :: blks) pred (k :: ks).

(** ** Scans *)
(** The blocks [qs] with absolute DC values, for the differences in [ks]. *)
Inductive dc_chain (w : band_of) : Z -> list block -> list qblock -> Z -> Prop :=
| dch_nil : forall pred, dc_chain w pred [] [] pred
| dch_cons : forall pred k ks q qs pred', q_ac q = b_ac k -> q_dc q = (if lo w =? 0 then int16 (pred + b_diff k) else pred) ->
    dc_chain w (q_dc q) ks qs pred' -> dc_chain w pred (k :: ks) (q :: qs) pred'.
(** The blocks of one component in one MCU. *)
Definition comp_band (w : band_of) (t : tables) (pred run : Z) (qs : list qblock) (bits : list bool) (pred' run' : Z) : Prop :=
  exists ks, Forall (band_block_ok w) ks /\ band_bits w t run ks bits run' /\ dc_chain w pred ks qs pred'.
(** An MCU, with one predictor per component; an open run goes on in the next component. *)
Inductive mcu_band (w : band_of) : list tables -> list Z -> Z -> mcu -> list bool -> list Z -> Z -> Prop :=
| mw_nil : forall run, mcu_band w [] [] run [] [] [] run
| mw_cons : forall t ts p ps run qs m b1 b2 p' run1 ps' run',
    comp_band w t p run qs b1 p' run1 -> mcu_band w ts ps run1 m b2 ps' run' ->
    mcu_band w (t :: ts) (p :: ps) run (qs :: m) (b1 ++ b2) (p' :: ps') run'.
(** MCUs; an open run goes on in the next MCU. *)
Inductive mcus_band (w : band_of) (ts : list tables) : list Z -> Z -> list mcu -> list bool -> Prop :=
| mwb_nil : forall ps run, mcus_band w ts ps run [] []
| mwb_cons : forall ps run m ms b1 b2 ps' run', mcu_band w ts ps run m b1 ps' run' -> mcus_band w ts ps' run' ms b2 ->
    mcus_band w ts ps run (m :: ms) (b1 ++ b2).
(** A restart interval: predictors 0 and no open run at its start. *)
Definition interval_band (w : band_of) (ts : list tables) (ms : list mcu) (data : list Z) : Prop :=
  exists ds bits, bytes ds /\ data = stuff ds /\ carries ds bits /\
    mcus_band w ts (map (fun _ => 0) ts) 0 ms bits.
(** The data of a scan, as in [scan_data]. *)
Inductive scan_band_data (w : band_of) (ts : list tables) (r : Z) : Z -> list mcu -> list Z -> Prop :=
| sbd_last : forall n ms data, r = 0 \/ lenZ ms <= r -> interval_band w ts ms data -> scan_band_data w ts r n ms data
| sbd_more : forall n ms data rest data', 0 < r -> lenZ ms = r -> rest <> [] ->
    interval_band w ts ms data -> scan_band_data w ts r ((n + 1) mod 8) rest data' ->
    scan_band_data w ts r n (ms ++ rest) (data ++ [255; 0xD0 + n] ++ data').

(** A block of coefficients in natural order holds the band of [q], scaled. *)
Definition band_q_values (w : band_of) (low : Z) (blk : list Z) (q : qblock) : Prop :=
  length blk = 64%nat /\
  forall j, (j < 64)%nat -> nth (natural j) blk 0 =
    if Z.of_nat j =? 0 then (if lo w =? 0 then scaled low (q_dc q) else 0)
    else if (band_first w <=? Z.of_nat j) && (Z.of_nat j <=? hi w)
         then scaled low (nth (j - Z.to_nat (band_first w)) (q_ac q) 0)
         else 0.
(** The blocks read for an MCU are the blocks of [m], component after component. *)
Definition band_logged (w : band_of) (low : Z) (coefs : list (list Z)) (m : mcu) : Prop :=
  forall k q, nth_error (concat m) k = Some q -> exists blk, nth_error coefs k = Some blk /\ band_q_values w low blk q.
