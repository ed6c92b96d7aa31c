(** Scan data with further bytes behind what is coded (C97). *)
From Verif Require Import Base SpecBits SpecBlock SpecScan SpecCode.

(** The bytes of a restart interval: the bits of its MCUs, followed by any further bits. *)
Definition interval_longer (ts : list tables) (ms : list mcu) (data : list Z) : Prop :=
  exists ds bits, bytes ds /\ data = stuff ds /\ prefix bits (bits_of ds) /\ mcus_bits ts (map (fun _ => 0) ts) ms bits.
(** The data of a scan made of such intervals (as in SpecScan.v), the last one followed by any
    number of further RSTn markers and intervals of any bytes. *)
Inductive scan_longer (ts : list tables) (r : Z) : Z -> list mcu -> list Z -> Prop :=
| sl_last : forall n ms data extra, r = 0 \/ lenZ ms <= r -> interval_longer ts ms data -> more_ok extra -> scan_longer ts r n ms (data ++ flat_map rst_bytes extra)
| sl_more : forall n ms data rest data', 0 < r -> lenZ ms = r -> rest <> [] ->
    interval_longer ts ms data -> scan_longer ts r ((n + 1) mod 8) rest data' ->
    scan_longer ts r n (ms ++ rest) (data ++ [255; 0xD0 + n] ++ data').
