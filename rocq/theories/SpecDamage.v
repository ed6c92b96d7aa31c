(** Scan data of which only parts are intact (C60). *)
From Verif Require Import Base SpecBits SpecHuffman SpecBlock SpecTables SpecSegments SpecScan.

(** Reading data bytes up to a marker delivers [bits] first (and, after a clean end, zeros). *)
Definition supplies (ds : list Z) (bits : list bool) : Prop :=
  exists z, (z = 0%nat \/ clean_end ds) /\ prefix bits (bits_of ds ++ repeat false z).

(** The data of a restart interval: any bytes without a marker.  It starts with the code of
    the MCUs [ms] that are intact (there may be none); [n] MCUs of which nothing is known
    follow. *)
Definition interval_part (ts : list tables) (known : list (option mcu)) (data : list Z) : Prop :=
  exists ds ms bits n, bytes ds /\ data = stuff ds /\ known = map Some ms ++ repeat None n /\
    mcus_bits ts (map (fun _ => 0) ts) ms bits /\ supplies ds bits.
(** The data of a scan, with all its restart markers, as in [scan_data]. *)
Inductive scan_part (ts : list tables) (r : Z) : Z -> list (option mcu) -> list Z -> Prop :=
| sp_last : forall n known data, r = 0 \/ lenZ known <= r -> interval_part ts known data -> scan_part ts r n known data
| sp_more : forall n known data rest data', 0 < r -> lenZ known = r -> rest <> [] ->
    interval_part ts known data -> scan_part ts r ((n + 1) mod 8) rest data' ->
    scan_part ts r n (known ++ rest) (data ++ [255; 0xD0 + n] ++ data').

(** The MCUs [ms] are the known ones where they are known. *)
Definition agrees (known : list (option mcu)) (ms : list mcu) : Prop :=
  Forall2 (fun k m => forall m', k = Some m' -> m = m') known ms.
Definition known_shape (cs : list comp_spec) (k : option mcu) : Prop := forall m, k = Some m -> mcu_shape cs m.
