(** Small concrete files used in the examples beside the theorems. *)
From Verif Require Import Base.

(** A 1x1 baseline file with three unsampled components; the Huffman tables have the single
    code 0 for the symbol 0, so the entropy-coded byte is 000000 and two padding bits. *)
Definition tiny_dqt : list Z := [0xFF; 0xDB; 0; 0x43; 0] ++ repeat 1 64.
Definition tiny_sof : list Z := [0xFF; 0xC0; 0; 0x11; 8; 0; 1; 0; 1; 3; 1; 0x11; 0; 2; 0x11; 0; 3; 0x11; 0].
Definition tiny_dht : list Z :=
  [0xFF; 0xC4; 0; 0x14; 0; 1] ++ repeat 0 15 ++ [0] ++ [0xFF; 0xC4; 0; 0x14; 0x10; 1] ++ repeat 0 15 ++ [0].
Definition tiny_sos : list Z := [0xFF; 0xDA; 0; 0x0C; 3; 1; 0; 2; 0; 3; 0; 0; 0x3F; 0].
Definition tiny : list Z :=
  [0xFF; 0xD8] ++ tiny_dqt ++ tiny_sof ++ tiny_dht ++ tiny_sos ++ [3] ++ [0xFF; 0xD9].

(** A 1x1 file whose AC table has the codes 0 (end of block), 10 (an 8-bit value) and 110
    (the end-of-band run EOB14, followed by 14 bits).  The one MCU takes 65 bits, the last 14
    of which belong to the end-of-band run. *)
Definition eob_dht : list Z :=
  [0xFF; 0xC4; 0; 0x14; 0; 1] ++ repeat 0 15 ++ [11] ++
  [0xFF; 0xC4; 0; 0x16; 0x10; 1; 1; 1] ++ repeat 0 13 ++ [0; 8; 0xE0].
Definition eob_head : list Z := [0xFF; 0xD8] ++ tiny_dqt ++ tiny_sof ++ eob_dht ++ tiny_sos.
Definition eob_scan1 : list Z := [0; 0; 0; 0; 2; 0; 0xC0; 0].
Definition eob_scan2 : list Z := [0] ++ [0xFF; 0xD9].

(** A 9x1 file: two MCUs, with a restart marker between them. *)
Definition rst_sof : list Z := [0xFF; 0xC0; 0; 0x11; 8; 0; 1; 0; 9; 3; 1; 0x11; 0; 2; 0x11; 0; 3; 0x11; 0].
Definition rst_dri : list Z := [0xFF; 0xDD; 0; 4; 0; 1].
Definition rst_dht : list Z :=
  [0xFF; 0xC4; 0; 0x14; 0; 1] ++ repeat 0 15 ++ [11] ++
  [0xFF; 0xC4; 0; 0x16; 0x10; 0; 3] ++ repeat 0 14 ++ [0; 0xF0; 0xEF].
Definition rst_head : list Z := [0xFF; 0xD8] ++ tiny_dqt ++ rst_sof ++ rst_dht ++ rst_dri ++ tiny_sos.
Definition rst_mcu : list Z := [0; 0; 0; 0; 0; 0x56; 0x80; 1].
(** Cut between the two bytes of the restart marker. *)
Definition rst_part1 : list Z := rst_head ++ rst_mcu ++ [0xFF].
Definition rst_part2 : list Z := [0xD0] ++ rst_mcu ++ [0xFF; 0xD9].
