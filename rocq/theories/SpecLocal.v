(** Which MCUs a pixel can depend on (C76). *)
From Verif Require Import Base SpecBlock SpecFrame SpecSegments SpecScan SpecEdit.

(** The MCU of the image [ms], [samples] wide and with the components [cs], in which the pixel at
    row [y], column [x] lies. *)
Definition mcu_of (samples : Z) (cs : list comp_spec) (ms : list mcu) (y x : Z) : mcu :=
  let hm := largest (map cs_h cs) in let vm := largest (map cs_v cs) in
  nth (Z.to_nat (y / (8 * vm) * mcus samples hm + x / (8 * hm))) ms [].
