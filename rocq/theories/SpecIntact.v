(** Pixels whose MCU can still be read after damage (C60). *)
From Verif Require Import Base SpecBlock SpecFrame SpecSegments SpecScan SpecDamage.

(** [known] says for every MCU what it is, if it can still be read (SpecDamage.v).  The MCU in
    which the pixel at row [y], column [x] lies, in an image that is [samples] wide and has the
    components [cs], is one of those. *)
Definition intact (samples : Z) (cs : list comp_spec) (known : list (option mcu)) (y x : Z) : Prop :=
  let hm := largest (map cs_h cs) in let vm := largest (map cs_v cs) in
  exists m, nth_error known (Z.to_nat (y / (8 * vm) * mcus samples hm + x / (8 * hm))) = Some (Some m).
