(** Images of one colour and grey images (C65, C66). *)
From Verif Require Import Base SpecBits SpecFrame SpecUpsample SpecSegments SpecColor SpecIdct SpecImage SpecScan SpecAnswer.

(** All blocks of the [k]-th component have the DC value [dc] and no AC coefficients. *)
Definition flat_component (ms : list mcu) (k : nat) (dc : Z) : Prop :=
  forall m b, In m ms -> In b (nth k m []) -> q_dc b = dc /\ Forall (fun a => a = 0) (q_ac b).

(** The sample that a DC value stands for: multiplied with the first entry of the quantisation
    table, divided by eight, rounded, moved up by 128 and limited to a byte (C33: exact as long
    as the value is in -256..767, modulo 1024 otherwise). *)
Definition dc_sample (dc : Z) (q : list Z) : Z := sat (wrap10 ((dc * nth 0 q 0 + 4) / 8 + 128)).

(** No columns are left out when the samples of component [c] are repeated (C39). *)
Definition full_width (lines samples : Z) (cs : list comp_spec) (c : comp_spec) : Prop :=
  repeated lines samples cs c -> samples mod (largest (map cs_h cs) / cs_h c) = 0.

(** Column [x] of component [c] is left out (it then shows the sample 0, C39). *)
Definition left_out (lines samples : Z) (cs : list comp_spec) (c : comp_spec) (x : Z) : bool :=
  let f := largest (map cs_h cs) / cs_h c in ((2 <? h_ratio samples cs c) || (2 <? v_ratio lines cs c)) && (f * (samples / f) <=? x).
(** What component [c] shows in column [x] when all its blocks are flat. *)
Definition flat_shown (lines samples : Z) (cs : list comp_spec) (c : comp_spec) (dc : Z) (q : list Z) (x : Z) : Z :=
  if left_out lines samples cs c x then 0 else dc_sample dc q.

Definition grey (px : list Z) : Prop := exists v, px = [v; v; v].
