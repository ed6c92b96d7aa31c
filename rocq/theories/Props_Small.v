(** C55 and C56: the reduced block transforms and the choice of their size. *)
From Verif Require Import Base SpecColor SpecIdct SpecSmall Idct IdctSmall SmallP Tactics.

(** ** C55: reduced block transforms *)

(** At every scale [n]/8 a block becomes [n] rows of [n] bytes, the same in both build profiles
    and wherever it is written, and exactly that square of the plane is written. *)
Theorem C55_square :
  forall scale coefs quant, In scale [1; 2; 4; 8] ->
    exists rows, square scale rows /\
      forall dbg stride off p,
        0 <= off -> scale <= stride -> off + (scale - 1) * stride + scale <= lenZ p ->
        exists p', idct_block dbg scale coefs quant stride off p = Ok p' /\ written off stride scale rows p p'.
Proof.
  intros scale coefs quant I. destruct (scale_total scale coefs quant I) as [rows [_ H]]. exists rows. exact H.
Qed.
Print Assumptions C55_square.

(** A flat block has the same value at the scales 2, 4 and 8. *)
Theorem C55_flat_partial :
  forall dbg scale coefs quant stride off p,
    In scale [2; 4; 8] -> flat coefs ->
    let v := nth 0 coefs 0 * nth 0 quant 0 in
    -256 <= (v + 4) / 8 + 128 <= 767 ->
    0 <= off -> scale <= stride -> off + (scale - 1) * stride + scale <= lenZ p ->
    exists p', idct_block dbg scale coefs quant stride off p = Ok p' /\
      written off stride scale (repeat (repeat (sat ((v + 4) / 8 + 128)) (Z.to_nat scale)) (Z.to_nat scale)) p p'.
Proof. exact flat_scales. Qed.
Print Assumptions C55_flat_partial.

(** At scale 2 every sample is the rounded sum of the four lowest coefficients. *)
Theorem C55_2x2 :
  forall coefs quant, (forall k, Z.abs (nth k coefs 0 * nth k quant 0) <= 2 ^ 28) ->
    exists rows, square 2 rows /\
      (forall dbg stride off p, 0 <= off -> 2 <= stride -> off + 1 * stride + 2 <= lenZ p ->
         exists p', idct_block dbg 2 coefs quant stride off p = Ok p' /\ written off stride 2 rows p p') /\
      forall y x, (y < 2)%nat -> (x < 2)%nat ->
        let v := (ideal2 coefs quant y x + 4) / 8 + 128 in
        -256 <= v <= 767 -> nth x (nth y rows []) 0 = sat v.
Proof. exact scale2_exact. Qed.
Print Assumptions C55_2x2.

(** At scale 4 every sample is within 1/2 + 1/16 of the 4-point transform of the sixteen
    lowest coefficients. *)
Theorem C55_4x4 :
  forall coefs quant, (forall k, Z.abs (nth k coefs 0 * nth k quant 0) <= 8000) ->
    exists rows, square 4 rows /\
      (forall dbg stride off p, 0 <= off -> 4 <= stride -> off + 3 * stride + 4 <= lenZ p ->
         exists p', idct_block dbg 4 coefs quant stride off p = Ok p' /\ written off stride 4 rows p p') /\
      forall y x, (y < 4)%nat -> (x < 4)%nat -> exists v,
        Z.abs (2 ^ 27 * (v - 128) - ideal4 coefs quant y x) <= 2 ^ 26 + 2 ^ 23 /\
        (-256 <= v <= 767 -> nth x (nth y rows []) 0 = sat v).
Proof. exact scale4_near. Qed.
Print Assumptions C55_4x4.

(** At scale 1 the mean of the block is cut off instead of rounded. *)
Theorem C55_one_sample_partial :
  forall dbg coefs quant stride off p,
    let v := nth 0 coefs 0 * nth 0 quant 0 in
    -1024 <= v <= 5000 -> 0 <= off < lenZ p -> 1 <= stride ->
    exists p', idct_block dbg 1 coefs quant stride off p = Ok p' /\ written off stride 1 [[sat (v / 8 + 128)]] p p'.
Proof. exact one_sample. Qed.
Print Assumptions C55_one_sample_partial.

(** Refuted: the flat block of value 4 is 129 at scales 2, 4 and 8 but 128 at scale 1. *)
Theorem C55_refuted :
  exists coefs quant, flat coefs /\ forall dbg,
    idct_block dbg 1 coefs quant 1 0 [None] = Ok [Some 128] /\
    idct_block dbg 2 coefs quant 2 0 (repeat None 4) = Ok (repeat (Some 129) 4) /\
    idct_block dbg 4 coefs quant 4 0 (repeat None 16) = Ok (repeat (Some 129) 16) /\
    idct_block dbg 8 coefs quant 8 0 (repeat None 64) = Ok (repeat (Some 129) 64).
Proof.
  exists (4 :: repeat 0 63), (repeat 1 64). split.
  - intros k Hk. destruct k as [|k]; [lia|]. cbn [nth]. apply nth_repeat.
  - intros dbg. destruct dbg; repeat split; vm_compute; reflexivity.
Qed.
Print Assumptions C55_refuted.

(** A 4x4 block with both passes at work, at the end of a plane with longer lines. *)
Example C55_case :
  exists p', idct_block true 4 (50 :: -30 :: repeat 7 62) (repeat 3 64) 5 1 (repeat None 20) = Ok p' /\
    nth 0 p' None = None /\ nth 5 p' None = None /\ nth 1 p' (Some 0) <> nth 2 p' (Some 0) /\ nth 19 p' None <> None.
Proof. eexists. split; [vm_compute; reflexivity|]. cbn. repeat split; discriminate. Qed.

(** ** C56: the choice of the size *)

(** The scale chosen is the smallest at which one side of the image is at least as long as
    requested, and 8 if there is none. *)
Theorem C56_smallest :
  forall dbg fw fh rw rh, 1 <= fw <= 65535 -> 1 <= fh <= 65535 ->
    exists s, choose_idct_size dbg fw fh rw rh = Ok s /\ In s [1; 2; 4; 8] /\
      (s = 8 \/ covered fw fh rw rh s) /\
      forall s', In s' [1; 2; 4; 8] -> s' < s -> ~ covered fw fh rw rh s'.
Proof. exact choose_spec. Qed.
Print Assumptions C56_smallest.

(** An image without width: a debug build panics, a release build takes the side as 0. *)
Theorem C56_empty_refuted :
  choose_idct_size true 0 8 1 1 = Panic POverflow /\ choose_idct_size false 0 8 1 5 = Ok 8.
Proof. split; vm_compute; reflexivity. Qed.
Print Assumptions C56_empty_refuted.

Example C56_case : choose_idct_size true 5472 3648 1500 1000 = Ok 4 /\ choose_idct_size true 5472 3648 1368 913 = Ok 2 /\ choose_idct_size true 5472 3648 16384 16384 = Ok 8.
Proof. repeat split; vm_compute; reflexivity. Qed.
