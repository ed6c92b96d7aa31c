(** Vocabulary for the reduced block transforms (C55) and the choice of their size (C56). *)
From Verif Require Import Base Idct.

(** [n] rows of [n] bytes. *)
Definition square (n : Z) (rows : list (list Z)) : Prop :=
  lenZ rows = n /\ Forall (fun r => lenZ r = n /\ Forall (fun x => 0 <= x <= 255) r) rows.

(** [p'] is [p] with the square [rows] written at position [off]; the lines of the plane have
    length [stride].  Nothing else changes. *)
Definition written (off stride n : Z) (rows : list (list Z)) (p p' : plane) : Prop :=
  length p' = length p /\
  (forall y x, 0 <= y < n -> 0 <= x < n ->
     nth (Z.to_nat (off + y * stride + x)) p' None = Some (nth (Z.to_nat x) (nth (Z.to_nat y) rows []) 0)) /\
  (forall i, 0 <= i -> (forall y x, 0 <= y < n -> 0 <= x < n -> i <> off + y * stride + x) ->
     nth (Z.to_nat i) p' None = nth (Z.to_nat i) p None).

(** [r] is the length of an image side at scale [s]/8, rounded up. *)
Definition scaled_length (len s r : Z) : Prop := 8 * (r - 1) < len * s <= 8 * r.

(** The request is covered at scale [s]/8: one of the sides is at least as long as requested. *)
Definition covered (fw fh rw rh s : Z) : Prop :=
  exists w h, scaled_length fw s w /\ scaled_length fh s h /\ (rw <= w \/ rh <= h).

(** The 4-point transform: entry [u] of row [x] is close to [4096 * sqrt 2 * cos ((2 x + 1) u pi / 8)]
    (4096 for [u] = 0), and the sum of the low-frequency coefficients of a dequantised block
    weighted with it for sample ([y], [x]); 2^27 times the sample without level shift. *)
Definition M4 : list (list Z) :=
  [[4096; 5352; 4096; 2217]; [4096; 2217; -4096; -5350]; [4096; -2217; -4096; 5350]; [4096; -5352; 4096; -2217]].
Definition sum4 (f : nat -> Z) : Z := f 0%nat + f 1%nat + f 2%nat + f 3%nat.
Definition m4 (x u : nat) : Z := nth u (nth x M4 []) 0.
Definition ideal4 (coefs quant : list Z) (y x : nat) : Z :=
  sum4 (fun u => m4 x u * sum4 (fun v => m4 y v * (nth (u + 8 * v) coefs 0 * nth (u + 8 * v) quant 0))).

(** The 2-point transform: 8 times the sample without level shift. *)
Definition ideal2 (coefs quant : list Z) (y x : nat) : Z :=
  let f k := nth k coefs 0 * nth k quant 0 in
  let sy := if (y =? 0)%nat then 1 else -1 in
  let sx := if (x =? 0)%nat then 1 else -1 in
  (f 0%nat + sy * f 8%nat) + sx * (f 1%nat + sy * f 9%nat).
