(** The image a file stands for, computed with real numbers and without any rounding: the
    inverse DCT of T.81 A.3.3, linear interpolation of the components with fewer samples, and
    the colour conversion of JFIF.  Used by C62. *)
From Coq Require Import Reals.
From Verif Require Import Base SpecBlock SpecFrame SpecSegments SpecUpsample SpecScan SpecFile SpecImage SpecPlane SpecDct.
Open Scope R_scope.

(** The value at vertical frequency [v] and horizontal frequency [u] of the values [xs] given
    in the order of the list of (row, column) pairs [order]. *)
Fixpoint at_position (order : list (nat * nat)) (xs : list Z) (v u : nat) : Z :=
  match order, xs with
  | (r, c) :: order, x :: xs => if ((r =? v) && (c =? u))%nat then x else at_position order xs v u
  | _, _ => 0%Z
  end.

(** The spectrum of a block: quantised coefficients times quantisation values (A.3.4), both
    in zigzag order. *)
Definition spectrum (b : qblock) (q : list Z) (v u : nat) : R :=
  IZR (at_position zigzag (q_dc b :: q_ac b) v u * at_position zigzag q v u).

(** No block of the image has a spectrum of magnitude above [M]. *)
Definition spectra_within (M : R) (ms : list mcu) (qs : list (list Z)) : Prop :=
  forall m k q b, In m ms -> nth_error qs k = Some q -> In b (nth k m []) -> magnitude (spectrum b q) <= M.

(** No exact sample, before it is limited to 0..255, is below -240 or above 750. *)
Definition samples_in_reach (ms : list mcu) (qs : list (list Z)) : Prop :=
  forall m k q b, In m ms -> nth_error qs k = Some q -> In b (nth k m []) ->
    forall y x, (y < 8)%nat -> (x < 8)%nat -> -240 <= 128 + idct_real (spectrum b q) y x <= 750.

(** The exact sample of the [k]-th component at row [r], column [x] of its plane, when there
    are [w] MCUs to a line. *)
Definition exact_sample (ms : list mcu) (w : Z) (k : nat) (c : comp_spec) (q : list Z) (r x : Z) : R :=
  level (idct_real (spectrum (q_at ms w k (cs_h c) (cs_v c) r x) q) (Z.to_nat (r mod 8)) (Z.to_nat (x mod 8))).

(** [shown] of SpecUpsample over real samples, without rounding. *)
Definition shown_exact (hr vr : Z) (f : Z -> Z -> R) (w h row x : Z) : R :=
  if ((hr =? 1) && (vr =? 1))%Z then f row x
  else if ((hr =? 2) && (vr =? 1))%Z then (3 * f row (x / 2)%Z + f row (neighbour (w - 1) x)) / 4
  else if ((hr =? 1) && (vr =? 2))%Z then (3 * f (row / 2)%Z x + f (neighbour (h - 1) row) x) / 4
  else if ((hr =? 2) && (vr =? 2))%Z then
    (9 * f (row / 2)%Z (x / 2)%Z + 3 * f (neighbour (h - 1) row) (x / 2)%Z
     + 3 * f (row / 2)%Z (neighbour (w - 1) x) + f (neighbour (h - 1) row) (neighbour (w - 1) x)) / 16
  else f (row / vr)%Z (x / hr)%Z.

Section Frame.
  Variables (lines samples : Z) (cs : list comp_spec) (ms : list mcu).
  Let hm := largest (map cs_h cs).
  Let vm := largest (map cs_v cs).

  (** What the [k]-th component, [c] with quantisation values [q], shows at row [row] and
      column [x] of the image. *)
  Definition comp_exact (k : nat) (c : comp_spec) (q : list Z) (row x : Z) : R :=
    shown_exact (h_ratio samples cs c) (v_ratio lines cs c) (exact_sample ms (mcus samples hm) k c q)
      (extent samples (cs_h c) hm) (extent lines (cs_v c) vm) row x.

  (** Interpolation costs another half for its rounding. *)
  Definition interpolation (c : comp_spec) : R :=
    if (Z.max (h_ratio samples cs c) (v_ratio lines cs c) =? 2)%Z then / 2 else 0.
End Frame.

(** The colours of JFIF (BT.601), limited to 0..255. *)
Definition limited (v : R) : R := Rmax 0 (Rmin 255 v).
Definition exact_red (y cb cr : R) : R := limited (y + 1.402 * (cr - 128)).
Definition exact_green (y cb cr : R) : R := limited (y - 0.34414 * (cb - 128) - 0.71414 * (cr - 128)).
Definition exact_blue (y cb cr : R) : R := limited (y + 1.772 * (cb - 128)).

(** ** Images in which every component has full resolution (4:4:4) *)
Definition full_resolution (cs : list comp_spec) : Prop := Forall (fun c => cs_h c = 1 /\ cs_v c = 1)%Z cs.
(** An MCU is then one block of each component: the block of component [k] with pixel ([y], [x]). *)
Definition block_444 (ms : list mcu) (samples : Z) (k : nat) (y x : Z) : qblock :=
  nth 0 (nth k (nth (Z.to_nat (y / 8 * mcus samples 1 + x / 8)) ms []) []) (mkQ 0 []).
