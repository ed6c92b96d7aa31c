(** What a row of an upsampled component should show.  A plane is given as the list of its
    samples, row by row, [stride] samples per row.  Used by C37 to C41. *)
From Verif Require Import Base.

(** The sample at row [y], column [x]. *)
Definition px (p : list Z) (stride y x : Z) : Z := nth (Z.to_nat (y * stride + x)) p 0.

(** Doubling an axis: position [i] of the doubled axis lies in sample [i / 2], a quarter of a
    sample away from its centre; the nearest other sample is the previous one for even
    positions and the next one for odd positions.  At the ends of the axis (0 and [last])
    the sample itself stands in for the missing neighbour. *)
Definition neighbour (last i : Z) : Z :=
  if Z.even i then Z.max (i / 2 - 1) 0 else Z.min (i / 2 + 1) last.

(** Doubling the width, the height, or both: weights 3/4 and 1/4 along each doubled axis,
    rounded once.  [w] and [h] are the numbers of columns and rows in use. *)
Definition double_width (p : list Z) (stride w row x : Z) : Z :=
  (3 * px p stride row (x / 2) + px p stride row (neighbour (w - 1) x) + 2) / 4.
Definition double_height (p : list Z) (stride h row x : Z) : Z :=
  (3 * px p stride (row / 2) x + px p stride (neighbour (h - 1) row) x + 2) / 4.
Definition double_both (p : list Z) (stride w h row x : Z) : Z :=
  (9 * px p stride (row / 2) (x / 2) + 3 * px p stride (neighbour (h - 1) row) (x / 2)
   + 3 * px p stride (row / 2) (neighbour (w - 1) x) + px p stride (neighbour (h - 1) row) (neighbour (w - 1) x) + 8) / 16.

(** A plane with [w] used columns and [h] used rows. *)
Definition plane_fits (p : list Z) (stride w h : Z) : Prop :=
  Forall (fun x => 0 <= x <= 255) p /\ 0 < w <= stride /\ 0 < h <= 65535 /\ h * stride <= Z.of_nat (length p).

(** How many output samples one sample of a component covers along an axis of [len] samples,
    when the component has factor [f] and the largest factor is [f_max].  An axis of a single
    sample is never scaled. *)
Definition ratio (len f f_max : Z) : Z := if len =? 1 then 1 else f_max / f.

(** The value a component shows at output column [x] when output row [row] is asked for:
    ratios of at most 2 are interpolated, larger ones repeat the sample. *)
Definition shown (hr vr : Z) (p : list Z) (stride w h row x : Z) : Z :=
  if (hr =? 1) && (vr =? 1) then px p stride row x
  else if (hr =? 2) && (vr =? 1) then double_width p stride w row x
  else if (hr =? 1) && (vr =? 2) then double_height p stride h row x
  else if (hr =? 2) && (vr =? 2) then double_both p stride w h row x
  else px p stride (row / vr) (x / hr).
