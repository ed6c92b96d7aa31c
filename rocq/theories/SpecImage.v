(** Output images in terms of component planes. *)
From Verif Require Import Base SpecBits SpecColor SpecFrame SpecUpsample SpecSegments Color.

(** Bytes of the pixel at row [y], column [x] of an image with [n] bytes per pixel. *)
Definition pixel (n width y x : Z) (img : list Z) : list Z :=
  firstn (Z.to_nat n) (skipn (Z.to_nat (n * (y * width + x))) img).

Section Frame.
  Variables (lines samples : Z) (cs : list comp_spec).
  Let hm := largest (map cs_h cs).
  Let vm := largest (map cs_v cs).

  (** Samples per line and number of lines of the plane of a component (whole MCUs). *)
  Definition plane_stride (c : comp_spec) : Z := 8 * (mcus samples hm * cs_h c).
  Definition plane_rows (c : comp_spec) : Z := 8 * (mcus lines vm * cs_v c).
  (** A plane of bytes of that size. *)
  Definition plane_for (c : comp_spec) (p : list Z) : Prop := bytes p /\ lenZ p = plane_stride c * plane_rows c.

  Definition h_ratio (c : comp_spec) : Z := ratio samples (cs_h c) hm.
  Definition v_ratio (c : comp_spec) : Z := ratio lines (cs_v c) vm.

  (** The value component [c] with plane [p] shows at column [x] when row [row] is asked for. *)
  Definition comp_shown (c : comp_spec) (p : list Z) (row x : Z) : Z :=
    shown (h_ratio c) (v_ratio c) p (plane_stride c) (extent samples (cs_h c) hm) (extent lines (cs_v c) vm) row x.

  (** Ratios that can be produced by repetition or interpolation. *)
  Definition whole_ratios (c : comp_spec) : Prop := hm mod cs_h c = 0 /\ vm mod cs_v c = 0.

  (** The combinations of size and ratio on which the upsampler works: doubling only the
      width needs an even width, and [samples] samples of the plane from the start of the
      last row that is asked for; repetition needs a width that is a multiple of the ratio. *)
  Definition width_works (c : comp_spec) : Prop :=
    (h_ratio c = 2 -> v_ratio c = 1 ->
       samples mod 2 = 0 /\ (lines - 1) / vm * vm * plane_stride c + samples <= plane_stride c * plane_rows c) /\
    (2 < h_ratio c \/ 2 < v_ratio c -> samples mod (hm / cs_h c) = 0).
End Frame.

(** 4:2:2: the first of three components has twice the horizontal resolution of the others. *)
Definition comps_422 (i0 i1 i2 q0 q1 q2 : Z) : list comp_spec := [mkCS i0 2 1 q0; mkCS i1 1 1 q1; mkCS i2 1 1 q2].
(** The sizes on which upsampling such an image works. *)
Definition size_422 (lines samples : Z) : Prop :=
  samples = 1 \/ samples mod 2 = 0 /\ (lines mod 8 <> 0 \/ samples <= 8).

(** The row handed to the upsampler for image line [y]: lines are handled in groups of the
    largest vertical factor [vm] and share the row of the first line of their group; the
    parallel build passes the number of the group instead (C38, C39). *)
Definition shown_row (rayon : bool) (vm y : Z) : Z := if rayon then y / vm else y / vm * vm.
