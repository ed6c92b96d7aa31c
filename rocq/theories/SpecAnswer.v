(** What becomes of an image of any size and sampling factors. *)
From Verif Require Import Base SpecBits SpecFrame SpecUpsample SpecSegments SpecImage.

Section Frame.
  Variables (lines samples : Z) (cs : list comp_spec).
  Let hm := largest (map cs_h cs).
  Let vm := largest (map cs_v cs).

  (** Ratios above two are made by repetition. *)
  Definition repeated (c : comp_spec) : Prop := 2 < h_ratio samples cs c \/ 2 < v_ratio lines cs c.

  (** The ratios the upsampler accepts: whole in each direction in which the image has more
      than one sample, and whole in both directions where samples are repeated. *)
  Definition ratios_accepted (c : comp_spec) : Prop :=
    (samples = 1 \/ hm mod cs_h c = 0) /\ (lines = 1 \/ vm mod cs_v c = 0) /\ (repeated c -> whole_ratios cs c).

  (** Doubling the width only: the width must be even, and [samples] samples of the plane
      must be left from the start of the last row that is asked for. *)
  Definition doubling_possible (rayon : bool) (c : comp_spec) : Prop :=
    h_ratio samples cs c = 2 -> v_ratio lines cs c = 1 ->
    samples mod 2 = 0 /\
    shown_row rayon vm (lines - 1) * plane_stride samples cs c + samples <= plane_stride samples cs c * plane_rows lines cs c.

  (** The value drawn for component [c] with plane [p] at column [x] when row [row] is asked
      for: the value shown (SpecImage), except that repetition stops at the last whole
      multiple of the ratio, and leaves 0 in the columns after it. *)
  Definition comp_drawn (c : comp_spec) (p : list Z) (row x : Z) : Z :=
    let f := hm / cs_h c in
    if ((2 <? h_ratio samples cs c) || (2 <? v_ratio lines cs c)) && (f * (samples / f) <=? x) then 0
    else comp_shown lines samples cs c p row x.
End Frame.

(** ** The answer to a file whose planes have been decoded *)
(** [transform] is the transform byte of the last Adobe segment, if there is one. *)
From Verif Require Import SpecColor SpecMarker SpecScan SpecFile.
Definition last_transform (l : list (nat * hseg)) : option Z := last (map Some (adobes l)) None.

Section Answer.
  Variables (rayon : bool) (lines samples : Z) (cs : list comp_spec) (ps : list (list Z)) (transform : option Z).
  Let accepted := Forall (ratios_accepted lines samples cs) cs.
  Let possible := Forall (doubling_possible lines samples cs rayon) cs.
  Let drawn c p y x := comp_drawn lines samples cs c p (shown_row rayon (largest (map cs_v cs)) y) x.

  Inductive final_answer : out (list Z) -> Prop :=
  (* neither three nor four components *)
  | a_components : lenZ cs <> 3 -> lenZ cs <> 4 -> final_answer (Panic PComponents)
  (* four components need an Adobe segment *)
  | a_adobe : lenZ cs = 4 -> transform = None -> final_answer (Fail EAdobeMissing)
  (* sampling ratios that are not whole *)
  | a_ratio : lenZ cs = 3 \/ lenZ cs = 4 /\ transform <> None -> ~ accepted -> final_answer (Fail EUnsupported)
  (* YCCK *)
  | a_ycck : forall t p, lenZ cs = 4 -> transform = Some t -> t <> 0 -> accepted -> p = PAssert \/ p = PIndex -> final_answer (Panic p)
  (* the width is doubled, and it is odd or the last row is too near to the end of the plane *)
  | a_doubling : lenZ cs = 3 \/ lenZ cs = 4 /\ transform = Some 0 -> accepted -> ~ possible -> final_answer (Panic PIndex)
  (* RGB: a black image *)
  | a_rgb : lenZ cs = 3 -> transform = Some 0 -> accepted -> possible -> final_answer (Ok (repeat 0 (Z.to_nat (3 * samples * lines))))
  (* YCbCr *)
  | a_ycbcr : forall c0 c1 c2 p0 p1 p2 img, cs = [c0; c1; c2] -> ps = [p0; p1; p2] -> transform <> Some 0 -> accepted -> possible ->
      lenZ img = 3 * samples * lines ->
      (forall y x, 0 <= y < lines -> 0 <= x < samples ->
         rgb_pixel (drawn c0 p0 y x) (drawn c1 p1 y x) (drawn c2 p2 y x) (pixel 3 samples y x img)) ->
      final_answer (Ok img)
  (* inverted CMYK *)
  | a_cmyk : forall c0 c1 c2 c3 p0 p1 p2 p3 img, cs = [c0; c1; c2; c3] -> ps = [p0; p1; p2; p3] -> transform = Some 0 -> accepted -> possible ->
      lenZ img = 4 * samples * lines ->
      (forall y x, 0 <= y < lines -> 0 <= x < samples ->
         pixel 4 samples y x img = [255 - drawn c0 p0 y x; 255 - drawn c1 p1 y x; 255 - drawn c2 p2 y x; 255 - drawn c3 p3 y x]) ->
      final_answer (Ok img).
End Answer.

(** The answer to a file whose image has no lines or no columns: the checks of the number of
    components and of the ratios come first; then a width of zero is a panic, and a height of
    zero gives an empty image. *)
Inductive empty_answer (lines samples : Z) (cs : list comp_spec) (transform : option Z) : out (list Z) -> Prop :=
| e_components : lenZ cs <> 3 -> lenZ cs <> 4 -> empty_answer lines samples cs transform (Panic PComponents)
| e_adobe : lenZ cs = 4 -> transform = None -> empty_answer lines samples cs transform (Fail EAdobeMissing)
| e_ratio : lenZ cs = 3 \/ lenZ cs = 4 /\ transform <> None -> ~ Forall (ratios_accepted lines samples cs) cs ->
    empty_answer lines samples cs transform (Fail EUnsupported)
| e_width : lenZ cs = 3 \/ lenZ cs = 4 /\ transform <> None -> Forall (ratios_accepted lines samples cs) cs -> samples = 0 ->
    empty_answer lines samples cs transform (Panic PAssert)
| e_height : lenZ cs = 3 \/ lenZ cs = 4 /\ transform <> None -> Forall (ratios_accepted lines samples cs) cs -> samples <> 0 -> lines = 0 ->
    empty_answer lines samples cs transform (Ok []).
