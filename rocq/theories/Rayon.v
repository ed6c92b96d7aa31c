(** Model of the parallel loop of [upsample] (feature "rayon", lib.rs:1488-1497). *)
From Verif Require Import Base Idct Color Types Upsampler Decode.

(** [par_chunks_mut(line_size).chunks(v).enumerate().for_each_with(line_buffers, ..)] cuts the
    sequence of groups into contiguous pieces.  Each piece is processed in order by one
    thread with its own clone of the line buffers, which are empty vectors at the time they
    are cloned.  The pieces write disjoint parts of the image, so their relative order does
    not matter; when several pieces panic the first one in image order is reported
    (simplification: rayon propagates any one of them). *)
Fixpoint image_pieces (dbg : bool) (f : color_func) (ups : list up_component) (data : list plane)
         (width ncomp : Z) (pieces : list (list (Z * Z))) : out (list (list Z)) :=
  match pieces with
  | [] => Ok []
  | g :: r =>
      let* ls := image_lines dbg f ups data width ncomp [[]; []; []; []] g in
      let* rest := image_pieces dbg f ups data width ncomp r in
      Ok (ls ++ rest)
  end.

(** lib.rs:1419-1500 with the feature "rayon"; [cut] is the division into pieces chosen by
    the scheduler for the given groups. *)
Definition upsample_rayon (dbg : bool) (cut : list (Z * Z) -> list (list (Z * Z))) (d : decoder) : out (list Z) :=
  match d_frame d with
  | None => Panic PUnwrap
  | Some fr =>
      let n := lenZ (f_components fr) in
      let* f := choose_color_convert_func n (d_color d) in
      let* ups := upsampler_new (f_components fr) (mkDims (f_samples fr) (f_lines fr)) in
      let* v := max_unwrap (map c_v (f_components fr)) in
      let* _ := assert_ (negb (f_samples fr * n =? 0)) PAssert in
      let* lines := image_pieces dbg f ups (d_planes d) (f_samples fr) n (cut (line_groups true (f_lines fr) v)) in
      Ok (concat lines)
  end.
