(** Where segments may be inserted (C31, C44), and images in several scans (C47). *)
From Verif Require Import Base SpecBits SpecMarker SpecHuffman SpecBlock SpecFrame SpecSegments SpecScan SpecPlane SpecUpsample SpecImage SpecFile SpecGlobal SpecStream Biterator Color Types Decode.

(** Having read [a], the decoder is looking for the next marker: only bytes that are no marker
    (fill bytes, the contents of a comment) may be left over. *)
Definition between_segments (dbg rayon : bool) (d : decoder) (a : list Z) : Prop :=
  exists d' junk bits count, no_marker junk /\
    from dbg false rayon (PcMarker, d, biter_new a) (PcMarker, d', mkBiter junk bits count).

(** The conversion to pixels uses every component of the frame: a debug build checks their
    number; in a release build this is so for YCbCr (three components, no Adobe transform 0)
    and CMYK (four components, Adobe transform 0). *)
Definition all_used (dbg : bool) (components : nat) (t : option adobe) : Prop :=
  dbg = true \/ (components = 3%nat /\ t <> Some AdobeUnknown) \/ (components = 4%nat /\ t = Some AdobeUnknown).

(** ** Damaged scan data (C42) *)
(** Any bytes in which the only markers are RST0..RST7. *)
Inductive rst_only : list Z -> Prop :=
| ro_nil : rst_only []
| ro_byte : forall b r, b <> 255 -> rst_only r -> rst_only (b :: r)
| ro_stuffed : forall k r, rst_only r -> rst_only (FF (S k) ++ 0 :: r)
| ro_rst : forall k n r, 0 <= n <= 7 -> rst_only r -> rst_only (FF (S k) ++ (0xD0 + n) :: r).

(** The part of [encodes] (C45) that concerns the segments before the scan: they define one
    frame and, for its components, the tables that the scan header names. *)
Record header_for (segs : list (nat * hseg)) (h : frame_header) (ss : list scan_comp) (ts : list tables) (qs : list (list Z)) : Prop := mkHF {
  hf_segs : Forall (fun s => hseg_ok (snd s)) segs;
  hf_frame : sofs segs = [h];
  hf_ids : NoDup (map cs_id (fh_comps h));
  hf_four : lenZ (fh_comps h) <= 4;
  hf_ten : (blocks_before (fh_comps h) (length (fh_comps h)) <= 10)%nat;
  hf_codings : comp_codings segs (fh_comps h) ss ts qs;
}.
(** A YCbCr or CMYK image that this decoder can show (the limits are those of C45). *)
Definition shows (h : frame_header) (transforms : list Z) : Prop :=
  let cs := fh_comps h in
  0 < fh_lines h /\ 0 < fh_samples h /\ Forall (whole_ratios cs) cs /\ Forall (width_works (fh_lines h) (fh_samples h) cs) cs /\
  (length cs = 3%nat /\ last transforms 1 <> 0 \/ length cs = 4%nat /\ transforms <> [] /\ last transforms 1 = 0).
(** The call returns: an image or an error value, no panic. *)
Definition returns {A} (r : out A) : Prop := match r with Ok _ | Fail _ => True | _ => False end.

(** ** Histories of a decoder (C09) *)
(** A new decoder that was used on the inputs of [history], in order. *)
Definition decoder_after (dbg rayon : bool) (history : list (list Z)) : decoder :=
  fold_left (fun d input => fst (decode dbg rayon d input)) history decoder_default.
(** The bytes FF, [code] occur in the input. *)
Definition has_code (code : Z) (input : list Z) : Prop := exists a b, input = a ++ [255; code] ++ b.
(** No input of the history has them. *)
Definition never (code : Z) (history : list (list Z)) : Prop := forall input, In input history -> ~ has_code code input.
(** An image in which something can be seen. *)
Definition not_black (img : list Z) : Prop := exists v, In v img /\ v <> 0.
