(** Why a call of [decode] panics (C57). *)
From Verif Require Import Base SpecBits SpecMarker SpecHuffman SpecFrame SpecSegments SpecUpsample SpecImage SpecStream Biterator Marker Color Types Decode.

Section Call.
  (** One call: decoder [d0] is given the bytes [input]. *)
  Variables (dbg rayon : bool) (d0 : decoder) (input : list Z).

  (** The call comes to the segment of marker [m]; [rest] are the bytes from its length on. *)
  Definition at_segment (m : marker) (d : decoder) (rest : list Z) : Prop :=
    exists bits count, from dbg false rayon (PcMarker, d0, biter_new input) (PcSegment m, d, mkBiter rest bits count).
  (** The call comes to the first MCU of a scan [sc] of frame [fr]. *)
  Definition at_scan (sc : scan) (fr : frame) (d : decoder) : Prop :=
    exists final todo b, from dbg false rayon (PcMarker, d0, biter_new input) (PcScan final todo PhRow, d, b) /\
      d_scan d = Some sc /\ d_frame d = Some fr.
  (** The call comes to EOI, with the bytes [rest] after it. *)
  Definition at_end (d : decoder) (rest : list Z) : Prop :=
    exists buf bits count, from dbg false rayon (PcMarker, d0, biter_new input) (PcMarker, d, mkBiter buf bits count) /\ first_marker buf 0xD9 rest.

  (** The payload of a segment: the length counts its own two bytes (modulo 2^16, which
      matters for the lengths 0 and 1 only). *)
  Definition payload (rest data : list Z) : Prop :=
    exists l1 l0 more, rest = [l1; l0] ++ data ++ more /\ lenZ data = (256 * l1 + l0 - 2) mod 65536.
End Call.

(** Markers that are followed by a length; for this decoder a comment is not one of them (C44). *)
Definition with_length (m : marker) : Prop :=
  match m with SOF _ | DHT | DQT | DRI | SOS | APP _ => True | _ => False end.

(** No table was defined for the destination that is selected (there is none above 3). *)
Definition undefined {A} (tables : list (option A)) (selector : Z) : Prop :=
  nth_error tables (Z.to_nat selector) = None \/ nth_error tables (Z.to_nat selector) = Some None.

(** The planes are as large as the components of the frame require, one for each. *)
Definition planes_for (fr : frame) (ps : list (list (option Z))) : Prop :=
  Forall2 (fun c p => lenZ p = 64 * (dim_w (c_block_size c) * dim_h (c_block_size c))) (f_components fr) ps.

(** Doubling only the width of component [c] of the frame header does not work: the width is
    odd, or the plane ends less than a line after the start of the last row asked for (C38). *)
Definition cannot_double (rayon : bool) (lines samples : Z) (cs : list comp_spec) (c : comp_spec) : Prop :=
  h_ratio samples cs c = 2 /\ v_ratio lines cs c = 1 /\
  (samples mod 2 <> 0 \/
   plane_stride samples cs c * plane_rows lines cs c <
     shown_row rayon (largest (map cs_v cs)) (lines - 1) * plane_stride samples cs c + samples).

(** The causes that always end in a panic. *)
Inductive certain_cause (dbg rayon : bool) (d0 : decoder) (input : list Z) : Prop :=
(** A segment length of 0 or 1 (checked arithmetic only). *)
| cause_length : forall m d l1 l0 rest, at_segment dbg rayon d0 input m d (l1 :: l0 :: rest) -> with_length m ->
    dbg = true -> 256 * l1 + l0 < 2 -> certain_cause dbg rayon d0 input
(** A frame header without components. *)
| cause_no_component : forall n d rest pr a b e f more, at_segment dbg rayon d0 input (SOF n) d rest ->
    payload rest (pr :: a :: b :: e :: f :: 0 :: more) -> certain_cause dbg rayon d0 input
(** A Huffman table with no code, or with more than 256 (the latter with checked arithmetic only). *)
| cause_huffman : forall d rest ts t more, at_segment dbg rayon d0 input DHT d rest ->
    payload rest (flat_map dht_bytes ts ++ dht_bytes t ++ more) -> Forall dht_ok ts ->
    0 <= th_dest t <= 3 -> counts_ok (th_counts t) -> lenZ (th_values t) = total_codes (th_counts t) ->
    total_codes (th_counts t) = 0 \/ dbg = true /\ 256 < total_codes (th_counts t) -> certain_cause dbg rayon d0 input
(** A scan of a progressive frame. *)
| cause_progressive : forall d rest fr s ks more, at_segment dbg rayon d0 input SOS d rest -> d_frame d = Some fr ->
    payload rest (sos_bytes s ++ more) -> scan_ok s -> scan_in_frame fr s ks ->
    f_marker fr = 2 -> certain_cause dbg rayon d0 input
(** A scan header that asks for coefficients beyond the 64th (checked arithmetic only). *)
| cause_band : forall d rest fr s ks more, at_segment dbg rayon d0 input SOS d rest -> d_frame d = Some fr ->
    payload rest (sos_bytes s ++ more) -> scan_ok s -> scan_in_frame fr s ks ->
    dbg = true -> sp_low s = 0 -> 63 < sp_end s -> sp_start s <= sp_end s -> certain_cause dbg rayon d0 input
(** No frame header before EOI. *)
| cause_no_frame : forall d rest, at_end dbg rayon d0 input d rest -> d_frame d = None -> certain_cause dbg rayon d0 input
(** A frame with neither three nor four components. *)
| cause_components : forall d rest fr, at_end dbg rayon d0 input d rest -> d_frame d = Some fr ->
    lenZ (f_components fr) <> 3 -> lenZ (f_components fr) <> 4 -> certain_cause dbg rayon d0 input
(** Bytes after EOI. *)
| cause_trailing : forall d rest, at_end dbg rayon d0 input d rest -> rest <> [] -> certain_cause dbg rayon d0 input.

(** The causes that end in a panic unless the call stops with an error first. *)
Inductive possible_cause (dbg rayon : bool) (d0 : decoder) (input : list Z) : Prop :=
(** A scan of a frame with more than four components. *)
| cause_five_components : forall d rest fr s ks more, at_segment dbg rayon d0 input SOS d rest -> d_frame d = Some fr ->
    payload rest (sos_bytes s ++ more) -> scan_ok s -> scan_in_frame fr s ks ->
    4 < lenZ (f_components fr) -> possible_cause dbg rayon d0 input
(** A scan header that selects a Huffman table above 3. *)
| cause_selector : forall d rest fr s ks more c, at_segment dbg rayon d0 input SOS d rest -> d_frame d = Some fr ->
    payload rest (sos_bytes s ++ more) -> scan_ok s -> scan_in_frame fr s ks ->
    In c (sp_comps s) -> 3 < sc_dc c \/ 3 < sc_ac c -> possible_cause dbg rayon d0 input
(** A scan after which some coefficients of its components have not been sent yet. *)
| cause_incomplete : forall sc fr d h, at_scan dbg rayon d0 input sc fr d -> In h (s_headers sc) ->
    nth (Z.to_nat (h_index h)) (d_finished d) 0 <> 2 ^ 64 - 1 -> possible_cause dbg rayon d0 input
(** A scan that selects a Huffman table that was not defined, and that the decoder did not
    look for: it checks the DC tables only if the scan starts with coefficient 0, and the AC
    tables only if it goes beyond coefficient 1. *)
| cause_no_huffman : forall sc fr d h, at_scan dbg rayon d0 input sc fr d -> In h (s_headers sc) ->
    s_start sc <> 0 /\ undefined (d_dc d) (h_dc h) \/ s_end sc <= 1 /\ undefined (d_ac d) (h_ac h) -> possible_cause dbg rayon d0 input
(** A scan of a frame that selects a quantisation table that was not defined. *)
| cause_no_quantisation : forall sc fr d c, at_scan dbg rayon d0 input sc fr d -> In c (f_components fr) ->
    undefined (d_qt d) (c_tq c) -> possible_cause dbg rayon d0 input
(** A scan of a frame with more than ten blocks in an MCU. *)
| cause_blocks : forall sc fr d, at_scan dbg rayon d0 input sc fr d ->
    10 < fold_right Z.add 0 (map (fun c => c_h c * c_v c) (f_components fr)) -> possible_cause dbg rayon d0 input
(** A frame of width 0. *)
| cause_no_width : forall d rest fr, at_end dbg rayon d0 input d rest -> d_frame d = Some fr -> f_samples fr = 0 -> possible_cause dbg rayon d0 input
(** The last scan was not one of all components of this frame, or there was no scan. *)
| cause_planes : forall d rest fr, at_end dbg rayon d0 input d rest -> d_frame d = Some fr -> 0 < f_lines fr ->
    ~ planes_for fr (d_planes d) -> possible_cause dbg rayon d0 input
(** Four components of which three are YCbCr (C36). *)
| cause_ycck : forall d rest fr t, at_end dbg rayon d0 input d rest -> d_frame d = Some fr -> 0 < f_lines fr ->
    lenZ (f_components fr) = 4 -> d_color d = Some t -> t <> AdobeUnknown -> possible_cause dbg rayon d0 input
(** A width that cannot be doubled (C38). *)
| cause_doubling : forall d rest m pr lines samples cs c, at_end dbg rayon d0 input d rest -> d_frame d = Some (frame_of m pr lines samples cs) ->
    0 < lines -> In c cs -> cannot_double rayon lines samples cs c -> possible_cause dbg rayon d0 input.
