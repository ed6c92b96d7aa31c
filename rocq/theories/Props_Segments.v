(** C24, C25, C27-C31: marker segments.  A step at [PcSegment m] processes the segment of
    marker [m]; [segment payload] is the length field followed by the payload. *)
From Coq Require Import Sorted.
From Verif Require Import Base SpecBits SpecFrame SpecHuffman SpecBlock SpecSegments SpecOutcome Huffman Marker Color Types
  Tactics Biterator Parsers Decode SegmentsP.

(** C24.  The outcome of a segment does not depend on the bytes [rest] after it, and exactly
    the segment is consumed; the bit buffer is not touched. *)
Theorem C24_segment_isolated :
  forall (dbg rerun rayon : bool) (m : marker) (d : decoder) (payload : list Z) (bits count : Z),
    no_segment m = false ->
    exists d' r, forall rest,
      step dbg rerun rayon (PcSegment m) d (mkBiter (segment payload ++ rest) bits count) =
        (d', mkBiter rest bits count, r).
Proof. exact segment_isolated. Qed.
Print Assumptions C24_segment_isolated.

(** An incomplete segment changes nothing and consumes nothing. *)
Theorem C24_incomplete_segment :
  forall (dbg rerun rayon : bool) (m : marker) (d : decoder) (n : Z) (data : list Z) (bits count : Z),
    no_segment m = false -> 2 <= n < 65536 -> lenZ data < n - 2 ->
    let b := mkBiter (be16 n ++ data) bits count in
    step dbg rerun rayon (PcSegment m) d b = (d, b, SStop (RNeed (PcSegment m))).
Proof. exact segment_incomplete. Qed.
Print Assumptions C24_incomplete_segment.

Example C24_case :
  step true false false (PcSegment (APP 1)) decoder_default (mkBiter (segment [255; 217; 7] ++ [255; 216]) 5 3) =
    (decoder_default, mkBiter [255; 216] 5 3, SNext PcMarker) /\
  segment [255; 217; 7] = [0; 5; 255; 217; 7].
Proof. split; reflexivity. Qed.

(** A length below two, which does not even count itself, is no error: the debug build
    panics and the release build takes 65535 bytes as the segment. *)
Theorem C24_short_length_refuted :
  exists (m : marker) (n : Z), no_segment m = false /\ 0 <= n < 2 /\
    forall (d : decoder) (data rest : list Z) (bits count : Z),
      step true false false (PcSegment m) d (mkBiter (be16 n ++ data) bits count) =
        (d, mkBiter (be16 n ++ data) bits count, SStop (RPanic POverflow)) /\
      (lenZ data = 65535 ->
       step false false false (PcSegment m) d (mkBiter (be16 n ++ data ++ rest) bits count) =
         (d, mkBiter rest bits count, SNext PcMarker)).
Proof. exact short_segment. Qed.
Print Assumptions C24_short_length_refuted.

(** C25. *)
Theorem C25_quantisation_tables :
  forall (dbg rerun rayon : bool) (d : decoder) (ts : list dqt_spec) (rest : list Z) (bits count : Z),
    four_slots d -> Forall dqt_ok ts ->
    exists l,
      step dbg rerun rayon (PcSegment DQT) d (mkBiter (segment (flat_map dqt_bytes ts) ++ rest) bits count) =
        (set_qt d l, mkBiter rest bits count, SNext PcMarker) /\
      quant_slots (d_qt d) l ts.
Proof. exact dqt_segment. Qed.
Print Assumptions C25_quantisation_tables.

Theorem C25_only_well_formed :
  forall (dbg rerun rayon : bool) (d : decoder) (payload rest : list Z) (bits count : Z) (d' : decoder) (b' : biter),
    four_slots d -> bytes payload ->
    step dbg rerun rayon (PcSegment DQT) d (mkBiter (segment payload ++ rest) bits count) = (d', b', SNext PcMarker) ->
    exists ts, Forall dqt_ok ts /\ payload = flat_map dqt_bytes ts.
Proof. exact dqt_segment_only. Qed.
Print Assumptions C25_only_well_formed.

Theorem C25_reject :
  forall (dbg rerun rayon : bool) (d : decoder) (ts : list dqt_spec) (pq tq : Z) (r rest : list Z) (bits count : Z),
    four_slots d -> Forall dqt_ok ts -> nibble pq -> nibble tq -> 1 < pq \/ 3 < tq ->
    exists l e,
      step dbg rerun rayon (PcSegment DQT) d
        (mkBiter (segment (flat_map dqt_bytes ts ++ nibbles pq tq :: r) ++ rest) bits count) =
        (set_qt d l, mkBiter rest bits count, SStop (RFail e)).
Proof. exact dqt_segment_bad. Qed.
Print Assumptions C25_reject.

(** Two tables for destination 2, one of them with 16-bit values, and one for destination 0. *)
Definition ex_dqt : list dqt_spec :=
  [mkDqt 0 2 (repeat 7 64); mkDqt 1 2 (zrange 64); mkDqt 0 0 (repeat 3 64)].
Example C25_case :
  Forall dqt_ok ex_dqt /\ four_slots decoder_default /\
  match step true false false (PcSegment DQT) decoder_default (mkBiter (segment (flat_map dqt_bytes ex_dqt) ++ [255]) 0 0) with
  | (d, b, SNext PcMarker) =>
      match nth 2 (d_qt d) None with Some q => firstn 10 q = [0; 1; 5; 6; 14; 15; 27; 28; 2; 4] | None => False end /\
      nth 0 (d_qt d) None = Some (repeat 3 64) /\ nth 1 (d_qt d) None = None /\ bi_input b = [255]
  | _ => False
  end.
Proof.
  assert (R : forall p q v, 0 <= p <= 1 -> 0 <= q <= 3 -> 0 <= v < 256 -> dqt_ok (mkDqt p q (repeat v 64))).
  { intros p q v Hp Hq Hv. unfold dqt_ok. cbn [tq_prec tq_dest tq_values].
    split; [auto|]. split; [auto|]. split; [reflexivity|].
    apply Forall_forall. intros x Hx. apply repeat_spec in Hx. subst x. destruct (p =? 0); lia. }
  split; [|split; [repeat split|vm_compute; auto]].
  constructor; [apply R; lia|]. constructor; [|constructor; [apply R; lia|constructor]].
  unfold dqt_ok. cbn [tq_prec tq_dest tq_values]. split; [lia|]. split; [lia|]. split; [reflexivity|].
  apply Forall_forall. intros x Hx. apply zrange_in in Hx. cbn. lia.
Qed.

(** C27.  [frame_of] uses the exact integer geometry of [SpecFrame]. *)
Theorem C27_frame_geometry :
  forall (dbg rerun rayon : bool) (m : Z) (d : decoder) (precision lines samples : Z) (cs : list comp_spec)
         (extra rest : list Z) (bits count : Z),
    header_ok lines samples cs ->
    step dbg rerun rayon (PcSegment (SOF m)) d
      (mkBiter (segment (sof_bytes precision lines samples cs ++ extra) ++ rest) bits count) =
      (set_frame d (Some (frame_of m precision lines samples cs)), mkBiter rest bits count, SNext PcMarker).
Proof. exact sof_segment. Qed.
Print Assumptions C27_frame_geometry.

(** A 65535 x 17 image with factors 3x1, 1x2 and 2x4. *)
Definition ex_comps : list comp_spec := [mkCS 1 3 1 0; mkCS 2 1 2 1; mkCS 3 2 4 1].
Example C27_case :
  header_ok 17 65535 ex_comps /\
  frame_of 0 8 17 65535 ex_comps =
    mkFrame 0 8 17 65535 (mkDims 2731 1)
      [mkComponent 1 3 1 0 3 65544 (mkDims 24 8) 524352 (mkDims 8193 1) (mkDims 65535 5);
       mkComponent 2 1 2 1 2 21848 (mkDims 8 16) 349568 (mkDims 2731 2) (mkDims 21845 9);
       mkComponent 3 2 4 1 8 43696 (mkDims 16 32) 1398272 (mkDims 5462 4) (mkDims 43690 17)].
Proof.
  split; [|reflexivity]. constructor; try lia; try discriminate; try reflexivity;
  repeat constructor; cbn; try lia; unfold is_byte, nibble; cbn; lia.
Qed.

(** C28.  Acceptance. *)
Theorem C28_accept_iff :
  forall (dbg rerun rayon : bool) (m : Z) (d : decoder) (payload rest : list Z) (bits count : Z),
    bytes payload ->
    ((exists d', step dbg rerun rayon (PcSegment (SOF m)) d (mkBiter (segment payload ++ rest) bits count) =
        (d', mkBiter rest bits count, SNext PcMarker)) <->
     exists precision lines samples cs extra,
       header_ok lines samples cs /\ payload = sof_bytes precision lines samples cs ++ extra).
Proof. exact sof_segment_iff. Qed.
Print Assumptions C28_accept_iff.

(** Rejection is an error that leaves the decoder alone.  Missing: headers announcing no
    component at all (sixth byte 0), which panic ([C28_no_components_refuted]). *)
Theorem C28_reject_error_partial :
  forall (dbg rerun rayon : bool) (m : Z) (d : decoder) (payload rest : list Z) (bits count : Z),
    bytes payload -> nth 5 payload 1 <> 0 ->
    ~ (exists precision lines samples cs extra,
         header_ok lines samples cs /\ payload = sof_bytes precision lines samples cs ++ extra) ->
    exists r, step dbg rerun rayon (PcSegment (SOF m)) d (mkBiter (segment payload ++ rest) bits count) =
      (d, mkBiter rest bits count, r) /\ rejected r.
Proof. exact sof_segment_reject. Qed.
Print Assumptions C28_reject_error_partial.

Example C28_case :
  step true false false (PcSegment (SOF 0)) decoder_default
    (mkBiter (segment (sof_bytes 8 16 16 [mkCS 1 5 1 0])) 0 0) =
    (decoder_default, mkBiter [] 0 0, SStop (RFail ESampling)).
Proof. reflexivity. Qed.

Theorem C28_no_components_refuted :
  exists payload, bytes payload /\ forall (dbg : bool) (d : decoder) (rest : list Z),
    step dbg false false (PcSegment (SOF 0)) d (mkBiter (segment payload ++ rest) 0 0) =
      (d, mkBiter rest 0 0, SStop (RPanic PUnwrap)).
Proof.
  exists (sof_bytes 8 16 16 []). split; [cbn; repeat constructor; unfold is_byte; lia|]. intros; rewrite step_segment by reflexivity; reflexivity.
Qed.
Print Assumptions C28_no_components_refuted.

(** C29.  [ks] are the frame positions of the components the scan names. *)
Theorem C29_accept_iff :
  forall (fr : frame) (payload : list Z),
    lenZ (f_components fr) <= 256 -> bytes payload ->
    ((exists sc r, sos_segment (Some fr) payload = Ok (sc, r)) <->
     exists s ks extra, scan_ok s /\ scan_in_frame fr s ks /\ payload = sos_bytes s ++ extra).
Proof. exact sos_header_iff. Qed.
Print Assumptions C29_accept_iff.

Theorem C29_parsed_header :
  forall (fr : frame) (s : scan_spec) (ks extra : list Z),
    lenZ (f_components fr) <= 256 -> scan_ok s -> scan_in_frame fr s ks ->
    sos_segment (Some fr) (sos_bytes s ++ extra) = Ok (scan_of s ks, extra).
Proof. exact sos_header_scan. Qed.
Print Assumptions C29_parsed_header.

(** Every other header is an error, and so is a scan before any frame. *)
Theorem C29_reject :
  forall (dbg rerun rayon : bool) (d : decoder) (fr : frame) (payload rest : list Z) (bits count : Z),
    d_frame d = Some fr -> lenZ (f_components fr) <= 256 -> bytes payload ->
    ~ (exists s ks extra, scan_ok s /\ scan_in_frame fr s ks /\ payload = sos_bytes s ++ extra) ->
    exists r, step dbg rerun rayon (PcSegment SOS) d (mkBiter (segment payload ++ rest) bits count) =
      (d, mkBiter rest bits count, r) /\ rejected r.
Proof. exact sos_segment_rejected. Qed.
Print Assumptions C29_reject.

Theorem C29_no_frame :
  forall (dbg rerun rayon : bool) (d : decoder) (payload rest : list Z) (bits count : Z),
    d_frame d = None -> bytes payload ->
    exists d' r, step dbg rerun rayon (PcSegment SOS) d (mkBiter (segment payload ++ rest) bits count) =
      (d', mkBiter rest bits count, r) /\ rejected r.
Proof. exact sos_no_frame. Qed.
Print Assumptions C29_no_frame.

Definition ex_frame : frame := frame_of 0 8 17 65535 ex_comps.
Example C29_case :
  scan_in_frame ex_frame (mkSpS [mkSC 1 0 1; mkSC 3 1 2] 0 63 0 0) [0; 2] /\
  sos_segment (Some ex_frame) (sos_bytes (mkSpS [mkSC 1 0 1; mkSC 3 1 2] 0 63 0 0)) =
    Ok (mkScan [mkHeader 0 0 1; mkHeader 2 1 2] 0 63 0 0, []) /\
  sos_segment (Some ex_frame) (sos_bytes (mkSpS [mkSC 3 0 1; mkSC 1 1 2] 0 63 0 0)) = Fail ESosOrder /\
  sos_segment (Some ex_frame) (sos_bytes (mkSpS [mkSC 3 0 1; mkSC 3 1 2] 0 63 0 0)) = Fail ESosDuplicate.
Proof.
  split; [|vm_compute; auto]. split; [cbn; lia|]. split.
  - constructor; [|constructor; [|constructor]].
    + split; [lia|]. split; [reflexivity|]. intros j Hj. change (Z.to_nat 0) with 0%nat in Hj. lia.
    + split; [lia|]. split; [reflexivity|]. intros j Hj. change (Z.to_nat 2) with 2%nat in Hj.
      destruct j as [|[|j]]; [discriminate|discriminate|lia].
  - repeat constructor.
Qed.

(** C30. *)
Theorem C30_huffman_slots :
  forall (dbg rerun rayon : bool) (d : decoder) (ts : list dht_spec) (rest : list Z) (bits count : Z),
    four_slots d -> Forall dht_ok ts ->
    exists dc ac,
      step dbg rerun rayon (PcSegment DHT) d (mkBiter (segment (flat_map dht_bytes ts) ++ rest) bits count) =
        (tables_set d dc ac, mkBiter rest bits count, SNext PcMarker) /\
      dc_slots dbg (d_dc d) dc ts /\ ac_slots dbg (d_ac d) ac ts.
Proof. exact dht_segment. Qed.
Print Assumptions C30_huffman_slots.

Theorem C30_only_well_formed :
  forall (dbg rerun rayon : bool) (d : decoder) (payload rest : list Z) (bits count : Z) (d' : decoder) (b' : biter),
    bytes payload ->
    step dbg rerun rayon (PcSegment DHT) d (mkBiter (segment payload ++ rest) bits count) = (d', b', SNext PcMarker) ->
    exists ts, Forall dht_ok ts /\ payload = flat_map dht_bytes ts.
Proof. exact dht_segment_only. Qed.
Print Assumptions C30_only_well_formed.

Definition ex_dht : list dht_spec :=
  [mkDht DC 1 ([1; 1; 1] ++ repeat 0 13) [0; 2; 3]; mkDht AC 1 ([1; 1] ++ repeat 0 14) [1; 0];
   mkDht DC 1 ([0; 2] ++ repeat 0 14) [5; 6]].
Example C30_case :
  Forall dht_ok ex_dht /\
  match step true false false (PcSegment DHT) decoder_default (mkBiter (segment (flat_map dht_bytes ex_dht) ++ [255]) 0 0) with
  | (d, b, SNext PcMarker) =>
      match d_dc d, d_ac d with
      | [None; Some t; None; None], [None; Some u; None; None] =>
          firstn 2 (t_values t) = [5; 6] /\ firstn 2 (t_values (ac_table_base u)) = [1; 0]
      | _, _ => False
      end
  | _ => False
  end.
Proof.
  split; [|vm_compute; auto].
  repeat (apply Forall_cons; [split; [cbn; lia|split; [split; [reflexivity|]; repeat constructor; unfold is_byte; lia|
    split; [repeat constructor; unfold is_byte; lia|split; [reflexivity|split; [cbn; lia|vm_compute; discriminate]]]]]|]).
  constructor.
Qed.

(** C31. *)
Theorem C31_app_ignored :
  forall (dbg rerun rayon : bool) (n : Z) (d : decoder) (payload rest : list Z) (bits count : Z),
    n <> 14 ->
    step dbg rerun rayon (PcSegment (APP n)) d (mkBiter (segment payload ++ rest) bits count) =
      (d, mkBiter rest bits count, SNext PcMarker).
Proof. exact app_segment. Qed.
Print Assumptions C31_app_ignored.

Theorem C31_adobe :
  forall (dbg rerun rayon : bool) (d : decoder) (version : Z) (flags : list Z) (t : Z) (a : adobe)
         (extra rest : list Z) (bits count : Z),
    0 <= version < 256 -> length flags = 4%nat -> transform_of t = Some a ->
    step dbg rerun rayon (PcSegment (APP 14)) d
      (mkBiter (segment (adobe_bytes version flags t ++ extra) ++ rest) bits count) =
      (set_color d (Some a), mkBiter rest bits count, SNext PcMarker).
Proof. exact adobe_segment. Qed.
Print Assumptions C31_adobe.

(** Any other APP14 segment is an error that leaves the decoder alone. *)
Theorem C31_adobe_only :
  forall (dbg rerun rayon : bool) (d : decoder) (payload rest : list Z) (bits count : Z),
    bytes payload ->
    (exists version flags t a extra, 0 <= version < 256 /\ length flags = 4%nat /\ transform_of t = Some a /\
       payload = adobe_bytes version flags t ++ extra) \/
    exists r, step dbg rerun rayon (PcSegment (APP 14)) d (mkBiter (segment payload ++ rest) bits count) =
      (d, mkBiter rest bits count, r) /\ rejected r.
Proof. exact adobe_only. Qed.
Print Assumptions C31_adobe_only.

Theorem C31_restart_interval :
  forall (dbg rerun rayon : bool) (d : decoder) (n : Z) (extra rest : list Z) (bits count : Z),
    step dbg rerun rayon (PcSegment DRI) d (mkBiter (segment (be16 n ++ extra) ++ rest) bits count) =
      (set_restart d n, mkBiter rest bits count, SNext PcMarker).
Proof. exact dri_segment. Qed.
Print Assumptions C31_restart_interval.

Example C31_case :
  transform_of 2 = Some AdobeYCCK /\
  step true false false (PcSegment (APP 14)) decoder_default
    (mkBiter (segment (adobe_bytes 100 [0; 0; 0; 0] 2) ++ [1]) 0 0) =
    (set_color decoder_default (Some AdobeYCCK), mkBiter [1] 0 0, SNext PcMarker).
Proof. split; reflexivity. Qed.
