(** Segments with malformed contents (C86). *)
From Coq Require Import Sorted.
From Verif Require Import Base SpecBits SpecHuffman SpecSegments.

(** The markers that are followed by a segment (frame headers, DHT, SOS, DQT, DRI, APPn); for
    this decoder a comment is not one of them (C44). *)
Definition segment_code (code : Z) : Prop :=
  0xC0 <= code <= 0xC2 \/ code = 0xC4 \/ 0xDA <= code <= 0xDB \/ code = 0xDD \/ 0xE0 <= code <= 0xEF.

(** The contents that the format allows for the segment of a marker.  After a frame header, scan
    header, restart interval or APP14 the decoder tolerates further bytes. *)
Definition well_formed (code : Z) (payload : list Z) : Prop :=
  (0xC0 <= code <= 0xC2 -> exists precision lines samples cs extra, header_ok lines samples cs /\ payload = sof_bytes precision lines samples cs ++ extra) /\
  (code = 0xC4 -> exists ts, Forall dht_ok ts /\ payload = flat_map dht_bytes ts) /\
  (code = 0xDA -> exists s extra, scan_ok s /\ 1 <= lenZ (sp_comps s) <= 4 /\ payload = sos_bytes s ++ extra) /\
  (code = 0xDB -> exists ts, Forall dqt_ok ts /\ payload = flat_map dqt_bytes ts) /\
  (code = 0xDD -> exists n extra, 0 <= n < 65536 /\ payload = be16 n ++ extra) /\
  (code = 0xEE -> exists version flags t extra, 0 <= version < 256 /\ length flags = 4%nat /\ 0 <= t <= 2 /\ payload = adobe_bytes version flags t ++ extra).

(** Malformed contents on which the decoder panics (C57): a frame header without components, and
    a Huffman table without codes (in a debug build also with more than 256). *)
Definition crashes (dbg : bool) (code : Z) (payload : list Z) : Prop :=
  (0xC0 <= code <= 0xC2 /\ nth 5 payload 1 = 0) \/
  (code = 0xC4 /\ exists ts t more, payload = flat_map dht_bytes ts ++ dht_bytes t ++ more /\ Forall dht_ok ts /\
     0 <= th_dest t <= 3 /\ counts_ok (th_counts t) /\ lenZ (th_values t) = total_codes (th_counts t) /\
     (total_codes (th_counts t) = 0 \/ dbg = true /\ 256 < total_codes (th_counts t))).

(** A scan header names one to four components of the frame, in the order of the frame: [ks] are
    their numbers (of several components with the same identifier the first counts). *)
Definition names (cs : list comp_spec) (s : scan_spec) : Prop :=
  1 <= lenZ (sp_comps s) <= 4 /\
  exists ks, Sorted lt ks /\ Forall2 (fun c k => nth_error (map cs_id cs) k = Some (sc_id c) /\ forall j, (j < k)%nat -> nth_error (map cs_id cs) j <> Some (sc_id c)) (sp_comps s) ks.
