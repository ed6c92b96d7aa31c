(** A whole file of an interleaved sequential image (T.81 B.2), from the coefficients to the
    bytes, independent of the decoder (C45). *)
From Verif Require Import Base SpecBits SpecMarker SpecHuffman SpecBlock SpecFrame SpecSegments SpecUpsample SpecImage SpecPlane SpecScan Huffman Color Idct.

(** A marker, with [fill] fill bytes in front (B.1.1.2). *)
Definition marker_bytes (fill : nat) (code : Z) : list Z := FF (S fill) ++ [code].

(** ** Segments before the scan, in any order *)
Record frame_header := mkFH { fh_marker : Z; fh_precision : Z; fh_lines : Z; fh_samples : Z; fh_comps : list comp_spec }.
Inductive hseg :=
| HDqt (ts : list dqt_spec)
| HDht (ts : list dht_spec)
| HDri (n : Z)
| HSof (h : frame_header)
| HApp (n : Z) (payload : list Z)                            (* not APP14 *)
| HAdobe (version : Z) (flags : list Z) (transform : Z)      (* APP14 *)
| HCom (payload : list Z).
Definition hseg_code (s : hseg) : Z :=
  match s with
  | HDqt _ => 0xDB | HDht _ => 0xC4 | HDri _ => 0xDD | HSof h => 0xC0 + fh_marker h
  | HApp n _ => 0xE0 + n | HAdobe _ _ _ => 0xEE | HCom _ => 0xFE
  end.
Definition hseg_payload (s : hseg) : list Z :=
  match s with
  | HDqt ts => flat_map dqt_bytes ts
  | HDht ts => flat_map dht_bytes ts
  | HDri n => be16 n
  | HSof h => sof_bytes (fh_precision h) (fh_lines h) (fh_samples h) (fh_comps h)
  | HApp _ p | HCom p => p
  | HAdobe v fl t => adobe_bytes v fl t
  end.
Definition hseg_ok (s : hseg) : Prop :=
  match s with
  | HDqt ts => Forall dqt_ok ts
  | HDht ts => Forall dht_ok ts
  | HDri n => 0 <= n < 65536
  | HSof h => 0 <= fh_marker h <= 1 /\ header_ok (fh_lines h) (fh_samples h) (fh_comps h)
  | HApp n p => 0 <= n <= 15 /\ n <> 14 /\ bytes p
  | HAdobe v fl t => 0 <= v < 256 /\ length fl = 4%nat /\ bytes fl /\ 0 <= t <= 2
  (* the decoder looks for markers inside comments (C44) *)
  | HCom p => bytes p /\ no_marker (segment p)
  end /\ lenZ (hseg_payload s) + 2 < 65536.
(** Each segment with the number of fill bytes before its marker. *)
Definition hseg_bytes (s : nat * hseg) : list Z := marker_bytes (fst s) (hseg_code (snd s)) ++ segment (hseg_payload (snd s)).

(** What the segments define. *)
Definition dqts (l : list (nat * hseg)) : list dqt_spec := flat_map (fun s => match snd s with HDqt ts => ts | _ => [] end) l.
Definition dhts (l : list (nat * hseg)) : list dht_spec := flat_map (fun s => match snd s with HDht ts => ts | _ => [] end) l.
Definition dris (l : list (nat * hseg)) : list Z := flat_map (fun s => match snd s with HDri n => [n] | _ => [] end) l.
Definition sofs (l : list (nat * hseg)) : list frame_header := flat_map (fun s => match snd s with HSof h => [h] | _ => [] end) l.
Definition adobes (l : list (nat * hseg)) : list Z := flat_map (fun s => match snd s with HAdobe _ _ t => [t] | _ => [] end) l.

(** A component: its entry in the scan header, its Huffman tables, its quantisation table. *)
Record comp_coding (l : list (nat * hseg)) (c : comp_spec) (s : scan_comp) (t : tables) (q : list Z) : Prop := mkCC {
  cc_id : sc_id s = cs_id c;
  cc_dc : 0 <= sc_dc s <= 3;
  cc_ac : 0 <= sc_ac s <= 3;
  cc_tq : 0 <= cs_tq c <= 3;
  cc_dct : exists e, last_entry (is_slot DC (Z.to_nat (sc_dc s))) (dhts l) = Some e /\ dc_counts t = th_counts e /\ dc_values t = th_values e;
  cc_act : exists e, last_entry (is_slot AC (Z.to_nat (sc_ac s))) (dhts l) = Some e /\ ac_counts t = th_counts e /\ ac_values t = th_values e;
  cc_qt : exists e, last_entry (fun t => tq_dest t =? cs_tq c) (dqts l) = Some e /\ q = tq_values e;
}.
Inductive comp_codings (l : list (nat * hseg)) : list comp_spec -> list scan_comp -> list tables -> list (list Z) -> Prop :=
| ccs_nil : comp_codings l [] [] [] []
| ccs_cons : forall c cs s ss t ts q qs, comp_coding l c s t q -> comp_codings l cs ss ts qs ->
    comp_codings l (c :: cs) (s :: ss) (t :: ts) (q :: qs).

(** The file: [segs] come before the scan, [post] after it. *)
Definition file_bytes (segs : list (nat * hseg)) (fill1 fill2 : nat) (s : scan_spec) (data : list Z) (post : list (nat * hseg)) (fill3 : nat) : list Z :=
  marker_bytes fill1 0xD8 ++ flat_map hseg_bytes segs ++ marker_bytes fill2 0xDA ++ segment (sos_bytes s) ++ data ++
  flat_map hseg_bytes post ++ marker_bytes fill3 0xD9.
(** What may follow the scan: anything but another frame header (or scan). *)
Definition post_ok (post : list (nat * hseg)) : Prop := Forall (fun s => hseg_ok (snd s)) post /\ sofs post = [].

(** ** The samples *)
(** The block that contains the sample at row [r], column [c] of the [k]-th component, in an
    image with [w] MCUs per line. *)
Definition q_at (ms : list mcu) (w : Z) (k : nat) (h v r c : Z) : qblock :=
  nth (Z.to_nat (block_no h v r c)) (nth k (nth (Z.to_nat (mcu_row v r * w + mcu_col h c)) ms []) []) (mkQ 0 []).

(** The plane of the [k]-th component consists of the inverse transforms of its blocks with
    quantisation values [q] (zigzag order). *)
Definition plane_from (lines samples : Z) (cs : list comp_spec) (ms : list mcu) (k : nat) (c : comp_spec) (q p : list Z) : Prop :=
  plane_for lines samples cs c p /\
  forall y x, 0 <= y < plane_rows lines cs c -> 0 <= x < plane_stride samples cs c ->
    exists blk qt rows,
      (let b := q_at ms (mcus samples (largest (map cs_h cs))) k (cs_h c) (cs_v c) y x in block_values blk (q_dc b) (q_ac b)) /\
      natural_order qt q /\ (forall dbg, idct_block_rows dbg blk qt = Ok rows) /\
      px p (plane_stride samples cs c) y x = in_block rows y x.

(** ** An encoded image *)
(** The segments [segs] define one frame [h] and, for its components in frame order, the scan
    header entries [ss], Huffman tables [ts] and quantisation tables [qs]; [data] encodes the
    MCUs [ms] of the image, with the restart interval of the last DRI.  At most four
    components with distinct identifiers and ten blocks per MCU (B.2.3). *)
Record encodes (segs : list (nat * hseg)) (h : frame_header) (ss : list scan_comp) (ts : list tables) (qs : list (list Z))
       (ms : list mcu) (data : list Z) : Prop := mkEnc {
  en_segs : Forall (fun s => hseg_ok (snd s)) segs;
  en_frame : sofs segs = [h];
  en_ids : NoDup (map cs_id (fh_comps h));
  en_four : lenZ (fh_comps h) <= 4;
  en_ten : (blocks_before (fh_comps h) (length (fh_comps h)) <= 10)%nat;
  en_codings : comp_codings segs (fh_comps h) ss ts qs;
  en_mcus : Forall (mcu_shape (fh_comps h)) ms;
  en_count : lenZ ms = mcus (fh_lines h) (largest (map cs_v (fh_comps h))) * mcus (fh_samples h) (largest (map cs_h (fh_comps h)));
  en_data : scan_data ts (last (dris segs) 0) 0 ms data;
}.
