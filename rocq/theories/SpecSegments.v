(** The bytes of marker segments (T.81 B.2), independent of the parsers. *)
From Coq Require Import Sorted.
From Verif Require Import Base SpecBits SpecFrame SpecHuffman SpecBlock Huffman Color Types.

(** Two bytes, most significant first. *)
Definition be16 (n : Z) : list Z := [n / 256; n mod 256].
Definition nibbles (a b : Z) : Z := 16 * a + b.
Definition nibble (x : Z) : Prop := 0 <= x < 16.

(** A segment: its length (which counts itself) and its payload. *)
Definition segment (payload : list Z) : list Z := be16 (lenZ payload + 2) ++ payload.

(** ** Frame header (B.2.2) *)
Record comp_spec := mkCS { cs_id : Z; cs_h : Z; cs_v : Z; cs_tq : Z }.
Definition comp_bytes (c : comp_spec) : list Z := [cs_id c; nibbles (cs_h c) (cs_v c); cs_tq c].
Definition sof_bytes (precision lines samples : Z) (cs : list comp_spec) : list Z :=
  [precision] ++ be16 lines ++ be16 samples ++ [lenZ cs] ++ flat_map comp_bytes cs.
(** Sampling factors the format allows. *)
Definition factors_ok (c : comp_spec) : Prop := 1 <= cs_h c <= 4 /\ 1 <= cs_v c <= 4.
Definition comp_range (c : comp_spec) : Prop := is_byte (cs_id c) /\ nibble (cs_h c) /\ nibble (cs_v c) /\ is_byte (cs_tq c).

(** A header with at least one component and allowed sampling factors. *)
Record header_ok (lines samples : Z) (cs : list comp_spec) : Prop := mkHeaderOk {
  ho_lines : 0 <= lines < 65536;
  ho_samples : 0 <= samples < 65536;
  ho_some : cs <> [];
  ho_few : lenZ cs < 256;
  ho_range : Forall comp_range cs;
  ho_factors : Forall factors_ok cs;
}.

(** The frame a header stands for, with the geometry of [SpecFrame]. *)
Definition frame_of (m precision lines samples : Z) (cs : list comp_spec) : frame :=
  let hm := largest (map cs_h cs) in
  let vm := largest (map cs_v cs) in
  let mw := mcus samples hm in
  let mh := mcus lines vm in
  mkFrame m precision lines samples (mkDims mw mh)
    (map (fun c => mkComponent (cs_id c) (cs_h c) (cs_v c) (cs_tq c)
            (cs_h c * cs_v c)                                   (* blocks per MCU *)
            (8 * (mw * cs_h c))                                 (* samples per line of the plane *)
            (mkDims (8 * cs_h c) (8 * cs_v c))                  (* samples per MCU *)
            (64 * (cs_h c * cs_v c) * mw)                       (* samples per line of MCUs *)
            (mkDims (mw * cs_h c) (mh * cs_v c))                (* blocks *)
            (mkDims (extent samples (cs_h c) hm) (extent lines (cs_v c) vm))) cs).

(** The last element of a list that satisfies [sel]. *)
Fixpoint last_entry {A} (sel : A -> bool) (ts : list A) : option A :=
  match ts with
  | [] => None
  | t :: r => match last_entry sel r with Some x => Some x | None => if sel t then Some t else None end
  end.

(** ** Huffman tables (B.2.4.2) *)
Record dht_spec := mkDht { th_class : table_class; th_dest : Z; th_counts : list Z; th_values : list Z }.
Definition class_code (c : table_class) : Z := match c with DC => 0 | AC => 1 end.
Definition dht_bytes (t : dht_spec) : list Z :=
  nibbles (class_code (th_class t)) (th_dest t) :: th_counts t ++ th_values t.

(** A table definition the format allows: its codes exist and fit (annex C). *)
Definition dht_ok (t : dht_spec) : Prop :=
  0 <= th_dest t <= 3 /\ counts_ok (th_counts t) /\ bytes (th_values t) /\
  lenZ (th_values t) = total_codes (th_counts t) /\
  1 <= total_codes (th_counts t) <= 256 /\ kraft (th_counts t) <= 2 ^ 16.

(** After the definitions [ts] every slot holds the table built from the last definition for
    it, or what it held before. *)
Definition is_slot (c : table_class) (k : nat) (t : dht_spec) : bool :=
  match c, th_class t with DC, DC | AC, AC => th_dest t =? Z.of_nat k | _, _ => false end.
Definition dc_slots (dbg : bool) (before after : list (option base_table)) (ts : list dht_spec) : Prop :=
  length after = 4%nat /\ forall k, (k < 4)%nat ->
    match last_entry (is_slot DC k) ts with
    | Some t => exists tab, nth k after None = Some tab /\ table_new dbg (th_counts t) (th_values t) = Ok tab
    | None => nth k after None = nth k before None
    end.
Definition ac_slots (dbg : bool) (before after : list (option ac_table)) (ts : list dht_spec) : Prop :=
  length after = 4%nat /\ forall k, (k < 4)%nat ->
    match last_entry (is_slot AC k) ts with
    | Some t => exists tab, nth k after None = Some tab /\ ac_new dbg (th_counts t) (th_values t) = Ok tab
    | None => nth k after None = nth k before None
    end.

Definition tables_set (d : decoder) (dc : list (option base_table)) (ac : list (option ac_table)) : decoder :=
  set_ac (set_dc d dc) ac.

(** ** Quantisation tables (B.2.4.1): the values in zigzag order, one or two bytes each. *)
Record dqt_spec := mkDqt { tq_prec : Z; tq_dest : Z; tq_values : list Z }.
Definition dqt_bytes (t : dqt_spec) : list Z :=
  nibbles (tq_prec t) (tq_dest t) :: (if tq_prec t =? 0 then tq_values t else flat_map be16 (tq_values t)).
Definition dqt_ok (t : dqt_spec) : Prop :=
  0 <= tq_prec t <= 1 /\ 0 <= tq_dest t <= 3 /\ length (tq_values t) = 64%nat /\
  Forall (fun v => 0 <= v < (if tq_prec t =? 0 then 256 else 65536)) (tq_values t).
(** [q] holds the values at their natural positions. *)
Definition natural_order (q values : list Z) : Prop :=
  length q = 64%nat /\ forall k, (k < 64)%nat -> nth (natural k) q 0 = nth k values 0.

(** After the tables [ts] every destination holds the last table for it, or what it held. *)
Definition quant_slots (before after : list (option (list Z))) (ts : list dqt_spec) : Prop :=
  length after = 4%nat /\ forall k, (k < 4)%nat ->
    match last_entry (fun t => tq_dest t =? Z.of_nat k) ts with
    | Some t => exists q, nth k after None = Some q /\ natural_order q (tq_values t)
    | None => nth k after None = nth k before None
    end.

(** ** Scan header (B.2.3) *)
Record scan_comp := mkSC { sc_id : Z; sc_dc : Z; sc_ac : Z }.
Definition scan_comp_ok (c : scan_comp) : Prop := is_byte (sc_id c) /\ nibble (sc_dc c) /\ nibble (sc_ac c).
Definition scan_comp_bytes (c : scan_comp) : list Z := [sc_id c; nibbles (sc_dc c) (sc_ac c)].
Record scan_spec := mkSpS { sp_comps : list scan_comp; sp_start : Z; sp_end : Z; sp_high : Z; sp_low : Z }.
Definition sos_bytes (s : scan_spec) : list Z :=
  lenZ (sp_comps s) :: flat_map scan_comp_bytes (sp_comps s)
    ++ [sp_start s; sp_end s; nibbles (sp_high s) (sp_low s)].
Definition scan_ok (s : scan_spec) : Prop :=
  Forall scan_comp_ok (sp_comps s) /\ is_byte (sp_start s) /\ is_byte (sp_end s) /\ nibble (sp_high s) /\ nibble (sp_low s).
(** The first component of the frame with identifier [id] is number [k]. *)
Definition component_at (fr : frame) (id k : Z) : Prop :=
  0 <= k /\ nth_error (map c_id (f_components fr)) (Z.to_nat k) = Some id /\
  forall j, (j < Z.to_nat k)%nat -> nth_error (map c_id (f_components fr)) j <> Some id.
(** One to four components, all in the frame, in strictly increasing frame order [ks]. *)
Definition scan_in_frame (fr : frame) (s : scan_spec) (ks : list Z) : Prop :=
  1 <= lenZ (sp_comps s) <= 4 /\ Forall2 (component_at fr) (map sc_id (sp_comps s)) ks /\ Sorted Z.lt ks.

(** The scan a header stands for. *)
Definition header_of (p : scan_comp * Z) : scan_header := mkHeader (snd p) (sc_dc (fst p)) (sc_ac (fst p)).
Definition scan_of (s : scan_spec) (ks : list Z) : scan :=
  mkScan (map header_of (combine (sp_comps s) ks)) (sp_start s) (sp_end s) (sp_high s) (sp_low s).

(** ** APP14 *)
Definition adobe_bytes (version : Z) (flags : list Z) (transform : Z) : list Z :=
  [65; 100; 111; 98; 101] ++ be16 version ++ flags ++ [transform].
(** The colour transform a transform code names. *)
Definition transform_of (t : Z) : option adobe :=
  if t =? 0 then Some AdobeUnknown else if t =? 1 then Some AdobeYCbCr else if t =? 2 then Some AdobeYCCK else None.

(** The arrays of the decoder have four slots (fixed-size arrays in the code). *)
Definition four_slots (d : decoder) : Prop :=
  length (d_dc d) = 4%nat /\ length (d_ac d) = 4%nat /\ length (d_qt d) = 4%nat.
