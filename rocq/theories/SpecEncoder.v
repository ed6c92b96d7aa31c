(** An encoder (T.81 F.1), written as a function: from the quantised coefficients of any image
    to the bytes of a file (C70).  It is not part of the modelled program; it shows that the
    files of SpecFile.v exist for every image, and makes decoding after encoding a statement
    about functions. *)
From Verif Require Import Base SpecBits SpecMarker SpecHuffman SpecBlock SpecFrame SpecSegments SpecScan SpecFile Huffman.

(** An image: size, sampling factors (h, v) and quantisation table (zigzag order) of every
    component, MCUs in raster order, transform byte of the Adobe segment if there is one, and
    the number of MCUs between restart markers (0: none). *)
Record image := mkImage {
  im_lines : Z; im_samples : Z; im_factors : list (Z * Z); im_quant : list (list Z); im_mcus : list mcu;
  im_transform : option Z; im_restart : Z }.

(** ** Tables *)
(** DC: categories 0..11 with codes of four bits.  AC: all pairs of a run 0..15 and a category
    1..15, end of block and sixteen zeros, with codes of eight bits. *)
Definition enc_dc : dht_spec := mkDht DC 0 ([0; 0; 0; 12] ++ repeat 0 12) (zrange 12).
Definition enc_acs : list Z := 0 :: 240 :: flat_map (fun r => map (fun s => 16 * r + s + 1) (zrange 15)) (zrange 16).
Definition enc_ac : dht_spec := mkDht AC 0 (repeat 0 7 ++ [242] ++ repeat 0 8) enc_acs.
Definition enc_ts : tables := mkTables (th_counts enc_dc) (th_values enc_dc) (th_counts enc_ac) (th_values enc_ac).

(** ** Entropy coding *)
Fixpoint position (s : Z) (values : list Z) : nat :=
  match values with [] => 0%nat | v :: r => if v =? s then 0%nat else S (position s r) end.
Definition enc_symbol (t : dht_spec) (s : symbol) : list bool := nth (position (fst s) (th_values t)) (canonical (th_counts t)) [] ++ snd s.
Definition enc_block (pred : Z) (q : qblock) : list bool :=
  enc_symbol enc_dc (dc_symbol (q_dc q - pred)) ++ flat_map (enc_symbol enc_ac) (ac_symbols 0 (q_ac q)).
(** The blocks of a component in an MCU, and the predictor after them. *)
Fixpoint enc_comp (pred : Z) (qs : list qblock) : list bool * Z :=
  match qs with
  | [] => ([], pred)
  | q :: r => let '(b, p) := enc_comp (q_dc q) r in (enc_block pred q ++ b, p)
  end.
Fixpoint enc_mcu (preds : list Z) (m : mcu) : list bool * list Z :=
  match preds, m with
  | p :: ps, qs :: r => let '(b1, p') := enc_comp p qs in let '(b2, ps') := enc_mcu ps r in (b1 ++ b2, p' :: ps')
  | _, _ => ([], [])
  end.
Fixpoint enc_mcus (preds : list Z) (ms : list mcu) : list bool :=
  match ms with [] => [] | m :: r => let '(b, preds') := enc_mcu preds m in b ++ enc_mcus preds' r end.
(** Bits to bytes; 1 bits fill the last byte. *)
Fixpoint pack (bs : list bool) : list Z :=
  match bs with
  | b0 :: b1 :: b2 :: b3 :: b4 :: b5 :: b6 :: b7 :: r => of_bits [b0; b1; b2; b3; b4; b5; b6; b7] :: pack r
  | [] => []
  | _ => [of_bits (bs ++ repeat true (8 - length bs))]
  end.
Definition enc_interval (n : nat) (ms : list mcu) : list Z := stuff (pack (enc_mcus (repeat 0 n) ms)).
(** Restart intervals of [r] MCUs; [k] counts the markers. *)
Fixpoint enc_scan (fuel : nat) (n : nat) (r k : Z) (ms : list mcu) : list Z :=
  match fuel with
  | O => []
  | S fuel =>
      if (r =? 0) || (lenZ ms <=? r) then enc_interval n ms
      else enc_interval n (firstn (Z.to_nat r) ms) ++ [255; 0xD0 + k] ++ enc_scan fuel n r ((k + 1) mod 8) (skipn (Z.to_nat r) ms)
  end.

(** ** The file *)
(** Components get the identifiers 1, 2, ... and quantisation tables of their own. *)
Fixpoint enc_comps (i : Z) (fs : list (Z * Z)) : list comp_spec :=
  match fs with [] => [] | (h, v) :: r => mkCS (i + 1) h v i :: enc_comps (i + 1) r end.
Fixpoint enc_dqts (i : Z) (qs : list (list Z)) : list dqt_spec :=
  match qs with [] => [] | q :: r => mkDqt 1 i q :: enc_dqts (i + 1) r end.
Definition enc_header (im : image) : frame_header := mkFH 0 8 (im_lines im) (im_samples im) (enc_comps 0 (im_factors im)).
Definition enc_segs (im : image) : list (nat * hseg) :=
  [(0%nat, HDqt (enc_dqts 0 (im_quant im))); (0%nat, HSof (enc_header im)); (0%nat, HDht [enc_dc; enc_ac]); (0%nat, HDri (im_restart im))] ++
  match im_transform im with Some t => [(0%nat, HAdobe 100 [0; 0; 0; 0] t)] | None => [] end.
Definition enc_ss (im : image) : list scan_comp := map (fun c => mkSC (cs_id c) 0 0) (enc_comps 0 (im_factors im)).
Definition enc_data (im : image) : list Z := enc_scan (S (length (im_mcus im))) (length (im_factors im)) (im_restart im) 0 (im_mcus im).
Definition encode (im : image) : list Z := file_bytes (enc_segs im) 0 0 (mkSpS (enc_ss im) 0 63 0 0) (enc_data im) [] 0.

(** ** Which images *)
(** One to four components, ten blocks per MCU (B.2.3); 16-bit quantisation values; DC values
    of eleven bits and AC values of sixteen (T.81: of at most eleven). *)
Definition q_ok (q : qblock) : Prop := -1024 <= q_dc q <= 1023 /\ length (q_ac q) = 63%nat /\ Forall (fun v => -32767 <= v <= 32767) (q_ac q).
Record image_ok (im : image) : Prop := mkImageOk {
  io_lines : 0 <= im_lines im < 65536;
  io_samples : 0 <= im_samples im < 65536;
  io_comps : 1 <= lenZ (im_factors im) <= 4;
  io_factors : Forall (fun f => 1 <= fst f <= 4 /\ 1 <= snd f <= 4) (im_factors im);
  io_ten : fold_right (fun f n => fst f * snd f + n) 0 (im_factors im) <= 10;
  io_tables : length (im_quant im) = length (im_factors im);
  io_quant : Forall (fun q => length q = 64%nat /\ Forall (fun v => 0 <= v < 65536) q) (im_quant im);
  io_shape : Forall (fun m => Forall2 (fun f qs => lenZ qs = fst f * snd f) (im_factors im) m) (im_mcus im);
  io_coefs : Forall (Forall (Forall q_ok)) (im_mcus im);
  io_count : lenZ (im_mcus im) = mcus (im_lines im) (largest (map snd (im_factors im))) * mcus (im_samples im) (largest (map fst (im_factors im)));
  io_transform : match im_transform im with Some t => 0 <= t <= 2 | None => True end;
  io_restart : 0 <= im_restart im < 65536;
}.
