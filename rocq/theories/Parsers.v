(** Model of the segment parsers of src/lib.rs.  A parser takes the remaining bytes and
    returns a value and the rest; running out of bytes is [Fail EEof]. *)
From Verif Require Import Base F32 Huffman Color Types.

(** combine [any()]. *)
Definition p_any (i : list Z) : out (Z * list Z) :=
  match i with [] => Fail EEof | b :: r => Ok (b, r) end.

(** combine [be_u16()]. *)
Definition p_u16 (i : list Z) : out (Z * list Z) :=
  match i with a :: b :: r => Ok (256 * a + b, r) | _ => Fail EEof end.

(** combine [take(n)]. *)
Definition p_take (n : Z) (i : list Z) : out (list Z * list Z) :=
  if n <=? lenZ i then Ok (firstn (Z.to_nat n) i, skipn (Z.to_nat n) i) else Fail EEof.

(** combine [count_min_max(n, n, p)]. *)
Fixpoint p_count {A} (n : nat) (p : list Z -> out (A * list Z)) (i : list Z)
  : out (list A * list Z) :=
  match n with
  | O => Ok ([], i)
  | S m =>
      let* (x, i) := p i in
      let* (xs, i) := p_count m p i in
      Ok (x :: xs, i)
  end.

(** lib.rs:117-123 [split_4_bit]. *)
Definition split_4_bit (i : list Z) : out (Z * Z * list Z) :=
  let* (b, i) := p_any i in Ok (Z.shiftr b 4, Z.land b 15, i).

(** ** Frame header (lib.rs:240-365) *)
(** lib.rs:240-254 [check_sampling_factor]. *)
Definition check_sampling_factor (s : Z) : out unit :=
  if (s =? 0) || (4 <? s) then Fail ESampling else Ok tt.

(** lib.rs:261-296: one component record; the computed fields are filled in later. *)
Definition sof_component (i : list Z) : out (component * list Z) :=
  let* (id, i) := p_any i in
  let* (h, v, i) := split_4_bit i in
  let* _ := check_sampling_factor h in
  let* _ := check_sampling_factor v in
  let* (tq, i) := p_any i in
  Ok (mkComponent id h v tq (h * v) 0 (mkDims (h * 8) (v * 8)) 0 (mkDims 0 0) (mkDims 0 0), i).

(** lib.rs:323-326: MCU counts, in f32. *)
Definition mcu_count (len f_max : Z) : Z :=
  f32_ceil_u16 (f32_div (f32_of_Z len) (f32_mul (f32_of_Z f_max) (f32_of_Z 8))).

(** lib.rs:329-336: component sizes, in f32. *)
Definition comp_len (len f f_max : Z) : Z :=
  f32_ceil_u16 (f32_mul (f32_of_Z len) (f32_div (f32_of_Z f) (f32_of_Z f_max))).

(** u16 multiplication of l.338-341. *)
Definition umul16 (dbg : bool) (a b : Z) : out Z :=
  if 65536 <=? a * b then (if dbg then Panic POverflow else Ok (wrap 16 (a * b)))
  else Ok (a * b).

(** lib.rs:328-349: the computed fields of one component. *)
Definition fill_component (dbg : bool) (lines samples h_max v_max : Z) (mcu : dims)
           (c : component) : out component :=
  let* bw := umul16 dbg (dim_w mcu) (c_h c) in
  let* bh := umul16 dbg (dim_h mcu) (c_v c) in
  Ok (mkComponent (c_id c) (c_h c) (c_v c) (c_tq c) (c_blocks_per_mcu c)
        (bw * 8) (c_mcu_sample_size c)
        (c_blocks_per_mcu c * 64 * dim_w mcu)
        (mkDims bw bh)
        (mkDims (comp_len samples (c_h c) h_max) (comp_len lines (c_v c) v_max))).

(** lib.rs:256-365 [sof]. *)
Definition sof (dbg : bool) (marker_index : Z) (i : list Z) : out (frame * list Z) :=
  let* (precision, i) := p_any i in
  let* (lines, i) := p_u16 i in
  let* (samples, i) := p_u16 i in
  let* (n, i) := p_any i in
  let* (cs, i) := p_count (Z.to_nat n) sof_component i in
  let* h_max := max_unwrap (map c_h cs) in
  let* v_max := max_unwrap (map c_v cs) in
  let mcu := mkDims (mcu_count samples h_max) (mcu_count lines v_max) in
  let* cs := mapM (fill_component dbg lines samples h_max v_max mcu) cs in
  Ok (mkFrame marker_index precision lines samples mcu cs, i).

(** ** Huffman tables (lib.rs:367-414) *)
Definition sumZ (xs : list Z) : Z := fold_right Z.add 0 xs.

Definition huffman_table (i : list Z) : out (table_class * Z * list Z * list Z * list Z) :=
  let* (tc, th, i) := split_4_bit i in
  match table_class_new tc with
  | None => Fail EDhtClass
  | Some c =>
      if th <? 4 then
        let* (lengths, i) := p_take 16 i in
        let* (values, i) := p_take (sumZ lengths) i in
        Ok (c, th, lengths, values, i)
      else Fail EDhtDest
  end.

(** lib.rs:1523-1535: storing one parsed table.  A rejected table leaves the decoder alone. *)
Definition store_huffman (dbg : bool) (d : decoder) (c : table_class) (th : Z)
           (lengths values : list Z) : out decoder :=
  match c with
  | AC => let* t := ac_new dbg lengths values in
          let* l := store (d_ac d) th (Some t) in Ok (set_ac d l)
  | DC => let* t := table_new dbg lengths values in
          let* l := store (d_dc d) th (Some t) in Ok (set_dc d l)
  end.

(** ** Quantisation tables (lib.rs:442-550) *)
(** lib.rs:442-446 [UNZIGZAG]. *)
Definition UNZIGZAG : list Z :=
  [ 0; 1; 8; 16; 9; 2; 3; 10; 17; 24; 32; 25; 18; 11; 4; 5; 12; 19; 26; 33; 40; 48; 41; 34;
    27; 20; 13; 6; 7; 14; 21; 28; 35; 42; 49; 56; 57; 50; 43; 36; 29; 22; 15; 23; 30; 37; 44;
    51; 58; 59; 52; 45; 38; 31; 39; 46; 53; 60; 61; 54; 47; 55; 62; 63 ].

(** lib.rs:448-453 [unzigzag]: checked index into UNZIGZAG, unchecked store. *)
Definition unzigzag (out_ : list Z) (i v : Z) : out (list Z) :=
  let* z := index UNZIGZAG i in store_unchecked out_ z v.

(** lib.rs:457-467 [QuantizationTable::new]. *)
Fixpoint quant_loop (j : Z) (vals : list Z) (acc : list Z) : out (list Z) :=
  match vals with
  | [] => Ok acc
  | v :: r => let* acc := unzigzag acc j v in quant_loop (j + 1) r acc
  end.
Definition quantization_table_new (table : list Z) : out (list Z) :=
  quant_loop 0 table (repeat 0 64).

(** lib.rs:513-550 [dqt]: (identifier, 64 values). *)
Definition dqt (i : list Z) : out (Z * list Z * list Z) :=
  let* (pq, tq, i) := split_4_bit i in
  if 1 <? pq then Fail EDqtPrecision
  else if tq <? 4 then
    if pq =? 0 then
      let* (t, i) := p_count 64 p_any i in Ok (tq, t, i)
    else
      let* (t, i) := p_count 64 p_u16 i in Ok (tq, t, i)
  else Fail EDqtDest.

(** ** Scan header (lib.rs:576-669) *)
Fixpoint position (id : Z) (cs : list component) (k : Z) : option Z :=
  match cs with
  | [] => None
  | c :: r => if c_id c =? id then Some k else position id r (k + 1)
  end.

(** lib.rs:599-648: the headers, with the running [max_index]. *)
Fixpoint sos_headers (f : option frame) (n : nat) (max_index : option Z) (i : list Z)
  : out (list scan_header * list Z) :=
  match n with
  | O => Ok ([], i)
  | S m =>
      let* (id, i) := p_any i in
      let* (dc, ac, i) := split_4_bit i in
      match f with
      | None => Fail ESosNoFrame
      | Some fr =>
          match position id (f_components fr) 0 with
          | None => Fail ESosComponent
          | Some k =>
              let k := wrap 8 k in
              let* _ :=
                match max_index with
                | None => Ok tt
                | Some mx => if k <? mx then Fail ESosOrder
                             else if k =? mx then Fail ESosDuplicate else Ok tt
                end in
              let* (hs, i) := sos_headers f m (Some k) i in
              Ok (mkHeader k dc ac :: hs, i)
          end
      end
  end.

Definition sos_segment (f : option frame) (i : list Z) : out (scan * list Z) :=
  let* (n, i) := p_any i in
  if (1 <=? n) && (n <=? 4) then
    let* (hs, i) := sos_headers f (Z.to_nat n) None i in
    let* (ss, i) := p_any i in
    let* (se, i) := p_any i in
    let* (ah, al, i) := split_4_bit i in
    Ok (mkScan hs ss se ah al, i)
  else Fail ESosCount.

(** ** APP14 (lib.rs:824-842): the bytes of "Adobe\0", five bytes, the transform. *)
Definition ADOBE : list Z := [65; 100; 111; 98; 101; 0].
Definition app_adobe (i : list Z) : out (adobe * list Z) :=
  let* (tag, i) := p_take 6 i in
  if list_eq_dec Z.eq_dec tag ADOBE then
    let* (_, i) := p_take 5 i in
    let* (t, i) := p_any i in
    if t =? 0 then Ok (AdobeUnknown, i)
    else if t =? 1 then Ok (AdobeYCbCr, i)
    else if t =? 2 then Ok (AdobeYCCK, i)
    else Fail EAdobe
  else Fail EAdobe.

(** ** Segments (lib.rs:133-165) *)
(** The payload of the segment and the input after it: [be_u16] then [take(len - 2)],
    where [len - 2] is a u16 subtraction. *)
Definition segment_data (dbg : bool) (i : list Z) : out (list Z * list Z) :=
  let* (len, i) := p_u16 i in
  let* n := usub dbg 16 len 2 in
  p_take n i.

(** lib.rs:1522-1536: [repeat_skip_until(huffman_table()..., eof())] on the payload.  Every
    round consumes at least a byte, so the payload length bounds the rounds.  The decoder
    is returned also on failure: tables stored before the failing one stay. *)
Fixpoint seg_dht (dbg : bool) (fuel : nat) (d : decoder) (i : list Z) : decoder * out unit :=
  match i with
  | [] => (d, Ok tt)
  | _ =>
      match fuel with
      | O => (d, Panic PFuel)
      | S n =>
          match huffman_table i with
          | Ok (c, th, lengths, values, i') =>
              match store_huffman dbg d c th lengths values with
              | Ok d' => seg_dht dbg n d' i'
              | Fail e => (d, Fail e)
              | Panic p => (d, Panic p)
              | UB => (d, UB)
              end
          | Fail e => (d, Fail e)
          | Panic p => (d, Panic p)
          | UB => (d, UB)
          end
      end
  end.

(** lib.rs:1537-1540. *)
Definition store_quant (d : decoder) (tq : Z) (t : list Z) : out decoder :=
  let* q := quantization_table_new t in
  let* l := store (d_qt d) tq (Some q) in
  Ok (set_qt d l).
Fixpoint seg_dqt (fuel : nat) (d : decoder) (i : list Z) : decoder * out unit :=
  match i with
  | [] => (d, Ok tt)
  | _ =>
      match fuel with
      | O => (d, Panic PFuel)
      | S n =>
          match dqt i with
          | Ok (tq, t, i') =>
              match store_quant d tq t with
              | Ok d' => seg_dqt n d' i'
              | Fail e => (d, Fail e)
              | Panic p => (d, Panic p)
              | UB => (d, UB)
              end
          | Fail e => (d, Fail e)
          | Panic p => (d, Panic p)
          | UB => (d, UB)
          end
      end
  end.
