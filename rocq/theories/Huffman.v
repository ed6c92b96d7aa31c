(** Model of src/huffman.rs. *)
From Verif Require Import Base Biterator.

(** huffman.rs:8-22 [TableClass], [TableClass::new]. *)
Inductive table_class := DC | AC.
Definition table_class_new (b : Z) : option table_class :=
  if b =? 0 then Some DC else if b =? 1 then Some AC else None.

(** huffman.rs:24. *)
Definition LUT_BITS : Z := 8.

(** huffman.rs:26-31 [BaseTable]. *)
Record base_table := mkTable {
  t_values : list Z;         (* [u8; 256] *)
  t_max_code : list Z;       (* [i32; 16] *)
  t_val_offset : list Z;     (* [i32; 16] *)
  t_lut : list (Z * Z);      (* [(u8, u8); 256]: (value, size) *)
}.

(** huffman.rs:224-234 [huffsize]: one entry per code, the code's length.
    [l] is the index of the first element of [bits]. *)
Fixpoint huffsize_from (l : Z) (bits : list Z) (acc : list Z) : out (list Z) :=
  match bits with
  | [] => Ok acc
  | v :: r =>
      if 256 <? lenZ acc + v then Fail EHuffsize
      else huffsize_from (l + 1) r (acc ++ repeat (l + 1) (Z.to_nat v))
  end.
Definition huffsize (bits : list Z) : out (list Z) := huffsize_from 0 bits [].

(** huffman.rs:73-76: [while code_size < size { code <<= 1; code_size += 1 }]. *)
Fixpoint shift_code (n : nat) (code : Z) : Z :=
  match n with O => code | S m => shift_code m (wrap 32 (Z.shiftl code 1)) end.

(** huffman.rs:72-85: assign canonical codes.  Sizes come in increasing order, so
    [code_size] is the current element's size after the inner loop.  [code += 1] is a
    u32 addition and cannot overflow because code < 2^16 here; the model adds exactly. *)
Fixpoint assign_codes (sizes : list Z) (code code_size : Z) : out (list Z) :=
  match sizes with
  | [] => Ok []
  | size :: r =>
      let code := shift_code (Z.to_nat (size - code_size)) code in
      let code_size := Z.max code_size size in
      if 2 ^ code_size <=? code then Fail EHuffCode
      else
        let* cs := assign_codes r (code + 1) code_size in
        Ok (wrap 16 code :: cs)
  end.

(** huffman.rs:90-99: val_offset and max_code per length; [huffcode] is the array of
    256 codes (zero beyond the assigned ones).  Returns (val_offset, max_code). *)
Fixpoint offsets (bits : list Z) (huffcode : list Z) (p : Z) : out (list Z * list Z) :=
  match bits with
  | [] => Ok ([], [])
  | n :: r =>
      if n =? 0 then
        let* (vo, mc) := offsets r huffcode p in Ok (0 :: vo, -1 :: mc)
      else
        let* c0 := index huffcode p in
        let p' := p + n in
        let* c1 := index huffcode (p' - 1) in
        let* (vo, mc) := offsets r huffcode p' in
        Ok ((p - c0) :: vo, c1 :: mc)
  end.

(** huffman.rs:111-113: [for slot in &mut table.lut[start..start + n] { *slot = v }]. *)
Definition fill_slots {A} (xs : list A) (start n : Z) (v : A) : out (list A) :=
  if (0 <=? start) && (start + n <=? lenZ xs) then
    Ok (firstn (Z.to_nat start) xs ++ repeat v (Z.to_nat n)
        ++ skipn (Z.to_nat (start + n)) xs)
  else Panic PIndex.

(** huffman.rs:102-114: one round per code of size <= LUT_BITS, in order of [i].
    [huffcode[i] << bits_remaining] is a u16 shift. *)
Fixpoint build_lut (i : Z) (sizes : list Z) (huffcode values : list Z)
         (lut : list (Z * Z)) : out (list (Z * Z)) :=
  match sizes with
  | [] => Ok lut
  | size :: r =>
      if size <=? LUT_BITS then
        let remaining := LUT_BITS - size in
        let* c := index huffcode i in
        let start := wrap 16 (Z.shiftl c remaining) in
        let* v := index values i in
        let* lut := fill_slots lut start (2 ^ remaining) (v, size) in
        build_lut (i + 1) r huffcode values lut
      else build_lut (i + 1) r huffcode values lut
  end.

Definition pad_to {A} (n : nat) (d : A) (xs : list A) : list A :=
  firstn n (xs ++ repeat d n).

(** huffman.rs:61-117 [BaseTable::new]. *)
Definition table_new (dbg : bool) (bits values : list Z) : out base_table :=
  let* _ := debug_assert dbg (lenZ values <=? 256) in            (* l.63 *)
  let* sizes := huffsize bits in                                 (* l.65 *)
  let* size0 := index sizes 0 in                                 (* l.70 *)
  let* codes := assign_codes sizes 0 size0 in                    (* l.68-85 *)
  let huffcode := pad_to 256 0 codes in
  let* _ := assert_ (lenZ values <=? 256) PIndex in              (* l.88 *)
  let* (vo, mc) := offsets bits huffcode 0 in                    (* l.90-99 *)
  let* lut := build_lut 0 sizes huffcode values (repeat (0, 0) 256) in
  Ok (mkTable (pad_to 256 0 values) mc vo lut).

(** huffman.rs:149-158: the search over code lengths [i + 1] for [i] in 8..16.
    [n] counts the remaining candidates.  [bits >> (15 - i)] is a u16 shift;
    [(code + val_offset) as usize] of a negative i32 is a huge index. *)
Fixpoint search_code (dbg : bool) (t : base_table) (b : biter) (bits : Z)
         (n : nat) (i : Z) : bitres Z :=
  match n with
  | O => Ok (None, b)                                            (* l.159 *)
  | S m =>
      let code := Z.shiftr bits (15 - i) in
      let* mc := index (t_max_code t) i in
      if code <=? mc then
        let* b := consume_bits dbg b (i + 1) in
        let* vo := index (t_val_offset t) i in
        let* v := index (t_values t) (code + vo) in
        Ok (Some v, b)
      else search_code dbg t b bits m (i + 1)
  end.

(** huffman.rs:135-161 [decode_inner]. *)
Definition decode_inner (dbg : bool) (t : base_table) (b : biter) (lut_peek : Z) : bitres Z :=
  let* (value, size) := index (t_lut t) lut_peek in
  if 0 <? size then
    let* b := consume_bits dbg b size in Ok (Some value, b)
  else
    let* bits := peek_bits dbg b 16 in
    search_code dbg t b bits 8 LUT_BITS.

(** huffman.rs:126-128 and 200-204: refill when fewer than 16 bits are buffered. *)
Definition ensure16 (b : biter) : bool * biter :=
  if bi_count b <? 16 then fill_bits b else (true, b).

(** huffman.rs:120-132 [BaseTable::decode]. *)
Definition table_decode (dbg : bool) (t : base_table) (b : biter) : bitres Z :=
  let '(ok, b) := ensure16 b in
  if ok then
    let* peek := peek_bits_u8 dbg b LUT_BITS in
    decode_inner dbg t b peek
  else Ok (None, b).

(** huffman.rs:46-49 [AcTable]. *)
Record ac_table := mkAc { ac_table_base : base_table; ac_lut : list (Z * Z) }.

(** huffman.rs:176-188: one entry of the combined table for the 8-bit window [i]. *)
Definition ac_entry (i : Z) (vs : Z * Z) : Z * Z :=
  let '(value, size) := vs in
  let run := Z.shiftr value 4 in
  let mag := Z.land value 15 in
  if (0 <? mag) && (size + mag <=? LUT_BITS) then
    let u := wrap 16 (Z.shiftr (Z.land (Z.shiftl i size) (2 ^ LUT_BITS - 1)) (LUT_BITS - mag)) in
    (extend u mag, Z.lor (wrap 8 (Z.shiftl run 4)) (size + mag))
  else (0, 0).

Fixpoint ac_entries (i : Z) (lut : list (Z * Z)) : list (Z * Z) :=
  match lut with
  | [] => []
  | vs :: r => ac_entry i vs :: ac_entries (i + 1) r
  end.

(** huffman.rs:171-191 [AcTable::new]. *)
Definition ac_new (dbg : bool) (bits values : list Z) : out ac_table :=
  let* t := table_new dbg bits values in
  Ok (mkAc t (ac_entries 0 (t_lut t))).

(** huffman.rs:164-168 [AcResult]. *)
Inductive ac_result := AFast (value run : Z) | ANormal (byte : Z) | AErr.

(** huffman.rs:194-221 [decode_fast_ac]. *)
Definition decode_fast_ac (dbg : bool) (t : ac_table) (b : biter) : out (ac_result * biter) :=
  let '(ok, b) := ensure16 b in
  if ok then
    let* peek := peek_bits_u8 dbg b LUT_BITS in
    let* (value, run_size) := index (ac_lut t) peek in
    if negb (run_size =? 0) then
      let run := Z.shiftr run_size 4 in
      let size := Z.land run_size 15 in
      let* b := consume_bits dbg b size in
      Ok (AFast value run, b)
    else
      let* (r, b) := decode_inner dbg (ac_table_base t) b peek in
      match r with
      | Some byte => Ok (ANormal byte, b)
      | None => Ok (AErr, b)
      end
  else Ok (AErr, b).
